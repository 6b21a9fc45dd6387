(** Concrete component types, registries and histories, used to show that the
    hypotheses of the theorems are met by non-trivial cases, and as the
    counterexamples of false claims. *)
From Verif Require Import RegModel DescrProofs ArchProofs ArchOps RegProofs RegOps Refine SpecBase SpecWorld.
Local Open Scope N_scope.

(** Release and debug build, little-endian. *)
Definition release : cfg := Cfg false false.
Definition debug : cfg := Cfg true false.
(** Some component types of four bytes and their values. *)
Definition ty (i : N) : ctype := CType i i 4 4.
Definition vl (c : ctype) (tok : Z) : value := Value (ct_ty c) tok false.
Definition bomb (c : ctype) (tok : Z) : value := Value (ct_ty c) tok true.
Definition tA := ty 1. Definition tB := ty 2. Definition tC := ty 3.
(** Starting registry whose allocator answers as listed, then always succeeds. *)
Definition reg_with (oracle : list bool) : reg := Reg er_default areg_default (Env [] oracle).
(** Only what the calls returned. *)
Definition returns (c : cfg) (ops : list op) : option (list output) :=
  match run c ops reg_default with Ret l _ => Some l | _ => None end.
Definition panics {A} (r : res reg A) : bool := match r with Panic _ => true | _ => false end.
Definition is_ub {A} (r : res reg A) : bool := match r with UB => true | _ => false end.

Global Instance event_eq_dec : EqDecision event.
Proof. solve_decision. Defined.

(** ** A universe is collision free if all its component sets are checked *)
Fixpoint subs (l : list N) : list (list N) :=
  match l with [] => [[]] | x :: l' => map (cons x) (subs l') ++ subs l' end.
Lemma elem_subs k l : k `sublist_of` l -> k ∈ subs l.
Proof.
  intros H. induction H as [|x k l H IH|x k l H IH]; cbn [subs].
  - left.
  - apply elem_of_app. left. change (map (cons x) ?l) with (cons x <$> l). apply elem_of_list_fmap. by exists k.
  - apply elem_of_app. by right.
Qed.
Definition clash (p q : list N * (N * N)) : bool :=
  let same x y := (x =? y) && negb (x =? 4294967295) in
  same p.2.1 q.2.1 || same p.2.1 q.2.2 || same p.2.2 q.2.1 || same p.2.2 q.2.2.
Definition no_collisions (be : bool) (l : list N) : bool :=
  let all := map (fun k => (k, (tuple_archetype_id be k, derived_archetype_id be k))) (subs l) in
  forallb (fun p => forallb (fun q =>
    negb (clash p q) || negb (length p.1 =? length q.1)%nat || bool_decide (p.1 = q.1) || (length p.1 =? 0)%nat) all) all.
Lemma no_collisions_ok {Fm : family} be U : no_collisions be (ids_of U) = true -> collision_free be U.
Proof.
  intros H l1 l2 x H1 H2 Hl Hlen Hx A1 A2. unfold no_collisions in H.
  set (g := fun k => (k, (tuple_archetype_id be k, derived_archetype_id be k))) in H.
  assert (Hin : forall k, k `sublist_of` ids_of U -> In (g k) (map g (subs (ids_of U)))).
  { intros k Hk. apply in_map. apply elem_of_list_In. by apply elem_subs. }
  rewrite forallb_forall in H. specialize (H _ (Hin _ H1)). rewrite forallb_forall in H. specialize (H _ (Hin _ H2)).
  cbn [fst snd g] in H. rewrite !orb_true_iff, !negb_true_iff in H. destruct H as [[[H|H]|H]|H].
  - unfold clash in H. cbn [fst snd g] in H. apply N.eqb_neq in Hx. rewrite !orb_false_iff in H. destruct H as (((E1&E2)&E3)&E4).
    destruct A1 as [_ A1], A2 as [_ A2]. destruct A1, A2; subst x; rewrite ?Hx, ?andb_true_r, ?N.eqb_neq in *; congruence.
  - apply Nat.eqb_neq in H. lia.
  - by apply bool_decide_eq_true in H.
  - apply Nat.eqb_eq in H. lia.
Qed.
Definition strictb (l : list N) : bool := forallb (fun p => (p.1 <? p.2)) (zip l (drop 1 l)).
Lemma strictb_ok l : strictb l = true -> strict l.
Proof.
  intros H. apply Sorted_StronglySorted; [intros ? ? ?; lia|]. induction l as [|x l IH]; constructor.
  - apply IH. unfold strictb in *. destruct l as [|y l]; [done|]. cbn in H. apply andb_true_iff in H as [_ H]. exact H.
  - destruct l as [|y l]; constructor. cbn in H. apply andb_true_iff in H as [H _]. by apply N.ltb_lt.
Qed.
Definition smallb (c : ctype) : bool := (0 <? ct_size c) && (ct_size c <? 65536) && (ct_align c <? 65536) && is_pow2 (ct_align c).
Lemma smallb_ok c : smallb c = true -> small c.
Proof.
  unfold smallb, is_pow2. rewrite !andb_true_iff, !N.ltb_lt, N.eqb_eq. intros [[[H1 H2] H3] H4]. split; [lia|]. split; [lia|]. by eexists.
Qed.
Definition universeb (be : bool) (U : list ctype) : bool :=
  strictb (ids_of U) && forallb smallb U && no_collisions be (ids_of U).
Lemma universeb_ok {Fm : family} be U : universeb be U = true -> universe be U.
Proof.
  intros [[H1 H2]%andb_true_iff H3]%andb_true_iff. split; [by apply strictb_ok|]. split; [|by apply no_collisions_ok].
  apply Forall_forall. intros C HC. rewrite forallb_forall in H2. specialize (H2 C (proj1 (elem_of_list_In _ _) HC)).
  by apply smallb_ok.
Qed.

(** ** Histories *)
Section play.
  Context {Fm : family} (c : cfg) (U : list ctype).
  (** The calls are all within the contract and return. *)
  Fixpoint permits (ops : list op) (r : reg) (w : gmap N ent) : Prop :=
    match ops with
    | [] => True
    | o :: ops' => contract (big c) U w o /\
        match step c o r with Ret out r' => permits ops' r' (ledger (big c) U w o out) | _ => False end
    end.
  Lemma permits_cons o ops r w out r' w' : contract (big c) U w o -> step c o r = Ret out r' -> ledger (big c) U w o out = w' ->
    permits ops r' w' -> permits (o :: ops) r w.
  Proof. intros Hc E <- H. cbn. rewrite E. done. Qed.
  Fixpoint after (ops : list op) (r : reg) (w : gmap N ent) (I O : list value) : reg * gmap N ent * list value * list value :=
    match ops with
    | [] => (r, w, I, O)
    | o :: ops' =>
        match step c o r with
        | Ret out r' => after ops' r' (ledger (big c) U w o out) (I ++ ins o out) (O ++ outs o out)
        | _ => (r, w, I, O)
        end
    end.
  Lemma after_history ops r w I O r' w' I' O' : history c U r w I O -> permits ops r w ->
    after ops r w I O = (r', w', I', O') -> history c U r' w' I' O'.
  Proof.
    revert r w I O. induction ops as [|o ops IH]; intros r w I O Hh Hp E; cbn in *.
    - by injection E as <- <- <- <-.
    - destruct Hp as [Hc Hp]. destruct (step c o r) as [out r1| |] eqn:Es; [|done..]. eapply IH; [|exact Hp|exact E]. by eapply h_call.
  Qed.
End play.
Lemma room_small {Fm : family} U (w : gmap N ent) aid l :
  N.of_nat (size w) <? 8388608 = true -> ((1 <= length l <= 14)%nat -> occurs aid l) -> room U w aid l.
Proof.
  intros H%N.ltb_lt Ho. split; [done|]. unfold crowd. eapply N.le_lt_trans; [|exact H]. unfold size, map_size.
  assert (Hs : forall a b : nat, (a <= b)%nat -> N.of_nat a <= N.of_nat b) by lia. apply Hs.
  apply submseteq_length, map_to_list_submseteq. apply map_filter_subseteq.
Qed.
Lemma gvalid_dec c G : gd_is_valid (group_desc (big c) G) = true -> gvalid (big c) G.
Proof. apply gvalid_iff. Qed.


Lemma all_calm_dec (w : gmap N ent) :
  forallb (fun p : N * ent => forallb (fun q : N * value => negb (v_bomb q.2)) (map_to_list (en_vals p.2))) (map_to_list w) = true -> all_calm w.
Proof.
  intros H h e He x v Hv. rewrite forallb_forall in H.
  assert (H1 := H (h, e) (proj1 (elem_of_list_In _ _) (proj2 (elem_of_map_to_list _ _ _) He))). cbn [snd] in H1. rewrite forallb_forall in H1.
  apply negb_true_iff, (H1 (x, v)), elem_of_list_In, elem_of_map_to_list, Hv.
Qed.
(** A test for the archetypes that a program uses; none is needed for [every]. *)
Class fam_check (Fm : family) := {
  fam_test : option (N -> list N -> bool);
  fam_test_ok x l : match fam_test with None => True | Some f => f x l = true end -> occurs x l;
}.
#[export] Instance every_check : fam_check every := {| fam_test := None; fam_test_ok := fun _ _ _ => I |}.
#[export] Instance listed_check L : fam_check (listed L) :=
  {| fam_test := Some (fun x l => bool_decide ((x, l) ∈ L)); fam_test_ok := fun x l => proj1 (bool_decide_eq_true _) |}.
(** The examples use all archetypes, unless they say otherwise. *)
#[export] Existing Instance every | 10.

(** A boolean test for the contract (false for calls with closures). *)
Section checks.
  Context {Fm : family} {Ck : fam_check Fm} (c : cfg) (U : list ctype).
  Definition in_Ub (G : group) : bool := forallb (fun C => bool_decide (C ∈ U)) G.
  Definition fitsb (C : ctype) (v : value) : bool := v_ty v =? ct_ty C.
  Definition fits_allb (G : group) (vs : list value) : bool :=
    (length G =? length vs)%nat && forallb (fun p => fitsb p.1 p.2) (zip G vs).
  Definition roomb (w : gmap N ent) : bool := N.of_nat (size w) <? 8388608.
  Definition validb (G : group) : bool := gd_is_valid (group_desc (big c) G).
  Definition fullb (G : group) (m : gmap N value) : bool :=
    bool_decide (NoDup (ids_of G)) && (size m =? length G)%nat && forallb (fun C => bool_decide (is_Some (m !! ct_id C))) G.
  Definition usesb (e : ent) : bool :=
    match fam_test with
    | None => true
    | Some f => match ids_of (types U (en_vals e)) with [] => true | l => f (en_aid e) l end
    end.
  Definition knownb (G : group) : bool :=
    match fam_test with
    | None => true
    | Some f => let l := ids_of (filter (fun C => ct_id C ∈ ids_of G) U) in f (tuple_archetype_id (big c) l) l
    end.
  Lemma usesb_ok e : usesb e = true -> (1 <= length (ids_of (types U (en_vals e))))%nat -> occurs (en_aid e) (ids_of (types U (en_vals e))).
  Proof.
    unfold usesb. intros H Hl. apply fam_test_ok. destruct fam_test as [f|]; [|done].
    destruct (ids_of (types U (en_vals e))); [cbn in Hl; lia|done].
  Qed.
  Lemma knownb_ok G : knownb G = true -> known (big c) U G.
  Proof. unfold knownb, known. intros H. apply fam_test_ok. by destruct fam_test. Qed.
  Definition contractb (w : gmap N ent) (o : op) : bool :=
    match o with
    | OpCreate G vs => in_Ub G && fits_allb G vs && roomb w && usesb (created (big c) U G vs)
    | OpDestroy h => match w !! h with Some e => forallb (fun p : N * value => negb (v_bomb p.2)) (map_to_list (en_vals e)) | None => true end
    | OpRemoveEntity G h => in_Ub G && match w !! h with Some e => validb G && fullb G (en_vals e) | None => true end
    | OpHas C h | OpGet C h => bool_decide (C ∈ U)
    | OpHasAll G h | OpGetAll G h => in_Ub G && validb G
    | OpSet C h v => bool_decide (C ∈ U) && fitsb C v
    | OpSetAll G h vs => in_Ub G && validb G && fits_allb G vs
    | OpAdd C h v => bool_decide (C ∈ U) && fitsb C v && roomb w && match w !! h with Some e => negb (size (en_vals e) =? 13)%nat && usesb (derived (big c) U (<[ct_id C := v]> (en_vals e))) | None => true end
    | OpRemove C h => bool_decide (C ∈ U) && roomb w && match w !! h with Some e => negb (size (en_vals e) =? 14)%nat && usesb (derived (big c) U (delete (ct_id C) (en_vals e))) | None => true end
    | OpIterEntities => true
    | OpIter G | OpIterE G => in_Ub G && validb G
    | OpExact G | OpExactE G => in_Ub G && validb G && knownb G
    | _ => false
    end.
  Lemma in_Ub_ok G : in_Ub G = true -> in_U U G.
  Proof. intros H. unfold in_Ub in H. rewrite forallb_forall in H. apply Forall_forall. intros C HC%elem_of_list_In. by apply H, bool_decide_eq_true in HC. Qed.
  Lemma fitsb_ok C v : fitsb C v = true -> fits C v.
  Proof. apply N.eqb_eq. Qed.
  Lemma fits_allb_ok G vs : fits_allb G vs = true -> Forall2 fits G vs.
  Proof.
    intros [Hl H]%andb_true_iff. apply Nat.eqb_eq in Hl. revert vs Hl H. induction G as [|C G IH]; intros [|v vs] Hl H; try done; constructor; cbn in *.
    - apply andb_true_iff in H as [H _]. by apply fitsb_ok.
    - apply andb_true_iff in H as [_ H]. apply IH; [lia|done].
  Qed.
  Lemma fullb_ok G m : fullb G m = true -> full G m.
  Proof.
    intros [[H1%bool_decide_eq_true H2%Nat.eqb_eq]%andb_true_iff H3]%andb_true_iff. rewrite forallb_forall in H3.
    assert (Hsub : forall x, x ∈ ids_of G -> x ∈ (map_to_list m).*1).
    { intros x (C&HC&<-)%elem_of_ids. apply elem_of_list_In, H3, bool_decide_eq_true in HC as [v Hv].
      apply elem_of_list_fmap. exists (ct_id C, v). split; [done|]. by apply elem_of_map_to_list. }
    assert (Hp : ids_of G ≡ₚ (map_to_list m).*1).
    { apply submseteq_Permutation_length_le; [rewrite fmap_length, map_length; unfold size, map_size in H2; lia|]. by apply NoDup_submseteq. }
    intros x. rewrite Hp, elem_of_list_fmap. split.
    - intros [v Hv]. exists (x, v). split; [done|]. by apply elem_of_map_to_list.
    - intros ([y v]&->&Hy). exists v. by apply elem_of_map_to_list.
  Qed.
  Lemma contractb_ok w o : contractb w o = true -> contract (big c) U w o.
  Proof.
    assert (Hv : forall G, validb G = true -> gvalid (big c) G) by (intros G; apply gvalid_dec).
    assert (Hm : forall C, bool_decide (C ∈ U) = true -> C ∈ U) by (intros C; apply bool_decide_eq_true).
    destruct o; cbn [contractb contract]; intros H; try done; rewrite ?andb_true_iff in H.
    - destruct H as [[[H1 H2] H3] H4]. split; [by apply in_Ub_ok|]. split; [by apply fits_allb_ok|]. intros _. apply room_small; [done|].
      intros [Hl _]. by apply (usesb_ok _ H4).
    - intros e He x v Hxv. rewrite He in H. rewrite forallb_forall in H. apply negb_true_iff, (H (x, v)), elem_of_list_In, elem_of_map_to_list, Hxv.
    - destruct H as [H1 H2]. split; [by apply in_Ub_ok|]. intros e He. rewrite He in H2. apply andb_true_iff in H2 as [H2 H3].
      split; [by apply Hv|by apply fullb_ok].
    - by apply Hm.
    - destruct H as [H1 H2]. split; [by apply in_Ub_ok|by apply Hv].
    - by apply Hm.
    - destruct H as [H1 H2]. split; [by apply in_Ub_ok|by apply Hv].
    - destruct H as [H1 H2]. split; [by apply Hm|by apply fitsb_ok].
    - destruct H as [[H1 H2] H3]. split; [by apply in_Ub_ok|]. split; [by apply Hv|by apply fits_allb_ok].
    - destruct H as [[[H1 H2] H3] H4]. split; [by apply Hm|]. split; [by apply fitsb_ok|]. intros e He _. rewrite He in H4. apply andb_true_iff in H4 as [H4 H5].
      split; [|apply room_small; [done|intros [Hl _]; by apply (usesb_ok _ H5)]]. by apply negb_true_iff, Nat.eqb_neq in H4.
    - destruct H as [[H1 H3] H4]. split; [by apply Hm|]. intros e He _. rewrite He in H4. apply andb_true_iff in H4 as [H4 H5].
      split; [|apply room_small; [done|intros [Hl _]; by apply (usesb_ok _ H5)]]. by apply negb_true_iff, Nat.eqb_neq in H4.
    - destruct H as [H1 H2]. split; [by apply in_Ub_ok|by apply Hv].
    - destruct H as [H1 H2]. split; [by apply in_Ub_ok|by apply Hv].
    - destruct H as [[H1 H2] H3]. split; [by apply in_Ub_ok|]. split; [by apply Hv|by apply knownb_ok].
    - destruct H as [[H1 H2] H3]. split; [by apply in_Ub_ok|]. split; [by apply Hv|by apply knownb_ok].
  Qed.
  Fixpoint permitsb (ops : list op) (r : reg) (w : gmap N ent) : bool :=
    match ops with
    | [] => true
    | o :: ops' => contractb w o &&
        match step c o r with Ret out r' => permitsb ops' r' (ledger (big c) U w o out) | _ => false end
    end.
  Lemma permitsb_ok ops r w : permitsb ops r w = true -> permits c U ops r w.
  Proof.
    revert r w. induction ops as [|o ops IH]; intros r w H; cbn in *; [done|]. apply andb_true_iff in H as [H1 H2].
    split; [by apply contractb_ok|]. destruct (step c o r) as [out r'| |]; [|done..]. by apply IH.
  Qed.
End checks.

(** ** The running example: three components, three live entities (one of them
    changed after its creation), one destroyed. *)
Definition UABC : list ctype := [tA; tB; tC].
Lemma UABC_ok : universe (big release) UABC.
Proof. apply universeb_ok. vm_compute. reflexivity. Qed.
Lemma UABC_ok_debug : universe (big debug) UABC.
Proof. apply universeb_ok. vm_compute. reflexivity. Qed.
Definition demo_ops : list op :=
  [ OpCreate [tB; tA] [vl tB 10; vl tA 11]; OpCreate [tA] [vl tA 20]; OpCreate [tA; tB] [vl tA 30; vl tB 31];
    OpAdd tC 256 (vl tC 21); OpCreate [tC; tB; tA] [vl tC 40; vl tB 41; vl tA 42]; OpDestroy 512 ].
Definition demo (c : cfg) := after c UABC demo_ops reg_default ∅ [] [].
Definition demo_reg (c : cfg) : reg := (demo c).1.1.1.
Definition demo_world (c : cfg) : gmap N ent := (demo c).1.1.2.
Definition demo_in (c : cfg) : list value := (demo c).1.2.
Definition demo_out (c : cfg) : list value := (demo c).2.
Lemma demo_history : history release UABC (demo_reg release) (demo_world release) (demo_in release) (demo_out release).
Proof.
  eapply (after_history release UABC demo_ops reg_default ∅ [] []); [apply h_start| |].
  - apply permitsb_ok. vm_compute. reflexivity.
  - unfold demo_reg, demo_world, demo_in, demo_out, demo. by destruct (after _ _ _ _ _ _ _) as [[[r w] I] O].
Qed.
Lemma demo_history_debug : history debug UABC (demo_reg debug) (demo_world debug) (demo_in debug) (demo_out debug).
Proof.
  eapply (after_history debug UABC demo_ops reg_default ∅ [] []); [apply h_start| |].
  - apply permitsb_ok. vm_compute. reflexivity.
  - unfold demo_reg, demo_world, demo_in, demo_out, demo. by destruct (after _ _ _ _ _ _ _) as [[[r w] I] O].
Qed.
