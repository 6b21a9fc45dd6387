(** Programs that use unambiguous archetypes only (C58), and why collisions
    cannot be avoided in general. *)
From Verif Require Import RegModel Ref Total Instances SpecBase SpecWorld SpecRef SpecTotal SpecUsed.
Local Open Scope nat_scope.

Lemma universe_listed be U L : plain U -> unambiguous L -> @universe (listed L) be U.
Proof.
  intros [Hs Hsm] Hu. split; [done|]. split; [done|]. intros l1 l2 x _ _ Hl _ Hx [H1 _] [H2 _]. by apply (Hu x).
Qed.
Section used.
  Context (be : bool) (U : list ctype).
  Lemma room_listed L w aid l : (aid, l) ∈ L -> @room every U w aid l -> @room (listed L) U w aid l.
  Proof. intros Hin [_ Hr]. by split. Qed.
  Lemma contract_listed L w o : (forall p, p ∈ asks be U w o -> p ∈ L) -> @contract every be U w o -> @contract (listed L) be U w o.
  Proof.
    intros Hin. destruct o; try exact (fun H => H).
    - intros (H1&H2&H3). split; [done|]. split; [done|]. intros Hv. apply room_listed; [|by apply H3]. apply Hin. left.
    - intros (H1&H2&H3). split; [done|]. split; [done|]. intros e He Hn. destruct (H3 e He Hn) as [Hs Hr]. split; [done|].
      apply room_listed; [|done]. apply Hin. cbn [asks]. rewrite He. left.
    - intros (H1&H3). split; [done|]. intros e He Hn. destruct (H3 e He Hn) as [Hs Hr]. split; [done|].
      apply room_listed; [|done]. apply Hin. cbn [asks]. rewrite He. left.
    - intros (H1&H2&_). split; [done|]. split; [done|]. apply Hin. left.
    - intros (H1&H2&_). split; [done|]. split; [done|]. apply Hin. left.
    - intros (H1&H2&_&H3). split; [done|]. split; [done|]. split; [|done]. apply Hin. left.
    - intros (H1&H2&_&H3). split; [done|]. split; [done|]. split; [|done]. apply Hin. left.
  Qed.
  Lemma within_listed L ops b : (forall p, p ∈ asked be U ops b -> p ∈ L) -> @within every be U ops b -> @within (listed L) be U ops b.
  Proof.
    revert b. induction ops as [|o ops IH]; intros b Hin; [done|]. intros [H1 H2]. cbn [asked] in Hin. split.
    - apply contract_listed; [|done]. intros p Hp. apply Hin, elem_of_app. by left.
    - apply IH; [|done]. intros p Hp. apply Hin, elem_of_app. by right.
  Qed.
  Lemma lawful_listed L w o : (forall p, p ∈ asks be U w o -> p ∈ L) -> @lawful every be U w o -> @lawful (listed L) be U w o.
  Proof.
    intros Hin. destruct o; try exact (fun H => H).
    - intros (H1&H2&H3). split; [done|]. split; [done|]. intros Hv. apply room_listed; [|by apply H3]. apply Hin. left.
    - intros (H1&H2&H3). split; [done|]. split; [done|]. intros e He Hn. pose proof (H3 e He Hn) as Hr.
      apply room_listed; [|done]. apply Hin. cbn [asks]. rewrite He. left.
    - intros (H1&H3). split; [done|]. intros e He Hn. pose proof (H3 e He Hn) as Hr.
      apply room_listed; [|done]. apply Hin. cbn [asks]. rewrite He. left.
    - intros (H1&_). split; [done|]. intros _. apply Hin. left.
    - intros (H1&_). split; [done|]. intros _. apply Hin. left.
    - intros (H1&_&H3). split; [done|]. split; [|done]. intros _. apply Hin. left.
    - intros (H1&_&H3). split; [done|]. split; [|done]. intros _. apply Hin. left.
  Qed.
  Lemma lawful_all_listed d L ops b : (forall p, p ∈ asked_any be U d ops b -> p ∈ L) ->
    @lawful_all every d be U ops b -> @lawful_all (listed L) d be U ops b.
  Proof.
    revert b. induction ops as [|o ops IH]; intros b Hin; [done|]. intros [H1 H2]. cbn [asked_any] in Hin. split.
    - apply lawful_listed; [|done]. intros p Hp. apply Hin, elem_of_app. by left.
    - destruct (outcome d be U b o) as [out b1|b1|]; try done; (apply IH; [|done]; intros p Hp; apply Hin, elem_of_app; by right).
  Qed.
End used.

(** Checks for examples. *)
Definition plainb (U : list ctype) : bool := strictb (ids_of U) && forallb smallb U.
Lemma plainb_ok U : plainb U = true -> plain U.
Proof.
  intros [H1 H2]%andb_true_iff. split; [by apply strictb_ok|]. apply Forall_forall. intros C HC.
  rewrite forallb_forall in H2. by apply smallb_ok, H2, elem_of_list_In.
Qed.
Definition unambiguousb (L : list (N * list N)) : bool :=
  forallb (fun p => forallb (fun q => implb ((p.1 =? q.1)%N && (length p.2 =? length q.2) && negb (p.1 =? 4294967295)%N) (bool_decide (p.2 = q.2))) L) L.
Lemma unambiguousb_ok L : unambiguousb L = true -> unambiguous L.
Proof.
  intros H x l1 l2 H1 H2 Hl Hx. unfold unambiguousb in H. rewrite forallb_forall in H.
  specialize (H _ (proj1 (elem_of_list_In _ _) H1)). cbn in H. rewrite forallb_forall in H.
  specialize (H _ (proj1 (elem_of_list_In _ _) H2)). cbn in H.
  rewrite N.eqb_refl, Hl, Nat.eqb_refl, (proj2 (N.eqb_neq _ _) Hx) in H. by apply bool_decide_eq_true in H.
Qed.

(** ** Programs *)
From Verif Require Import ByteReg Bytes7 Events2 Events3 SpecBytes SpecBase SpecWorld SpecRef SpecEvents SpecTotal SpecUsed.
Lemma used_program c U ops : plain U -> @within every (big c) U ops book_empty -> unambiguous (asked (big c) U ops book_empty) ->
  exists r, run c ops reg_default = Ret (ref_run (big c) U ops book_empty).1 r /\
    ev_trace (r_env r) = (run_log (big c) U ops book_empty []).1 /\
    map a_cap (ar_archs (r_ar r)) = (run_log (big c) U ops book_empty []).2.
Proof.
  intros HU Hw Hu. apply (run_requests (Fm := listed (asked (big c) U ops book_empty))); [by apply universe_listed|].
  by apply within_listed.
Qed.
Lemma used_bytes c U place ops : plain U -> laid_out U -> @within every (big c) U ops book_empty -> unambiguous (asked (big c) U ops book_empty) ->
  exists R, brun c ops (breg_default place) = Ret (ref_run (big c) U ops book_empty).1 R /\
    ev_trace (m_env (br_mem R)) = (run_log (big c) U ops book_empty []).1.
Proof.
  intros HU Hla Hw Hu. set (Fm := listed (asked (big c) U ops book_empty)).
  assert (HU' : @universe Fm (big c) U) by (by apply universe_listed).
  assert (Hw' : @within Fm (big c) U ops book_empty) by (by apply within_listed).
  destruct (bytes_program c U HU' Hla place ops Hw') as (R&r&E&_&_). exists R. split; [done|].
  exact (bytes_requests c U HU' Hla place ops _ R Hw' E).
Qed.
Lemma used_any c U ops : plain U -> NoDup (map ct_ty U) -> @lawful_all every (dbg c) (big c) U ops book_empty ->
  unambiguous (asked_any (big c) U (dbg c) ops book_empty) ->
  (attempt c ops reg_default).1 = (predict (dbg c) (big c) U ops book_empty).1 /\
  ((attempt c ops reg_default).2 = None <-> (predict (dbg c) (big c) U ops book_empty).2 = None).
Proof.
  intros HU Hnt Hw Hu. set (Fm := listed (asked_any (big c) U (dbg c) ops book_empty)).
  assert (HU' : @universe Fm (big c) U) by (by apply universe_listed).
  apply (attempt_predicted c U HU' Hnt ops). by apply lawful_all_listed.
Qed.

(** ** Why not all archetypes can be unambiguous *)
From Verif Require Import SearchProofs ArchOps RegProofs RegOps RegOps2 Collide Faults Faults2 SpecClient SpecBase SpecWorld SpecUsed.
Lemma sublist_group U l : l `sublist_of` ids_of U -> exists G, G `sublist_of` U /\ ids_of G = l.
Proof.
  revert l. induction U as [|C U IH]; intros l Hl; cbn in Hl.
  - apply sublist_nil_r in Hl as ->. by exists [].
  - apply sublist_cons_r in Hl as [Hl|(k&->&Hl)].
    + destruct (IH l Hl) as (G&HG&E). exists G. split; [by constructor|done].
    + destruct (IH k Hl) as (G&HG&E). exists (C :: G). split; [by constructor|]. cbn. by f_equal.
Qed.
Section collide.
  Context (be : bool) (U : list ctype) (HU : plain U) (Hid : Forall (fun C => (ct_id C < 65536)%N) U) (Hlen : 39 <= length U).
  Lemma groups_collide : exists G1 G2, in_U U G1 /\ in_U U G2 /\ gvalid be G1 /\ gvalid be G2 /\ strict (ids_of G1) /\ strict (ids_of G2) /\
    length G1 = 14 /\ length G2 = 14 /\ ids_of G1 <> ids_of G2 /\
    tuple_archetype_id be (ids_of G1) = tuple_archetype_id be (ids_of G2) /\ tuple_archetype_id be (ids_of G1) <> 4294967295%N.
  Proof.
    destruct HU as [Hs _]. destruct (sets_collide be (ids_of U)) as (l1&l2&S1&S2&L1&L2&Hne&E&Hr).
    - by apply strict_NoDup.
    - apply Forall_map. exact Hid.
    - by rewrite map_length.
    - pose proof (strict_sublist _ _ Hs S1) as T1. pose proof (strict_sublist _ _ Hs S2) as T2.
      destruct (sublist_group U l1 S1) as (G1&HG1&<-). destruct (sublist_group U l2 S2) as (G2&HG2&<-).
      assert (Hin : forall G, G `sublist_of` U -> in_U U G).
      { intros G HG. apply Forall_forall. intros C HC. eapply elem_of_submseteq; [exact HC|by apply sublist_submseteq]. }
      exists G1, G2. rewrite map_length in L1, L2. split; [by apply Hin|]. split; [by apply Hin|].
      split; [split; [by apply strict_NoDup|split; [lia|by exists (ids_of G1)]]|].
      split; [split; [by apply strict_NoDup|split; [lia|exists (ids_of G2); by rewrite <- E]]|]. done.
  Qed.
  Lemma never_collision_free : ~ @collision_free every be U.
  Proof.
    intros Hcf. destruct HU as [Hs _]. destruct (sets_collide be (ids_of U)) as (l1&l2&S1&S2&L1&L2&Hne&E&Hr).
    - by apply strict_NoDup.
    - apply Forall_map. exact Hid.
    - by rewrite map_length.
    - apply Hne, (Hcf l1 l2 (tuple_archetype_id be l1)); try done; [lia..|by split; [|left]|by split; [|left]].
  Qed.
End collide.
Lemma has_same_arch c C h1 h2 r n1 n2 : entry_of c r h1 = Some n1 -> entry_of c r h2 = Some n2 -> e_arch c n1 = e_arch c n2 ->
  has_component c C h1 r = has_component c C h2 r.
Proof. intros E1 E2 E. unfold has_component. by rewrite E1, E2, E. Qed.
Lemma confused c U : plain U -> Forall (fun C => (ct_id C < 65536)%N) U -> 39 <= length U ->
  exists G1 G2 P, in_U U G1 /\ in_U U G2 /\ gvalid (big c) G1 /\ gvalid (big c) G2 /\ P ∈ G1 /\ ct_id P ∉ ids_of G2 /\
    forall r vs1 h1 r1 vs2 h2 r2, reachable c r ->
      create_entity c G1 vs1 r = Ret (Ok h1) r1 -> create_entity c G2 vs2 r1 = Ret (Ok h2) r2 ->
      has_component c P h1 r2 = has_component c P h2 r2.
Proof.
  intros HU Hid Hlen. destruct (groups_collide (big c) U HU Hid Hlen) as (G1&G2&H1&H2&V1&V2&T1&T2&L1&L2&Hne&E&Hr).
  destruct (decide (Forall (fun P => ct_id P ∈ ids_of G2) G1)) as [Hall|Hnot].
  { exfalso. apply Hne. apply strict_perm_unique; [done|done|]. apply submseteq_Permutation_length_eq; [by rewrite !map_length, L1, L2|].
    apply NoDup_submseteq; [by apply strict_NoDup|]. intros x (P&HP&<-)%elem_of_ids. rewrite Forall_forall in Hall. by apply Hall. }
  apply not_Forall_Exists, Exists_exists in Hnot as (P&HP&HP2); [|apply _].
  exists G1, G2, P. do 6 (split; [done|]). intros r vs1 h1 r1 vs2 h2 r2 Hrc E1 E2.
  destruct (create_twice c r G1 vs1 h1 r1 G2 vs2 h2 r2 Hrc E1 E2) as (n1&n2&En1&En2&[_ Hsame]).
  eapply has_same_arch; [exact En1|exact En2|]. apply Hsame. split; [|congruence].
  destruct (gspec_valid c G1 V1) as [s1 Hg1]. destruct (gspec_valid c G2 V2) as [s2 Hg2].
  rewrite (gs_id _ _ _ Hg1), (gs_id _ _ _ Hg2).
  assert (ids_of s1 = ids_of G1) as ->. { apply strict_perm_unique; [apply Hg1|done|]. apply Permutation_map, Hg1. }
  assert (ids_of s2 = ids_of G2) as ->. { apply strict_perm_unique; [apply Hg2|done|]. apply Permutation_map, Hg2. }
  done.
Qed.
