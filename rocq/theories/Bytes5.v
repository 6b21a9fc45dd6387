(** Proofs for C53: the registry over the byte-level storage. *)
From Verif Require Import ByteReg SearchProofs MonadProofs DescrProofs ArchProofs ArchOps Bytes Bytes2 Bytes3 Bytes4 SpecBytes SpecBase SpecWorld.
Local Open Scope nat_scope.

Definition archs (r : reg) : list arch := ar_archs (r_ar r).
(** Everything owned by archetypes other than the [i]th. *)
Definition rest_own (i : nat) (As : list barch) : list N := concat (map own (take i As ++ drop (S i) As)).
Lemma own_split As i A A' : As !! i = Some A ->
  concat (map own As) ≡ₚ own A ++ rest_own i As /\ concat (map own (<[i := A']> As)) ≡ₚ own A' ++ rest_own i As.
Proof.
  intros Hi.
  assert (Hm : forall X, concat (map own (take i As ++ X :: drop (S i) As)) ≡ₚ own X ++ rest_own i As).
  { intros X. unfold rest_own. rewrite !map_app, !concat_app. cbn [map concat]. by rewrite !app_assoc, (Permutation_app_comm (own X)). }
  split.
  - rewrite <- (take_drop_middle _ _ _ Hi) at 1. apply Hm.
  - rewrite insert_take_drop by (by eapply lookup_lt_Some). apply Hm.
Qed.
Lemma rest_in As i j B id : j <> i -> As !! j = Some B -> id ∈ own B -> id ∈ rest_own i As.
Proof.
  intros Hne Hj Hid. unfold rest_own. apply elem_of_list_In, in_concat. exists (own B). split; [|by apply elem_of_list_In].
  apply in_map, elem_of_list_In, elem_of_app. destruct (decide (j < i)) as [Hlt|Hge].
  - left. apply elem_of_list_lookup. exists j. by rewrite lookup_take.
  - right. apply elem_of_list_lookup. exists (j - S i). rewrite lookup_drop. by replace (S i + (j - S i)) with j by lia.
Qed.

Section registry.
Context {U : list ctype} {L : list (N * hblk)} (Hst : strict (ids_of U)) (Hsm : Forall small U) (Hla : laid_out U).
Notation arel := (@Bytes.arel U).
Notation ast := (@Bytes.ast U).
Notation sim := (@Bytes.sim U).

(** [L]: live blocks that no archetype of this registry owns: what it has lost, and
    what belongs to others.  They stay as they are. *)
Record brel (r : reg) (R : breg) : Prop := {
  bl_er : br_er R = r_er r;
  bl_maps : br_maps R = ar_maps (r_ar r);
  bl_len : length (br_archs R) = length (archs r);
  bl_archs : forall i a A, archs r !! i = Some a -> br_archs R !! i = Some A -> arel (m_blocks (br_mem R)) a A;
  bl_heap : heap_ok (m_blocks (br_mem R)) (m_next (br_mem R)) (concat (map own (br_archs R)) ++ map fst L);
  bl_kept : forall id b, (id, b) ∈ L -> m_blocks (br_mem R) !! id = Some b;
  bl_env : m_env (br_mem R) = r_env r;
}.
Lemma brel_at r R i a : brel r R -> archs r !! i = Some a -> exists A, br_archs R !! i = Some A /\ arel (m_blocks (br_mem R)) a A.
Proof.
  intros H Hi. destruct (lookup_lt_is_Some_2 (br_archs R) i) as [A HA]; [rewrite (bl_len _ _ H); by eapply lookup_lt_Some|].
  exists A. split; [done|]. by eapply bl_archs.
Qed.
Lemma brel_none r R i : brel r R -> archs r !! i = None -> br_archs R !! i = None.
Proof. intros H Hi. apply lookup_ge_None. rewrite (bl_len _ _ H). by apply lookup_ge_None. Qed.
Lemma brel_ast r R i a A : brel r R -> archs r !! i = Some a -> br_archs R !! i = Some A ->
  ast (rest_own i (br_archs R) ++ map fst L) (a, r_env r) (A, br_mem R).
Proof.
  intros H Ha HA. apply heap_ast; cbn [fst snd]; [by eapply bl_archs| |by apply bl_env].
  eapply heap_ok_perm; [|apply (bl_heap _ _ H)]. rewrite app_assoc. apply Permutation_app_tail. by apply own_split.
Qed.
Lemma brel_put r R i A a' e' A' m' : brel r R -> br_archs R !! i = Some A ->
  ast (rest_own i (br_archs R) ++ map fst L) (a', e') (A', m') -> kept (rest_own i (br_archs R) ++ map fst L) (br_mem R) m' ->
  brel (Reg (r_er r) (set_archs (r_ar r) (<[i := a']> (archs r))) e') (BReg (br_er R) (br_maps R) (<[i := A']> (br_archs R)) m').
Proof.
  intros H HA Ha Hk. split; cbn.
  - by apply bl_er.
  - by apply bl_maps.
  - rewrite !insert_length. by apply bl_len.
  - intros j b B Hb HB. unfold archs in Hb. cbn in Hb. destruct (decide (j = i)) as [->|Hne].
    + rewrite list_lookup_insert in HB by (by eapply lookup_lt_Some). injection HB as <-.
      rewrite list_lookup_insert in Hb by (fold (archs r); rewrite <- (bl_len _ _ H); by eapply lookup_lt_Some). injection Hb as <-. apply (as_rel _ _ _ Ha).
    + rewrite list_lookup_insert_ne in Hb by done. rewrite list_lookup_insert_ne in HB by done.
      eapply arel_frame; [by eapply (bl_archs _ _ H)|]. intros id Hid. apply Hk. apply elem_of_app. left. by eapply rest_in.
  - eapply heap_ok_perm; [apply Permutation_app_tail; symmetry; eapply own_split; exact HA|]. rewrite <- app_assoc. apply (ast_heap _ _ _ Ha).
  - intros id b Hb. rewrite (Hk id) by (apply elem_of_app; right; by apply (elem_of_list_fmap_1 fst _ (id, b))). by apply (bl_kept _ _ H).
  - apply (as_env _ _ _ Ha).
Qed.

(** ** Simulation of a registry function *)
Definition rsim {X} (r : reg) (R : breg) (f : RM X) (g : BRM X) : Prop :=
  brel r R -> forall x r', f r = Ret x r' -> exists R', g R = Ret x R' /\ brel r' R'.
Lemma rsim_bind {X Y} r R (f : RM X) g (k : X -> RM Y) k' :
  rsim r R f g -> (forall x r' R', f r = Ret x r' -> g R = Ret x R' -> rsim r' R' (k x) (k' x)) -> rsim r R (bind f k) (bind g k').
Proof.
  intros Hf Hk H y r2 E. unfold bind in E. destruct (f r) as [x r1|r1|] eqn:Ef; [|done..].
  destruct (Hf H _ _ Ef) as (R1&Eg&H1). destruct (Hk _ _ _ eq_refl Eg H1 _ _ E) as (R2&Eg2&H2).
  exists R2. split; [unfold bind; by rewrite Eg|done].
Qed.
Lemma rsim_get {X} r R (k : reg -> RM X) k' : (brel r R -> rsim r R (k r) (k' R)) -> rsim r R (bind rm_get k) (bind bq_get k').
Proof. intros H Hb. exact (H Hb Hb). Qed.
Lemma rsim_ret {X} r R (x : X) : rsim r R (ret x) (ret x).
Proof. intros H y r' [= <- <-]. by exists R. Qed.
Lemma rsim_panic {X} r R (g : BRM X) : rsim r R mpanic g. Proof. by intros H y r'. Qed.
Lemma rsim_ub {X} r R (g : BRM X) : rsim r R mub g. Proof. by intros H y r'. Qed.
Lemma rsim_debug r R d b : rsim r R (mdebug_assert d b) (mdebug_assert d b).
Proof. destruct d, b; try apply rsim_ret; apply rsim_panic. Qed.
Lemma rsim_unwrap {X} r R (o : option X) : rsim r R (unwrap o) (unwrap o).
Proof. destruct o; [apply rsim_ret|apply rsim_panic]. Qed.
Lemma rsim_lift {X} r R (x y : rd X) : (brel r R -> forall v, x = Rd v -> y = Rd v) -> rsim r R (lift_rd x) (lift_rd y).
Proof.
  intros H Hb v r' E. destruct x as [w| |]; cbn in E; [|done..]. rewrite (H Hb _ eq_refl). exact (rsim_ret r R w Hb _ _ E).
Qed.
Lemma rsim_rd {X} r R (x : reg -> rd X) (y : breg -> rd X) : (brel r R -> forall v, x r = Rd v -> y R = Rd v) -> rsim r R (rm_rd x) (bq_rd y).
Proof. intros H. exact (rsim_lift r R (x r) (y R) H). Qed.
Lemma rsim_mrd {X} r R (x : rd X) (y : mem -> rd X) : (brel r R -> forall v, x = Rd v -> y (br_mem R) = Rd v) -> rsim r R (lift_rd x) (bq_mrd y).
Proof. intros H. exact (rsim_lift r R x (y (br_mem R)) H). Qed.
Lemma rsim_dop {X} r R vs (f : RM X) g : rsim r R f g -> rsim r R (dropping_on_panic vs f) (b_dropping_on_panic vs g).
Proof.
  intros H Hb x r' E. unfold dropping_on_panic in E. destruct (f r) as [y r1|r1|] eqn:Ef; [|done..]. injection E as <- <-.
  destruct (H Hb _ _ Ef) as (R'&Eg&H'). exists R'. split; [|done]. unfold b_dropping_on_panic. by rewrite Eg.
Qed.
Lemma rsim_er {X} r R (f : M er X) : rsim r R (rm_er f) (bq_er f).
Proof.
  intros H x r' E. unfold rm_er in E. unfold bq_er. rewrite (bl_er _ _ H). destruct (f (r_er r)) as [y e|e|]; [|done..].
  injection E as <- <-. eexists. split; [done|]. by destruct H.
Qed.
Lemma rsim_upd r R c h f : rsim r R (update_entry c h f) (b_update_entry c h f).
Proof.
  intros H x r' E. unfold update_entry in E. unfold b_update_entry. rewrite (bl_er _ _ H). destruct (er_update_entry _ _ _ _) as [e|]; [|done].
  injection E as <- <-. eexists. split; [done|]. by destruct H.
Qed.
Lemma rsim_with {X} r R i (f : AM X) g :
  (brel r R -> forall a A, archs r !! i = Some a -> br_archs R !! i = Some A -> sim (rest_own i (br_archs R) ++ map fst L) (a, r_env r) (A, br_mem R) f g) ->
  rsim r R (with_arch i f) (b_with_arch i g).
Proof.
  intros Hs H x r' E. unfold with_arch in E. fold (archs r) in E. destruct (archs r !! i) as [a|] eqn:Ea; [|done].
  destruct (brel_at _ _ _ _ H Ea) as (A&EA&_). destruct (f (a, r_env r)) as [y [a' e']|[a' e']|] eqn:Ef; [|done..]. injection E as <- <-.
  destruct (Hs H _ _ eq_refl EA (brel_ast _ _ _ _ _ H Ea EA) _ _ Ef) as ([A' m']&Eg&Ha&Hk).
  eexists. split; [unfold b_with_arch; rewrite EA, Eg; done|]. by eapply brel_put.
Qed.
Lemma rsim_arch {X} r R i (k : arch -> RM X) k' :
  (forall a A, brel r R -> archs r !! i = Some a -> br_archs R !! i = Some A -> arel (m_blocks (br_mem R)) a A -> rsim r R (k a) (k' A)) ->
  rsim r R (let! a := rm_rd (arch_at i) in k a) (let! a := bq_rd (b_arch_at i) in k' a).
Proof.
  intros Hk H x r' E. unfold bind, rm_rd, arch_at in E. fold (archs r) in E. destruct (archs r !! i) as [a|] eqn:Ea; [|done].
  destruct (brel_at _ _ _ _ H Ea) as (A&EA&Hr). unfold bind, bq_rd, b_arch_at. rewrite EA. exact (Hk a A H eq_refl EA Hr H x r' E).
Qed.
(** The other archetypes stay. *)
Lemma with_arch_other {X} i (f : AM X) r x r' j : with_arch i f r = Ret x r' -> j <> i -> archs r' !! j = archs r !! j.
Proof.
  intros E Hne. unfold with_arch in E. destruct (_ !! i) as [a|]; [|done]. destruct (f _); [|done..]. injection E as <- <-.
  unfold archs. cbn. by rewrite list_lookup_insert_ne.
Qed.
Lemma b_with_arch_other {X} i (g : BAM X) R x R' j : b_with_arch i g R = Ret x R' -> j <> i -> br_archs R' !! j = br_archs R !! j.
Proof.
  intros E Hne. unfold b_with_arch in E. destruct (_ !! i) as [a|]; [|done]. destruct (g _); [|done..]. injection E as <- <-.
  cbn. by rewrite list_lookup_insert_ne.
Qed.
Lemma lift_same {X Y} (x : rd X) (s s' : Y) v : lift_rd x s = Ret v s' -> s' = s.
Proof. by intros [_ ->]%lift_inv. Qed.

(** ** Archetypes *)
Lemma knows_add be d C nd : ad_wf d -> knows U d -> C ∈ U -> ad_add_component be d (cdesc_of C) = Rd (Some nd) -> knows U nd.
Proof.
  intros Hwf (cs&Hc&Hin&Hs) HC E. destruct (wf_add _ _ _ _ Hwf E) as ((_&_&Hst')&_&_&_&Hp&_).
  rewrite Hc in Hp. change (cdesc_of C :: map cdesc_of cs) with (map cdesc_of (C :: cs)) in Hp.
  apply Permutation_map_inv in Hp as (l&El&Hp). exists l. split; [done|]. split.
  - unfold in_U. rewrite <- Hp. by apply Forall_cons.
  - by rewrite El, ids_cdesc_of in Hst'.
Qed.
Lemma knows_remove be d id nd : ad_wf d -> 1 <= ad_len d -> knows U d -> ad_remove_component be d id = Rd (Some nd) -> knows U nd.
Proof.
  intros Hwf H1 (cs&Hc&Hin&Hs) E. destruct (wf_remove _ _ _ _ Hwf H1 E) as ((_&_&Hst')&_&_&_&x&_&Hp).
  rewrite Hc in Hp. symmetry in Hp. apply Permutation_map_inv in Hp as (l&El&Hp). destruct l as [|C l]; [done|]. injection El as _ El.
  exists l. split; [done|]. split.
  - unfold in_U in *. rewrite Hp in Hin. by apply Forall_cons in Hin as [_ ?].
  - by rewrite El, ids_cdesc_of in Hst'.
Qed.
Lemma rsim_find_or_create r R d : (ad_is_valid d = true -> knows U d) -> rsim r R (find_or_create_archetype d) (b_find_or_create d).
Proof.
  intros Hk. unfold find_or_create_archetype, b_find_or_create. cbv zeta. destruct (_ || _) eqn:Ev; [apply rsim_ret|].
  apply orb_false_iff in Ev as [_ Ev%negb_false_iff]. specialize (Hk Ev). destruct (_ =? 0); [apply rsim_panic|].
  apply rsim_get. intros H. rewrite (bl_maps _ _ H). destruct (ar_maps (r_ar r) !! _) as [level|] eqn:El; [|apply rsim_panic].
  destruct (binary_search _ _) as [f|ins]; rewrite (bl_len _ _ H).
  - destruct (level !! f); [|apply rsim_panic]. unfold archs. destruct (_ <? _); [apply rsim_ret|apply rsim_panic].
  - unfold archs. destruct (_ <=? _)%N; [apply rsim_ret|]. intros _ x r' E. unfold bind at 1, rm_env in E.
    destruct (a_with_capacity _ _ _) as [a e'|e'|] eqn:Ea; [|done..]. cbn in E. injection E as <- <-.
    rewrite <- (bl_env _ _ H) in Ea. destruct (with_capacity_sim _ _ _ _ _ _ Hk (bl_heap _ _ H) Ea) as (A&m'&EA&Has&Hkp&Hd).
    exists (BReg (br_er R) (<[ad_len d - 1 := vec_insert level ins (AKey (ad_id d) (length (archs r)))]> (br_maps R)) (br_archs R ++ [A]) m').
    split.
    + unfold bind at 1, bq_mem. rewrite EA. unfold bind, bq_get, get_st, put_st, ret. cbn [br_er br_maps br_archs br_mem]. by rewrite (bl_len _ _ H).
    + split; cbn.
      * by apply bl_er.
      * by rewrite (bl_maps _ _ H).
      * unfold archs. cbn. rewrite !app_length. cbn. f_equal. apply (bl_len _ _ H).
      * intros j b B Hb HB. unfold archs in Hb. cbn in Hb. fold (archs r) in Hb. destruct (decide (j < length (archs r))) as [Hlt|Hge].
        -- rewrite lookup_app_l in Hb by done. rewrite lookup_app_l in HB by (by rewrite (bl_len _ _ H)).
           eapply arel_frame; [by eapply (bl_archs _ _ H)|]. intros id Hid. apply Hkp. apply elem_of_app. left. apply elem_of_list_In, in_concat. exists (own B).
           split; [|by apply elem_of_list_In]. apply in_map, elem_of_list_In. by eapply elem_of_list_lookup_2.
        -- rewrite lookup_app_r in Hb by lia. rewrite lookup_app_r in HB by (rewrite (bl_len _ _ H); lia).
           apply list_lookup_singleton_Some in Hb as [_ <-]. apply list_lookup_singleton_Some in HB as [_ <-]. apply (as_rel _ _ _ Has).
      * rewrite map_app, concat_app. cbn [map concat]. rewrite app_nil_r. eapply heap_ok_perm; [|apply (ast_heap _ _ _ Has)]. cbn [fst]. rewrite app_assoc. apply Permutation_app_tail, Permutation_app_comm.
      * intros id b Hb. rewrite (Hkp id) by (apply elem_of_app; right; by apply (elem_of_list_fmap_1 fst _ (id, b))). by apply (bl_kept _ _ H).
      * apply (as_env _ _ _ Has).
Qed.
Lemma disjoint_ne len x y a b : disjoint_mut len x y = Rd (Some (a, b)) -> a <> b.
Proof.
  unfold disjoint_mut. destruct (Nat.eqb_spec x y); [done|]. cbn [orb]. destruct (_ || _); [done|].
  destruct (Nat.ltb_spec x y); destruct (_ && _); [|done| |done]; intros [= <- <-]; lia.
Qed.
(** The two lookups share their tail. *)
Definition find_pair (src : nat) (od : option adesc) : RM (option (nat * nat)) :=
  match od with
  | None => ret None
  | Some nd =>
      let! oi := find_or_create_archetype nd in
      match oi with
      | None => ret None
      | Some dst => let! s := rm_get in lift_rd (disjoint_mut (length (ar_archs (r_ar s))) src dst)
      end
  end.
Lemma find_pair_ne src od r a b r' : find_pair src od r = Ret (Some (a, b)) r' -> a <> b.
Proof.
  unfold find_pair. destruct od as [nd|]; [|done]. unfold bind at 1. destruct (find_or_create_archetype nd r) as [[dst|] r1|r1|]; [|done..].
  intros E. unfold bind, rm_get, get_st in E. apply lift_inv in E as [E _]. by eapply disjoint_ne.
Qed.
Lemma find_adding_ne c src d r a b r' : find_or_create_archetype_adding_component c src d r = Ret (Some (a, b)) r' -> a <> b.
Proof.
  unfold find_or_create_archetype_adding_component. unfold bind at 1, rm_get, get_st. destruct (_ <? _); [done|].
  destruct (_ !! src) as [x|]; [|done]. unfold bind at 1. destruct (ad_add_component _ _ _) as [od| |]; [|done..]. cbn [lift_rd]. unfold ret at 1. apply find_pair_ne.
Qed.
Lemma find_removing_ne c src d r a b r' : find_or_create_archetype_removing_component c src d r = Ret (Some (a, b)) r' -> a <> b.
Proof.
  unfold find_or_create_archetype_removing_component. unfold bind at 1, rm_get, get_st. destruct (_ <? _); [done|].
  destruct (_ !! src) as [x|]; [|done]. unfold bind at 1. destruct (ad_remove_component _ _ _) as [od| |]; [|done..]. cbn [lift_rd]. unfold ret at 1. apply find_pair_ne.
Qed.
Lemma rsim_disjoint r R src dst :
  rsim r R (let! s := rm_get in lift_rd (disjoint_mut (length (ar_archs (r_ar s))) src dst))
           (let! s := bq_get in lift_rd (disjoint_mut (length (br_archs s)) src dst)).
Proof. apply rsim_get. intros H. apply rsim_lift. intros _ v. by rewrite (bl_len _ _ H). Qed.
(** Descriptors in the registry are well-formed. *)
Definition tidy (r : reg) : Prop := forall i a, archs r !! i = Some a -> ad_wf (a_desc a) /\ 1 <= ad_len (a_desc a).
Lemma rsim_find_adding r R c src C : tidy r -> C ∈ U ->
  rsim r R (find_or_create_archetype_adding_component c src (cdesc_of C)) (b_find_adding c src (cdesc_of C)).
Proof.
  intros Ht HC. apply rsim_get. intros H. rewrite (bl_len _ _ H). unfold archs. destruct (_ <? _); [apply rsim_ret|].
  fold (archs r). destruct (archs r !! src) as [a|] eqn:Ea; [|apply rsim_panic]. destruct (brel_at _ _ _ _ H Ea) as (A&EA&Hr). rewrite EA.
  rewrite (ar_desc _ _ _ Hr). apply rsim_bind; [by apply rsim_lift|]. intros od r1 R1 E1 _. apply lift_inv in E1 as [E1 ->].
  destruct od as [nd|]; [|apply rsim_ret]. apply rsim_bind.
  - apply rsim_find_or_create. intros _. eapply knows_add; [by eapply Ht|apply (ar_knows _ _ _ Hr)|done|done].
  - intros [dst|] ? ? _ _; [apply rsim_disjoint|apply rsim_ret].
Qed.
Lemma rsim_find_removing r R c src C : tidy r ->
  rsim r R (find_or_create_archetype_removing_component c src (cdesc_of C)) (b_find_removing c src (cdesc_of C)).
Proof.
  intros Ht. apply rsim_get. intros H. rewrite (bl_len _ _ H). unfold archs. destruct (_ <? _); [apply rsim_ret|].
  fold (archs r). destruct (archs r !! src) as [a|] eqn:Ea; [|apply rsim_panic]. destruct (brel_at _ _ _ _ H Ea) as (A&EA&Hr). rewrite EA.
  rewrite (ar_desc _ _ _ Hr). apply rsim_bind; [by apply rsim_lift|]. intros od r1 R1 E1 _. apply lift_inv in E1 as [E1 ->].
  destruct od as [nd|]; [|apply rsim_ret]. apply rsim_bind.
  - apply rsim_find_or_create. intros _. eapply knows_remove; [by eapply Ht|by eapply Ht|apply (ar_knows _ _ _ Hr)|done].
  - intros [dst|] ? ? _ _; [apply rsim_disjoint|apply rsim_ret].
Qed.

(** ** The operations that change the registry *)
Lemma entry_same r R c h : brel r R -> b_entry_of c R h = entry_of c r h.
Proof. intros H. unfold b_entry_of, entry_of. by rewrite (bl_er _ _ H). Qed.
Lemma rsim_create r R c G vs : in_U U G -> length vs = length G -> rsim r R (create_entity c G vs) (b_create_entity c G vs).
Proof using Hsm.
  intros Hin Hl. apply rsim_dop. cbv zeta. destruct (gd_is_valid _) eqn:Ev; [|apply rsim_ret]. cbn [negb].
  destruct (gspec_exists _ _ Ev) as [g Hg]. apply rsim_bind.
  - apply rsim_find_or_create. intros _. exists g. split; [apply Hg|]. split; [|apply Hg]. unfold in_U. by rewrite (gs_perm _ _ _ Hg).
  - intros [i|] r1 R1 _ _; [|apply rsim_ret]. apply rsim_arch. intros a A H Ha HA Hr. rewrite (ar_count _ _ _ Hr).
    apply rsim_bind; [apply rsim_unwrap|intros row r2 R2 _ _]. apply rsim_bind; [apply rsim_unwrap|intros ai r3 R3 _ _].
    apply rsim_bind; [apply rsim_er|intros [h|] r4 R4 _ _]; [|apply rsim_ret]. apply rsim_bind; [|intros _ ? ? _ _; apply rsim_ret].
    apply rsim_with. intros _ b B _ _. by eapply sim_push_entity.
Qed.
Lemma rsim_destroy r R c h : rsim r R (destroy_entity c h) (b_destroy_entity c h).
Proof using Hsm Hla.
  apply rsim_get. intros H. rewrite (entry_same _ _ _ _ H). destruct (entry_of c r h) as [e|]; [|apply rsim_ret]. cbv zeta.
  apply rsim_bind; [apply rsim_with; intros _ a A _ _; by apply sim_swap_drop|]. intros swapped r1 R1 _ _. apply rsim_bind.
  - destruct swapped; [|apply rsim_ret]. apply rsim_arch. intros a A H1 Ha HA Hr. apply rsim_bind; [|intros h' ? ? _ _; apply rsim_upd].
    apply rsim_mrd. intros _ v. by apply (entity_at_unchecked_sim (U := U)).
  - intros [] ? ? _ _. apply rsim_bind; [apply rsim_er|intros v ? ? _ _]. apply rsim_bind; [apply rsim_debug|intros [] ? ? _ _]. apply rsim_ret.
Qed.
Lemma rsim_remove_entity r R c G h :
  in_U U G -> (forall e, entry_of c r h = Some e -> exists g a, gspec (big c) G g /\ archs r !! e_arch c e = Some a /\ a_comps a = map cdesc_of g) ->
  rsim r R (remove_entity c G h) (b_remove_entity c G h).
Proof using Hsm Hla.
  intros Hin Hx. apply rsim_get. intros H. rewrite (entry_same _ _ _ _ H). destruct (entry_of c r h) as [e|] eqn:Ee; [|apply rsim_ret]. cbv zeta.
  destruct (Hx _ eq_refl) as (g&a0&Hg&Ha0&Hc). apply rsim_bind.
  - apply rsim_with. intros _ a A Ha _. rewrite Ha0 in Ha. injection Ha as <-. by eapply sim_swap_remove.
  - intros [data swapped] r1 R1 _ _. apply rsim_dop. apply rsim_bind.
    + destruct swapped; [|apply rsim_ret]. apply rsim_arch. intros a A H1 Ha HA Hr. apply rsim_bind; [|intros h' ? ? _ _; apply rsim_upd].
      apply rsim_mrd. intros _ v. by apply (entity_at_sim (U := U)).
    + intros [] ? ? _ _. apply rsim_bind; [apply rsim_er|intros v ? ? _ _]. apply rsim_bind; [apply rsim_debug|intros [] ? ? _ _]. apply rsim_ret.
Qed.
(** Move the row to the end, and tell the entity that was there. *)
Lemma rsim_swap_back {X} r R c src row e (k : RM X) k' :
  (forall r' R', rsim r' R' k k') ->
  rsim r R
    (let! swapped := with_arch src (swap_to_last_unchecked c row) in
     (if (swapped : bool) then
        let! a := rm_rd (arch_at src) in
        let! h' := lift_rd (entity_at a row) in
        update_entry c h' (fun e' => entry_set_index_in_archetype e' (entry_index_in_archetype e))
      else ret tt) ;;! k)
    (let! swapped := b_with_arch src (b_swap_to_last c row) in
     (if (swapped : bool) then
        let! a := bq_rd (b_arch_at src) in
        let! h' := bq_mrd (fun m => b_entity_at a m row) in
        b_update_entry c h' (fun e' => entry_set_index_in_archetype e' (entry_index_in_archetype e))
      else ret tt) ;;! k').
Proof.
  intros Hk. apply rsim_bind; [apply rsim_with; intros _ a A _ _; apply sim_swap_to_last|]. intros swapped r1 R1 _ _. apply rsim_bind; [|intros [] ? ? _ _; apply Hk].
  destruct swapped; [|apply rsim_ret]. apply rsim_arch. intros a A H1 Ha HA Hr. apply rsim_bind; [|intros h' ? ? _ _; apply rsim_upd].
  apply rsim_mrd. intros _ v. by apply (entity_at_sim (U := U)).
Qed.
Lemma rsim_copy r R src dst sa SA srow drow : src <> dst -> archs r !! src = Some sa -> br_archs R !! src = Some SA ->
  rsim r R (with_arch dst (copy_common_components sa srow drow)) (b_with_arch dst (b_copy_common SA srow drow)).
Proof.
  intros Hne Hs HS. apply rsim_with. intros H a A _ _. apply sim_copy_common; [cbn [snd]; by eapply bl_archs|].
  intros id Hid. apply elem_of_app. left. by eapply rest_in.
Qed.
Lemma rsim_last r R c a A : arel (m_blocks (br_mem R)) a A -> rsim r R (lift_rd (last_row c a)) (lift_rd (b_last_row c A)).
Proof. intros Hr. apply rsim_lift. intros _ v. unfold last_row, b_last_row, a_len. by rewrite (ar_count _ _ _ Hr). Qed.
Lemma rsim_finish {X} r R c src dst drow srow sa SA h (x : X) : src <> dst -> archs r !! src = Some sa -> br_archs R !! src = Some SA ->
  rsim r R
    (let! hs := lift_rd (entity_at sa srow) in
     with_arch dst (write_entity drow hs) ;;!
     with_arch src (decrement_len_unchecked c) ;;!
     update_entry c h (fun e' => entry_set_archetype_index (big c) e' (N.of_nat dst)) ;;!
     let! idx := unwrap (iia_new (N.of_nat drow)) in
     update_entry c h (fun e' => entry_set_index_in_archetype e' idx) ;;!
     ret x)
    (let! hs := bq_mrd (fun m => b_entity_at SA m srow) in
     b_with_arch dst (b_write_entity drow hs) ;;!
     b_with_arch src (b_decrement_len c) ;;!
     b_update_entry c h (fun e' => entry_set_archetype_index (big c) e' (N.of_nat dst)) ;;!
     let! idx := unwrap (iia_new (N.of_nat drow)) in
     b_update_entry c h (fun e' => entry_set_index_in_archetype e' idx) ;;!
     ret x).
Proof.
  intros Hne Hs HS. apply rsim_bind.
  - apply rsim_mrd. intros H v. apply (entity_at_sim (U := U)). by eapply bl_archs.
  - intros hs ? ? _ _. apply rsim_bind; [apply rsim_with; intros; apply sim_write_entity|intros [] ? ? _ _].
    apply rsim_bind; [apply rsim_with; intros; apply sim_decrement|intros [] ? ? _ _]. apply rsim_bind; [apply rsim_upd|intros [] ? ? _ _].
    apply rsim_bind; [apply rsim_unwrap|intros idx ? ? _ _]. apply rsim_bind; [apply rsim_upd|intros [] ? ? _ _]. apply rsim_ret.
Qed.
Lemma rsim_add r R c C h v : tidy r -> C ∈ U -> rsim r R (add_component c C h v) (b_add_component c C h v).
Proof using Hst Hsm Hla.
  intros Ht HC. apply rsim_get. intros H. rewrite (entry_same _ _ _ _ H). destruct (entry_of c r h) as [e|]; [|apply rsim_ret]. cbv zeta.
  apply rsim_bind; [apply rsim_dop; by apply rsim_find_adding|]. intros [[src dst]|] r1 R1 E1 _; [|apply rsim_ret].
  assert (Hne : src <> dst).
  { unfold dropping_on_panic in E1. destruct (find_or_create_archetype_adding_component _ _ _ _) as [y r2|r2|] eqn:Ef; [|done..]. injection E1 as -> ->. by eapply find_adding_ne. }
  apply rsim_bind.
  - apply rsim_dop. apply rsim_swap_back. intros r2 R2. apply rsim_bind; [apply rsim_with; intros; apply sim_push_uninitialized|]. intros row' r3 R3 _ _.
    apply rsim_arch. intros sa SA H3 Hs HS Hrs. apply rsim_arch. intros da DA _ Hd HD Hrd.
    apply rsim_bind; [by apply rsim_last|]. intros srow r4 R4 E4%lift_same E4'%lift_same. subst r4 R4.
    apply rsim_bind; [by apply rsim_last|]. intros drow r4 R4 E4%lift_same E4'%lift_same. subst r4 R4.
    apply rsim_bind; [by eapply rsim_copy|]. intros [] r5 R5 _ _. apply rsim_bind; [apply rsim_with; intros; by apply sim_write_single|intros [] ? ? _ _]. apply rsim_ret.
  - intros [srow drow] r2 R2 _ _. apply rsim_arch. intros sa SA H3 Hs HS Hrs. by apply rsim_finish.
Qed.
Lemma rsim_remove r R c C h : tidy r -> C ∈ U -> rsim r R (remove_component c C h) (b_remove_component c C h).
Proof using Hst Hsm Hla.
  intros Ht HC. apply rsim_get. intros H. rewrite (entry_same _ _ _ _ H). destruct (entry_of c r h) as [e|]; [|apply rsim_ret]. cbv zeta.
  apply rsim_bind; [by apply rsim_find_removing|]. intros [[src dst]|] r1 R1 E1 _; [|apply rsim_ret].
  pose proof (find_removing_ne _ _ _ _ _ _ _ E1) as Hne. apply rsim_swap_back. intros r2 R2.
  apply rsim_bind; [apply rsim_with; intros; apply sim_push_uninitialized|]. intros row' r3 R3 _ _.
  apply rsim_arch. intros sa SA H3 Hs HS Hrs. apply rsim_arch. intros da DA _ Hd HD Hrd.
  apply rsim_bind; [by apply rsim_last|]. intros srow r4 R4 E4%lift_same E4'%lift_same. subst r4 R4.
  apply rsim_bind; [by apply rsim_last|]. intros drow r4 R4 E4%lift_same E4'%lift_same. subst r4 R4.
  apply rsim_bind; [by eapply rsim_copy|]. intros [] r5 R5 E5 E5'.
  pose proof (with_arch_other _ _ _ _ _ src E5 Hne) as Hs5. rewrite Hs in Hs5. pose proof (b_with_arch_other _ _ _ _ _ src E5' Hne) as HS5. rewrite HS in HS5.
  apply rsim_bind.
  - apply rsim_mrd. intros H5 v E. eapply (get_component_sim Hst Hsm Hla); [by eapply bl_archs|done|exact E].
  - intros v r6 R6 E6%lift_same E6'%lift_same. subst r6 R6. apply rsim_dop. by apply rsim_finish.
Qed.
End registry.
Lemma brel_start {U} place : @brel U [] reg_default (breg_default place).
Proof.
  split; try done; [|by intros id b ?%elem_of_nil]. cbn. split; [constructor| |].
  - intros id. rewrite lookup_empty. split; [by intros []|by intros ?%elem_of_nil].
  - by intros id ?%elem_of_nil.
Qed.
Lemma bl_owned {U} r R : @brel U [] r R -> heap_ok (m_blocks (br_mem R)) (m_next (br_mem R)) (concat (map own (br_archs R))).
Proof. intros H. rewrite <- (app_nil_r (concat _)). apply (bl_heap _ _ H). Qed.
