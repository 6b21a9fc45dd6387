(** Proofs about archetype storage: every operation, on storage described by
    its columns, computes exactly the described new columns. *)
From Verif Require Import ArchModel SpecTrace SearchProofs DescrProofs MonadProofs SpecBase SpecWorld.
Local Open Scope nat_scope.

(** ** Trace accounting *)
(** From [e] to [e'], values [D] were dropped and live allocations went from
    [L] to [L'].  All allocations succeed (empty oracle). *)
Definition emits (e e' : env) (D : list value) (L L' : list (N * N)) : Prop :=
  exists evs, ev_oracle e = [] /\ ev_oracle e' = [] /\ ev_trace e' = ev_trace e ++ evs /\
    drops_of evs ≡ₚ D /\ L ++ allocs_of evs ≡ₚ frees_of evs ++ L'.
Lemma emits_refl e L : ev_oracle e = [] -> emits e e [] L L.
Proof. intros H. exists []. rewrite !app_nil_r. done. Qed.
Lemma emits_trans e1 e2 e3 D1 D2 L1 L2 L3 :
  emits e1 e2 D1 L1 L2 -> emits e2 e3 D2 L2 L3 -> emits e1 e3 (D1 ++ D2) L1 L3.
Proof.
  intros (v1&Ho1&_&T1&D1'&B1) (v2&_&Ho3&T2&D2'&B2). exists (v1 ++ v2).
  split; [done|]. split; [done|]. rewrite T2, T1, app_assoc. split; [done|].
  unfold drops_of, allocs_of, frees_of in *. rewrite !omap_app. split; [by rewrite D1', D2'|].
  rewrite app_assoc, B1, <- app_assoc, B2. by rewrite app_assoc.
Qed.
Lemma emits_frame e e' D L L' X : emits e e' D L L' -> emits e e' D (X ++ L) (X ++ L').
Proof.
  intros (v&?&?&?&?&B). exists v. repeat split; try done. rewrite <- app_assoc, B.
  by rewrite !app_assoc, (Permutation_app_comm X).
Qed.
Lemma emits_frame_r e e' D L L' X : emits e e' D L L' -> emits e e' D (L ++ X) (L' ++ X).
Proof.
  intros (v&?&?&?&?&B). exists v. repeat split; try done.
  rewrite <- app_assoc, (Permutation_app_comm X), app_assoc, B. by rewrite app_assoc.
Qed.
Lemma emits_perm e e' D D2 L L' L2 L2' :
  emits e e' D L L' -> D ≡ₚ D2 -> L ≡ₚ L2 -> L' ≡ₚ L2' -> emits e e' D2 L2 L2'.
Proof.
  intros (v&?&?&?&HD&B) E1 E2 E3. exists v. repeat split; try done; [by rewrite HD|]. by rewrite <- E2, <- E3.
Qed.
Lemma emits_oracle e e' D L L' : emits e e' D L L' -> ev_oracle e' = [].
Proof. by intros (?&?&?&_). Qed.
Lemma emits_oracle_l e e' D L L' : emits e e' D L L' -> ev_oracle e = [].
Proof. by intros (?&?&_). Qed.
Definition emitted (e : env) (evs : list event) : env := Env (ev_trace e ++ evs) (ev_oracle e).
Lemma emits_drop e v L : ev_oracle e = [] -> emits e (emitted e [EvDrop v]) [v] L L.
Proof. intros H. exists [EvDrop v]. cbn. rewrite app_nil_r. done. Qed.
Lemma emits_alloc e s a : ev_oracle e = [] -> emits e (emitted e [EvAlloc s a]) [] [] [(s, a)].
Proof. intros H. exists [EvAlloc s a]. done. Qed.
Lemma emits_realloc e o a n : ev_oracle e = [] -> emits e (emitted e [EvRealloc o a n]) [] [(o, a)] [(n, a)].
Proof. intros H. exists [EvRealloc o a n]. done. Qed.
Lemma emits_dealloc e s a : ev_oracle e = [] -> emits e (emitted e [EvDealloc s a]) [] [(s, a)] [].
Proof. intros H. exists [EvDealloc s a]. done. Qed.

(** ** Well-formed descriptors over component types *)
Record desc_ok (d : adesc) (cs : list ctype) : Prop := {
  do_wf : ad_wf d;
  do_comps : ad_components d = map cdesc_of cs;
  do_pos : 1 <= length cs;
  do_small : Forall small cs;
  do_valid : ad_is_valid d = true;
}.
Lemma desc_len d cs : desc_ok d cs -> ad_len d = length cs /\ length cs <= 14.
Proof.
  intros [Hwf Hc _ _]. pose proof (ad_components_length _ Hwf) as H. rewrite Hc, map_length in H.
  destruct Hwf as (_&?&_). lia.
Qed.
Lemma desc_strict d cs : desc_ok d cs -> strict (ids_of cs).
Proof. intros [(_&_&H) Hc _ _]. by rewrite Hc, ids_cdesc_of in H. Qed.
Lemma small_size c : small c -> cd_size (cdesc_of c) = ct_size c.
Proof. intros (?&?&_). cbn. rewrite N.mod_small; [done|lia]. Qed.
Lemma small_align c : small c -> cd_align (cdesc_of c) = ct_align c.
Proof. intros (?&?&_). cbn. rewrite N.mod_small; [done|lia]. Qed.
Lemma small_pow2 c : small c -> is_pow2 (ct_align c) = true.
Proof. intros (_&_&k&->). unfold is_pow2. rewrite N.log2_pow2 by lia. apply N.eqb_refl. Qed.

Notation column := (list (option value)).
(** A column block, and a whole archetype, from its columns. *)
Definition colb (cap : nat) (c : ctype) (col : column) : ptr value :=
  Some (Block (ct_size c * N.of_nat cap)%N (ct_align c) col).
Definition colbs cap (cs : list ctype) (C : list column) : list (ptr value) :=
  zip_with (colb cap) cs C ++ replicate (14 - length cs) None.
Definition mk (d : adesc) (cs : list ctype) (cap n : nat) (C : list column) (H : list (option N)) : arch :=
  Arch d (colbs cap cs C) (Some (Block (4 * N.of_nat cap)%N 4%N H)) n cap.
Definition shape (cs : list ctype) (cap : nat) (C : list column) (H : list (option N)) : Prop :=
  length C = length cs /\ Forall (fun col => length col = cap) C /\ length H = cap.
Definition layouts (cs : list ctype) (cap : nat) : list (N * N) :=
  (4 * N.of_nat cap, 4)%N :: map (fun c => (ct_size c * N.of_nat cap, ct_align c)%N) cs.
Lemma colbs_lookup cap cs C k c col :
  cs !! k = Some c -> C !! k = Some col -> colbs cap cs C !! k = Some (colb cap c col).
Proof.
  intros Hc Hcol. unfold colbs. apply lookup_app_l_Some. apply lookup_zip_with_Some. by exists c, col.
Qed.
Lemma colbs_insert cap cs C k c col :
  cs !! k = Some c -> length C = length cs ->
  <[k := colb cap c col]> (colbs cap cs C) = colbs cap cs (<[k := col]> C).
Proof.
  intros Hc Hl. unfold colbs. pose proof (lookup_lt_Some _ _ _ Hc).
  rewrite insert_app_l by (rewrite zip_with_length; lia).
  rewrite insert_zip_with. by rewrite (list_insert_id cs).
Qed.
Lemma colbs_length cap cs C : length C = length cs -> length cs <= 14 -> length (colbs cap cs C) = 14.
Proof. intros. unfold colbs. rewrite app_length, zip_with_length, replicate_length. lia. Qed.

Section arch.
  Context (d : adesc) (cs : list ctype) (Hd : desc_ok d cs).

  Lemma mk_comps cap n C H : a_comps (mk d cs cap n C H) = map cdesc_of cs.
  Proof. apply Hd. Qed.
  Lemma mk_comps_lookup cap n C H k c : cs !! k = Some c -> a_comps (mk d cs cap n C H) !! k = Some (cdesc_of c).
  Proof. intros E. rewrite mk_comps. change (map cdesc_of cs) with (cdesc_of <$> cs). by rewrite list_lookup_fmap, E. Qed.
  Lemma cs_small k c : cs !! k = Some c -> small c.
  Proof. intros E. eapply Forall_lookup_1; [apply Hd|done]. Qed.
  Lemma col_ctype C k (col : column) : length C = length cs -> C !! k = Some col -> exists c, cs !! k = Some c.
  Proof. intros Hl E. apply lookup_lt_is_Some. rewrite <- Hl. by eapply lookup_lt_Some. Qed.
  Lemma search_col k c cap n C H : cs !! k = Some c -> binary_search (ids (a_comps (mk d cs cap n C H))) (ct_id c) = inl k.
  Proof.
    intros E. apply binary_search_found.
    - rewrite mk_comps, ids_cdesc_of. by eapply desc_strict.
    - rewrite mk_comps, ids_cdesc_of. change (ids_of cs) with (ct_id <$> cs). by rewrite list_lookup_fmap, E.
  Qed.

  (** *** One cell *)
  Lemma raw_cell_mk cap n C H k r col x :
    length C = length cs -> C !! k = Some col -> col !! r = Some x -> raw_cell (mk d cs cap n C H) k r = Rd x.
  Proof.
    intros Hl Hk Hr. destruct (col_ctype C k col Hl Hk) as [c Hc]. unfold raw_cell. cbn [a_ptrs mk].
    rewrite (colbs_lookup _ _ _ _ _ _ Hc Hk). cbn. by rewrite Hr.
  Qed.
  Lemma typed_cell_mk cap n C H k c r col v :
    length C = length cs -> cs !! k = Some c -> C !! k = Some col -> col !! r = Some (Some v) -> v_ty v = ct_ty c ->
    typed_cell c (mk d cs cap n C H) k r = Rd v.
  Proof.
    intros Hl Hc Hk Hr Ht. unfold typed_cell. erewrite raw_cell_mk by eauto. cbn [rbind].
    rewrite (mk_comps_lookup _ _ _ _ _ _ Hc). rewrite small_size by (by eapply cs_small).
    by rewrite Ht, !N.eqb_refl.
  Qed.
  Lemma write_cell_mk cap n C H k r col v e :
    length C = length cs -> C !! k = Some col -> r < length col ->
    write_cell k r v (mk d cs cap n C H, e) = Ret tt (mk d cs cap n (<[k := <[r := v]> col]> C) H, e).
  Proof.
    intros Hl Hk Hr. destruct (col_ctype C k col Hl Hk) as [c Hc]. unfold write_cell. cbn [a_ptrs mk fst snd].
    rewrite (colbs_lookup _ _ _ _ _ _ Hc Hk). cbn [colb bl_cells]. rewrite (proj2 (Nat.ltb_lt _ _) Hr).
    cbn [bl_size bl_align]. do 2 f_equal. unfold set_ptrs, mk. cbn [a_desc a_assoc a_count a_cap a_ptrs]. f_equal.
    fold (colb cap c (<[r:=v]> col)). by rewrite colbs_insert.
  Qed.

  (** *** Construction *)
  Lemma alloc_columns_spec ds cap e :
    0 < cap -> ev_oracle e = [] -> Forall small ds ->
    exists e', alloc_columns (map cdesc_of ds) cap e = Ret (zip_with (colb cap) ds (replicate (length ds) (replicate cap None))) e' /\
      emits e e' [] [] (map (fun c => (ct_size c * N.of_nat cap, ct_align c)%N) ds).
  Proof.
    intros Hcap. revert e. induction ds as [|c ds IH]; intros e Ho Hs.
    { exists e. split; [done|]. by apply emits_refl. }
    apply Forall_cons in Hs as [Hc Hs]. cbn [map alloc_columns].
    rewrite small_size, small_align by done.
    assert (Ea : mem_alloc (A := value) (ct_size c * N.of_nat cap) (ct_align c) cap e =
                 Ret (colb cap c (replicate cap None)) (emitted e [EvAlloc (ct_size c * N.of_nat cap) (ct_align c)])).
    { unfold mem_alloc. rewrite (proj2 (N.eqb_neq _ _)) by (destruct Hc; nia). rewrite small_pow2 by done. cbn [orb negb].
      unfold bind, ask_allocator. rewrite Ho. cbn. unfold emitted. by rewrite Ho. }
    rewrite (bind_Ret _ _ _ _ _ Ea). cbn [colb].
    destruct (IH (emitted e [EvAlloc (ct_size c * N.of_nat cap) (ct_align c)])) as (e'&E'&Hem); [done|done|].
    rewrite (bind_Ret _ _ _ _ _ E'). cbn. exists e'. split; [done|].
    change ((ct_size c * N.of_nat cap, ct_align c)%N :: map (fun c0 => (ct_size c0 * N.of_nat cap, ct_align c0)%N) ds)
      with ([(ct_size c * N.of_nat cap, ct_align c)%N] ++ map (fun c0 => (ct_size c0 * N.of_nat cap, ct_align c0)%N) ds).
    eapply (emits_trans _ _ _ [] []); [by apply emits_alloc|].
    eapply (emits_frame _ _ _ _ _ [(ct_size c * N.of_nat cap, ct_align c)%N]) in Hem. by rewrite app_nil_r in Hem.
  Qed.
  Lemma with_capacity_spec cap e :
    0 < cap -> (N.of_nat cap <= 16777215)%N -> ev_oracle e = [] ->
    exists e', a_with_capacity d cap e =
        Ret (mk d cs cap 0 (replicate (length cs) (replicate cap None)) (replicate cap None)) e' /\
      emits e e' [] [] (layouts cs cap).
  Proof.
    intros Hcap Hmax Ho. unfold a_with_capacity.
    rewrite (bind_Ret _ _ _ _ _ (massert_true _ e (do_valid _ _ Hd))).
    rewrite (proj2 (Nat.ltb_lt _ _) Hcap). unfold MAX_ENTITIES_PER_ARCHETYPE, MAX_ENTITY_HANDLE_VALUE.
    rewrite (proj2 (N.leb_le _ _) Hmax). cbn [andb].
    assert (Ea : mem_alloc (A := N) (ENTITY_SIZE * N.of_nat cap) ENTITY_ALIGN cap e =
                 Ret (Some (Block (4 * N.of_nat cap) 4 (replicate cap None)))%N (emitted e [EvAlloc (4 * N.of_nat cap) 4])).
    { unfold mem_alloc, ENTITY_SIZE, ENTITY_ALIGN. rewrite (proj2 (N.eqb_neq _ _)) by nia. change (is_pow2 4) with true. cbn [orb negb].
      unfold bind, ask_allocator. rewrite Ho. cbn -[N.mul]. unfold emitted. by rewrite Ho. }
    rewrite (bind_Ret _ _ _ _ _ Ea).
    destruct (alloc_columns_spec cs cap (emitted e [EvAlloc (4 * N.of_nat cap) 4])) as (e'&E'&Hem); [done|done|apply Hd|].
    rewrite (do_comps _ _ Hd), (bind_Ret _ _ _ _ _ E'). exists e'. split.
    - unfold ret, mk, colbs. rewrite zip_with_length, replicate_length, Nat.min_id. done.
    - eapply (emits_trans _ _ _ [] []); [by apply emits_alloc|].
      eapply (emits_frame _ _ _ _ _ [_]) in Hem. exact Hem.
  Qed.

  (** *** Growing *)
  Definition grow {A} (cap : nat) (l : list (option A)) : list (option A) := l ++ replicate cap None.
  Lemma realloc_columns_spec cap n C p e :
    0 < cap -> ev_oracle e = [] -> length C = length cs -> Forall (fun col => length col = cap) C ->
    exists e',
      mfor (enum (map cdesc_of cs)) (realloc_column cap (cap + cap)) (Arch d (colbs cap cs C) p n cap, e) =
        Ret tt (Arch d (colbs (cap + cap) cs (map (grow cap) C)) p n cap, e') /\
      emits e e' [] (map (fun c => (ct_size c * N.of_nat cap, ct_align c)%N) cs)
                    (map (fun c => (ct_size c * N.of_nat (cap + cap), ct_align c)%N) cs).
  Proof.
    intros Hcap Ho Hl Hcols. pose proof (desc_len _ _ Hd) as [_ H14].
    set (LO := map (fun c => (ct_size c * N.of_nat cap, ct_align c)%N) cs).
    set (LN := map (fun c => (ct_size c * N.of_nat (cap + cap), ct_align c)%N) cs).
    set (PO := colbs cap cs C). set (PN := colbs (cap + cap) cs (map (grow cap) C)).
    destruct (mfor_enum_inv (fun i s => exists e', s = (Arch d (take i PN ++ drop i PO) p n cap, e') /\
                emits e e' [] LO (take i LN ++ drop i LO))
               (map cdesc_of cs) (realloc_column cap (cap + cap)) (Arch d PO p n cap, e)) as (s'&E'&e'&->&Hem).
    - exists e. split; [done|]. rewrite drop_0. by apply emits_refl.
    - intros i x s Hi (e1&->&Hem). change (map cdesc_of cs) with (cdesc_of <$> cs) in Hi.
      rewrite list_lookup_fmap in Hi. destruct (cs !! i) as [c|] eqn:Hc; [|done]. injection Hi as <-.
      pose proof (lookup_lt_Some _ _ _ Hc) as Hilt.
      destruct (lookup_lt_is_Some_2 C i) as [col Hcol]; [lia|].
      pose proof (cs_small _ _ Hc) as Hsm.
      assert (Hlen : length col = cap) by (exact (Forall_lookup_1 _ _ _ _ Hcols Hcol)).
      assert (HPO : PO !! i = Some (colb cap c col)) by (by apply colbs_lookup).
      assert (HPN : PN !! i = Some (colb (cap + cap) c (grow cap col))).
      { apply colbs_lookup; [done|]. change (map (grow cap) C) with (grow cap <$> C). by rewrite list_lookup_fmap, Hcol. }
      unfold realloc_column. rewrite small_size, small_align by done. unfold bind at 1. cbn [am_get a_ptrs fst].
      assert (HLt : length (take i PN) = i). { rewrite take_length. apply lookup_lt_Some in HPN. lia. }
      rewrite lookup_app_r by lia. rewrite HLt, Nat.sub_diag, lookup_drop, Nat.add_0_r, HPO.
      assert (Er : mem_realloc (colb cap c col) (ct_size c * N.of_nat cap) (ct_align c) (ct_size c * N.of_nat (cap + cap)) (cap + cap) e1 =
                   Ret (colb (cap + cap) c (grow cap col)) (emitted e1 [EvRealloc (ct_size c * N.of_nat cap) (ct_align c) (ct_size c * N.of_nat (cap + cap))])).
      { unfold mem_realloc, colb. cbn [bl_size bl_align bl_cells]. rewrite !N.eqb_refl.
        rewrite (proj2 (N.eqb_neq _ 0)) by (destruct Hsm; nia). cbn [andb negb].
        unfold bind, ask_allocator. rewrite (emits_oracle _ _ _ _ _ Hem). cbn -[N.mul Nat.add].
        rewrite take_ge by lia. rewrite Hlen, Nat.add_sub. unfold emitted. by rewrite (emits_oracle _ _ _ _ _ Hem). }
      rewrite (bind_Ret _ _ _ _ _ (am_env_Ret _ _ _ _ _ Er)). unfold bind at 1. unfold am_upd at 1. cbn [fst snd].
      cbn [colb massert ret].
      eexists. split; [reflexivity|]. eexists. split.
      + f_equal. unfold set_ptrs. cbn [a_desc a_ptrs a_assoc a_count a_cap]. f_equal.
        rewrite insert_app_r_alt by lia. rewrite HLt, Nat.sub_diag.
        rewrite (drop_S _ _ _ HPO). cbn [insert list_insert].
        rewrite (take_S_r _ _ _ HPN), <- app_assoc. done.
      + assert (HLO : LO !! i = Some (ct_size c * N.of_nat cap, ct_align c)%N).
        { unfold LO. change (map ?f cs) with (f <$> cs). by rewrite list_lookup_fmap, Hc. }
        assert (HLN : LN !! i = Some (ct_size c * N.of_nat (cap + cap), ct_align c)%N).
        { unfold LN. change (map ?f cs) with (f <$> cs). by rewrite list_lookup_fmap, Hc. }
        rewrite (drop_S _ _ _ HLO) in Hem. rewrite (take_S_r _ _ _ HLN).
        eapply (emits_trans _ _ _ [] []); [exact Hem|].
        rewrite <- app_assoc. apply emits_frame.
        apply (emits_frame_r _ _ _ [_] [_]). apply emits_realloc. by eapply emits_oracle.
    - rewrite map_length in *. exists e'. rewrite E'. split.
      + do 3 f_equal. assert (HP : length PN = 14) by (apply colbs_length; [by rewrite map_length|done]).
        assert (HP' : length PO = 14) by (by apply colbs_length).
        transitivity (take (length cs) PN ++ drop (length cs) PN); [|apply take_drop].
        f_equal. unfold PN, PO, colbs. rewrite !drop_app_ge by (rewrite zip_with_length, ?map_length; lia).
        rewrite !zip_with_length, map_length. done.
      + rewrite take_ge, drop_ge, app_nil_r in Hem by (unfold LO, LN; rewrite map_length; lia). done.
  Qed.
  Lemma resize_noop cap n C H e : n <> cap ->
    resize_if_necessary (mk d cs cap n C H, e) = Ret tt (mk d cs cap n C H, e).
  Proof.
    intros Hn. unfold resize_if_necessary, bind, am_get, is_full. cbn [fst a_count a_cap mk].
    rewrite (proj2 (Nat.eqb_neq _ _) Hn). done.
  Qed.
  Lemma resize_grows cap C H e :
    0 < cap -> (N.of_nat (cap + cap) < 16777215)%N -> ev_oracle e = [] -> shape cs cap C H ->
    exists e', resize_if_necessary (mk d cs cap cap C H, e) =
      Ret tt (mk d cs (cap + cap) cap (map (grow cap) C) (grow cap H), e') /\
      emits e e' [] (layouts cs cap) (layouts cs (cap + cap)).
  Proof.
    intros Hcap Hmax Ho (Hl&Hcols&HH). unfold resize_if_necessary. unfold bind at 1. cbn [am_get fst].
    unfold is_full. cbn [a_count a_cap mk]. rewrite Nat.eqb_refl.
    rewrite (proj2 (Nat.eqb_neq cap 0)) by lia. unfold resize_capacity. unfold bind at 1. cbn [am_get fst].
    change (a_cap (mk d cs cap cap C H)) with cap. cbv zeta.
    unfold MAX_ENTITIES_PER_ARCHETYPE, MAX_ENTITY_HANDLE_VALUE.
    rewrite (proj2 (Z.leb_gt (Z.of_nat cap + Z.of_nat cap) 0)) by lia.
    rewrite (proj2 (Z.leb_gt (Z.of_N 16777215) (Z.of_nat cap + Z.of_nat cap))) by lia. cbn [orb].
    replace (Z.to_nat (Z.of_nat cap + Z.of_nat cap)) with (cap + cap) by lia.
    assert (Er : mem_realloc (a_assoc (mk d cs cap cap C H)) (ENTITY_SIZE * N.of_nat cap) ENTITY_ALIGN (ENTITY_SIZE * N.of_nat (cap + cap)) (cap + cap) e =
                 Ret (Some (Block (4 * N.of_nat (cap + cap)) 4 (grow cap H)))%N (emitted e [EvRealloc (4 * N.of_nat cap) 4 (4 * N.of_nat (cap + cap))])).
    { unfold mem_realloc, ENTITY_SIZE, ENTITY_ALIGN. cbn [a_assoc mk bl_size bl_align bl_cells]. rewrite !N.eqb_refl.
      rewrite (proj2 (N.eqb_neq _ 0)) by nia. cbn [andb negb].
      unfold bind, ask_allocator. rewrite Ho. cbn -[N.mul Nat.add]. rewrite take_ge by lia. rewrite HH, Nat.add_sub.
      unfold emitted. by rewrite Ho. }
    rewrite (bind_Ret _ _ _ _ _ (am_env_Ret _ _ _ _ _ Er)). unfold bind at 1. unfold am_upd at 1. cbn [fst snd].
    rewrite (bind_Ret _ _ _ _ _ (massert_true _ _ eq_refl)).
    change (a_comps (mk d cs cap cap C H)) with (ad_components d). rewrite (do_comps _ _ Hd).
    destruct (realloc_columns_spec cap cap C (Some (Block (4 * N.of_nat (cap + cap)) 4 (grow cap H)))%N
                (emitted e [EvRealloc (4 * N.of_nat cap) 4 (4 * N.of_nat (cap + cap))])%N) as (e'&E'&Hem); [done..|].
    unfold set_assoc. cbn [a_desc a_ptrs a_count a_cap mk].
    rewrite (bind_Ret _ _ _ _ _ E'). exists e'. split; [done|].
    unfold layouts. eapply (emits_trans _ _ _ [] []).
    - apply (emits_frame_r _ _ _ [(4 * N.of_nat cap, 4)%N] [(4 * N.of_nat (cap + cap), 4)%N]). by apply emits_realloc.
    - apply (emits_frame _ _ _ _ _ [(4 * N.of_nat (cap + cap), 4)%N]). done.
  Qed.

  (** *** Handles *)
  Lemma entity_cells_mk cap n C H : n <= length H -> entity_cells (mk d cs cap n C H) = Rd (take n H).
  Proof. intros Hn. unfold entity_cells. cbn [a_assoc a_count mk bl_cells]. by rewrite (proj2 (Nat.leb_le _ _) Hn). Qed.
  Lemma entity_at_mk cap n C H r h : n <= length H -> r < n -> H !! r = Some (Some h) ->
    entity_at (mk d cs cap n C H) r = Rd h /\ entity_at_unchecked (mk d cs cap n C H) r = Rd h.
  Proof.
    intros Hn Hr E. unfold entity_at, entity_at_unchecked. rewrite entity_cells_mk by done. cbn [rbind].
    rewrite lookup_take by done. by rewrite E.
  Qed.
  Lemma entities_mk cap n C H hs : n <= length H -> length hs = n ->
    (forall r h, hs !! r = Some h -> H !! r = Some (Some h)) -> entities (mk d cs cap n C H) = Rd hs.
  Proof.
    intros Hn Hl Hh. unfold entities. rewrite entity_cells_mk by done. cbn [rbind].
    apply rmap_Forall2, Forall2_same_length_lookup. split; [rewrite take_length; lia|].
    intros r x h Hx Hhr. pose proof (lookup_lt_Some _ _ _ Hhr). rewrite lookup_take in Hx by lia.
    rewrite (Hh _ _ Hhr) in Hx. by injection Hx as <-.
  Qed.
  Lemma write_entity_mk cap n C H r h e : n <= length H -> r < n ->
    write_entity r h (mk d cs cap n C H, e) = Ret tt (mk d cs cap n C (<[r := Some h]> H), e).
  Proof.
    intros Hn Hr. unfold write_entity. cbn [fst snd]. rewrite entity_cells_mk by done.
    rewrite (proj2 (Nat.ltb_lt _ _)) by (rewrite take_length; lia). done.
  Qed.

End arch.
