(** Proofs for C67: calls outside the contract, at byte level. *)
From Verif Require Import ByteReg Sizes SearchProofs MonadProofs DescrProofs ArchProofs ArchOps ArchOps2 ArchOps3 RegProofs RegOps RegOps2 RegExact Refine Faults Faults2 Ref Total
  Bytes Bytes2 Bytes3 Bytes4 Bytes5 Bytes6 Bytes7 SpecBytes SpecBase SpecTrace SpecWorld SpecRef SpecTotal SpecBytes2.
Local Open Scope nat_scope.

Lemma rmap_same {A B} (f g : A -> rd B) l : (forall x, x ∈ l -> g x = f x) -> rmap g l = rmap f l.
Proof.
  induction l as [|x l IH]; intros H; [done|]. cbn [rmap]. rewrite H by left. rewrite IH; [done|]. intros. apply H. by right.
Qed.
(** Reading a value as another type. *)
Lemma read_as_other m C id off b v k rest : m_blocks m !! id = Some b -> drop off (hb_bytes b) = VByte v k :: rest ->
  0 < size_of C -> v_ty v <> ct_ty C -> read_as m C (Some (id, off)) = RdUB.
Proof.
  intros Hb Hd Hs Hty. unfold read_as. destruct (negb _); [done|]. unfold load. rewrite Hb. destruct (_ <=? _); [|done]. cbn [rbind]. rewrite Hd.
  destruct (size_of C) as [|n]; [lia|]. cbn [take]. unfold bytes_val. case_decide; [|done]. by rewrite (proj2 (N.eqb_neq _ _) Hty).
Qed.

Section rows.
Context {U : list ctype} (Hst : strict (ids_of U)) (Hsm : Forall small U) (Hla : laid_out U) (Hnt : NoDup (map ct_ty U)).
Notation arel := (@Bytes.arel U).
Notation ast := (@Bytes.ast U).
Notation sim := (@Bytes.sim U).
Lemma ty_inj C D : C ∈ U -> D ∈ U -> ct_ty C = ct_ty D -> C = D.
Proof using Hnt.
  intros [i Hi]%elem_of_list_lookup [j Hj]%elem_of_list_lookup E. assert (i = j) as ->; [|congruence].
  eapply NoDup_lookup; [exact Hnt|..]; change (map ct_ty U) with (ct_ty <$> U); rewrite list_lookup_fmap; [by rewrite Hi|]. rewrite Hj. cbn. by rewrite E.
Qed.
Context {K : caps} (cs : list ctype) (Hcs : in_U U cs).
(** The pointers to a whole row. *)
Lemma row_pointers m a A rows q h mv : arch_ok a cs rows -> rows !! q = Some (h, mv) -> arel (m_blocks m) a A ->
  exists bps, b_offset_sorted_pointers q A m = Rd bps /\ length bps = 14 /\
    (forall j D, cs !! j = Some D -> exists id, b_ptrs A !! j = Some (Some (id, 0)) /\ bps !! j = Some (Some (id, size_of D * q))) /\
    (forall j, length cs <= j < 14 -> bps !! j = Some None).
Proof using Hsm Hcs.
  intros Hok Hq Ha. pose proof (proj1 Hok) as Hd. pose proof Hok as (_&_&_&HFr&_). pose proof (Forall_lookup_1 _ _ _ _ HFr Hq) as [Hfull Hfit].
  unfold b_offset_sorted_pointers. rewrite (ar_comps _ _ _ Ha). unfold a_comps. rewrite (do_comps _ _ Hd).
  destruct (rmap_enum_ex (fun '(i, d) => column_at A m i (dsize d * q))
    (fun j d p => exists D id, cs !! j = Some D /\ b_ptrs A !! j = Some (Some (id, 0)) /\ p = Some (id, size_of D * q)) (map cdesc_of cs)) as (qs&Eq&Hlen&Hqs).
  { intros j d Hj. change (map cdesc_of cs) with (cdesc_of <$> cs) in Hj. rewrite list_lookup_fmap in Hj. destruct (cs !! j) as [D|] eqn:Es; [|done]. injection Hj as <-.
    destruct (full_Some _ _ _ _ Hfull Es) as [v Hv]. destruct (typed_cell_ok _ _ Hd _ _ _ _ _ _ _ _ eq_refl Hok Hq Es Hv) as [_ Er].
    assert (HD : D ∈ U) by (by eapply (in_U_elem _ _ _ Hcs), elem_of_list_lookup_2).
    assert (Hdd : a_comps a !! j = Some (cdesc_of D)).
    { unfold a_comps. rewrite (do_comps _ _ Hd). change (map cdesc_of cs) with (cdesc_of <$> cs). by rewrite list_lookup_fmap, Es. }
    destruct (cell_load _ _ _ _ _ _ _ Ha Hdd Er) as (id&Hp&Hcol&_).
    rewrite (dsize_of Hsm _ HD), Nat.mul_comm in Hcol. exists (Some (id, size_of D * q)). split; [by rewrite (dsize_of Hsm _ HD)|]. by exists D, id. }
  rewrite Eq. cbn [rbind]. rewrite map_length in Hlen. destruct (desc_len _ _ Hd) as [_ H14].
  exists (qs ++ replicate (MAX_COMPONENTS_PER_ENTITY - length qs) None). split; [done|]. split; [|split].
  - rewrite app_length, replicate_length. unfold MAX_COMPONENTS_PER_ENTITY in *. lia.
  - intros j D Hj. destruct (Hqs j (cdesc_of D)) as (p&Hp&D'&id&HD'&Hptr&->).
    { change (map cdesc_of cs) with (cdesc_of <$> cs). by rewrite list_lookup_fmap, Hj. }
    rewrite Hj in HD'. injection HD' as <-. exists id. split; [done|]. by apply lookup_app_l_Some.
  - intros j Hj. rewrite lookup_app_r by lia. apply lookup_replicate. unfold MAX_COMPONENTS_PER_ENTITY. split; [done|lia].
Qed.
Lemma sorted_length q a rows : arch_ok a cs rows -> length (offset_sorted_pointers q a) = 14 /\ forall j, length cs <= j < 14 -> offset_sorted_pointers q a !! j = Some None.
Proof using Type.
  intros Hok. pose proof (proj1 Hok) as Hd. destruct (desc_len _ _ Hd) as [_ H14]. unfold offset_sorted_pointers.
  assert (Hl : length (map (fun '(i, _) => match a_ptrs a !! i with Some (Some _) => Some (i, q) | _ => None end) (enum (a_comps a))) = length cs).
  { rewrite map_length. unfold enum. rewrite zip_with_length, seq_length. unfold a_comps. rewrite (do_comps _ _ Hd), map_length. lia. }
  split.
  - rewrite app_length, replicate_length, Hl. unfold MAX_COMPONENTS_PER_ENTITY. lia.
  - intros j Hj. rewrite lookup_app_r by (rewrite Hl; lia). apply lookup_replicate. rewrite Hl. unfold MAX_COMPONENTS_PER_ENTITY. split; [done|lia].
Qed.
(** One element of a tuple read out of a row: a value, or undefined behaviour, in both. *)
Lemma deref_same m a A rows q h mv bps C slot : arch_ok a cs rows -> rows !! q = Some (h, mv) -> arel (m_blocks m) a A -> C ∈ U ->
  b_offset_sorted_pointers q A m = Rd bps ->
  (letr x := b_deref C m bps slot in Rd x.2) = (letr x := deref C a (offset_sorted_pointers q a) slot in Rd x.2).
Proof using Hsm Hla Hnt Hcs.
  intros Hok Hq Ha HC E. destruct (row_pointers _ _ _ _ _ _ _ Hok Hq Ha) as (bps'&E'&Hlen&Hin&Hout). rewrite E in E'. injection E' as <-.
  pose proof (proj1 Hok) as Hd. destruct (sorted_length q _ _ Hok) as [Hlen' Hout']. unfold b_deref, deref.
  destruct (decide (slot < 14)) as [Hs|Hs]; cycle 1.
  { rewrite (lookup_ge_None_2 bps slot) by lia. destruct (offset_sorted_pointers q a !! slot) as [x|] eqn:Ex; [|done]. apply lookup_lt_Some in Ex. change (slot < length (offset_sorted_pointers q a : list cellptr)) in Ex. lia. }
  destruct (cs !! slot) as [D|] eqn:ED.
  2: { apply lookup_ge_None in ED. by rewrite Hout, Hout' by lia. }
  destruct (Hin _ _ ED) as (id&Hp&->). rewrite (offset_ptr_ok _ _ Hd a rows q _ _ eq_refl Hok ED).
  pose proof Hok as (_&_&_&HFr&_). pose proof (Forall_lookup_1 _ _ _ _ HFr Hq) as [Hfull Hfit].
  destruct (full_Some _ _ _ _ Hfull ED) as [v Hv]. destruct (typed_cell_ok _ _ Hd _ _ _ _ _ _ _ _ eq_refl Hok Hq ED Hv) as [Et Er].
  assert (HD : D ∈ U) by (by eapply (in_U_elem _ _ _ Hcs), elem_of_list_lookup_2).
  assert (Hdd : a_comps a !! slot = Some (cdesc_of D)).
  { unfold a_comps. rewrite (do_comps _ _ Hd). change (map cdesc_of cs) with (cdesc_of <$> cs). by rewrite list_lookup_fmap, ED. }
  assert (Hvt : v_ty v = ct_ty D) by (apply Hfit; [by eapply elem_of_list_lookup_2|done]).
  destruct (decide (C = D)) as [->|Hne].
  - rewrite Et. destruct (typed_read Hsm Hla _ _ _ _ _ _ _ Ha HD Hdd Et) as (id'&Hp'&_&Hr). rewrite Hp in Hp'. injection Hp' as <-. by rewrite Hr.
  - assert (Hty : v_ty v <> ct_ty C) by (rewrite Hvt; intros Ex; apply Hne; by apply ty_inj).
    unfold typed_cell. rewrite Er. cbn [rbind]. rewrite Hdd, (proj2 (N.eqb_neq _ _) Hty). cbn [andb rbind].
    destruct (cell_here _ _ _ _ _ _ _ Ha Hdd Er) as (id'&base&b&Hpb&Hcell&Hq'&HH&_). rewrite Hp in Hq'. injection Hq' as <-.
    rewrite (dsize_of Hsm _ HD) in HH. rewrite Nat.mul_comm.
    pose proof (col_read (val_bytes (size_of D)) (size_of D) (val_bytes_length _) _ _ _ Hcell) as Hrd. cbn [cell_bytes] in Hrd.
    assert (HsD : 0 < size_of D) by (destruct (U_small Hsm _ HD) as (?&_); unfold size_of; lia).
    assert (HsC : 0 < size_of C) by (destruct (U_small Hsm _ HC) as (?&_); unfold size_of; lia).
    destruct (drop (q * size_of D) (col_bytes (val_bytes (size_of D)) (size_of D) (bl_cells b))) as [|x rest] eqn:Edr.
    { rewrite take_nil in Hrd. apply (f_equal length) in Hrd. rewrite val_bytes_length in Hrd. cbn in Hrd. lia. }
    assert (x = VByte v 0) as ->.
    { destruct (size_of D) as [|n]; [lia|]. cbn [take] in Hrd. unfold val_bytes in Hrd. cbn [seq map] in Hrd. by injection Hrd. }
    erewrite read_as_other; [done|exact HH|cbn [hb_bytes]; exact Edr|done|done].
Qed.
Lemma read_row_same be m a A rows q h mv G : arch_ok a cs rows -> rows !! q = Some (h, mv) -> arel (m_blocks m) a A -> in_U U G ->
  b_read_components_exact be G q A m = read_components_exact_unchecked be G q a.
Proof using Hsm Hla Hnt Hcs.
  intros Hok Hq Ha HG. destruct (row_pointers _ _ _ _ _ _ _ Hok Hq Ha) as (bps&E&_). unfold b_read_components_exact, read_components_exact_unchecked, read_from_sorted_pointers, b_ref_tuple.
  rewrite E. cbn [rbind]. apply rmap_same. intros [i C] Hi. eapply deref_same; try eassumption.
  apply elem_of_list_lookup in Hi as (k&Hk). apply enum_lookup_inv in Hk as (C'&E'&Hk). injection E' as -> ->. eapply (in_U_elem _ _ _ HG). by eapply elem_of_list_lookup_2.
Qed.
(** Taking a row out as any tuple type. *)
Definition sim_all {X} (F : list N) (s : arch * env) (S1 : barch * mem) (f : AM X) (g : BAM X) : Prop :=
  sim F s S1 f g /\ (ast F s S1 -> f s = UB -> g S1 = UB).
Lemma sim_take F s S1 c G rows row h mv : arch_ok s.1 cs rows -> rows !! row = Some (h, mv) -> in_U U G ->
  sim_all F s S1 (swap_remove_unchecked c G row) (b_swap_remove c G row).
Proof using Hsm Hla Hnt Hcs.
  intros Hok Hrow HG. pose proof (proj1 Hok) as Hd. pose proof (lookup_lt_Some _ _ _ Hrow) as Hlt. destruct s as [a e]. cbn [fst] in *.
  assert (Hread : forall a1 rows1 q S2, a_desc a1 = a_desc a -> arch_ok a1 cs rows1 -> rows1 !! q = Some (h, mv) -> arel (m_blocks S2.2) a1 S2.1 ->
    b_read_components_exact (big c) G q S2.1 S2.2 = read_components_exact_unchecked (big c) G q a1).
  { intros a1 rows1 q S2 _ Hok1 Hq Hr. by eapply read_row_same. }
  split.
  - apply sim_get. intros Ha. cbn [fst] in *. apply sim_bind; [apply sim_debug; by rewrite (ar_count _ _ _ (as_rel _ _ _ Ha))|]. intros [] s1 T1 E1 _. apply mdebug_inv in E1 as ->.
    apply sim_bind; [by apply (sim_last F (a, e) S1)|]. intros last s2 T2 E2 _. apply lift_inv in E2 as [E2 ->].
    rewrite (last_row_ok cs c a rows) in E2 by (done || lia). injection E2 as <-. destruct (Nat.eqb_spec row (length rows - 1)) as [El|El].
    + apply sim_bind; [|intros data ? ? _ _; apply sim_bind; [apply sim_decrement|intros [] ? ? _ _; apply sim_ret]].
      apply sim_rd. intros Ht v E. cbn [fst] in E. rewrite (Hread a rows row T2); [done|done|done|done|]. apply (as_rel _ _ _ Ht).
    + destruct (swap_ok (a_desc a) cs Hd a rows row (length rows - 1) e eq_refl Hok Hlt ltac:(lia) El) as (a1&Es&Ed1&_&Hok1).
      apply sim_bind; [apply sim_swap_entities|]. intros [] s3 T3 E3 _. rewrite Es in E3. injection E3 as <-.
      apply sim_bind; [|intros data ? ? _ _; apply sim_bind; [apply sim_decrement|intros [] ? ? _ _; apply sim_ret]].
      apply sim_rd. intros Ht v E. cbn [fst] in E. rewrite (Hread a1 _ (length rows - 1) T3 Ed1 Hok1); [done| |apply (as_rel _ _ _ Ht)].
      rewrite swapl_lookup by lia. unfold swp. rewrite decide_False by lia. by rewrite decide_True.
  - intros Ha E. unfold swap_remove_unchecked in E. unfold bind at 1, am_get at 1 in E. cbn [fst] in E.
    assert (Eb : (row <? a_len a) = true) by (unfold a_len; rewrite (count_ok cs _ _ Hok); by apply Nat.ltb_lt).
    assert (Ecnt : b_count S1.1 = length rows) by (rewrite (ar_count _ _ _ (as_rel _ _ _ Ha)); cbn [fst]; exact (count_ok cs _ _ Hok)).
    assert (Elr : lift_rd (b_last_row c S1.1) S1 = Ret (length rows - 1) S1).
    { unfold b_last_row. rewrite Ecnt. destruct rows as [|r0 rows']; [cbn in Hlt; lia|]. cbn [length]. cbn [lift_rd]. unfold ret. do 2 f_equal. lia. }
    rewrite (bind_Ret _ _ _ _ _ (mdebug_true _ _ _ Eb)) in E.
    erewrite (bind_Ret (lift_rd (last_row c a))) in E; [|apply lift_Rd; apply (last_row_ok cs); [done|lia]].
    unfold b_swap_remove. unfold bind at 1, bm_get at 1. 
    assert (Eb' : (row <? b_count S1.1) = true) by (rewrite Ecnt; by apply Nat.ltb_lt). rewrite (bind_Ret _ _ _ _ _ (mdebug_true _ _ _ Eb')).
    rewrite (bind_Ret _ _ _ _ _ Elr). destruct (Nat.eqb_spec row (length rows - 1)) as [El|El].
    + unfold bind at 1, am_rd in E. unfold bind at 1, bm_rd. cbn [fst] in E.
      rewrite (Hread a rows row S1 eq_refl Hok Hrow (as_rel _ _ _ Ha)). destruct (read_components_exact_unchecked _ _ _ _) as [vs| |]; [|done|done].
      cbn [lift_rd] in E. destruct (decrement_ok (a_desc a) cs Hd c a rows e eq_refl Hok ltac:(lia)) as (a'&Ea'&_). unfold ret at 1 in E. by rewrite (bind_Ret _ _ _ _ _ Ea') in E.
    + destruct (swap_ok (a_desc a) cs Hd a rows row (length rows - 1) e eq_refl Hok Hlt ltac:(lia) El) as (a1&Es&Ed1&_&Hok1).
      rewrite (bind_Ret _ _ _ _ _ Es) in E. destruct (sim_swap_entities F (a, e) S1 _ _ Ha _ _ Es) as (T1&Et&Ha1&_). rewrite (bind_Ret _ _ _ _ _ Et).
      assert (Hr1 : swapl row (length rows - 1) rows !! (length rows - 1) = Some (h, mv)).
      { rewrite swapl_lookup by lia. unfold swp. rewrite decide_False by lia. by rewrite decide_True. }
      unfold bind at 1, am_rd in E. unfold bind at 1, bm_rd. cbn [fst] in E.
      rewrite (Hread a1 _ _ T1 Ed1 Hok1 Hr1 (as_rel _ _ _ Ha1)). destruct (read_components_exact_unchecked _ _ _ _) as [vs| |]; [|done|done].
      cbn [lift_rd] in E. destruct (decrement_ok (a_desc a) cs Hd c a1 _ e Ed1 Hok1 ltac:(rewrite swapl_length; lia)) as (a'&Ea'&_). unfold ret at 1 in E. by rewrite (bind_Ret _ _ _ _ _ Ea') in E.
Qed.
End rows.

(** ** Calls on tuple types that are not valid, at byte level *)
Section invalid.
  Context (c : cfg) (G : group) (Hv : gd_is_valid (group_desc (big c) G) = false).
  Notation be := (big c).
  Lemma b_invalid_get row A m : G <> [] ->
    b_get_fuzzy_components c G row A m = (if dbg c then RdPanic else RdUB) /\ b_get_fuzzy_components_mut c G row A m = (if dbg c then RdPanic else RdUB).
  Proof.
    intros HG. unfold b_get_fuzzy_components, b_get_fuzzy_components_mut, rdebug_assert. cbv zeta. rewrite Hv. destruct (dbg c); [done|]. cbn [rbind].
    rewrite (invalid_desc c G Hv). change (b_get_fuzzy_pointers gd_INVALID row A m) with (Rd (replicate 14 (None : bptr))). cbn [rbind]. unfold b_ref_tuple, b_mut_ref_tuple.
    assert (exists C, G !! 0 = Some C) as [C HC]. { destruct (G !! 0) eqn:E; [eauto|]. destruct HG. by destruct G. }
    assert (Hs : forall i C, b_deref C m (replicate 14 None) (group_slot be G i) = RdUB).
    { intros i C0. rewrite (invalid_slot c G Hv). unfold b_deref, read_as. cbn [lookup list_lookup replicate]. change (load m None (size_of C0)) with (RdUB (A := list mbyte)). by destruct (negb (aligned m None (ct_align C0))). }
    split; apply rmap_ub; try (intros [i C0] _; by rewrite Hs); exists (0, C); (split; [by apply elem_of_enum|by rewrite Hs]).
  Qed.
  Lemma b_invalid_collect {I} acc (item : barch -> mem -> rd I) R :
    b_slices_collect c G acc item R = if dbg c then RdPanic else Rd (Some []).
  Proof.
    unfold b_slices_collect, arch_iter_new. rewrite (invalid_desc c G Hv). cbn [gd_len gd_INVALID gd_arch ad_len ad_INVALID].
    destruct (dbg c); [done|]. cbn [rbind collect]. unfold b_slices_next. by rewrite (invalid_next c G Hv).
  Qed.
  Lemma b_invalid_exact R : b_find_exact c G R = Rd None.
  Proof. unfold b_find_exact, find_archetype. by rewrite (invalid_desc c G Hv). Qed.
  Lemma b_invalid_calls R :
    (forall f upd, Forall (fun o => bstep c o R = if dbg c then Panic R else Ret (OutCols []) R) [OpIter G; OpIterF G f; OpIterMut G upd; OpIterFMut G f upd]) /\
    (forall f upd, Forall (fun o => bstep c o R = if dbg c then Panic R else Ret (OutECols []) R) [OpIterE G; OpIterEF G f; OpIterEMut G upd; OpIterEFMut G f upd]) /\
    (forall upd, Forall (fun o => bstep c o R = Ret (OutCols [map (fun _ => []) G]) R) [OpExact G; OpExactMut G upd]) /\
    (forall upd, Forall (fun o => bstep c o R = Ret (OutECols [([], map (fun _ => []) G)]) R) [OpExactE G; OpExactEMut G upd]).
  Proof.
    assert (Hmod : forall upd (s : breg), b_modify_item upd (empty_slices G) s = Ret (empty_slices G) s).
    { intros upd s. unfold b_modify_item.
      assert (Hg : forall k, mmap (fun '(i, col) => mmap (b_modify (upd i)) col) (zip (seq k (length (empty_slices (A:=bloc) G))) (empty_slices G)) s = Ret (empty_slices G) s).
      { clear Hv. unfold empty_slices. induction G as [|C G' IH]; intros k; [done|]. cbn [map length seq zip_with mmap].
        rewrite bind_ret_l. rewrite (bind_Ret _ _ _ _ _ (IH (S k))). done. }
      apply Hg. }
    repeat split; intros; repeat constructor; cbn [bstep].
    all: unfold b_iter_matching, b_iter_filtered, b_iter_matching_mut, b_iter_filtered_mut, b_iter_entity_matching, b_iter_entity_filtered, b_iter_entity_matching_mut, b_iter_entity_filtered_mut,
      b_exact, b_exact_mut, b_entity_exact, b_entity_exact_mut, bind, bq_rd, lift_rd.
    all: rewrite ?b_invalid_collect, ?b_invalid_exact.
    all: cbn [rbind].
    all: try (destruct (dbg c); done).
    all: unfold b_modify_items, b_modify_eitems; cbn [mmap]; unfold bind; by rewrite Hmod.
  Qed.
End invalid.

Section steps.
Context {Fm : family} (c : cfg) (U : list ctype) (HU : universe (big c) U) (Hla : laid_out U) (Hnt : NoDup (map ct_ty U)).
(** The blocks [L] belong to others. *)
Context {L : list (N * hblk)}.
Notation be := (big c).
Notation brel := (@Bytes5.brel U L).
Notation rsim := (@Bytes5.rsim U L).
Notation arel := (@Bytes.arel U).
Implicit Types (T : list tab) (w : world).
Let Hst : strict (ids_of U) := proj1 HU.
Let Hsm : Forall small U := proj1 (proj2 HU).

(** The two registries answer alike: both return, both panic, or both are undefined. *)
Definition alike {X} (f : RM X) (g : BRM X) (r : reg) (R : breg) : Prop :=
  match f r with
  | Ret x r' => exists R', g R = Ret x R' /\ brel r' R'
  | Panic r' => exists R', g R = Panic R' /\ brel r' R'
  | UB => g R = UB
  end.
Lemma alike_ret {X} (f : RM X) g r R x r' : rsim r R f g -> brel r R -> f r = Ret x r' -> alike f g r R.
Proof. intros Hs Hb E. unfold alike. rewrite E. by apply Hs. Qed.
Lemma alike_same {X} (f : RM X) g r R x : brel r R -> f r = Ret x r -> g R = Ret x R -> alike f g r R.
Proof. intros Hb E E'. unfold alike. rewrite E. by exists R. Qed.
Lemma alike_panic {X} (f : RM X) g r R : brel r R -> f r = Panic r -> g R = Panic R -> alike f g r R.
Proof. intros Hb E E'. unfold alike. rewrite E. by exists R. Qed.
Lemma alike_ub {X} (f : RM X) g r R : f r = UB -> g R = UB -> alike f g r R.
Proof. intros E E'. unfold alike. by rewrite E. Qed.
Lemma alike_map {X Y} (f : RM X) g (k : X -> Y) r R : alike f g r R -> alike (let! x := f in ret (k x)) (let! x := g in ret (k x)) r R.
Proof.
  unfold alike, bind, ret. destruct (f r) as [x r'|r'|]; [intros (R'&->&H); by exists R'|intros (R'&->&H); by exists R'|by intros ->].
Qed.
(** An entity's row. *)
Lemma alike_remove_entity r R T w G h : reg_ok be U r T w -> in_U U G -> (exists x r', remove_entity c G h r = Ret x r') \/ remove_entity c G h r = UB ->
  brel r R -> alike (remove_entity c G h) (b_remove_entity c G h) r R.
Proof using HU Hla Hnt.
  intros Hok HG Hres Hb. destruct (w !! h) as [x|] eqn:Ew.
  - destruct (live_entry c U _ _ _ _ _ Hok Ew) as (en&i&j&t&m&a&Een&Ei&Ej&Hrow&Ht&Hj&->&Ha&Hta). pose proof Hta as (_&Hao&Hin&_).
    change (ar_archs (r_ar r)) with (archs r) in Ha. destruct (brel_at _ _ _ _ Hb Ha) as (A&HA&Hr).
    destruct (sim_take Hsm Hla Hnt (t_cs t) Hin (rest_own i (br_archs R) ++ map fst L) (a, r_env r) (A, br_mem R) c G (t_rows t) j h m Hao Hj HG) as [Hsim Hub].
    assert (Hs : rsim r R (remove_entity c G h) (b_remove_entity c G h)).
    { apply rsim_get. intros _. rewrite (entry_same _ _ _ _ Hb), Een, Ei, Ej. cbv zeta. apply rsim_bind.
      - apply rsim_with. intros _ a' A' Ha' HA'. rewrite Ha in Ha'. injection Ha' as <-. rewrite HA in HA'. injection HA' as <-. exact Hsim.
      - intros [data swapped] r1 R1 _ _. apply rsim_dop. apply rsim_bind.
        + destruct swapped; [|apply rsim_ret]. apply rsim_arch. intros a' A' H1 Ha' HA' Hr'. apply rsim_bind; [|intros h' ? ? _ _; apply rsim_upd].
          apply rsim_mrd. intros _ v. by apply (entity_at_sim (U := U)).
        + intros [] ? ? _ _. apply rsim_bind; [apply rsim_er|intros v ? ? _ _]. apply rsim_bind; [apply rsim_debug|intros [] ? ? _ _]. apply rsim_ret. }
    destruct Hres as [(y&r'&E)|E]; [by eapply alike_ret|]. apply alike_ub; [done|].
    destruct (swap_remove_read (a_desc a) (t_cs t) (proj1 Hao) c G a (t_rows t) j h m (r_env r) eq_refl Hao Hj) as (a1&a'&q&_&_&_&Ed'&_&Hok'&Es).
    assert (swap_remove_unchecked c G j (a, r_env r) = UB) as Eub.
    { destruct (read_components_exact_unchecked be G q a1) as [vs| |]; [|exfalso|done].
      2: { revert E. unfold remove_entity. rewrite rm_get_step, Een, Ei, Ej. unfold bind at 1, with_arch. fold (archs r). by rewrite Ha, Es. }
      exfalso. destruct (ro_er _ _ _ _ _ Hok) as [F Her]. pose proof (row_cap _ _ _ _ Hta) as Hcap. pose proof (lookup_lt_Some _ _ _ Hj) as Hjlt.
      subst i j. set (i := e_arch c en) in *. set (j := e_row en) in *. set (r1 := put_arch r i a' (r_env r)).
      assert (Ha1 : ar_archs (r_ar r1) !! i = Some a') by (by eapply put_arch_at).
      destruct (fixup_ok c entity_at r1 T i j h m t a' en F) as (rg&Ef&Hinv1&Hlen1&Hloc1); [exact (ro_loc _ _ _ _ _ Hok)|exact Her|exact Ht|exact Hj|exact Ha1| |exact Hrow|lia|].
      { intros hl Hmv. unfold RegProofs.moved in Hmv. destruct (is_last j (length (t_rows t))) eqn:El; [done|].
        pose proof (removed_row_at _ _ _ Hj El) as Hrr. destruct (t_rows t !! (length (t_rows t) - 1)) as [[hl' ml]|]; [|done].
        cbn in Hmv. injection Hmv as ->. by eapply entity_at_ok. }
      assert (Hloch : loc_of be rg h = Some (i, j)).
      { rewrite Hloc1. assert (loc_of be (r_er r) h = Some (i, j)) as El by (apply (ro_loc _ _ _ _ _ Hok); eauto). cbn. rewrite El. by case_decide. }
      destruct (loc_destroy be rg F h _ Hinv1 Hloch) as (rg'&F'&Edes&_).
      assert (remove_entity c G h r = Ret (Some vs) (Reg rg' (r_ar r1) (r_env r))) as E'; [|congruence].
      unfold remove_entity. rewrite rm_get_step, Een. fold i j.
      rewrite (bind_Ret _ _ _ _ _ (with_arch_Ret _ _ _ _ _ _ _ Ha Es)). cbn beta iota. apply dop_Ret.
      erewrite bind_Ret; [|exact Ef]. erewrite bind_Ret; [|apply rm_er_Ret; exact Edes].
      rewrite (bind_Ret _ _ _ _ _ (mdebug_true _ _ _ eq_refl)). done. }
    unfold b_remove_entity. unfold bind at 1, bq_get, get_st. rewrite (entry_same _ _ _ _ Hb), Een, Ei, Ej. cbv zeta. unfold bind at 1, b_with_arch. rewrite HA.
    by rewrite (Hub (brel_ast _ _ _ _ _ Hb Ha HA) Eub).
  - assert (Een : entry_of c r h = None) by (by eapply dead_entry).
    unfold alike, remove_entity, b_remove_entity. rewrite rm_get_step, Een. unfold bind at 1, bq_get, get_st. rewrite (entry_same _ _ _ _ Hb), Een. cbn. by exists R.
Qed.
Notation calls o r R := (alike (step c o) (bstep c o) r R).
Lemma calls_usual r R b o : booked c U r b -> contract be U (bk_world b) o -> brel r R -> calls o r R.
Proof using HU Hla.
  intros Hb Hc Hr. destruct (ref_step c U HU r b o Hb Hc) as (r1&E1&_). pose proof (bo_tabs _ _ _ _ Hb) as (T&Hok&_).
  eapply alike_ret; [by eapply step_sim|done|exact E1].
Qed.
(** Adding a fourteenth component, removing the fourteenth. *)
Lemma calls_add_13 r R T w C h v e : reg_ok be U r T w -> w !! h = Some e -> size (en_vals e) = 13 -> C ∈ U -> en_vals e !! ct_id C = None ->
  brel r R -> calls (OpAdd C h v) r R.
Proof using HU.
  intros H Ew Hsz HC Hn Hb. cbn [step bstep]. apply alike_map. unfold alike. rewrite (add_13_panics c U HU r T w C h v e H Ew Hsz HC Hn).
  destruct (live_entry c U _ _ _ _ _ H Ew) as (en&i&j&t&m&a&Een&Ei&Ej&Hrow&Ht&Hj&->&Ha&Hta).
  destruct (tab_facts _ _ _ _ Hta) as (Hd&_&Hnd&H14&Hlen&_). destruct (tab_row _ _ HU _ _ _ _ _ Hta Hj) as (Hfull&Hfit&Ety).
  pose proof (full_size _ _ Hnd Hfull) as Hsize. cbn [en_vals] in *.
  assert (Ep : ad_add_component be (a_desc a) (cdesc_of C) = RdPanic).
  { apply add_component_13_panics; [apply Hd|lia|]. rewrite (do_comps _ _ Hd), ids_cdesc_of. cbn.
    intros Hx. apply Hfull in Hx as [? ?]. congruence. }
  destruct (brel_at _ _ _ _ Hb Ha) as (A&HA&Hr).
  assert (Ef : b_find_adding c i (cdesc_of C) R = Panic R).
  { unfold b_find_adding. unfold bind at 1, bq_get, get_st. rewrite (proj2 (Nat.ltb_ge _ _)); [|apply Nat.lt_le_incl; by eapply lookup_lt_Some].
    rewrite HA, (ar_desc _ _ _ Hr), Ep. done. }
  unfold b_add_component. unfold bind at 1, bq_get, get_st. rewrite (entry_same _ _ _ _ Hb), Een, Ei. cbv zeta. unfold bind at 1, b_dropping_on_panic at 1. rewrite Ef.
  eexists. split; [done|]. destruct Hb as [? ? ? ? ? ? He]. split; cbn; try done. by rewrite He.
Qed.
Lemma calls_remove_14 r R T w C h v e : reg_ok be U r T w -> w !! h = Some e -> size (en_vals e) = 14 -> C ∈ U -> en_vals e !! ct_id C = Some v ->
  brel r R -> calls (OpRemove C h) r R.
Proof using HU.
  intros H Ew Hsz HC Hn Hb. cbn [step bstep]. apply alike_map. unfold alike. rewrite (remove_14_panics c U HU r T w C h e v H Ew Hsz HC Hn).
  destruct (live_entry c U _ _ _ _ _ H Ew) as (en&i&j&t&m&a&Een&Ei&Ej&Hrow&Ht&Hj&->&Ha&Hta).
  destruct (tab_facts _ _ _ _ Hta) as (Hd&_&Hnd&H14&Hlen&_). destruct (tab_row _ _ HU _ _ _ _ _ Hta Hj) as (Hfull&Hfit&Ety).
  pose proof (full_size _ _ Hnd Hfull) as Hsize. cbn [en_vals] in *.
  assert (Ep : ad_remove_component be (a_desc a) (ct_id C) = RdPanic).
  { apply remove_component_14_panics; [apply Hd|lia|]. rewrite (do_comps _ _ Hd), ids_cdesc_of. apply Hfull. eauto. }
  destruct (brel_at _ _ _ _ Hb Ha) as (A&HA&Hr).
  assert (Ef : b_find_removing c i (cdesc_of C) R = Panic R).
  { unfold b_find_removing. unfold bind at 1, bq_get, get_st. rewrite (proj2 (Nat.ltb_ge _ _)); [|apply Nat.lt_le_incl; by eapply lookup_lt_Some].
    rewrite HA, (ar_desc _ _ _ Hr). cbn [cdesc_of cd_id]. rewrite Ep. done. }
  unfold b_remove_component. unfold bind at 1, bq_get, get_st. rewrite (entry_same _ _ _ _ Hb), Een, Ei. cbv zeta. unfold bind at 1. rewrite Ef. by exists R.
Qed.
(** Tuple types that are not valid. *)
Lemma calls_get_invalid r R T w G h e o : reg_ok be U r T w -> w !! h = Some e -> gd_is_valid (group_desc be G) = false -> G <> [] ->
  o = OpGetAll G h \/ (exists vs, o = OpSetAll G h vs) -> brel r R -> calls o r R.
Proof using Type.
  intros H Ew Hv HG Ho Hb. destruct (invalid_get_live c U r T w G h e H Ew Hv HG) as [E1 E2].
  destruct (live_entry c U _ _ _ _ _ H Ew) as (en&i&j&t&m&a&Een&Ei&Ej&Hrow&Ht&Hj&->&Ha&Hta).
  destruct (brel_at _ _ _ _ Hb Ha) as (A&HA&Hr). subst i.
  destruct (b_invalid_get c G Hv (e_row en) A (br_mem R) HG) as [B1 B2].
  assert (B1' : b_get_all c G h R = if dbg c then RdPanic else RdUB).
  { unfold b_get_all, b_arch_at. rewrite (entry_same _ _ _ _ Hb), Een, HA. cbn [rbind].
    rewrite (invalid_desc c G Hv) at 1. cbn [ad_contains_subset gd_arch gd_INVALID ad_len ad_INVALID]. destruct (negb _) eqn:En; [done|]. rewrite B1. by destruct (dbg c). }
  assert (B2' : b_get_all_mut c G h R = if dbg c then RdPanic else RdUB).
  { unfold b_get_all_mut, b_arch_at. rewrite (entry_same _ _ _ _ Hb), Een, HA. cbn [rbind].
    rewrite (invalid_desc c G Hv) at 1. cbn [ad_contains_subset gd_arch gd_INVALID ad_len ad_INVALID]. destruct (negb _) eqn:En; [done|]. rewrite B2. by destruct (dbg c). }
  assert (Es : step c o r = if dbg c then Panic r else UB).
  { destruct Ho as [->|[vs ->]]; cbn [step]; unfold bind, rm_rd, lift_rd; rewrite ?E1, ?E2; by destruct (dbg c). }
  assert (Eb : bstep c o R = if dbg c then Panic R else UB).
  { destruct Ho as [->|[vs ->]]; cbn [bstep]; unfold bind, bq_rd, lift_rd; rewrite ?B1', ?B2'; by destruct (dbg c). }
  destruct (dbg c); [by apply alike_panic|by apply alike_ub].
Qed.
Lemma calls_invalid r R G o : gd_is_valid (group_desc be G) = false ->
  match o with
  | OpIter G' | OpIterE G' | OpIterF G' _ | OpIterEF G' _ | OpIterMut G' _ | OpIterEMut G' _ | OpIterFMut G' _ _ | OpIterEFMut G' _ _
  | OpExact G' | OpExactE G' | OpExactMut G' _ | OpExactEMut G' _ => G' = G
  | _ => False
  end -> brel r R -> calls o r R.
Proof using Type.
  intros Hv Ho Hb. destruct (invalid_calls c G r Hv) as (_&H1&H2&H3&H4). destruct (b_invalid_calls c G Hv R) as (B1&B2&B3&B4).
  repeat setoid_rewrite Forall_cons in H1. repeat setoid_rewrite Forall_cons in H2. repeat setoid_rewrite Forall_cons in H3. repeat setoid_rewrite Forall_cons in H4.
  repeat setoid_rewrite Forall_cons in B1. repeat setoid_rewrite Forall_cons in B2. repeat setoid_rewrite Forall_cons in B3. repeat setoid_rewrite Forall_cons in B4.
  assert (Hd : forall out, step c o r = (if dbg c then Panic r else Ret out r) -> bstep c o R = (if dbg c then Panic R else Ret out R) -> calls o r R).
  { intros out E E'. destruct (dbg c); [by apply alike_panic|by eapply alike_same]. }
  destruct o; try done; subst;
    first [ eapply Hd; [apply H1|apply B1] | eapply Hd; [apply H2|apply B2] | eapply alike_same; [done|apply H3|apply B3] | eapply alike_same; [done|apply H4|apply B4] ]; try exact (fun _ => true); try exact (fun _ v => v).
Qed.
Lemma byte_step r R b o : booked c U r b -> lawful be U (bk_world b) o -> brel r R -> calls o r R.
Proof using HU Hla Hnt.
  intros Hb Hc Hr. pose proof Hb as [(T&H&HS) _ _ _]. pose proof (outcome_step c U HU Hnt r b o Hb Hc) as Hgood.
  assert (Hinv : forall G, in_U U G -> valid be U G = false -> gd_is_valid (group_desc be G) = false).
  { intros G HG Hv. apply not_gvalid. intros Hx. apply (valid_iff c U HU G HG) in Hx. congruence. }
  assert (Hval : forall G, in_U U G -> valid be U G = true -> gvalid be G) by (intros G HG Hv; by apply (valid_iff c U HU)).
  destruct o; cbn [lawful] in Hc.
  - destruct Hc as ([HG _]&Hfit&Hroom). eapply calls_usual; [done| |done]. split; [done|]. split; [done|]. intros Hv. by apply Hroom, (valid_iff c U HU).
  - by eapply calls_usual.
  - destruct Hc as [HG HGn]. cbn [step bstep]. apply alike_map. eapply alike_remove_entity; [done|done| |done].
    destruct (outcome (dbg c) be U b (OpRemoveEntity G h)) as [out b1|b1|] eqn:Eo; cbn [good] in Hgood.
    + destruct Hgood as (r1&E&_). cbn [step] in E. apply bind_Ret_inv in E as (x&r2&E&_). left. eauto.
    + exfalso. revert Eo. cbn [outcome]. unfold answer. repeat case_match; done.
    + right. cbn [step] in Hgood. unfold bind in Hgood. destruct (remove_entity c G h r); done.
  - by eapply calls_usual.
  - destruct Hc as [HG HGn]. cbn [step bstep]. apply alike_map.
    assert (exists x, has_components c G h r = Rd x) as [x Ex].
    { unfold has_components. destruct (entry_of c r h) as [e|] eqn:Ee; [|eauto]. destruct (bk_world b !! h) as [e0|] eqn:Ew.
      - destruct (live_entry c U _ _ _ _ _ H Ew) as (en&i&j&t&m&a&Een&<-&Ej&Hrow&Ht&Hj&->&Ha&Hta). rewrite Ee in Een. injection Een as ->.
        rewrite (arch_at_step _ _ _ Ha). cbn [rbind]. eauto.
      - by rewrite (dead_entry _ _ _ _ _ _ H Ew) in Ee. }
    eapply (alike_ret _ _ _ _ x); [|done|apply rm_rd_Rd; exact Ex]. apply rsim_rd. intros _ v. unfold has_components, b_has_components. apply (at_entry (L := L) c U); [done|]. intros e a A y _ _ Ha. by rewrite (ar_desc _ _ _ Ha).
  - by eapply calls_usual.
  - destruct Hc as [HG HGn]. destruct (valid be U G) eqn:Hv; [eapply calls_usual; [done| |done]; split; [done|by apply Hval]|].
    destruct (bk_world b !! h) as [e|] eqn:Ew; [by eapply calls_get_invalid; eauto|]. pose proof (dead_entry _ _ _ _ _ _ H Ew) as Ee.
    cbn [step bstep]. apply alike_map. apply (alike_same _ _ _ _ None); [done|..].
    + unfold rm_rd, get_components. by rewrite Ee.
    + unfold bq_rd, b_get_all. by rewrite (entry_same _ _ _ _ Hr), Ee.
  - by eapply calls_usual.
  - destruct Hc as ([HG HGn]&Hfit). destruct (valid be U G) eqn:Hv; [eapply calls_usual; [done| |done]; split; [done|split; [by apply Hval|done]]|].
    destruct (bk_world b !! h) as [e|] eqn:Ew; [by eapply calls_get_invalid; eauto|]. pose proof (dead_entry _ _ _ _ _ _ H Ew) as Ee.
    apply (alike_same _ _ _ _ (OutVals None)); [done|..]; cbn [step bstep].
    + erewrite bind_Ret; [|apply rm_rd_Rd; unfold get_components_mut; by rewrite Ee]. done.
    + unfold bind, bq_rd, b_get_all_mut. by rewrite (entry_same _ _ _ _ Hr), Ee.
  - destruct Hc as (HC&Hfit&Hroom). destruct (bk_world b !! h) as [e|] eqn:Ew.
    + destruct ((size (en_vals e) =? 13) && bool_decide (en_vals e !! ct_id C = None)) eqn:E13.
      * apply andb_true_iff in E13 as [Hs%Nat.eqb_eq Hn%bool_decide_eq_true]. by eapply calls_add_13.
      * eapply calls_usual; [done| |done]. split; [done|]. split; [done|]. intros e' Ew' Hn. rewrite Ew in Ew'. injection Ew' as <-. split; [|by apply Hroom].
        intros Hs. rewrite Hs, bool_decide_eq_true_2 in E13 by done. done.
    + eapply calls_usual; [done| |done]. split; [done|]. split; [done|]. intros e' Ew'. by rewrite Ew in Ew'.
  - destruct Hc as (HC&Hroom). destruct (bk_world b !! h) as [e|] eqn:Ew.
    + destruct ((size (en_vals e) =? 14) && bool_decide (is_Some (en_vals e !! ct_id C))) eqn:E14.
      * apply andb_true_iff in E14 as [Hs%Nat.eqb_eq [v Hn]%bool_decide_eq_true]. by eapply calls_remove_14.
      * eapply calls_usual; [done| |done]. split; [done|]. intros e' Ew' Hn. rewrite Ew in Ew'. injection Ew' as <-. split; [|by apply Hroom].
        intros Hs. rewrite Hs, bool_decide_eq_true_2 in E14 by done. done.
    + eapply calls_usual; [done| |done]. split; [done|]. intros e' Ew'. by rewrite Ew in Ew'.
  - by eapply calls_usual.
  - destruct Hc as [HG HGn]. destruct (valid be U G) eqn:Hv; [eapply calls_usual; [done| |done]; split; [done|by apply Hval]|by apply (calls_invalid _ _ G); [apply Hinv|..]].
  - destruct Hc as [HG HGn]. destruct (valid be U G) eqn:Hv; [eapply calls_usual; [done| |done]; split; [done|by apply Hval]|by apply (calls_invalid _ _ G); [apply Hinv|..]].
  - destruct Hc as ([HG HGn]&Hx). destruct (valid be U G) eqn:Hv; [eapply calls_usual; [done| |done]; split; [done|split; [by apply Hval|done]]|by apply (calls_invalid _ _ G); [apply Hinv|..]].
  - destruct Hc as ([HG HGn]&Hx). destruct (valid be U G) eqn:Hv; [eapply calls_usual; [done| |done]; split; [done|split; [by apply Hval|done]]|by apply (calls_invalid _ _ G); [apply Hinv|..]].
  - destruct Hc as ([HG HGn]&Hx). destruct (valid be U G) eqn:Hv; [eapply calls_usual; [done| |done]; split; [done|split; [by apply Hval|done]]|by apply (calls_invalid _ _ G); [apply Hinv|..]].
  - destruct Hc as ([HG HGn]&Hx). destruct (valid be U G) eqn:Hv; [eapply calls_usual; [done| |done]; split; [done|split; [by apply Hval|done]]|by apply (calls_invalid _ _ G); [apply Hinv|..]].
  - destruct Hc as ([HG HGn]&Hx). destruct (valid be U G) eqn:Hv; [eapply calls_usual; [done| |done]; split; [done|split; [by apply Hval|done]]|by apply (calls_invalid _ _ G); [apply Hinv|..]].
  - destruct Hc as ([HG HGn]&Hx). destruct (valid be U G) eqn:Hv; [eapply calls_usual; [done| |done]; split; [done|split; [by apply Hval|done]]|by apply (calls_invalid _ _ G); [apply Hinv|..]].
  - destruct Hc as ([HG HGn]&Hkn). destruct (valid be U G) eqn:Hv; [eapply calls_usual; [done| |done]; split; [done|split; [by apply Hval|by apply Hkn]]|by apply (calls_invalid _ _ G); [apply Hinv|..]].
  - destruct Hc as ([HG HGn]&Hkn). destruct (valid be U G) eqn:Hv; [eapply calls_usual; [done| |done]; split; [done|split; [by apply Hval|by apply Hkn]]|by apply (calls_invalid _ _ G); [apply Hinv|..]].
  - destruct Hc as ([HG HGn]&Hkn&Hx). destruct (valid be U G) eqn:Hv; [eapply calls_usual; [done| |done]; split; [done|split; [by apply Hval|split; [by apply Hkn|done]]]|by apply (calls_invalid _ _ G); [apply Hinv|..]].
  - destruct Hc as ([HG HGn]&Hkn&Hx). destruct (valid be U G) eqn:Hv; [eapply calls_usual; [done| |done]; split; [done|split; [by apply Hval|split; [by apply Hkn|done]]]|by apply (calls_invalid _ _ G); [apply Hinv|..]].
Qed.
(** *** Programs *)
Definition both (x : option reg) (y : option breg) : Prop :=
  match x, y with Some r, Some R => brel r R | None, None => True | _, _ => False end.
Lemma battempt_from ops r R b : booked c U r b -> brel r R -> lawful_all (dbg c) be U ops b ->
  (battempt c ops R).1 = (attempt c ops r).1 /\ both (attempt c ops r).2 (battempt c ops R).2.
Proof using HU Hla Hnt.
  revert r R b. induction ops as [|o ops IH]; intros r R b Hb Hr Hl; [done|]. destruct Hl as [Hl1 Hl].
  pose proof (outcome_step c U HU Hnt r b o Hb Hl1) as Hg. pose proof (byte_step r R b o Hb Hl1 Hr) as Hs. unfold alike in Hs. cbn [attempt battempt].
  destruct (outcome (dbg c) be U b o) as [out b1|b1|]; cbn [good] in Hg.
  - destruct Hg as (r1&E&Hb1&_). rewrite E in Hs |- *. destruct Hs as (R1&->&Hr1). destruct (IH r1 R1 b1 Hb1 Hr1 Hl) as [E1 E2].
    destruct (attempt c ops r1) as [l e], (battempt c ops R1) as [l' e']. cbn [fst snd] in *. by subst l'.
  - destruct Hg as (r1&E&Hb1&_). rewrite E in Hs |- *. destruct Hs as (R1&->&Hr1). destruct (IH r1 R1 b1 Hb1 Hr1 Hl) as [E1 E2].
    destruct (attempt c ops r1) as [l e], (battempt c ops R1) as [l' e']. cbn [fst snd] in *. by subst l'.
  - rewrite Hg in Hs |- *. by rewrite Hs.
Qed.
End steps.

Section runs.
Context {Fm : family} (c : cfg) (U : list ctype) (HU : universe (big c) U) (Hla : laid_out U) (Hnt : NoDup (map ct_ty U)).
Notation be := (big c).
Lemma battempt_predicted place ops : lawful_all (dbg c) be U ops book_empty ->
  (battempt c ops (breg_default place)).1 = (predict (dbg c) be U ops book_empty).1 /\
  ((battempt c ops (breg_default place)).2 = None <-> (predict (dbg c) be U ops book_empty).2 = None).
Proof using HU Hla Hnt.
  intros Hl. destruct (battempt_from c U HU Hla Hnt ops _ _ _ (booked_start c U) (brel_start place) Hl) as [E Hb].
  destruct (attempt_predicted c U HU Hnt ops Hl) as [E' Hn]. split; [congruence|]. rewrite <- Hn.
  destruct (attempt c ops reg_default).2, (battempt c ops (breg_default place)).2; try done.
Qed.
Lemma battempt_requests place ops R : lawful_all (dbg c) be U ops book_empty -> (battempt c ops (breg_default place)).2 = Some R ->
  ev_trace (m_env (br_mem R)) = (predict_log (dbg c) be U ops book_empty []).1.
Proof using HU Hla Hnt.
  intros Hl E. destruct (battempt_from c U HU Hla Hnt ops _ _ _ (booked_start c U) (brel_start place) Hl) as [_ Hb]. rewrite E in Hb.
  destruct (attempt c ops reg_default).2 as [r|] eqn:Er; [|done]. cbn [both] in Hb. rewrite (bl_env _ _ Hb).
  by destruct (attempt_requests c U HU Hnt ops r Hl Er).
Qed.
Lemma battempt_drop place ops R b : lawful_all (dbg c) be U ops book_empty -> (battempt c ops (breg_default place)).2 = Some R ->
  (predict (dbg c) be U ops book_empty).2 = Some b -> all_calm (bk_world b) ->
  exists R', b_drop_registry R = Ret tt R' /\ m_blocks (br_mem R') = ∅ /\
    ev_trace (m_env (br_mem R')) = (predict_log (dbg c) be U ops book_empty []).1 ++ final_log b (predict_log (dbg c) be U ops book_empty []).2.
Proof using HU Hla Hnt.
  intros Hl E Ep Hcalm. destruct (battempt_from c U HU Hla Hnt ops _ _ _ (booked_start c U) (brel_start place) Hl) as [_ Hb]. rewrite E in Hb.
  destruct (attempt c ops reg_default).2 as [r|] eqn:Er; [|done]. cbn [both] in Hb.
  destruct (attempt_from c U HU Hnt ops _ _ (booked_start c U) Hl) as [_ Ht]. rewrite Er, Ep in Ht. destruct Ht as (Hbk&_). pose proof (bo_tabs _ _ _ _ Hbk) as (T&Hok&_).
  destruct (b_drop_ok c U HU Hla r R T _ Hb Hok Hcalm) as (R'&ER&Hm&r'&Er'&He). exists R'. split; [done|]. split; [done|].
  destruct (attempt_drop c U HU Hnt ops r b Hl Er Ep Hcalm) as (r''&E''&Et). rewrite Er' in E''. injection E'' as <-. by rewrite He.
Qed.
End runs.
