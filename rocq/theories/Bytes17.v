(** Proofs for C73, in terms of the reference implementation. *)
From Verif Require Import ByteReg Sizes SearchProofs MonadProofs DescrProofs ArchProofs ArchOps ArchOps2 ArchOps3 RegProofs RegOps RegOps2 RegExact IterProofs RegMut RegIter RegOps3 AregProofs EntityTable Refine Ref Observe Crash
  Bytes Bytes2 Bytes3 Bytes4 Bytes5 Bytes6 Bytes7 Bytes15 Bytes16 Events Events2 SpecFail SpecObs SpecBytes SpecBase SpecTrace SpecWorld SpecRef SpecBomb.
Local Open Scope nat_scope.

(** The rows of a table are entities of the world. *)
Definition rows_in (w : world) (t : tab) : Prop := forall j h m C, t_rows t !! j = Some (h, m) -> value_of w h C = m !! ct_id C.
Lemma tvals_sheet w t : rows_in w t -> tvals t = sheet_values w (sheet_of t).
Proof.
  intros Hr. unfold tvals, sheet_values, col_values. cbn [sheet_of sh_types sh_ents]. f_equal. apply map_ext. intros C.
  assert (Hv : forall j h m, t_rows t !! j = Some (h, m) -> value_of w h C = m !! ct_id C) by (intros j h m; apply Hr). clear Hr.
  induction (t_rows t) as [|[h m] rows IH]; [done|]. cbn [map omap list_omap fst snd]. rewrite (Hv 0 h m eq_refl).
  rewrite IH by (intros j; apply (Hv (S j))). done.
Qed.
Lemma abandon_sheet w t n : rows_in w t -> abandon_tab t n = abandon w (sheet_of t) n.
Proof.
  intros Hr. unfold abandon_tab, abandon, tab_bombed, bombed. rewrite (tvals_sheet w t Hr). destruct (existsb _ _); [done|]. f_equal.
  unfold free_arrays, cfree, SpecEvents.elements. cbn [sheet_of sh_types tail take app]. rewrite map_app, map_map. done.
Qed.
Lemma lost_sheet w t n : rows_in w t -> lost_tab t n = if bombed w (sheet_of t) then map (fun x => (bytes x.1 n, x.2)) (SpecEvents.elements (sheet_of t)) else [].
Proof.
  intros Hr. unfold lost_tab, tab_bombed, bombed. rewrite (tvals_sheet w t Hr). destruct (existsb _ _); [|done].
  unfold layouts, SpecEvents.elements, bytes. cbn [map sheet_of sh_types fst snd]. by rewrite map_map.
Qed.
Lemma tabs_sheets w T caps : Forall (rows_in w) T ->
  zip_with abandon_tab T caps = zip_with (abandon w) (skel T) caps /\
  zip_with lost_tab T caps = zip_with (fun s n => if bombed w s then map (fun x => (bytes x.1 n, x.2)) (SpecEvents.elements s) else []) (skel T) caps.
Proof.
  intros HT. revert caps. induction HT as [|t T Ht _ IH]; intros [|n caps]; [done..|]. destruct (IH caps) as [E1 E2]. cbn [skel map zip_with].
  rewrite (abandon_sheet w t n Ht), (lost_sheet w t n Ht), E1, E2. done.
Qed.

Section runs.
Context {Fm : family} (c : cfg) (U : list ctype) (HU : universe (big c) U) (Hla : laid_out U).
Notation be := (big c).
Notation brel := (@Bytes5.brel U []).
Implicit Types (T : list tab) (w : world).
Let Hst : strict (ids_of U) := proj1 HU.
Let Hsm : Forall small U := proj1 (proj2 HU).

Lemma tab_rows_in r T w : reg_ok be U r T w -> Forall (rows_in w) T.
Proof. intros H. apply Forall_lookup. intros i t Ht j h m C Hj. by eapply value_row. Qed.
Lemma tabs_bombed AS T : Forall2 (tab_ok be U) AS T -> existsb tab_bombed T = existsb v_bomb (tabs_values T).
Proof using Type.
  induction 1 as [|a t AS T Ht _ IH]; [done|]. cbn [existsb]. unfold tabs_values. cbn [map concat]. rewrite existsb_app. fold (tabs_values T). rewrite <- IH. f_equal.
  destruct (tab_cols c U _ _ Ht) as (cols&Hcols&Hp). rewrite (cols_values _ _ _ Hcols) in Hp. exact (existsb_perm _ _ _ Hp).
Qed.
Lemma start_run place ops out R : within be U ops book_empty -> brun c ops (breg_default place) = Ret out R ->
  exists r T, reg_ok be U r T (bk_world (ref_run be U ops book_empty).2) /\ skel T = bk_sheets (ref_run be U ops book_empty).2 /\ brel r R /\
    ev_trace (r_env r) = (run_log be U ops book_empty []).1 /\ map a_cap (archs r) = (run_log be U ops book_empty []).2.
Proof using HU Hla.
  intros Hw E. destruct (brun_from c U HU Hla ops _ _ _ (booked_start c U) (brel_start place) Hw) as (r&R1&Er&B&Hb&H). rewrite E in B. injection B as -> ->.
  destruct (bo_tabs _ _ _ _ Hb) as (T&Hok&HS). exists r, T. split; [done|]. split; [done|]. split; [done|].
  destruct (run_requests c U HU ops Hw) as (r'&E'&Et&Ek). rewrite Er in E'. by injection E' as <-.
Qed.
Lemma bytes_drop_bombs place ops out R : within be U ops book_empty -> brun c ops (breg_default place) = Ret out R ->
  exists R', b_drop_registry R = (if existsb v_bomb (world_values (bk_world (ref_run be U ops book_empty).2)) then Panic R' else Ret tt R') /\
    ev_trace (m_env (br_mem R')) = (run_log be U ops book_empty []).1 ++ abandon_log (ref_run be U ops book_empty).2 (run_log be U ops book_empty []).2 /\
    map layout_of (map_to_list (m_blocks (br_mem R'))).*2 ≡ₚ lost (ref_run be U ops book_empty).2 (run_log be U ops book_empty []).2.
Proof using HU Hla.
  intros Hw E. destruct (start_run place ops out R Hw E) as (r&T&Hok&HS&H&Et&Ek). set (b := (ref_run be U ops book_empty).2) in *.
  destruct (b_drop_any c U HU Hla r R T H (ro_oracle _ _ _ _ _ Hok) (ro_tabs _ _ _ _ _ Hok)) as (R'&Ed&Ee&Hl). exists R'.
  destruct (tabs_sheets (bk_world b) T (map a_cap (archs r)) (tab_rows_in _ _ _ Hok)) as [E1 E2]. split; [|split].
  - rewrite (existsb_perm _ _ _ (world_values_tabs _ _ _ _ _ Hok)), <- (tabs_bombed _ _ (ro_tabs _ _ _ _ _ Hok)). exact Ed.
  - rewrite Ee. cbn [emitted ev_trace]. rewrite Et. f_equal. unfold abandon_log. by rewrite E1, HS, Ek.
  - rewrite Hl. unfold lost. by rewrite E2, HS, Ek.
Qed.

(** ** Destroying an entity whose destructor panics *)
Lemma b_get_rel r R C h v : brel r R -> C ∈ U -> get_component c C h r = Rd v -> b_get c C h R = Rd v.
Proof using HU Hla.
  intros H HC. unfold get_component, b_get. apply (at_entry c U (L := [])); [done|]. intros e a A x _ _ Hr. rewrite (ar_desc _ _ _ Hr).
  destruct (negb _); [done|]. destruct (get_component_unchecked C (e_row e) a) as [y| |] eqn:Eg; [|done..]. by rewrite (get_component_sim Hst Hsm Hla _ _ _ _ _ _ Hr HC Eg).
Qed.
Lemma swapl_at {A} (l : list A) j k x : j < length l -> l !! (length l - 1) = Some x -> l !! j = Some k ->
  swapl j (length l - 1) l !! j = Some x /\ swapl j (length l - 1) l !! (length l - 1) = Some k.
Proof.
  intros Hj Hl Hk. split.
  - rewrite swapl_lookup by lia. unfold swp. by rewrite decide_True.
  - rewrite swapl_lookup by lia. unfold swp. case_decide as E; [|by rewrite decide_True]. rewrite E in Hl. congruence.
Qed.
Lemma b_destroy_bomb r R T w h e : reg_ok be U r T w -> brel r R -> w !! h = Some e -> ~ calm (en_vals e) ->
  exists r' R' i j t hl ml mh, bstep c (OpDestroy h) R = Panic R' /\ brel r' R' /\
    r_env r' = emitted (r_env r) (map EvDrop (until_bomb (omap (value_of w h) U))) /\ br_er R' = br_er R /\
    T !! i = Some t /\ t_rows t !! j = Some (h, mh) /\ t_rows t !! (length (t_rows t) - 1) = Some (hl, ml) /\
    Forall2 (tab_ok be U) (archs r') (<[i := set_rows t (swapl j (length (t_rows t) - 1) (t_rows t))]> T) /\ map a_cap (archs r') = map a_cap (archs r) /\
    forall x C, C ∈ U -> get_component c C x r' = Rd (value_of w (swapped_with h hl x) C).
Proof using HU Hla.
  intros H Hb Ew Hbo. destruct (live_entry c U _ _ _ _ _ H Ew) as (en&i&j&t&m&a&Een&Ei&Ej&Hrow&Ht&Hj&Ee&Ha&Hta).
  pose proof Hta as (_&Hok&Hin&_). pose proof (proj1 Hok) as Hd. pose proof (lookup_lt_Some _ _ _ Hj) as Hjlt.
  destruct (tab_facts _ _ _ _ Hta) as (_&_&Hnd&_). destruct (tab_row _ _ HU _ _ _ _ _ Hta Hj) as (Hfull&_&_).
  assert (Hex : existsb v_bomb (row_values (t_cs t) m) = true).
  { apply not_false_is_true. intros Hn. apply Hbo. subst e. cbn [en_vals]. intros x v Hv.
    destruct (v_bomb v) eqn:Evb; [|done]. exfalso. assert (existsb v_bomb (row_values (t_cs t) m) = true); [|congruence].
    apply existsb_exists. exists v. split; [|done]. apply elem_of_list_In. rewrite (row_values_perm _ _ Hnd Hfull).
    apply elem_of_list_fmap. exists (x, v). split; [done|]. by apply elem_of_map_to_list. }
  destruct (brel_at _ _ _ _ Hb Ha) as (A&HA&Hr).
  destruct (b_swap_drop_bomb Hsm Hla (a_desc a) (t_cs t) Hd _ a (t_rows t) A (br_mem R) j h m (r_env r) c Hin (brel_ast _ _ _ _ _ Hb Ha HA) eq_refl Hok Hj Hex)
    as (a'&A'&m'&e'&Es&Eb&Has&Hk&Ee'&Ed'&Hcap'&Hok').
  pose proof (brel_put _ _ _ _ _ _ _ _ Hb HA Has Hk) as H'. set (r' := Reg _ _ _) in H'. set (R' := BReg _ _ _ _) in H'.
  destruct (lookup_lt_is_Some_2 (t_rows t) (length (t_rows t) - 1)) as [[hl ml] Hl]; [lia|].
  assert (Har : archs r' = <[i := a']> (archs r)) by done.
  assert (Hi : i < length (archs r)) by (by eapply lookup_lt_Some).
  pose proof (tab_swapped c U _ _ _ j (length (t_rows t) - 1) Hta Ed' Hok') as Hta'.
  exists r', R', i, j, t, hl, ml, m. split; [|split; [done|split; [|split; [done|split; [done|split; [done|split; [done|split; [|split]]]]]]]].
  - cbn [bstep]. unfold bind at 1. unfold b_destroy_entity. unfold bind at 1, bq_get, get_st. cbn [b_entry_of].
    rewrite (entry_same _ _ _ _ Hb), Een. cbv zeta. rewrite Ei, Ej. unfold bind at 1. unfold b_with_arch. rewrite HA, Eb. done.
  - cbn [r' r_env]. rewrite Ee'. do 3 f_equal. pose proof (row_drop_one c U HU _ _ _ _ _ _ _ _ _ H Ht Hj Hta) as E. unfold drop_one in E.
    clear -E. revert E. generalize (omap (value_of w h) U). generalize (row_values (t_cs t) m). intros l1. induction l1 as [|x l1 IH]; intros [|y l2]; [done..|].
    cbn. intros [= -> E]. by rewrite (IH _ E).
  - rewrite Har. apply Forall2_insert; [apply H|exact Hta'].
  - rewrite Har. apply list_eq. intros k. change (map ?f ?l) with (f <$> l). rewrite !list_lookup_fmap. destruct (decide (k = i)) as [->|Hne].
    + rewrite list_lookup_insert by done. unfold archs. rewrite Ha. cbn. by rewrite Hcap'.
    + by rewrite list_lookup_insert_ne.
  - intros x C HC. assert (Hen : forall y, entry_of c r' y = entry_of c r y) by done.
    assert (Hai : ar_archs (r_ar r') !! i = Some a') by (change (archs r' !! i = Some a'); rewrite Har; by apply list_lookup_insert).
    destruct (swapl_at (t_rows t) j (h, m) (hl, ml) Hjlt Hl Hj) as [Hs1 Hs2].
    assert (Hv : forall k y my, t_rows t !! k = Some (y, my) -> value_of w y C = my !! ct_id C) by (intros k y my Hy; by eapply value_row).
    destruct (w !! x) as [ex|] eqn:Ex.
    + destruct (live_entry c U _ _ _ _ _ H Ex) as (n0&i0&j0&t0&m0&a0&En0&Ei0&Ej0&_&Ht0&Hj0&Ee0&Ha0&Hta0).
      destruct (decide (i0 = i)) as [->|Hni].
      * rewrite Ht in Ht0. injection Ht0 as <-.
        assert (Hp : forall y my, swapl j (length (t_rows t) - 1) (t_rows t) !! j0 = Some (y, my) -> y = swapped_with h hl x -> get_component c C x r' = Rd (value_of w (swapped_with h hl x) C)).
        { intros y my Hy Hyx. rewrite (placed_shows c U HU r' x n0 a' (set_rows t (swapl j (length (t_rows t) - 1) (t_rows t))) y my C); [|done|by rewrite Ei0|exact Hta'|by rewrite Ej0|done].
          rewrite <- Hyx. f_equal. symmetry. assert (Hmem : (y, my) ∈ t_rows t). { rewrite <- (swapl_last_perm j (t_rows t) Hjlt). by eapply elem_of_list_lookup_2. }
          apply elem_of_list_lookup in Hmem as [k Hk0]. by eapply Hv. }
        unfold swapped_with in *. destruct (N.eqb_spec x h) as [->|Hxh].
        -- destruct (linked_inj _ _ _ _ _ _ _ _ _ _ _ (ro_loc _ _ _ _ _ H) Ht Hj Ht Hj0) as [_ ->]. by eapply Hp.
        -- destruct (N.eqb_spec x hl) as [->|Hxl].
           ++ destruct (linked_inj _ _ _ _ _ _ _ _ _ _ _ (ro_loc _ _ _ _ _ H) Ht Hl Ht Hj0) as [_ ->]. by eapply Hp.
           ++ eapply Hp; [|done]. rewrite swapl_lookup by lia. unfold swp. rewrite decide_False by congruence. rewrite decide_False by congruence. exact Hj0.
      * assert (Hxh : x <> h). { intros ->. destruct (linked_inj _ _ _ _ _ _ _ _ _ _ _ (ro_loc _ _ _ _ _ H) Ht Hj Ht0 Hj0) as [? _]. done. }
        assert (Hxl : x <> hl). { intros ->. destruct (linked_inj _ _ _ _ _ _ _ _ _ _ _ (ro_loc _ _ _ _ _ H) Ht Hl Ht0 Hj0) as [? _]. done. }
        unfold swapped_with. rewrite (proj2 (N.eqb_neq _ _) Hxh), (proj2 (N.eqb_neq _ _) Hxl).
        rewrite (placed_shows c U HU r' x n0 a0 t0 x m0 C); [|done|rewrite Ei0; change (archs r' !! i0 = Some a0); rewrite Har; by rewrite list_lookup_insert_ne|done|by rewrite Ej0|done].
        f_equal. symmetry. by eapply value_row.
    + assert (Hxh : x <> h) by congruence.
      assert (Hxl : x <> hl). { intros ->. assert (w !! hl = Some (Ent (t_id t) ml)); [|congruence]. apply (ro_repr _ _ _ _ _ H). exists i, t, ml. split; [done|]. split; [by eapply elem_of_list_lookup_2|done]. }
      unfold swapped_with. rewrite (proj2 (N.eqb_neq _ _) Hxh), (proj2 (N.eqb_neq _ _) Hxl). unfold value_of. rewrite Ex.
      unfold get_component. rewrite Hen, (dead_entry c U _ _ _ _ H Ex). done.
Qed.
Lemma exchange_skel r T w i j t h hl mh ml : reg_ok be U r T w -> T !! i = Some t -> t_rows t !! j = Some (h, mh) ->
  t_rows t !! (length (t_rows t) - 1) = Some (hl, ml) ->
  skel (<[i := set_rows t (swapl j (length (t_rows t) - 1) (t_rows t))]> T) =
  map (fun s => Sheet (sh_id s) (sh_types s) (map (swapped_with h hl) (sh_ents s))) (skel T).
Proof using Type.
  intros H Ht Hj Hl. pose proof (lookup_lt_Some _ _ _ Hj) as Hjlt. unfold skel. rewrite map_map. apply list_eq. intros k. change (map ?f ?l) with (f <$> l). rewrite !list_lookup_fmap.
  assert (Hlink := ro_loc _ _ _ _ _ H). destruct (decide (k = i)) as [->|Hne].
  - rewrite list_lookup_insert by (by eapply lookup_lt_Some). rewrite Ht. cbn [fmap option_fmap option_map sh_id sh_types sh_ents set_rows t_id t_cs t_rows]. do 2 f_equal.
    change (map ?f ?l) with (f <$> l). apply list_eq. intros n. rewrite !list_lookup_fmap.
    destruct (swapl_at (t_rows t) j (h, mh) (hl, ml) Hjlt Hl Hj) as [Hs1 Hs2].
    destruct (decide (n < length (t_rows t))) as [Hn|Hn]; [|rewrite !lookup_ge_None_2; [done|lia|rewrite swapl_length; lia]].
    destruct (lookup_lt_is_Some_2 (t_rows t) n Hn) as [[x mx] Hx]. rewrite Hx. cbn [fmap option_fmap option_map fst]. unfold swapped_with.
    destruct (N.eqb_spec x h) as [->|Hxh].
    + destruct (linked_inj _ _ _ _ _ _ _ _ _ _ _ Hlink Ht Hj Ht Hx) as [_ ->]. by rewrite Hs1.
    + destruct (N.eqb_spec x hl) as [->|Hxl].
      * destruct (linked_inj _ _ _ _ _ _ _ _ _ _ _ Hlink Ht Hl Ht Hx) as [_ ->]. by rewrite Hs2.
      * rewrite swapl_lookup by lia. unfold swp. rewrite decide_False by congruence. rewrite decide_False by congruence. by rewrite Hx.
  - rewrite list_lookup_insert_ne by done. destruct (T !! k) as [t'|] eqn:Ht'; [|done]. cbn [fmap option_fmap option_map sh_id sh_types sh_ents]. do 2 f_equal.
    change (map ?f ?l) with (f <$> l). apply list_eq. intros n. rewrite !list_lookup_fmap. destruct (t_rows t' !! n) as [[x mx]|] eqn:Hx; [|done].
    cbn [fmap option_fmap option_map fst]. unfold swapped_with. rewrite !(proj2 (N.eqb_neq _ _)); [done| |].
    + intros ->. destruct (linked_inj _ _ _ _ _ _ _ _ _ _ _ Hlink Ht Hl Ht' Hx). done.
    + intros ->. destruct (linked_inj _ _ _ _ _ _ _ _ _ _ _ Hlink Ht Hj Ht' Hx). done.
Qed.
Lemma bytes_destroy_bomb place ops out R h C v : within be U ops book_empty -> brun c ops (breg_default place) = Ret out R ->
  C ∈ U -> value_of (bk_world (ref_run be U ops book_empty).2) h C = Some v -> v_bomb v = true ->
  let b := (ref_run be U ops book_empty).2 in
  let log := run_log be U ops book_empty [] in
  exists R' hl, bstep c (OpDestroy h) R = Panic R' /\ last_of b h hl /\
    ev_trace (m_env (br_mem R')) = log.1 ++ map EvDrop (until_bomb (omap (value_of (bk_world b) h) U)) /\ br_er R' = br_er R /\
    (forall x C', C' ∈ U -> b_get c C' x R' = Rd (value_of (bk_world b) (swapped_with h hl x) C')) /\
    exists R'', b_drop_registry R' = Panic R'' /\
      ev_trace (m_env (br_mem R'')) = ev_trace (m_env (br_mem R')) ++ abandon_log (exchange h hl b) log.2 /\
      map layout_of (map_to_list (m_blocks (br_mem R''))).*2 ≡ₚ lost (exchange h hl b) log.2.
Proof using HU Hla.
  intros Hw E HC Hv Hbo b log. destruct (start_run place ops out R Hw E) as (r&T&Hok&HS&H&Et&Ek). fold b in Hok, HS, Hv. fold log in Et, Ek.
  destruct (bk_world b !! h) as [e|] eqn:Ew; [|unfold value_of in Hv; by rewrite Ew in Hv].
  assert (Hcalm : ~ calm (en_vals e)). { intros Hc. unfold value_of in Hv. rewrite Ew in Hv. cbn in Hv. specialize (Hc _ _ Hv). congruence. }
  destruct (b_destroy_bomb r R T _ h e Hok H Ew Hcalm) as (r'&R'&i&j&t&hl&ml&mh&Es&H'&Ee&Her&Ht&Hj&Hl&HT'&Hcaps&Hget).
  pose proof (exchange_skel r T _ i j t h hl mh ml Hok Ht Hj Hl) as HS'. set (T' := <[i := _]> T) in *.
  assert (Hjlt := lookup_lt_Some _ _ _ Hj).
  assert (Hrows : Forall (rows_in (bk_world b)) T').
  { apply Forall_insert; [by eapply tab_rows_in|]. intros n x mx C0. cbn [t_rows set_rows]. intros Hx.
    assert (Hmem : (x, mx) ∈ t_rows t). { rewrite <- (swapl_last_perm j (t_rows t) Hjlt). by eapply elem_of_list_lookup_2. }
    apply elem_of_list_lookup in Hmem as [k Hk0]. by eapply value_row. }
  assert (Ho' : ev_oracle (r_env r') = []) by (rewrite Ee; cbn; apply Hok).
  destruct (b_drop_any c U HU Hla r' R' T' H' Ho' HT') as (R''&Ed&Ee2&Hlay).
  destruct (tabs_sheets (bk_world b) T' (map a_cap (archs r')) Hrows) as [E1 E2].
  assert (HS2 : skel T' = bk_sheets (exchange h hl b)) by (rewrite HS', HS; done).
  exists R', hl. split; [exact Es|]. split; [|split; [|split; [exact Her|split]]].
  - exists (sheet_of t). split; [|split].
    + rewrite <- HS. unfold skel. apply elem_of_list_fmap. exists t. split; [done|by eapply elem_of_list_lookup_2].
    + cbn. apply elem_of_list_fmap. exists (h, mh). split; [done|by eapply elem_of_list_lookup_2].
    + cbn. change (map ?f ?l) with (f <$> l). rewrite last_lookup, fmap_length, list_lookup_fmap.
      replace (pred (length (t_rows t))) with (length (t_rows t) - 1) by lia. by rewrite Hl.
  - rewrite (bl_env _ _ H'), Ee. cbn [emitted ev_trace]. by rewrite Et.
  - intros x C' HC'. apply (b_get_rel r'); [done|done|by apply Hget].
  - exists R''. split; [|split].
    + rewrite Ed. assert (existsb tab_bombed T' = true) as ->; [|done]. rewrite (tabs_bombed _ _ HT').
      assert (Hpp : tabs_values T' ≡ₚ tabs_values T).
      { destruct (tabs_values_insert T i t (set_rows t (swapl j (length (t_rows t) - 1) (t_rows t))) Ht) as (X&EX1&EX2). unfold T'. rewrite EX1, EX2.
        apply Permutation_app; [|done]. cbn [t_rows set_rows]. apply concat_map_perm. by apply swapl_last_perm. }
      rewrite (existsb_perm _ _ _ Hpp), <- (existsb_perm _ _ _ (world_values_tabs _ _ _ _ _ Hok)).
      apply not_false_is_true. intros Hf. apply all_calm_values in Hf. by apply Hcalm, (Hf h).
    + rewrite Ee2, (bl_env _ _ H'). cbn [emitted ev_trace]. f_equal. unfold abandon_log. cbn [bk_world exchange].
      by rewrite E1, HS2, Hcaps, Ek.
    + rewrite Hlay. unfold lost. cbn [bk_world exchange]. by rewrite E2, HS2, Hcaps, Ek.
Qed.
End runs.
