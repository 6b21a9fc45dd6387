(** * What happens when a component's destructor panics (C45, C34). *)
From Verif Require Import RegModel SpecTrace SpecEntity EntityProofs EntityTable SearchProofs DescrProofs MonadProofs ArchProofs ArchOps ArchOps2 ArchOps3 AregProofs IterProofs RegProofs RegOps RegOps2 RegOps3 RegIter RegMut RegExact Refine SpecObs Observe SpecBase SpecWorld SpecCrash.
Local Open Scope nat_scope.

(** ** Dropping a list of values *)
Lemma until_bomb_app l1 l2 : until_bomb (l1 ++ l2) = if existsb v_bomb l1 then until_bomb l1 else l1 ++ until_bomb l2.
Proof.
  induction l1 as [|v l1 IH]; [done|]. cbn. destruct (v_bomb v); [done|]. cbn [orb]. rewrite IH. by destruct (existsb v_bomb l1).
Qed.
Lemma until_bomb_calm l : existsb v_bomb l = false -> until_bomb l = l.
Proof. induction l as [|v l IH]; [done|]. cbn. intros [Hv H]%orb_false_iff. by rewrite Hv, IH. Qed.
Lemma until_bomb_prefix l : until_bomb l `prefix_of` l.
Proof.
  induction l as [|v l IH]; [done|]. cbn. destruct (v_bomb v); [|by apply prefix_cons]. by apply prefix_cons, prefix_nil.
Qed.
Lemma until_bomb_sublist l : until_bomb l `sublist_of` l.
Proof. destruct (until_bomb_prefix l) as [k Hk]. rewrite Hk at 2. by apply sublist_inserts_r. Qed.
Lemma emitted_app e l1 l2 : emitted (emitted e l1) l2 = emitted e (l1 ++ l2).
Proof. unfold emitted. cbn. by rewrite app_assoc. Qed.
Lemma emitted_nil e : emitted e [] = e.
Proof. unfold emitted. destruct e. cbn. by rewrite app_nil_r. Qed.

Lemma swapl_last_perm {A} r (l : list A) : r < length l -> swapl r (length l - 1) l ≡ₚ l.
Proof.
  intros Hr. destruct (lookup_lt_is_Some_2 l r Hr) as [x Hx]. etrans; [|symmetry; by apply (remove_row_perm r l x)].
  assert (Hl : swapl r (length l - 1) l !! (length l - 1) = Some x).
  { rewrite swapl_lookup by lia. unfold swp. case_decide as E; [by rewrite E|]. by rewrite decide_True. }
  rewrite <- (take_drop (length l - 1) (swapl r (length l - 1) l)) at 1. rewrite (drop_S _ _ _ Hl), drop_ge by (rewrite swapl_length; lia).
  fold (remove_row r l). by rewrite Permutation_app_comm.
Qed.

Definition dropping (a : arch) (m : AM unit) (vs : list value) : Prop := forall e,
  m (a, e) = if existsb v_bomb vs then Panic (a, emitted e (map EvDrop (until_bomb vs)))
             else Ret tt (a, emitted e (map EvDrop vs)).
Lemma dropping_nil a : dropping a (ret tt) [].
Proof. intros e. cbn. by rewrite emitted_nil. Qed.
Lemma dropping_seq a m1 m2 vs1 vs2 : dropping a m1 vs1 -> dropping a m2 vs2 -> dropping a (m1 ;;! m2) (vs1 ++ vs2).
Proof.
  intros H1 H2 e. unfold bind. rewrite H1, existsb_app, until_bomb_app. destruct (existsb v_bomb vs1) eqn:E1; [done|].
  cbn [orb]. rewrite H2, !emitted_app, <- !map_app. done.
Qed.
Lemma dropping_mfor {A} a (l : list A) f VS : Forall2 (fun x vs => dropping a (f x) vs) l VS -> dropping a (mfor l f) (concat VS).
Proof. induction 1 as [|x vs l VS H HF IH]; cbn [mfor concat]; [apply dropping_nil|by apply dropping_seq]. Qed.
Lemma dropping_ext a m m' vs : (forall e, m (a, e) = m' (a, e)) -> dropping a m' vs -> dropping a m vs.
Proof. intros E H e. by rewrite E. Qed.

Section drops.
  Context (d : adesc) (cs : list ctype) (Hd : desc_ok d cs).
  Implicit Types (a : arch) (rows : list row).

  Lemma drop_cell_dropping a rows r h m k c v :
    a_desc a = d -> arch_ok a cs rows -> rows !! r = Some (h, m) -> cs !! k = Some c -> m !! ct_id c = Some v ->
    dropping a (drop_cell c k r) [v].
  Proof.
    intros Ed Hok Hr Hk Hv e. destruct (typed_cell_ok d cs Hd _ _ _ _ _ _ _ _ Ed Hok Hr Hk Hv) as [Ht _].
    unfold drop_cell. erewrite bind_Ret; [|by apply am_rd_Rd]. unfold bind at 1. cbn. destruct (v_bomb v); done.
  Qed.
  Lemma handler_dropping a rows k c start n vs :
    a_desc a = d -> arch_ok a cs rows -> cs !! k = Some c -> start + n <= length rows ->
    Forall2 (fun (x : row) v => x.2 !! ct_id c = Some v) (take n (drop start rows)) vs ->
    dropping a (run_drop_handler (cdesc_of c) k start n) vs.
  Proof.
    intros Ed Hok Hk Hle HF. pose proof Hok as (_&_&_&_&C&H&Ea&(HlC&_&_)&_). rewrite Ed in Ea.
    destruct (lookup_lt_is_Some_2 C k) as [cl Hcl]. { rewrite HlC. by eapply lookup_lt_Some. }
    eapply (dropping_ext _ _ (mfor (seq start n) (drop_cell c k))).
    { intros e. unfold run_drop_handler. cbn [cd_drop cdesc_of]. unfold bind at 1, am_get at 1. cbn [fst].
      assert (Ep : a_ptrs a !! k = Some (colb (a_cap a) c cl)) by (rewrite Ea; by apply colbs_lookup).
      rewrite_ptr Ep. cbn [colb]. done. }
    assert (vs = concat (map (fun v => [v]) vs)) as Evs. { clear. induction vs as [|v vs IH]; [done|]. cbn. by rewrite <- IH. }
    rewrite Evs. apply dropping_mfor. apply Forall2_same_length_lookup.
    assert (Hn : length vs = n). { rewrite <- (Forall2_length _ _ _ HF), take_length, drop_length. lia. }
    split; [by rewrite seq_length, map_length|]. intros i x v' Hi Hv'. apply lookup_seq in Hi as [-> Hi].
    change (map (fun v => [v]) vs) with ((fun v => [v]) <$> vs) in Hv'. rewrite list_lookup_fmap in Hv'. destruct (vs !! i) as [v|] eqn:Hv; [|done]. injection Hv' as <-.
    destruct (lookup_lt_is_Some_2 rows (start + i)) as [[h m] Hrow]; [lia|].
    eapply drop_cell_dropping; [done|done|exact Hrow|done|].
    eapply (Forall2_lookup_lr _ _ _ i (h, m) v) in HF; [done| |done]. rewrite lookup_take, lookup_drop by lia. done.
  Qed.
  Lemma row_values_cons c l m v : m !! ct_id c = Some v -> row_values (c :: l) m = v :: row_values l m.
  Proof. intros Hv. unfold row_values. cbn [omap list_omap]. by rewrite Hv. Qed.
  Lemma drop_entity_dropping a rows r h m :
    a_desc a = d -> arch_ok a cs rows -> rows !! r = Some (h, m) -> dropping a (drop_entity r) (row_values cs m).
  Proof.
    intros Ed Hok Hr. pose proof (Forall_lookup_1 _ _ _ _ (proj1 (proj2 (proj2 (proj2 Hok)))) Hr) as Hrow.
    pose proof (lookup_lt_Some _ _ _ Hr) as Hlt.
    eapply (dropping_ext _ _ (mfor (enum (map cdesc_of cs)) (fun '(i, d) => run_drop_handler d i r 1))).
    { intros e. unfold drop_entity. unfold bind at 1, am_get at 1. cbn [fst]. by rewrite (ok_comps d cs Hd _ _ Ed Hok). }
    assert (row_values cs m = concat (map (fun c => row_values [c] m) cs)) as ->.
    { clear. induction cs as [|c l IH]; [done|]. cbn [map concat]. rewrite <- IH. unfold row_values. cbn [omap list_omap]. by destruct (m !! ct_id c). }
    apply dropping_mfor. apply Forall2_same_length_lookup. unfold enum. rewrite zip_with_length, seq_length, !map_length.
    split; [lia|]. intros i x vs Hx Hvs. apply lookup_zip_with_Some in Hx as (i'&d'&->&Hi&Hd'). apply lookup_seq in Hi as [-> Hi]. cbn [Nat.add].
    change (map cdesc_of cs) with (cdesc_of <$> cs) in Hd'. rewrite list_lookup_fmap in Hd'.
    destruct (cs !! i) as [c|] eqn:Hc; [|done]. injection Hd' as <-.
    change (map (fun c0 => row_values [c0] m) cs) with ((fun c0 => row_values [c0] m) <$> cs) in Hvs. rewrite list_lookup_fmap, Hc in Hvs. cbn [fmap option_fmap option_map] in Hvs. assert (vs = row_values [c] m) as -> by congruence. clear Hvs.
    destruct (row_ok_get _ _ _ _ Hrow Hc) as (v&Hv&_). cbn [snd] in Hv. rewrite (row_values_cons _ _ _ _ Hv).
    eapply handler_dropping; [done|done|done|lia|]. rewrite (drop_S _ _ _ Hr). cbn [take]. rewrite take_0. by repeat constructor.
  Qed.
  Lemma drop_entities_dropping a rows cols :
    a_desc a = d -> arch_ok a cs rows -> Forall2 (col_of rows) cs cols -> dropping a drop_entities (concat cols).
  Proof.
    intros Ed Hok HF.
    eapply (dropping_ext _ _ (mfor (enum (map cdesc_of cs)) (fun '(i, d) => run_drop_handler d i 0 (length rows)))).
    { intros e. unfold drop_entities. unfold bind at 1, am_get at 1. cbn [fst]. rewrite (ok_comps d cs Hd _ _ Ed Hok). unfold a_len. by rewrite (count_ok cs _ _ Hok). }
    apply dropping_mfor. apply Forall2_same_length_lookup. unfold enum. rewrite zip_with_length, seq_length, !map_length.
    split; [rewrite (Forall2_length _ _ _ HF); lia|]. intros i x vs Hx Hvs. apply lookup_zip_with_Some in Hx as (i'&d'&->&Hi&Hd'). apply lookup_seq in Hi as [-> Hi]. cbn [Nat.add].
    change (map cdesc_of cs) with (cdesc_of <$> cs) in Hd'. rewrite list_lookup_fmap in Hd'.
    destruct (cs !! i) as [c|] eqn:Hc; [|done]. injection Hd' as <-.
    pose proof (Forall2_lookup_lr _ _ _ _ _ _ HF Hc Hvs) as Hcol.
    eapply handler_dropping; [done|done|done|lia|]. rewrite drop_0, take_ge by lia. exact Hcol.
  Qed.

  (** *** Destroying a row whose destructor panics *)
  Lemma swap_drop_bomb c a rows r h m e :
    a_desc a = d -> arch_ok a cs rows -> rows !! r = Some (h, m) -> existsb v_bomb (row_values cs m) = true ->
    exists a', swap_drop_unchecked c r (a, e) = Panic (a', emitted e (map EvDrop (until_bomb (row_values cs m)))) /\
      a_desc a' = d /\ a_cap a' = a_cap a /\ arch_ok a' cs (swapl r (length rows - 1) rows).
  Proof.
    intros Ed Hok Hr Hb. pose proof (lookup_lt_Some _ _ _ Hr) as Hlt.
    unfold swap_drop_unchecked. unfold bind at 1, am_get at 1. cbn [fst].
    erewrite (bind_Ret (mdebug_assert _ _)); [|apply mdebug_true; unfold a_len; rewrite (count_ok cs _ _ Hok); by apply Nat.ltb_lt].
    erewrite bind_Ret; [|apply lift_Rd; apply (last_row_ok cs); [done|lia]].
    destruct (r =? length rows - 1) eqn:El.
    - apply Nat.eqb_eq in El. exists a. split; [|by rewrite El, swapl_id].
      unfold bind at 1. rewrite (drop_entity_dropping a rows r h m Ed Hok Hr), Hb. done.
    - apply Nat.eqb_neq in El.
      destruct (swap_ok d cs Hd a rows r (length rows - 1) e Ed Hok Hlt ltac:(lia) El) as (a1&E1&Ed1&Ec1&Hok1).
      rewrite (bind_Ret _ _ _ _ _ E1).
      assert (Hr1 : swapl r (length rows - 1) rows !! (length rows - 1) = Some (h, m)).
      { rewrite swapl_lookup by lia. unfold swp. rewrite decide_False by lia. by rewrite decide_True. }
      exists a1. split; [|done]. unfold bind at 1. rewrite (drop_entity_dropping a1 _ _ h m Ed1 Hok1 Hr1), Hb. done.
  Qed.
  Lemma a_drop_bomb a rows cols e :
    a_desc a = d -> arch_ok a cs rows -> Forall2 (col_of rows) cs cols -> existsb v_bomb (concat cols) = true ->
    a_drop (a, e) = Panic (a, emitted e (map EvDrop (until_bomb (concat cols)))).
  Proof.
    intros Ed Hok HF Hb. unfold a_drop. unfold bind at 1, am_get at 1. cbn [fst]. pose proof Hok as (_&Hcap&_).
    rewrite (proj2 (Nat.eqb_neq (a_cap a) 0)) by (pose proof (capok_pos _ Hcap); lia).
    unfold bind. by rewrite (drop_entities_dropping a rows cols Ed Hok HF), Hb.
  Qed.
End drops.

Section crash.
  Context {Fm : family} (c : cfg) (U : list ctype) (HU : universe (big c) U).
  Notation be := (big c).
  Implicit Types (T : list tab) (w : world).

  Lemma placed_shows r h en a t h' m C :
    entry_of c r h = Some en -> ar_archs (r_ar r) !! e_arch c en = Some a -> tab_ok be U a t ->
    t_rows t !! e_row en = Some (h', m) -> C ∈ U -> get_component c C h r = Rd (m !! ct_id C).
  Proof.
    intros Een Ha Hta Hj HC. unfold get_component. rewrite Een, (arch_at_step _ _ _ Ha). cbn [rbind].
    destruct (tab_has c U HU _ _ _ _ _ C Hta Hj HC) as [E1 E2]. destruct (m !! ct_id C) as [v|] eqn:Em.
    - assert (HCt : C ∈ t_cs t) by (apply E2; by exists v). rewrite (proj2 E1 HCt). cbn [negb]. pose proof Hta as (_&Hok&_).
      destruct (get_component_ok (a_desc a) (t_cs t) (proj1 Hok) a _ _ _ _ _ _ eq_refl Hok Hj HCt Em) as (->&_). done.
    - destruct (ad_has_component (a_desc a) C) eqn:E; [|done]. exfalso. assert (is_Some (None : option value)) as [? ?]; [|done]. tauto.
  Qed.
  Lemma tab_swapped a t a' f s : tab_ok be U a t -> a_desc a' = a_desc a -> arch_ok a' (t_cs t) (swapl f s (t_rows t)) ->
    tab_ok be U a' (set_rows t (swapl f s (t_rows t))).
  Proof. intros (A1&A2&A3&A4) Ed Hok. split; [by rewrite Ed|]. done. Qed.

  Lemma row_of_tab r T w h e m a t j : reg_ok be U r T w -> w !! h = Some e -> e = Ent (t_id t) m -> tab_ok be U a t -> t_rows t !! j = Some (h, m) ->
    row_of c U r h (t_cs t) (row_values (t_cs t) m).
  Proof.
    intros H Ew -> Hta Hj. destruct (tab_row _ _ HU _ _ _ _ _ Hta Hj) as (Hfull&_&Htm).
    assert (Hsh : forall C, C ∈ U -> shows c r h C (m !! ct_id C)).
    { intros C HC. apply (obs_shows c U HU _ _ _ _ _ _ H HC). unfold value_of. by rewrite Ew. }
    pose proof Hta as (_&_&HinU&_).
    split; [rewrite <- Htm; apply types_sublist|]. split.
    - assert (Hall : forall C, C ∈ t_cs t -> is_Some (m !! ct_id C)). { intros C HC. apply Hfull, elem_of_ids. by exists C. }
      clear - Hsh HinU Hall. induction (t_cs t) as [|C l IH]; [constructor|]. apply Forall_cons in HinU as [HC HinU].
      destruct (Hall C (elem_of_list_here _ _)) as [v Hv]. rewrite (row_values_cons _ _ _ _ Hv).
      constructor; [rewrite <- Hv; by apply Hsh|]. apply IH; [done|]. intros C' HC'. apply Hall. by right.
    - intros C HC Hn. assert (m !! ct_id C = None) as <-; [|by apply Hsh]. apply eq_None_not_Some. intros Hs. apply Hn.
      rewrite <- Htm. apply elem_of_list_filter. done.
  Qed.

  Lemma last_mate_tab r T w h m a i t j hl ml : reg_ok be U r T w -> ar_archs (r_ar r) !! i = Some a -> T !! i = Some t -> tab_ok be U a t ->
    t_rows t !! j = Some (h, m) -> t_rows t !! (length (t_rows t) - 1) = Some (hl, ml) -> last_mate c U r h hl.
  Proof.
    intros H Ha Ht Hta Hj Hl.
    assert (Hw : forall k h0 m0, t_rows t !! k = Some (h0, m0) -> w !! h0 = Some (Ent (t_id t) m0)).
    { intros k h0 m0 Hk. apply (ro_repr _ _ _ _ _ H). exists i, t, m0. split; [done|]. split; [by eapply elem_of_list_lookup_2|done]. }
    split; [|split].
    - apply (obs_alive c U _ _ _ _ H). rewrite (Hw _ _ _ Hl). eauto.
    - intros C HC.
      assert (Hx : forall k h0 m0, t_rows t !! k = Some (h0, m0) -> (exists v, shows c r h0 C (Some v)) <-> C ∈ t_cs t).
      { intros k h0 m0 Hk. rewrite (proj2 (tab_has c U HU _ _ _ _ _ C Hta Hk HC)). split.
        - intros [v Hv]. apply (obs_shows c U HU _ _ _ _ _ _ H HC) in Hv. unfold value_of in Hv. rewrite (Hw _ _ _ Hk) in Hv. cbn in Hv. by exists v.
        - intros [v Hv]. exists v. apply (obs_shows c U HU _ _ _ _ _ _ H HC). unfold value_of. by rewrite (Hw _ _ _ Hk). }
      by rewrite (Hx _ _ _ Hl), (Hx _ _ _ Hj).
    - intros G items it HG Hv E Hit Hin. destruct (collects c U r T w H G Hv _ (matching_accepts c U HU G HG Hv)) as (_&E'&_).
      unfold iter_entity_components_matching in E. rewrite E' in E. injection E as <-.
      change (map ?f ?l) with (f <$> l) in Hit. apply elem_of_list_fmap in Hit as (i'&->&Hi'). cbn [item_at fst] in *.
      unfold rows_at in *. destruct (T !! i') as [t'|] eqn:Ht'; [|by apply elem_of_nil in Hin].
      change (map fst ?l) with (l.*1) in Hin. apply elem_of_list_fmap in Hin as ([h0 m0]&E0&[k Hk]%elem_of_list_lookup). cbn in E0. subst h0.
      destruct (linked_inj _ _ _ _ _ _ _ _ _ _ _ (ro_loc _ _ _ _ _ H) Ht Hj Ht' Hk) as [-> _]. simplify_eq.
      change (map fst (t_rows t)) with ((t_rows t).*1). rewrite last_lookup, fmap_length, list_lookup_fmap.
      replace (pred (length (t_rows t))) with (length (t_rows t) - 1) by lia. by rewrite Hl.
  Qed.

  Lemma destroy_bomb r T w h e : reg_ok be U r T w -> w !! h = Some e -> ~ calm (en_vals e) ->
    exists r' hl Cs vs, destroy_entity c h r = Panic r' /\ (forall h', alive c r' h' <-> alive c r h') /\
      row_of c U r h Cs vs /\ ev_trace (r_env r') = ev_trace (r_env r) ++ map EvDrop (until_bomb vs) /\
      last_mate c U r h hl /\ exchanged c U r r' h hl /\ (forall h', h' <> h -> h' <> hl -> same c U r r' h') /\
      (exists T', Forall2 (tab_ok be U) (ar_archs (r_ar r')) T' /\ tabs_values T' ≡ₚ tabs_values T /\ live_allocs (ar_archs (r_ar r')) T' ≡ₚ live_allocs (ar_archs (r_ar r)) T) /\
      ev_oracle (r_env r') = [].
  Proof.
    intros H Ew Hb. destruct (live_entry c U _ _ _ _ _ H Ew) as (en&i&j&t&m&a&Een&Ei&Ej&Hrow&Ht&Hj&Ee&Ha&Hta).
    pose proof Hta as (_&Hok&_). pose proof (proj1 Hok) as Hd. pose proof (lookup_lt_Some _ _ _ Hj) as Hjlt.
    destruct (tab_facts _ _ _ _ Hta) as (_&_&Hnd&_). destruct (tab_row _ _ HU _ _ _ _ _ Hta Hj) as (Hfull&_&_).
    assert (Hex : existsb v_bomb (row_values (t_cs t) m) = true).
    { apply not_false_is_true. intros Hn. apply Hb. subst e. cbn [en_vals]. intros x v Hv.
      destruct (v_bomb v) eqn:Evb; [|done]. exfalso. assert (existsb v_bomb (row_values (t_cs t) m) = true); [|congruence].
      apply existsb_exists. exists v. split; [|done]. apply elem_of_list_In. rewrite (row_values_perm _ _ Hnd Hfull).
      apply elem_of_list_fmap. exists (x, v). split; [done|]. by apply elem_of_map_to_list. }
    destruct (swap_drop_bomb (a_desc a) (t_cs t) Hd c a (t_rows t) j h m (r_env r) eq_refl Hok Hj Hex) as (a'&Es&Ed'&Hcap'&Hok').
    destruct (lookup_lt_is_Some_2 (t_rows t) (length (t_rows t) - 1)) as [[hl ml] Hl]; [lia|].
    set (r' := put_arch r i a' (emitted (r_env r) (map EvDrop (until_bomb (row_values (t_cs t) m))))).
    assert (Hen : forall h', entry_of c r' h' = entry_of c r h') by done.
    assert (Ha' : ar_archs (r_ar r') !! i = Some a') by (cbn; apply list_lookup_insert; by eapply lookup_lt_Some).
    assert (Hta' := tab_swapped _ _ _ j (length (t_rows t) - 1) Hta Ed' Hok').
    assert (Hw : forall k h0 m0, t_rows t !! k = Some (h0, m0) -> w !! h0 = Some (Ent (t_id t) m0)).
    { intros k h0 m0 Hk. apply (ro_repr _ _ _ _ _ H). exists i, t, m0. split; [done|]. split; [by eapply elem_of_list_lookup_2|done]. }
    assert (Hsh : forall k h0 m0 C v, t_rows t !! k = Some (h0, m0) -> C ∈ U -> shows c r h0 C v <-> v = m0 !! ct_id C).
    { intros k h0 m0 C v Hk HC. rewrite (obs_shows c U HU _ _ _ _ _ _ H HC). unfold value_of. by rewrite (Hw _ _ _ Hk). }
    assert (Hsh' : forall k h0 m0 h1 m1 C v, t_rows t !! k = Some (h0, m0) -> swapl j (length (t_rows t) - 1) (t_rows t) !! k = Some (h1, m1) -> C ∈ U ->
      shows c r' h0 C v <-> v = m1 !! ct_id C).
    { intros k h0 m0 h1 m1 C v Hk Hk' HC.
      destruct (live_entry c U _ _ _ _ _ H (Hw _ _ _ Hk)) as (n0&i0&j0&t0&m0'&a0&En0&Ei0&Ej0&_&Ht0&Hj0&_).
      destruct (linked_inj _ _ _ _ _ _ _ _ _ _ _ (ro_loc _ _ _ _ _ H) Ht Hk Ht0 Hj0) as [-> ->].
      unfold shows. rewrite (placed_shows r' h0 n0 a' (set_rows t (swapl j (length (t_rows t) - 1) (t_rows t))) h1 m1 C); [split; congruence|done|by rewrite Ei0|exact Hta'|by rewrite Ej0|done]. }
    assert (Hjl : swapl j (length (t_rows t) - 1) (t_rows t) !! j = Some (hl, ml)).
    { rewrite swapl_lookup by lia. unfold swp. by rewrite decide_True. }
    assert (Hlj : swapl j (length (t_rows t) - 1) (t_rows t) !! (length (t_rows t) - 1) = Some (h, m)).
    { rewrite swapl_lookup by lia. unfold swp. case_decide as E; [|by rewrite decide_True]. rewrite E in Hl. rewrite E. congruence. }
    exists r', hl, (t_cs t), (row_values (t_cs t) m). split; [|split; [|split; [|split; [|split; [|split; [|split; [|split]]]]]]].
    - unfold destroy_entity. rewrite rm_get_step, Een, Ei, Ej. unfold bind at 1. unfold with_arch. rewrite Ha, Es. done.
    - done.
    - by eapply row_of_tab.
    - done.
    - by eapply last_mate_tab.
    - intros C v HC. rewrite (Hsh' _ _ _ _ _ _ v Hj Hjl HC), (Hsh' _ _ _ _ _ _ v Hl Hlj HC), (Hsh _ _ _ _ v Hj HC), (Hsh _ _ _ _ v Hl HC). done.
    - intros h' Hne1 Hne2. split; [done|]. intros C v HC. destruct (w !! h') as [e'|] eqn:Ew'.
      + destruct (live_entry c U _ _ _ _ _ H Ew') as (n0&i0&j0&t0&m0&a0&En0&Ei0&Ej0&_&Ht0&Hj0&Ee0&Ha0&Hta0).
        destruct (decide (i0 = i)) as [->|Hi].
        * simplify_eq. rewrite (Hsh _ _ _ _ v Hj0 HC). apply (Hsh' _ _ _ h' m0 _ v Hj0); [|done].
          rewrite swapl_lookup by lia. unfold swp. rewrite decide_False by congruence. rewrite decide_False by congruence. exact Hj0.
        * unfold shows. rewrite (placed_shows r' h' n0 a0 t0 h' m0 C); [|done| |done|by rewrite Ej0|done];
            [|rewrite Ei0; cbn; by rewrite list_lookup_insert_ne].
          rewrite (placed_shows r h' n0 a0 t0 h' m0 C); [done|done|by rewrite Ei0|done|by rewrite Ej0|done].
      + unfold shows, get_component. rewrite Hen. by rewrite (dead_entry _ _ _ _ _ _ H Ew').
    - exists (<[i := set_rows t (swapl j (length (t_rows t) - 1) (t_rows t))]> T). split; [|split].
      + cbn. by apply Forall2_insert; [apply H|].
      + destruct (tabs_values_insert T i t (set_rows t (swapl j (length (t_rows t) - 1) (t_rows t))) Ht) as (X&E1&E2). rewrite E1, E2.
        apply Permutation_app; [|done]. cbn [t_rows set_rows]. apply concat_map_perm. by apply swapl_last_perm.
      + destruct (live_allocs_insert _ _ _ _ _ a' (set_rows t (swapl j (length (t_rows t) - 1) (t_rows t))) Ha Ht) as (X&E1&E2); [by eapply ro_len|].
        cbn [r_ar put_arch set_archs ar_archs]. unfold r', put_arch, set_archs. cbn [r_ar ar_archs]. rewrite E1, E2. cbn [t_cs set_rows]. by rewrite Hcap'.
    - cbn. apply H.
  Qed.

  (** *** Dropping the registry, with panicking destructors *)
  Definition partly (e e' : env) (D : list value) (L : list (N * N)) : Prop :=
    exists evs, ev_trace e' = ev_trace e ++ evs /\ ev_oracle e' = [] /\ drops_of evs ⊆+ D /\ frees_of evs ⊆+ L ++ allocs_of evs.
  Lemma partly_trans e1 e2 e3 D1 D2 L1 L2 : partly e1 e2 D1 L1 -> partly e2 e3 D2 L2 -> partly e1 e3 (D1 ++ D2) (L1 ++ L2).
  Proof.
    intros (v1&T1&_&HD1&HF1) (v2&T2&Ho&HD2&HF2). exists (v1 ++ v2). split; [by rewrite T2, T1, app_assoc|]. split; [done|].
    unfold drops_of, allocs_of, frees_of in *. rewrite !omap_app. split; [by apply submseteq_app|].
    etrans; [by apply submseteq_app|]. apply Permutation_submseteq. rewrite <- !app_assoc. apply Permutation_app; [done|].
    rewrite !app_assoc. apply Permutation_app; [|done]. apply Permutation_app_comm.
  Qed.
  Lemma drops_of_map vs : drops_of (map EvDrop vs) = vs /\ allocs_of (map EvDrop vs) = [] /\ frees_of (map EvDrop vs) = [].
  Proof. induction vs as [|v vs (IH1&IH2&IH3)]; [done|]. cbn. unfold drops_of, allocs_of, frees_of in *. cbn. by rewrite IH1, IH2, IH3. Qed.
  Lemma existsb_perm (f : value -> bool) l l' : l ≡ₚ l' -> existsb f l = existsb f l'.
  Proof. induction 1; cbn; [done|by f_equal| |congruence]. by rewrite !orb_assoc, (orb_comm (f _)). Qed.
  Lemma tab_cols a t : tab_ok be U a t -> exists cols, Forall2 (col_of (t_rows t)) (t_cs t) cols /\ concat cols ≡ₚ rows_values (t_rows t).
  Proof.
    intros Hta. pose proof Hta as (_&Hok&_). destruct (tab_facts _ _ _ _ Hta) as (_&_&Hnd&_).
    destruct (cols_exist (t_cs t) (t_cs t) (t_rows t)) as [cols Hcols]; [apply Hok|done|]. exists cols. split; [done|].
    rewrite (cols_concat_perm _ _ _ Hnd Hcols). by eapply (rows_values_cols c U).
  Qed.
  Lemma a_drop_any a t e : tab_ok be U a t -> ev_oracle e = [] ->
    exists a' e', partly e e' (rows_values (t_rows t)) (layouts (t_cs t) (a_cap a)) /\
      a_drop (a, e) = if existsb v_bomb (rows_values (t_rows t)) then Panic (a', e') else Ret tt (a', e').
  Proof.
    intros Hta Ho. pose proof Hta as (_&Hok&_). destruct (tab_cols _ _ Hta) as (cols&Hcols&Hp). rewrite <- (existsb_perm _ _ _ Hp).
    destruct (existsb v_bomb (concat cols)) eqn:Eb.
    - eexists a, _. split; [|by eapply (a_drop_bomb (a_desc a) (t_cs t) (proj1 Hok))].
      eexists. split; [done|]. split; [done|]. destruct (drops_of_map (until_bomb (concat cols))) as (->&->&->).
      split; [|apply submseteq_nil_l]. etrans; [|by apply Permutation_submseteq].
      apply sublist_submseteq, until_bomb_sublist.
    - destruct (a_drop_ok _ _ (proj1 Hok) a (t_rows t) e eq_refl Hok) as (a'&e'&E&evs&_&Ho'&Et&HD&HB); [|done|].
      { apply Forall_lookup. intros j [h m] Hj x v Hv. cbn [snd] in Hv. destruct (v_bomb v) eqn:Evb; [|done]. exfalso.
        assert (existsb v_bomb (concat cols) = true); [|congruence]. apply existsb_exists. exists v. split; [|done].
        apply elem_of_list_In. rewrite Hp. unfold rows_values. change (map ?f ?l) with (f <$> l). apply elem_of_concat. eexists. split; [|apply elem_of_list_fmap; exists (h, m); split; [done|by eapply elem_of_list_lookup_2]].
        cbn [snd]. unfold mvals. apply elem_of_list_fmap. exists (x, v). split; [done|]. by apply elem_of_map_to_list. }
      exists a', e'. split; [|done]. exists evs. split; [done|]. split; [done|].
      split; [rewrite HD; apply Permutation_submseteq; by eapply (rows_values_cols c U)|].
      rewrite HB. by rewrite app_nil_r.
  Qed.
  Lemma drop_archs_any n k s T p :
    ev_oracle (r_env s) = [] -> n = length (ar_archs (r_ar s)) - k ->
    Forall2 (tab_ok be U) (drop k (ar_archs (r_ar s))) T ->
    exists s', partly (r_env s) (r_env s') (tabs_values T) (live_allocs (drop k (ar_archs (r_ar s))) T) /\
      drop_archs k n p s = if p || existsb v_bomb (tabs_values T) then Panic s' else Ret tt s'.
  Proof.
    revert k s T p. induction n as [|n IH]; intros k s T p Ho Hn HT; cbn [drop_archs].
    - rewrite drop_ge in * by lia. inversion HT; subst. exists s. split; [|cbn; by rewrite orb_false_r].
      exists []. rewrite app_nil_r. split; [done|]. split; [done|]. split; apply submseteq_nil_l.
    - destruct (lookup_lt_is_Some_2 (ar_archs (r_ar s)) k) as [a Ha]; [lia|].
      rewrite (drop_S _ _ _ Ha) in *. inversion HT as [|? t ? T' Ht HT' E1 E2]; subst.
      destruct (a_drop_any a t (r_env s) Ht Ho) as (a'&e'&Hp&E).
      assert (Ho' : ev_oracle e' = []) by (by destruct Hp as (?&?&?&_)).
      assert (HIH := fun q => IH (S k) (put_arch s k a' e') T' q Ho').
      cbn [r_ar put_arch set_archs ar_archs r_env] in HIH. rewrite insert_length, drop_insert_gt in HIH by lia.
      unfold tabs_values. cbn [map concat]. rewrite existsb_app. fold (tabs_values T').
      unfold with_arch. rewrite Ha, E. destruct (existsb v_bomb (rows_values (t_rows t))).
      + destruct (HIH true ltac:(lia) HT') as (s'&Hp'&Es). exists s'. split; [by eapply partly_trans|].
        rewrite orb_true_r. exact Es.
      + destruct (HIH p ltac:(lia) HT') as (s'&Hp'&Es). exists s'. split; [by eapply partly_trans|]. exact Es.
  Qed.
  Lemma drop_any r T : ev_oracle (r_env r) = [] -> Forall2 (tab_ok be U) (ar_archs (r_ar r)) T ->
    exists r', partly (r_env r) (r_env r') (tabs_values T) (live_allocs (ar_archs (r_ar r)) T) /\
      drop_registry r = if existsb v_bomb (tabs_values T) then Panic r' else Ret tt r'.
  Proof. intros Ho HT. unfold drop_registry. rewrite rm_get_step. destruct (drop_archs_any (length (ar_archs (r_ar r))) 0 r T false) as (r'&Hp&E); [done|lia|done|]. by exists r'. Qed.
  Lemma all_calm_values w : existsb v_bomb (world_values w) = false <-> all_calm w.
  Proof.
    assert (Hin : forall v, In v (world_values w) <-> exists h e x, w !! h = Some e /\ en_vals e !! x = Some v).
    { intros v. rewrite <- elem_of_list_In. unfold world_values. change (map ?f ?l) with (f <$> l). rewrite elem_of_concat. split.
      - intros (l&Hv&([h e]&->&Hhe)%elem_of_list_fmap). apply elem_of_map_to_list in Hhe. cbn [snd] in Hv.
        apply elem_of_list_fmap in Hv as ([x v']&->&Hx). apply elem_of_map_to_list in Hx. eauto.
      - intros (h&e&x&He&Hx). exists (map_to_list (en_vals e)).*2. split.
        + apply elem_of_list_fmap. exists (x, v). split; [done|]. by apply elem_of_map_to_list.
        + apply elem_of_list_fmap. exists (h, e). split; [done|]. by apply elem_of_map_to_list. }
    split.
    - intros Hf h e He x v Hv. destruct (v_bomb v) eqn:E; [|done]. exfalso.
      assert (existsb v_bomb (world_values w) = true); [|congruence]. apply existsb_exists. exists v. split; [|done]. apply Hin. eauto.
    - intros Hc. apply not_true_is_false. intros (v&Hv&E)%existsb_exists. apply Hin in Hv as (h&e&x&He&Hx). by rewrite (Hc h e He x v Hx) in E.
  Qed.
  Lemma history_drop_any r w I O : history c U r w I O ->
    exists r', drop_registry r = (if existsb v_bomb (world_values w) then Panic r' else Ret tt r') /\
      O ++ drops_of (ev_trace (r_env r')) ⊆+ I /\ frees_of (ev_trace (r_env r')) ⊆+ allocs_of (ev_trace (r_env r')).
  Proof.
    intros Hh. destruct (history_ok c U HU _ _ _ _ Hh) as (T&D&H&(evs&_&_&Et&HD&HB)&Hp).
    destruct (drop_any r T) as (r'&(evs'&Et'&_&HD'&HF')&E); [apply H|apply H|]. exists r'.
    rewrite (existsb_perm _ _ _ (world_values_tabs _ _ _ _ _ H)). split; [exact E|].
    rewrite Et', Et. cbn [ev_trace env_init app] in *. unfold drops_of, allocs_of, frees_of in *. rewrite !omap_app. split.
    - rewrite Hp, HD. apply submseteq_app; [done|]. apply submseteq_app; [done|]. rewrite HD'.
      apply Permutation_submseteq. symmetry. by eapply world_values_tabs.
    - etrans; [apply submseteq_app; [done|exact HF']|]. rewrite app_assoc, <- HB. done.
  Qed.
  Lemma history_bomb r w I O h C v : history c U r w I O -> C ∈ U -> shows c r h C (Some v) -> v_bomb v = true ->
    exists r' hl Cs vs, destroy_entity c h r = Panic r' /\ (forall h', alive c r' h' <-> alive c r h') /\
      row_of c U r h Cs vs /\ ev_trace (r_env r') = ev_trace (r_env r) ++ map EvDrop (until_bomb vs) /\
      last_mate c U r h hl /\ exchanged c U r r' h hl /\ (forall h', h' <> h -> h' <> hl -> same c U r r' h') /\
      exists r'' D, drop_registry r' = Panic r'' /\
        drops_of (ev_trace (r_env r'')) = drops_of (ev_trace (r_env r)) ++ until_bomb vs ++ D /\ D ⊆+ world_values w.
  Proof.
    intros Hh HC Hv Hb. destruct (history_ok c U HU _ _ _ _ Hh) as (T&_&H&_).
    apply (obs_shows c U HU _ _ _ _ _ _ H HC) in Hv. unfold value_of in Hv. destruct (w !! h) as [e|] eqn:Ew; [|done]. cbn in Hv.
    destruct (destroy_bomb r T w h e H Ew) as (r'&hl&Cs&vs&E&Hal&Hrow&Htr&Hl&Hx&Hs&(T'&HT'&Hp&_)&Ho).
    { intros Hc. specialize (Hc _ _ (eq_sym Hv)). congruence. }
    exists r', hl, Cs, vs. do 7 (split; [done|]).
    destruct (drop_any r' T' Ho HT') as (r''&(evs&Et&_&HD&_)&Ed). rewrite (existsb_perm _ _ _ Hp) in Ed.
    assert (Hw : existsb v_bomb (tabs_values T) = true).
    { rewrite <- (existsb_perm _ _ _ (world_values_tabs _ _ _ _ _ H)). destruct (existsb v_bomb (world_values w)) eqn:En; [reflexivity|exfalso].
      apply all_calm_values in En. specialize (En _ _ Ew _ _ (eq_sym Hv)). congruence. }
    rewrite Hw in Ed. exists r'', (drops_of evs). split; [done|]. split.
    - rewrite Et, Htr. unfold drops_of. rewrite !omap_app, <- app_assoc. f_equal. f_equal. apply drops_of_map.
    - etrans; [exact HD|]. rewrite Hp. apply Permutation_submseteq. symmetry. by eapply world_values_tabs.
  Qed.
End crash.
