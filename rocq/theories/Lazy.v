(** Proofs for C61: client code that holds a mutable iterator and references. *)
From Verif Require Import RegModel SpecTrace SpecEntity EntityProofs EntityTable SearchProofs DescrProofs MonadProofs ArchProofs ArchOps ArchOps2 ArchOps3 AregProofs IterProofs
  RegProofs RegOps RegOps2 RegOps3 RegIter RegMut RegExact Refine Ref Sizes Observe Bytes3 Codes LazyModel SpecBase SpecWorld SpecRef SpecCode SpecLazy.
Local Open Scope nat_scope.

(** ** Writing through a reference leaves the keys and the descriptors *)
Definition same_keys (r r' : reg) : Prop :=
  ar_maps (r_ar r') = ar_maps (r_ar r) /\ forall i, a_desc <$> ar_archs (r_ar r') !! i = a_desc <$> ar_archs (r_ar r) !! i.
Lemma replace_keys l v r old r' : replace_loc l v r = Ret old r' -> same_keys r r'.
Proof.
  unfold replace_loc. intros E. apply bind_Ret_inv in E as (a&r1&E1&E). apply bind_Ret_inv in E as (o&r2&E2&E).
  assert (r1 = r) as ->. { unfold rm_rd, lift_rd in E1. destruct (arch_at _ _); by simplify_eq. }
  assert (r2 = r) as ->. { unfold lift_rd in E2. destruct (raw_cell _ _ _); by simplify_eq. }
  destruct o as [ov|]; [|done]. apply bind_Ret_inv in E as ([]&r3&E3&E). injection E as <- <-. unfold with_arch in E3.
  destruct (ar_archs (r_ar r) !! l.1.1) as [b|] eqn:Hb; [|done]. destruct (write_cell _ _ _ _) as [[] s| |] eqn:Ew; [|done|done]. injection E3 as <-.
  apply write_cell_desc in Ew. split; [done|]. intros i. cbn. destruct (decide (i = l.1.1)) as [->|Hne]; [|by rewrite list_lookup_insert_ne].
  rewrite list_lookup_insert by (by eapply lookup_lt_Some). rewrite Hb. cbn. by f_equal.
Qed.
Lemma keys_indices r r' st : same_keys r r' -> indices (r_ar r') st = indices (r_ar r) st.
Proof. intros [E _]. unfold indices. by rewrite E. Qed.
Lemma keys_acc r r' accept i : same_keys r r' -> acc (r_ar r') accept i <-> acc (r_ar r) accept i.
Proof.
  intros [_ E]. specialize (E i). unfold acc. split; intros (a&Ha&Hx); rewrite Ha in E; cbn in E.
  - destruct (ar_archs (r_ar r) !! i) as [b|]; [|done]. injection E as E. exists b. by rewrite <- E.
  - destruct (ar_archs (r_ar r') !! i) as [b|]; [|done]. injection E as E. exists b. by rewrite E.
Qed.
Lemma keys_filter r r' accept st : same_keys r r' ->
  filter (acc (r_ar r') accept) (indices (r_ar r') st) = filter (acc (r_ar r) accept) (indices (r_ar r) st).
Proof. intros H. rewrite (keys_indices _ _ _ H). apply list_filter_iff. intros i. by apply keys_acc. Qed.

(** ** What an item shows depends on the skeleton only *)
Lemma skel_at T T' i : skel T' = skel T -> cs_at T' i = cs_at T i /\ map fst (rows_at T' i) = map fst (rows_at T i).
Proof.
  intros E. assert (skel T' !! i = skel T !! i) as Ei by (by rewrite E). unfold skel in Ei.
  change (map ?f T) with (f <$> T) in Ei. change (map ?f T') with (f <$> T') in Ei. rewrite !list_lookup_fmap in Ei.
  unfold cs_at, rows_at. destruct (T !! i), (T' !! i); try done. cbn in Ei. by injection Ei as _ E2 E3.
Qed.
Lemma skel_item T T' G i : skel T' = skel T -> (item_at T' G i).1 = (item_at T G i).1 /\ slots_at T' G i = slots_at T G i.
Proof.
  intros E. destruct (skel_at T T' i E) as [E1 E2]. unfold item_at, slots_at. cbn [fst]. rewrite E1, E2. split; [done|].
  rewrite <- (map_length fst (rows_at T' i)), E2, map_length. done.
Qed.

Lemma owners_types G es : map snd (owners G es) = item_types G es.
Proof.
  unfold owners, item_types. induction G as [|C G IH]; [done|]. cbn [map concat]. rewrite map_app, IH. f_equal. by rewrite map_map.
Qed.
Lemma on_items_length {O} (shown : list N -> O) cd : forall vs rest, length (on_items shown vs rest cd).2 = length vs + length (concat (concat (map snd rest))).
Proof.
  induction cd as [|k IH|p k IH|p v k IH]; intros vs rest; cbn [on_items snd].
  - by rewrite app_length.
  - destruct rest as [|it rest]; cbn [snd]; rewrite IH; [done|]. cbn [map concat]. rewrite concat_app, !app_length. lia.
  - destruct (vs !! p); cbn [snd]; [apply IH|by rewrite app_length].
  - destruct (vs !! p); cbn [snd]; [rewrite IH; by rewrite insert_length|by rewrite app_length].
Qed.

Section lazy.
  Context {Fm : family} (c : cfg) (U : list ctype) (HU : universe (big c) U).
  Notation be := (big c).
  Implicit Types (T : list tab) (w : world).
  Definition has w (x : N * ctype) (v : value) : Prop := value_of w x.1 x.2 = Some v.

  Section iterator.
    Context {O : Type} (G : group) (accept : adesc -> bool) (shown : list N -> O) (next : areg -> itst -> rd (option (O * list (list loc)) * itst)).
    Notation left r st := (filter (acc (r_ar r) accept) (indices (r_ar r) st)).
    Context (Hnext : forall r T w st, reg_ok be U r T w -> it_level st <= 14 ->
      exists o st', next (r_ar r) st = Rd (o, st') /\ it_level st' <= 14 /\
        match left r st with
        | [] => o = None /\ it_level st' = 14
        | i :: l => o = Some (shown (item_at T G i).1, slots_at T G i) /\ l = left r st'
        end).
    Context (T0 : list tab).
    Notation es := (fun i => (item_at T0 G i).1).
    Notation slots V := (concat (concat (map (slots_at T0 G) V))).
    Notation them V := (concat (map (owners G) (map es V))).

    Lemma lazy_ok cd : forall st ls who vs V rest r T w Inn Out,
      history c U r w Inn Out -> reg_ok be U r T w -> skel T = skel T0 -> it_level st <= 14 -> left r st = V ->
      Forall2 (points (skel T0)) ls who -> Forall2 (points (skel T0)) (slots V) (them V) -> NoDup (who ++ them V) ->
      (forall i, i ∈ V -> Forall2 (points (skel T0)) (concat (slots_at T0 G i)) (owners G (es i))) ->
      Forall2 (has w) who vs -> Forall2 (fun i it => it.1 = es i /\ Forall2 (has w) (owners G it.1) (concat it.2)) V rest ->
      typed_lcode shown G (map snd who) cd -> exists r', let x := on_items shown vs rest cd in
        serve_lazy next st ls cd r = Ret x.1 r' /\
        run c (writes_of shown G who vs rest cd) r = Ret (map (fun v => OutVal (Some v)) (got_out x.1)) r' /\
        history c U r' (put_all (who ++ them V) x.2 w) (Inn ++ put_in x.1) (Out ++ got_out x.1).
    Proof.
      induction cd as [|k IH|p k IH|p v k IH]; intros st ls who vs V rest r T w Inn Out Hh H HS Hst HV Hps Hpr Hnd Hsl Hvs Hrest Ht.
      - exists r. cbn [serve_lazy on_items writes_of put_in got_out fst snd omap list_omap]. split; [done|]. split; [done|]. rewrite !app_nil_r, put_all_same; [done|].
        apply Forall2_app; [exact Hvs|]. clear -Hrest. induction Hrest as [|i it V rest [E Hit] Hr IH]; cbn [map concat]; [constructor|].
        rewrite concat_app. apply Forall2_app; [by rewrite <- E|exact IH].
      - cbn [typed_lcode] in Ht. destruct Ht as [Ht0 Ht1]. destruct (Hnext r T w st H Hst) as (o&st'&En&Hst'&Ho). rewrite HV in Ho.
        destruct Hrest as [|i it V rest [Eit Hit] Hrest].
        + destruct Ho as [-> H14]. destruct (IH None st' ls who vs [] [] r T w Inn Out) as (r'&E1&E3&E2); try done.
          { destruct st' as [lv ix]. cbn in H14. subst lv. rewrite indices_end; [done|]. apply H. }
          exists r'. cbn [serve_lazy on_items writes_of put_in got_out fst snd omap list_omap]. split; [|split; [exact E3|exact E2]].
          rewrite (bind_Ret _ _ _ _ _ (rm_rd_Rd (fun s => next (r_ar s) st) r _ En)). cbn beta iota. by rewrite (bind_Ret _ _ _ _ _ E1).
        + destruct Ho as [-> Hl]. destruct (skel_item T0 T G i HS) as [Ee Es]. cbn [map concat] in Hnd, Hpr.
          destruct (IH (Some (shown it.1)) st' (ls ++ concat (slots_at T0 G i)) (who ++ owners G (es i)) (vs ++ concat it.2) V rest r T w Inn Out) as (r'&E1&E3&E2); try done.
          { apply Forall2_app; [done|]. apply Hsl. by left. }
          { clear -Hsl. induction V as [|j V IH]; cbn [map concat]; [constructor|]. rewrite concat_app. apply Forall2_app; [apply Hsl; right; by left|].
            apply IH. intros j' [->|Hj]%elem_of_cons; apply Hsl; [by left|right; by right]. }
          { by rewrite <- app_assoc. }
          { intros j Hj. apply Hsl. by right. }
          { apply Forall2_app; [done|]. by rewrite <- Eit. }
          { rewrite map_app, owners_types, Eit. rewrite <- Eit. apply Ht1. }
          exists r'. cbn [serve_lazy on_items writes_of put_in got_out fst snd omap list_omap]. split; [|split; [by rewrite Eit in *|]].
          * rewrite (bind_Ret _ _ _ _ _ (rm_rd_Rd (fun s => next (r_ar s) st) r _ En)). cbn beta iota. rewrite Ee, Es, <- Eit. by rewrite (bind_Ret _ _ _ _ _ E1).
          * cbn [map concat]. by rewrite <- app_assoc in E2.
      - cbn [typed_lcode] in Ht; destruct Ht as (C&HC&Ht); change (map snd who) with (snd <$> who) in HC; rewrite list_lookup_fmap in HC.
        destruct (who !! p) as [x|] eqn:Hx; [|done]. injection HC as <-.
        destruct (Forall2_lookup_r _ _ _ _ _ Hps Hx) as (l&Hl&Hp). destruct (Forall2_lookup_l _ _ _ _ _ Hvs Hx) as (old&Ho&Hold).
        rewrite <- HS in Hp. destruct (point_look c U HU _ _ _ _ _ _ H Hp Hold) as [El Hfo].
        destruct (IH old st ls who vs V rest r T w Inn Out) as (r'&E1&E3&E2); try done; [by apply Ht|].
        exists r'. cbn [serve_lazy on_items writes_of]. rewrite Hl, Ho. cbn [put_in got_out fst snd omap list_omap]. split; [|split; [exact E3|exact E2]].
        by rewrite (bind_Ret _ _ _ _ _ El), (bind_Ret _ _ _ _ _ E1).
      - cbn [typed_lcode] in Ht; destruct Ht as (C&HC&Hfv&Ht); change (map snd who) with (snd <$> who) in HC; rewrite list_lookup_fmap in HC.
        destruct (who !! p) as [x|] eqn:Hx; [|done]. injection HC as <-.
        destruct (Forall2_lookup_r _ _ _ _ _ Hps Hx) as (l&Hl&Hp). destruct (Forall2_lookup_l _ _ _ _ _ Hvs Hx) as (old&Ho&Hold).
        rewrite <- HS in Hp. destruct (point_look c U HU _ _ _ _ _ _ H Hp Hold) as [_ Hfo].
        destruct (point_set c U HU _ _ _ _ _ _ _ H Hp Hold Hfv) as (r1&T1&Er&Es&H1&HS1).
        destruct (point_row c U HU _ _ _ _ _ H Hp) as (?&?&?&?&?&?&_&_&_&_&_&_&_&Hw&_).
        assert (Hk : NoDup (map key (who ++ them V))).
        { apply (key_inj c U HU); [|done]. pose proof (Forall2_app Hps Hpr) as Hall. intros y [q Hq]%elem_of_list_lookup.
          destruct (Forall2_lookup_r _ _ _ _ _ Hall Hq) as (lq&_&Hpq). rewrite <- HS in Hpq.
          by destruct (point_row c U HU _ _ _ _ _ H Hpq) as (_&_&_&_&_&_&_&_&_&_&_&_&_&_&?&_). }
        assert (Hh1 : history c U r1 (put1 x v w) (Inn ++ [v]) (Out ++ [old])).
        { assert (Hc : contract be U w (OpSet x.2 x.1 v)).
          { split; [|done]. by destruct (point_row c U HU _ _ _ _ _ H Hp) as (_&_&_&_&_&_&_&_&_&_&_&_&_&_&?&_). }
          exact (h_call _ _ _ _ _ _ _ _ _ Hh Hc Es). }
        assert (Hx' : (who ++ them V) !! p = Some x) by (by rewrite lookup_app_l; [|eapply lookup_lt_Some]).
        destruct (IH old st ls who (<[p := v]> vs) V rest r1 T1 (put1 x v w) (Inn ++ [v]) (Out ++ [old])) as (r'&E1&E3&E2); try done.
        { by rewrite HS1. }
        { rewrite (keys_filter r r1); [done|]. by eapply replace_keys. }
        { rewrite map_app in Hk. apply NoDup_app in Hk as [Hk _]. by apply values_put1. }
        { rewrite map_app in Hk. apply NoDup_app in Hk as (_&Hk&_). clear -Hrest Hk Hx.
          assert (Hxk : key x ∈ map key who). { change (map key who) with (key <$> who). apply elem_of_list_fmap. exists x. split; [done|]. by eapply elem_of_list_lookup_2. }
          specialize (Hk _ Hxk). clear Hx Hxk. induction Hrest as [|i it V rest [E Hit] Hr IH]; constructor.
          - split; [done|]. cbn [map concat] in Hk. rewrite <- E, map_app in Hk. rewrite elem_of_app in Hk.
            assert (Hk1 : key x ∉ map key (owners G it.1)) by naive_solver. clear -Hk1 Hit. induction Hit as [|y u ys us Hyu Hr IH]; constructor.
            + unfold has. rewrite put1_value. destruct (decide _) as [[E1 E2]|_]; [|exact Hyu]. exfalso. apply Hk1. assert (key x = key y) as -> by (unfold key; by rewrite E1, E2). cbn [map]. by left.
            + apply IH. intros F. apply Hk1. cbn [map]. by right.
          - apply IH. intros F. apply Hk. cbn [map concat]. rewrite map_app, elem_of_app. by right. }
        { by apply Ht. }
        exists r'. cbn [serve_lazy on_items writes_of]. rewrite Hl, Ho, Hx. cbn [put_in got_out fst snd omap list_omap map run]. split; [|split].
        + by rewrite (bind_Ret _ _ _ _ _ Er), (bind_Ret _ _ _ _ _ E1).
        + by rewrite (bind_Ret _ _ _ _ _ Es), (bind_Ret _ _ _ _ _ E3).
        + rewrite <- !app_assoc in E2. rewrite (put_all_absorb _ p) in E2; [exact E2|done| |done].
          rewrite on_items_length, insert_length, app_length. f_equal; [symmetry; by eapply Forall2_length|].
          clear -Hrest. induction Hrest as [|i it V rest [E Hit] Hr IH]; [done|]. cbn [map concat]. rewrite concat_app, !app_length, IH. f_equal.
          rewrite <- E. symmetry. by eapply Forall2_length.
    Qed.
  End iterator.

  Lemma plain_item r T w (H : reg_ok be U r T w) G (Hv : gvalid be G) (accept : adesc -> bool)
    (Hacc : forall a t, tab_ok be U a t -> accept (a_desc a) = true -> forall C, C ∈ G -> C ∈ t_cs t) i a :
    ar_archs (r_ar r) !! i = Some a -> accept (a_desc a) = true ->
    (letr cols := get_fuzzy_slices_mut c G a in Rd (slice_len cols, locate i cols)) = Rd (length (item_at T G i).1, slots_at T G i).
  Proof.
    intros Ha Hx. destruct (slices_are c U r T w H G Hv accept Hacc i a Ha Hx) as (_&_&E3&_).
    unfold rbind in *. destruct (get_fuzzy_slices_mut c G a) as [cols| |] eqn:Eg; try done.
    injection E3 as E3. rewrite E3. do 2 f_equal. assert (slice_len cols = slice_len (locate i cols)) as ->.
    { unfold locate. destruct cols; cbn; [done|]. by rewrite map_length. }
    rewrite E3. unfold slots_at, item_at. cbn [fst]. rewrite map_length. destruct Hv as (_&Hl&_). unfold locate, col_cells. destruct G as [|C G']; [cbn in Hl; lia|].
    cbn [map slice_len]. by rewrite !map_length, seq_length.
  Qed.
  Section iterators.
    Context (r : reg) (w : world) (Inn Out : list value) (Hh : history c U r w Inn Out).
    Context (G : group) (HG : in_U U G) (Hv : gvalid be G) (accept : adesc -> bool).
    Context (Hacc : forall a t, tab_ok be U a t -> accept (a_desc a) = true -> forall C, C ∈ G -> C ∈ t_cs t).
    Lemma iter_new : arch_iter_new c G = Rd (ItSt (glen c G - 1) 0) /\ glen c G <= 14.
    Proof.
      assert (Hgv : gd_is_valid (group_desc be G) = true) by (by apply gvalid_iff). unfold arch_iter_new, glen.
      pose proof (group_validity be G) as ([H1 _]&_&Eg). destruct (H1 Hgv) as (Hlen&_). specialize (Eg Hgv).
      rewrite Eg. destruct (length G) as [|n] eqn:En; [lia|]. cbn [Nat.sub]. rewrite Nat.sub_0_r. split; [done|].
      unfold MAX_COMPONENTS_PER_ENTITY in *. lia.
    Qed.
    Lemma lazy_ent P (HP : forall a t h m, tab_ok be U a t -> (h, m) ∈ t_rows t -> (P (Ent (t_id t) m) = true <-> accept (a_desc a) = true)) :
      exists items, slices_collect c G accept (fun _ a => get_entity_fuzzy_slices c G a) (r_ar r) = Rd (Some items) /\ visits w P G items /\
        lazy_like_list c U r w Inn Out G (slices_next c G accept (fun i a => letr x := get_entity_fuzzy_slices_mut c G a in Rd (x.1, locate i x.2))) id items /\
        lazy_like_list c U r w Inn Out G (slices_next c G accept (fun i a => letr cols := get_fuzzy_slices_mut c G a in Rd (slice_len cols, locate i cols))) length items.
    Proof.
      destruct (history_ok c U HU _ _ _ _ Hh) as (T&D&H&_). assert (Hgv : gd_is_valid (group_desc be G) = true) by (by apply gvalid_iff).
      destruct (collects c U r T w H G Hv _ Hacc) as (_&E0&_). pose proof (covers_V c U r T w H G Hv _ Hacc _ HP) as Hc.
      destruct (covers_like c U HU r T w _ G _ H HG Hv Hc) as [Hvis (T'&_&_&Hnd&Hvals)]. clear T'.
      destruct iter_new as [Enew Hlen]. exists (map (item_at T G) (visited c G (r_ar r) accept)). split; [exact E0|]. split; [exact Hvis|].
      assert (Hgen : forall (O : Type) (shown : list N -> O) (item : nat -> arch -> rd (O * list (list loc))),
        (forall r1 T1 w1 i a, reg_ok be U r1 T1 w1 -> ar_archs (r_ar r1) !! i = Some a -> accept (a_desc a) = true ->
           item i a = Rd (shown (item_at T1 G i).1, slots_at T1 G i)) ->
        lazy_like_list c U r w Inn Out G (slices_next c G accept item) shown (map (item_at T G) (visited c G (r_ar r) accept))).
      { intros O shown item Hitem cd Ht.
        destruct (lazy_ok G accept shown (slices_next c G accept item)) with (T0 := T) (cd := cd) (st := ItSt (glen c G - 1) 0) (ls := @nil loc) (who := @nil (N * ctype)) (vs := @nil value)
          (V := visited c G (r_ar r) accept) (rest := map (item_at T G) (visited c G (r_ar r) accept)) (r := r) (T := T) (w := w) (Inn := Inn) (Out := Out) as (r'&E1&E3&E2).
        - intros r1 T1 w1 st H1 Hst. eapply slices_next_spec; [apply H1| |done|done]. intros i a Ha Hx. by eapply Hitem.
        - exact Hh.
        - exact H.
        - done.
        - cbn. lia.
        - done.
        - constructor.
        - pose proof (slots_points_all _ _ _ _ Hc) as Hp. by rewrite (map_map _ fst) in Hp.
        - cbn [app]. by rewrite (map_map _ fst) in Hnd.
        - intros i Hi. destruct (cv_tab _ _ _ _ Hc i Hi) as (t&Ei&HGt). by eapply slots_points.
        - constructor.
        - change (map (item_at T G) ?l) with (item_at T G <$> l). apply Forall2_fmap_r, Forall_Forall2_diag, Forall_forall. intros i Hi. split; [done|].
          destruct (cv_tab _ _ _ _ Hc i Hi) as (t&Ei&HGt). unfold item_at. cbn [fst snd].
          destruct Hvis as (_&_&Hvis). rewrite Forall_forall in Hvis. assert (Hin : item_at T G i ∈ map (item_at T G) (visited c G (r_ar r) accept)).
          { change (map ?f ?l) with (f <$> l). apply elem_of_list_fmap. by exists i. }
          specialize (Hvis _ Hin). clear -Hvis. unfold item_at in Hvis. cbn [fst snd] in Hvis. unfold owners.
          induction Hvis as [|C col G' cols Hcc H IH]; cbn [map concat]; [constructor|]. apply Forall2_app; [|done].
          clear -Hcc. induction Hcc; cbn [map]; by constructor.
        - exact Ht.
        - exists r'. cbn zeta in *. unfold lazily. rewrite (bind_Ret _ _ _ _ _ (lift_Rd _ _ _ Enew)). split; [exact E1|]. split; [exact E3|].
          cbn [app] in E2. by rewrite (map_map _ fst). }
      split; apply Hgen; intros r1 T1 w1 i a H1 Ha Hx; destruct (slices_are c U r1 T1 w1 H1 G Hv accept Hacc i a Ha Hx) as (_&_&E3&E4); [exact E4|].
      by apply (plain_item r1 T1 w1 H1 G Hv accept Hacc).
    Qed.
  End iterators.

  Lemma matching_lazy r w Inn Out G : history c U r w Inn Out -> in_U U G -> gvalid be G ->
    exists items, iter_entity_components_matching c G r = Rd (Some items) /\ visits w (matching G) G items /\
      lazy_like_list c U r w Inn Out G (next_entity_matching_mut c G) id items /\
      lazy_like_list c U r w Inn Out G (next_matching_mut c G) length items.
  Proof.
    intros Hh HG Hv. exact (lazy_ent r w Inn Out Hh G HG Hv _ (matching_accepts c U HU G HG Hv) _ (matching_P c U HU G HG Hv)).
  Qed.
  Lemma filtered_lazy r w Inn Out G f : history c U r w Inn Out -> in_U U G -> gvalid be G -> respects f ->
    exists items, iter_filtered_entity_components_matching c G f r = Rd (Some items) /\ visits w (filtered U G f) G items /\
      lazy_like_list c U r w Inn Out G (next_entity_filtered_mut c G f) id items /\
      lazy_like_list c U r w Inn Out G (next_filtered_mut c G f) length items.
  Proof.
    intros Hh HG Hv Hf. exact (lazy_ent r w Inn Out Hh G HG Hv _ (filtered_accepts c U HU G f HG Hv) _ (filtered_P c U HU G f HG Hv Hf)).
  Qed.
End lazy.
