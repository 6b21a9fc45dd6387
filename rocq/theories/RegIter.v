(** Registry operations, continued: iterating over entities and components. *)
From Verif Require Import RegModel SpecTrace SpecEntity EntityProofs EntityTable SearchProofs DescrProofs MonadProofs ArchProofs ArchOps ArchOps2 ArchOps3 AregProofs IterProofs RegProofs RegOps RegOps2 RegOps3 SpecBase SpecWorld.
Local Open Scope nat_scope.

(** ** Columns of rows *)
Definition no_value : value := Value 0 0 false.
Definition col_at (rows : list row) (C : ctype) : list value := map (fun x : row => default no_value (x.2 !! ct_id C)) rows.
Definition cols_at (rows : list row) (G : group) : list (list value) := map (col_at rows) G.
Lemma col_at_ok cs rows C : Forall (row_ok cs) rows -> C ∈ cs -> col_of rows C (col_at rows C).
Proof.
  intros HF HC. unfold col_of, col_at. change (map ?f rows) with (f <$> rows). apply Forall2_fmap_r.
  eapply Forall_Forall2_diag, Forall_impl; [exact HF|]. intros x [Hf _].
  destruct (proj2 (Hf (ct_id C))) as [v Hx]; [apply elem_of_ids; eauto|].
  cbn. by rewrite Hx.
Qed.
Lemma cols_at_ok cs rows G : Forall (row_ok cs) rows -> (forall C, C ∈ G -> C ∈ cs) -> Forall2 (col_of rows) G (cols_at rows G).
Proof.
  intros HF Hs. unfold cols_at. change (map ?f G) with (f <$> G). apply Forall2_fmap_r. apply Forall_Forall2_diag, Forall_forall.
  intros C HC. eapply col_at_ok; [done|by apply Hs].
Qed.
Definition rows_at (T : list tab) (i : nat) : list row := match T !! i with Some t => t_rows t | None => [] end.
Definition cs_at (T : list tab) (i : nat) : list ctype := match T !! i with Some t => t_cs t | None => [] end.
Definition item_at (T : list tab) (G : group) (i : nat) : list N * list (list value) :=
  (map fst (rows_at T i), cols_at (rows_at T i) G).
Definition slots_at (T : list tab) (G : group) (i : nat) : list (list loc) :=
  locate i (col_cells (cs_at T i) (length (rows_at T i)) G).
Lemma NoDup_concat {A} (ls : list (list A)) : (forall l, l ∈ ls -> NoDup l) ->
  (forall i j l k x, ls !! i = Some l -> ls !! j = Some k -> x ∈ l -> x ∈ k -> i = j) -> NoDup (concat ls).
Proof.
  induction ls as [|l ls IH]; intros Hn Hd; [constructor|]. cbn. apply NoDup_app. split; [apply Hn; by left|]. split.
  - intros x Hx (k&Hk&[j Hj]%elem_of_list_lookup)%elem_of_concat. by specialize (Hd 0 (S j) l k x eq_refl Hj Hx Hk).
  - apply IH; [intros; apply Hn; by right|]. intros i j l1 l2 x Hi Hj H1 H2. by injection (Hd (S i) (S j) l1 l2 x Hi Hj H1 H2).
Qed.

(** *** No cell is listed twice *)
Lemma elem_slots T G i x : x ∈ concat (slots_at T G i) -> exists C k, C ∈ G /\ x = (i, id_pos (ct_id C) (ids_of (cs_at T i)), k).
Proof.
  intros (l&Hx&Hl)%elem_of_concat. unfold slots_at, locate, col_cells in Hl. rewrite map_map in Hl. change (map ?f G) with (f <$> G) in Hl.
  apply elem_of_list_fmap in Hl as (C&->&HC). rewrite map_map in Hx. change (map ?f (seq ?a ?b)) with (f <$> seq a b) in Hx.
  apply elem_of_list_fmap in Hx as (k&->&_). by exists C, k.
Qed.
Lemma slots_nodup T G i : NoDup (ids_of G) -> (forall C, C ∈ G -> C ∈ cs_at T i) -> NoDup (concat (slots_at T G i)).
Proof.
  intros Hnd Hsub. unfold slots_at, locate, col_cells. rewrite map_map. apply NoDup_concat.
  - intros l Hl. change (map ?f G) with (f <$> G) in Hl. apply elem_of_list_fmap in Hl as (C&->&_). rewrite map_map.
    change (map ?f (seq ?a ?b)) with (f <$> seq a b). apply NoDup_fmap_2; [|apply NoDup_seq]. by intros x y [= ->].
  - intros p q l k x Hp Hq Hl Hk. change (map ?f G) with (f <$> G) in Hp, Hq. rewrite list_lookup_fmap in Hp, Hq.
    destruct (G !! p) as [C1|] eqn:E1; [|done]. destruct (G !! q) as [C2|] eqn:E2; [|done]. injection Hp as <-. injection Hq as <-.
    rewrite map_map in Hl, Hk. change (map ?f (seq ?a ?b)) with (f <$> seq a b) in Hl, Hk.
    apply elem_of_list_fmap in Hl as (k1&->&_). apply elem_of_list_fmap in Hk as (k2&E&_). injection E as E _.
    assert (Hin : forall C j, G !! j = Some C -> ids_of (cs_at T i) !! id_pos (ct_id C) (ids_of (cs_at T i)) = Some (ct_id C)).
    { intros C j Hj. apply id_pos_lookup. apply elem_of_ids. exists C. split; [|done]. apply Hsub. by eapply elem_of_list_lookup_2. }
    pose proof (Hin _ _ E1) as F1. pose proof (Hin _ _ E2) as F2. rewrite E, F2 in F1. injection F1 as F1.
    eapply NoDup_lookup; [exact Hnd| |]; change (ids_of G) with (ct_id <$> G); rewrite list_lookup_fmap; [by rewrite E1|rewrite E2; cbn; congruence].
Qed.
Lemma slots_nodup_all T G V : NoDup (ids_of G) -> NoDup V -> (forall i C, i ∈ V -> C ∈ G -> C ∈ cs_at T i) ->
  NoDup (concat (concat (map (slots_at T G) V))).
Proof.
  intros Hnd HV Hsub. assert (concat (concat (map (slots_at T G) V)) = concat (map (fun i => concat (slots_at T G i)) V)) as ->.
  { clear. induction V as [|i V IH]; [done|]. cbn [map concat]. by rewrite concat_app, IH. }
  change (map ?f V) with (f <$> V). apply NoDup_concat.
  - intros l (i&->&Hi)%elem_of_list_fmap. apply slots_nodup; [done|]. intros C. by apply Hsub.
  - intros p q l k x Hp Hq Hl Hk. rewrite list_lookup_fmap in Hp, Hq. destruct (V !! p) as [i|] eqn:Ei; [|done].
    destruct (V !! q) as [j|] eqn:Ej; [|done]. injection Hp as <-. injection Hq as <-.
    apply elem_slots in Hl as (C1&k1&_&->). apply elem_slots in Hk as (C2&k2&_&E). injection E as E _ _. subst j. by eapply NoDup_lookup.
Qed.

(** [V] lists the archetypes whose entities satisfy [P]; all have the components [G]. *)
Record covers (T : list tab) (P : ent -> bool) (G : group) (V : list nat) : Prop := {
  cv_nodup : NoDup V;
  cv_tab : forall i, i ∈ V -> exists t, T !! i = Some t /\ forall C, C ∈ G -> C ∈ t_cs t;
  cv_P : forall i t h m, T !! i = Some t -> (h, m) ∈ t_rows t -> (P (Ent (t_id t) m) = true <-> i ∈ V);
}.

Section iter.
  Context {Fm : family} (c : cfg) (U : list ctype) (HU : universe (big c) U).
  Notation be := (big c).
  Implicit Types (T : list tab) (w : world).

  Lemma covers_visits r T w P G V : reg_ok be U r T w -> covers T P G V -> visits w P G (map (item_at T G) V).
  Proof.
    intros H [Hnd Ht HP]. unfold visits. rewrite map_map. cbn [fst item_at]. split; [|split].
    - apply NoDup_concat.
      + change (map ?f V) with (f <$> V). intros l (i&->&Hi)%elem_of_list_fmap. destruct (Ht _ Hi) as (t&Et&_). cbn.
        unfold rows_at. rewrite Et. by eapply rows_nodup.
      + change (map ?f V) with (f <$> V). intros i j l k h Hi Hj Hl Hk. rewrite list_lookup_fmap in Hi, Hj.
        destruct (V !! i) as [vi|] eqn:Ei; [|done]. destruct (V !! j) as [vj|] eqn:Ej; [|done]. injection Hi as <-. injection Hj as <-.
        cbn in Hl, Hk. unfold rows_at in Hl, Hk. destruct (T !! vi) as [ti|] eqn:Ti; [|by apply elem_of_nil in Hl].
        destruct (T !! vj) as [tj|] eqn:Tj; [|by apply elem_of_nil in Hk].
        change (map fst ?l) with (l.*1) in Hl, Hk. apply elem_of_list_fmap in Hl as ([h1 m1]&->&[p Hp]%elem_of_list_lookup).
        apply elem_of_list_fmap in Hk as ([h2 m2]&E&[q Hq]%elem_of_list_lookup). cbn in E. subst h2.
        destruct (linked_inj _ _ _ _ _ _ _ _ _ _ _ (ro_loc _ _ _ _ _ H) Ti Hp Tj Hq) as [-> _]. by eapply NoDup_lookup.
    - intros h. rewrite elem_of_concat. split.
      + intros (l&Hl&Hin). change (map ?f V) with (f <$> V) in Hin. apply elem_of_list_fmap in Hin as (i&->&Hi).
        destruct (Ht _ Hi) as (t&Et&_). cbn in Hl. unfold rows_at in Hl. rewrite Et in Hl. change (map fst ?l) with (l.*1) in Hl.
        apply elem_of_list_fmap in Hl as ([h1 m]&->&Hm). exists (Ent (t_id t) m). split; [apply (ro_repr _ _ _ _ _ H); eauto 10|].
        by apply (HP i t h1 m).
      + intros (e&He&HPe). apply (ro_repr _ _ _ _ _ H) in He as (i&t&m&Et&Hm&->). apply (HP i t h m Et Hm) in HPe as Hi.
        exists (map fst (t_rows t)). change (map fst ?l) with (l.*1). split; [apply elem_of_list_fmap; by exists (h, m)|].
        change (map ?f V) with (f <$> V). apply elem_of_list_fmap. exists i. split; [|done]. cbn. unfold rows_at. by rewrite Et.
    - apply Forall_forall. intros it Hit. change (map ?f V) with (f <$> V) in Hit. apply elem_of_list_fmap in Hit as (i&->&Hi).
      destruct (Ht _ Hi) as (t&Et&Hsub). destruct (ro_tab _ _ _ _ _ _ _ H Et) as (a&Ha&_&Hok&_).
      unfold item_at, rows_at. rewrite Et. cbn [fst snd].
      eapply Forall2_impl; [eapply cols_at_ok; [apply Hok|exact Hsub]|]. intros C col Hcol. cbn in Hcol.
      change (map fst (t_rows t)) with ((t_rows t).*1). apply Forall2_fmap_l.
      apply Forall2_same_length_lookup. split; [by eapply Forall2_length|].
      intros j [h m] v Hj Hv. pose proof (Forall2_lookup_lr _ _ _ _ _ _ Hcol Hj Hv) as E. cbn in E |- *.
      unfold value_of. rewrite (proj2 (ro_repr _ _ _ _ _ H h (Ent (t_id t) m))); [done|].
      exists i, t, m. split; [done|]. split; [by eapply elem_of_list_lookup_2|done].
  Qed.

  (** *** Which archetypes *)
  Lemma subset_tab a t G : tab_ok be U a t -> in_U U G -> gvalid be G ->
    (ad_contains_subset (a_desc a) (gd_arch (group_desc be G)) = true <-> (forall C, C ∈ G -> C ∈ t_cs t)).
  Proof.
    intros Ht HG Hv. destruct (tab_facts _ _ _ _ Ht) as (Hd&Hs&_).
    destruct (gspec_valid c G Hv) as [s Hg]. destruct (gspec_desc c U HU _ _ Hg HG) as (Hds&Hins).
    assert (E : forall C, C ∈ G -> (C ∈ t_cs t <-> ct_id C ∈ ids_of (t_cs t))).
    { intros C HC. split; [intros; apply elem_of_ids; eauto|]. intros (C'&HC'&Eq)%elem_of_ids.
      assert (C' = C) as <-; [|done]. eapply (ids_inj U); [apply (U_nodup _ _ HU)|eapply in_U_elem; [apply Ht|done]|by apply (in_U_elem _ _ _ HG)|done]. }
    rewrite contains_subset_spec.
    2: by apply ad_components_length, Hd. 2: by apply ad_components_length, Hds.
    2: rewrite (do_comps _ _ Hds), ids_cdesc_of; apply strict_NoDup; by apply (gs_strict _ _ _ Hg).
    rewrite (do_comps _ _ Hds), (do_comps _ _ Hd), !ids_cdesc_of. split.
    - intros H C HC. apply E; [done|]. apply H. apply elem_of_ids. exists C. split; [|done]. by rewrite (gs_perm _ _ _ Hg).
    - intros H x (C&HC&<-)%elem_of_ids. rewrite (gs_perm _ _ _ Hg) in HC. apply E; auto.
  Qed.
  Lemma subset_length (G : group) cs : NoDup (ids_of G) -> (forall C, C ∈ G -> C ∈ cs) -> length G <= length cs.
  Proof. intros Hnd H. apply submseteq_length. apply NoDup_submseteq; [by apply NoDup_ids_NoDup|]. done. Qed.
  Lemma has_all_rows a t h m G : tab_ok be U a t -> (h, m) ∈ t_rows t -> in_U U G -> gvalid be G ->
    (forall C, C ∈ G -> C ∈ t_cs t) <-> has_all G (Ent (t_id t) m) = true.
  Proof. intros Ht [j Hj]%elem_of_list_lookup HG Hv. by apply (tab_subset c U HU _ _ _ _ _ _ Ht Hj HG Hv). Qed.

  Section accept.
    Context (r : reg) T w (H : reg_ok be U r T w) (G : group) (HG : in_U U G) (Hv : gvalid be G).
    Context (accept : adesc -> bool).
    Context (Hacc : forall a t, tab_ok be U a t -> accept (a_desc a) = true -> forall C, C ∈ G -> C ∈ t_cs t).
    Notation V := (visited c G (r_ar r) accept).
    Lemma elem_V i : i ∈ V <-> exists a, ar_archs (r_ar r) !! i = Some a /\ accept (a_desc a) = true.
    Proof.
      apply elem_of_visited; [apply H|]. intros j a Ha Hx. destruct (ro_arch _ _ _ _ _ _ _ H Ha) as (t&Ht&Hta).
      destruct (tab_facts _ _ _ _ Hta) as (_&_&_&_&-> & _). unfold glen.
      pose proof (group_validity be G) as (_&_&Eg). rewrite Eg by (by apply gvalid_iff). apply subset_length; [apply Hv|].
      by eapply Hacc.
    Qed.
    Lemma elem_V_tab i t : i ∈ V -> T !! i = Some t -> forall C, C ∈ G -> C ∈ t_cs t.
    Proof.
      intros (a&Ha&Hx)%elem_V Ht. destruct (ro_arch _ _ _ _ _ _ _ H Ha) as (t'&Ht'&Hta). simplify_eq. by eapply Hacc.
    Qed.
    Lemma slices_are i a : ar_archs (r_ar r) !! i = Some a -> accept (a_desc a) = true ->
      get_fuzzy_slices c G a = Rd (item_at T G i).2 /\ get_entity_fuzzy_slices c G a = Rd (item_at T G i) /\
      (letr cols := get_fuzzy_slices_mut c G a in Rd (locate i cols)) = Rd (slots_at T G i) /\
      (letr x := get_entity_fuzzy_slices_mut c G a in Rd (x.1, locate i x.2)) = Rd ((item_at T G i).1, slots_at T G i).
    Proof.
      intros Ha Hx. destruct (ro_arch _ _ _ _ _ _ _ H Ha) as (t&Ht&Hta). pose proof Hta as (_&Hok&_).
      assert (Hsub : forall C, C ∈ G -> C ∈ t_cs t) by (by eapply Hacc).
      destruct (fuzzy_slices_ok (a_desc a) (t_cs t) (proj1 Hok) c G a (t_rows t) (cols_at (t_rows t) G) eq_refl Hok) as (E1&E2&E3&E4);
        [by apply gvalid_iff|done|by eapply cols_at_ok; [apply Hok|]|].
      unfold item_at, slots_at, rows_at, cs_at. rewrite Ht, E1, E2, E3, E4. done.
    Qed.
    Lemma collects :
      slices_collect c G accept (fun _ a => get_fuzzy_slices c G a) (r_ar r) = Rd (Some (map (fun i => (item_at T G i).2) V)) /\
      slices_collect c G accept (fun _ a => get_entity_fuzzy_slices c G a) (r_ar r) = Rd (Some (map (item_at T G) V)) /\
      slices_collect c G accept (fun i a => letr cols := get_fuzzy_slices_mut c G a in Rd (locate i cols)) (r_ar r) =
        Rd (Some (map (slots_at T G) V)) /\
      slices_collect c G accept (fun i a => letr x := get_entity_fuzzy_slices_mut c G a in Rd (x.1, locate i x.2)) (r_ar r) =
        Rd (Some (map (fun i => ((item_at T G i).1, slots_at T G i)) V)).
    Proof.
      assert (Hgv : gd_is_valid (group_desc be G) = true) by (by apply gvalid_iff). pose proof (ro_areg _ _ _ _ _ H) as Hinv.
      repeat split; apply slices_collect_spec; try done; intros i a Ha Hx; by destruct (slices_are i a Ha Hx) as (E1&E2&E3&E4).
    Qed.
    Lemma covers_V (P : ent -> bool) :
      (forall a t h m, tab_ok be U a t -> (h, m) ∈ t_rows t -> (P (Ent (t_id t) m) = true <-> accept (a_desc a) = true)) ->
      covers T P G V.
    Proof.
      intros HP. split.
      - apply visited_NoDup, H.
      - intros i Hi. pose proof Hi as (a&Ha&Hx)%elem_V. destruct (ro_arch _ _ _ _ _ _ _ H Ha) as (t&Ht&Hta). exists t. split; [done|].
        by eapply Hacc.
      - intros i t h m Ht Hm. destruct (ro_tab _ _ _ _ _ _ _ H Ht) as (a&Ha&Hta). rewrite (HP a t h m Hta Hm), elem_V. split.
        + intros. by exists a.
        + intros (a'&Ha'&?). by simplify_eq.
    Qed.
  End accept.

  Lemma matching_accepts G : in_U U G -> gvalid be G -> forall a t, tab_ok be U a t ->
    accept_matching be G (a_desc a) = true -> forall C, C ∈ G -> C ∈ t_cs t.
  Proof. intros HG Hv a t Ht Hx. by apply (subset_tab _ _ _ Ht HG Hv). Qed.
  Lemma filtered_accepts G f : in_U U G -> gvalid be G -> forall a t, tab_ok be U a t ->
    accept_filtered be G f (a_desc a) = true -> forall C, C ∈ G -> C ∈ t_cs t.
  Proof. intros HG Hv a t Ht Hx. apply andb_true_iff in Hx as [Hx _]. by apply (subset_tab _ _ _ Ht HG Hv). Qed.
  Lemma matching_P G : in_U U G -> gvalid be G -> forall a t h m, tab_ok be U a t -> (h, m) ∈ t_rows t ->
    (matching G (Ent (t_id t) m) = true <-> accept_matching be G (a_desc a) = true).
  Proof.
    intros HG Hv a t h m Ht Hm. unfold matching, accept_matching.
    by rewrite <- (has_all_rows _ _ _ _ _ Ht Hm HG Hv), (subset_tab _ _ _ Ht HG Hv).
  Qed.
  Lemma filtered_P G f : in_U U G -> gvalid be G -> respects f -> forall a t h m, tab_ok be U a t -> (h, m) ∈ t_rows t ->
    (filtered U G f (Ent (t_id t) m) = true <-> accept_filtered be G f (a_desc a) = true).
  Proof.
    intros HG Hv Hf a t h m Ht Hm. unfold filtered, accept_filtered. rewrite !andb_true_iff.
    rewrite <- (has_all_rows _ _ _ _ _ Ht Hm HG Hv), (subset_tab _ _ _ Ht HG Hv).
    assert (f (desc_of U (Ent (t_id t) m)) = f (a_desc a)) as ->; [|done].
    apply elem_of_list_lookup in Hm as [j Hj]. destruct (tab_row _ _ HU _ _ _ _ _ Ht Hj) as (_&_&Ety).
    destruct (tab_facts _ _ _ _ Ht) as (Hd&_&_&_&Hl&_). pose proof Ht as (Hid&_).
    apply Hf; unfold desc_of; cbn [en_vals en_aid]; rewrite Ety; cbn; [done|done|].
    rewrite (do_comps _ _ Hd). unfold ad_components. cbn. rewrite take_app_alt; [done|]. by rewrite map_length.
  Qed.

  (** *** The read-only iterators *)
  Lemma iter_ok r T w G : reg_ok be U r T w -> contract be U w (OpIter G) -> step_ok c U r T w (OpIter G).
  Proof.
    intros H [HG Hv]. destruct (collects r T w H G Hv _ (matching_accepts G HG Hv)) as (E&_).
    pose proof (covers_visits _ _ _ _ _ _ H (covers_V r T w H G Hv _ (matching_accepts G HG Hv) _ (matching_P G HG Hv))) as Hvis.
    eapply query_ok; [done|cbn [step]; erewrite bind_Ret; [|apply rm_rd_Rd; exact E]; done| |done..].
    eexists. split; [done|]. eexists. split; [|exact Hvis]. by rewrite map_map.
  Qed.
  Lemma iter_e_ok r T w G : reg_ok be U r T w -> contract be U w (OpIterE G) -> step_ok c U r T w (OpIterE G).
  Proof.
    intros H [HG Hv]. destruct (collects r T w H G Hv _ (matching_accepts G HG Hv)) as (_&E&_).
    pose proof (covers_visits _ _ _ _ _ _ H (covers_V r T w H G Hv _ (matching_accepts G HG Hv) _ (matching_P G HG Hv))) as Hvis.
    eapply query_ok; [done|cbn [step]; erewrite bind_Ret; [|apply rm_rd_Rd; exact E]; done| |done..].
    eexists. split; [done|exact Hvis].
  Qed.
  Lemma iter_f_ok r T w G f : reg_ok be U r T w -> contract be U w (OpIterF G f) -> step_ok c U r T w (OpIterF G f).
  Proof.
    intros H (HG&Hv&Hf). destruct (collects r T w H G Hv _ (filtered_accepts G f HG Hv)) as (E&_).
    pose proof (covers_visits _ _ _ _ _ _ H (covers_V r T w H G Hv _ (filtered_accepts G f HG Hv) _ (filtered_P G f HG Hv Hf))) as Hvis.
    eapply query_ok; [done|cbn [step]; erewrite bind_Ret; [|apply rm_rd_Rd; exact E]; done| |done..].
    eexists. split; [done|]. eexists. split; [|exact Hvis]. by rewrite map_map.
  Qed.
  Lemma iter_ef_ok r T w G f : reg_ok be U r T w -> contract be U w (OpIterEF G f) -> step_ok c U r T w (OpIterEF G f).
  Proof.
    intros H (HG&Hv&Hf). destruct (collects r T w H G Hv _ (filtered_accepts G f HG Hv)) as (_&E&_).
    pose proof (covers_visits _ _ _ _ _ _ H (covers_V r T w H G Hv _ (filtered_accepts G f HG Hv) _ (filtered_P G f HG Hv Hf))) as Hvis.
    eapply query_ok; [done|cbn [step]; erewrite bind_Ret; [|apply rm_rd_Rd; exact E]; done| |done..].
    eexists. split; [done|exact Hvis].
  Qed.
  Lemma iter_entities_ok r T w : reg_ok be U r T w -> step_ok c U r T w OpIterEntities.
  Proof.
    intros H. destruct (ro_er _ _ _ _ _ H) as [F Her]. destruct (iter_entities_inv _ _ _ Her) as (l&E&Hl&Hs).
    eapply query_ok; [done|cbn [step]; erewrite bind_Ret; [|apply rm_rd_Rd; exact E]; done| |done..].
    exists l. split; [done|]. split.
    - clear -Hs. induction Hs as [|x l Hs IH Hx]; constructor; [|done]. intros Hin. rewrite Forall_forall in Hx. specialize (Hx _ Hin). lia.
    - intros h. rewrite Hl. unfold live. rewrite <- (not_eq_None_Some (w !! h)), <- (loc_world _ _ _ _ _ h H).
      unfold loc_of. destruct (er_entity_entry be (r_er r) h) as [e|]; cbn; [naive_solver|]. split; [intros [e E']; done|done].
  Qed.
End iter.
