(** The registry computes what the reference implementation of SpecRef.v computes (C52). *)
From Verif Require Import RegModel Instances SpecTrace SpecEntity EntityProofs EntityTable SearchProofs DescrProofs MonadProofs ArchProofs ArchOps ArchOps2 ArchOps3 AregProofs IterProofs RegProofs RegOps RegOps2 RegOps3 RegIter RegMut RegExact Refine SpecObs Clients SpecBase SpecWorld SpecRef.
Local Open Scope nat_scope.

(** ** The order of archetypes *)
Section order.
  Context (ar : areg) (Hinv : areg_inv ar).
  Definition before (i j : nat) : Prop := exists a b, ar_archs ar !! i = Some a /\ ar_archs ar !! j = Some b /\
    (ad_len (a_desc a) < ad_len (a_desc b) \/ (ad_len (a_desc a) = ad_len (a_desc b) /\ (ad_id (a_desc a) < ad_id (a_desc b))%N)).
  Lemma indices_sorted n : StronglySorted before (indices ar (ItSt n 0)).
  Proof.
    rewrite indices_start. remember (14 - n) as f eqn:Ef. revert n Ef. induction f as [|f IH]; intros n Ef.
    - rewrite drop_ge by (rewrite (ai_levels _ Hinv); lia). constructor.
    - destruct (lookup_lt_is_Some_2 (ar_maps ar) n) as [keys Hk]; [rewrite (ai_levels _ Hinv); lia|].
      rewrite (drop_S _ _ _ Hk). cbn [concat]. rewrite map_app.
      assert (Hrest : forall i, i ∈ map k_idx (concat (drop (S n) (ar_maps ar))) -> exists a, ar_archs ar !! i = Some a /\ S n < ad_len (a_desc a)).
      { intros i Hi. rewrite <- indices_start in Hi. by apply (proj2 (indices_from ar Hinv (S n)) i). }
      assert (Hkeys : forall k, k ∈ keys -> exists a, ar_archs ar !! k_idx k = Some a /\ ad_id (a_desc a) = k_id k /\ ad_len (a_desc a) = S n).
      { intros k Hkk. by apply (ai_keys _ Hinv _ _ _ Hk Hkk). }
      specialize (IH (S n) ltac:(lia)). pose proof (ai_strict _ Hinv _ _ Hk) as Hs. clear Hk. induction keys as [|k keys IHk]; [exact IH|].
      cbn [map app]. cbn [map] in Hs. inversion Hs as [|? ? Hs' Hall]; subst. constructor.
      + apply IHk; [|done]. intros; apply Hkeys; by right.
      + destruct (Hkeys k (elem_of_list_here _ _)) as (a&Ha&Hid&Hl). apply Forall_app. split; apply Forall_forall; intros i Hi; exists a.
        * change (map k_idx keys) with (k_idx <$> keys) in Hi. apply elem_of_list_fmap in Hi as (k'&->&Hk'). destruct (Hkeys k') as (b&Hb&Hidb&Hlb); [by right|]. exists b.
          split; [done|]. split; [done|]. right. split; [lia|]. rewrite Hid, Hidb. rewrite Forall_forall in Hall. apply Hall.
          change (map k_id keys) with (k_id <$> keys). by apply elem_of_list_fmap_1.
        * destruct (Hrest _ Hi) as (b&Hb&Hlb). exists b. split; [done|]. split; [done|]. left. lia.
  Qed.
End order.
Lemma sorted_filter {A} (R : A -> A -> Prop) (P : A -> Prop) `{!forall x, Decision (P x)} l : StronglySorted R l -> StronglySorted R (filter P l).
Proof.
  induction 1 as [|x l Hs IH Hx]; [constructor|]. rewrite filter_cons. destruct (decide (P x)); [|done]. constructor; [done|].
  rewrite Forall_forall in Hx |- *. intros y Hy. apply elem_of_list_filter in Hy as [_ Hy]. by apply Hx.
Qed.
Lemma sorted_map {A B} (R : A -> A -> Prop) (Q : B -> B -> Prop) (f : A -> B) l : StronglySorted R l ->
  (forall x y, x ∈ l -> y ∈ l -> R x y -> Q (f x) (f y)) -> StronglySorted Q (map f l).
Proof.
  induction 1 as [|x l Hs IH Hx]; intros Hf; [constructor|]. cbn. constructor.
  - apply IH. intros; apply Hf; [by right..|done].
  - rewrite Forall_forall in Hx. apply Forall_forall. intros y Hy. change (map f l) with (f <$> l) in Hy.
    apply elem_of_list_fmap in Hy as (z&->&Hz). apply Hf; [by left|by right|by apply Hx].
Qed.
(** Two sorted arrangements of the same elements are equal. *)
Lemma sorted_same {A} (R : A -> A -> Prop) l1 l2 : (forall x y, x ∈ l1 -> y ∈ l1 -> R x y -> R y x -> x = y) ->
  StronglySorted R l1 -> StronglySorted R l2 -> l1 ≡ₚ l2 -> l1 = l2.
Proof.
  intros Ha Hs1. revert l2 Ha. induction Hs1 as [|x l1 Hs1 IH Hx]; intros l2 Ha Hs2 Hp.
  - by apply Permutation_nil in Hp.
  - destruct Hs2 as [|y l2 Hs2 Hy]; [by apply Permutation_sym, Permutation_nil in Hp|].
    assert (x = y) as <-.
    { assert (Hxy : x ∈ y :: l2) by (rewrite <- Hp; by left). assert (Hyx : y ∈ x :: l1) by (rewrite Hp; by left).
      rewrite Forall_forall in Hx, Hy. apply elem_of_cons in Hxy as [?|Hxy]; [done|]. apply elem_of_cons in Hyx as [?|Hyx]; [done|].
      apply Ha; [by left|by right|by apply Hx|by apply Hy]. }
    f_equal. apply IH; [|done|by apply Permutation_cons_inv in Hp]. intros; apply Ha; [by right..|done|done].
Qed.
Global Instance sheet_le_trans : Transitive sheet_le.
Proof. intros s1 s2 s3. unfold sheet_le. lia. Qed.
Global Instance sheet_le_total : Total sheet_le.
Proof. intros s1 s2. unfold sheet_le. destruct (N.le_ge_cases (sh_id s1) (sh_id s2)); lia. Qed.

Definition sheet_of (t : tab) : sheet := Sheet (t_id t) (t_cs t) (map fst (t_rows t)).

Section items.
  Context {Fm : family} (c : cfg) (U : list ctype) (HU : universe (big c) U).
  Notation be := (big c).
  Context (r : reg) (T : list tab) (w : world) (H : reg_ok be U r T w).

  (** *** Items *)
  Lemma value_row i t j h m C : T !! i = Some t -> t_rows t !! j = Some (h, m) -> value_of w h C = m !! ct_id C.
  Proof.
    intros Ht Hj. unfold value_of. rewrite (proj2 (ro_repr _ _ _ _ _ H h (Ent (t_id t) m))); [done|].
    exists i, t, m. split; [done|]. split; [by eapply elem_of_list_lookup_2|done].
  Qed.
  Lemma item_of_at i t G : T !! i = Some t -> (forall C, C ∈ G -> C ∈ t_cs t) -> item_of w G (sheet_of t) = item_at T G i.
  Proof.
    intros Ht HG. unfold item_of, item_at, rows_at, cols_at. rewrite Ht. cbn [sheet_of sh_ents]. f_equal.
    apply map_ext_in. intros C HC. rewrite <- elem_of_list_In in HC. specialize (HG _ HC).
    destruct (ro_tab _ _ _ _ _ _ _ H Ht) as (a&Ha&Hta).
    assert (Hrows : forall j h m, t_rows t !! j = Some (h, m) -> value_of w h C = m !! ct_id C /\ is_Some (m !! ct_id C)).
    { intros j h m Hj. split; [by eapply value_row|]. destruct (tab_row _ _ HU _ _ _ _ _ Hta Hj) as (Hf&_). apply Hf.
      apply elem_of_ids. by exists C. }
    clear -Hrows. unfold col_at. induction (t_rows t) as [|[h m] rows IH]; [done|]. cbn [map omap list_omap fst snd].
    destruct (Hrows 0 h m eq_refl) as [-> [v ->]]. cbn. f_equal. apply IH. intros j. apply (Hrows (S j)).
  Qed.
  Lemma has_tab a t G : tab_ok be U a t -> in_U U G -> (sheet_has G (sheet_of t) = true <-> forall C, C ∈ G -> C ∈ t_cs t).
  Proof.
    intros Hta HG. unfold sheet_has. rewrite forallb_forall. cbn [sheet_of sh_types]. split.
    - intros Hx C HC. specialize (Hx C (proj1 (elem_of_list_In _ _) HC)). apply bool_decide_eq_true in Hx. apply elem_of_ids in Hx as (C'&HC'&E).
      assert (C' = C) as <-; [|done]. eapply (ids_inj U); [apply (U_nodup _ _ HU)|eapply in_U_elem; [apply Hta|done]|by apply (in_U_elem _ _ _ HG)|done].
    - intros Hx C HC. apply elem_of_list_In in HC. apply bool_decide_eq_true, elem_of_ids. exists C. auto.
  Qed.
  Lemma desc_tab a t f : tab_ok be U a t -> respects f -> f (sheet_desc (sheet_of t)) = f (a_desc a).
  Proof.
    intros Hta Hf. destruct (tab_facts _ _ _ _ Hta) as (Hd&_&_&_&Hl&_). pose proof Hta as (Hid&_).
    apply Hf; unfold sheet_desc; cbn [sheet_of sh_types sh_id ad_id ad_len]; [done|done|].
    rewrite (do_comps _ _ Hd). unfold ad_components. cbn. rewrite take_app_alt; [done|]. by rewrite map_length.
  Qed.
  Definition at_sheet (i : nat) : sheet := match T !! i with Some t => sheet_of t | None => Sheet 0 [] [] end.
  Lemma items_visited G f accept : gvalid be G ->
    (forall a t, tab_ok be U a t -> accept (a_desc a) = true -> forall C, C ∈ G -> C ∈ t_cs t) ->
    (forall a t, tab_ok be U a t -> (accept (a_desc a) = true <-> sheet_has G (sheet_of t) && f (sheet_desc (sheet_of t)) = true)) ->
    map (item_at T G) (visited c G (r_ar r) accept) = items w (skel T) G f.
  Proof.
    intros Hv Hacc Hf. set (V := visited c G (r_ar r) accept).
    assert (Htab : forall i, i ∈ V -> exists t a, T !! i = Some t /\ ar_archs (r_ar r) !! i = Some a /\ tab_ok be U a t /\ accept (a_desc a) = true).
    { intros i Hi. apply (elem_V c U r T w H G Hv accept Hacc) in Hi as (a&Ha&Hx). destruct (ro_arch _ _ _ _ _ _ _ H Ha) as (t&Ht&Hta). eauto 10. }
    unfold items. transitivity (map (item_of w G) (map at_sheet V)).
    - rewrite map_map. apply map_ext_in. intros i Hi%elem_of_list_In. destruct (Htab i Hi) as (t&a&Ht&Ha&Hta&Hx).
      unfold at_sheet. rewrite Ht. symmetry. eapply item_of_at; [done|]. by eapply Hacc.
    - f_equal. assert (Hsk : forall s, s ∈ skel T -> exists i t, T !! i = Some t /\ s = sheet_of t).
      { intros s Hs. unfold skel in Hs. change (map ?f T) with (f <$> T) in Hs. apply elem_of_list_fmap in Hs as (t&->&[i Hi]%elem_of_list_lookup). by exists i, t. }
      assert (Hlt : StronglySorted (fun s1 s2 => sheet_le s1 s2 /\ ~ sheet_le s2 s1) (map at_sheet V)).
      { eapply sorted_map; [eapply sorted_filter, indices_sorted, H|]. intros i j Hi Hj (a&b&Ha&Hb&Hab).
        destruct (Htab i Hi) as (t&a'&Ht&Ha'&Hta&_). destruct (Htab j Hj) as (t'&b'&Ht'&Hb'&Htb&_). simplify_eq.
        unfold at_sheet, sheet_le. rewrite Ht, Ht'. cbn [sheet_of sh_types sh_id].
        destruct (tab_facts _ _ _ _ Hta) as (_&_&_&_&<-&_). destruct (tab_facts _ _ _ _ Htb) as (_&_&_&_&<-&_).
        destruct Hta as (<-&_). destruct Htb as (<-&_). lia. }
      apply (sorted_same sheet_le).
      + intros s1 s2 H1 H2. change (map at_sheet V) with (at_sheet <$> V) in H1, H2. apply elem_of_list_fmap in H1 as (i&->&Hi).
        apply elem_of_list_fmap in H2 as (j&->&Hj). destruct (Htab i Hi) as (t&a&Ht&_). destruct (Htab j Hj) as (t'&a'&Ht'&_).
        unfold at_sheet, sheet_le. rewrite Ht, Ht'. cbn [sheet_of sh_types sh_id]. intros L1 L2.
        assert (i = j) as ->; [|congruence]. eapply (tab_unique be U _ _ _ _ _ _ _ H Ht Ht'); lia.
      + clear -Hlt. induction Hlt as [|s l Hl IH Hs]; constructor; [done|]. eapply Forall_impl; [exact Hs|]. by intros s' [? _].
      + apply StronglySorted_merge_sort; apply _.
      + rewrite merge_sort_Permutation. apply NoDup_Permutation.
        * clear -Hlt. induction Hlt as [|s l Hl IH Hs]; constructor; [|done]. intros Hin. rewrite Forall_forall in Hs. by destruct (Hs s Hin).
        * apply NoDup_filter. unfold skel. change (map ?f T) with (f <$> T). apply NoDup_alt. intros i j s Hi Hj. rewrite list_lookup_fmap in Hi, Hj.
          destruct (T !! i) as [t|] eqn:Ht; [|done]. destruct (T !! j) as [t'|] eqn:Ht'; [|done]. cbn in Hi, Hj.
          assert (E : Sheet (t_id t) (t_cs t) (map fst (t_rows t)) = Sheet (t_id t') (t_cs t') (map fst (t_rows t'))) by congruence.
          injection E as E1 E2 _. eapply (tab_unique be U _ _ _ _ _ _ _ H Ht Ht'); [done|by rewrite E2].
        * intros s. rewrite elem_of_list_filter. change (map at_sheet V) with (at_sheet <$> V). rewrite elem_of_list_fmap. split.
          -- intros (i&->&Hi). destruct (Htab i Hi) as (t&a&Ht&Ha&Hta&Hx). unfold at_sheet. rewrite Ht. split; [by apply (Hf a t)|].
             unfold skel. change (map ?f T) with (f <$> T). apply elem_of_list_fmap. exists t. split; [done|]. by eapply elem_of_list_lookup_2.
          -- intros [Hx (i&t&Ht&->)%Hsk]. exists i. unfold at_sheet. rewrite Ht. split; [done|].
             destruct (ro_tab _ _ _ _ _ _ _ H Ht) as (a&Ha&Hta). apply (elem_V c U r T w H G Hv accept Hacc). exists a. split; [done|]. by apply (Hf a t).
  Qed.
  Lemma items_matching G : in_U U G -> gvalid be G ->
    map (item_at T G) (visited c G (r_ar r) (accept_matching be G)) = items w (skel T) G (fun _ => true).
  Proof.
    intros HG Hv. apply items_visited; [done|by apply matching_accepts|]. intros a t Hta. rewrite andb_true_r, (has_tab _ _ _ Hta HG).
    unfold accept_matching. apply (subset_tab c U HU _ _ _ Hta HG Hv).
  Qed.
  Lemma items_filtered G f : in_U U G -> gvalid be G -> respects f ->
    map (item_at T G) (visited c G (r_ar r) (accept_filtered be G f)) = items w (skel T) G f.
  Proof.
    intros HG Hv Hr. apply items_visited; [done|by apply filtered_accepts|]. intros a t Hta.
    rewrite andb_true_iff, (has_tab _ _ _ Hta HG), (desc_tab _ _ _ Hta Hr).
    unfold accept_filtered. by rewrite andb_true_iff, (subset_tab c U HU _ _ _ Hta HG Hv).
  Qed.
End items.

(** ** Exact access *)
Section exact.
  Context {Fm : family} (c : cfg) (U : list ctype) (HU : universe (big c) U).
  Notation be := (big c).
  Lemma find_sheet_absent r T w d : reg_ok be U r T w -> (forall i, ~ is_arch (r_ar r) i d) -> find_sheet (skel T) (ad_id d) (ad_len d) = None.
  Proof.
    intros H Hno. apply (find_sheet_none be U r T w _ _ H). apply Forall_forall. intros a [i Hi]%elem_of_list_lookup E. apply (Hno i). by exists a.
  Qed.
  Lemma exact_item r T w G it : reg_ok be U r T w -> in_U U G -> gvalid be G ->
    ((it = ([], map (fun _ => []) G) /\ forall i, ~ is_arch (r_ar r) i (gd_arch (group_desc be G))) \/
     exists i t, T !! i = Some t /\ gspec be G (t_cs t) /\ t_id t = tuple_archetype_id be (ids_of (t_cs t)) /\ it = item_at T G i) ->
    it = item_exact be U w (skel T) G.
  Proof.
    intros H HG Hv Hit. destruct (gspec_valid c G Hv) as [s Hg]. unfold item_exact. rewrite (tuple_types c U HU G s Hg HG).
    rewrite <- (gs_id _ _ _ Hg). assert (length G = ad_len (gd_arch (group_desc be G))) as ->.
    { rewrite (gs_len _ _ _ Hg). symmetry. apply Permutation_length, Hg. }
    destruct Hit as [[-> Hno]|(i&t&Ht&Hgt&Hid&->)].
    - by rewrite (find_sheet_absent r T w _ H Hno).
    - rewrite (gs_id _ _ _ Hgt), <- Hid, (gs_len _ _ _ Hgt), (find_sheet_some be U r T w i t H Ht), (skel_lookup T i), Ht. cbn [fmap option_fmap option_map].
      symmetry. eapply (item_of_at c U HU r T w H i t G Ht). intros C HC. by rewrite (gs_perm _ _ _ Hgt).
  Qed.
End exact.

(** ** Outputs of the iterators *)
Section outputs.
  Context {Fm : family} (c : cfg) (U : list ctype) (HU : universe (big c) U).
  Notation be := (big c).
  Lemma strict_imap k (V : list N) : Forall (fun v => (v < 256)%N) V ->
    strict (imap (fun i v => 256 * N.of_nat (k + i) + v)%N V).
  Proof.
    intros HF. revert k. induction HF as [|v V Hv HF IH]; intros k; [constructor|]. rewrite imap_cons. constructor.
    - specialize (IH (S k)). unfold strict in IH.
      assert (E : imap (fun i v => 256 * N.of_nat (S k + i) + v)%N V = imap ((fun i v => 256 * N.of_nat (k + i) + v)%N ∘ S) V).
      { apply imap_ext. intros i x _. unfold compose. by rewrite Nat.add_succ_comm. }
      by rewrite <- E.
    - apply Forall_forall. intros x Hx. apply elem_of_lookup_imap in Hx as (i&y&->&_). unfold compose. lia.
  Qed.
  Lemma entities_list r T w F V l : reg_ok be U r T w -> er_inv be (r_er r) F -> map entry_version (er_ents (r_er r)) = V ->
    (forall h, h ∈ l <-> live be (r_er r) h) -> StronglySorted (fun h h' => ent_index h < ent_index h')%N l ->
    l = filter (fun h => is_Some (w !! h)) (imap (fun i v => 256 * N.of_nat i + v)%N V).
  Proof.
    intros H Her <- Hl Hs. pose proof (ei_len _ _ _ Her) as Hlen.
    assert (Hlive : forall h, live be (r_er r) h <-> is_Some (w !! h)).
    { intros h. unfold live. rewrite <- (not_eq_None_Some (w !! h)), <- (loc_world c U _ _ _ h H).
      unfold loc_of. destruct (er_entity_entry be (r_er r) h) as [e|]; cbn; [naive_solver|]. split; [intros [e E']; done|done]. }
    assert (Hs1 : strict l).
    { replace l with (map (fun x : N => x) l) by apply map_id. eapply sorted_map; [exact Hs|]. intros x y _ _ Hxy. cbv beta in Hxy. rewrite !ent_index_val in Hxy. lia. }
    apply strict_perm_unique; [done| |].
    - apply sorted_filter. apply (strict_imap 0). apply Forall_fmap. eapply Forall_impl; [apply (ei_bytes _ _ _ Her)|].
      intros e He. by apply entry_version_lt.
    - assert (Hs2 : strict (imap (fun i v => 256 * N.of_nat i + v)%N (map entry_version (er_ents (r_er r))))).
      { apply (strict_imap 0). apply Forall_fmap. eapply Forall_impl; [apply (ei_bytes _ _ _ Her)|]. intros e He. by apply entry_version_lt. }
      apply NoDup_Permutation; [by apply strict_NoDup|by apply NoDup_filter, strict_NoDup|].
      intros h. rewrite Hl, elem_of_list_filter, <- Hlive. split; [|by intros [? _]]. intros Hh. split; [done|].
      apply live_spec in Hh as (e&He&Hve&_); [|done]. apply elem_of_lookup_imap. exists (N.to_nat (h / 256)), (entry_version e). split; [lia|].
      change (map entry_version ?l) with (entry_version <$> l). rewrite list_lookup_fmap. by rewrite He.
  Qed.
  (** What the iterating calls return. *)
  Lemma iter_outputs r T w F V o out r' : reg_ok be U r T w -> er_inv be (r_er r) F -> map entry_version (er_ents (r_er r)) = V ->
    contract be U w o -> step c o r = Ret out r' ->
    match o with
    | OpIterEntities => out = OutEntities (filter (fun h => is_Some (w !! h)) (imap (fun i v => 256 * N.of_nat i + v)%N V))
    | OpIter G | OpIterMut G _ => out = OutCols (map snd (items w (skel T) G (fun _ => true)))
    | OpIterE G | OpIterEMut G _ => out = OutECols (items w (skel T) G (fun _ => true))
    | OpIterF G f | OpIterFMut G f _ => out = OutCols (map snd (items w (skel T) G f))
    | OpIterEF G f | OpIterEFMut G f _ => out = OutECols (items w (skel T) G f)
    | OpExact G | OpExactMut G _ => out = OutCols [(item_exact be U w (skel T) G).2]
    | OpExactE G | OpExactEMut G _ => out = OutECols [item_exact be U w (skel T) G]
    | _ => True
    end.
  Proof.
    intros H Her HV Hc E. destruct o; try exact I; cbn [contract] in Hc; cbn [step] in E.
    - destruct (iter_entities_inv _ _ _ Her) as (l&El&Hl&Hs). erewrite bind_Ret in E; [|apply rm_rd_Rd; exact El]. injection E as <- _.
      f_equal. by eapply entities_list.
    - destruct Hc as [HG Hv]. destruct (collects c U r T w H G Hv _ (matching_accepts c U HU G HG Hv)) as (E1&_&_&_).
      erewrite bind_Ret in E; [|apply rm_rd_Rd; exact E1]. injection E as <- _. rewrite <- (items_matching c U HU r T w H G HG Hv), map_map. done.
    - destruct Hc as [HG Hv]. destruct (collects c U r T w H G Hv _ (matching_accepts c U HU G HG Hv)) as (_&E1&_&_).
      erewrite bind_Ret in E; [|apply rm_rd_Rd; exact E1]. injection E as <- _. rewrite <- (items_matching c U HU r T w H G HG Hv). done.
    - destruct Hc as (HG&Hv&Hf). destruct (collects c U r T w H G Hv _ (filtered_accepts c U HU G f HG Hv)) as (E1&_&_&_).
      erewrite bind_Ret in E; [|apply rm_rd_Rd; exact E1]. injection E as <- _. rewrite <- (items_filtered c U HU r T w H G f HG Hv Hf), map_map. done.
    - destruct Hc as (HG&Hv&Hf). destruct (collects c U r T w H G Hv _ (filtered_accepts c U HU G f HG Hv)) as (_&E1&_&_).
      erewrite bind_Ret in E; [|apply rm_rd_Rd; exact E1]. injection E as <- _. rewrite <- (items_filtered c U HU r T w H G f HG Hv Hf). done.
    - destruct Hc as (HG&Hv&Hk). destruct (collects c U r T w H G Hv _ (matching_accepts c U HU G HG Hv)) as (_&_&E1&_).
      destruct (modify_ok c U HU r T w _ G upd _ H (proj1 Hv) Hk (covers_V c U r T w H G Hv _ (matching_accepts c U HU G HG Hv) _ (matching_P c U HU G HG Hv))) as (r2&Em&_).
      erewrite bind_Ret in E; [|apply rm_rd_Rd; exact E1]. cbn [unwrap] in E. rewrite bind_ret_l, (bind_Ret _ _ _ _ _ Em) in E. injection E as <- _.
      rewrite <- (items_matching c U HU r T w H G HG Hv), map_map. done.
    - destruct Hc as (HG&Hv&Hk). destruct (collects c U r T w H G Hv _ (matching_accepts c U HU G HG Hv)) as (_&_&_&E1).
      destruct (modify_ok c U HU r T w _ G upd _ H (proj1 Hv) Hk (covers_V c U r T w H G Hv _ (matching_accepts c U HU G HG Hv) _ (matching_P c U HU G HG Hv))) as (r2&Em&_).
      erewrite bind_Ret in E; [|apply rm_rd_Rd; exact E1]. cbn [unwrap] in E. rewrite bind_ret_l in E.
      erewrite bind_Ret in E; [|eapply modify_eitems_Ret; rewrite map_map; exact Em]. rewrite zip_item in E. injection E as <- _.
      by rewrite <- (items_matching c U HU r T w H G HG Hv).
    - destruct Hc as (HG&Hv&Hf&Hk). destruct (collects c U r T w H G Hv _ (filtered_accepts c U HU G f HG Hv)) as (_&_&E1&_).
      destruct (modify_ok c U HU r T w _ G upd _ H (proj1 Hv) Hk (covers_V c U r T w H G Hv _ (filtered_accepts c U HU G f HG Hv) _ (filtered_P c U HU G f HG Hv Hf))) as (r2&Em&_).
      erewrite bind_Ret in E; [|apply rm_rd_Rd; exact E1]. cbn [unwrap] in E. rewrite bind_ret_l, (bind_Ret _ _ _ _ _ Em) in E. injection E as <- _.
      rewrite <- (items_filtered c U HU r T w H G f HG Hv Hf), map_map. done.
    - destruct Hc as (HG&Hv&Hf&Hk). destruct (collects c U r T w H G Hv _ (filtered_accepts c U HU G f HG Hv)) as (_&_&_&E1).
      destruct (modify_ok c U HU r T w _ G upd _ H (proj1 Hv) Hk (covers_V c U r T w H G Hv _ (filtered_accepts c U HU G f HG Hv) _ (filtered_P c U HU G f HG Hv Hf))) as (r2&Em&_).
      erewrite bind_Ret in E; [|apply rm_rd_Rd; exact E1]. cbn [unwrap] in E. rewrite bind_ret_l in E.
      erewrite bind_Ret in E; [|eapply modify_eitems_Ret; rewrite map_map; exact Em]. rewrite zip_item in E. injection E as <- _.
      by rewrite <- (items_filtered c U HU r T w H G f HG Hv Hf).
    - destruct Hc as (HG&Hv&Hkn). destruct (exact_all c U HU r T w G H HG Hv Hkn) as (it&sl&E1&_&_&_&_&_&_&Hit).
      erewrite bind_Ret in E; [|apply rm_rd_Rd; exact E1]. injection E as <- _. by rewrite <- (exact_item c U HU r T w G it H HG Hv Hit).
    - destruct Hc as (HG&Hv&Hkn). destruct (exact_all c U HU r T w G H HG Hv Hkn) as (it&sl&_&E1&_&_&_&_&_&Hit).
      erewrite bind_Ret in E; [|apply rm_rd_Rd; exact E1]. injection E as <- _. by rewrite <- (exact_item c U HU r T w G it H HG Hv Hit).
    - destruct Hc as (HG&Hv&Hkn&Hk). destruct (exact_all c U HU r T w G H HG Hv Hkn) as (it&sl&_&_&E1&_&_&_&Hm&Hit). destruct (Hm upd Hk) as (r2&Em&_).
      erewrite bind_Ret in E; [|apply rm_rd_Rd; exact E1]. rewrite (bind_Ret _ _ _ _ _ Em) in E. injection E as <- _.
      by rewrite <- (exact_item c U HU r T w G it H HG Hv Hit).
    - destruct Hc as (HG&Hv&Hkn&Hk). destruct (exact_all c U HU r T w G H HG Hv Hkn) as (it&sl&_&_&_&E1&_&_&Hm&Hit). destruct (Hm upd Hk) as (r2&Em&_).
      erewrite bind_Ret in E; [|apply rm_rd_Rd; exact E1]. erewrite bind_Ret in E; [|by apply (modify_eitems_Ret _ [(it.1, sl)])]. injection E as <- _.
      rewrite <- (exact_item c U HU r T w G it H HG Hv Hit). by destruct it.
  Qed.
End outputs.

(** ** The entity table *)
Section table.
  Context (be : bool).
  Definition vers (r : er) : list N := map entry_version (er_ents r).
  Lemma vers_lookup r i : vers r !! i = entry_version <$> er_ents r !! i.
  Proof. unfold vers. change (map ?f ?l) with (f <$> l). apply list_lookup_fmap. Qed.
  Lemma move_vers r h r' F : er_inv be r F -> er_step be r (LMove h) r' -> er_inv be r' F /\ vers r' = vers r.
  Proof.
    assert (Hgen : forall f, er_inv be r F -> (forall e, entry_bytes_ok e -> entry_is_valid be e = true ->
       entry_bytes_ok (f e) /\ entry_is_valid be (f e) = true /\ entry_version (f e) = entry_version e) ->
       er_update_entry be r h f = Some r' -> er_inv be r' F /\ vers r' = vers r).
    { intros f Hinv Hf E. pose proof (er_update_spec be r F h f Hinv Hf) as Hu. rewrite E in Hu. destruct Hu as (e&He&Hi&_&->). split; [done|].
      pose proof He as (Hl&_&Hv)%entity_entry_spec; [|apply Hinv]. apply list_eq. intros i. rewrite !vers_lookup. cbn [er_ents].
      rewrite ent_index_val. destruct (decide (i = N.to_nat (h / 256))) as [->|Hne]; [|by rewrite list_lookup_insert_ne by done].
      rewrite list_lookup_insert by (by eapply lookup_lt_Some). rewrite Hl. cbn. f_equal. apply Hf; [|done].
      eapply Forall_lookup_1; [apply (ei_bytes _ _ _ Hinv)|done]. }
    intros Hinv Hs. inversion Hs; subst; (eapply Hgen; [done| |eassumption]); [by apply er_row_ok|by apply er_arch_ok].
  Qed.
  Lemma moves_vers r ls r' F : er_inv be r F -> moves ls -> er_path be r ls r' -> er_inv be r' F /\ vers r' = vers r.
  Proof.
    intros Hinv Hm Hp. revert F Hinv Hm. induction Hp as [r|r l r1 ls r2 Hs Hp IH]; intros F Hinv Hm; [done|].
    inversion Hm as [|? ? [h ->] Hm']; subst. destruct (move_vers _ _ _ _ Hinv Hs) as [H1 E1]. destruct (IH _ H1 Hm') as [H2 E2]. split; [done|congruence].
  Qed.
  Lemma destroy_vers r h r' F w S : er_inv be r F -> er_step be r (LDestroy h true) r' ->
    er_inv be r' (slot h :: F) /\ vers r' = versions_destroyed h (Book w S (vers r) F).
  Proof.
    intros Hinv Hs. inversion Hs as [|? ? ? ? E| |]; subst.
    destruct (er_destroy_spec be r F h Hinv) as [[_ E']|(e&e'&r2&He&E'&Hi&He'&_&Hv'&Hoth&Hlen)]; rewrite E' in E; [done|]. injection E as <-.
    rewrite ent_index_val in *. split; [done|]. pose proof He as (Hl&Hv&_)%entity_entry_spec; [|apply Hinv].
    unfold versions_destroyed, slot. cbn [bk_versions]. apply list_eq. intros i. rewrite vers_lookup. destruct (decide (i = N.to_nat (h / 256))) as [->|Hne].
    - rewrite list_lookup_alter, vers_lookup, He', Hl. cbn. by rewrite Hv', ent_version_val, Hv.
    - rewrite list_lookup_alter_ne, vers_lookup by done. by rewrite Hoth.
  Qed.
  Lemma create_vers r h r' F w S : er_inv be r F -> er_step be r (LCreate (Some h)) r' ->
    next_handle (Book w S (vers r) F) = Some h /\ er_inv be r' (tail F) /\ vers r' = versions_created (Book w S (vers r) F).
  Proof.
    intros Hinv Hs. inversion Hs as [? row ai ? ? Hrow Hai E| | |]; subst.
    assert (Hlv : forall q, length (vers q) = length (er_ents q)) by (intros q; apply map_length).
    destruct (er_create_spec be r F row ai Hinv Hrow Hai) as [[_ E']|(Hroom&i&v&r2&F'&e'&E'&Hi&Hib&Hvb&He'&Hv'&_&_&_&Hoth&Hcase)];
      rewrite E' in E; [done|]. injection E as <- <-. unfold next_handle, versions_created. cbn [bk_versions bk_free].
    rewrite Hlv, (proj2 (N.leb_gt _ _)) by done. rewrite (ent_new_val (N.of_nat i) v) by lia.
    destruct Hcase as [(->&->&->&->&Hl)|(->&Hl&e&He&Hve&_)].
    - split; [f_equal; lia|]. split; [done|]. apply list_eq. intros j. rewrite vers_lookup.
      destruct (Nat.lt_trichotomy j (length (er_ents r))) as [Hj|[->|Hj]].
      + rewrite Hoth by lia. rewrite lookup_app_l by (by rewrite Hlv). by rewrite vers_lookup.
      + rewrite He'. rewrite lookup_app_r by (by rewrite Hlv). rewrite Hlv, Nat.sub_diag. cbn. by rewrite Hv'.
      + rewrite lookup_ge_None_2 by lia. rewrite lookup_ge_None_2; [done|]. rewrite app_length, Hlv. cbn. lia.
    - rewrite vers_lookup, He. cbn [fmap option_fmap option_map from_option id]. unfold id. rewrite Hve. split; [f_equal; lia|]. split; [done|].
      apply list_eq. intros j. rewrite !vers_lookup. destruct (decide (j = i)) as [->|Hne]; [by rewrite He', He; cbn; rewrite Hv', Hve|].
      by rewrite Hoth.
  Qed.
  Lemma create_none r r' F w S : er_inv be r F -> er_step be r (LCreate None) r' -> r' = r /\ next_handle (Book w S (vers r) F) = None.
  Proof.
    intros Hinv Hs. inversion Hs as [? row ai ? ? Hrow Hai E| | |]; subst.
    destruct (er_create_spec be r F row ai Hinv Hrow Hai) as [[Hf E']|(Hroom&i&v&r2&F'&e'&E'&_)]; rewrite E' in E; [|done].
    injection E as <-. split; [done|]. unfold next_handle. cbn [bk_versions]. unfold vers. rewrite map_length. by rewrite (proj2 (N.leb_le _ _)).
  Qed.
End table.

(** ** Calls *)
Section main.
  Context {Fm : family} (c : cfg) (U : list ctype) (HU : universe (big c) U).
  Notation be := (big c).
  Record booked (r : reg) (b : book) : Prop := {
    bo_tabs : exists T, reg_ok be U r T (bk_world b) /\ skel T = bk_sheets b;
    bo_inv : inv c r;
    bo_free : er_inv be (r_er r) (bk_free b);
    bo_vers : vers (r_er r) = bk_versions b;
  }.
  Lemma booked_start : booked reg_default book_empty.
  Proof.
    split; [exists []; split; [apply (default_ok c U)|done]|apply (inv_init c [])|apply er_inv_default|done].
  Qed.
  (** *** When the reference finds room *)
  Lemma valid_tuple_iff G vs : in_U U G -> length vs = length G ->
    valid_tuple G (en_aid (created be U G vs)) = true <-> gvalid be G.
  Proof.
    intros HG Hl. unfold valid_tuple, gvalid. rewrite !andb_true_iff, bool_decide_eq_true, !Nat.leb_le, negb_true_iff, N.eqb_neq. cbn [created en_aid].
    assert (Ht : NoDup (ids_of G) -> ids_of (types U (vmap G vs)) ≡ₚ ids_of G).
    { intros Hnd. apply NoDup_Permutation; [apply strict_NoDup, (types_strict _ _ HU)|done|]. intros x.
      rewrite <- (vmap_full G vs Hnd Hl x). symmetry. apply (full_types U). intros y Hy. apply (vmap_full G vs Hnd Hl) in Hy.
      apply elem_of_ids in Hy as (C&HC&<-). apply elem_of_ids. exists C. split; [|done]. by apply (in_U_elem _ _ _ HG). }
    split.
    - intros [[[Hnd H1] H14] Hne]. split; [done|]. split; [done|]. exists (ids_of (types U (vmap G vs))). split; [by apply Ht|].
      split; [apply (types_strict _ _ HU)|done].
    - intros (Hnd&[H1 H14]&l&Hp&Hs&Hne). split; [done|]. assert (l = ids_of (types U (vmap G vs))) as <-; [|done].
      apply strict_perm_unique; [done|apply (types_strict _ _ HU)|]. rewrite Hp. symmetry. by apply Ht.
  Qed.
  Lemma open_none r T w aid cs : reg_ok be U r T w -> open_sheet (skel T) aid cs = None <-> archetypes_full r aid (length cs).
  Proof.
    intros H. unfold open_sheet, archetypes_full. rewrite skel_length, <- (ro_len _ _ _ _ _ H). split.
    - destruct (find_sheet (skel T) aid (length cs)) as [i|] eqn:E; [done|]. destruct (N.leb_spec 65534 (N.of_nat (length (ar_archs (r_ar r))))); [|done].
      intros _. split; [done|]. apply Forall_forall. intros a [i Hi]%elem_of_list_lookup [Hid Hlen].
      destruct (ro_arch _ _ _ _ _ _ _ H Hi) as (t&Ht&Hta). pose proof (find_sheet_some be U r T w i t H Ht) as Ef.
      destruct (tab_facts _ _ _ _ Hta) as (_&_&_&_&Hl&_). destruct Hta as (Hid'&_). congruence.
    - intros [Hfull HF]. rewrite (find_sheet_none be U r T w _ _ H HF). by rewrite (proj2 (N.leb_le _ _)).
  Qed.
  Lemma world_ids r T w h e : reg_ok be U r T w -> w !! h = Some e -> forall x, is_Some (en_vals e !! x) -> x ∈ ids_of U.
  Proof.
    intros H He x Hx. apply (ro_repr _ _ _ _ _ H) in He as (i&t&m&Ht&[j Hj]%elem_of_list_lookup&->). cbn in Hx.
    destruct (ro_tab _ _ _ _ _ _ _ H Ht) as (a&Ha&Hta). destruct (tab_row _ _ HU _ _ _ _ _ Hta Hj) as (Hf&_).
    apply Hf in Hx. apply elem_of_ids in Hx as (C&HC&<-). apply elem_of_ids. exists C. split; [|done]. eapply in_U_elem; [apply Hta|done].
  Qed.
  Lemma can_hold_iff r T w m : reg_ok be U r T w -> (forall x, is_Some (m !! x) -> x ∈ ids_of U) ->
    can_hold be U (archetypes_full r) m <->
    en_aid (derived be U m) <> 4294967295%N /\ open_sheet (skel T) (en_aid (derived be U m)) (types U m) <> None.
  Proof.
    intros H Hm. unfold can_hold. rewrite (open_none r T w _ _ H).
    rewrite (full_size (types U m) m); [done|apply strict_NoDup, (types_strict _ _ HU)|]. by apply full_types.
  Qed.

  (** *** The entity table after a call *)
  Definition turned (b : book) (o : op) (out : output) (V' : list N) (F' : list nat) : Prop :=
    match o, out with
    | OpCreate _ _, OutCreate (Ok h) => next_handle b = Some h /\ V' = versions_created b /\ F' = tail (bk_free b)
    | OpDestroy h, OutBool true | OpRemoveEntity _ h, OutVals (Some _) => V' = versions_destroyed h b /\ F' = slot h :: bk_free b
    | _, _ => V' = bk_versions b /\ F' = bk_free b
    end.
  Lemma table_step r b o out r' : booked r b -> step c o r = Ret out r' ->
    inv c r' /\ exists F', er_inv be (r_er r') F' /\ turned b o out (vers (r_er r')) F'.
  Proof.
    intros [_ Hinv HF HV] E. pose proof (step_labels c o r Hinv) as Hl. rewrite E in Hl. destruct Hl as (ls&(Hp&Hinv'&_)&Hl). split; [done|].
    destruct b as [w S V F]. cbn [bk_free bk_versions] in HF, HV. subst V.
    assert (Hmoves : moves ls -> er_inv be (r_er r') F /\ vers (r_er r') = vers (r_er r)) by (intros Hm; eapply moves_vers; eassumption).
    assert (Hdestroy : forall h, destroyed_by h ls -> er_inv be (r_er r') (slot h :: F) /\ vers (r_er r') = versions_destroyed h (Book w S (vers (r_er r)) F)).
    { intros h (m&Hm&->). apply er_path_split in Hp as (r1&Hp1&Hp2). inversion Hp2 as [|? ? r2 ? ? Hs Hp3]; subst. inversion Hp3; subst.
      destruct (moves_vers _ _ _ _ _ HF Hm Hp1) as [H1 E1]. rewrite <- E1. by apply destroy_vers. }
    assert (Hcreate : forall h, created_by (Some h) ls -> next_handle (Book w S (vers (r_er r)) F) = Some h /\ er_inv be (r_er r') (tail F) /\
       vers (r_er r') = versions_created (Book w S (vers (r_er r)) F)).
    { intros h (m1&m2&Hm1&Hm2&->). apply er_path_split in Hp as (r1&Hp1&Hp2). inversion Hp2 as [|? ? r2 ? ? Hs Hp3]; subst.
      destruct (moves_vers _ _ _ _ _ HF Hm1 Hp1) as [H1 E1]. destruct (create_vers _ _ _ _ _ w S H1 Hs) as (N2&H2&E2). rewrite E1 in N2, E2.
      destruct (moves_vers _ _ _ _ _ H2 Hm2 Hp3) as [H3 E3]. split; [done|]. split; [done|]. congruence. }
    assert (Hnone : created_by None ls -> er_inv be (r_er r') F /\ vers (r_er r') = vers (r_er r)).
    { intros (m1&m2&Hm1&Hm2&->). apply er_path_split in Hp as (r1&Hp1&Hp2). inversion Hp2 as [|? ? r2 ? ? Hs Hp3]; subst.
      destruct (moves_vers _ _ _ _ _ HF Hm1 Hp1) as [H1 E1]. destruct (create_none _ _ _ _ w S H1 Hs) as [-> _].
      destruct (moves_vers _ _ _ _ _ H1 Hm2 Hp3) as [H3 E3]. split; [done|congruence]. }
    assert (Hm' : moves ls -> exists F', er_inv be (r_er r') F' /\ vers (r_er r') = vers (r_er r) /\ F' = F)
      by (intros Hm; destruct (Hmoves Hm) as [? ?]; exists F; done).
    destruct o; cbn [labels_of] in Hl; try (exact (Hm' Hl)).
    - destruct out as [[h|vs']| | | | | | | |]; cbn [turned bk_versions bk_free].
      1: { destruct (Hcreate _ Hl) as (?&?&?). exists (tail F). done. }
      all: destruct Hl as [Hl|Hl]; [exact (Hm' Hl)|]; destruct (Hnone Hl) as [? ?]; exists F; done.
    - destruct out as [|[]| | | | | | |]; cbn [turned bk_versions bk_free]; try (exact (Hm' Hl)).
      destruct (Hdestroy _ Hl) as (?&?). exists (slot h :: F). done.
    - destruct out as [| |[vs|]| | | | | |]; cbn [turned bk_versions bk_free]; try (exact (Hm' Hl)).
      destruct (Hdestroy _ Hl) as (?&?). exists (slot h :: F). done.
  Qed.

  (** *** One call *)
  Lemma ref_step r b o : booked r b -> contract be U (bk_world b) o ->
    exists r', step c o r = Ret (ref be U b o).1 r' /\ booked r' (ref be U b o).2 /\
      bk_world (ref be U b o).2 = ledger be U (bk_world b) o (ref be U b o).1.
  Proof.
    intros Hb Hc. pose proof Hb as [(T&H&HS) _ HF HV].
    destruct (step_total c U HU r T _ o H Hc) as (out&r'&E&Hall&T'&D&H'&_&_&Hafter).
    destruct (table_step r b o out r' Hb E) as (Hinv'&F'&HF'&Hturn).
    pose proof (iter_outputs c U HU r T _ _ _ o out r' H HF HV Hc E) as Hit.
    exists r'. enough (Hx : ref be U b o = (out, Book (ledger be U (bk_world b) o out) (skel T') (vers (r_er r')) F')).
    { rewrite Hx. split; [done|]. split; [|done]. split; [|done|done|done]. by exists T'. }
    clear E H' Hinv' HF' Hb. destruct b as [w S V F]. cbn [bk_world bk_sheets bk_versions bk_free] in *. subst S V.
    destruct o; cbn [ref allowed turned after] in *; unfold keep, leave; cbn [bk_world bk_sheets bk_versions bk_free] in *.
    - (* create *)
      destruct Hc as (HG&Hfit&_). assert (Hlen : length vs = length G) by (symmetry; by eapply Forall2_length).
      pose proof (valid_tuple_iff G vs HG Hlen) as Hvt.
      assert (Hlt : gvalid be G -> length (types U (vmap G vs)) = length G).
      { intros Hv. destruct (gspec_valid c G Hv) as [s Hg]. rewrite (gspec_types c U HU G s vs Hg HG Hlen). apply Permutation_length, Hg. }
      destruct Hall as [[(Hv&Hslot&Harch) (h&->&Hfresh&Hh)]|[Hno ->]].
      + rewrite (proj2 Hvt Hv). destruct Hafter as (i&S1&Ho&->). unfold opens in Ho. rewrite Ho. destruct Hturn as (Hn&->&->).
        rewrite Hn. done.
      + destruct Hturn as [-> ->]. cbn [ledger]. destruct (valid_tuple G (en_aid (created be U G vs))) eqn:Evt.
        * pose proof (proj1 Hvt eq_refl) as Hv. destruct Hafter as [[[Hx|Ho] ->]|(_&i&S1&Ho&->)]; [done| |]; unfold opens in Ho; rewrite Ho; [done|].
          assert (next_handle (Book w (skel T) (vers (r_er r)) F) = None) as ->; [|done].
          unfold next_handle. cbn [bk_versions]. unfold vers. rewrite map_length.
          destruct (N.leb_spec 16777215 (N.of_nat (length (er_ents (r_er r))))) as [|Hroom]; [done|]. exfalso. apply Hno. split; [done|].
          split; [unfold table_full; lia|]. rewrite <- (Hlt Hv), <- (open_none r T w _ _ H). cbn [created en_vals] in Ho |- *. congruence.
        * destruct Hafter as [[_ ->]|(Hv&_)]; [done|]. by apply Hvt in Hv.
    - (* destroy *)
      subst out. destruct (w !! h) as [e|] eqn:Ew.
      + rewrite bool_decide_eq_true_2 in * by eauto. destruct Hturn as [-> ->].
        by rewrite Hafter.
      + rewrite bool_decide_eq_false_2 in * by (by intros [? ?]). destruct Hturn as [-> ->]. rewrite Hafter. done.
    - (* remove_entity *)
      subst out. destruct (w !! h) as [e|] eqn:Ew.
      + destruct Hc as (HG&Hc). destruct (Hc e Ew) as [Hv Hf].
        assert (exists vs, values_of w h G = Some vs) as [vs Evs].
        { unfold values_of. rewrite Ew. cbn. apply mapM_is_Some. apply Forall_forall. intros C HC. apply Hf. apply elem_of_ids. by exists C. }
        rewrite Evs in *. destruct Hturn as [-> ->]. by rewrite Hafter.
      + assert (values_of w h G = None) as Evs by (unfold values_of; by rewrite Ew). rewrite Evs in *. destruct Hturn as [-> ->]. rewrite Hafter. done.
    - subst out. destruct Hturn as [-> ->]. by rewrite Hafter.
    - subst out. destruct Hturn as [-> ->]. by rewrite Hafter.
    - subst out. destruct Hturn as [-> ->]. by rewrite Hafter.
    - subst out. destruct Hturn as [-> ->]. by rewrite Hafter.
    - subst out. destruct Hturn as [-> ->]. by rewrite Hafter.
    - subst out. destruct Hturn as [-> ->]. by rewrite Hafter.
    - (* add *)
      destruct Hc as (HC&_).
      destruct Hall as [[(e&Ew&En&Hs&Hh) ->]|[Hno ->]].
      + destruct Hturn as [-> ->]. destruct Hafter as (e'&i&S1&Ew'&Ho&->). rewrite Ew in Ew'. injection Ew' as <-.
        rewrite Ew, En, (proj2 (Nat.ltb_lt _ _) Hs). unfold move_to. cbn [bk_world bk_sheets bk_versions bk_free].
        destruct Hh as [Haid _]. rewrite (proj2 (N.eqb_neq _ _) Haid). unfold opens in Ho. by rewrite Ho.
      + destruct Hturn as [-> ->]. rewrite Hafter. cbn [ledger]. destruct (w !! h) as [e|] eqn:Ew; [|done]. destruct (en_vals e !! ct_id C) eqn:En; [done|].
        destruct (Nat.ltb_spec (size (en_vals e)) 14) as [Hs|]; [|done]. unfold move_to. cbn [bk_world bk_sheets bk_versions bk_free].
        destruct (N.eqb_spec (en_aid (derived be U (<[ct_id C:=v]> (en_vals e)))) 4294967295) as [|Haid]; [done|].
        destruct (open_sheet (skel T) _ _) as [[i S1]|] eqn:Ho; [|done]. exfalso. apply Hno. exists e. split; [done|]. split; [done|]. split; [done|].
        apply (can_hold_iff r T w _ H).
        * intros x Hx. destruct (decide (x = ct_id C)) as [->|Hne]; [apply elem_of_ids; by exists C|].
          rewrite lookup_insert_ne in Hx by done. by eapply world_ids.
        * split; [done|]. change (types U (<[ct_id C:=v]> (en_vals e))) with (types U (en_vals (derived be U (<[ct_id C:=v]> (en_vals e))))). congruence.
    - (* remove *)
      destruct Hall as [(v&(e&Ew&En&Hs&Hh)&->)|[Hno ->]].
      + destruct Hturn as [-> ->]. destruct Hafter as (e'&i&S1&Ew'&Ho&->). rewrite Ew in Ew'. injection Ew' as <-.
        rewrite Ew, En, (proj2 (Nat.leb_le _ _) Hs). unfold move_to. cbn [bk_world bk_sheets bk_versions bk_free].
        destruct Hh as [Haid _]. rewrite (proj2 (N.eqb_neq _ _) Haid). unfold opens in Ho. by rewrite Ho.
      + destruct Hturn as [-> ->]. rewrite Hafter. cbn [ledger]. destruct (w !! h) as [e|] eqn:Ew; [|done]. destruct (en_vals e !! ct_id C) as [v|] eqn:En; [|done].
        destruct (Nat.leb_spec 2 (size (en_vals e))) as [Hs|]; [|done]. unfold move_to. cbn [bk_world bk_sheets bk_versions bk_free].
        destruct (N.eqb_spec (en_aid (derived be U (delete (ct_id C) (en_vals e)))) 4294967295) as [|Haid]; [done|].
        destruct (open_sheet (skel T) _ _) as [[i S1]|] eqn:Ho; [|done]. exfalso. apply (Hno v). exists e. split; [done|]. split; [done|]. split; [done|].
        apply (can_hold_iff r T w _ H).
        * intros x Hx. rewrite lookup_delete_is_Some in Hx. destruct Hx as [_ Hx]. by eapply world_ids.
        * split; [done|]. change (types U (delete (ct_id C) (en_vals e))) with (types U (en_vals (derived be U (delete (ct_id C) (en_vals e))))). congruence.
    - rewrite Hit in *. destruct Hturn as [-> ->]. by rewrite Hafter.
    - rewrite Hit in *. destruct Hturn as [-> ->]. by rewrite Hafter.
    - rewrite Hit in *. destruct Hturn as [-> ->]. by rewrite Hafter.
    - rewrite Hit in *. destruct Hturn as [-> ->]. by rewrite Hafter.
    - rewrite Hit in *. destruct Hturn as [-> ->]. by rewrite Hafter.
    - rewrite Hit in *. destruct Hturn as [-> ->]. by rewrite Hafter.
    - rewrite Hit in *. destruct Hturn as [-> ->]. by rewrite Hafter.
    - rewrite Hit in *. destruct Hturn as [-> ->]. by rewrite Hafter.
    - rewrite Hit in *. destruct Hturn as [-> ->]. by rewrite Hafter.
    - rewrite Hit in *. destruct Hturn as [-> ->]. by rewrite Hafter.
    - rewrite Hit in *. destruct Hturn as [-> ->]. by rewrite Hafter.
    - rewrite Hit in *. destruct Hturn as [-> ->]. by rewrite Hafter.
    - rewrite Hit in *. destruct Hturn as [-> ->]. by rewrite Hafter.
  Qed.

  (** *** Programs *)
  Lemma run_from ops r b : booked r b -> within be U ops b ->
    exists r', run c ops r = Ret (ref_run be U ops b).1 r' /\ booked r' (ref_run be U ops b).2.
  Proof.
    revert r b. induction ops as [|o ops IH]; intros r b Hb Hw; [exists r; done|].
    destruct Hw as [Hc Hw]. destruct (ref_step r b o Hb Hc) as (r1&E1&H1&_). destruct (IH r1 _ H1 Hw) as (r2&E2&H2).
    exists r2. cbn [run ref_run]. destruct (ref be U b o) as [out b1]. cbn [fst snd] in *. destruct (ref_run be U ops b1) as [outs b2]. cbn [fst snd] in *.
    rewrite (bind_Ret _ _ _ _ _ E1), (bind_Ret _ _ _ _ _ E2). done.
  Qed.
  Lemma run_is_ref ops : within be U ops book_empty ->
    exists r', run c ops reg_default = Ret (ref_run be U ops book_empty).1 r'.
  Proof. intros Hw. destruct (run_from ops _ _ booked_start Hw) as (r'&E&_). by exists r'. Qed.
  Lemma history_booked r w I O : history c U r w I O -> exists b, bk_world b = w /\ booked r b.
  Proof.
    induction 1 as [|r w I O o out r' Hh (b&<-&Hb) Hc E]; [exists book_empty; split; [done|apply booked_start]|].
    destruct (ref_step r b o Hb Hc) as (r1&E1&H1&E2). rewrite E1 in E. injection E as <- <-. exists (ref be U b o).2. split; [by rewrite E2|done].
  Qed.
  Lemma history_program r w I O : history c U r w I O ->
    exists ops, within be U ops book_empty /\ bk_world (ref_run be U ops book_empty).2 = w /\
      run c ops reg_default = Ret (ref_run be U ops book_empty).1 r.
  Proof.
    assert (Hrun : forall ops o b, (ref_run be U (ops ++ [o]) b) =
      ((ref_run be U ops b).1 ++ [(ref be U (ref_run be U ops b).2 o).1], (ref be U (ref_run be U ops b).2 o).2)).
    { induction ops as [|o1 ops IH]; intros o b; cbn [app ref_run].
      - cbn [fst snd app]. by destruct (ref be U b o).
      - destruct (ref be U b o1) as [out b1]. rewrite IH. destruct (ref_run be U ops b1). done. }
    assert (Hwithin : forall ops o b, within be U ops b -> contract be U (bk_world (ref_run be U ops b).2) o -> within be U (ops ++ [o]) b).
    { induction ops as [|o1 ops IH]; intros o b Hw Hc; cbn [app within ref_run] in *; [done|]. destruct Hw as [Hc1 Hw]. split; [done|].
      apply IH; [done|]. destruct (ref be U b o1) as [out b1]. cbn [snd]. by destruct (ref_run be U ops b1). }
    assert (Hmm : forall ops o outs r1 r2 out r3, run c ops r1 = Ret outs r2 -> step c o r2 = Ret out r3 -> run c (ops ++ [o]) r1 = Ret (outs ++ [out]) r3).
    { induction ops as [|o1 ops IH]; intros o outs r1 r2 out r3 E1 E2; cbn [app run] in *.
      - injection E1 as <- <-. by rewrite (bind_Ret _ _ _ _ _ E2).
      - unfold bind at 1 in E1. destruct (step c o1 r1) as [y r4|r4|] eqn:E3; [|done|done].
        unfold bind at 1 in E1. destruct (run c ops r4) as [ys r5|r5|] eqn:E5; [|done|done]. injection E1 as <- <-.
        rewrite (bind_Ret _ _ _ _ _ E3), (bind_Ret _ _ _ _ _ (IH _ _ _ _ _ _ E5 E2)). done. }
    induction 1 as [|r w I O o out r' Hh (ops&Hw&<-&E1) Hc E]; [by exists []|].
    destruct (run_from ops _ _ booked_start Hw) as (r1&E1'&Hb). rewrite E1 in E1'. injection E1' as <-.
    destruct (ref_step r _ o Hb Hc) as (r2&E2&_&E3). rewrite E2 in E. injection E as <- <-.
    exists (ops ++ [o]). split; [by apply Hwithin|]. rewrite Hrun. split; [cbn [snd]; by rewrite E3|]. by eapply Hmm.
  Qed.
End main.

(** ** A program for the examples *)
Fixpoint withinb {Fm : family} {Ck : fam_check Fm} (c : cfg) (U : list ctype) (ops : list op) (b : book) : bool :=
  match ops with
  | [] => true
  | o :: ops' => contractb c U (bk_world b) o && withinb c U ops' (ref (big c) U b o).2
  end.
Lemma withinb_ok {Fm : family} {Ck : fam_check Fm} c U ops b : withinb c U ops b = true -> within (big c) U ops b.
Proof.
  revert b. induction ops as [|o ops IH]; intros b H; cbn [within withinb] in *; [done|]. apply andb_true_iff in H as [H1 H2].
  split; [by apply contractb_ok|]. by apply IH.
Qed.
(** Handles 0, 256 and 512 are given out; 512 and 0 are destroyed and reused as
    1 and 513; entities change archetype, rows are swapped. *)
Definition tour : list op :=
  demo_ops ++
  [ OpDestroy 0; OpCreate [tC] [vl tC 50]; OpCreate [tB; tA] [vl tB 60; vl tA 61]; OpCreate [tA; tB] [vl tA 70; vl tB 71];
    OpIterE [tA]; OpIterE [tB; tA]; OpIterEntities; OpAdd tC 513 (vl tC 62); OpIterE [tC]; OpRemove tA 513; OpIterE [tB];
    OpSet tB 1024 (vl tB 72); OpIter [tB]; OpExactE [tA; tB]; OpGet tB 1024;
    OpRemoveEntity [tB; tA] 1024; OpIterEntities; OpGet tB 1024 ].
