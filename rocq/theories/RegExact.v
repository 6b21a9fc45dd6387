(** Registry operations, continued: exact access. *)
From Verif Require Import RegModel SpecTrace SpecEntity EntityProofs EntityTable SearchProofs DescrProofs MonadProofs ArchProofs ArchOps ArchOps2 ArchOps3 AregProofs IterProofs RegProofs RegOps RegOps2 RegOps3 RegIter RegMut SpecBase SpecWorld.
Local Open Scope nat_scope.

Lemma concat_nils {A B} (G : list A) : concat (map (fun _ => @nil B) G) = [].
Proof. by induction G. Qed.
Lemma replacements_nils upd {A} (G : list A) : replacements upd (map (fun _ => []) G) = [].
Proof.
  unfold replacements.
  assert (E : forall (f : nat -> value -> value), concat (imap (fun i col => map (f i) col) (map (fun _ : A => @nil value) G)) = []).
  { induction G as [|x G IH]; intros f; [done|]. cbn. apply (IH (fun i => f (S i))). }
  apply E.
Qed.
Lemma modify_nils upd {A} (G : list A) r : modify_item upd (map (fun _ => []) G) r = Ret (map (fun _ => []) G) r.
Proof.
  unfold modify_item, enum. rewrite map_length. generalize 0. induction G as [|x G IH]; intros n; [done|].
  cbn [length seq map zip zip_with mmap]. rewrite bind_ret_l. specialize (IH (S n)). rewrite (bind_Ret _ _ _ _ _ IH). done.
Qed.

Section exact.
  Context {Fm : family} (c : cfg) (U : list ctype) (HU : universe (big c) U).
  Notation be := (big c).
  Implicit Types (T : list tab) (w : world).

  Lemma exactly_tab a t h m G : tab_ok be U a t -> (h, m) ∈ t_rows t -> in_U U G -> gvalid be G ->
    is_exactly be U G (Ent (t_id t) m) = true <-> t_id t = tuple_archetype_id be (ids_of (t_cs t)) /\ gspec be G (t_cs t).
  Proof.
    intros Ht Hm HG Hv. unfold is_exactly. rewrite !andb_true_iff, bool_decide_eq_true, Nat.eqb_eq.
    rewrite <- (has_all_rows c U HU _ _ _ _ _ Ht Hm HG Hv). cbn [en_aid en_vals].
    apply elem_of_list_lookup in Hm as [j Hj]. destruct (tab_row _ _ HU _ _ _ _ _ Ht Hj) as (_&_&Ety). rewrite Ety.
    destruct (gspec_valid c G Hv) as [s Hg]. destruct (tab_facts _ _ _ _ Ht) as (Hd&Hs&_). split.
    - intros [[Hid Hsub] Hl]. split; [done|].
      assert (Hp : G ≡ₚ t_cs t).
      { apply submseteq_Permutation_length_le; [lia|]. apply NoDup_submseteq; [apply NoDup_ids_NoDup, Hv|done]. }
      assert (s = t_cs t) as <-; [|done].
      apply (ids_eq U); [apply (U_nodup _ _ HU)|by eapply gspec_desc|apply Ht|].
      apply strict_perm_unique; [apply Hg|done|]. by rewrite (gs_perm _ _ _ Hg), Hp.
    - intros [Hid Hg']. split; [split; [done|]|apply Permutation_length, Hg']. intros C HC. by rewrite (gs_perm _ _ _ Hg').
  Qed.
  Lemma exact_find r T w G : reg_ok be U r T w -> in_U U G -> gvalid be G -> known be U G ->
    (find_exact c G r = Rd None /\ covers T (is_exactly be U G) G [] /\ forall i, ~ is_arch (r_ar r) i (gd_arch (group_desc be G))) \/
    (exists i a t, find_exact c G r = Rd (Some (i, a)) /\ ar_archs (r_ar r) !! i = Some a /\ T !! i = Some t /\ tab_ok be U a t /\
       gspec be G (t_cs t) /\ ad_id (a_desc a) = tuple_archetype_id be (ids_of (t_cs t)) /\ covers T (is_exactly be U G) G [i]).
  Proof.
    intros H HG Hv Hk. destruct (gspec_valid c G Hv) as [s Hg]. destruct (gspec_desc c U HU _ _ Hg HG) as (Hds&Hins).
    pose proof (gspec_known c U HU _ _ Hg HG Hk) as Haids.
    pose proof (ro_areg _ _ _ _ _ H) as Hinv. set (d := gd_arch (group_desc be G)) in *.
    assert (Harch : forall i t h m, T !! i = Some t -> (h, m) ∈ t_rows t -> is_exactly be U G (Ent (t_id t) m) = true -> is_arch (r_ar r) i d).
    { intros i t h m Ht Hm Hx. destruct (ro_tab _ _ _ _ _ _ _ H Ht) as (a&Ha&Hta). apply (exactly_tab _ _ _ _ _ Hta Hm HG Hv) in Hx as [Hid Hgt].
      exists a. split; [done|]. pose proof Hta as (Eid&_). destruct (tab_facts _ _ _ _ Hta) as (_&_&_&_&Hlt&_).
      rewrite Eid, Hid, Hlt. unfold d. by rewrite (gs_id _ _ _ Hgt), (gs_len _ _ _ Hgt). }
    destruct (decide (Exists (fun a => ad_id (a_desc a) = ad_id d /\ ad_len (a_desc a) = ad_len d) (ar_archs (r_ar r)))) as [Hex|Hno].
    - right. apply Exists_exists in Hex as (a&[i Hi]%elem_of_list_lookup&Hid&Hlen).
      destruct (ro_arch _ _ _ _ _ _ _ H Hi) as (t&Ht&Hta). exists i, a, t.
      assert (Hia : is_arch (r_ar r) i d) by (by exists a).
      split. { unfold find_exact. fold d. rewrite (find_archetype_found _ d i Hinv (gs_avalid _ _ _ Hg) Hia). cbn [rbind]. by rewrite Hi. }
      split; [done|]. split; [done|]. split; [done|].
      destruct (tab_facts _ _ _ _ Hta) as (_&Hst&_&H14&Hlt&Hne). pose proof Hta as (Eid&_&Hint&Haidt).
      assert (t_cs t = s) as Ecs.
      { eapply (same_archetype be U HU _ _ (t_id t)); [done|apply Hg|done|done| |done|done|done|].
        - rewrite <- Hlt, Hlen. apply (gs_len _ _ _ Hg).
        - by rewrite <- Eid, Hid. }
      split; [by rewrite Ecs|]. split; [rewrite Hid, Ecs; apply Hg|]. split.
      + apply NoDup_singleton.
      + intros j ->%elem_of_list_singleton. exists t. split; [done|]. intros C HC. by rewrite Ecs, (gs_perm _ _ _ Hg).
      + intros j tj h m Htj Hm. rewrite elem_of_list_singleton. split.
        * intros Hx. eapply is_arch_unique; [done|by eapply Harch|done].
        * intros ->. assert (tj = t) as -> by congruence. apply (exactly_tab _ _ _ _ _ Hta Hm HG Hv). split; [|by rewrite Ecs].
          rewrite <- Eid, Hid, Ecs. apply Hg.
    - left. assert (Hn : forall i, ~ is_arch (r_ar r) i d).
      { intros i (a&Ha&?). apply Hno, Exists_exists. exists a. split; [by eapply elem_of_list_lookup_2|done]. }
      split. { unfold find_exact. fold d. rewrite (find_archetype_absent _ d Hinv); [done| |by left]. intros _.
        unfold d. rewrite (gs_len _ _ _ Hg). apply Hg. }
      split; [|done]. split; [constructor|by intros i ?%elem_of_nil|]. intros i t h m Ht Hm. split; [|by intros ?%elem_of_nil].
      intros Hx. by destruct (Hn _ (Harch _ _ _ _ Ht Hm Hx)).
  Qed.
  Lemma visits_empty w P G : visits w P G [] -> visits w P G [([], map (fun _ => []) G)].
  Proof.
    intros (H1&H2&_). split; [done|]. split; [done|]. constructor; [|constructor]. cbn [fst snd].
    change (map ?f G) with (f <$> G). apply Forall2_fmap_r. apply Forall_Forall2_diag, Forall_forall. intros C _. constructor.
  Qed.
  Lemma exact_all r T w G : reg_ok be U r T w -> in_U U G -> gvalid be G -> known be U G ->
    exists it sl, iter_components_exact c G r = Rd it.2 /\ iter_entity_components_exact c G r = Rd it /\
      iter_components_exact_mut c G r = Rd sl /\ iter_entity_components_exact_mut c G r = Rd (it.1, sl) /\
      visits w (is_exactly be U G) G [it] /\ NoDup (concat sl) /\
      (forall upd, keeps_types G upd -> exists r', modify_items upd [sl] r = Ret [it.2] r' /\
        step_post c U (fun S' => S' = skel T) r T w (replacements upd it.2) (concat it.2) r' (updated_where (is_exactly be U G) G upd w)) /\
      ((it = ([], map (fun _ => []) G) /\ forall i, ~ is_arch (r_ar r) i (gd_arch (group_desc be G))) \/
       exists i t, T !! i = Some t /\ gspec be G (t_cs t) /\ t_id t = tuple_archetype_id be (ids_of (t_cs t)) /\ it = item_at T G i).
  Proof.
    intros H HG Hv Hkn. unfold iter_components_exact, iter_entity_components_exact, iter_components_exact_mut, iter_entity_components_exact_mut.
    destruct (exact_find r T w G H HG Hv Hkn) as [(->&Hcov&Hno)|(i&a&t&->&Ha&Ht&Hta&Hg&Hid&Hcov)]; cbn [rbind].
    - exists ([], map (fun _ => []) G), (map (fun _ => []) G). do 4 (split; [done|]).
      split; [apply visits_empty; by apply (covers_visits c U _ _ _ _ _ _ H Hcov)|].
      split; [rewrite concat_nils; constructor|]. split; [|by left].
      intros upd Hk. destruct (modify_ok c U HU r T w _ G upd [] H (proj1 Hv) Hk Hcov) as (r'&E&Hp).
      unfold modify_items in E. cbn [map mmap] in E. unfold ret in E. injection E as <-. exists r. split.
      + unfold modify_items. cbn [mmap]. rewrite (bind_Ret _ _ _ _ _ (modify_nils upd G r)). done.
      + cbn [snd]. rewrite replacements_nils, concat_nils. exact Hp.
    - exists (item_at T G i), (slots_at T G i). pose proof Hta as (_&Hok&_).
      destruct (exact_slices_ok (a_desc a) (t_cs t) (proj1 Hok) c G a (t_rows t) (cols_at (t_rows t) G) eq_refl Hok Hg Hid) as [E1 E2].
      { eapply cols_at_ok; [apply Hok|]. intros C HC. by rewrite (gs_perm _ _ _ Hg). }
      rewrite (entities_ok (a_desc a) (t_cs t) _ _ eq_refl Hok), E1, E2. unfold item_at at 1 2 3, slots_at at 1 2, rows_at, cs_at. rewrite !Ht.
      do 4 (split; [done|]). split; [by apply (covers_visits c U _ _ _ _ _ _ H Hcov)|].
      split; [apply slots_nodup; [apply Hv|]; intros C HC; unfold cs_at; rewrite Ht; by rewrite (gs_perm _ _ _ Hg)|].
      split. 2: { right. exists i, t. split; [done|]. split; [done|]. split; [|done]. destruct Hta as (<-&_). done. }
      intros upd Hk. destruct (modify_ok c U HU r T w _ G upd [i] H (proj1 Hv) Hk Hcov) as (r'&E&Hp). exists r'. split; [exact E|].
      cbn [map concat] in Hp. by rewrite !app_nil_r in Hp.
  Qed.
  Lemma exact_ok r T w G : reg_ok be U r T w -> contract be U w (OpExact G) -> step_ok c U r T w (OpExact G).
  Proof.
    intros H (HG&Hv&Hkn). destruct (exact_all r T w G H HG Hv Hkn) as (it&sl&E&_&_&_&Hvis&_&_&_).
    eapply query_ok; [done|cbn [step]; erewrite bind_Ret; [|apply rm_rd_Rd; exact E]; done| |done..].
    exists it.2. split; [done|]. by exists [it].
  Qed.
  Lemma exact_e_ok r T w G : reg_ok be U r T w -> contract be U w (OpExactE G) -> step_ok c U r T w (OpExactE G).
  Proof.
    intros H (HG&Hv&Hkn). destruct (exact_all r T w G H HG Hv Hkn) as (it&sl&_&E&_&_&Hvis&_&_&_).
    eapply query_ok; [done|cbn [step]; erewrite bind_Ret; [|apply rm_rd_Rd; exact E]; done| |done..].
    by exists it.
  Qed.
  Lemma exact_mut_ok r T w G upd : reg_ok be U r T w -> contract be U w (OpExactMut G upd) -> step_ok c U r T w (OpExactMut G upd).
  Proof.
    intros H (HG&Hv&Hkn&Hk). destruct (exact_all r T w G H HG Hv Hkn) as (it&sl&_&_&E&_&Hvis&_&Hm&_). destruct (Hm upd Hk) as (r'&Em&Hp).
    exists (OutCols [it.2]), r'. split; [|split].
    - cbn [step]. erewrite bind_Ret; [|apply rm_rd_Rd; exact E]. rewrite (bind_Ret _ _ _ _ _ Em). done.
    - exists it.2. split; [done|]. by exists [it].
    - cbn [ins outs ledger map concat]. by rewrite !app_nil_r.
  Qed.
  Lemma exact_emut_ok r T w G upd : reg_ok be U r T w -> contract be U w (OpExactEMut G upd) -> step_ok c U r T w (OpExactEMut G upd).
  Proof.
    intros H (HG&Hv&Hkn&Hk). destruct (exact_all r T w G H HG Hv Hkn) as (it&sl&_&_&_&E&Hvis&_&Hm&_). destruct (Hm upd Hk) as (r'&Em&Hp).
    exists (OutECols [it]), r'. split; [|split].
    - cbn [step]. erewrite bind_Ret; [|apply rm_rd_Rd; exact E]. erewrite bind_Ret; [|by apply (modify_eitems_Ret _ [(it.1, sl)])]. by destruct it.
    - exists it. done.
    - cbn [ins outs ledger map concat]. by rewrite !app_nil_r.
  Qed.
End exact.
