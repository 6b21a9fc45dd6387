(** Registry operations, continued: taking an entity out, reading and
    replacing components. *)
From Verif Require Import RegModel SpecTrace SpecEntity EntityProofs EntityTable SearchProofs DescrProofs MonadProofs ArchProofs ArchOps ArchOps2 ArchOps3 AregProofs RegProofs RegOps SpecBase SpecWorld.
Local Open Scope nat_scope.

Notation mvals m := ((map_to_list m).*2).
Lemma alter_as_insert (w : world) h e f : w !! h = Some e -> alter f h w = <[h := f e]> w.
Proof.
  intros E. apply map_eq. intros k. destruct (decide (k = h)) as [->|Hne].
  - by rewrite lookup_alter, lookup_insert, E.
  - by rewrite lookup_alter_ne, lookup_insert_ne.
Qed.
Lemma put_arch_id r i a : ar_archs (r_ar r) !! i = Some a -> put_arch r i a (r_env r) = r.
Proof. intros E. unfold put_arch. rewrite list_insert_id by done. destruct r as [? [] ?]. done. Qed.
Lemma put_arch_twice r i a1 e1 a2 e2 : put_arch (put_arch r i a1 e1) i a2 e2 = put_arch r i a2 e2.
Proof. unfold put_arch, set_archs. cbn. by rewrite list_insert_insert. Qed.
Lemma put_arch_at r i a0 a e : ar_archs (r_ar r) !! i = Some a0 -> ar_archs (r_ar (put_arch r i a e)) !! i = Some a.
Proof. intros E. cbn. apply list_lookup_insert. by eapply lookup_lt_Some. Qed.

(** ** Component maps *)
Lemma vmap_none G vs x : x ∉ ids_of G -> vmap G vs !! x = None.
Proof.
  intros Hx. unfold vmap. apply not_elem_of_list_to_map_1. intros Hin. apply Hx.
  apply elem_of_list_fmap in Hin as ([y v]&->&Hin). by apply elem_of_zip_l in Hin.
Qed.
Lemma vmap_cons_union C G v vs m : ct_id C ∉ ids_of G -> vmap (C :: G) (v :: vs) ∪ m = vmap G vs ∪ <[ct_id C := v]> m.
Proof.
  intros Hx. change (vmap (C :: G) (v :: vs)) with (<[ct_id C := v]> (vmap G vs)).
  rewrite <- insert_union_l. apply insert_union_r. by apply vmap_none.
Qed.
Lemma vals_insert (m : gmap N value) x v old : m !! x = Some old -> v :: mvals m ≡ₚ old :: mvals (<[x := v]> m).
Proof.
  intros E. rewrite <- (insert_delete m x old E) at 1. rewrite <- (insert_delete_insert m).
  rewrite !map_to_list_insert by apply lookup_delete. cbn. constructor.
Qed.
Lemma tuple_of_insert m G vs x v : x ∉ ids_of G -> tuple_of m G vs -> tuple_of (<[x := v]> m) G vs.
Proof.
  intros Hx H. induction H as [|C v' G vs' Hc H IH]; [constructor|]. cbn in Hx. apply not_elem_of_cons in Hx as [Hx1 Hx2].
  constructor; [by rewrite lookup_insert_ne|]. by apply IH.
Qed.
Lemma vals_union G vs olds m : NoDup (ids_of G) -> tuple_of m G olds -> length vs = length G ->
  vs ++ mvals m ≡ₚ olds ++ mvals (vmap G vs ∪ m).
Proof.
  revert vs olds m. induction G as [|C G IH]; intros vs olds m Hnd Ht Hl.
  - destruct vs; [|done]. inversion Ht; subst. change (vmap [] []) with (∅ : gmap N value). by rewrite (left_id_L ∅ (∪)).
  - destruct vs as [|v vs]; [done|]. inversion Ht as [|? old ? olds' Hold Ht']; subst. cbn in Hnd. apply NoDup_cons in Hnd as [Hx Hnd].
    rewrite vmap_cons_union by done. cbn [app].
    rewrite <- (IH vs olds' (<[ct_id C := v]> m)); [|done|by apply tuple_of_insert|by injection Hl].
    rewrite (Permutation_middle vs (mvals m) v). rewrite (vals_insert m (ct_id C) v old Hold). by rewrite <- Permutation_middle.
Qed.
Lemma vmap_tuple m G vs : NoDup (ids_of G) -> full G m -> tuple_of m G vs -> vmap G vs = m.
Proof.
  intros Hnd Hf Ht. pose proof (Forall2_length _ _ _ Ht) as Hl. apply map_eq. intros x.
  destruct (decide (x ∈ ids_of G)) as [Hx|Hx].
  - apply elem_of_ids in Hx as (C&[i Hi]%elem_of_list_lookup&<-). destruct (Forall2_lookup_l _ _ _ _ _ Ht Hi) as (v&Hv&->).
    by eapply vmap_lookup.
  - rewrite vmap_none by done. symmetry. apply eq_None_not_Some. intros Hs. by apply Hx, Hf.
Qed.
Lemma values_of_Some (w : world) h e G vs : w !! h = Some e -> tuple_of (en_vals e) G vs -> values_of w h G = Some vs.
Proof. intros E H. unfold values_of. rewrite E. cbn. by apply mapM_Some. Qed.
Lemma has_all_spec G e : has_all G e = true <-> forall C, C ∈ G -> is_Some (en_vals e !! ct_id C).
Proof.
  unfold has_all. rewrite forallb_True || idtac. split.
  - intros H C HC. eapply forallb_forall in H; [by apply bool_decide_eq_true in H|]. by apply elem_of_list_In.
  - intros H. apply forallb_forall. intros C HC. apply bool_decide_eq_true. apply H. by apply elem_of_list_In.
Qed.
Lemma tuple_exists m G : (forall C, C ∈ G -> is_Some (m !! ct_id C)) -> exists vs, tuple_of m G vs.
Proof.
  induction G as [|C G IH]; intros H; [by exists []; constructor|].
  destruct (H C (elem_of_list_here _ _)) as [v Hv]. destruct IH as [vs Hvs]; [intros; apply H; by right|].
  exists (v :: vs). by constructor.
Qed.
Lemma tuple_has m G vs : tuple_of m G vs -> forall C, C ∈ G -> is_Some (m !! ct_id C).
Proof. intros H C [i Hi]%elem_of_list_lookup. destruct (Forall2_lookup_l _ _ _ _ _ H Hi) as (v&_&Hv). by exists v. Qed.

Section ops2.
  Context {Fm : family} (c : cfg) (U : list ctype) (HU : universe (big c) U).
  Notation be := (big c).
  Implicit Types (T : list tab) (w : world).

  Lemma gspec_valid G : gvalid be G -> exists s, gspec be G s.
  Proof. intros H%gvalid_iff. by apply gspec_exists. Qed.
  Lemma tab_has a t j h m C : tab_ok be U a t -> t_rows t !! j = Some (h, m) -> C ∈ U ->
    (ad_has_component (a_desc a) C = true <-> C ∈ t_cs t) /\ (C ∈ t_cs t <-> is_Some (m !! ct_id C)).
  Proof.
    intros Ht Hj HC. destruct (tab_facts _ _ _ _ Ht) as (Hd&Hs&_). destruct (tab_row _ _ HU _ _ _ _ _ Ht Hj) as (Hf&_&_).
    assert (E : C ∈ t_cs t <-> ct_id C ∈ ids_of (t_cs t)).
    { split; [intros; apply elem_of_ids; eauto|]. intros (C'&HC'&Eq)%elem_of_ids.
      assert (C' = C) as <-; [|done]. eapply (ids_inj U); [apply (U_nodup _ _ HU)|eapply in_U_elem; [apply Ht|done]|done|done]. }
    split; [|by rewrite E, (Hf _)]. rewrite has_component_spec; rewrite (do_comps _ _ Hd), ids_cdesc_of; done.
  Qed.
  Lemma tab_subset a t j h m G : tab_ok be U a t -> t_rows t !! j = Some (h, m) -> in_U U G -> gvalid be G ->
    (ad_contains_subset (a_desc a) (gd_arch (group_desc be G)) = true <-> (forall C, C ∈ G -> C ∈ t_cs t)) /\
    ((forall C, C ∈ G -> C ∈ t_cs t) <-> has_all G (Ent (t_id t) m) = true).
  Proof.
    intros Ht Hj HG Hv. destruct (tab_facts _ _ _ _ Ht) as (Hd&Hs&_). destruct (tab_row _ _ HU _ _ _ _ _ Ht Hj) as (Hf&_&_).
    destruct (gspec_valid _ Hv) as [s Hg]. destruct (gspec_desc c U HU _ _ Hg HG) as (Hds&Hins).
    assert (E : forall C, C ∈ G -> (C ∈ t_cs t <-> ct_id C ∈ ids_of (t_cs t))).
    { intros C HC. split; [intros; apply elem_of_ids; eauto|]. intros (C'&HC'&Eq)%elem_of_ids.
      assert (C' = C) as <-; [|done]. eapply (ids_inj U); [apply (U_nodup _ _ HU)|eapply in_U_elem; [apply Ht|done]|by apply (in_U_elem _ _ _ HG)|done]. }
    split.
    - rewrite contains_subset_spec.
      2: by apply ad_components_length, Hd. 2: by apply ad_components_length, Hds.
      2: rewrite (do_comps _ _ Hds), ids_cdesc_of; apply strict_NoDup; by apply (gs_strict _ _ _ Hg).
      rewrite (do_comps _ _ Hds), (do_comps _ _ Hd), !ids_cdesc_of. split.
      + intros H C HC. apply E; [done|]. apply H. apply elem_of_ids. exists C. split; [|done]. by rewrite (gs_perm _ _ _ Hg).
      + intros H x (C&HC&<-)%elem_of_ids. rewrite (gs_perm _ _ _ Hg) in HC. apply E; auto.
    - rewrite has_all_spec. cbn. split; intros H C HC; specialize (H C HC).
      + apply Hf. by apply E.
      + apply E; [done|]. by apply Hf.
  Qed.
  Lemma gspec_exact a t j h m G : tab_ok be U a t -> t_rows t !! j = Some (h, m) -> in_U U G -> gvalid be G -> full G m ->
    gspec be G (t_cs t).
  Proof.
    intros Ht Hj HG Hv Hfull. destruct (gspec_valid _ Hv) as [s Hg]. destruct (tab_row _ _ HU _ _ _ _ _ Ht Hj) as (_&_&E).
    assert (types U m = s) as E2; [|congruence].
    destruct (gspec_desc c U HU _ _ Hg HG) as (Hds&Hins).
    eapply types_full; [done|apply Hg|done|]. eapply full_perm; [symmetry; apply Hg|done].
  Qed.

  (** *** remove_entity *)
  Lemma remove_entity_ok r T w G h : reg_ok be U r T w -> contract be U w (OpRemoveEntity G h) -> step_ok c U r T w (OpRemoveEntity G h).
  Proof.
    intros H [HG Hc]. unfold step_ok. cbn [step]. unfold remove_entity. destruct (w !! h) as [e|] eqn:Ew.
    - destruct (Hc _ eq_refl) as [Hv Hfull].
      destruct (live_entry c U _ _ _ _ _ H Ew) as (en&i&j&t&m&a&Een&<-&<-&Hrow&Ht&Hj&->&Ha&Hta).
      set (i := e_arch c en) in *. set (j := e_row en) in *. cbn in Hfull.
      pose proof Hta as (_&Hok&_). pose proof (proj1 Hok) as Hd. pose proof (row_cap _ _ _ _ Hta) as Hcap.
      pose proof (lookup_lt_Some _ _ _ Hj) as Hjlt.
      destruct (tab_facts _ _ _ _ Hta) as (_&_&Hnd&_).
      pose proof (gspec_exact _ _ _ _ _ _ Hta Hj HG Hv Hfull) as Hg.
      destruct (tuple_exists m G) as [vs Htup]. { intros C HC. apply Hfull. apply elem_of_ids. eauto. }
      destruct (swap_remove_ok (a_desc a) (t_cs t) Hd c G a (t_rows t) j h m vs (r_env r) eq_refl Hok Hj Hg Htup) as (a'&Es&Ed'&Hcap'&Hok').
      destruct (ro_er _ _ _ _ _ H) as [F Her].
      set (r1 := put_arch r i a' (r_env r)).
      assert (Ha1 : ar_archs (r_ar r1) !! i = Some a') by (by eapply put_arch_at).
      destruct (fixup_ok c entity_at r1 T i j h m t a' en F) as (rg&Ef&Hinv1&Hlen1&Hloc1); [apply H|done|done|done|done| |done|lia|].
      { intros hl Hmv. unfold moved in Hmv. destruct (is_last j (length (t_rows t))) eqn:El; [done|].
        pose proof (removed_row_at _ _ _ Hj El) as Hr. destruct (t_rows t !! (length (t_rows t) - 1)) as [[hl' ml]|]; [|done].
        cbn in Hmv. injection Hmv as ->. by eapply entity_at_ok. }
      assert (Hloch : loc_of be rg h = Some (i, j)).
      { rewrite Hloc1. assert (loc_of be (r_er r) h = Some (i, j)) as E by (apply (ro_loc _ _ _ _ _ H); eauto). cbn. rewrite E. by case_decide. }
      destruct (loc_destroy be rg F h _ Hinv1 Hloch) as (rg'&F'&Edes&Hinv2&_&Hloc2).
      assert (Evs : values_of w h G = Some vs) by (by eapply values_of_Some).
      exists (OutVals (Some vs)), (Reg rg' (r_ar r1) (r_env r)). split; [|split].
      + rewrite bind_bind, rm_get_step, Een. fold i j.
        rewrite bind_bind. rewrite (bind_Ret _ _ _ _ _ (with_arch_Ret _ _ _ _ _ _ _ Ha Es)).
        erewrite bind_Ret; [|apply dop_Ret].
        2: { erewrite bind_Ret; [|exact Ef]. erewrite bind_Ret; [|apply rm_er_Ret; exact Edes].
             rewrite (bind_Ret _ _ _ _ _ (mdebug_true _ _ _ eq_refl)). done. }
        done.
      + cbn. by rewrite Evs.
      + cbn [ins outs ledger]. exists (<[i := set_rows t (remove_row j (t_rows t))]> T), [].
        split; [|split; [|split]].
        * eapply (reg_ok_change _ _ _ _ _ _ _ _ a'); [exact H|exact Ha|exact Ht|exact Ed'|exact Hok'|done|done|by exists F'| | |].
          -- eapply linked_ext; [|exact (linked_remove _ _ _ _ _ _ _ (ro_loc _ _ _ _ _ H) Ht Hj)]. intros h'. cbn [r_er]. rewrite Hloc2.
             destruct (decide (h' = h)); [done|]. by rewrite Hloc1.
          -- eapply repr_remove; [apply H|apply H|done|done].
          -- cbn. apply H.
        * eapply evolves_insert; [exact Ha|exact Ht|by eapply ro_len|done|done|]. cbn [t_cs set_rows]. rewrite Hcap'. apply emits_refl, H.
        * cbn [app]. rewrite (wv_delete _ _ _ Ew). cbn [en_vals]. apply Permutation_app_tail.
          destruct (gspec_NoDup _ _ _ Hg) as (HndG&_).
          rewrite <- (vmap_vals G vs HndG) by (symmetry; by eapply Forall2_length).
          assert (vmap G vs = m) as ->; [|done].
          by apply vmap_tuple.
        * by eapply skel_take.
    - exists (OutVals None), r. split; [|split; [by cbn; unfold values_of; rewrite Ew|by apply post_same]].
      rewrite bind_bind, rm_get_step. by rewrite (dead_entry _ _ _ _ _ _ H Ew).
  Qed.

  (** *** Reading *)
  Lemma query_ok r T w o out : reg_ok be U r T w -> step c o r = Ret out r ->
    allowed be U (table_full r) (archetypes_full r) w o out -> ledger be U w o out = w -> ins o out = [] -> outs o out = [] ->
    after c U w o out (skel T) (skel T) -> step_ok c U r T w o.
  Proof. intros H E Ha El Ei Eo HX. exists out, r. split; [done|]. split; [done|]. rewrite El, Ei, Eo. by apply post_same. Qed.
  Lemma arch_at_step i r a : ar_archs (r_ar r) !! i = Some a -> arch_at i r = Rd a.
  Proof. intros E. unfold arch_at. by rewrite E. Qed.

  Lemma has_ok r T w C h : reg_ok be U r T w -> contract be U w (OpHas C h) -> step_ok c U r T w (OpHas C h).
  Proof.
    intros H HC. cbn in HC. eapply query_ok; [done| |reflexivity|done..]. cbn [step]. erewrite bind_Ret; [done|]. apply rm_rd_Rd.
    unfold has_component, value_of. destruct (w !! h) as [e|] eqn:Ew.
    - destruct (live_entry c U _ _ _ _ _ H Ew) as (en&i&j&t&m&a&Een&<-&<-&Hrow&Ht&Hj&->&Ha&Hta).
      rewrite Een, (arch_at_step _ _ _ Ha). cbn. destruct (tab_has _ _ _ _ _ C Hta Hj HC) as [E1 E2]. f_equal.
      apply eq_true_iff_eq. by rewrite E1, E2, bool_decide_eq_true.
    - by rewrite (dead_entry _ _ _ _ _ _ H Ew).
  Qed.
  Lemma has_all_ok r T w G h : reg_ok be U r T w -> contract be U w (OpHasAll G h) -> step_ok c U r T w (OpHasAll G h).
  Proof.
    intros H [HG Hv]. eapply query_ok; [done| |reflexivity|done..]. cbn [step]. erewrite bind_Ret; [done|]. apply rm_rd_Rd.
    unfold has_components. destruct (w !! h) as [e|] eqn:Ew.
    - destruct (live_entry c U _ _ _ _ _ H Ew) as (en&i&j&t&m&a&Een&<-&<-&Hrow&Ht&Hj&->&Ha&Hta).
      rewrite Een, (arch_at_step _ _ _ Ha). cbn [rbind]. destruct (tab_subset _ _ _ _ _ G Hta Hj HG Hv) as [E1 E2]. f_equal.
      apply eq_true_iff_eq. by rewrite E1, E2.
    - by rewrite (dead_entry _ _ _ _ _ _ H Ew).
  Qed.
  Lemma get_ok r T w C h : reg_ok be U r T w -> contract be U w (OpGet C h) -> step_ok c U r T w (OpGet C h).
  Proof.
    intros H HC. cbn in HC. eapply query_ok; [done| |reflexivity|done..]. cbn [step]. erewrite bind_Ret; [done|]. apply rm_rd_Rd.
    unfold get_component, value_of. destruct (w !! h) as [e|] eqn:Ew.
    - destruct (live_entry c U _ _ _ _ _ H Ew) as (en&i&j&t&m&a&Een&<-&<-&Hrow&Ht&Hj&->&Ha&Hta).
      rewrite Een, (arch_at_step _ _ _ Ha). cbn [rbind mbind option_bind en_vals]. destruct (tab_has _ _ _ _ _ C Hta Hj HC) as [E1 E2].
      destruct (m !! ct_id C) as [v|] eqn:Em.
      + assert (HCt : C ∈ t_cs t) by (apply E2; by exists v). rewrite (proj2 E1 HCt). cbn [negb].
        pose proof Hta as (_&Hok&_).
        destruct (get_component_ok (a_desc a) (t_cs t) (proj1 Hok) a _ _ _ _ _ _ eq_refl Hok Hj HCt Em) as (->&_). done.
      + destruct (ad_has_component (a_desc a) C) eqn:E; [|done]. exfalso. assert (is_Some (None : option value)) as [? ?]; [|done]. tauto.
    - by rewrite (dead_entry _ _ _ _ _ _ H Ew).
  Qed.
  Lemma get_all_ok r T w G h : reg_ok be U r T w -> contract be U w (OpGetAll G h) -> step_ok c U r T w (OpGetAll G h).
  Proof.
    intros H [HG Hv]. eapply query_ok; [done| |reflexivity|done..]. cbn [step]. erewrite bind_Ret; [done|]. apply rm_rd_Rd.
    unfold get_components. destruct (w !! h) as [e|] eqn:Ew.
    - destruct (live_entry c U _ _ _ _ _ H Ew) as (en&i&j&t&m&a&Een&<-&<-&Hrow&Ht&Hj&->&Ha&Hta).
      rewrite Een, (arch_at_step _ _ _ Ha). cbn [rbind]. destruct (tab_subset _ _ _ _ _ G Hta Hj HG Hv) as [E1 E2].
      destruct (has_all G (Ent (t_id t) m)) eqn:Eh.
      + assert (Hsub : forall C, C ∈ G -> C ∈ t_cs t) by tauto. rewrite (proj2 E1 Hsub). cbn [negb].
        destruct (tuple_exists m G) as [vs Hvs]; [by apply (has_all_spec G (Ent (t_id t) m))|].
        pose proof Hta as (_&Hok&_).
        destruct (fuzzy_components_ok (a_desc a) (t_cs t) (proj1 Hok) c G a _ _ _ _ vs eq_refl Hok Hj (proj1 (gvalid_iff c G) Hv) Hsub Hvs) as [-> _].
        by rewrite (values_of_Some _ _ _ _ _ Ew Hvs).
      + destruct (ad_contains_subset (a_desc a) (gd_arch (group_desc be G))) eqn:E.
        { exfalso. assert (false = true); [|done]. tauto. }
        cbn [negb]. destruct (values_of w h G) as [vs|] eqn:Evs; [|done].
        exfalso. unfold values_of in Evs. rewrite Ew in Evs. cbn in Evs. apply mapM_Some in Evs.
        assert (has_all G (Ent (t_id t) m) = true); [|congruence]. apply has_all_spec. by apply (tuple_has _ _ vs).
    - rewrite (dead_entry _ _ _ _ _ _ H Ew). unfold values_of. by rewrite Ew.
  Qed.

  (** *** Replacing component values *)
  Lemma replace_loc_ok r i a t j (h : N) (m : gmap N value) (C : ctype) v old k :
    ar_archs (r_ar r) !! i = Some a -> tab_ok be U a t -> t_rows t !! j = Some (h, m) -> t_cs t !! k = Some C ->
    m !! ct_id C = Some old -> fits C v ->
    exists a', replace_loc (i, k, j) v r = Ret old (put_arch r i a' (r_env r)) /\ a_desc a' = a_desc a /\ a_cap a' = a_cap a /\
      arch_ok a' (t_cs t) (<[j := (h, <[ct_id C := v]> m)]> (t_rows t)).
  Proof.
    intros Ha Hta Hj Hk Hm Hf. pose proof Hta as (_&Hok&_). pose proof (proj1 Hok) as Hd.
    destruct (typed_cell_ok (a_desc a) (t_cs t) Hd a _ _ _ _ _ _ _ eq_refl Hok Hj Hk Hm) as [_ Er].
    destruct (set_cell_ok (a_desc a) (t_cs t) Hd a _ _ _ _ _ _ v (r_env r) eq_refl Hok Hj Hk Hf) as (a'&Ew&Ed&Ec&Hok').
    exists a'. split; [|done]. unfold replace_loc. cbn [fst snd].
    rewrite (bind_Ret _ _ _ _ _ (arch_at_Rd _ _ _ Ha)). rewrite Er. erewrite bind_Ret; [|done]. cbn beta iota.
    rewrite (bind_Ret _ _ _ _ _ (with_arch_Ret _ _ _ _ _ _ _ Ha Ew)). done.
  Qed.
  Lemma set_ok r T w C h v : reg_ok be U r T w -> contract be U w (OpSet C h v) -> step_ok c U r T w (OpSet C h v).
  Proof.
    intros H [HC Hf]. destruct (w !! h) as [e|] eqn:Ew.
    - destruct (live_entry c U _ _ _ _ _ H Ew) as (en&i&j&t&m&a&Een&Ei&Ej&Hrow&Ht&Hj&->&Ha&Hta).
      destruct (tab_has _ _ _ _ _ C Hta Hj HC) as [E1 E2].
      destruct (m !! ct_id C) as [old|] eqn:Em.
      + assert (HCt : C ∈ t_cs t) by (apply E2; by exists old).
        pose proof Hta as (_&Hok&_). 
        destruct (get_component_ok (a_desc a) (t_cs t) (proj1 Hok) a _ _ _ _ _ _ eq_refl Hok Hj HCt Em) as (_&_&Eg&Hk).
        destruct (replace_loc_ok r i a t j h m C v old _ Ha Hta Hj Hk Em Hf) as (a'&Er&Ed&Ec&Hok').
        exists (OutVal (Some old)), (put_arch r i a' (r_env r)). split; [|split].
        * cbn [step]. erewrite bind_Ret.
          2: { apply rm_rd_Rd. unfold get_component_mut. rewrite Een, Ei, Ej, (arch_at_step _ _ _ Ha). cbn [rbind].
               rewrite (proj2 E1 HCt). cbn [negb]. rewrite Eg. cbn. done. }
          cbn beta iota. rewrite (bind_Ret _ _ _ _ _ Er). done.
        * cbn. unfold value_of. rewrite Ew. cbn. by rewrite Em.
        * cbn [ins outs ledger]. rewrite (alter_as_insert _ _ _ _ Ew). cbn [en_aid en_vals].
          exists (<[i := set_rows t (<[j := (h, <[ct_id C := v]> m)]> (t_rows t))]> T), []. split; [|split; [|split]].
          -- eapply reg_ok_change; [exact H|exact Ha|exact Ht|exact Ed|exact Hok'|done|done|apply H| | |apply H].
             ++ eapply set_rows_linked; [apply H|done|done].
             ++ eapply set_rows_repr; [apply H|apply H|done|done].
          -- eapply evolves_insert; [exact Ha|exact Ht|by eapply ro_len|done|done|]. cbn [t_cs set_rows]. rewrite Ec. apply emits_refl, H.
          -- cbn [app]. pose proof (wv_replace w h _ (Ent (t_id t) (<[ct_id C := v]> m)) Ew) as Hp.
             pose proof (vals_insert m (ct_id C) v old Em) as Hq. cbn [en_vals] in Hp.
             apply (Permutation_app_inv_l (mvals (<[ct_id C := v]> m))).
             rewrite <- !Permutation_middle. rewrite Hp. rewrite app_comm_cons, Hq. done.
          -- by eapply skel_set.
      + eapply query_ok; [done| |cbn; reflexivity|..].
        * cbn [step]. erewrite bind_Ret.
          2: { apply rm_rd_Rd. unfold get_component_mut. rewrite Een, Ei, (arch_at_step _ _ _ Ha). cbn [rbind].
               assert (ad_has_component (a_desc a) C = false) as ->; [|done].
               destruct (ad_has_component (a_desc a) C) eqn:E; [|done]. exfalso. assert (is_Some (None : option value)) as [? ?]; [|done]. tauto. }
          cbn. unfold value_of. rewrite Ew. cbn. by rewrite Em.
        * cbn. unfold value_of. rewrite Ew. cbn. by rewrite Em.
        * cbn. unfold value_of. rewrite Ew. cbn. by rewrite Em.
        * cbn. unfold value_of. rewrite Ew. cbn. by rewrite Em.
        * done.
    - assert (E : value_of w h C = None) by (unfold value_of; by rewrite Ew).
      eapply (query_ok _ _ _ _ (OutVal None)); [done| |cbn; by rewrite E|done..].
      cbn [step]. erewrite bind_Ret; [|apply rm_rd_Rd; unfold get_component_mut; by rewrite (dead_entry _ _ _ _ _ _ H Ew)]. done.
  Qed.
  Lemma replace_locs_ok (G : group) i t j (h : N) : forall r a (rows : list row) (m : gmap N value) vs olds,
    in_U U (t_cs t) -> archetype_id_of be (ids_of (t_cs t)) (t_id t) -> ad_id (a_desc a) = t_id t ->
    ar_archs (r_ar r) !! i = Some a -> arch_ok a (t_cs t) rows -> rows !! j = Some (h, m) ->
    NoDup (ids_of G) -> (forall C, C ∈ G -> C ∈ t_cs t) -> Forall2 fits G vs -> tuple_of m G olds ->
    exists a', replace_locs (map (fun C => (i, id_pos (ct_id C) (ids_of (t_cs t)), j)) G) vs r = Ret olds (put_arch r i a' (r_env r)) /\
      a_desc a' = a_desc a /\ a_cap a' = a_cap a /\ arch_ok a' (t_cs t) (<[j := (h, vmap G vs ∪ m)]> rows).
  Proof.
    induction G as [|C G IH]; intros r a rows m vs olds Hin Haid Hid Ha Hok Hj Hnd Hsub Hf Ht.
    - inversion Hf; subst. inversion Ht; subst. exists a. cbn. rewrite put_arch_id by done. split; [done|]. split; [done|]. split; [done|].
      change (vmap [] []) with (∅ : gmap N value). rewrite (left_id_L ∅ (∪)). by rewrite list_insert_id.
    - inversion Hf as [|? v ? vs' Hfv Hf']; subst. inversion Ht as [|? old ? olds' Hold Ht']; subst.
      cbn in Hnd. apply NoDup_cons in Hnd as [Hx Hnd].
      assert (HC : C ∈ t_cs t) by (apply Hsub; by left).
      destruct (get_component_ok (a_desc a) (t_cs t) (proj1 Hok) a _ _ _ _ _ _ eq_refl Hok Hj HC Hold) as (_&_&_&Hk).
      destruct (replace_loc_ok r i a (set_rows t rows) j h m C v old (id_pos (ct_id C) (ids_of (t_cs t))) Ha) as (a1&Er&Ed&Ec&Hok1); [done|done|exact Hk|done|done|].
      cbn [t_cs t_rows set_rows] in *.
      destruct (IH (put_arch r i a1 (r_env r)) a1 (<[j := (h, <[ct_id C := v]> m)]> rows) (<[ct_id C := v]> m) vs' olds') as (a'&E'&Ed'&Ec'&Hok');
        [done|done|congruence|by eapply put_arch_at|done| |done|intros; apply Hsub; by right|done|by apply tuple_of_insert|].
      { apply list_lookup_insert. by eapply lookup_lt_Some. }
      exists a'. split; [|split; [congruence|split; [congruence|]]].
      + cbn [map replace_locs]. rewrite (bind_Ret _ _ _ _ _ Er). rewrite (bind_Ret _ _ _ _ _ E'). by rewrite put_arch_twice.
      + rewrite vmap_cons_union by done. by rewrite list_insert_insert in Hok'.
  Qed.
  Lemma set_all_ok r T w G h vs : reg_ok be U r T w -> contract be U w (OpSetAll G h vs) -> step_ok c U r T w (OpSetAll G h vs).
  Proof.
    intros H (HG&Hv&Hf). pose proof (Forall2_length _ _ _ Hf) as HFl. destruct (w !! h) as [e|] eqn:Ew.
    - destruct (live_entry c U _ _ _ _ _ H Ew) as (en&i&j&t&m&a&Een&Ei&Ej&Hrow&Ht&Hj&->&Ha&Hta).
      destruct (tab_subset _ _ _ _ _ G Hta Hj HG Hv) as [E1 E2].
      destruct (has_all G (Ent (t_id t) m)) eqn:Eh.
      + assert (Hsub : forall C, C ∈ G -> C ∈ t_cs t) by tauto.
        destruct (tuple_exists m G) as [olds Hvs]; [by apply (has_all_spec G (Ent (t_id t) m))|].
        pose proof Hta as (Hid&Hok&Hin&Haid). pose proof Hv as (Hnd&_).
        destruct (fuzzy_components_ok (a_desc a) (t_cs t) (proj1 Hok) c G a _ _ _ _ olds eq_refl Hok Hj (proj1 (gvalid_iff c G) Hv) Hsub Hvs) as [_ Eg].
        destruct (replace_locs_ok G i t j h r a _ m vs olds Hin Haid Hid Ha Hok Hj Hnd Hsub Hf Hvs) as (a'&Er&Ed&Ec&Hok').
        pose proof (values_of_Some _ _ _ _ _ Ew Hvs) as Evs.
        exists (OutVals (Some olds)), (put_arch r i a' (r_env r)). split; [|split].
        * cbn [step]. erewrite bind_Ret.
          2: { apply rm_rd_Rd. unfold get_components_mut. rewrite Een, Ei, Ej, (arch_at_step _ _ _ Ha). cbn [rbind].
               rewrite (proj2 E1 Hsub). cbn [negb]. rewrite Eg. cbn [rbind]. unfold cells_of. rewrite map_map. cbn. done. }
          cbn beta iota. rewrite (bind_Ret _ _ _ _ _ Er). done.
        * cbn. by rewrite Evs.
        * cbn [ins outs ledger]. rewrite (alter_as_insert _ _ _ _ Ew). cbn [en_aid en_vals].
          exists (<[i := set_rows t (<[j := (h, vmap G vs ∪ m)]> (t_rows t))]> T), []. split; [|split; [|split]].
          -- eapply reg_ok_change; [exact H|exact Ha|exact Ht|exact Ed|exact Hok'|done|done|apply H| | |apply H].
             ++ eapply set_rows_linked; [apply H|done|done].
             ++ eapply set_rows_repr; [apply H|apply H|done|done].
          -- eapply evolves_insert; [exact Ha|exact Ht|by eapply ro_len|done|done|]. cbn [t_cs set_rows]. rewrite Ec. apply emits_refl, H.
          -- cbn [app]. pose proof (wv_replace w h _ (Ent (t_id t) (vmap G vs ∪ m)) Ew) as Hp.
             pose proof (vals_union G vs olds m Hnd Hvs ltac:(lia)) as Hq. cbn [en_vals] in Hp.
             apply (Permutation_app_inv_l (mvals (vmap G vs ∪ m))).
             rewrite (Permutation_app_comm vs), app_assoc, Hp.
             rewrite (Permutation_app_comm (mvals m)), <- app_assoc, (Permutation_app_comm (mvals m)).
             rewrite (Permutation_app_comm (_ ++ _) (world_values _)) || idtac.
             rewrite Hq. rewrite (Permutation_app_comm (mvals _) (olds ++ _)). 
             rewrite !app_assoc. rewrite (Permutation_app_comm olds (world_values _)). done.
          -- by eapply skel_set.
      + assert (ad_contains_subset (a_desc a) (gd_arch (group_desc be G)) = false) as E.
        { destruct (ad_contains_subset (a_desc a) (gd_arch (group_desc be G))); [|done]. exfalso. assert (false = true); [|done]. tauto. }
        assert (values_of w h G = None) as Evs.
        { destruct (values_of w h G) as [vs'|] eqn:Evs; [|done].
          exfalso. unfold values_of in Evs. rewrite Ew in Evs. cbn in Evs. apply mapM_Some in Evs.
          assert (has_all G (Ent (t_id t) m) = true); [|congruence]. apply has_all_spec. by apply (tuple_has _ _ vs'). }
        eapply (query_ok _ _ _ _ (OutVals None)); [done| |cbn; by rewrite Evs|done..].
        cbn [step]. erewrite bind_Ret.
        2: { apply rm_rd_Rd. unfold get_components_mut. rewrite Een, Ei, (arch_at_step _ _ _ Ha). cbn [rbind]. by rewrite E. }
        done.
    - assert (E : values_of w h G = None) by (unfold values_of; by rewrite Ew).
      eapply (query_ok _ _ _ _ (OutVals None)); [done| |cbn; by rewrite E|done..].
      cbn [step]. erewrite bind_Ret; [|apply rm_rd_Rd; unfold get_components_mut; by rewrite (dead_entry _ _ _ _ _ _ H Ew)]. done.
  Qed.
End ops2.
