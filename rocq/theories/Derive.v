(** Proofs for C62: derived components. *)
From Verif Require Import RegModel SpecTrace SpecEntity EntityProofs EntityTable SearchProofs DescrProofs MonadProofs ArchProofs ArchOps ArchOps2 ArchOps3 AregProofs IterProofs
  RegProofs RegOps RegOps2 RegOps3 RegIter RegMut RegExact Refine Ref Sizes Observe DeriveModel SpecBase SpecWorld SpecRef.
Local Open Scope nat_scope.

Lemma has_homonym d C1 C2 : ct_id C2 = ct_id C1 -> ad_has_component d C2 = ad_has_component d C1.
Proof. unfold ad_has_component. by intros ->. Qed.

Section homonyms.
  Context {Fm : family} (c : cfg) (U : list ctype) (HU : universe (big c) U).
  Notation be := (big c).
  Lemma homonym_reads r w I O h C1 C2 v1 : history c U r w I O -> C1 ∈ U -> value_of w h C1 = Some v1 -> ct_id C2 = ct_id C1 -> ct_ty C2 <> ct_ty C1 ->
    has_component c C2 h r = Rd true /\ get_component c C2 h r = RdUB /\ get_component_mut c C2 h r = RdUB /\
    forall v2, add_component c C2 h v2 r = Ret (Err v2) r.
  Proof.
    intros Hh HC Ev Eid Hty. destruct (history_ok c U HU _ _ _ _ Hh) as (T&D&H&_). unfold value_of in Ev. destruct (w !! h) as [e|] eqn:Ew; [|done]. cbn in Ev.
    destruct (live_entry c U _ _ _ _ _ H Ew) as (en&i&j&t&m&a&Een&Ei&Ej&Hrow&Ht&Hj&->&Ha&Hta). cbn [en_vals] in Ev.
    destruct (tab_has c U HU _ _ _ _ _ C1 Hta Hj HC) as [E1 E2]. assert (HCt : C1 ∈ t_cs t) by (apply E2; by exists v1).
    assert (Hhas : ad_has_component (a_desc a) C1 = true) by (by apply E1).
    pose proof Hta as (_&Hok&_). pose proof (get_component_ok (a_desc a) (t_cs t) (proj1 Hok) a _ _ _ _ _ _ eq_refl Hok Hj HCt Ev) as (Eg&_).
    assert (Hub : forall idx, typed_cell C1 a idx j = Rd v1 -> typed_cell C2 a idx j = RdUB).
    { intros idx. unfold typed_cell. destruct (raw_cell a idx j) as [[v|]| |]; cbn [rbind]; try done.
      destruct (a_comps a !! idx) as [d|]; [|done]. destruct (v_ty v =? ct_ty C1)%N eqn:E; cbn [andb]; [|done]. apply N.eqb_eq in E.
      intros _. assert ((v_ty v =? ct_ty C2)%N = false) as -> by (apply N.eqb_neq; congruence). done. }
    unfold get_component_unchecked in Eg. destruct (binary_search (map cd_id (a_comps a)) (ct_id C1)) as [idx|] eqn:Eb; [|done]. specialize (Hub _ Eg).
    split; [|split; [|split]].
    - unfold has_component. rewrite Een, Ei, (arch_at_step _ _ _ Ha). cbn [rbind]. by rewrite (has_homonym _ _ _ Eid), Hhas.
    - unfold get_component. rewrite Een, Ei, Ej, (arch_at_step _ _ _ Ha). cbn [rbind]. rewrite (has_homonym _ _ _ Eid), Hhas. cbn [negb].
      unfold get_component_unchecked. by rewrite Eid, Eb, Hub.
    - unfold get_component_mut. rewrite Een, Ei, Ej, (arch_at_step _ _ _ Ha). cbn [rbind]. rewrite (has_homonym _ _ _ Eid), Hhas. cbn [negb].
      unfold get_component_unchecked_mut. by rewrite Eid, Eb, Hub.
    - intros v2. unfold add_component. erewrite bind_Ret; [|done]. cbn beta. rewrite Een, Ei.
      assert (Ef : find_or_create_archetype_adding_component c i (cdesc_of C2) r = Ret None r).
      { unfold find_or_create_archetype_adding_component. erewrite bind_Ret; [|done]. cbn beta.
        pose proof (lookup_lt_Some _ _ _ Ha) as Hlt. destruct (length _ <? i) eqn:El; [done|]. rewrite Ha.
        assert (Ea : ad_add_component be (a_desc a) (cdesc_of C2) = Rd None).
        { unfold ad_add_component. destruct (_ =? _)%nat; [done|]. unfold ad_has_component in Hhas. cbn [cd_id cdesc_of]. rewrite Eid.
          by destruct (binary_search (map cd_id (ad_components (a_desc a))) (ct_id C1)). }
        rewrite Ea. unfold bind, lift_rd, ret. done. }
      erewrite bind_Ret; [|unfold dropping_on_panic; by rewrite Ef]. done.
  Qed.
End homonyms.
Lemma homonym_create c G vs r : ~ NoDup (ids_of G) -> create_entity c G vs r = Ret (Err vs) r.
Proof.
  intros Hn. unfold create_entity, dropping_on_panic. destruct (gd_is_valid (group_desc (big c) G)) eqn:Eg; [|done].
  exfalso. apply Hn. pose proof (group_validity (big c) G) as ([H1 _]&_). destruct (H1 Eg) as (_&?&_). naive_solver.
Qed.

Definition id_le (C D : ctype) : Prop := (ct_id C <= ct_id D)%N.
Global Instance id_le_dec : RelDecision id_le.
Proof. intros C D. unfold id_le. apply _. Defined.
(** Declarations with different identifiers and no hash collision make a universe. *)
Lemma derived_universe (Fm : family) be tag layout (L : list rtype) :
  NoDup (map (fun t => default_component_id be (rt_ident t)) L) -> Forall small (map (derived_ctype be tag layout) L) ->
  exists U, U ≡ₚ map (derived_ctype be tag layout) L /\ strict (ids_of U) /\ Forall small U.
Proof.
  intros Hn Hs. exists (merge_sort id_le (map (derived_ctype be tag layout) L)).
  assert (Hp : merge_sort id_le (map (derived_ctype be tag layout) L) ≡ₚ map (derived_ctype be tag layout) L) by apply merge_sort_Permutation.
  split; [done|]. split; [|by rewrite Hp].
  assert (Hn' : NoDup (ids_of (merge_sort id_le (map (derived_ctype be tag layout) L)))).
  { assert (Hq : ids_of (merge_sort id_le (map (derived_ctype be tag layout) L)) ≡ₚ map ct_id (map (derived_ctype be tag layout) L)) by (by apply Permutation_map). rewrite Hq. by rewrite map_map. }
  assert (Hsort : Sorted id_le (merge_sort id_le (map (derived_ctype be tag layout) L))).
  { apply Sorted_merge_sort. intros C D. unfold id_le. lia. }
  apply Sorted_StronglySorted in Hsort; [|unfold id_le; intros x y z ? ?; lia]. unfold strict, ids_of in *. clear -Hn' Hsort.
  induction Hsort as [|C l Hl IH HF]; cbn [map] in *; [constructor|]. apply NoDup_cons in Hn' as [HC Hn']. constructor; [by apply IH|].
  change (map ct_id l) with (ct_id <$> l) in *. apply Forall_forall. intros x (D&->&HD)%elem_of_list_fmap. rewrite Forall_forall in HF. specialize (HF _ HD). unfold id_le in HF.
  assert (ct_id C <> ct_id D); [|lia]. intros E. apply HC. apply elem_of_list_fmap. by exists D.
Qed.
