(** Proofs about the entity table: free list, freshness, versions. *)
From Verif Require Import EntityModel SpecEntity EntityProofs.
Local Open Scope N_scope.

Record er_inv (be : bool) (r : er) (F : list nat) : Prop := {
  ei_len : N.of_nat (length (er_ents r)) <= 16777215;
  ei_bytes : Forall entry_bytes_ok (er_ents r);
  ei_chain : free_chain be (er_ents r) (er_next r) F;
  ei_nodup : NoDup F;
  ei_free : forall i, i ∈ F <-> dead_slot be r i;
}.

(** [entity_entry] in plain terms. *)
Lemma entity_entry_spec be r h e :
  N.of_nat (length (er_ents r)) <= 16777215 ->
  er_entity_entry be r h = Some e <->
  er_ents r !! N.to_nat (h / 256) = Some e /\ entry_version e = h mod 256 /\ entry_is_valid be e = true.
Proof.
  intros Hlen. unfold er_entity_entry. rewrite ent_index_val, ent_version_val, ent_INVALID_val.
  destruct (N.leb_spec (N.of_nat (length (er_ents r))) (h / 256)) as [Hge|Hlt]; cbn [orb].
  { split; [done|]. intros (H&_). apply lookup_lt_Some in H. lia. }
  destruct (N.eqb_spec h 4294967295) as [->|Hne].
  { exfalso. change (4294967295 / 256) with 16777215 in *. lia. }
  destruct (er_ents r !! N.to_nat (h / 256)) as [e'|]; [|split; [done|intros (?&_); done]].
  destruct (N.eqb_spec (entry_version e') (h mod 256)); cbn [negb orb].
  - destruct (entry_is_valid be e') eqn:Ev; cbn; split.
    + intros [= <-]. done.
    + intros ([= <-]&_). done.
    + done.
    + intros ([= <-]&_&?). congruence.
  - split; [done|]. intros ([= <-]&?&_). done.
Qed.
Lemma live_spec be r h :
  N.of_nat (length (er_ents r)) <= 16777215 ->
  live be r h <-> exists e, er_ents r !! N.to_nat (h / 256) = Some e /\ entry_version e = h mod 256 /\ entry_is_valid be e = true.
Proof. intros. unfold live. by setoid_rewrite entity_entry_spec. Qed.
Lemma live_lt be r h :
  N.of_nat (length (er_ents r)) <= 16777215 -> live be r h -> h < 4294967040.
Proof. intros Hl (e&He&_)%live_spec; [|done]. apply lookup_lt_Some in He. lia. Qed.
Lemma live_index_inj be r h h' :
  N.of_nat (length (er_ents r)) <= 16777215 ->
  live be r h -> live be r h' -> ent_index h = ent_index h' -> h = h'.
Proof.
  intros Hl (e&He&Hv&_)%live_spec (e'&He'&Hv'&_)%live_spec; [|done..]. rewrite !ent_index_val. intros E.
  rewrite E in He. rewrite He in He'. injection He' as <-. lia.
Qed.

(** ** The invariant is preserved *)
Lemma er_inv_default be : er_inv be er_default [].
Proof.
  constructor; cbn; try done; try constructor; try lia.
  - intros H. by apply elem_of_nil in H.
  - intros (e&H&_). done.
Qed.

Lemma free_chain_insert be ents n F i e :
  free_chain be ents n F -> i ∉ F -> free_chain be (<[i := e]> ents) n F.
Proof.
  induction 1 as [|j e' F Hj He Hv Hc IH]; intros Hi; [constructor|].
  rewrite not_elem_of_cons in Hi. destruct Hi as [Hne Hi].
  econstructor; eauto. by rewrite list_lookup_insert_ne.
Qed.
Lemma free_chain_app be ents n F l : free_chain be ents n F -> free_chain be (ents ++ l) n F.
Proof.
  induction 1; [constructor|]. econstructor; eauto. by apply lookup_app_l_Some.
Qed.
Lemma free_chain_bound be ents n F : free_chain be ents n F -> n <= 16777215.
Proof. destruct 1; lia. Qed.

Definition fill be e ai row := entry_set_index_in_archetype (entry_set_archetype_index be e ai) row.
Lemma fill_fields be e ai row :
  entry_bytes_ok e -> ai < 65535 -> row < 16777216 ->
  entry_bytes_ok (fill be e ai row) /\ entry_version (fill be e ai row) = entry_version e /\
  entry_archetype_index be (fill be e ai row) = ai /\ entry_index_in_archetype (fill be e ai row) = row /\
  entry_is_valid be (fill be e ai row) = true.
Proof.
  intros He Hai Hrow. unfold fill.
  split; [by apply entry_set_row_ok, entry_set_arch_ok|]. split; [done|].
  assert (Ha : entry_archetype_index be (entry_set_index_in_archetype (entry_set_archetype_index be e ai) row) = ai).
  { rewrite entry_arch_set_row. apply entry_get_set_arch. lia. }
  split; [done|]. split; [by apply entry_get_set_row|].
  apply entry_is_valid_spec. rewrite Ha. lia.
Qed.

(** Everything about creation. *)
Lemma er_create_spec be r F row ai :
  er_inv be r F -> row < 16777216 -> ai < 65535 ->
  (16777215 <= N.of_nat (length (er_ents r)) /\ er_create_entity be row ai r = Ret None r) \/
  (N.of_nat (length (er_ents r)) < 16777215 /\
   exists i v r' F' e', er_create_entity be row ai r = Ret (Some (ent_new_unchecked (N.of_nat i) v)) r' /\
     er_inv be r' F' /\ N.of_nat i < 16777215 /\ v < 256 /\
     er_ents r' !! i = Some e' /\ entry_version e' = v /\ entry_is_valid be e' = true /\
     entry_archetype_index be e' = ai /\ entry_index_in_archetype e' = row /\
     (forall j, j <> i -> er_ents r' !! j = er_ents r !! j) /\
     ((F = [] /\ F' = [] /\ i = length (er_ents r) /\ v = 0 /\ length (er_ents r') = S (length (er_ents r))) \/
      (F = i :: F' /\ length (er_ents r') = length (er_ents r) /\
       exists e, er_ents r !! i = Some e /\ entry_version e = v /\ entry_is_valid be e = false))).
Proof.
  intros [Hlen Hb Hc Hnd HF] Hrow Hai. unfold er_create_entity, er_MAX_ENTITY_COUNT, MAX_ENTITY_HANDLE_VALUE.
  destruct (N.leb_spec 16777215 (N.of_nat (length (er_ents r)))) as [Hfull|Hroom]; [by left|].
  right. split; [done|]. unfold iia_INVALID_VALUE.
  destruct (N.eqb_spec (er_next r) 16777215) as [Hn|Hn].
  - inversion Hc as [E1 E2|i e F0 Hi He Hv Hc' E1 E2]; subst; [|lia].
    destruct (fill_fields be entry_default ai row entry_default_ok Hai Hrow) as (Hok&Hv&Ha&Hr&Hva).
    eexists (length (er_ents r)), 0, _, [], _. split; [done|]. cbn [er_ents er_next].
    split; [|split; [lia|split; [lia|split; [by apply list_lookup_middle|]]]].
    + constructor; cbn [er_ents er_next].
      * rewrite app_length. cbn. lia.
      * apply Forall_app; split; [done|]. constructor; [done|constructor].
      * rewrite ?Hn. constructor.
      * constructor.
      * intros i. rewrite HF. unfold dead_slot. cbn [er_ents]. split.
        -- intros (e&He&Hve). exists e. split; [by apply lookup_app_l_Some|done].
        -- intros (e&He&Hve). exists e. split; [|done].
           apply lookup_app_Some in He as [He|[Hge He]]; [done|].
           apply list_lookup_singleton_Some in He as [_ He]. unfold fill in Hva. congruence.
    + split; [done|]. split; [done|]. split; [done|]. split; [done|]. split.
      * intros j Hj. destruct (decide (j < length (er_ents r))%nat) as [Hlt|Hge].
        -- by rewrite lookup_app_l.
        -- rewrite !lookup_ge_None_2; [done|lia|rewrite app_length; cbn; lia].
      * left. repeat split; auto. rewrite app_length. cbn. lia.
  - inversion Hc as [E1 E2|i e F0 Hi He Hv Hc' E1 E2]; subst; [congruence|].
    rewrite Nat2N.id, He.
    assert (Hbe : entry_bytes_ok e) by (by eapply Forall_lookup_1).
    destruct (fill_fields be e ai row Hbe Hai Hrow) as (Hok&Hve&Ha&Hr&Hva).
    apply NoDup_cons in Hnd as [Hni Hnd].
    eexists i, (entry_version e), _, F0, _. split; [done|]. cbn [er_ents er_next].
    pose proof (lookup_lt_Some _ _ _ He) as Hilt.
    split; [|split; [lia|split; [by apply entry_version_lt|split; [by apply list_lookup_insert|]]]].
    + constructor; cbn [er_ents er_next].
      * by rewrite insert_length.
      * by apply Forall_insert.
      * by apply free_chain_insert.
      * done.
      * intros j. unfold dead_slot. cbn [er_ents]. split.
        -- intros Hj. assert (Hj' : j ∈ i :: F0) by (by right). apply HF in Hj' as (e'&He'&Hve').
           exists e'. split; [|done]. rewrite list_lookup_insert_ne; [done|]. intros ->. done.
        -- intros (e'&He'&Hve'). destruct (decide (j = i)) as [->|Hne].
           ++ rewrite list_lookup_insert in He' by done. injection He' as <-. unfold fill in Hva. congruence.
           ++ rewrite list_lookup_insert_ne in He' by done.
              assert (Hj : j ∈ i :: F0) by (apply HF; by exists e'). apply elem_of_cons in Hj as [|]; done.
    + split; [done|]. split; [done|]. split; [done|]. split; [done|]. split.
      * intros j Hj. by rewrite list_lookup_insert_ne.
      * right. rewrite insert_length. split; [done|]. split; [done|]. by exists e.
Qed.

(** Everything about destruction. *)
Lemma er_destroy_spec be r F h :
  er_inv be r F ->
  (~ live be r h /\ er_destroy_entity be h r = Ret false r) \/
  (exists e e' r', er_entity_entry be r h = Some e /\ er_destroy_entity be h r = Ret true r' /\
     let i := N.to_nat (ent_index h) in
     er_inv be r' (i :: F) /\ er_ents r' !! i = Some e' /\ entry_is_valid be e' = false /\
     entry_version e' = (ent_version h + 1) mod 256 /\
     (forall j, j <> i -> er_ents r' !! j = er_ents r !! j) /\ length (er_ents r') = length (er_ents r)).
Proof.
  intros [Hlen Hb Hc Hnd HF]. unfold er_destroy_entity, live.
  destruct (er_entity_entry be r h) as [e|] eqn:Ee.
  - right. pose proof Ee as (He&Hv&Hva)%entity_entry_spec; [|done].
    pose proof (lookup_lt_Some _ _ _ He) as Hlt.
    rewrite ent_index_val, ent_version_val, ent_INVALID_val in *.
    rewrite (proj2 (N.leb_gt _ _)) by lia. rewrite (proj2 (N.eqb_neq h _)) by (intros ->; change (4294967295 / 256) with 16777215 in *; lia).
    cbn [orb]. rewrite He. rewrite (proj2 (N.eqb_eq _ _) Hv), Hva. cbn [negb orb].
    assert (Hbe : entry_bytes_ok e) by (by eapply Forall_lookup_1).
    pose proof (free_chain_bound _ _ _ _ Hc) as Hnx.
    destruct (entry_invalidate_fields be e (er_next r)) as (Ha&Hr&Hve); [lia|].
    set (i := N.to_nat (h / 256)) in *.
    eexists e, _, _. split; [done|]. split; [done|]. cbn zeta. cbn [er_ents er_next].
    assert (Hnv : forall v, entry_is_valid be (entry_set_version (entry_invalidate be e (er_next r)) v) = false).
    { intros v. apply not_true_is_false. rewrite entry_is_valid_spec, entry_arch_set_version. tauto. }
    assert (Hni : i ∉ F).
    { intros (e'&He'&Hve')%HF. congruence. }
    split; [|split; [by apply list_lookup_insert|split; [done|split; [|split]]]].
    + constructor; cbn [er_ents er_next].
      * by rewrite insert_length.
      * apply Forall_insert; [done|]. apply entry_set_version_ok; [by apply entry_invalidate_ok|]. lia.
      * replace (h / 256) with (N.of_nat i) by (unfold i; lia).
        econstructor; [unfold i in *; lia|by apply list_lookup_insert|done|].
        rewrite entry_row_set_version, Hr. by apply free_chain_insert.
      * by constructor.
      * intros j. unfold dead_slot. cbn [er_ents]. rewrite elem_of_cons. split.
        -- intros [->|Hj]; [eexists; split; [by apply list_lookup_insert|done]|].
           pose proof Hj as (e'&He'&Hve')%HF. exists e'. split; [|done].
           rewrite list_lookup_insert_ne; [done|]. intros <-. done.
        -- intros (e'&He'&Hve'). destruct (decide (j = i)) as [->|Hne]; [by left|]. right.
           rewrite list_lookup_insert_ne in He' by done. apply HF. by exists e'.
    + rewrite entry_get_set_version, Hve, Hv. done.
    + intros j Hj. by rewrite list_lookup_insert_ne.
    + by rewrite insert_length.
  - left. split; [by intros [? ?]|]. revert Ee. unfold er_entity_entry.
    destruct ((N.of_nat (length (er_ents r)) <=? ent_index h) || (h =? ent_INVALID)) eqn:E1; [done|].
    destruct (er_ents r !! N.to_nat (ent_index h)) as [e|] eqn:E2.
    + destruct (negb (entry_version e =? ent_version h) || negb (entry_is_valid be e)); done.
    + exfalso. apply orb_false_iff in E1 as [E1 _]. apply N.leb_gt in E1.
      apply lookup_ge_None in E2. lia.
Qed.

(** Updating a live entry without invalidating it. *)
Lemma er_update_spec be r F h f :
  er_inv be r F ->
  (forall e, entry_bytes_ok e -> entry_is_valid be e = true ->
     entry_bytes_ok (f e) /\ entry_is_valid be (f e) = true /\ entry_version (f e) = entry_version e) ->
  match er_update_entry be r h f with
  | None => ~ live be r h
  | Some r' => exists e, er_entity_entry be r h = Some e /\ er_inv be r' F /\
      er_entity_entry be r' h = Some (f e) /\
      r' = Er (<[N.to_nat (ent_index h) := f e]> (er_ents r)) (er_next r)
  end.
Proof.
  intros Hinv Hf. pose proof Hinv as [Hlen Hb Hc Hnd HF]. unfold er_update_entry, live.
  destruct (er_entity_entry be r h) as [e|] eqn:Ee; [|by intros [? ?]].
  pose proof Ee as (He&Hv&Hva)%entity_entry_spec; [|done].
  assert (Hbe : entry_bytes_ok e) by (by eapply Forall_lookup_1).
  destruct (Hf e Hbe Hva) as (Hfb&Hfv&Hfver).
  assert (Hni : N.to_nat (h / 256) ∉ F).
  { intros (e'&He'&Hve')%HF. congruence. }
  pose proof (lookup_lt_Some _ _ _ He) as Hlt.
  exists e. split; [done|]. rewrite !ent_index_val. split; [|split; [|done]].
  - constructor; cbn [er_ents er_next].
    + by rewrite insert_length.
    + by apply Forall_insert.
    + by apply free_chain_insert.
    + done.
    + intros j. rewrite HF. unfold dead_slot. cbn [er_ents].
      destruct (decide (j = N.to_nat (h / 256))) as [->|Hne].
      * rewrite list_lookup_insert by done. rewrite He.
        split; intros (e'&[= <-]&?); congruence.
      * by rewrite list_lookup_insert_ne.
  - apply entity_entry_spec; cbn [er_ents]; [by rewrite insert_length|].
    rewrite list_lookup_insert by done. split; [done|]. split; [congruence|done].
Qed.
Lemma er_row_ok be row : row < 16777216 -> forall e, entry_bytes_ok e -> entry_is_valid be e = true ->
  entry_bytes_ok (entry_set_index_in_archetype e row) /\ entry_is_valid be (entry_set_index_in_archetype e row) = true /\
  entry_version (entry_set_index_in_archetype e row) = entry_version e.
Proof. intros. split; [by apply entry_set_row_ok|done]. Qed.
Lemma er_arch_ok be ai : ai < 65535 -> forall e, entry_bytes_ok e -> entry_is_valid be e = true ->
  entry_bytes_ok (entry_set_archetype_index be e ai) /\ entry_is_valid be (entry_set_archetype_index be e ai) = true /\
  entry_version (entry_set_archetype_index be e ai) = entry_version e.
Proof.
  intros. split; [by apply entry_set_arch_ok|]. split; [|done].
  apply entry_is_valid_spec. rewrite entry_get_set_arch by lia. lia.
Qed.

(** ** Along paths *)
Lemma er_step_inv be r l r' F : er_inv be r F -> er_step be r l r' -> exists F', er_inv be r' F'.
Proof.
  intros Hinv Hs. destruct Hs as [r row ai o r' Hrow Hai E|r h b r' E|r h row r' Hrow E|r h ai r' Hai E].
  - destruct (er_create_spec be r F row ai Hinv Hrow Hai) as [[_ E']|(_&i&v&r2&F'&e'&E'&Hi&_)];
      rewrite E' in E; injection E as <- <-; eauto.
  - destruct (er_destroy_spec be r F h Hinv) as [[_ E']|(e&e'&r2&_&E'&Hi&_)];
      rewrite E' in E; injection E as <- <-; eauto.
  - pose proof (er_update_spec be r F h _ Hinv (er_row_ok be row Hrow)) as H. rewrite E in H.
    destruct H as (?&?&?&_). eauto.
  - pose proof (er_update_spec be r F h _ Hinv (er_arch_ok be ai Hai)) as H. rewrite E in H.
    destruct H as (?&?&?&_). eauto.
Qed.
Lemma er_path_inv be r ls r' F : er_inv be r F -> er_path be r ls r' -> exists F', er_inv be r' F'.
Proof.
  intros Hinv Hp. revert F Hinv. induction Hp as [|r l r1 ls r2 Hs Hp IH]; intros F Hinv; [eauto|].
  destruct (er_step_inv _ _ _ _ _ Hinv Hs) as [F' H']. eauto.
Qed.
Lemma er_reach_inv be r : er_reach be r -> exists F, er_inv be r F.
Proof. intros [ls Hp]. eapply er_path_inv; [apply er_inv_default|done]. Qed.
Lemma er_path_app be r1 l1 r2 l2 r3 : er_path be r1 l1 r2 -> er_path be r2 l2 r3 -> er_path be r1 (l1 ++ l2) r3.
Proof. induction 1; [done|]. intros. cbn. econstructor; eauto. Qed.
Lemma er_path_snoc be r1 l1 r2 l r3 : er_path be r1 l1 r2 -> er_step be r2 l r3 -> er_path be r1 (l1 ++ [l]) r3.
Proof. intros. eapply er_path_app; [done|]. econstructor; [done|constructor]. Qed.

(** Versions: per slot, the version counts destructions. *)
Definition slot_version (r : er) (i : nat) : N := match er_ents r !! i with Some e => entry_version e | None => 0 end.
Lemma destroy_count_cons i l ls :
  destroy_count i (l :: ls) = ((if destroys_slot i l then 1 else 0) + destroy_count i ls)%nat.
Proof. unfold destroy_count. rewrite filter_cons. destruct (destroys_slot i l); case_decide; cbn; congruence || done. Qed.
Lemma er_step_version be r l r' F i :
  er_inv be r F -> er_step be r l r' ->
  slot_version r' i = (slot_version r i + N.of_nat (if destroys_slot (N.of_nat i) l then 1 else 0)) mod 256.
Proof.
  intros Hinv Hs.
  assert (Hsm : slot_version r i < 256).
  { unfold slot_version. destruct (er_ents r !! i) eqn:E; [|lia].
    eapply entry_version_lt, Forall_lookup_1; [apply Hinv|done]. }
  destruct Hs as [r row ai o r' Hrow Hai E|r h b r' E|r h row r' Hrow E|r h ai r' Hai E].
  - cbn [destroys_slot]. rewrite N.add_0_r, N.mod_small by done.
    destruct (er_create_spec be r F row ai Hinv Hrow Hai) as [[_ E']|(_&j&v&r2&F'&e'&E'&_&_&_&He'&Hv&_&_&_&Hoth&Hcase)];
      rewrite E' in E; injection E as <- <-; [done|].
    unfold slot_version. destruct (decide (i = j)) as [->|Hne]; [|by rewrite Hoth].
    rewrite He'. destruct Hcase as [(_&_&->&->&_)|(_&_&e&He&Hve&_)].
    + rewrite lookup_ge_None_2 by done. done.
    + rewrite He. congruence.
  - destruct (er_destroy_spec be r F h Hinv) as [[_ E']|(e&e'&r2&Ee&E'&_&He'&_&Hv&Hoth&_)];
      rewrite E' in E; injection E as <- <-; cbn [destroys_slot].
    { rewrite N.add_0_r, N.mod_small by done. done. }
    apply entity_entry_spec in Ee as (He&Hve&_); [|apply Hinv].
    unfold slot_version in *. rewrite ent_index_val, ent_version_val in *.
    destruct (N.eqb_spec (h / 256) (N.of_nat i)) as [Ei|Ei].
    + assert (i = N.to_nat (h / 256)) as -> by lia. rewrite He', Hv, He, Hve. lia.
    + rewrite N.add_0_r, N.mod_small by done. rewrite Hoth; [done|]. lia.
  - cbn [destroys_slot]. rewrite N.add_0_r, N.mod_small by done.
    unfold er_update_entry in E. destruct (er_entity_entry be r h) as [e|] eqn:Ee; [|done].
    injection E as <-. apply entity_entry_spec in Ee as (He&_); [|apply Hinv]. rewrite ent_index_val.
    unfold slot_version. cbn [er_ents]. pose proof (lookup_lt_Some _ _ _ He).
    destruct (decide (i = N.to_nat (h / 256))) as [->|]; [|by rewrite list_lookup_insert_ne].
    by rewrite list_lookup_insert, He.
  - cbn [destroys_slot]. rewrite N.add_0_r, N.mod_small by done.
    unfold er_update_entry in E. destruct (er_entity_entry be r h) as [e|] eqn:Ee; [|done].
    injection E as <-. apply entity_entry_spec in Ee as (He&_); [|apply Hinv]. rewrite ent_index_val.
    unfold slot_version. cbn [er_ents]. pose proof (lookup_lt_Some _ _ _ He).
    destruct (decide (i = N.to_nat (h / 256))) as [->|]; [|by rewrite list_lookup_insert_ne].
    by rewrite list_lookup_insert, He.
Qed.
Lemma er_path_version be r ls r' F i :
  er_inv be r F -> er_path be r ls r' ->
  slot_version r' i mod 256 = (slot_version r i + N.of_nat (destroy_count (N.of_nat i) ls)) mod 256.
Proof.
  intros Hinv Hp. revert F Hinv. induction Hp as [|r l r1 ls r2 Hs Hp IH]; intros F Hinv.
  { unfold destroy_count. cbn. by rewrite N.add_0_r. }
  pose proof (er_step_version _ _ _ _ _ i Hinv Hs) as Hv.
  destruct (er_step_inv _ _ _ _ _ Hinv Hs) as [F' H'].
  rewrite (IH _ H'), Hv, destroy_count_cons, Nat2N.inj_add.
  rewrite N.add_mod_idemp_l by done. f_equal. lia.
Qed.
Lemma live_slot_version be r h F : er_inv be r F -> live be r h -> slot_version r (N.to_nat (ent_index h)) = ent_version h.
Proof.
  intros Hinv (e&He&Hv&_)%live_spec; [|apply Hinv]. unfold slot_version. rewrite ent_index_val, He, ent_version_val. done.
Qed.

(** ** The claims *)

(** C16 *)
Lemma created_fresh be r row ai h r' :
  er_reach be r -> row < 2 ^ 24 -> ai < 65535 -> er_create_entity be row ai r = Ret (Some h) r' ->
  ~ live be r h /\ (forall h', live be r h' -> ent_index h' <> ent_index h) /\
  live be r' h /\ h < 2 ^ 32 /\
  (forall h', h' <> h -> er_entity_entry be r' h' = er_entity_entry be r h').
Proof.
  intros [F Hinv]%er_reach_inv Hrow Hai E.
  destruct (er_create_spec be r F row ai Hinv Hrow Hai)
    as [[_ E']|(_&i&v&r2&F'&e'&E'&Hinv'&Hi&Hv&He'&Hve'&Hva'&_&_&Hoth&Hcase)];
    rewrite E' in E; [discriminate E|injection E as <- <-].
  assert (Hix : ent_index (ent_new_unchecked (N.of_nat i) v) = N.of_nat i) by (apply ent_index_new; lia).
  assert (Hvx : ent_version (ent_new_unchecked (N.of_nat i) v) = v) by (apply ent_version_new; lia).
  assert (Hdead : forall h', live be r h' -> ent_index h' <> N.of_nat i).
  { intros h' (e&He&_&Hva)%live_spec; [|apply Hinv]. rewrite ent_index_val. intros Eh. rewrite Eh, Nat2N.id in He.
    destruct Hcase as [(_&_&->&_)|(_&_&e0&He0&_&Hv0)]; [|congruence].
    apply lookup_lt_Some in He. lia. }
  rewrite ent_index_val, ent_version_val in *.
  split; [|split; [|split; [|split]]].
  - intros Hl. apply Hdead in Hl. rewrite ent_index_val in Hl. done.
  - intros h' Hl. rewrite Hix. by apply Hdead.
  - apply live_spec; [apply Hinv'|]. exists e'. rewrite Hix, Nat2N.id, Hvx. done.
  - rewrite ent_new_val by lia. lia.
  - intros h' Hne. apply option_eq. intros e. rewrite !entity_entry_spec by (apply Hinv || apply Hinv').
    destruct (decide (N.to_nat (h' / 256) = i)) as [Eq|Hneq]; [|by rewrite Hoth].
    rewrite Eq. rewrite He'. split.
    + intros ([= <-]&Hv2&_). exfalso. apply Hne. rewrite ent_new_val by lia. lia.
    + intros (He&Hv2&Hva). exfalso.
      assert (live be r h') as Hl%Hdead. { apply live_spec; [apply Hinv|]. exists e. by rewrite Eq. }
      rewrite ent_index_val in Hl. lia.
Qed.
Lemma live_handles_distinct be r h h' :
  er_reach be r -> live be r h -> live be r h' -> ent_index h = ent_index h' -> h = h'.
Proof. intros [F Hinv]%er_reach_inv. apply live_index_inj, Hinv. Qed.

(** C17 *)
Lemma invalid_never_accepted be r :
  ~ live be r ent_INVALID /\ er_destroy_entity be ent_INVALID r = Ret false r /\
  (forall f, er_update_entry be r ent_INVALID f = None).
Proof.
  assert (E : er_entity_entry be r ent_INVALID = None).
  { unfold er_entity_entry. rewrite N.eqb_refl, orb_true_r. done. }
  split; [intros [e H]; congruence|]. split.
  - unfold er_destroy_entity. by rewrite N.eqb_refl, orb_true_r.
  - intros f. unfold er_update_entry. by rewrite E.
Qed.
Lemma invalid_never_created be r row ai h r' :
  er_reach be r -> row < 2 ^ 24 -> ai < 65535 -> er_create_entity be row ai r = Ret (Some h) r' -> h <> ent_INVALID.
Proof.
  intros Hr Hrow Hai E ->. destruct (created_fresh _ _ _ _ _ _ Hr Hrow Hai E) as (_&_&Hl&_).
  by apply invalid_never_accepted in Hl.
Qed.

(** C18 *)
Lemma destroyed_dead be r h r' :
  er_reach be r -> er_destroy_entity be h r = Ret true r' ->
  live be r h /\ ~ live be r' h /\ (forall h', h' <> h -> er_entity_entry be r' h' = er_entity_entry be r h').
Proof.
  intros [F Hinv]%er_reach_inv E.
  destruct (er_destroy_spec be r F h Hinv) as [[_ E']|(e&e'&r2&Ee&E'&Hinv'&He'&Hv0&Hv&Hoth&_)];
    rewrite E' in E; [discriminate E|injection E as <-].
  cbn zeta in *. rewrite ent_index_val, ent_version_val in *.
  pose proof Ee as (He&Hve&Hva)%entity_entry_spec; [|apply Hinv].
  split; [by exists e|]. split.
  - intros (e2&He2&_&Hva2)%live_spec; [|apply Hinv']. congruence.
  - intros h' Hne. apply option_eq. intros e2. rewrite !entity_entry_spec by (apply Hinv || apply Hinv').
    destruct (decide (N.to_nat (h' / 256) = N.to_nat (h / 256))) as [Eq|Hneq]; [|by rewrite Hoth].
    rewrite Eq, He', He. split.
    + intros ([= <-]&_&?). congruence.
    + intros ([= <-]&?&_). exfalso. apply Hne. lia.
Qed.
Lemma er_step_keeps_dead be r l r' F h :
  er_inv be r F -> er_step be r l r' -> ~ live be r h -> l <> LCreate (Some h) -> ~ live be r' h.
Proof.
  intros Hinv Hs Hd Hl. destruct Hs as [r row ai o r' Hrow Hai E|r h0 b r' E|r h0 row r' Hrow E|r h0 ai r' Hai E].
  - destruct (er_create_spec be r F row ai Hinv Hrow Hai)
      as [[_ E']|(_&i&v&r2&F'&e'&E'&Hinv'&Hi&Hv&He'&Hve'&Hva'&_&_&Hoth&Hcase)];
      rewrite E' in E; injection E as <- <-; [done|].
    intros (e&He&Hve&Hva)%live_spec; [|apply Hinv'].
    destruct (decide (N.to_nat (h / 256) = i)) as [Eq|Hneq].
    + apply Hl. f_equal. f_equal. rewrite ent_new_val by lia. rewrite Eq, He' in He. injection He as <-. lia.
    + apply Hd. apply live_spec; [apply Hinv|]. exists e. by rewrite <- Hoth.
  - destruct (er_destroy_spec be r F h0 Hinv) as [[_ E']|(e&e'&r2&Ee&E'&Hinv'&He'&Hv0&Hv&Hoth&_)];
      rewrite E' in E; injection E as <- <-; [done|].
    cbn zeta in *. rewrite ent_index_val, ent_version_val in *.
    intros (e2&He2&Hve&Hva)%live_spec; [|apply Hinv'].
    destruct (decide (N.to_nat (h / 256) = N.to_nat (h0 / 256))) as [Eq|Hneq].
    + rewrite Eq, He' in He2. congruence.
    + apply Hd. apply live_spec; [apply Hinv|]. exists e2. by rewrite <- Hoth.
  - pose proof (er_update_spec be r F h0 _ Hinv (er_row_ok be row Hrow)) as H. rewrite E in H.
    destruct H as (e&Ee&Hinv'&Ee'&->). intros (e2&He2&Hve&Hva)%live_spec; [|apply Hinv']. cbn [er_ents] in He2.
    apply Hd. apply live_spec; [apply Hinv|]. apply entity_entry_spec in Ee as (He&Hv0&Hva0); [|apply Hinv].
    rewrite ent_index_val in *. destruct (decide (N.to_nat (h / 256) = N.to_nat (h0 / 256))) as [Eq|Hneq].
    + rewrite Eq in *. rewrite list_lookup_insert in He2 by (by eapply lookup_lt_Some). injection He2 as <-.
      exists e. done.
    + rewrite list_lookup_insert_ne in He2 by done. by exists e2.
  - pose proof (er_update_spec be r F h0 _ Hinv (er_arch_ok be ai Hai)) as H. rewrite E in H.
    destruct H as (e&Ee&Hinv'&Ee'&->). intros (e2&He2&Hve&Hva)%live_spec; [|apply Hinv']. cbn [er_ents] in He2.
    apply Hd. apply live_spec; [apply Hinv|]. apply entity_entry_spec in Ee as (He&Hv0&Hva0); [|apply Hinv].
    rewrite ent_index_val in *. destruct (decide (N.to_nat (h / 256) = N.to_nat (h0 / 256))) as [Eq|Hneq].
    + rewrite Eq in *. rewrite list_lookup_insert in He2 by (by eapply lookup_lt_Some). injection He2 as <-.
      exists e. done.
    + rewrite list_lookup_insert_ne in He2 by done. by exists e2.
Qed.
Lemma dead_until_reissued be r ls r' h :
  er_reach be r -> er_path be r ls r' -> ~ live be r h -> LCreate (Some h) ∉ ls -> ~ live be r' h.
Proof.
  intros [F Hinv]%er_reach_inv Hp. revert F Hinv. induction Hp as [|r l r1 ls r2 Hs Hp IH]; intros F Hinv Hd Hn; [done|].
  rewrite not_elem_of_cons in Hn. destruct Hn as [Hne Hn].
  destruct (er_step_inv _ _ _ _ _ Hinv Hs) as [F' H'].
  apply (IH F' H'); [|done]. by apply (er_step_keeps_dead be r l r1 F).
Qed.
Lemma dead_no_effect be r h :
  er_reach be r -> ~ live be r h ->
  er_entity_entry be r h = None /\ er_destroy_entity be h r = Ret false r /\ (forall f, er_update_entry be r h f = None).
Proof.
  intros [F Hinv]%er_reach_inv Hd.
  assert (E : er_entity_entry be r h = None).
  { destruct (er_entity_entry be r h) eqn:E; [|done]. exfalso. apply Hd. by eexists. }
  split; [done|]. split.
  - destruct (er_destroy_spec be r F h Hinv) as [[_ E']|(e&e'&r2&Ee&_)]; [done|congruence].
  - intros f. unfold er_update_entry. by rewrite E.
Qed.

(** C19 *)
Lemma stale_handles be r h r1 ls r2 :
  er_reach be r -> er_destroy_entity be h r = Ret true r1 -> er_path be r1 ls r2 ->
  live be r2 h -> (255 <= destroy_count (ent_index h) ls)%nat.
Proof.
  intros Hr E Hp Hl. pose proof Hr as [F Hinv]%er_reach_inv.
  destruct (destroyed_dead _ _ _ _ Hr E) as (Hlive&_).
  assert (Hs : er_step be r (LDestroy h true) r1) by (by constructor).
  destruct (er_step_inv _ _ _ _ _ Hinv Hs) as [F1 Hinv1].
  destruct (er_path_inv _ _ _ _ _ Hinv1 Hp) as [F2 Hinv2].
  pose proof (er_step_version _ _ _ _ _ (N.to_nat (ent_index h)) Hinv Hs) as H1.
  pose proof (er_path_version _ _ _ _ _ (N.to_nat (ent_index h)) Hinv1 Hp) as H2.
  rewrite (live_slot_version _ _ _ _ Hinv Hlive) in H1. rewrite (live_slot_version _ _ _ _ Hinv2 Hl) in H2.
  cbn [destroys_slot] in H1. rewrite N2Nat.id in H1, H2. rewrite N.eqb_refl in H1.
  rewrite H1, ent_version_val in H2. rewrite ent_version_val in H1.
  set (k := destroy_count (ent_index h) ls) in *. clearbody k. lia.
Qed.

(** C20 *)
Lemma free_list_exact be r :
  er_reach be r -> exists F, free_chain be (er_ents r) (er_next r) F /\ NoDup F /\ (forall i, i ∈ F <-> dead_slot be r i).
Proof. intros [F [? ? ? ? ?]]%er_reach_inv. by exists F. Qed.
Lemma create_reuses be r row ai h r' :
  er_reach be r -> row < 2 ^ 24 -> ai < 65535 -> er_create_entity be row ai r = Ret (Some h) r' ->
  (length (er_ents r') = length (er_ents r) /\ dead_slot be r (N.to_nat (ent_index h)) /\ er_next r = ent_index h) \/
  (length (er_ents r') = S (length (er_ents r)) /\ ~ (exists i, dead_slot be r i) /\
   ent_index h = N.of_nat (length (er_ents r)) /\ ent_version h = 0).
Proof.
  intros [F Hinv]%er_reach_inv Hrow Hai E.
  destruct (er_create_spec be r F row ai Hinv Hrow Hai)
    as [[_ E']|(_&i&v&r2&F'&e'&E'&Hinv'&Hi&Hv&He'&Hve'&Hva'&_&_&Hoth&Hcase)];
    rewrite E' in E; [discriminate E|injection E as <- <-].
  rewrite ent_index_new, ent_version_new by lia. rewrite Nat2N.id.
  destruct Hcase as [(->&->&->&->&Hl)|(->&Hl&e&He&_&Hd)].
  - right. split; [done|]. split; [|done]. intros [i Hi']. apply (ei_free _ _ _ Hinv) in Hi'. by apply elem_of_nil in Hi'.
  - left. split; [done|]. split; [by exists e|]. pose proof (ei_chain _ _ _ Hinv) as Hc. by inversion Hc.
Qed.
Lemma destroy_then_create be r h r1 row ai :
  er_reach be r -> row < 2 ^ 24 -> ai < 65535 -> er_destroy_entity be h r = Ret true r1 ->
  N.of_nat (length (er_ents r)) < 16777215 ->
  exists r2, er_create_entity be row ai r1 = Ret (Some (ent_new_unchecked (ent_index h) ((ent_version h + 1) mod 256))) r2.
Proof.
  intros [F Hinv]%er_reach_inv Hrow Hai E Hlen.
  destruct (er_destroy_spec be r F h Hinv) as [[_ E']|(e&e'&r2&Ee&E'&Hinv'&He'&Hv0&Hv&Hoth&Hlen')];
    rewrite E' in E; [discriminate E|injection E as <-]. cbn zeta in *.
  destruct (er_create_spec be r2 _ row ai Hinv' Hrow Hai)
    as [[? E2]|(_&i&v&r3&F'&e2&E2&_&_&_&_&_&_&_&_&_&Hcase)]; [lia|].
  destruct Hcase as [(?&_)|(EF&_&e3&He3&Hv3&_)]; [done|].
  injection EF as <- <-. rewrite He' in He3. injection He3 as <-.
  rewrite N2Nat.id in E2. exists r3. rewrite E2. by rewrite <- Hv3, Hv.
Qed.
Lemma live_count_full be r F : er_inv be r F -> F = [] -> live_count be r = length (er_ents r).
Proof.
  intros Hinv ->. unfold live_count. f_equal. apply list_eq. intros i.
  assert (H : Forall (fun e => entry_is_valid be e = true) (er_ents r)).
  { apply Forall_lookup. intros j e He. destruct (entry_is_valid be e) eqn:Ev; [done|].
    assert (j ∈ []) as Hj by (apply (ei_free _ _ _ Hinv); by exists e). by apply elem_of_nil in Hj. }
  clear Hinv. revert i. induction H as [|e l He Hl IH]; intros i; [done|].
  rewrite filter_cons_True by done. destruct i; [done|]. apply IH.
Qed.
Lemma live_count_le be r : (live_count be r <= length (er_ents r))%nat.
Proof. apply filter_length. Qed.
(** The table is only ever as long as the number of entities that were alive
    together at some moment. *)
Lemma table_is_peak be ls r :
  er_path be er_default ls r ->
  exists ls1 ls2 r0, ls = ls1 ++ ls2 /\ er_path be er_default ls1 r0 /\ er_path be r0 ls2 r /\
    live_count be r0 = length (er_ents r).
Proof.
  induction ls as [|l ls IH] using rev_ind in r |- *; intros Hp.
  { exists [], [], er_default. inversion Hp; subst. repeat split; try constructor. }
  assert (exists rm, er_path be er_default ls rm /\ er_step be rm l r) as (rm&Hp1&Hs).
  { clear IH. revert Hp. generalize er_default as r0. induction ls as [|l' ls IH]; intros r0 Hp.
    - inversion Hp as [|? ? r1 ? ? Hs Hp']; subst. inversion Hp'; subst. exists r0. split; [constructor|done].
    - inversion Hp as [|? ? r1 ? ? Hs Hp']; subst. apply IH in Hp' as (rm&?&?). exists rm. split; [by econstructor|done]. }
  destruct (er_path_inv _ _ _ _ _ (er_inv_default be) Hp1) as [F Hinv].
  assert (Hlen : length (er_ents r) = length (er_ents rm) \/ live_count be r = length (er_ents r)).
  { destruct Hs as [rm row ai o r' Hrow Hai E|rm h0 b r' E|rm h0 row r' Hrow E|rm h0 ai r' Hai E].
    - destruct (er_create_spec be rm F row ai Hinv Hrow Hai)
        as [[_ E']|(_&i&v&r2&F'&e'&E'&Hinv'&_&_&_&_&_&_&_&_&Hcase)]; rewrite E' in E; injection E as <- <-; [by left|].
      destruct Hcase as [(_&->&_)|(_&?&_)]; [|by left]. right. by eapply live_count_full.
    - destruct (er_destroy_spec be rm F h0 Hinv) as [[_ E']|(e&e'&r2&_&E'&_&_&_&_&_&?)];
        rewrite E' in E; injection E as <- <-; by left.
    - unfold er_update_entry in E. destruct (er_entity_entry be rm h0); [|done]. injection E as <-.
      left. cbn. by rewrite insert_length.
    - unfold er_update_entry in E. destruct (er_entity_entry be rm h0); [|done]. injection E as <-.
      left. cbn. by rewrite insert_length. }
  destruct Hlen as [Hlen|Hlen].
  - destruct (IH rm Hp1) as (ls1&ls2&r0&->&Ha&Hb&Hc). exists ls1, (ls2 ++ [l]), r0. rewrite app_assoc.
    split; [done|]. split; [done|]. split; [by eapply er_path_snoc|congruence].
  - exists (ls ++ [l]), [], r. rewrite app_nil_r. split; [done|]. split; [done|]. split; [constructor|done].
Qed.

(** C21 *)
Lemma create_result be r row ai :
  er_reach be r -> row < 2 ^ 24 -> ai < 65535 ->
  exists o r', er_create_entity be row ai r = Ret o r' /\ (o = None <-> N.of_nat (length (er_ents r)) = 16777215) /\
    (o = None -> r' = r).
Proof.
  intros [F Hinv]%er_reach_inv Hrow Hai. pose proof (ei_len _ _ _ Hinv).
  destruct (er_create_spec be r F row ai Hinv Hrow Hai) as [[? E']|(?&i&v&r2&F'&e'&E'&_)]; rewrite E'; do 2 eexists;
    (split; [done|]); split; try done; split; intros; try done; lia.
Qed.
Lemma fill_table be n :
  N.of_nat n <= 16777215 -> exists r, er_reach be r /\ length (er_ents r) = n /\
    (forall i, (i < n)%nat -> live be r (ent_new_unchecked (N.of_nat i) 0)).
Proof.
  induction n as [|n IH]; intros Hn.
  { exists er_default. split; [exists []; constructor|]. split; [done|]. lia. }
  destruct IH as (r&Hr&Hl&Hlv); [lia|]. pose proof Hr as [F Hinv]%er_reach_inv.
  assert (HF : F = []).
  { destruct F as [|i F]; [done|]. assert (Hi : i ∈ i :: F) by left. apply (ei_free _ _ _ Hinv) in Hi as (e&He&Hd).
    pose proof (lookup_lt_Some _ _ _ He) as Hlt. rewrite Hl in Hlt.
    destruct (Hlv i Hlt) as [e' Hx]. apply entity_entry_spec in Hx as (Hx&_&Hva); [|apply Hinv].
    rewrite <- ent_index_val, ent_index_new, Nat2N.id in Hx by lia. congruence. }
  destruct (er_create_spec be r F 0 0 Hinv ltac:(lia) ltac:(lia))
    as [[? E']|(_&i&v&r2&F'&e'&E'&Hinv'&Hi&Hv&He'&Hve'&Hva'&_&_&Hoth&Hcase)]; [lia|].
  destruct Hcase as [(_&_&->&->&Hl')|(HF'&_)]; [|congruence].
  exists r2. split; [|split; [lia|]].
  - destruct Hr as [ls Hp]. eexists. eapply er_path_snoc; [done|]. by eapply (es_create _ _ 0 0).
  - intros j Hj. destruct (decide (j = length (er_ents r))) as [->|Hne].
    + apply live_spec; [apply Hinv'|]. rewrite <- ent_index_val, <- ent_version_val, ent_index_new, ent_version_new, Nat2N.id by lia.
      by exists e'.
    + destruct (Hlv j) as [e He]; [lia|]. apply entity_entry_spec in He as (He&?&?); [|apply Hinv].
      apply live_spec; [apply Hinv'|]. exists e. rewrite Hoth; [done|].
      rewrite <- ent_index_val, ent_index_new by lia. lia.
Qed.
Lemma full_table_stays_full be :
  exists r h r', er_reach be r /\ er_destroy_entity be h r = Ret true r' /\
    N.of_nat (live_count be r') < 16777215 /\ forall row ai, er_create_entity be row ai r' = Ret None r'.
Proof.
  destruct (fill_table be (N.to_nat 16777215)) as (r&Hr&Hl&Hlv); [lia|].
  pose proof Hr as [F Hinv]%er_reach_inv.
  set (h := ent_new_unchecked (N.of_nat 0) 0).
  assert (Hlh : live be r h) by (apply Hlv; lia).
  destruct (er_destroy_spec be r F h Hinv) as [[? _]|(e&e'&r2&Ee&E'&Hinv'&He'&Hd'&_&_&Hlen)]; [done|].
  exists r, h, r2. split; [done|]. split; [done|]. split.
  - pose proof (live_count_le be r2). rewrite Hlen, Hl in *.
    enough (live_count be r2 < length (er_ents r2))%nat by lia.
    clear -He' Hd'. unfold live_count. revert He'. generalize (N.to_nat (ent_index h)) as i.
    induction (er_ents r2) as [|x l IH]; intros i He'; [done|].
    pose proof (filter_length (fun e => entry_is_valid be e = true) l).
    destruct i as [|i].
    + injection He' as ->. rewrite filter_cons_False by congruence. cbn. lia.
    + apply IH in He'. rewrite filter_cons. case_decide; cbn; lia.
  - intros row ai. unfold er_create_entity, er_MAX_ENTITY_COUNT, MAX_ENTITY_HANDLE_VALUE.
    rewrite (proj2 (N.leb_le _ _)); [done|]. lia.
Qed.

(** C22 *)
Definition handles_from (be : bool) (k : nat) (l : list entry) : list N :=
  omap (fun '(i, e) => if entry_is_valid be e then Some (ent_new_unchecked (N.of_nat i) (entry_version e)) else None)
       (zip (seq k (length l)) l).
Lemma handles_from_cons be k e l :
  handles_from be k (e :: l) =
  (if entry_is_valid be e then [ent_new_unchecked (N.of_nat k) (entry_version e)] else []) ++ handles_from be (S k) l.
Proof. unfold handles_from. cbn. by destruct (entry_is_valid be e). Qed.
Lemma eit_loop_spec be rest cur :
  match eit_loop be rest cur with
  | (None, cur') => handles_from be cur rest = [] /\ cur' = (cur + length rest)%nat
  | (Some h, cur') => exists skipped e rest', rest = skipped ++ e :: rest' /\ cur' = (cur + S (length skipped))%nat /\
      handles_from be cur rest = h :: handles_from be cur' rest'
  end.
Proof.
  revert cur. induction rest as [|e rest IH]; intros cur; cbn [eit_loop]; [split; [done|cbn; lia]|].
  rewrite handles_from_cons. destruct (entry_is_valid be e) eqn:Ev.
  - exists [], e, rest. split; [done|]. split; [cbn; lia|]. done.
  - specialize (IH (S cur)). destruct (eit_loop be rest (S cur)) as [[h|] cur'].
    + destruct IH as (sk&e'&rest'&->&->&E). exists (e :: sk), e', rest'. split; [done|]. split; [cbn; lia|]. done.
    + destruct IH as [E ->]. split; [|cbn; lia]. done.
Qed.
Lemma er_collect_spec be ents fuel cur :
  (length ents - cur < fuel)%nat -> (cur <= length ents)%nat ->
  collect (eit_next be ents) fuel cur = Rd (Some (handles_from be cur (drop cur ents))).
Proof.
  revert cur. induction fuel as [|fuel IH]; intros cur Hf Hc; [lia|]. cbn [collect]. unfold eit_next at 1.
  pose proof (eit_loop_spec be (drop cur ents) cur) as H. cbn [rbind].
  destruct (eit_loop be (drop cur ents) cur) as [[h|] cur'].
  - destruct H as (sk&e&rest'&Ed&->&E). rewrite E.
    assert (Hl : length (drop cur ents) = (length sk + S (length rest'))%nat) by (rewrite Ed, app_length; cbn; lia).
    rewrite drop_length in Hl.
    assert (Ed' : drop (cur + S (length sk)) ents = rest').
    { rewrite <- drop_drop, Ed. replace (S (length sk)) with (length (sk ++ [e])) by (rewrite app_length; cbn; lia).
      rewrite (cons_middle e sk rest'), app_assoc. by rewrite drop_app. }
    rewrite IH by lia. rewrite Ed'. done.
  - destruct H as [-> _]. done.
Qed.
Lemma elem_of_handles be k l h :
  h ∈ handles_from be k l <->
  exists i e, l !! i = Some e /\ entry_is_valid be e = true /\ h = ent_new_unchecked (N.of_nat (k + i)) (entry_version e).
Proof.
  unfold handles_from. rewrite elem_of_list_omap. split.
  - intros ([i e]&Hin&Hf). apply elem_of_list_lookup in Hin as [j Hj].
    apply lookup_zip_with_Some in Hj as (a&b&[= <- <-]&Ha&Hb).
    apply lookup_seq in Ha as [-> _]. destruct (entry_is_valid be e) eqn:Ev; [|done]. injection Hf as <-.
    exists j, e. done.
  - intros (i&e&He&Hv&->). exists ((k + i)%nat, e). rewrite Hv. split; [|done].
    apply elem_of_list_lookup. exists i. apply lookup_zip_with_Some. exists (k + i)%nat, e. split; [done|].
    split; [|done]. apply lookup_seq. split; [done|]. by eapply lookup_lt_Some.
Qed.
Lemma handles_sorted be k l :
  N.of_nat (k + length l) <= 16777215 -> Forall entry_bytes_ok l ->
  StronglySorted (fun h h' => ent_index h < ent_index h') (handles_from be k l).
Proof.
  revert k. induction l as [|e l IH]; intros k Hk Hb; [constructor|].
  apply Forall_cons in Hb as [He Hb]. cbn in Hk.
  rewrite handles_from_cons. assert (IH' : StronglySorted (fun h h' => ent_index h < ent_index h') (handles_from be (S k) l)) by (apply IH; [lia|done]).
  destruct (entry_is_valid be e); [|exact IH'].
  constructor; [exact IH'|]. apply Forall_forall. intros h Hh.
  change (h ∈ handles_from be (S k) l) in Hh. apply elem_of_handles in Hh as (i&e'&He'&_&->).
  pose proof (lookup_lt_Some _ _ _ He'). assert (entry_bytes_ok e') by (by eapply Forall_lookup_1).
  rewrite !ent_index_new; try (apply entry_version_lt; done); lia.
Qed.
Lemma iter_entities_inv be r F :
  er_inv be r F -> exists l, er_iter be r = Rd (Some l) /\ (forall h, h ∈ l <-> live be r h) /\
    StronglySorted (fun h h' => ent_index h < ent_index h') l.
Proof.
  intros Hinv. eexists. split; [apply er_collect_spec; lia|]. rewrite drop_0.
  pose proof (ei_len _ _ _ Hinv) as Hlen.
  split; [|apply handles_sorted; [done|apply Hinv]].
  intros h. rewrite elem_of_handles, live_spec by done. cbn [Nat.add]. split.
  - intros (i&e&He&Hv&->). pose proof (lookup_lt_Some _ _ _ He).
    assert (entry_version e < 256) by (eapply entry_version_lt, Forall_lookup_1; [apply Hinv|done]).
    exists e. rewrite <- ent_index_val, <- ent_version_val, ent_index_new, ent_version_new, Nat2N.id by lia. done.
  - intros (e&He&Hv&Hva). exists (N.to_nat (h / 256)), e. split; [done|]. split; [done|].
    pose proof (lookup_lt_Some _ _ _ He). rewrite ent_new_val by lia. lia.
Qed.
Lemma iter_entities_exact be r :
  er_reach be r -> exists l, er_iter be r = Rd (Some l) /\ (forall h, h ∈ l <-> live be r h) /\
    StronglySorted (fun h h' => ent_index h < ent_index h') l.
Proof. intros [F Hinv]%er_reach_inv. by eapply iter_entities_inv. Qed.
Lemma entity_iter_fused be ents cur cur' :
  eit_next be ents cur = Rd (None, cur') -> eit_next be ents cur' = Rd (None, cur').
Proof.
  unfold eit_next. pose proof (eit_loop_spec be (drop cur ents) cur) as H.
  destruct (eit_loop be (drop cur ents) cur) as [[h|] c]; intros [= <-]. destruct H as [_ ->].
  rewrite drop_length. rewrite drop_ge by lia. done.
Qed.
