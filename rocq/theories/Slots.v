(** Proofs for C64: programs that use an entity registry directly. *)
From Verif Require Import EntityModel SpecEntity EntityProofs EntityTable EntityClient SpecSlots.
Local Open Scope N_scope.

Definition shows (be : bool) (e : entry) (s : slot) : Prop := entry_bytes_ok e /\ s = as_slot (fields_of be e).
Record esim (be : bool) (r : er) (t : table) : Prop := {
  es_len : N.of_nat (length (tb_slots t)) <= 16777215;
  es_slots : Forall2 (shows be) (er_ents r) (tb_slots t);
  es_chain : free_chain be (er_ents r) (er_next r) (tb_free t);
  es_nodup : NoDup (tb_free t);
}.
Lemma esim_default be : esim be er_default (Table [] []).
Proof. constructor; cbn; [lia|constructor|constructor|constructor]. Qed.
Lemma esim_length be r t : esim be r t -> length (er_ents r) = length (tb_slots t).
Proof. intros H. by eapply Forall2_length, es_slots. Qed.
Lemma shows_at be e : sl_at (as_slot (fields_of be e)) = if entry_is_valid be e then Some (entry_index_in_archetype e, entry_archetype_index be e) else None.
Proof. unfold as_slot, fields_of, entry_is_valid, INVALID_ARCHETYPE_INDEX. cbn. by destruct (_ =? _). Qed.
Lemma handle_of_new i v : N.of_nat i < 16777216 -> v < 256 -> ent_new_unchecked (N.of_nat i) v = handle_of i v.
Proof. apply ent_new_val. Qed.

Lemma named_ok be r t h : esim be r t ->
  match named t h with
  | Some (i, x) => exists e, er_entity_entry be r h = Some e /\ i = N.to_nat (ent_index h) /\ er_ents r !! i = Some e /\ entry_bytes_ok e /\ x = fields_of be e /\
      entry_is_valid be e = true /\ entry_version e = ent_version h
  | None => er_entity_entry be r h = None
  end.
Proof.
  intros H. pose proof (esim_length _ _ _ H) as El. assert (Hlen : N.of_nat (length (er_ents r)) <= 16777215) by (rewrite El; apply H).
  destruct (er_entity_entry be r h) as [e|] eqn:Ee.
  - pose proof Ee as (Hi&Hv&Hva)%(entity_entry_spec be r h e Hlen). destruct (Forall2_lookup_l _ _ _ _ _ (es_slots _ _ _ H) Hi) as (s&Hs&Hok&->).
    unfold named. rewrite Hs. pose proof (shows_at be e) as Hat. rewrite Hva in Hat. destruct (as_slot (fields_of be e)) as [v a] eqn:Ea. cbn in Hat. subst a.
    assert (v = entry_version e) as -> by (unfold as_slot in Ea; by injection Ea). rewrite Hv, N.eqb_refl. exists e.
    rewrite ent_index_val, ent_version_val. split; [done|]. split; [done|]. split; [done|]. split; [done|]. split; [|done]. unfold fields_of. by rewrite Hv.
  - unfold named. destruct (tb_slots t !! N.to_nat (h / 256)) as [[v [[row ai]|]]|] eqn:Hs; [|done|done].
    destruct (N.eqb_spec v (h mod 256)) as [->|]; [|done]. exfalso.
    destruct (Forall2_lookup_r _ _ _ _ _ (es_slots _ _ _ H) Hs) as (e&He&_&Es). pose proof (shows_at be e) as Hat. rewrite <- Es in Hat. cbn in Hat.
    destruct (entry_is_valid be e) eqn:Hva; [|done]. assert (entry_version e = h mod 256) as Hv by (unfold as_slot in Es; by injection Es).
    by rewrite (proj2 (entity_entry_spec be r h e Hlen)) in Ee.
Qed.

(** Writing an entry that is not on the free list. *)
Lemma esim_insert be r t i e free : esim be r t -> entry_bytes_ok e -> (i < length (er_ents r))%nat ->
  (forall n, free_chain be (<[i := e]> (er_ents r)) n free -> NoDup free -> esim be (Er (<[i := e]> (er_ents r)) n) (Table (set_slot t i (as_slot (fields_of be e))) free)).
Proof.
  intros H He Hi n Hc Hn. constructor; cbn [tb_slots tb_free er_ents er_next].
  - unfold set_slot. rewrite insert_length. apply H.
  - unfold set_slot. apply Forall2_insert; [apply H|done].
  - done.
  - done.
Qed.
Lemma edits_ok be l : Forall edit_ok l -> forall e, entry_bytes_ok e ->
  entry_bytes_ok (fold_left (edit_entry be) l e) /\ fields_of be (fold_left (edit_entry be) l e) = fold_left change l (fields_of be e).
Proof.
  induction 1 as [|x l Hx Hl IH]; intros e He; [done|]. cbn [fold_left].
  assert (Hx' : entry_bytes_ok (edit_entry be e x) /\ fields_of be (edit_entry be e x) = change (fields_of be e) x).
  { destruct x as [v|row|ai]; cbn [edit_ok edit_entry change] in *; unfold fields_of; cbn [fst snd].
    - split; [by apply entry_set_version_ok|]. by rewrite entry_get_set_version, entry_row_set_version, entry_arch_set_version.
    - split; [by apply entry_set_row_ok|]. rewrite entry_version_set_row, entry_get_set_row, entry_arch_set_row; [done|]. by change (2 ^ 24) with 16777216 in Hx.
    - split; [by apply entry_set_arch_ok|]. by rewrite entry_version_set_arch, entry_row_set_arch, entry_get_set_arch. }
  destruct Hx' as [H1 H2]. rewrite <- H2. by apply IH.
Qed.
Lemma free_invalid be ents n F i : free_chain be ents n F -> i ∈ F -> exists e, ents !! i = Some e /\ entry_is_valid be e = false.
Proof. induction 1 as [|j e F Hj He Hv Hc IH]; [by intros ?%elem_of_nil|]. intros [->|Hi]%elem_of_cons; [by exists e|by apply IH]. Qed.
Lemma all_handles be ents slots k : Forall2 (shows be) ents slots -> N.of_nat (k + length ents) <= 16777215 ->
  handles_from be k ents = concat (imap (fun i s => match sl_at s with Some _ => [handle_of (k + i) (sl_version s)] | None => [] end) slots).
Proof.
  intros H. revert k. induction H as [|e s ents slots [He ->] H IH]; intros k Hk; [done|]. cbn [length] in Hk.
  rewrite handles_from_cons. cbn [imap concat]. rewrite shows_at. f_equal.
  - destruct (entry_is_valid be e); [|done]. rewrite Nat.add_0_r, handle_of_new; [done|lia|by apply entry_version_lt].
  - rewrite IH by lia. f_equal. apply imap_ext. intros i s' _. cbn. by rewrite Nat.add_succ_r.
Qed.

Lemma estep_ok be x r t : esim be r t -> eop_ok x -> exists r', estep be x r = Ret (on_slots x t).1 r' /\ esim be r' (on_slots x t).2.
Proof.
  intros H Hx. pose proof (esim_length _ _ _ H) as El. pose proof (es_len _ _ _ H) as Hlen.
  destruct x as [|row ai|h|h|h l|]; cbn [eop_ok] in Hx; cbn [estep on_slots].
  - exists r. unfold er_can_register_new_entity. rewrite El. by cbn.
  - change (2 ^ 24) with 16777216 in Hx. destruct Hx as [Hrow Hai]. unfold er_create_entity, bind, ret. unfold er_MAX_ENTITY_COUNT, MAX_ENTITY_HANDLE_VALUE. rewrite El.
    destruct (N.leb_spec 16777215 (N.of_nat (length (tb_slots t)))) as [Hf|Hr].
    { rewrite (proj2 (N.ltb_ge _ _)) by done. by exists r. }
    rewrite (proj2 (N.ltb_lt _ _)) by done. unfold iia_INVALID_VALUE. pose proof (es_chain _ _ _ H) as Hc. pose proof (es_nodup _ _ _ H) as Hn.
    destruct (N.eqb_spec (er_next r) 16777215) as [E|Hne].
    + rewrite E in Hc. inversion Hc as [|i e F Hi He Hv Hc' E1 E2]; [|lia]. cbn [fst snd]. eexists. split.
      { rewrite handle_of_new; [reflexivity| |]; lia. }
      destruct (fill_fields be entry_default ai row entry_default_ok Hai Hrow) as (Hok&Hv&Ha&Hrw&Hva).
      constructor; cbn [tb_slots tb_free er_ents er_next].
      * rewrite app_length. cbn. lia.
      * apply Forall2_app; [apply H|]. constructor; [|constructor]. split; [done|]. unfold as_slot, fields_of. cbn [fst snd].
        unfold fill in *. rewrite Hv, Ha, Hrw. rewrite (proj2 (N.eqb_neq _ _)) by lia. done.
      * rewrite E. constructor.
      * constructor.
    + inversion Hc as [E1 E2|i e F Hi He Hv Hc' E1 E2]; [congruence|]. rewrite Nat2N.id, He.
      destruct (Forall2_lookup_l _ _ _ _ _ (es_slots _ _ _ H) He) as (s&Hs&Hok&->). rewrite Hs. cbn [fst snd as_slot sl_version fields_of].
      eexists. split. { rewrite handle_of_new; [reflexivity|lia|by apply entry_version_lt]. }
      destruct (fill_fields be e ai row Hok Hai Hrow) as (Hok'&Hv'&Ha&Hrw&Hva). unfold fill in *. rewrite <- E2 in Hn. apply NoDup_cons in Hn as [Hni Hn].
      assert (Slot (entry_version e) (Some (row, ai)) = as_slot (fields_of be (entry_set_index_in_archetype (entry_set_archetype_index be e ai) row))) as ->.
      { unfold as_slot, fields_of. cbn [fst snd]. rewrite Hv', Ha, Hrw. by rewrite (proj2 (N.eqb_neq _ _)) by lia. }
      apply esim_insert; [done|done|by eapply lookup_lt_Some|by apply free_chain_insert|done].
  - pose proof (named_ok be r t h H) as Hn. assert (Hlen' : N.of_nat (length (er_ents r)) <= 16777215) by (by rewrite El).
    unfold bind, ret, er_destroy_entity. destruct (named t h) as [[i [[v row] ai]]|].
    + destruct Hn as (e&Ee&Ei&Hi&Hok&Ex&Hva&Hv). cbn [fst snd]. pose proof (lookup_lt_Some _ _ _ Hi) as Hlt.
      rewrite (proj2 (N.leb_gt _ _)) by lia. rewrite ent_INVALID_val.
      destruct (N.eqb_spec h 4294967295) as [->|_]. { exfalso. rewrite ent_index_val in Ei. change (4294967295 / 256) with 16777215 in Ei. lia. }
      cbn [orb]. rewrite <- Ei, Hi, Hva, Hv, N.eqb_refl. cbn [negb orb]. eexists. split; [reflexivity|].
      injection Ex as -> -> ->. pose proof (free_chain_bound _ _ _ _ (es_chain _ _ _ H)) as Hb.
      destruct (entry_invalidate_fields be e (er_next r)) as (F1&F2&F3); [lia|].
      set (e2 := entry_set_version (entry_invalidate be e (er_next r)) ((entry_version (entry_invalidate be e (er_next r)) + 1) mod 256)).
      assert (Hok2 : entry_bytes_ok e2). { apply entry_set_version_ok; [by apply entry_invalidate_ok|]. apply N.mod_lt. lia. }
      assert (fields_of be e2 = ((entry_version e + 1) mod 256, er_next r, 65535)) as Ef.
      { unfold fields_of, e2. rewrite entry_get_set_version, entry_row_set_version, entry_arch_set_version. by rewrite F1, F2, F3. }
      assert (Slot ((entry_version e + 1) mod 256) None = as_slot (fields_of be e2)) as -> by (by rewrite Ef).
      assert (Hnf : i ∉ tb_free t). { intros Hin. destruct (free_invalid _ _ _ _ _ (es_chain _ _ _ H) Hin) as (e'&He'&Hv'). congruence. }
      apply esim_insert; [done|done|done| |constructor; [done|apply H]]. assert (ent_index h = N.of_nat i) as -> by lia. apply (fc_slot be _ i e2).
      * lia.
      * by apply list_lookup_insert.
      * destruct (entry_is_valid be e2) eqn:E2; [|done]. apply entry_is_valid_spec in E2. apply (f_equal snd) in Ef. destruct (E2 Ef).
      * apply (f_equal (fun y => y.1.2)) in Ef. cbn [fields_of fst snd] in Ef. rewrite Ef. apply free_chain_insert; [apply H|done].
    + exists r. split; [|done]. unfold er_entity_entry in Hn. destruct ((_ <=? _) || _) eqn:Eo; [done|]. destruct (er_ents r !! N.to_nat (ent_index h)) as [e|] eqn:Ei; [by destruct (negb _ || _)|].
      exfalso. apply orb_false_iff in Eo as [Eo _]. apply N.leb_gt in Eo. apply lookup_ge_None in Ei. lia.
  - exists r. split; [|done]. pose proof (named_ok be r t h H) as Hn. destruct (named t h) as [[i x]|]; [|by rewrite Hn].
    destruct Hn as (e&->&_&_&_&->&_). done.
  - pose proof (named_ok be r t h H) as Hn. unfold er_update_entry. destruct Hx as [_ Hl]. destruct (named t h) as [[i x]|]; [|rewrite Hn; by exists r].
    destruct Hn as (e&->&Ei&Hi&Hok&->&Hva&_). destruct (edits_ok be l Hl e Hok) as [Hok' Hf]. cbn [fst snd]. rewrite Hf. eexists. split; [reflexivity|].
    rewrite <- Ei, <- Hf. assert (Hnf : i ∉ tb_free t). { intros Hin. destruct (free_invalid _ _ _ _ _ (es_chain _ _ _ H) Hin) as (e'&He'&Hv'). congruence. }
    apply esim_insert; [done|done|by eapply lookup_lt_Some|apply free_chain_insert; [apply H|done]|apply H].
  - exists r. split; [|done]. unfold er_iter. rewrite er_collect_spec, drop_0 by lia. rewrite (all_handles be _ (tb_slots t)); [done|apply H|cbn; lia].
Qed.
Lemma erun_ok be l : forall r t, esim be r t -> Forall eop_ok l -> exists r', erun be l r = Ret (all_on_slots l t).1 r' /\ esim be r' (all_on_slots l t).2.
Proof.
  induction l as [|x l IH]; intros r t H Hl; [by exists r|]. apply Forall_cons in Hl as [Hx Hl]. cbn [erun all_on_slots].
  destruct (estep_ok be x r t H Hx) as (r1&E1&H1). destruct (IH r1 _ H1 Hl) as (r2&E2&H2). exists r2. unfold bind, ret. rewrite E1, E2. done.
Qed.
Lemma erun_default be l : Forall eop_ok l -> exists r, erun be l er_default = Ret (all_on_slots l (Table [] [])).1 r.
Proof. intros Hl. destruct (erun_ok be l _ _ (esim_default be) Hl) as (r&E&_). by exists r. Qed.

(** ** Slots that are lost *)
Definition lost (t : table) (i : nat) : Prop := i ∉ tb_free t /\ exists v, tb_slots t !! i = Some (Slot v None).
Definition slots_ok (t : table) : Prop := Forall (fun s => sl_version s < 256) (tb_slots t).
Lemma lost_step x t i : slots_ok t -> eop_ok x -> lost t i -> lost (on_slots x t).2 i /\ slots_ok (on_slots x t).2 /\ ~ mentions i (on_slots x t).1.
Proof.
  intros Hok Hx [Hnf [v Hi]]. pose proof (lookup_lt_Some _ _ _ Hi) as Hlt. assert (Hl : lost t i) by (split; [done|by exists v]).
  assert (Hdiv : forall j u, u < 256 -> handle_of j u / 256 = N.of_nat j).
  { intros j u Hu. unfold handle_of. rewrite N.add_comm, N.div_add by lia. rewrite N.div_small by done. done. }
  destruct x as [|row ai|h|h|h l|]; cbn [eop_ok] in Hx; cbn [on_slots].
  - split; [exact Hl|split; [exact Hok|exact id]].
  - destruct (_ <? _) eqn:Er; [|split; [exact Hl|split; [exact Hok|exact id]]]. destruct (tb_free t) as [|j free] eqn:Ef; cbn [fst snd].
    + split; [|split].
      * split; [by intros ?%elem_of_nil|]. exists v. cbn. by apply lookup_app_l_Some.
      * apply Forall_app. split; [done|]. constructor; [cbn; lia|constructor].
      * cbn [mentions]. rewrite Hdiv by lia. lia.
    + apply not_elem_of_cons in Hnf as [Hne Hnf]. split; [|split].
      * split; [done|]. exists v. cbn. unfold set_slot. by rewrite list_lookup_insert_ne.
      * apply Forall_insert; [done|]. cbn. destruct (tb_slots t !! j) as [s|] eqn:Ej; [|lia]. by apply (Forall_lookup_1 _ _ _ _ Hok Ej).
      * cbn [mentions]. rewrite Hdiv; [lia|]. destruct (tb_slots t !! j) as [s|] eqn:Ej; [|lia]. by apply (Forall_lookup_1 _ _ _ _ Hok Ej).
  - unfold named. destruct (tb_slots t !! N.to_nat (h / 256)) as [[u [[row ai]|]]|] eqn:Eh; [|split; [exact Hl|split; [exact Hok|exact id]]..]. destruct (_ =? _); [|split; [exact Hl|split; [exact Hok|exact id]]]. cbn [fst snd].
    assert (Hne : i <> N.to_nat (h / 256)) by (intros ->; congruence). split; [|split; [|exact id]].
    + split; [cbn; by apply not_elem_of_cons|]. exists v. cbn. unfold set_slot. by rewrite list_lookup_insert_ne.
    + apply Forall_insert; [done|]. cbn. apply N.mod_lt. lia.
  - split; [exact Hl|split; [exact Hok|exact id]].
  - unfold named. destruct (tb_slots t !! N.to_nat (h / 256)) as [[u [[row ai]|]]|] eqn:Eh; [|split; [exact Hl|split; [exact Hok|exact id]]..]. destruct (_ =? _); [|split; [exact Hl|split; [exact Hok|exact id]]]. cbn [fst snd].
    assert (Hne : i <> N.to_nat (h / 256)) by (intros ->; congruence). split; [|split; [|exact id]].
    + split; [done|]. exists v. cbn. unfold set_slot. by rewrite list_lookup_insert_ne.
    + apply Forall_insert; [done|]. cbn. destruct Hx as [_ Hx]. assert (Hu : (u, row, ai).1.1 < 256) by (by apply (Forall_lookup_1 _ _ _ _ Hok Eh)).
      clear -Hx Hu. revert Hu. generalize (u, row, ai). induction Hx as [|e l He Hl IH]; intros y Hy; [done|]. cbn [fold_left]. apply IH.
      destruct e; [exact He|exact Hy|exact Hy].
  - cbn [fst snd]. split; [done|]. split; [done|]. cbn [mentions]. intros (h&Hh&Eh). rewrite elem_of_list_In, in_concat in Hh. destruct Hh as (l&Hl'&Hin).
    rewrite <- !elem_of_list_In in *. apply elem_of_lookup_imap in Hl' as (j&s&->&Hj). destruct (sl_at s) eqn:Es; [|by apply elem_of_nil in Hin].
    apply elem_of_list_singleton in Hin as ->. rewrite Hdiv in Eh by (by apply (Forall_lookup_1 _ _ _ _ Hok Hj)).
    assert (j = i) as -> by lia. rewrite Hi in Hj. injection Hj as <-. done.
Qed.
Lemma lost_for_ever l : forall t i, slots_ok t -> Forall eop_ok l -> lost t i -> Forall (fun o => ~ mentions i o) (all_on_slots l t).1.
Proof.
  induction l as [|x l IH]; intros t i Hok Hl Hi; [constructor|]. apply Forall_cons in Hl as [Hx Hl]. cbn [all_on_slots fst].
  destruct (lost_step x t i Hok Hx Hi) as (H1&H2&H3). constructor; [done|]. by apply IH.
Qed.

Lemma all_on_slots_app l1 l2 : forall t, all_on_slots (l1 ++ l2) t = ((all_on_slots l1 t).1 ++ (all_on_slots l2 (all_on_slots l1 t).2).1, (all_on_slots l2 (all_on_slots l1 t).2).2).
Proof. induction l1 as [|x l1 IH]; intros t; cbn [all_on_slots app]; [apply surjective_pairing|]. rewrite IH. done. Qed.
Lemma all_on_slots_length l : forall t, length (all_on_slots l t).1 = length l.
Proof. induction l as [|x l IH]; intros t; [done|]. cbn. by rewrite IH. Qed.
Lemma esim_slots_ok be r t : esim be r t -> slots_ok t.
Proof.
  intros H. apply Forall_lookup_2. intros i s Hi. destruct (Forall2_lookup_r _ _ _ _ _ (es_slots _ _ _ H) Hi) as (e&_&Hok&->). cbn. by apply entry_version_lt.
Qed.
Lemma lost_slot be pre h l post v row os r :
  Forall eop_ok (pre ++ EEdit h l :: post) -> erun be (pre ++ EEdit h l :: post) er_default = Ret os r ->
  os !! length pre = Some (EoFields (Some (v, row, 65535))) -> Forall (fun o => ~ mentions (N.to_nat (h / 256)) o) (drop (S (length pre)) os).
Proof.
  intros Hl E Hos. destruct (erun_default be _ Hl) as (r0&E0). rewrite E in E0. injection E0 as -> _. clear E.
  apply Forall_app in Hl as [Hp Hq]. apply Forall_cons in Hq as [Hh Hq]. destruct (erun_ok be pre _ _ (esim_default be) Hp) as (r1&_&H1).
  rewrite all_on_slots_app in *. cbn [fst] in *. rewrite lookup_app_r in Hos by (by rewrite all_on_slots_length). rewrite all_on_slots_length, Nat.sub_diag in Hos.
  set (t := (all_on_slots pre (Table [] [])).2) in *.
  rewrite drop_app_ge by (rewrite all_on_slots_length; lia). rewrite all_on_slots_length, Nat.sub_succ_l, Nat.sub_diag by done. cbn [all_on_slots fst drop] in *.
  rewrite drop_0. injection Hos as Hos.
  destruct (estep_ok be _ _ _ H1 Hh) as (r2&_&H2). apply lost_for_ever; [by eapply esim_slots_ok|done|].
  cbn [on_slots] in *. pose proof (named_ok be r1 t h H1) as Hn. destruct (named t h) as [[i x]|]; [|done]. destruct Hn as (e&_&Ei&Hi&_&->&Hva&_).
  cbn [fst snd] in *. injection Hos as Hos. rewrite ent_index_val in Ei. rewrite <- Ei. split; cbn [tb_free tb_slots].
  - intros Hin. destruct (free_invalid _ _ _ _ _ (es_chain _ _ _ H1) Hin) as (e'&He'&Hv'). congruence.
  - exists v. rewrite Hos. unfold set_slot. rewrite list_lookup_insert; [done|]. rewrite <- (esim_length _ _ _ H1). by eapply lookup_lt_Some.
Qed.
