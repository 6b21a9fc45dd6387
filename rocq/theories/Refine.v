(** The registry refines the world map: every history within the contract is
    represented, and every next call within the contract succeeds. *)
From Verif Require Import RegModel SpecTrace SpecEntity EntityProofs EntityTable SearchProofs DescrProofs MonadProofs ArchProofs ArchOps ArchOps2 ArchOps3 AregProofs IterProofs RegProofs RegOps RegOps2 RegOps3 RegIter RegMut RegExact SpecBase SpecWorld.
Local Open Scope nat_scope.

Section refine.
  Context {Fm : family} (c : cfg) (U : list ctype) (HU : universe (big c) U).
  Notation be := (big c).
  Implicit Types (T : list tab) (w : world).

  Lemma step_total r T w o : reg_ok be U r T w -> contract be U w o -> step_ok c U r T w o.
  Proof.
    intros H Hc. destruct o.
    - by apply create_ok.
    - by apply destroy_ok.
    - by apply remove_entity_ok.
    - by apply has_ok.
    - by apply has_all_ok.
    - by apply get_ok.
    - by apply get_all_ok.
    - by apply set_ok.
    - by apply set_all_ok.
    - by apply add_ok.
    - by apply remove_ok.
    - by apply iter_entities_ok.
    - by apply iter_ok.
    - by apply iter_e_ok.
    - by apply iter_f_ok.
    - by apply iter_ef_ok.
    - by apply iter_mut_ok.
    - by apply iter_emut_ok.
    - by apply iter_fmut_ok.
    - by apply iter_efmut_ok.
    - by apply exact_ok.
    - by apply exact_e_ok.
    - by apply exact_mut_ok.
    - by apply exact_emut_ok.
  Qed.
  Lemma default_ok : reg_ok be U reg_default [] ∅.
  Proof.
    split; [apply areg_inv_default|constructor|eexists; apply er_inv_default| | |done].
    - intros h i j. split; [|by intros (t&m&?&_)]. intros E. exfalso. unfold loc_of in E.
      destruct (er_entity_entry be (r_er reg_default) h) as [e|] eqn:Ee; [|done].
      apply entity_entry_spec in Ee as (Hl&_); [|cbn; lia]. done.
    - intros h e. split; [by rewrite lookup_empty|]. by intros (i&t&m&?&_).
  Qed.
  Lemma history_ok r w I O : history c U r w I O -> exists T D, reg_ok be U r T w /\
    emits env_init (r_env r) D [] (live_allocs (ar_archs (r_ar r)) T) /\ I ≡ₚ O ++ D ++ world_values w.
  Proof.
    induction 1 as [|r w I O o out r' Hh IH Hc Hs].
    - exists [], []. split; [apply default_ok|]. split; [by apply emits_refl|done].
    - destruct IH as (T&D&Hok&Hem&Hp). destruct (step_total _ _ _ _ Hok Hc) as (out'&r1&E&_&T'&D'&Hok'&Hev&Hp'&_).
      rewrite Hs in E. injection E as <- <-. exists T', (D ++ D'). split; [done|]. split; [by eapply emits_trans|].
      rewrite Hp. transitivity ((O ++ D) ++ (ins o out ++ world_values w)); [rewrite (Permutation_app_comm (ins o out)); by rewrite <- !app_assoc|].
      rewrite Hp'. rewrite <- !app_assoc. apply Permutation_app_head. rewrite !app_assoc. do 2 apply Permutation_app_tail. apply Permutation_app_comm.
  Qed.

  (** ** Dropping the registry *)
  Lemma rows_values_cols a t : tab_ok be U a t ->
    concat (map (fun x : row => row_values (t_cs t) x.2) (t_rows t)) ≡ₚ rows_values (t_rows t).
  Proof.
    intros Ht. destruct (tab_facts be U _ _ Ht) as (_&_&Hnd&_). destruct Ht as (_&Hok&_).
    pose proof (proj1 (proj2 (proj2 (proj2 Hok)))) as Hf. unfold rows_values. clear Hok. revert Hf. generalize (t_rows t). intros rs Hf. induction Hf as [|x rows Hx Hf IH]; [done|].
    cbn [map concat]. by rewrite (row_values_perm _ _ Hnd (proj1 Hx)), IH.
  Qed.
  Lemma drop_archs_ok n k s T :
    ev_oracle (r_env s) = [] -> n = length (ar_archs (r_ar s)) - k ->
    Forall2 (tab_ok be U) (drop k (ar_archs (r_ar s))) T ->
    Forall (fun t => Forall (fun x : row => calm x.2) (t_rows t)) T ->
    exists s', drop_archs k n false s = Ret tt s' /\
      emits (r_env s) (r_env s') (tabs_values T) (live_allocs (drop k (ar_archs (r_ar s))) T) [].
  Proof.
    revert k s T. induction n as [|n IH]; intros k s T Ho Hn HT Hcalm; cbn [drop_archs].
    - rewrite drop_ge in * by lia. inversion HT; subst. exists s. split; [done|]. by apply emits_refl.
    - destruct (lookup_lt_is_Some_2 (ar_archs (r_ar s)) k) as [a Ha]; [lia|].
      rewrite (drop_S _ _ _ Ha) in *. inversion HT as [|? t ? T' Ht HT' E1 E2]; subst. apply Forall_cons in Hcalm as [Hct Hcalm].
      destruct (tab_facts be U _ _ Ht) as (Hd&_).
      destruct (a_drop_ok _ _ Hd a (t_rows t) (r_env s) eq_refl (proj1 (proj2 Ht)) Hct Ho) as (a'&e'&E&Hem).
      rewrite (with_arch_Ret _ _ _ _ _ _ _ Ha E).
      destruct (IH (S k) (put_arch s k a' e') T') as (s'&Es&Hem').
      + cbn. by eapply emits_oracle.
      + cbn. rewrite insert_length. lia.
      + cbn. rewrite drop_insert_gt by lia. done.
      + done.
      + exists s'. split; [done|]. unfold tabs_values. cbn [map concat]. cbn in Hem'. rewrite drop_insert_gt in Hem' by lia.
        eapply emits_perm; [eapply emits_trans; [apply (emits_frame_r _ _ _ _ _ (live_allocs (drop (S k) (ar_archs (r_ar s))) T') Hem)|exact Hem']| |done|done].
        by rewrite (rows_values_cols _ _ Ht).
  Qed.
  Lemma all_calm_rows r T w : reg_ok be U r T w -> all_calm w -> Forall (fun t => Forall (fun x : row => calm x.2) (t_rows t)) T.
  Proof.
    intros H Hc. apply Forall_lookup. intros i t Ht. apply Forall_lookup. intros j [h m] Hj. cbn [snd].
    apply (Hc h (Ent (t_id t) m)). apply (ro_repr _ _ _ _ _ H). exists i, t, m. split; [done|]. split; [by eapply elem_of_list_lookup_2|done].
  Qed.
  Lemma drop_ok r T w : reg_ok be U r T w -> all_calm w ->
    exists r', drop_registry r = Ret tt r' /\
      emits (r_env r) (r_env r') (world_values w) (live_allocs (ar_archs (r_ar r)) T) [].
  Proof.
    intros H Hcalm. unfold drop_registry. rewrite rm_get_step.
    destruct (drop_archs_ok (length (ar_archs (r_ar r))) 0 r T) as (r'&E&Hem); [apply H|lia|apply H|by eapply all_calm_rows|].
    exists r'. split; [done|]. eapply emits_perm; [exact Hem| |done|done]. symmetry. by eapply world_values_tabs.
  Qed.

  (** ** Histories *)
  Lemma history_step r w I O o : history c U r w I O -> contract be U w o ->
    exists out r', step c o r = Ret out r' /\ allowed be U (table_full r) (archetypes_full r) w o out /\
      history c U r' (ledger be U w o out) (I ++ ins o out) (O ++ outs o out).
  Proof.
    intros Hh Hc. destruct (history_ok _ _ _ _ Hh) as (T&D&Hok&_). destruct (step_total _ _ _ _ Hok Hc) as (out&r'&E&Ha&_).
    exists out, r'. split; [done|]. split; [done|]. by eapply h_call.
  Qed.
  Lemma history_owned r w I O : history c U r w I O -> I ≡ₚ O ++ drops_of (ev_trace (r_env r)) ++ world_values w.
  Proof.
    intros Hh. destruct (history_ok _ _ _ _ Hh) as (T&D&_&(evs&_&_&Et&HD&_)&Hp). rewrite Et. cbn [ev_trace env_init app].
    by rewrite HD.
  Qed.
  Lemma history_drop r w I O : history c U r w I O -> all_calm w ->
    exists r', drop_registry r = Ret tt r' /\ I ≡ₚ O ++ drops_of (ev_trace (r_env r')) /\
      allocs_of (ev_trace (r_env r')) ≡ₚ frees_of (ev_trace (r_env r')).
  Proof.
    intros Hh Hcalm. destruct (history_ok _ _ _ _ Hh) as (T&D&Hok&Hem&Hp). destruct (drop_ok _ _ _ Hok Hcalm) as (r'&E&Hem').
    exists r'. split; [done|]. destruct (emits_trans _ _ _ _ _ _ _ _ Hem Hem') as (evs&_&_&Et&HD&HB).
    rewrite Et. cbn [ev_trace env_init app] in *. rewrite app_nil_r in HB. by rewrite HD.
  Qed.
End refine.
