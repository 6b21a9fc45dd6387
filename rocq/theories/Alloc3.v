(** Proofs for C46, concluded: histories in which allocations fail. *)
From Verif Require Import RegModel SpecTrace SpecEntity EntityProofs SearchProofs MonadProofs DescrProofs EntityTable ArchProofs ArchOps ArchOps2 ArchOps3 AregProofs RegProofs RegOps RegOps2 RegOps3 Refine Observe Crash Alloc Torn Alloc2 SpecObs SpecBase SpecWorld SpecCrash SpecAlloc.
Local Open Scope nat_scope.

(** ** Calls that ask for no memory *)
Lemma astill_emit ev : astill (am_env (emit ev)).
Proof. by intros [a e]. Qed.
#[export] Hint Resolve astill_emit : still.
Lemma still_mmap {S A B} (orc : S -> list bool) (f : A -> M S B) l : (forall x, still orc (f x)) -> still orc (mmap f l).
Proof. intros Hf. induction l as [|x l IH]; cbn [mmap]; st; try apply Hf; try exact IH. Qed.
Lemma astill_drop_entity row : astill (drop_entity row).
Proof. unfold drop_entity, run_drop_handler, drop_cell. st. Qed.
Lemma astill_swap f s : astill (swap_entities f s).
Proof. unfold swap_entities, swap_cells. st. Qed.
#[export] Hint Resolve astill_drop_entity astill_swap : still.
Lemma rstill_destroy c h : rstill (destroy_entity c h).
Proof. unfold destroy_entity, swap_drop_unchecked. st. Qed.
Lemma rstill_remove_entity c G h : rstill (remove_entity c G h).
Proof. unfold remove_entity, swap_remove_unchecked. st. Qed.
Lemma rstill_replace l v : rstill (replace_loc l v).
Proof. unfold replace_loc. st. Qed.
#[export] Hint Resolve rstill_replace : still.
Lemma rstill_replaces ls vs : rstill (replace_locs ls vs).
Proof. revert vs. induction ls as [|l ls IH]; intros [|v vs]; cbn [replace_locs]; st; try apply IH. Qed.
Lemma rstill_item upd x : rstill (modify_item upd x).
Proof. unfold modify_item. apply still_mmap. intros [i col]. apply still_mmap. intros l. unfold modify_loc. st. Qed.
#[export] Hint Resolve rstill_destroy rstill_remove_entity rstill_replaces rstill_item : still.
Definition may_ask (o : op) : bool := match o with OpCreate _ _ | OpAdd _ _ _ | OpRemove _ _ => true | _ => false end.
Lemma step_still c o : may_ask o = false -> rstill (step c o).
Proof.
  destruct o; cbn [step may_ask]; intros Hm; try done; unfold modify_items, modify_eitems; st;
    apply still_mmap; first [intros [es cols]|intros ?]; st.
Qed.

Lemma astill_dealloc_columns ds : astill (dealloc_columns ds).
Proof.
  induction ds as [|[i d] ds IH]; cbn [dealloc_columns]; st; try exact IH.
  intros [a e]. unfold am_env, mem_dealloc, emit, mub; cbn. by destruct (_ && _).
Qed.
#[export] Hint Resolve astill_dealloc_columns : still.
Lemma astill_dealloc : astill a_dealloc.
Proof.
  unfold a_dealloc. st. intros [a e]. unfold am_env, mem_dealloc, emit, mub; cbn. destruct (a_assoc _); [|done]. by destruct (_ && _).
Qed.
#[export] Hint Resolve astill_dealloc : still.
Lemma astill_a_drop : astill a_drop.
Proof. unfold a_drop, drop_entities, run_drop_handler, drop_cell. st. Qed.
Lemma asim_a_drop : asim a_drop.
Proof. unfold a_drop, drop_entities. os. Qed.
Lemma with_a_drop k s :
  match with_arch k a_drop s with
  | Ret x t => with_arch k a_drop (heal s) = Ret x (heal t)
  | Panic t => with_arch k a_drop (heal s) = Panic (heal t)
  | UB => with_arch k a_drop (heal s) = UB
  end.
Proof.
  pose proof (rsim_arch k _ asim_a_drop s) as H. pose proof (rstill_arch k _ astill_a_drop s) as H'.
  destruct (with_arch k a_drop s) as [x t|t|]; [apply H| |done].
  destruct H as [[H _]|H]; [done|]. rewrite H' in H. by apply refused_irrefl in H.
Qed.
Lemma drop_archs_sim n k b s :
  match drop_archs k n b s with
  | Ret x t => drop_archs k n b (heal s) = Ret x (heal t)
  | Panic t => drop_archs k n b (heal s) = Panic (heal t)
  | UB => drop_archs k n b (heal s) = UB
  end.
Proof.
  revert k b s. induction n as [|n IH]; intros k b s; cbn [drop_archs]; [by destruct b|].
  pose proof (with_a_drop k s) as H. destruct (with_arch k a_drop s) as [x t|t|]; rewrite H; [apply IH|apply IH|done].
Qed.
Lemma drop_sim r :
  match drop_registry r with
  | Ret x t => drop_registry (heal r) = Ret x (heal t)
  | Panic t => drop_registry (heal r) = Panic (heal t)
  | UB => drop_registry (heal r) = UB
  end.
Proof. unfold drop_registry. rewrite !rm_get_step. apply drop_archs_sim. Qed.

Lemma bind_panic_inv {S A B} (m : M S A) (f : A -> B) s t : (let! x := m in ret (f x)) s = Panic t -> m s = Panic t.
Proof. unfold bind. destruct (m s) as [x u| |]; [done| |done]. by intros [= <-]. Qed.
Lemma perm_calls {A} (O D W i o D' W' : list A) : i ++ W ≡ₚ o ++ D' ++ W' -> (O ++ D ++ W) ++ i ≡ₚ (O ++ o) ++ (D ++ D') ++ W'.
Proof.
  intros H. transitivity ((O ++ D) ++ i ++ W); [rewrite <- !app_assoc; do 2 apply Permutation_app_head; apply Permutation_app_comm|].
  rewrite H, <- !app_assoc. apply Permutation_app_head. rewrite !app_assoc. do 2 apply Permutation_app_tail. apply Permutation_app_comm.
Qed.
Lemma perm_blocks {A} (F L leak a f L' : list A) : L ++ a ≡ₚ f ++ L' -> (F ++ L ++ leak) ++ a ≡ₚ (F ++ f) ++ L' ++ leak.
Proof.
  intros H. transitivity (F ++ (L ++ a) ++ leak); [rewrite <- !app_assoc; do 2 apply Permutation_app_head; apply Permutation_app_comm|].
  by rewrite H, <- !app_assoc.
Qed.
Section unlucky.
  Context {Fm : family} (c : cfg) (U : list ctype) (HU : universe (big c) U).
  Notation be := (big c).
  Lemma heal_ok r r' T w : reg_ok be U (heal r) T w -> r_er r' = r_er r -> r_ar r' = r_ar r -> reg_ok be U (heal r') T w.
  Proof. destruct r, r'. cbn. intros [] -> ->. by split. Qed.

  (** ** One call *)
  Lemma step_refused r T w o r' : reg_ok be U (heal r) T w -> contract be U w o -> step c o r = Panic r' ->
    refused (ev_oracle (r_env r)) (ev_oracle (r_env r')) /\ only_drops r r' (given o) /\
    (untouched r r' \/ broken c U w r r' o /\ (all_calm w -> drop_registry r' = UB /\ ruin r')).
  Proof.
    intros H Hc E. destruct (may_ask o) eqn:Hm.
    - destruct o; try done; cbn [step] in E; apply bind_panic_inv in E.
      + by eapply create_refused.
      + by eapply add_refused.
      + by eapply remove_refused.
    - destruct (step_total c U HU _ _ _ _ H Hc) as (out&r1&Eh&_).
      exfalso. eapply (no_panic heal (fun r => ev_oracle (r_env r))); [apply rsim_step|by apply step_still|exact Eh|exact E].
  Qed.

  (** ** Histories *)
  Lemma requests_drops r r' vs : only_drops r r' vs -> drops_of (ev_trace (r_env r')) = drops_of (ev_trace (r_env r)) ++ vs.
  Proof.
    intros (evs&->&Ha). unfold drops_of. rewrite !omap_app. f_equal. etransitivity; [|apply app_nil_l]. f_equal.
    - induction Ha as [|[] l Hx Hl IH]; done.
    - induction vs as [|v vs IH]; [done|]. cbn. by f_equal.
  Qed.
  Lemma allocs_more r r' vs : only_drops r r' vs -> exists L, allocs_of (ev_trace (r_env r')) = allocs_of (ev_trace (r_env r)) ++ L.
  Proof. intros (evs&->&_). unfold allocs_of. rewrite omap_app. by eexists. Qed.
  Lemma unlucky_ok r w I O : unlucky c U r w I O -> exists T leaked, reg_ok be U (heal r) T w /\
    I ≡ₚ O ++ drops_of (ev_trace (r_env r)) ++ world_values w /\
    allocs_of (ev_trace (r_env r)) ≡ₚ frees_of (ev_trace (r_env r)) ++ live_allocs (ar_archs (r_ar r)) T ++ leaked.
  Proof.
    induction 1 as [oracle|r w I O o out r' Hh IH Hc Hs|r w I O o r' Hh IH Hc Hs Hu].
    - exists [], []. split; [apply (default_ok c U)|done].
    - destruct IH as (T&L&Hok&Hp&HL). destruct (step_total c U HU _ _ _ _ Hok Hc) as (out'&r1&E&_&T'&D'&Hok'&(evs&_&_&Et&HD&HB)&Hp'&_).
      pose proof (rsim_step c o r) as Hsim. rewrite Hs in Hsim. destruct Hsim as [Hsim _]. rewrite E in Hsim.
      assert (r1 = heal r') as -> by congruence. assert (out' = out) as -> by congruence.
      exists T', L. split; [done|]. cbn in Et. rewrite Et. unfold drops_of, allocs_of, frees_of in *. rewrite !omap_app. split.
      + rewrite HD, Hp. by apply perm_calls.
      + rewrite HL. by apply perm_blocks.
    - destruct IH as (T&L&Hok&Hp&HL). destruct (step_refused _ _ _ _ _ Hok Hc Hs) as (_&Hd&_). destruct Hu as (He&Ha&Hf).
      destruct (allocs_more _ _ _ Hd) as [L' HL']. exists T, (L ++ L'). split; [by eapply heal_ok|].
      rewrite (requests_drops _ _ _ Hd), HL', Hf, Ha, HL, Hp. split.
      + rewrite <- !app_assoc. do 2 apply Permutation_app_head. apply Permutation_app_comm.
      + by rewrite <- !app_assoc.
  Qed.

  (** Every call on every reachable registry, whatever the allocator answers. *)
  Lemma unlucky_step r w I O o : unlucky c U r w I O -> contract be U w o ->
    match step c o r with
    | Ret out r' => allowed be U (table_full r) (archetypes_full r) w o out
    | Panic r' => refused (ev_oracle (r_env r)) (ev_oracle (r_env r')) /\ only_drops r r' (given o) /\
        (untouched r r' \/ broken c U w r r' o /\ (all_calm w -> drop_registry r' = UB))
    | UB => False
    end.
  Proof.
    intros Hh Hc. destruct (unlucky_ok _ _ _ _ Hh) as (T&L&Hok&_). destruct (step_total c U HU _ _ _ _ Hok Hc) as (out'&r1&E&Ha&_).
    pose proof (rsim_step c o r) as Hs. destruct (step c o r) as [out t|t|] eqn:Es.
    - destruct Hs as [Hs _]. rewrite E in Hs. assert (out' = out) as -> by congruence. exact Ha.
    - destruct (step_refused _ _ _ _ _ Hok Hc Es) as (H1&H2&[H3|[H3 H4]]); (split; [done|]; split; [done|]); [by left|]. right. split; [done|]. intros Hx. apply (H4 Hx).
    - congruence.
  Qed.
  Lemma unlucky_owned r w I O : unlucky c U r w I O -> I ≡ₚ O ++ drops_of (ev_trace (r_env r)) ++ world_values w.
  Proof. intros Hh. by destruct (unlucky_ok _ _ _ _ Hh) as (T&L&_&Hp&_). Qed.
  Lemma unlucky_drop r w I O : unlucky c U r w I O -> all_calm w ->
    exists r', drop_registry r = Ret tt r' /\ I ≡ₚ O ++ drops_of (ev_trace (r_env r')) /\
      frees_of (ev_trace (r_env r')) ⊆+ allocs_of (ev_trace (r_env r')).
  Proof.
    intros Hh Hcalm. destruct (unlucky_ok _ _ _ _ Hh) as (T&L&Hok&Hp&HL). destruct (drop_ok c U _ _ _ Hok Hcalm) as (r1&E&(evs&_&_&Et&HD&HB)).
    pose proof (drop_sim r) as Hs. destruct (drop_registry r) as [[] t|t|]; [|congruence..]. exists t. split; [done|].
    rewrite E in Hs. assert (r1 = heal t) as -> by congruence. cbn in Et. rewrite Et. unfold drops_of, allocs_of, frees_of in *. rewrite !omap_app.
    rewrite HD. split; [done|]. rewrite HL. rewrite (perm_blocks _ _ L _ _ [] HB). rewrite app_nil_l. by apply submseteq_inserts_r.
  Qed.
  (** What the handles show does not depend on the allocator. *)
  Lemma unlucky_views r w I O h C : unlucky c U r w I O -> C ∈ U ->
    (alive c r h <-> is_Some (w !! h)) /\ get_component c C h r = Rd (value_of w h C).
  Proof.
    intros Hh HC. destruct (unlucky_ok _ _ _ _ Hh) as (T&L&Hok&_). split.
    - exact (obs_alive c U _ _ _ h Hok).
    - by apply (obs_shows c U HU _ _ _ h C _ Hok HC).
  Qed.
  Lemma unlucky_facts r w I O : unlucky c U r w I O ->
    (forall h, alive c r h <-> is_Some (w !! h)) /\
    (forall h C, C ∈ U -> get_component c C h r = Rd (value_of w h C)) /\
    I ≡ₚ O ++ drops_of (ev_trace (r_env r)) ++ world_values w /\
    (all_calm w -> exists r', drop_registry r = Ret tt r' /\ I ≡ₚ O ++ drops_of (ev_trace (r_env r')) /\
      frees_of (ev_trace (r_env r')) ⊆+ allocs_of (ev_trace (r_env r'))).
  Proof.
    intros Hh. destruct (unlucky_ok _ _ _ _ Hh) as (T&L&Hok&_). split; [|split; [|split]].
    - intros h. exact (obs_alive c U _ _ _ h Hok).
    - intros h C HC. by apply (unlucky_views _ _ _ _ h C Hh HC).
    - by apply unlucky_owned.
    - by apply unlucky_drop.
  Qed.
End unlucky.
Lemma run_heal c ops oracle outs r :
  run c ops (Reg er_default areg_default (Env [] oracle)) = Ret outs r -> run c ops reg_default = Ret outs (heal r).
Proof. intros E. pose proof (rsim_run c ops (Reg er_default areg_default (Env [] oracle))) as H. rewrite E in H. apply H. Qed.
