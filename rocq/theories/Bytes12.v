(** Proofs for C70: whole programs over the byte-level registry with an
    allocator that may refuse. *)
From Verif Require Import ByteReg SearchProofs MonadProofs DescrProofs ArchProofs ArchOps RegProofs RegOps Refine SpecObs SpecCrash SpecAlloc Alloc Alloc2 Alloc3 Bytes Bytes2 Bytes3 Bytes4 Bytes5 Bytes6 Bytes11 SpecBytes SpecFail SpecBase SpecWorld.
Local Open Scope nat_scope.

Section steps.
Context {Fm : family} (c : cfg) (U : list ctype) (HU : universe (big c) U) (Hla : laid_out U).
Notation be := (big c).
Implicit Types (T : list tab) (w : world) (L : list (N * hblk)).
Let Hst : strict (ids_of U) := proj1 HU.
Let Hsm : Forall small U := proj1 (proj2 HU).

Lemma heal_like r T w : reg_ok be U (heal r) T w -> reg_like c U r T w.
Proof. intros H. by exists (Env (ev_trace (r_env r)) []). Qed.
Lemma rpsim_map {X Y} {L} r R (f : RM X) g (k : X -> Y) : osim heal (fun r => ev_oracle (r_env r)) f ->
  @Bytes5.rsim U L _ r R f g -> rpsim (U := U) (L := L) r R f g -> rpsim (U := U) (L := L) r R (let! x := f in ret (k x)) (let! x := g in ret (k x)).
Proof. intros H1 H2 H3. apply rpsim_first; [done..|intros x; apply osim_ret|intros x; apply still_ret]. Qed.
Lemma rpsim_step {L} r R T w o : reg_like c U r T w -> contract be U w o -> rpsim (U := U) (L := L) r R (step c o) (bstep c o).
Proof using HU Hla.
  intros Hok Hc. destruct (may_ask o) eqn:Hm; [|apply rpsim_quiet; [apply Alloc.rsim_step|by apply step_still]].
  pose proof (like_tidy c U _ _ _ Hok) as Ht. destruct o; try done; cbn [step bstep].
  - destruct Hc as (HG&Hf&_). assert (Hl : length vs = length G) by (symmetry; by eapply Forall2_length).
    apply rpsim_map; [apply Alloc.rsim_create|by apply Bytes5.rsim_create|by apply rpsim_create].
  - destruct Hc as (HC&_). apply rpsim_map; [apply Alloc.rsim_add|by apply Bytes5.rsim_add|by apply rpsim_add].
  - destruct Hc as (HC&_). apply rpsim_map; [apply Alloc.rsim_remove|by apply Bytes5.rsim_remove|by apply rpsim_remove].
Qed.

(** ** Programs *)
Lemma call_ok r T w o out r' : reg_ok be U (heal r) T w -> contract be U w o -> step c o r = Ret out r' ->
  exists T', reg_ok be U (heal r') T' (ledger be U w o out).
Proof using HU.
  intros Hok Hc Hs. destruct (step_total c U HU _ _ _ _ Hok Hc) as (out'&r1&E&_&T'&D'&Hok'&_).
  pose proof (Alloc.rsim_step c o r) as Hsim. rewrite Hs in Hsim. destruct Hsim as [Hsim _]. rewrite E in Hsim.
  assert (r1 = heal r') as -> by congruence. assert (out' = out) as -> by congruence. by exists T'.
Qed.
Lemma luckless_sim i ops : forall L r R T w, reg_ok be U (heal r) T w -> @Bytes5.brel U L r R -> luckless i c U ops r w ->
  exists l r' R' L', attempt c ops r = (l, Some r') /\ battempt c ops R = (l, Some R') /\ @Bytes5.brel U L' r' R' /\
    (i = true -> exists T', reg_ok be U (heal r') T' (survivors c U ops r w)).
Proof using HU Hla.
  induction ops as [|o ops IH]; intros L r R T w Hok Hb Hl; cbn [attempt battempt luckless survivors] in *.
  - exists [], r, R, L. split_and!; try done. intros _. by exists T.
  - destruct Hl as [Hc Hl]. destruct (step c o r) as [out r1|r1|] eqn:E.
    + destruct (step_sim_like c U HU Hla _ _ _ _ _ (heal_like _ _ _ Hok) Hc Hb _ _ E) as (R1&Eb&Hb1).
      destruct (call_ok _ _ _ _ _ _ Hok Hc E) as (T1&Hok1). destruct (IH _ _ _ _ _ Hok1 Hb1 Hl) as (l&r'&R'&L'&E1&E2&H'&HT').
      exists (Some out :: l), r', R', L'. by rewrite Eb, E1, E2.
    + destruct (step_total c U HU _ _ _ _ Hok Hc) as (out'&u&Eh&_).
      destruct (rpsim_step _ _ _ _ _ (heal_like _ _ _ Hok) Hc Hb _ _ _ Eh E) as (R1&lk&Eb&Hb1). rewrite Eb. destruct Hl as [[Hu Hl]|[-> ->]].
      * assert (Hok1 : reg_ok be U (heal r1) T w) by (eapply (heal_ok c U); [exact Hok|apply Hu|apply Hu]).
        destruct (IH _ _ _ _ _ Hok1 Hb1 Hl) as (l&r'&R'&L'&E1&E2&H'&HT'). exists (None :: l), r', R', L'. by rewrite E1, E2.
      * exists [None], r1, R1, (lk ++ L). split_and!; try done.
    + exfalso. destruct (step_total c U HU _ _ _ _ Hok Hc) as (out'&u&Eh&_). pose proof (Alloc.rsim_step c o r) as Hsim. rewrite E in Hsim. congruence.
Qed.
Lemma asking_start place oracle : @Bytes5.brel U [] (reg_asking oracle) (breg_asking place oracle).
Proof.
  split; try done; [|by intros id b ?%elem_of_nil]. cbn. split; [constructor| |].
  - intros id. rewrite lookup_empty. split; [by intros []|by intros ?%elem_of_nil].
  - by intros id ?%elem_of_nil.
Qed.
Lemma luckless_run i place oracle ops : luckless i c U ops (reg_asking oracle) ∅ ->
  exists l r R L, attempt c ops (reg_asking oracle) = (l, Some r) /\ battempt c ops (breg_asking place oracle) = (l, Some R) /\ @Bytes5.brel U L r R /\
    (i = true -> exists T', reg_ok be U (heal r) T' (survivors c U ops (reg_asking oracle) ∅)).
Proof using HU Hla. intros Hl. eapply luckless_sim; [apply (default_ok c U)|apply asking_start|exact Hl]. Qed.

(** ** Dropping the registry *)
Lemma drop_archs_flag n : forall k r x r', drop_archs k n true r <> Ret x r'.
Proof. induction n as [|n IH]; intros k r x r'; cbn [drop_archs]; [done|]. destruct (with_arch k a_drop r); [apply IH|apply IH|done]. Qed.
Lemma b_drop_archs_sim {L} n : forall k r R r', @Bytes5.brel U L r R -> drop_archs k n false r = Ret tt r' ->
  exists R', b_drop_archs k n false R = Ret tt R' /\ @Bytes5.brel U L r' R'.
Proof using HU Hla.
  induction n as [|n IH]; intros k r R r' Hb E; cbn [drop_archs b_drop_archs] in *; [injection E as <-; by exists R|].
  destruct (with_arch k a_drop r) as [x r1|r1|] eqn:Ew; [|by apply drop_archs_flag in E|done].
  assert (Hs : @Bytes5.rsim U L _ r R (with_arch k a_drop) (b_with_arch k b_drop)) by (apply rsim_with; intros _ a A _ _; by apply sim_drop).
  destruct (Hs Hb _ _ Ew) as (R1&Eb&Hb1). rewrite Eb. by eapply IH.
Qed.
Lemma b_drop_sim {L} r R r' : @Bytes5.brel U L r R -> drop_registry r = Ret tt r' ->
  exists R', b_drop_registry R = Ret tt R' /\ @Bytes5.brel U L r' R'.
Proof using HU Hla.
  intros Hb E. unfold drop_registry in E. rewrite rm_get_step in E. unfold b_drop_registry, bind, bq_get, get_st. rewrite (bl_len _ _ Hb). by eapply b_drop_archs_sim.
Qed.
Lemma calm_drop r T w : reg_ok be U (heal r) T w -> all_calm w -> exists r', drop_registry r = Ret tt r'.
Proof using HU.
  intros Hok Hcalm. pose proof (drop_sim r) as H. destruct (drop_ok c U _ _ _ Hok Hcalm) as (r'&E&_).
  destruct (drop_registry r) as [[] r1|r1|]; [by exists r1|congruence|congruence].
Qed.
End steps.
(** Such programs are histories of C46. *)
Lemma luckless_unlucky {Fm : family} c U ops : forall r w I O l r', luckless true c U ops r w -> unlucky c U r w I O -> attempt c ops r = (l, Some r') ->
  exists I' O', unlucky c U r' (survivors c U ops r w) I' O'.
Proof.
  induction ops as [|o ops IH]; intros r w I O l r' Hl Hu E; cbn [luckless attempt survivors] in *; [injection E as <- <-; by exists I, O|].
  destruct Hl as [Hc Hl]. destruct (step c o r) as [out r1|r1|] eqn:Es; [| |done];
    destruct (attempt c ops r1) as [l1 e1] eqn:E1; injection E as <- ->.
  - eapply IH; [exact Hl| |exact E1]. by eapply u_call.
  - destruct Hl as [[Hun Hl]|[? _]]; [|done]. eapply IH; [exact Hl| |exact E1]. by eapply u_caught.
Qed.
