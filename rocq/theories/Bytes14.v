(** Proofs for C70: a registry that a refused request has broken cannot be
    dropped, over the byte-level storage. *)
From Verif Require Import ByteReg SearchProofs MonadProofs DescrProofs ArchProofs ArchOps RegProofs RegOps Refine SpecObs SpecCrash SpecAlloc Alloc Torn Alloc2 Alloc3 Bytes Bytes2 Bytes3 Bytes4 Bytes5 Bytes12 SpecBytes SpecFail SpecBase SpecWorld.
Local Open Scope nat_scope.

Lemma mfor_split {St A} (f : A -> M St unit) l1 l2 s : mfor (l1 ++ l2) f s = (mfor l1 f ;;! mfor l2 f) s.
Proof.
  revert s. induction l1 as [|x l1 IH]; intros s; cbn [app mfor]; [done|]. unfold bind. destruct (f x s) as [[] t| |]; [|done|done].
  rewrite IH. done.
Qed.
Section ruin.
Context {U : list ctype} (Hst : strict (ids_of U)) (Hsm : Forall small U) (Hla : laid_out U).
Notation ast := (@Bytes.ast U).
Lemma b_dealloc_dies ds : forall A m, b_assoc A = None -> NoDup ds.*1 -> (forall i, i ∈ ds.*1 -> exists p, b_ptrs A !! i = Some (Some p)) ->
  match b_dealloc_columns ds (A, m) with UB => True | Panic _ => False | Ret b s => b = true /\ b_assoc s.1 = None end.
Proof.
  induction ds as [|[i d] ds IH]; intros A m Ha Hnd Hp; [done|]. cbn [b_dealloc_columns]. unfold bind at 1, bm_get at 1. cbn [fst].
  destruct (Hp i) as [p Hpi]; [by left|]. rewrite Hpi. cbn [fmap list_fmap] in Hnd. apply NoDup_cons in Hnd as [Hni Hnd]. unfold bind at 1, bm_mem.
  cbn [fst snd]. destruct (mm_dealloc _ _ _ m) as [[] m'|m'|] eqn:Em; [| |done].
  - unfold bind at 1, bm_upd. cbn [fst snd]. apply IH; [done|done|]. intros j Hj. destruct (Hp j) as [q Hq]; [by right|]. exists q. cbn.
    rewrite list_lookup_insert_ne; [done|]. by intros ->.
  - unfold mm_dealloc, bind, get_st in Em. destruct (has_layout _ _ _ _) as [[id bs]|]; done.
Qed.
Lemma ruined_b_drop F a e A m : ruined a -> ast F (a, e) (A, m) -> b_drop (A, m) = UB.
Proof using Hsm Hla.
  intros [Hcap Hr] Ha. unfold b_drop. unfold bind at 1, bm_get at 1. cbn [fst]. assert (Ec : b_cap A = a_cap a) by exact (ar_cap _ _ _ (as_rel _ _ _ Ha)). rewrite Ec.
  rewrite (proj2 (Nat.eqb_neq (a_cap a) 0)) by done.
  assert (Ecomps : b_comps A = a_comps a) by exact (ar_comps _ _ _ (as_rel _ _ _ Ha)).
  assert (Ecount : b_count A = a_len a) by exact (ar_count _ _ _ (as_rel _ _ _ Ha)).
  set (f := fun '(i, d) => run_drop_handler d i 0 (a_len a) : AM unit).
  set (g := (fun '(i, d) => let! p := bm_rd (fun a m => column_at a m i 0) in b_run_drop_handler d p (a_len a)) : nat * cdesc -> BAM unit).
  assert (Eg : b_drop_entities (A, m) = mfor (enum (a_comps a)) g (A, m)).
  { unfold b_drop_entities. unfold bind at 1, bm_get at 1. cbn [fst]. by rewrite Ecomps, Ecount. }
  assert (Hsim : forall l e', (forall y, y ∈ l -> y ∈ enum (a_comps a)) -> mfor l f (a, e) = Ret tt (a, e') ->
    exists S', mfor l g (A, m) = Ret tt S' /\ ast F (a, e') S').
  { intros l e' Hl E. assert (Hs : @Bytes.sim U _ F (a, e) (A, m) (mfor l f) (mfor l g)).
    { apply (sim_mfor (fun a0 => a_desc a0 = a_desc a)); [done| |].
      - intros x t T Hx%Hl HI _. apply elem_of_list_lookup in Hx as (i&Hi). apply enum_lookup_inv in Hi as (d&->&Hi).
        intros Hat [] t' E'. destruct (sim_drop_handler Hsm Hla _ _ T _ _ _ _ T.2 ltac:(unfold a_comps; rewrite HI; exact Hi) Hat _ E') as (p&T'&Hp&Hr'&Ha'&Hk'); [done|done|].
        exists T'. split; [|done]. unfold g, bind, bm_rd. cbn [Nat.mul] in Hp. by rewrite Hp.
      - intros [i d] t t' _ HI E'. by rewrite (run_drop_desc _ _ _ _ _ _ E'). }
    destruct (Hs Ha _ _ E) as (S'&E'&Ha'&_). eauto. }
  unfold bind. rewrite Eg. cbv zeta in Hr. fold f in Hr. destruct Hr as [(k&d&Hd&Hp&He)|(He&Hassoc&Hcols)].
  - assert (mfor (enum (a_comps a)) g (A, m) = UB) as ->; [|done].
    assert (Hk : enum (a_comps a) !! k = Some (k, d)) by (by apply enum_lookup).
    rewrite <- (take_drop_middle _ _ _ Hk), mfor_split. destruct (He e) as [e' E].
    destruct (Hsim _ e' ltac:(intros y Hy; apply elem_of_take in Hy as (?&?&_); by eapply elem_of_list_lookup_2) E) as ([A' m']&E'&Ha').
    unfold bind. rewrite E'. cbn [mfor]. unfold bind, g, bm_rd, column_at. cbn [fst snd].
    pose proof (ar_len _ _ _ (as_rel _ _ _ Ha')) as Hlen. cbn [fst] in Hlen.
    destruct (lookup_lt_is_Some_2 (b_ptrs A') k) as [q Hq]; [rewrite Hlen; by eapply lookup_lt_Some|].
    pose proof (ar_col _ _ _ (as_rel _ _ _ Ha') _ _ _ _ Hd Hp Hq) as Hpr. destruct q as [q|]; [by destruct q|].
    destruct (knows_at _ _ _ (ar_knows _ _ _ (as_rel _ _ _ Ha')) Hd) as (C&HC&->). unfold bind. cbn [fst snd]. rewrite Hq. done.
  - destruct (He e) as [e' E]. destruct (Hsim _ e' ltac:(done) E) as ([A' m']&E'&Ha'). rewrite E'. unfold b_dealloc. unfold bind at 1, bm_get at 1. cbn [fst].
    assert (Hc' : b_comps A' = a_comps a) by exact (ar_comps _ _ _ (as_rel _ _ _ Ha')). rewrite Hc'.
    assert (Has : b_assoc A' = None).
    { pose proof (ar_assoc _ _ _ (as_rel _ _ _ Ha')) as H. cbn [fst] in H. rewrite Hassoc in H. destruct (b_assoc A') as [[]|]; done. }
    assert (Hdd : match b_dealloc_columns (enum (a_comps a)) (A', m') with UB => True | Panic _ => False | Ret b s => b = true /\ b_assoc s.1 = None end).
    { apply b_dealloc_dies; [done| |].
      - unfold enum. rewrite fst_zip by (by rewrite seq_length). apply NoDup_seq.
      - intros i ([k x]&->&Hi)%elem_of_list_fmap. apply elem_of_list_lookup in Hi as [j Hj]. apply enum_lookup_inv in Hj as (y&[= -> ->]&Hx). cbn.
        destruct (Hcols j) as [b Hb]; [by eapply lookup_lt_Some|].
        destruct (lookup_lt_is_Some_2 (b_ptrs A') j) as [q Hq].
        { pose proof (ar_len _ _ _ (as_rel _ _ _ Ha')) as Hlen. cbn [fst] in Hlen. rewrite Hlen. by eapply lookup_lt_Some. }
        pose proof (ar_col _ _ _ (as_rel _ _ _ Ha') _ _ _ _ Hx Hb Hq) as Hpr. destruct q as [q|]; [by exists q|done]. }
    unfold bind. destruct (b_dealloc_columns _ _) as [b [A2 m2]| |]; [|done|done]. destruct Hdd as [-> Ha2]. unfold bm_get. cbn [fst] in *. unfold bm_mem. cbn [snd].
    rewrite Ha2. done.
Qed.
End ruin.

Lemma a_drop_returns a e : (exists s, a_drop (a, Env (ev_trace e) []) = Ret tt s) -> exists s, a_drop (a, e) = Ret tt s.
Proof.
  intros [s E]. pose proof (asim_a_drop (a, e)) as H1. pose proof (astill_a_drop (a, e)) as H2. unfold er_am, er_env in H1. cbn [fst snd] in H1.
  destruct (a_drop (a, e)) as [[] t|t|]; [by exists t| |rewrite E in H1; done]. destruct H1 as [[H1 _]|H1]; [rewrite E in H1; done|]. rewrite H2 in H1. by apply refused_irrefl in H1.
Qed.
Section registry.
Context {Fm : family} (c : cfg) (U : list ctype) (HU : universe (big c) U) (Hla : laid_out U).
Let Hst : strict (ids_of U) := proj1 HU.
Let Hsm : Forall small U := proj1 (proj2 HU).
Lemma b_drop_archs_dies {L} d a n : forall k r R p, @Bytes5.brel U L r R -> archs r !! d = Some a -> ruined a ->
  (forall j a0, k <= j -> j <> d -> archs r !! j = Some a0 -> forall e, ev_oracle e = [] -> exists s, a_drop (a0, e) = Ret tt s) ->
  k <= d < k + n -> b_drop_archs k n p R = UB.
Proof using HU Hla.
  induction n as [|n IH]; intros k r R p Hb Ha Hr Ho Hk; [lia|]. cbn [b_drop_archs]. destruct (decide (k = d)) as [->|Hne].
  - destruct (brel_at _ _ _ _ Hb Ha) as (A&EA&_). unfold b_with_arch. rewrite EA. by rewrite (ruined_b_drop Hsm Hla _ _ _ _ _ Hr (brel_ast _ _ _ _ _ Hb Ha EA)).
  - destruct (lookup_lt_is_Some_2 (archs r) k) as [a0 Ha0]; [apply lookup_lt_Some in Ha; lia|].
    destruct (a_drop_returns a0 (r_env r)) as [[a1 e1] E1]; [by apply (Ho k)|].
    assert (Hs : @Bytes5.rsim U L _ r R (with_arch k a_drop) (b_with_arch k b_drop)) by (apply rsim_with; intros _ a2 A2 _ _; by apply sim_drop).
    assert (Ew : with_arch k a_drop r = Ret tt (Reg (r_er r) (set_archs (r_ar r) (<[k := a1]> (archs r))) e1)).
    { unfold with_arch. fold (archs r). rewrite Ha0, E1. done. }
    destruct (Hs Hb _ _ Ew) as (R1&Eb&Hb1). rewrite Eb. eapply IH; [exact Hb1| |exact Hr| |lia].
    + cbn. by rewrite list_lookup_insert_ne.
    + intros j a2 Hkj Hj Hj2 e He. cbn in Hj2. rewrite list_lookup_insert_ne in Hj2 by lia. eapply Ho; [|exact Hj|exact Hj2|exact He]. lia.
Qed.
Lemma ruin_b_drop {L} r R : @Bytes5.brel U L r R -> ruin r -> b_drop_registry R = UB.
Proof using HU Hla.
  intros Hb (d&a&Ha&Hr&Ho). unfold b_drop_registry, bind, bq_get, get_st. rewrite (bl_len _ _ Hb).
  eapply b_drop_archs_dies; [exact Hb|exact Ha|exact Hr| |apply lookup_lt_Some in Ha; unfold archs in *; lia]. intros j a0 _. apply Ho.
Qed.
(** The program ends with a call that breaks the registry. *)
Lemma broken_run place oracle ops o l r rb : luckless true c U ops (reg_asking oracle) ∅ -> attempt c ops (reg_asking oracle) = (l, Some r) ->
  contract (big c) U (survivors c U ops (reg_asking oracle) ∅) o -> step c o r = Panic rb -> ~ untouched r rb ->
  all_calm (survivors c U ops (reg_asking oracle) ∅) ->
  exists R Rb, battempt c ops (breg_asking place oracle) = (l, Some R) /\ bstep c o R = Panic Rb /\ m_env (br_mem Rb) = r_env rb /\ b_drop_registry Rb = UB.
Proof using HU Hla.
  intros Hl E Hc Es Hun Hcalm. destruct (luckless_run c U HU Hla true place oracle ops Hl) as (l'&r1&R&L&E1&E2&Hb&HT).
  rewrite E in E1. injection E1 as <- <-. destruct (HT eq_refl) as [T HT'].
  destruct (step_total c U HU _ _ _ _ HT' Hc) as (out'&u&Eh&_).
  destruct (rpsim_step c U HU Hla _ _ _ _ _ (heal_like c U _ _ _ HT') Hc Hb _ _ _ Eh Es) as (Rb&lk&Eb&Hb1).
  destruct (step_refused c U HU _ _ _ _ _ HT' Hc Es) as (_&_&[H|[_ H]]); [done|]. exists R, Rb. split; [done|]. split; [done|].
  split; [exact (bl_env _ _ Hb1)|]. eapply ruin_b_drop; [exact Hb1|]. apply (H Hcalm).
Qed.
End registry.
