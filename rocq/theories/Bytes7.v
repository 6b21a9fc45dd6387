(** Proofs for C53: whole programs over the byte-level registry, and dropping it. *)
From Verif Require Import ByteReg Sizes SearchProofs MonadProofs DescrProofs ArchProofs ArchOps ArchOps2 ArchOps3 RegProofs RegOps RegOps2 RegExact Refine Ref
  Bytes Bytes2 Bytes3 Bytes4 Bytes5 Bytes6 SpecBytes SpecBase SpecTrace SpecWorld SpecRef.
Local Open Scope nat_scope.

(** An archetype without memory. *)
Definition gone (a : arch) : Prop := a_assoc a = None /\ forall i d, a_comps a !! i = Some d -> a_ptrs a !! i = Some None.

Section null.
  Context (d : adesc) (cs : list ctype) (Hd : desc_ok d cs).
  Lemma a_drop_gone a rows e :
    a_desc a = d -> arch_ok a cs rows -> Forall (fun x : row => calm x.2) rows -> ev_oracle e = [] ->
    exists a' e', a_drop (a, e) = Ret tt (a', e') /\ gone a' /\ ev_oracle e' = [].
  Proof.
    intros Ed Hok Hcalm Ho. unfold a_drop. unfold bind at 1, am_get at 1. cbn [fst].
    pose proof Hok as (_&Hcap&_&_&C&H&Ea&(HlC&_&_)&_). rewrite Ed in Ea.
    rewrite (proj2 (Nat.eqb_neq (a_cap a) 0)) by (pose proof (capok_pos _ Hcap); lia).
    destruct (drop_entities_ok d cs Hd a rows e (layouts cs (a_cap a)) Ed Hok Hcalm Ho) as (e1&E1&Hem1).
    rewrite (bind_Ret _ _ _ _ _ E1). unfold a_dealloc. unfold bind at 1, am_get at 1. cbn [fst].
    rewrite (ok_comps d cs Hd _ _ Ed Hok). unfold enum. rewrite map_length.
    destruct (dealloc_columns_ok d (a_cap a) (length rows) (colbs (a_cap a) cs C) (Some (Block (4 * N.of_nat (a_cap a))%N 4%N H)) cs C e1 0)
      as (ps'&e2&E2&Hem2&_&Hnull); [apply Hd|done|by eapply emits_oracle| |].
    { intros j c col Hj Hcol. by apply colbs_lookup. }
    assert (E2' : dealloc_columns (zip (seq 0 (length cs)) (map cdesc_of cs)) (a, e1) =
      Ret true (Arch d ps' (Some (Block (4 * N.of_nat (a_cap a))%N 4%N H)) (length rows) (a_cap a), e2)).
    { rewrite <- E2. rewrite Ea at 1. done. }
    rewrite (bind_Ret _ _ _ _ _ E2'). cbn iota. unfold bind at 1, am_get at 1. cbn [fst a_assoc a_cap].
    assert (Edl : mem_dealloc (Some (Block (4 * N.of_nat (a_cap a))%N 4%N H)) (ENTITY_SIZE * N.of_nat (a_cap a)) ENTITY_ALIGN e2 =
                 Ret tt (emitted e2 [EvDealloc (4 * N.of_nat (a_cap a)) 4])%N).
    { unfold mem_dealloc, ENTITY_SIZE, ENTITY_ALIGN. cbn [bl_size bl_align]. rewrite !N.eqb_refl. done. }
    rewrite (bind_Ret _ _ _ _ _ (am_env_Ret _ _ _ _ _ Edl)). unfold am_upd. cbn [fst snd].
    eexists _, _. split; [reflexivity|]. split.
    - split; [done|]. cbn [a_ptrs set_cap set_assoc]. intros i dd Hi. change (ad_components d !! i = Some dd) in Hi.
      apply (Hnull i). rewrite (do_comps _ _ Hd) in Hi. apply lookup_lt_Some in Hi. by rewrite map_length in Hi.
    - cbn. by eapply emits_oracle.
  Qed.
End null.

Section runs.
Context {Fm : family} (c : cfg) (U : list ctype) (HU : universe (big c) U) (Hla : laid_out U).
Notation be := (big c).
Notation brel := (@Bytes5.brel U []).
Notation rsim := (@Bytes5.rsim U []).
Notation arel := (@Bytes.arel U).
Implicit Types (T : list tab) (w : world).
Let Hst : strict (ids_of U) := proj1 HU.
Let Hsm : Forall small U := proj1 (proj2 HU).

Lemma brun_from ops r R b : booked c U r b -> brel r R -> within be U ops b ->
  exists r' R', run c ops r = Ret (ref_run be U ops b).1 r' /\ brun c ops R = Ret (ref_run be U ops b).1 R' /\ booked c U r' (ref_run be U ops b).2 /\ brel r' R'.
Proof using HU Hla.
  revert r R b. induction ops as [|o ops IH]; intros r R b Hb Hr Hw; [exists r, R; done|].
  destruct Hw as [Hc Hw]. destruct (ref_step c U HU r b o Hb Hc) as (r1&E1&H1&_). pose proof (bo_tabs _ _ _ _ Hb) as (T&Hok&_).
  destruct (step_sim c U HU Hla r R T _ o Hok Hc Hr _ _ E1) as (R1&B1&Hr1). destruct (IH r1 R1 _ H1 Hr1 Hw) as (r2&R2&E2&B2&H2&Hr2).
  exists r2, R2. cbn [run brun ref_run]. destruct (ref be U b o) as [out b1]. cbn [fst snd] in *. destruct (ref_run be U ops b1) as [outs b2]. cbn [fst snd] in *.
  rewrite (bind_Ret _ _ _ _ _ E1), (bind_Ret _ _ _ _ _ E2), (bind_Ret _ _ _ _ _ B1), (bind_Ret _ _ _ _ _ B2). done.
Qed.

(** ** Dropping *)
Lemma gone_own H a A : arel H a A -> gone a -> own A = [].
Proof.
  intros Ha [Hn Hp]. unfold own. assert (Hq : Forall (fun q => q = None) (b_assoc A :: b_ptrs A)).
  { constructor.
    - pose proof (ar_assoc _ _ _ Ha) as Hx. rewrite Hn in Hx. by destruct (b_assoc A).
    - apply Forall_lookup. intros i q Hq. destruct (lookup_lt_is_Some_2 (a_ptrs a) i) as [p Hpi].
      { eapply Nat.lt_le_trans; [by eapply lookup_lt_Some|]. apply Nat.eq_le_incl. exact (ar_len _ _ _ Ha). }
      destruct (a_comps a !! i) as [dd|] eqn:Ed.
      + assert (Hnull : Some p = Some None) by (etransitivity; [symmetry; exact Hpi|exact (Hp _ _ Ed)]). injection Hnull as ->. pose proof (ar_col _ _ _ Ha _ _ _ _ Ed Hpi Hq) as Hx. by destruct q.
      + by apply (ar_rest _ _ _ Ha _ _ _ Ed Hpi Hq). }
  generalize dependent (b_assoc A :: b_ptrs A). intros l Hl. induction Hl as [|q l -> Hl IH]; [done|]. exact IH.
Qed.
Lemma b_drop_archs_ok {L} n k r R T :
  @Bytes5.brel U L r R -> ev_oracle (r_env r) = [] -> n = length (archs r) - k ->
  Forall2 (tab_ok be U) (drop k (archs r)) T ->
  Forall (fun t => Forall (fun x : row => calm x.2) (t_rows t)) T ->
  (forall i A, i < k -> br_archs R !! i = Some A -> own A = []) ->
  exists r' R', drop_archs k n false r = Ret tt r' /\ b_drop_archs k n false R = Ret tt R' /\ @Bytes5.brel U L r' R' /\ concat (map own (br_archs R')) = [].
Proof using HU Hla.
  revert k r R T. induction n as [|n IH]; intros k r R T H Ho Hn HT Hcalm Hown; cbn [drop_archs b_drop_archs].
  - exists r, R. split; [done|]. split; [done|]. split; [done|].
    pose proof (bl_len _ _ H) as Hl. assert (Hall : Forall (fun A => own A = []) (br_archs R)).
    { apply Forall_lookup. intros i A HA. apply (Hown i A); [|done]. pose proof (lookup_lt_Some _ _ _ HA). lia. }
    clear -Hall. induction Hall as [|A l HA _ IH]; [done|]. cbn [map concat]. by rewrite HA, IH.
  - destruct (lookup_lt_is_Some_2 (archs r) k) as [a Ha]; [lia|]. destruct (brel_at _ _ _ _ H Ha) as (A&HA&Hr).
    rewrite (drop_S _ _ _ Ha) in HT. inversion HT as [|? t ? T' Ht HT' E1 E2]; subst. apply Forall_cons in Hcalm as [Hct Hcalm].
    destruct (tab_facts be U _ _ Ht) as (Hd&_).
    destruct (a_drop_gone _ _ Hd a (t_rows t) (r_env r) eq_refl (proj1 (proj2 Ht)) Hct Ho) as (a'&e'&E&Hgone&Ho').
    destruct (sim_drop Hsm Hla _ _ _ (brel_ast _ _ _ _ _ H Ha HA) _ _ E) as ([A' m']&Eb&Has&Hk).
    pose proof (brel_put _ _ _ _ _ _ _ _ H HA Has Hk) as H'.
    assert (Ew : with_arch k a_drop r = Ret tt (Reg (r_er r) (set_archs (r_ar r) (<[k := a']> (archs r))) e')).
    { unfold with_arch. fold (archs r). rewrite Ha, E. done. }
    assert (Ewb : b_with_arch k b_drop R = Ret tt (BReg (br_er R) (br_maps R) (<[k := A']> (br_archs R)) m')).
    { unfold b_with_arch. rewrite HA, Eb. done. }
    rewrite Ew, Ewb. eapply (IH (S k) _ _ T'); [exact H'|exact Ho'| | |exact Hcalm|].
    + unfold archs. cbn. rewrite insert_length. fold (archs r). lia.
    + unfold archs. cbn. rewrite drop_insert_gt by lia. exact HT'.
    + cbn [br_archs]. intros i B Hi HB. destruct (decide (i = k)) as [->|Hne].
      * rewrite list_lookup_insert in HB by (by eapply lookup_lt_Some). injection HB as <-. eapply gone_own; [apply (as_rel _ _ _ Has)|exact Hgone].
      * rewrite list_lookup_insert_ne in HB by done. apply (Hown i B); [lia|exact HB].
Qed.
Lemma b_drop_ok r R T w : brel r R -> reg_ok be U r T w -> all_calm w ->
  exists R', b_drop_registry R = Ret tt R' /\ m_blocks (br_mem R') = ∅ /\ exists r', drop_registry r = Ret tt r' /\ m_env (br_mem R') = r_env r'.
Proof using HU Hla.
  intros H Hok Hcalm. destruct (b_drop_archs_ok (L := []) (length (archs r)) 0 r R T) as (r'&R'&E&Eb&H'&Hnil); [done|apply Hok|lia|apply Hok|by eapply (all_calm_rows c U)|lia|].
  exists R'. split; [|split].
  - change (b_drop_archs 0 (length (br_archs R)) false R = Ret tt R'). rewrite (bl_len _ _ H). exact Eb.
  - pose proof (bl_owned _ _ H') as Hh. rewrite Hnil in Hh. apply map_empty. intros id. apply eq_None_not_Some. intros Hs.
    apply (ho_dom _ _ _ Hh) in Hs. by apply elem_of_nil in Hs.
  - exists r'. split; [exact E|exact (bl_env _ _ H')].
Qed.
Lemma bytes_program place ops : within be U ops book_empty ->
  exists R r, brun c ops (breg_default place) = Ret (ref_run be U ops book_empty).1 R /\
    run c ops reg_default = Ret (ref_run be U ops book_empty).1 r /\ m_env (br_mem R) = r_env r.
Proof using HU Hla.
  intros Hw. destruct (brun_from ops _ _ _ (booked_start c U) (brel_start place) Hw) as (r&R&E&B&_&H). exists R, r.
  split; [exact B|]. split; [exact E|exact (bl_env _ _ H)].
Qed.
Lemma bytes_drop place ops out R : within be U ops book_empty -> all_calm (bk_world (ref_run be U ops book_empty).2) ->
  brun c ops (breg_default place) = Ret out R ->
  exists R', b_drop_registry R = Ret tt R' /\ m_blocks (br_mem R') = ∅ /\
    exists r r', run c ops reg_default = Ret out r /\ drop_registry r = Ret tt r' /\ m_env (br_mem R') = r_env r'.
Proof using HU Hla.
  intros Hw Hcalm E. destruct (brun_from ops _ _ _ (booked_start c U) (brel_start place) Hw) as (r&R1&Er&B&Hb&H).
  rewrite E in B. injection B as -> ->. destruct (bo_tabs _ _ _ _ Hb) as (T&Hok&_).
  destruct (b_drop_ok _ _ _ _ H Hok Hcalm) as (R'&Ed&Hm&r'&Er'&Hv). exists R'. split; [exact Ed|]. split; [exact Hm|]. exists r, r'. split; [exact Er|]. by split.
Qed.
End runs.
