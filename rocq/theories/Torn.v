(** A torn archetype (Alloc.v) cannot be dropped. *)
From Verif Require Import RegModel SpecTrace SpecEntity EntityProofs SearchProofs MonadProofs DescrProofs EntityTable ArchProofs ArchOps ArchOps2 ArchOps3 AregProofs RegProofs RegOps RegOps2 RegOps3 Refine Observe Crash Alloc SpecObs SpecBase SpecWorld SpecCrash SpecAlloc.
Local Open Scope nat_scope.

Lemma mfor_dies {A} (l : list A) (f : A -> AM unit) a e x : x ∈ l -> (forall e, f x (a, e) = UB) ->
  (forall y e, y ∈ l -> (exists e', f y (a, e) = Ret tt (a, e')) \/ f y (a, e) = UB) -> mfor l f (a, e) = UB.
Proof.
  intros Hx Hu. revert e. induction l as [|y l IH]; intros e Hl; [by apply elem_of_nil in Hx|]. cbn [mfor]. unfold bind.
  destruct (Hl y e (elem_of_list_here _ _)) as [[e' E]|E]; rewrite E; [|done]. apply elem_of_cons in Hx as [<-|Hx]; [by rewrite Hu in E|].
  apply IH; [done|]. intros z e1 Hz. apply Hl. by right.
Qed.
Lemma mfor_keeps {A} (l : list A) (f : A -> AM unit) a e :
  (forall y e, y ∈ l -> (exists e', f y (a, e) = Ret tt (a, e')) \/ f y (a, e) = UB) ->
  (exists e', mfor l f (a, e) = Ret tt (a, e')) \/ mfor l f (a, e) = UB.
Proof.
  revert e. induction l as [|y l IH]; intros e Hl; [left; by exists e|]. cbn [mfor]. unfold bind.
  destruct (Hl y e (elem_of_list_here _ _)) as [[e' E]|E]; rewrite E; [|by right]. apply IH. intros z e1 Hz. apply Hl. by right.
Qed.
Lemma dealloc_dies ds a e : a_assoc a = None -> NoDup ds.*1 -> (forall i, i ∈ ds.*1 -> exists b, a_ptrs a !! i = Some (Some b)) ->
  match dealloc_columns ds (a, e) with UB => True | Panic _ => False | Ret b s => b = true /\ a_assoc s.1 = None end.
Proof.
  revert a e. induction ds as [|[i d] ds IH]; intros a e Ha Hnd Hp; [done|]. cbn [dealloc_columns]. unfold bind at 1, am_get at 1. cbn [fst].
  destruct (Hp i) as [b Hb]; [by left|]. unfold ptr in *. rewrite Hb. cbn [fmap list_fmap] in Hnd. apply NoDup_cons in Hnd as [Hni Hnd]. unfold bind at 1, am_env, mem_dealloc.
  destruct (_ && _); [|done]. unfold emit. cbn [fst snd]. unfold bind at 1, am_upd. cbn [fst snd].
  apply IH; [done|done|]. intros j Hj. cbn. destruct (Hp j) as [b' Hb']; [by right|]. exists b'. rewrite list_lookup_insert_ne; [done|]. by intros ->.
Qed.
Lemma torn_typed a cs rows a' lost k C row h m : arch_ok a cs rows -> length rows = a_cap a -> torn_arch a a' lost -> cs !! k = Some C ->
  lost <> Some k -> rows !! row = Some (h, m) -> full cs m -> calm m -> exists v, typed_cell C a' k row = Rd v /\ v_bomb v = false.
Proof.
  intros Hok Hf Ht Hk Hne Hrow Hfull Hc. pose proof (lookup_lt_Some _ _ _ Hrow) as Hlt.
  destruct (torn_read a cs rows a' lost k C row Hok Hf Ht Hk) as (_ & H2 & _). specialize (H2 Hne Hlt).
  assert (HCt : C ∈ cs) by (by eapply elem_of_list_lookup_2).
  assert (Hs : is_Some (m !! ct_id C)) by (apply Hfull, elem_of_ids; by exists C). destruct Hs as [v Hv].
  destruct (get_component_ok (a_desc a) cs (proj1 Hok) a _ _ _ _ _ _ eq_refl Hok Hrow HCt Hv) as (E&_). rewrite E in H2. exists v. split; [|by eapply Hc].
  unfold get_component_unchecked in H2. pose proof Hok as (Hd & _ & _ & _ & Cl & H & Ea & _).
  assert (Hb : binary_search (ids (a_comps a)) (ct_id C) = inl k) by (rewrite Ea; by apply search_col).
  assert (Hcm : a_comps a' = a_comps a) by (unfold a_comps; by rewrite (proj1 Ht)).
  rewrite Hcm in H2. change (map cd_id (a_comps a)) with (ids (a_comps a)) in H2. by rewrite Hb in H2.
Qed.
Lemma torn_ptr a cs rows a' lost k : arch_ok a cs rows -> torn_arch a a' lost -> k < length cs -> lost <> Some k -> exists b, a_ptrs a' !! k = Some (Some b).
Proof.
  intros Hok (Ed & _ & _ & Hl) Hk Hne. destruct Hok as (_ & _ & _ & _ & Cl & H & Ea & (HlC & _) & _).
  destruct (lookup_lt_is_Some_2 cs k Hk) as [C HC]. destruct (lookup_lt_is_Some_2 Cl k) as [col Hcol]; [by rewrite HlC|].
  assert (Hp : a_ptrs a !! k = Some (colb (a_cap a) C col)) by (rewrite Ea; by apply colbs_lookup). unfold colb in Hp.
  destruct lost as [k0|].
  - destruct Hl as (_ & _ & Hl). destruct (Hl k) as [E|(p & p' & E & E' & b & b' & -> & -> & Hbc)]; [congruence| |by exists b'].
    eexists. etransitivity; [exact E|exact Hp].
  - destruct Hl as [_ ->]. eexists. exact Hp.
Qed.
Lemma handler_null k C n a e : a_ptrs a !! k = Some None -> run_drop_handler (cdesc_of C) k 0 n (a, e) = UB.
Proof. intros E. unfold run_drop_handler. cbn [cd_drop cdesc_of]. unfold bind at 1, am_get at 1. cbn [fst]. destruct (a_ptrs a !! k) as [[b|]|]; done. Qed.
Lemma handler_run k C n a e b : a_ptrs a !! k = Some (Some b) -> run_drop_handler (cdesc_of C) k 0 n (a, e) = mfor (seq 0 n) (drop_cell C k) (a, e).
Proof. intros E. unfold run_drop_handler. cbn [cd_drop cdesc_of]. unfold bind at 1, am_get at 1. cbn [fst]. destruct (a_ptrs a !! k) as [[b'|]|]; done. Qed.
Lemma torn_drop a cs rows a' lost e : arch_ok a cs rows -> length rows = a_cap a -> torn_arch a a' lost ->
  Forall (fun x : row => calm x.2) rows -> a_drop (a', e) = UB.
Proof.
  intros Hok Hf Ht Hc. pose proof Ht as (Ed & En & Ec & Hl). unfold a_drop. unfold bind at 1, am_get at 1. cbn [fst].
  pose proof Hok as (Hd & Hcap & _ & HF & _). rewrite Ec, (proj2 (Nat.eqb_neq (a_cap a) 0)) by (pose proof (capok_pos _ Hcap); lia).
  assert (Ecomp : a_comps a' = map cdesc_of cs) by (unfold a_comps; by rewrite Ed, (do_comps _ _ Hd)).
  set (f := fun '(i, d) => run_drop_handler d i 0 (length rows) : AM unit).
  assert (Ehead : drop_entities (a', e) = mfor (enum (a_comps a')) f (a', e)).
  { unfold drop_entities. unfold bind at 1, am_get at 1. cbn [fst]. unfold a_len. by rewrite En, (count_ok _ _ _ Hok). }
  assert (Hel : forall y, y ∈ enum (a_comps a') <-> exists k C, cs !! k = Some C /\ y = (k, cdesc_of C)).
  { intros y. rewrite Ecomp. split.
    - intros [k Hk]%elem_of_list_lookup. apply enum_lookup_inv in Hk as (x&->&Hx). change (map cdesc_of cs) with (cdesc_of <$> cs) in Hx.
      rewrite list_lookup_fmap in Hx. destruct (cs !! k) as [C|] eqn:HC; [|done]. injection Hx as <-. eauto.
    - intros (k&C&HC&->). eapply elem_of_list_lookup_2, enum_lookup. change (map cdesc_of cs) with (cdesc_of <$> cs). by rewrite list_lookup_fmap, HC. }
  assert (Hstep : forall y e, y ∈ enum (a_comps a') -> (exists e', f y (a', e) = Ret tt (a', e')) \/
    f y (a', e) = UB).
  { intros y e1 (k&C&HC&->)%Hel. unfold f. destruct (decide (lost = Some k)) as [->|Hne]; [right; destruct Hl as (_ & Hl & _); by apply handler_null|].
    destruct (torn_ptr _ _ _ _ _ k Hok Ht) as [b Hb]; [by eapply lookup_lt_Some|done|]. rewrite (handler_run _ _ _ _ _ _ Hb). apply mfor_keeps.
    intros row e2 Hrow%elem_of_seq. destruct (lookup_lt_is_Some_2 rows row) as [[h m] Hr]; [lia|].
    destruct (torn_typed _ _ _ _ _ k C row h m Hok Hf Ht HC Hne Hr) as (v&Ev&Hv);
      [apply (Forall_lookup_1 _ _ _ _ HF Hr)|apply (Forall_lookup_1 _ _ _ _ Hc Hr)|].
    left. eexists. unfold drop_cell. unfold bind at 1. unfold am_rd. cbn [fst]. rewrite Ev. cbn. rewrite Hv. done. }
  unfold bind. rewrite Ehead. destruct lost as [k|].
  - assert (mfor (enum (a_comps a')) f (a', e) = UB) as ->; [|done].
    destruct Hl as (Hk & Hl & _). unfold a_comps in Hk. rewrite (do_comps _ _ Hd), map_length in Hk. destruct (lookup_lt_is_Some_2 cs k Hk) as [C HC].
    eapply (mfor_dies _ _ _ _ (k, cdesc_of C)); [apply Hel; eauto| |exact Hstep].
    intros e1. unfold f. by apply handler_null.
  - destruct (mfor_keeps _ _ _ e Hstep) as [[e' ->]| ->]; [|done]. unfold a_dealloc. unfold bind at 1, am_get at 1. cbn [fst].
    destruct Hl as [Has Hps]. unfold bind at 1.
    assert (Hdd : match dealloc_columns (enum (a_comps a')) (a', e') with UB => True | Panic _ => False | Ret b s => b = true /\ a_assoc s.1 = None end).
    { apply dealloc_dies; [done| |].
    { unfold enum. rewrite fst_zip by (by rewrite seq_length). apply NoDup_seq. }
    { intros i ([k x]&->&Hi)%elem_of_list_fmap. apply Hel in Hi as (k'&C&HC&[= -> _]). cbn. eapply torn_ptr; [exact Hok|exact Ht|by eapply lookup_lt_Some|done]. } }
    destruct (dealloc_columns _ _) as [b [a2 e2]| |]; [|done|done]. destruct Hdd as [-> Ha2]. cbn [fst] in Ha2.
    unfold bind at 1, am_get at 1. cbn [fst]. rewrite Ha2. done.
Qed.

(** Why dropping it is undefined: a destructor call on a column that is gone,
    or freeing the list of handles that is gone; before that nothing fails. *)
Definition ruined (a : arch) : Prop :=
  a_cap a <> 0 /\
  let f := fun '(i, d) => run_drop_handler d i 0 (a_len a) : AM unit in
  ((exists k d, a_comps a !! k = Some d /\ a_ptrs a !! k = Some None /\
      forall e, exists e', mfor (take k (enum (a_comps a))) f (a, e) = Ret tt (a, e')) \/
   ((forall e, exists e', mfor (enum (a_comps a)) f (a, e) = Ret tt (a, e')) /\ a_assoc a = None /\
      forall k, k < length (a_comps a) -> exists b, a_ptrs a !! k = Some (Some b))).
Lemma mfor_returns {A} (l : list A) (f : A -> AM unit) a e :
  (forall y e, y ∈ l -> exists e', f y (a, e) = Ret tt (a, e')) -> exists e', mfor l f (a, e) = Ret tt (a, e').
Proof.
  revert e. induction l as [|y l IH]; intros e Hl; [by exists e|]. cbn [mfor]. unfold bind.
  destruct (Hl y e (elem_of_list_here _ _)) as [e' E]; rewrite E. apply IH. intros z e1 Hz. apply Hl. by right.
Qed.
Lemma torn_ruined a cs rows a' lost : arch_ok a cs rows -> length rows = a_cap a -> torn_arch a a' lost ->
  Forall (fun x : row => calm x.2) rows -> ruined a'.
Proof.
  intros Hok Hf Ht Hc. pose proof Ht as (Ed & En & Ec & Hl). pose proof Hok as (Hd & Hcap & _ & HF & _).
  split; [rewrite Ec; pose proof (capok_pos _ Hcap); lia|]. cbv zeta.
  assert (Ecomp : a_comps a' = map cdesc_of cs) by (unfold a_comps; by rewrite Ed, (do_comps _ _ Hd)).
  assert (Elen : a_len a' = length rows) by (unfold a_len; by rewrite En, (count_ok _ _ _ Hok)). rewrite Elen.
  set (f := fun '(i, d) => run_drop_handler d i 0 (length rows) : AM unit).
  assert (Hstep : forall k d e, a_comps a' !! k = Some d -> lost <> Some k -> exists e', f (k, d) (a', e) = Ret tt (a', e')).
  { intros k d e1 HC Hne. unfold f. rewrite Ecomp in HC. change (map cdesc_of cs) with (cdesc_of <$> cs) in HC.
    rewrite list_lookup_fmap in HC. destruct (cs !! k) as [C|] eqn:Hk; [|done]. injection HC as <-.
    destruct (torn_ptr _ _ _ _ _ k Hok Ht) as [b Hb]; [by eapply lookup_lt_Some|done|]. rewrite (handler_run _ _ _ _ _ _ Hb). apply mfor_returns.
    intros row e2 Hrow%elem_of_seq. destruct (lookup_lt_is_Some_2 rows row) as [[h m] Hr]; [lia|].
    destruct (torn_typed _ _ _ _ _ k C row h m Hok Hf Ht Hk Hne Hr) as (v&Ev&Hv);
      [apply (Forall_lookup_1 _ _ _ _ HF Hr)|apply (Forall_lookup_1 _ _ _ _ Hc Hr)|].
    eexists. unfold drop_cell. unfold bind at 1. unfold am_rd. cbn [fst]. rewrite Ev. cbn. rewrite Hv. done. }
  destruct lost as [k|].
  - left. destruct Hl as (Hk & Hl & _). assert (Hk' : k < length (a_comps a')) by (unfold a_comps in *; by rewrite Ed).
    destruct (lookup_lt_is_Some_2 _ _ Hk') as [d Hdk]. exists k, d. split; [done|]. split; [done|]. intros e. apply mfor_returns.
    intros y e1 Hy. apply elem_of_list_lookup in Hy as [j Hj]. apply lookup_take_Some in Hj as [Hj Hlt].
    apply enum_lookup_inv in Hj as (x&->&Hx). apply Hstep; [done|]. intros [= ->]. lia.
  - right. split; [|split; [apply Hl|]].
    + intros e. apply mfor_returns. intros y e1 Hy. apply elem_of_list_lookup in Hy as [j Hj]. apply enum_lookup_inv in Hj as (x&->&Hx). by apply Hstep.
    + intros k Hk. rewrite Ecomp, map_length in Hk. by eapply torn_ptr.
Qed.
(** ... and all other archetypes can be dropped. *)
Definition ruin (r : reg) : Prop := exists d a, ar_archs (r_ar r) !! d = Some a /\ ruined a /\
  forall j a0, j <> d -> ar_archs (r_ar r) !! j = Some a0 -> forall e, ev_oracle e = [] -> exists s, a_drop (a0, e) = Ret tt s.

Lemma drop_archs_dies n k s d a p : ar_archs (r_ar s) !! d = Some a -> (forall e, a_drop (a, e) = UB) -> k <= d < k + n -> drop_archs k n p s = UB.
Proof.
  revert k s p. induction n as [|n IH]; intros k s p Ha Hu Hk; [lia|]. cbn [drop_archs]. unfold with_arch.
  destruct (decide (k = d)) as [->|Hne].
  - by rewrite Ha, Hu.
  - destruct (ar_archs (r_ar s) !! k) as [a0|] eqn:E0; [|exfalso; apply lookup_ge_None in E0; apply lookup_lt_Some in Ha; lia].
    destruct (a_drop (a0, r_env s)) as [[] [a1 e1]|[a1 e1]|]; [| |done]; apply IH; try done; try lia; cbn; by rewrite list_lookup_insert_ne.
Qed.
Lemma drop_dies s d a : ar_archs (r_ar s) !! d = Some a -> (forall e, a_drop (a, e) = UB) -> drop_registry s = UB.
Proof. intros Ha Hu. unfold drop_registry. rewrite rm_get_step. eapply drop_archs_dies; [done|done|]. apply lookup_lt_Some in Ha. lia. Qed.
