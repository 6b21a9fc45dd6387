(** Proofs for C73: panicking destructors at the level of bytes. *)
From Verif Require Import ByteReg Sizes SearchProofs MonadProofs DescrProofs ArchProofs ArchOps ArchOps2 ArchOps3 RegProofs RegOps RegOps2 RegExact Refine Ref Crash
  Bytes Bytes2 Bytes3 Bytes4 Bytes5 Bytes6 Bytes7 Events Events2 SpecBytes SpecBase SpecTrace SpecWorld SpecRef SpecBomb.
Local Open Scope nat_scope.

Definition bdropping (A : barch) (m : mem) (g : BAM unit) (vs : list value) : Prop := forall e,
  g (A, put_env m e) = if existsb v_bomb vs then Panic (A, put_env m (emitted e (map EvDrop (until_bomb vs))))
                       else Ret tt (A, put_env m (emitted e (map EvDrop vs))).
Lemma bdropping_nil A m : bdropping A m (ret tt) [].
Proof. intros e. cbn. by rewrite emitted_nil. Qed.
Lemma bdropping_seq A m g1 g2 vs1 vs2 : bdropping A m g1 vs1 -> bdropping A m g2 vs2 -> bdropping A m (g1 ;;! g2) (vs1 ++ vs2).
Proof.
  intros H1 H2 e. unfold bind. rewrite H1, existsb_app, until_bomb_app. destruct (existsb v_bomb vs1) eqn:E1; [done|].
  cbn [orb]. rewrite H2, !emitted_app, <- !map_app. done.
Qed.
Lemma bdropping_mfor {X} A m (l : list X) f VS : Forall2 (fun x vs => bdropping A m (f x) vs) l VS -> bdropping A m (mfor l f) (concat VS).
Proof. induction 1 as [|x vs l VS H HF IH]; cbn [mfor concat]; [apply bdropping_nil|by apply bdropping_seq]. Qed.
Lemma bdropping_ext A m g g' vs : (forall e, g (A, put_env m e) = g' (A, put_env m e)) -> bdropping A m g' vs -> bdropping A m g vs.
Proof. intros E H e. by rewrite E. Qed.

Section drops.
Context {U : list ctype} (Hsm : Forall small U) (Hla : laid_out U).
Context (d : adesc) (cs : list ctype) (Hd : desc_ok d cs).
Notation arel := (@Bytes.arel U).
Notation ast := (@Bytes.ast U).
Implicit Types (a : arch) (rows : list row).

Lemma at_dropping a A m C k id start j v : arel (m_blocks m) a A -> C ∈ U -> a_comps a !! k = Some (cdesc_of C) ->
  b_ptrs A !! k = Some (Some (id, 0)) -> typed_cell C a k (start + j) = Rd v ->
  bdropping A m (b_drop_at C (Some (id, size_of C * start)) j) [v].
Proof using Hsm Hla.
  intros Hr HC Hk Hq Ht e. destruct (typed_read Hsm Hla (put_env m e) a A _ _ _ _ Hr HC Hk Ht) as (id'&Hq'&_&Hrd).
  rewrite Hq in Hq'. injection Hq' as <-. unfold b_drop_at, bind at 1, bm_rd. cbn [fst snd]. unfold elem.
  replace (size_of C * start + j * size_of C) with (size_of C * (start + j)) by lia. rewrite Hrd. cbn [lift_rd].
  unfold bind, bm_mem, mm_env, emit. cbn. by destruct (v_bomb v).
Qed.
Lemma bhandler_dropping a rows A m k C start n vs :
  arel (m_blocks m) a A -> a_desc a = d -> arch_ok a cs rows -> cs !! k = Some C -> C ∈ U -> start + n <= length rows ->
  Forall2 (fun (x : row) v => x.2 !! ct_id C = Some v) (take n (drop start rows)) vs ->
  bdropping A m (let! p := bm_rd (fun B0 m0 => column_at B0 m0 k (start * dsize (cdesc_of C))) in b_run_drop_handler (cdesc_of C) p n) vs.
Proof using Hd Hsm Hla.
  intros Hr Ed Hok Hk HC Hle HF. pose proof Hok as (_&_&Hcap&_&Cl&H&Ea&(HlC&HFC&_)&_). rewrite Ed in Ea.
  assert (Hco : a_comps a !! k = Some (cdesc_of C)).
  { rewrite (ok_comps d cs Hd _ _ Ed Hok). change (map ?f ?l) with (f <$> l). rewrite list_lookup_fmap. by rewrite Hk. }
  destruct (lookup_lt_is_Some_2 Cl k) as [cl Hcl]. { rewrite HlC. by eapply lookup_lt_Some. }
  pose proof (Forall_lookup_1 _ _ _ _ HFC Hcl) as Hlen. cbn in Hlen.
  assert (Ep : a_ptrs a !! k = Some (colb (a_cap a) C cl)) by (rewrite Ea; by apply colbs_lookup).
  destruct (column_here Hsm _ _ _ _ _ _ Hr HC Hco Ep) as (id&base&Hq&HH&Hdiv). cbn [bl_cells] in HH.
  eapply (bdropping_ext _ _ _ (mfor (seq 0 n) (b_drop_at C (Some (id, size_of C * start))))).
  { intros e. unfold bind at 1, bm_rd at 1. cbn [fst snd]. rewrite (dsize_of Hsm) by done. rewrite Nat.mul_comm. unfold column_at. rewrite Hq.
    rewrite (offset_ok _ _ _ _ _ _ (HH : m_blocks (put_env m e) !! id = _)) by (rewrite col_len; nia). cbn [lift_rd].
    unfold b_run_drop_handler. cbn [cd_drop cdesc_of]. unfold bind at 1, bm_rd at 1. cbn [fst snd].
    assert (Hsl : slice_ok (put_env m e) (Some (id, size_of C * start)) (ct_align C) (size_of C) n = true).
    { unfold slice_ok. apply andb_true_iff. split.
      - eapply aligned_ok; [exact HH|done|by apply (size_align Hla)|by apply (align_pos Hsm)].
      - erewrite load_ok; [done|done|exact HH|]. rewrite col_len. nia. }
    rewrite Hsl. done. }
  assert (vs = concat (map (fun v => [v]) vs)) as Evs. { clear. induction vs as [|v vs IH]; [done|]. cbn. by rewrite <- IH. }
  rewrite Evs. apply bdropping_mfor. apply Forall2_same_length_lookup.
  assert (Hn : length vs = n). { rewrite <- (Forall2_length _ _ _ HF), take_length, drop_length. lia. }
  split; [by rewrite seq_length, map_length|]. intros i x v' Hi Hv'. apply lookup_seq in Hi as [-> Hi]. cbn [Nat.add].
  change (map (fun v => [v]) vs) with ((fun v => [v]) <$> vs) in Hv'. rewrite list_lookup_fmap in Hv'. destruct (vs !! i) as [v|] eqn:Hv; [|done]. injection Hv' as <-.
  destruct (lookup_lt_is_Some_2 rows (start + i)) as [[h mm] Hrow]; [lia|].
  eapply at_dropping; [exact Hr|done|exact Hco|exact Hq|].
  eapply (typed_cell_ok d cs Hd); [done|done|exact Hrow|done|].
  eapply (Forall2_lookup_lr _ _ _ i (h, mm) v) in HF; [done| |done]. rewrite lookup_take, lookup_drop by lia. done.
Qed.
Lemma b_comps_of a rows A m : arel (m_blocks m) a A -> a_desc a = d -> arch_ok a cs rows -> b_comps A = map cdesc_of cs.
Proof using Hd. intros Hr Ed Hok. rewrite (ar_comps _ _ _ Hr). by apply (ok_comps d cs Hd _ rows). Qed.
Lemma b_entity_dropping a rows A m r h mm : in_U U cs ->
  arel (m_blocks m) a A -> a_desc a = d -> arch_ok a cs rows -> rows !! r = Some (h, mm) -> bdropping A m (b_drop_entity r) (row_values cs mm).
Proof using Hd Hsm Hla.
  intros Hin Hrel Ed Hok Hr. pose proof (Forall_lookup_1 _ _ _ _ (proj1 (proj2 (proj2 (proj2 Hok)))) Hr) as Hrow.
  pose proof (lookup_lt_Some _ _ _ Hr) as Hlt.
  eapply (bdropping_ext _ _ _ (mfor (enum (map cdesc_of cs)) (fun '(i, d) => let! p := bm_rd (fun B0 m0 => column_at B0 m0 i (r * dsize d)) in b_run_drop_handler d p 1))).
  { intros e. unfold b_drop_entity. unfold bind at 1, bm_get at 1. cbn [fst]. by rewrite (b_comps_of _ _ _ _ Hrel Ed Hok). }
  assert (row_values cs mm = concat (map (fun c => row_values [c] mm) cs)) as ->.
  { clear. induction cs as [|c l IH]; [done|]. cbn [map concat]. rewrite <- IH. unfold row_values. cbn [omap list_omap]. by destruct (mm !! ct_id c). }
  apply bdropping_mfor. apply Forall2_same_length_lookup. unfold enum. rewrite zip_with_length, seq_length, !map_length.
  split; [lia|]. intros i x vs Hx Hvs. apply lookup_zip_with_Some in Hx as (i'&d'&->&Hi&Hd'). apply lookup_seq in Hi as [-> Hi]. cbn [Nat.add].
  change (map cdesc_of cs) with (cdesc_of <$> cs) in Hd'. rewrite list_lookup_fmap in Hd'.
  destruct (cs !! i) as [c|] eqn:Hc; [|done]. injection Hd' as <-.
  change (map (fun c0 => row_values [c0] mm) cs) with ((fun c0 => row_values [c0] mm) <$> cs) in Hvs. rewrite list_lookup_fmap, Hc in Hvs. cbn [fmap option_fmap option_map] in Hvs. assert (vs = row_values [c] mm) as -> by congruence. clear Hvs.
  destruct (row_ok_get _ _ _ _ Hrow Hc) as (v&Hv&_). cbn [snd] in Hv. rewrite (row_values_cons _ _ _ _ Hv).
  eapply bhandler_dropping; [exact Hrel|done|done|done|exact (Forall_lookup_1 _ _ _ _ Hin Hc)|lia|]. rewrite (drop_S _ _ _ Hr). cbn [take]. rewrite take_0. by repeat constructor.
Qed.
Lemma b_entities_dropping a rows A m cols : in_U U cs ->
  arel (m_blocks m) a A -> a_desc a = d -> arch_ok a cs rows -> Forall2 (col_of rows) cs cols -> bdropping A m b_drop_entities (concat cols).
Proof using Hd Hsm Hla.
  intros Hin Hrel Ed Hok HF.
  eapply (bdropping_ext _ _ _ (mfor (enum (map cdesc_of cs)) (fun '(i, d) => let! p := bm_rd (fun B0 m0 => column_at B0 m0 i (0 * dsize d)) in b_run_drop_handler d p (length rows)))).
  { intros e. unfold b_drop_entities. unfold bind at 1, bm_get at 1. cbn [fst]. rewrite (b_comps_of _ _ _ _ Hrel Ed Hok). by rewrite (ar_count _ _ _ Hrel), (count_ok cs _ _ Hok). }
  apply bdropping_mfor. apply Forall2_same_length_lookup. unfold enum. rewrite zip_with_length, seq_length, !map_length.
  split; [rewrite (Forall2_length _ _ _ HF); lia|]. intros i x vs Hx Hvs. apply lookup_zip_with_Some in Hx as (i'&d'&->&Hi&Hd'). apply lookup_seq in Hi as [-> Hi]. cbn [Nat.add].
  change (map cdesc_of cs) with (cdesc_of <$> cs) in Hd'. rewrite list_lookup_fmap in Hd'.
  destruct (cs !! i) as [c|] eqn:Hc; [|done]. injection Hd' as <-.
  pose proof (Forall2_lookup_lr _ _ _ _ _ _ HF Hc Hvs) as Hcol.
  eapply bhandler_dropping; [exact Hrel|done|done|done|exact (Forall_lookup_1 _ _ _ _ Hin Hc)|lia|]. rewrite drop_0, take_ge by lia. exact Hcol.
Qed.
Lemma put_env_id m : put_env m (m_env m) = m. Proof. by destruct m. Qed.
Lemma b_drop_bomb a rows A m cols : in_U U cs ->
  arel (m_blocks m) a A -> a_desc a = d -> arch_ok a cs rows -> Forall2 (col_of rows) cs cols -> existsb v_bomb (concat cols) = true ->
  b_drop (A, m) = Panic (A, put_env m (emitted (m_env m) (map EvDrop (until_bomb (concat cols))))).
Proof using Hd Hsm Hla.
  intros Hin Hrel Ed Hok HF Hb. unfold b_drop. unfold bind at 1, bm_get at 1. cbn [fst]. rewrite (ar_cap _ _ _ Hrel). pose proof Hok as (_&Hcap&_).
  rewrite (proj2 (Nat.eqb_neq (a_cap a) 0)) by (pose proof (capok_pos _ Hcap); lia).
  unfold bind. rewrite <- (put_env_id m) at 1. by rewrite (b_entities_dropping a rows A m cols Hin Hrel Ed Hok HF), Hb.
Qed.
Lemma b_swap_drop_bomb F a rows A m r h mm e c : in_U U cs ->
  ast F (a, e) (A, m) -> a_desc a = d -> arch_ok a cs rows -> rows !! r = Some (h, mm) -> existsb v_bomb (row_values cs mm) = true ->
  exists a' A' m' e', swap_drop_unchecked c r (a, e) = Panic (a', e') /\ b_swap_drop c r (A, m) = Panic (A', m') /\
    ast F (a', e') (A', m') /\ kept F m m' /\
    e' = emitted e (map EvDrop (until_bomb (row_values cs mm))) /\ a_desc a' = d /\ a_cap a' = a_cap a /\ arch_ok a' cs (swapl r (length rows - 1) rows).
Proof using Hd Hsm Hla.
  intros Hin Ha Ed Hok Hr Hb. pose proof (lookup_lt_Some _ _ _ Hr) as Hlt. pose proof (as_rel _ _ _ Ha) as Hrel. cbn [fst snd] in Hrel.
  pose proof (as_env _ _ _ Ha) as He. cbn [fst snd] in He.
  unfold swap_drop_unchecked. unfold bind at 1, am_get at 1. cbn [fst].
  erewrite (bind_Ret (mdebug_assert _ _)); [|apply mdebug_true; unfold a_len; rewrite (count_ok cs _ _ Hok); by apply Nat.ltb_lt].
  erewrite bind_Ret; [|apply lift_Rd; apply (last_row_ok cs); [done|lia]].
  assert (El' : b_last_row c A = Rd (length rows - 1)).
  { pose proof (last_row_ok cs c a rows Hok ltac:(lia)) as E. unfold last_row in E. unfold b_last_row. by rewrite (ar_count _ _ _ Hrel). }
  assert (Eb : b_swap_drop c r (A, m) = (if r =? length rows - 1 then b_drop_entity r ;;! b_decrement_len c ;;! ret false
    else b_swap_entities r (length rows - 1) ;;! b_drop_entity (length rows - 1) ;;! b_decrement_len c ;;! ret true) (A, m)).
  { unfold b_swap_drop. unfold bind at 1, bm_get at 1. cbn [fst].
    erewrite (bind_Ret (mdebug_assert _ _)); [|apply mdebug_true; rewrite (ar_count _ _ _ Hrel), (count_ok cs _ _ Hok); by apply Nat.ltb_lt].
    rewrite El'. erewrite bind_Ret; [done|by apply lift_Rd]. }
  rewrite Eb. clear Eb.
  destruct (r =? length rows - 1) eqn:El.
  - apply Nat.eqb_eq in El. exists a, A, (put_env m (emitted e (map EvDrop (until_bomb (row_values cs mm))))), (emitted e (map EvDrop (until_bomb (row_values cs mm)))).
    split; [unfold bind at 1; by rewrite (drop_entity_dropping d cs Hd a rows r h mm Ed Hok Hr), Hb|].
    split; [unfold bind at 1; rewrite <- (put_env_id m) at 1; rewrite (b_entity_dropping a rows A m r h mm Hin Hrel Ed Hok Hr), Hb; by rewrite He|].
    split; [by apply (ast_env F (a, e) (A, m))|]. split; [done|]. split; [done|]. by rewrite El, swapl_id.
  - apply Nat.eqb_neq in El.
    destruct (swap_ok d cs Hd a rows r (length rows - 1) e Ed Hok Hlt ltac:(lia) El) as (a1&E1&Ed1&Ec1&Hok1).
    destruct (sim_swap_entities F (a, e) (A, m) _ _ Ha _ _ E1) as ([A1 m1]&B1&Ha1&Hk1).
    rewrite (bind_Ret _ _ _ _ _ E1), (bind_Ret _ _ _ _ _ B1).
    assert (Hr1 : swapl r (length rows - 1) rows !! (length rows - 1) = Some (h, mm)).
    { rewrite swapl_lookup by lia. unfold swp. rewrite decide_False by lia. by rewrite decide_True. }
    pose proof (as_env _ _ _ Ha1) as He1. cbn [fst snd] in He1.
    exists a1, A1, (put_env m1 (emitted e (map EvDrop (until_bomb (row_values cs mm))))), (emitted e (map EvDrop (until_bomb (row_values cs mm)))).
    split; [unfold bind at 1; by rewrite (drop_entity_dropping d cs Hd a1 _ _ h mm Ed1 Hok1 Hr1), Hb|].
    split; [unfold bind at 1; rewrite <- (put_env_id m1) at 1; rewrite (b_entity_dropping a1 _ A1 m1 _ h mm Hin (as_rel _ _ _ Ha1) Ed1 Hok1 Hr1), Hb; by rewrite He1|].
    split; [by apply (ast_env F (a1, e) (A1, m1))|]. split; [exact Hk1|]. done.
Qed.
End drops.
