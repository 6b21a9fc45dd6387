(** Proofs for C53: changing the storage of one archetype. *)
From Verif Require Import RegModel ByteModel SearchProofs MonadProofs DescrProofs ArchProofs ArchOps Bytes Bytes2 SpecBytes SpecBase SpecWorld.
Local Open Scope nat_scope.

(** ** The methods keep the descriptor *)
Lemma write_cell_desc i row c s s' : write_cell i row c s = Ret tt s' -> a_desc s'.1 = a_desc s.1.
Proof.
  unfold write_cell. destruct (a_ptrs s.1 !! i) as [[b|]|]; [|done|done]. destruct (_ <? _); [|done]. by intros [= <-].
Qed.
Lemma set_assoc_desc a i c : a_desc (set_assoc_cell a i c) = a_desc a.
Proof. unfold set_assoc_cell. by destruct (a_assoc a). Qed.
Lemma swap_cells_desc f l x s s' : swap_cells f l x s = Ret tt s' -> a_desc s'.1 = a_desc s.1.
Proof.
  destruct x as [i d]. unfold swap_cells. destruct (f =? l); [done|]. unfold bind, am_rd.
  destruct (raw_cell s.1 i f) as [c1| |]; cbn [lift_rd]; [|done..]. destruct (raw_cell s.1 i l) as [c2| |]; cbn [lift_rd]; [|done..].
  destruct (write_cell i f c2 s) as [[] s1| |] eqn:E1; [|done..]. intros E2.
  by rewrite (write_cell_desc _ _ _ _ _ E2), (write_cell_desc _ _ _ _ _ E1).
Qed.

Lemma mdebug_inv {X} d b (s s' : X) : mdebug_assert d b s = Ret tt s' -> s' = s.
Proof. unfold mdebug_assert, massert, ret, mpanic. destruct d; [destruct b|]; congruence. Qed.
Lemma lift_inv {X Y} (x : rd X) (s s' : Y) v : lift_rd x s = Ret v s' -> x = Rd v /\ s' = s.
Proof. unfold lift_rd. destruct x; [|done..]. by intros [= -> ->]. Qed.

Section change.
Context {U : list ctype} (Hst : strict (ids_of U)) (Hsm : Forall small U) (Hla : laid_out U).
Notation arel := (@Bytes.arel U).
Notation ast := (@Bytes.ast U).
Notation sim := (@Bytes.sim U).

Lemma sim_mfor_J {X} (I : arch -> Prop) (J : mem -> Prop) F (l : list X) (f : X -> AM unit) (g : X -> BAM unit) s S1 :
  I s.1 -> J S1.2 -> (forall m m', J m -> kept F m m' -> J m') ->
  (forall x s S1, x ∈ l -> I s.1 -> J S1.2 -> ast F s S1 -> sim F s S1 (f x) (g x)) ->
  (forall x s s', x ∈ l -> I s.1 -> f x s = Ret tt s' -> I s'.1) ->
  sim F s S1 (mfor l f) (mfor l g).
Proof.
  intros HI HJ HJk. revert s S1 HI HJ. induction l as [|x l IH]; intros s S1 HI HJ Hs Hp; cbn [mfor]; [apply sim_ret|].
  intros Ha [] s' E. unfold bind in E. destruct (f x s) as [[] s1| |] eqn:Ef; [|done..].
  destruct (Hs x s S1 ltac:(apply elem_of_list_here) HI HJ Ha Ha _ _ Ef) as (S2&Eg&Ha2&Hk2).
  destruct (IH s1 S2) with (x := tt) (s' := s') as (S3&Eg3&Ha3&Hk3); try done.
  - eapply Hp; [apply elem_of_list_here|done|done].
  - by eapply HJk.
  - intros y t T Hy. apply Hs. by apply elem_of_list_further.
  - intros y t t' Hy. apply Hp. by apply elem_of_list_further.
  - exists S3. split; [unfold bind; by rewrite Eg|]. split; [done|]. by eapply kept_trans.
Qed.

(** ** Swapping *)
Lemma sim_swap_cells F s S1 first second i d :
  a_comps s.1 !! i = Some d -> sim F s S1 (swap_cells first second (i, d)) (b_swap_cells first second (i, d)).
Proof.
  intros Hd Ha [] s' E. unfold swap_cells in E. destruct (Nat.eqb_spec first second) as [|Hne]; [done|].
  unfold bind, am_rd in E. destruct (raw_cell s.1 i first) as [c1| |] eqn:E1; cbn [lift_rd] in E; [|done..].
  destruct (raw_cell s.1 i second) as [c2| |] eqn:E2; cbn [lift_rd] in E; [|done..].
  destruct (write_cell i first c2 s) as [[] s1| |] eqn:W1; [|done..].
  destruct (cell_load _ _ _ _ _ _ _ (as_rel _ _ _ Ha) Hd E1) as (id&Hq&P1&L1).
  destruct (cell_load _ _ _ _ _ _ _ (as_rel _ _ _ Ha) Hd E2) as (id'&Hq'&P2&L2). rewrite Hq in Hq'. injection Hq' as <-.
  destruct (cell_write _ _ _ _ _ _ _ _ Ha Hd W1) as (id'&m1&Hq'&_&St1&Ha1&Hk1). rewrite Hq in Hq'. injection Hq' as <-.
  assert (Hd1 : a_comps s1.1 !! i = Some d) by (unfold a_comps; by rewrite (write_cell_desc _ _ _ _ _ W1)).
  destruct (cell_write _ _ _ _ _ _ _ _ Ha1 Hd1 E) as (id'&m2&Hq'&_&St2&Ha2&Hk2). cbn [fst] in Hq'. rewrite Hq in Hq'. injection Hq' as <-.
  exists (S1.1, m2). split; [|split; [done|by eapply kept_trans]].
  unfold b_swap_cells, bind, bm_rd. rewrite P1. cbn [lift_rd]. rewrite P2. cbn [lift_rd]. unfold bm_mem, swap_bytes, bind, get_st.
  assert (Hdj : disjoint_ranges (Some (id, first * dsize d)) (Some (id, second * dsize d)) (dsize d) = true).
  { unfold disjoint_ranges. rewrite N.eqb_refl. cbn [negb orb]. apply orb_true_iff. rewrite !Nat.leb_le.
    assert (first < second \/ second < first) as [|] by lia; [left|right]; nia. }
  rewrite Hdj. cbn [negb]. rewrite L1. cbn [lift_rd]. rewrite L2. cbn [lift_rd]. rewrite St1. cbn [snd] in St2. by rewrite St2.
Qed.
Lemma sim_swap_entities F s S1 first second : sim F s S1 (swap_entities first second) (b_swap_entities first second).
Proof.
  apply sim_get. intros Ha. rewrite (ar_comps _ _ _ (as_rel _ _ _ Ha)). apply sim_bind.
  - apply (sim_mfor (fun a => a_desc a = a_desc s.1)); [done| |].
    + intros x t T Hx HI _. apply elem_of_list_lookup in Hx as (i&Hi). apply enum_lookup_inv in Hi as (d&->&Hi).
      apply sim_swap_cells. unfold a_comps. by rewrite HI.
    + intros x t t' _ HI E. by rewrite (swap_cells_desc _ _ _ _ _ E).
  - intros [] s' S' _ _. apply sim_swap_assoc.
Qed.
Lemma swap_entities_desc first second s s' : swap_entities first second s = Ret tt s' -> a_desc s'.1 = a_desc s.1.
Proof.
  unfold swap_entities, bind, am_get. assert (forall l s s1, mfor l (swap_cells first second) s = Ret tt s1 -> a_desc s1.1 = a_desc s.1) as Hm.
  { intros l. induction l as [|x l IH]; intros t t1; cbn [mfor]; [by intros [= <-]|]. unfold bind.
    destruct (swap_cells first second x t) as [[] t2| |] eqn:E; [|done..]. intros E2. by rewrite (IH _ _ E2), (swap_cells_desc _ _ _ _ _ E). }
  destruct (mfor _ _ s) as [[] s1| |] eqn:E1; [|done..]. unfold swap_assoc. destruct (entity_cells s1.1) as [cells| |]; [|done..].
  destruct (cells !! first); [|done]. destruct (cells !! second); [|done]. intros [= <-]. cbn. rewrite <- (Hm _ _ _ E1).
  by rewrite !set_assoc_desc.
Qed.

(** ** Dropping *)
Definition put_env (m : mem) (e : env) : mem := Mem (m_blocks m) (m_next m) (m_place m) e.
Lemma ast_env F s S1 e : ast F s S1 -> ast F (s.1, e) (S1.1, put_env S1.2 e).
Proof. intros []. by split. Qed.
Lemma sim_drop_rows F C i id n : forall start k s S1,
  C ∈ U -> a_comps s.1 !! i = Some (cdesc_of C) -> b_ptrs S1.1 !! i = Some (Some (id, 0)) ->
  sim F s S1 (mfor (seq (start + k) n) (drop_cell C i)) (mfor (seq k n) (b_drop_at C (Some (id, size_of C * start)))).
Proof using Hsm Hla.
  induction n as [|n IH]; intros start k s S1 HC Hd Hq; cbn [seq mfor]; [apply sim_ret|].
  intros Ha [] s' E. unfold bind at 1 in E. destruct (drop_cell C i (start + k) s) as [[] s1| |] eqn:Ed; [|done..].
  unfold drop_cell, bind, am_rd in Ed. destruct (typed_cell C s.1 i (start + k)) as [v| |] eqn:Et; cbn [lift_rd] in Ed; [|done..].
  unfold am_env, emit in Ed. destruct (v_bomb v) eqn:Eb; [done|]. injection Ed as <-.
  destruct (typed_read Hsm Hla _ _ _ _ _ _ _ (as_rel _ _ _ Ha) HC Hd Et) as (id'&Hq'&_&Hr). rewrite Hq in Hq'. injection Hq' as <-.
  pose proof (ast_env _ _ _ (Env (ev_trace s.2 ++ [EvDrop v]) (ev_oracle s.2)) Ha) as Ha1.
  rewrite <- Nat.add_succ_r in E.
  destruct (IH start (S k) (s.1, _) (S1.1, _) HC Hd Hq Ha1 _ _ E) as (S3&E3&Ha3&Hk3). exists S3. split; [|split; [done|exact Hk3]].
  unfold bind at 1, b_drop_at at 1, bind, bm_rd. unfold elem. replace (size_of C * start + k * size_of C) with (size_of C * (start + k)) by lia.
  rewrite Hr. cbn [lift_rd]. unfold bm_mem, mm_env, emit. rewrite (as_env _ _ _ Ha), Eb. exact E3.
Qed.
Lemma sim_drop_handler F s S1 i d start n m_ :
  a_comps s.1 !! i = Some d -> ast F s S1 ->
  forall s', run_drop_handler d i start n s = Ret tt s' -> m_ = S1.2 -> (n = 0 -> start = 0) ->
  exists p S', column_at S1.1 m_ i (start * dsize d) = Rd p /\ b_run_drop_handler d p n S1 = Ret tt S' /\ ast F s' S' /\ kept F S1.2 S'.2.
Proof using Hsm Hla.
  intros Hd Ha s' E -> Hn. destruct (knows_at _ _ _ (ar_knows _ _ _ (as_rel _ _ _ Ha)) Hd) as (C&HC&->).
  unfold run_drop_handler in E. cbn [cd_drop cdesc_of] in E. unfold bind, am_get in E.
  destruct (a_ptrs s.1 !! i) as [[b|]|] eqn:Ep; [|done|done].
  destruct (column_here Hsm _ _ _ _ _ _ (as_rel _ _ _ Ha) HC Hd Ep) as (id&base&Hq&HH&Hdiv).
  assert (Hrows : start + n <= length (bl_cells b)).
  { destruct n as [|n]; [specialize (Hn eq_refl); lia|].
    assert (forall k n s s', mfor (seq k (S n)) (drop_cell C i) s = Ret tt s' -> a_ptrs s.1 !! i = Some (Some b) -> k + n < length (bl_cells b)) as Hg.
    { clear. intros k n. revert k. induction n as [|n IH]; intros k s s' E Ep; cbn [seq mfor] in E; unfold bind at 1 in E;
        destruct (drop_cell C i k s) as [[] s1| |] eqn:Ed; try done;
        unfold drop_cell, bind, am_rd in Ed; destruct (typed_cell C s.1 i k) as [v| |] eqn:Et; cbn [lift_rd] in Ed; try done;
        unfold am_env, emit in Ed; destruct (v_bomb v); try done; injection Ed as <-.
      - unfold typed_cell, raw_cell in Et. rewrite Ep in Et. destruct (bl_cells b !! k) eqn:Ec; cbn [rbind] in Et; [|done].
        apply lookup_lt_Some in Ec. lia.
      - pose proof (IH (S k) _ _ E Ep). lia. }
    pose proof (Hg _ _ _ _ E Ep). lia. }
  exists (Some (id, size_of C * start)). destruct (sim_drop_rows F C i id n start 0 s S1 HC Hd Hq Ha tt s') as (S'&ES&Ha'&Hk').
  { by rewrite Nat.add_0_r. }
  exists S'. split; [|split; [|done]].
  - rewrite (dsize_of Hsm) by done. rewrite Nat.mul_comm. unfold column_at. rewrite Hq. eapply offset_ok; [done|]. rewrite col_len. nia.
  - unfold b_run_drop_handler. cbn [cd_drop cdesc_of]. unfold bind, bm_rd.
    assert (Hok : slice_ok S1.2 (Some (id, size_of C * start)) (ct_align C) (size_of C) n = true).
    { unfold slice_ok. apply andb_true_iff. split.
      - eapply aligned_ok; [done|done|by apply (size_align Hla)|by apply (align_pos Hsm)].
      - erewrite load_ok; [done|done|done|]. rewrite col_len. nia. }
    rewrite Hok. cbn [lift_rd negb]. exact ES.
Qed.
Lemma drop_cell_desc C i row s s' : drop_cell C i row s = Ret tt s' -> s'.1 = s.1.
Proof.
  unfold drop_cell, bind, am_rd. destruct (typed_cell C s.1 i row) as [v| |]; cbn [lift_rd]; [|done..].
  unfold am_env, emit. destruct (v_bomb v); [done|]. by intros [= <-].
Qed.
Lemma run_drop_desc d i start n s s' : run_drop_handler d i start n s = Ret tt s' -> s'.1 = s.1.
Proof.
  unfold run_drop_handler. destruct (cd_drop d) as [C|]; [|by intros [= <-]]. unfold bind, am_get.
  destruct (a_ptrs s.1 !! i) as [[b|]|]; [|done|done]. generalize (seq start n). intros l. revert s.
  induction l as [|x l IH]; intros s; cbn [mfor]; [by intros [= <-]|]. unfold bind at 1.
  destruct (drop_cell C i x s) as [[] s1| |] eqn:E; [|done..]. intros E2. by rewrite (IH _ E2), (drop_cell_desc _ _ _ _ _ E).
Qed.
Lemma sim_drop_entity F s S1 row : sim F s S1 (drop_entity row) (b_drop_entity row).
Proof using Hsm Hla.
  apply sim_get. intros Ha. rewrite (ar_comps _ _ _ (as_rel _ _ _ Ha)).
  apply (sim_mfor (fun a => a_desc a = a_desc s.1)); [done| |].
  - intros x t T Hx HI _. apply elem_of_list_lookup in Hx as (i&Hi). apply enum_lookup_inv in Hi as (d&->&Hi).
    intros Hat [] t' E. destruct (sim_drop_handler _ _ T _ _ _ _ T.2 ltac:(unfold a_comps; rewrite HI; exact Hi) Hat _ E) as (p&T'&Hp&Hr&Ha'&Hk'); [done|done|].
    exists T'. split; [|done]. unfold bind, bm_rd. by rewrite Hp.
  - intros [i d] t t' _ HI E. by rewrite (run_drop_desc _ _ _ _ _ _ E).
Qed.
Lemma sim_drop_entities F s S1 : sim F s S1 drop_entities b_drop_entities.
Proof using Hsm Hla.
  apply sim_get. intros Ha. rewrite (ar_comps _ _ _ (as_rel _ _ _ Ha)). rewrite (ar_count _ _ _ (as_rel _ _ _ Ha)).
  apply (sim_mfor (fun a => a_desc a = a_desc s.1)); [done| |].
  - intros x t T Hx HI _. apply elem_of_list_lookup in Hx as (i&Hi). apply enum_lookup_inv in Hi as (d&->&Hi).
    intros Hat [] t' E. destruct (sim_drop_handler _ _ T _ _ _ _ T.2 ltac:(unfold a_comps; rewrite HI; exact Hi) Hat _ E) as (p&T'&Hp&Hr&Ha'&Hk'); [done|done|].
    exists T'. split; [|done]. unfold bind, bm_rd. cbn [Nat.mul] in Hp. by rewrite Hp.
  - intros [i d] t t' _ HI E. by rewrite (run_drop_desc _ _ _ _ _ _ E).
Qed.
(** ** Counting *)
Lemma ast_count F s S1 n : ast F s S1 -> ast F (set_count s.1 n, s.2) (bset_count S1.1 n, S1.2).
Proof. intros [[] ? ? ? ?]. by split. Qed.
Lemma sim_decrement F s S1 c : sim F s S1 (decrement_len_unchecked c) (b_decrement_len c).
Proof.
  apply sim_get. intros Ha. rewrite (ar_count _ _ _ (as_rel _ _ _ Ha)). destruct (a_count s.1) as [|n].
  - destruct (dbg c); [apply sim_panic|apply sim_ub].
  - intros _ [] s' [= <-]. eexists. split; [done|]. split; [by apply ast_count|apply kept_refl].
Qed.
Lemma sim_increment F s S1 : sim F s S1 (am_upd (fun a => set_count a (S (a_count a)))) (bm_upd (fun a => bset_count a (S (b_count a)))).
Proof.
  intros Ha [] s' [= <-]. exists (bset_count S1.1 (S (a_count s.1)), S1.2).
  split; [unfold bm_upd; by rewrite (ar_count _ _ _ (as_rel _ _ _ Ha))|]. split; [by apply ast_count|apply kept_refl].
Qed.
Lemma sim_last F s S1 t T c : ast F s S1 -> sim F t T (lift_rd (last_row c s.1)) (lift_rd (b_last_row c S1.1)).
Proof. intros Ha. apply sim_lift. intros v. unfold last_row, b_last_row. by rewrite (ar_count _ _ _ (as_rel _ _ _ Ha)). Qed.
Lemma sim_swap_drop F s S1 c row : sim F s S1 (swap_drop_unchecked c row) (b_swap_drop c row).
Proof using Hsm Hla.
  apply sim_get. intros Ha. apply sim_bind; [apply sim_debug; by rewrite (ar_count _ _ _ (as_rel _ _ _ Ha))|]. intros [] s1 T1 _ _.
  apply sim_bind; [by apply (sim_last F s S1)|]. intros last s2 T2 _ _. destruct (row =? last).
  - apply sim_bind; [apply sim_drop_entity|intros [] ? ? _ _]. apply sim_bind; [apply sim_decrement|intros [] ? ? _ _]. apply sim_ret.
  - apply sim_bind; [apply sim_swap_entities|intros [] ? ? _ _].
    apply sim_bind; [apply sim_drop_entity|intros [] ? ? _ _]. apply sim_bind; [apply sim_decrement|intros [] ? ? _ _]. apply sim_ret.
Qed.
Lemma sim_swap_to_last F s S1 c row : sim F s S1 (swap_to_last_unchecked c row) (b_swap_to_last c row).
Proof.
  apply sim_get. intros Ha. apply sim_bind; [apply sim_debug; by rewrite (ar_count _ _ _ (as_rel _ _ _ Ha))|]. intros [] s1 T1 _ _.
  apply sim_bind; [by apply (sim_last F s S1)|]. intros last s2 T2 _ _. destruct (row =? last); [apply sim_ret|].
  apply sim_bind; [apply sim_swap_entities|intros [] ? ? _ _]. apply sim_ret.
Qed.
Lemma sim_swap_remove F s S1 c G g row : gspec (big c) G g -> in_U U G -> a_comps s.1 = map cdesc_of g ->
  sim F s S1 (swap_remove_unchecked c G row) (b_swap_remove c G row).
Proof using Hsm Hla.
  intros Hg Hin Hc. apply sim_get. intros Ha. apply sim_bind; [apply sim_debug; by rewrite (ar_count _ _ _ (as_rel _ _ _ Ha))|]. intros [] s1 T1 E1 _.
  apply mdebug_inv in E1 as ->.
  apply sim_bind; [by apply (sim_last F s S1)|]. intros last s2 T2 E2 _.
  apply lift_inv in E2 as [_ ->]. destruct (row =? last).
  - apply sim_bind.
    + apply sim_rd. intros Ht v E. eapply (read_exact_sim Hsm Hla); [exact Hg|exact Hin|exact Hc|apply (as_rel _ _ _ Ht)|exact E].
    + intros data ? ? _ _. apply sim_bind; [apply sim_decrement|intros [] ? ? _ _]. apply sim_ret.
  - apply sim_bind; [apply sim_swap_entities|]. intros [] s3 T3 E3 _. apply sim_bind.
    + apply sim_rd. intros Ht v E. eapply (read_exact_sim Hsm Hla); [exact Hg|exact Hin| |apply (as_rel _ _ _ Ht)|exact E].
      unfold a_comps. by rewrite (swap_entities_desc _ _ _ _ E3).
    + intros data ? ? _ _. apply sim_bind; [apply sim_decrement|intros [] ? ? _ _]. apply sim_ret.
Qed.
End change.
