(** Proofs for C70: refused allocations over the byte-level storage. *)
From Verif Require Import ByteReg SearchProofs MonadProofs DescrProofs ArchProofs ArchOps SpecObs SpecCrash SpecAlloc Alloc Alloc2 Alloc3 Bytes Bytes2 Bytes3 Bytes4 Bytes5 SpecBytes SpecBase SpecWorld.
Local Open Scope nat_scope.

(** ** One archetype *)
Section archetype.
Context {U : list ctype} (Hst : strict (ids_of U)) (Hsm : Forall small U) (Hla : laid_out U).
Notation arel := (@Bytes.arel U).
Notation ast := (@Bytes.ast U).
Notation sim := (@Bytes.sim U).
Notation a_same := (osim er_am (fun s : arch * env => ev_oracle s.2)).
Notation a_quiet := (still (fun s : arch * env => ev_oracle s.2)).

(** If the method would have returned, had no request been refused, and panics,
    then so does the byte-level one; blocks may be left without an owner. *)
Definition psim {X} (F : list N) (s : arch * env) (S1 : barch * mem) (f : AM X) (g : BAM X) : Prop :=
  ast F s S1 -> forall y u s', f (er_am s) = Ret y u -> f s = Panic s' ->
  exists S' lk, g S1 = Panic S' /\ ast (lk ++ F) s' S' /\ kept F S1.2 S'.2.
Lemma psim_quiet {X} F s S1 (f : AM X) g : a_same f -> a_quiet f -> psim F s S1 f g.
Proof. intros H1 H2 _ y u s' E1 E2. exfalso. by eapply (no_panic er_am (fun s => ev_oracle s.2)). Qed.
Lemma psim_bind {X Y} F s S1 (f : AM X) g (k : X -> AM Y) k' :
  a_same f -> sim F s S1 f g -> psim F s S1 f g ->
  (forall x s' S', f s = Ret x s' -> g S1 = Ret x S' -> psim F s' S' (k x) (k' x)) -> psim F s S1 (bind f k) (bind g k').
Proof.
  intros Ho Hf Hp Hk Ha y u s' E1 E2.
  destruct (panic_split er_am (fun s => ev_oracle s.2) _ _ _ _ _ _ Ho E1 E2) as [[Ef _]|(x&s1&Ef&Efe&Ek&Eke)].
  - unfold bind in E1. destruct (f (er_am s)) as [x1 s1| |] eqn:E3; [|done..]. destruct (Hp Ha _ _ _ E3 Ef) as (S'&lk&Eg&H'). exists S', lk.
    split; [|exact H']. unfold bind. by rewrite Eg.
  - destruct (Hf Ha _ _ Ef) as (S2&Eg&Ha2&Hk2). destruct (Hk _ _ _ Ef Eg Ha2 _ _ _ Eke Ek) as (S3&lk&Eg3&Ha3&Hk3).
    exists S3, lk. split; [unfold bind; by rewrite Eg|]. split; [done|]. by eapply kept_trans.
Qed.
(** Only the first part asks for memory. *)
Lemma psim_first {X Y} F s S1 (f : AM X) g (k : X -> AM Y) k' :
  a_same f -> sim F s S1 f g -> psim F s S1 f g -> (forall x, a_same (k x)) -> (forall x, a_quiet (k x)) ->
  psim F s S1 (bind f k) (bind g k').
Proof. intros Ho Hf Hp Hk1 Hk2. apply psim_bind; [done..|]. intros x s' S' _ _. by apply psim_quiet. Qed.
Lemma psim_get {X} F s S1 (k : arch -> AM X) k' :
  (ast F s S1 -> psim F s S1 (k s.1) (k' S1.1)) -> psim F s S1 (bind am_get k) (bind bm_get k').
Proof. intros H Ha. exact (H Ha Ha). Qed.
Lemma psim_mfor {X} (I : arch -> Prop) F (l : list X) (f : X -> AM unit) (g : X -> BAM unit) s S1 :
  I s.1 -> (forall x, a_same (f x)) ->
  (forall x s S1, x ∈ l -> I s.1 -> ast F s S1 -> sim F s S1 (f x) (g x) /\ psim F s S1 (f x) (g x)) ->
  (forall x s s', x ∈ l -> I s.1 -> f x s = Ret tt s' -> I s'.1) ->
  psim F s S1 (mfor l f) (mfor l g).
Proof.
  intros HI Ho. revert s S1 HI. induction l as [|x l IH]; intros s S1 HI Hs Hp; cbn [mfor]; [by intros ? ? ? ? _ [=]|]. intros Ha.
  destruct (Hs x s S1 ltac:(apply elem_of_list_here) HI Ha) as [H1 H2].
  apply psim_bind; [apply Ho|done|done| |done]. intros [] s' S' Ef Eg.
  apply IH; [eapply Hp; [apply elem_of_list_here|done|done]|..].
  - intros y t T Hy. apply Hs. by apply elem_of_list_further.
  - intros y t t' Hy. apply Hp. by apply elem_of_list_further.
Qed.

(** *** Refused requests *)
Section alloc.
  Context {A : Type} (f : A -> list mbyte) (n : nat) (al : N) (Hf : forall x, length (f x) = n).
  Lemma realloc_refused m os ns nc (p : ptr A) q e' : prel f n al (m_blocks m) p q ->
    mem_realloc p os al ns nc (m_env m) = Ret None e' ->
    exists id, q = Some (id, 0) /\ mm_realloc q os al ns m = Ret None (Mem (m_blocks m) (m_next m) (m_place m) e').
  Proof using Hf.
    intros Hp E. unfold mem_realloc in E. destruct p as [b0|]; [|done]. destruct q as [[id o]|]; cbn [prel] in Hp; [|done].
    destruct Hp as (->&Hal&Hsz&base&HH&Hdiv). destruct (N.eqb_spec (bl_size b0) os) as [Hos|]; [|done]. destruct (N.eqb_spec (bl_align b0) al); [|done].
    destruct (N.eqb_spec ns 0) as [|Hns]; [done|]. cbn [andb negb] in E. unfold bind in E.
    assert (Hlay : has_layout m (Some (id, 0)) os al = Some (id, col_bytes f n (bl_cells b0))).
    { unfold has_layout. rewrite HH. cbn [hb_bytes hb_align]. rewrite (col_bytes_length _ _ Hf). rewrite <- Hsz, Hos, !N.eqb_refl. done. }
    destruct (ask_allocator (m_env m)) as [ok e1|e1|] eqn:Ea; [|done..].
    destruct ok; [done|]. cbn in E. injection E as <-. exists id. split; [done|].
    unfold mm_realloc, bind, get_st. rewrite Hlay. destruct (N.eqb_spec ns 0) as [|_]; [done|]. unfold mm_env at 1. rewrite Ea. done.
  Qed.
End alloc.
Lemma realloc_no_panic {A} (p : ptr A) os al ns nc e e' : mem_realloc p os al ns nc e <> Panic e'.
Proof. unfold mem_realloc, bind. destruct p; [|done]. destruct (_ && _); [|done]. destruct e as [tr [|[] l]]; done. Qed.
Lemma forget_column F s S1 i d id q m' : ast F s S1 -> a_comps s.1 !! i = Some d -> b_ptrs S1.1 !! i = Some q -> q = Some (id, 0) ->
  m_blocks m' = m_blocks S1.2 -> m_next m' = m_next S1.2 ->
  ast ([id] ++ F) (set_ptrs s.1 (<[i := None]> (a_ptrs s.1)), m_env m') (bset_ptrs S1.1 (<[i := None]> (b_ptrs S1.1)), m').
Proof.
  intros Ha Hd Hq -> Hb Hn. apply heap_ast; cbn [fst snd].
  - rewrite Hb. pose proof (as_rel _ _ _ Ha) as [Dd Dk Dc Dp Dl Dcol Dr Das]. split; cbn; try done.
    + by rewrite !insert_length.
    + intros j dj pj qj Hdj Hpj Hqj. destruct (decide (j = i)) as [->|Hne].
      * rewrite list_lookup_insert in Hqj by (by eapply lookup_lt_Some). injection Hqj as <-.
        rewrite list_lookup_insert in Hpj by (rewrite <- Dl; by eapply lookup_lt_Some). by injection Hpj as <-.
      * rewrite list_lookup_insert_ne in Hpj by done. rewrite list_lookup_insert_ne in Hqj by done. by eapply Dcol.
    + intros j pj qj Hdj Hpj Hqj. destruct (decide (j = i)) as [->|Hne].
      * change (a_comps s.1 !! i = None) in Hdj. by rewrite Hd in Hdj.
      * rewrite list_lookup_insert_ne in Hpj by done. rewrite list_lookup_insert_ne in Hqj by done. by eapply Dr.
  - rewrite Hb, Hn. destruct (own_set_ptr _ _ _ Hq) as (R&HR&HR'). eapply heap_ok_perm; [|apply (ast_heap _ _ _ Ha)].
    rewrite HR, (HR' None). unfold ids_opt. cbn. apply Permutation_middle.
  - done.
Qed.
Lemma forget_handles F s S1 id m' : ast F s S1 -> b_assoc S1.1 = Some (id, 0) ->
  m_blocks m' = m_blocks S1.2 -> m_next m' = m_next S1.2 ->
  ast ([id] ++ F) (set_assoc s.1 None, m_env m') (bset_assoc S1.1 None, m').
Proof.
  intros Ha Hq Hb Hn. apply heap_ast; cbn [fst snd].
  - rewrite Hb. pose proof (as_rel _ _ _ Ha) as [Dd Dk Dc Dp Dl Dcol Dr Das]. by split.
  - rewrite Hb, Hn. destruct (own_set_assoc S1.1) as (R&HR&HR'). eapply heap_ok_perm; [|apply (ast_heap _ _ _ Ha)].
    rewrite HR, (HR' None), Hq. unfold ids_opt. cbn. apply Permutation_middle.
  - done.
Qed.
Lemma psim_realloc_column F s S1 oc nc i d : a_comps s.1 !! i = Some d ->
  psim F s S1 (realloc_column oc nc (i, d)) (b_realloc_column oc nc (i, d)).
Proof.
  intros Hd Ha y u s' E1 E. unfold realloc_column, bind, am_get in E, E1. cbn [fst er_am] in E1. destruct (a_ptrs s.1 !! i) as [p|] eqn:Ep; [|done]. clear E1.
  unfold am_env in E. destruct (mem_realloc p _ _ _ nc s.2) as [p' e'|e'|] eqn:Em; [|by apply realloc_no_panic in Em|done].
  destruct p' as [b'|]; [done|]. cbn in E. injection E as <-.
  destruct (lookup_lt_is_Some_2 (b_ptrs S1.1) i) as [q Eq].
  { rewrite (ar_len _ _ _ (as_rel _ _ _ Ha)). by eapply lookup_lt_Some. }
  pose proof (ar_col _ _ _ (as_rel _ _ _ Ha) _ _ _ _ Hd Ep Eq) as Hp. rewrite <- (as_env _ _ _ Ha) in Em.
  destruct (realloc_refused _ _ _ (val_bytes_length _) _ _ _ _ _ _ _ Hp Em) as (id&Hq&Er).
  eexists _, [id]. split; [unfold b_realloc_column, bind, bm_get; rewrite Eq; unfold bm_mem; rewrite Er; done|]. split.
  - exact (forget_column F s S1 i d id q (Mem (m_blocks S1.2) (m_next S1.2) (m_place S1.2) e') Ha Hd Eq Hq eq_refl eq_refl).
  - by intros j.
Qed.
Lemma psim_resize F s S1 change : psim F s S1 (resize_capacity change) (b_resize_capacity change).
Proof.
  apply psim_get. intros Ha. rewrite (ar_cap _ _ _ (as_rel _ _ _ Ha)). cbv zeta. destruct (_ || _)%Z; [apply psim_quiet; [apply asim_dealloc|apply astill_dealloc]|].
  set (nc := Z.to_nat (Z.of_nat (a_cap s.1) + change)). intros _ y u s' E1 E.
  unfold bind at 1, am_env in E. destruct (mem_realloc (a_assoc s.1) _ _ _ nc s.2) as [p' e'|e'|] eqn:Em; [|by apply realloc_no_panic in Em|done].
  pose proof Em as Em'. rewrite <- (as_env _ _ _ Ha) in Em. unfold bind at 1 in E. unfold am_upd in E at 1. unfold bind at 1 in E. destruct p' as [b'|].
  - cbn [massert ret fst snd] in E. unfold ret in E.
    destruct (realloc_mem _ _ _ handle_bytes_length _ _ _ _ _ _ _ _ (ar_assoc _ _ _ (as_rel _ _ _ Ha)) Em ltac:(unfold ENTITY_SIZE; lia) ltac:(done)) as (id&blk&m'&Eq&_&Er&He&Hn&(h&Hb)&Hp').
    destruct (realloc_moved _ _ _ _ _ _ Ha Hb Hn) as (Hm1&Hm2&Hm3). rewrite <- Eq in Hm1, Hm3.
    destruct (set_handles _ _ _ _ _ _ _ Ha Hm1 Hm2 Hp' He Hm3) as [Ha' Hk].
    assert (Hs : psim F (set_assoc s.1 (Some b'), e') (bset_assoc S1.1 (Some (m_next S1.2, 0)), m')
      (mfor (enum (a_comps s.1)) (realloc_column (a_cap s.1) nc) ;;! am_upd (fun a => set_cap a nc))
      (mfor (enum (b_comps S1.1)) (b_realloc_column (a_cap s.1) nc) ;;! bm_upd (fun a => bset_cap a nc))).
    { rewrite (ar_comps _ _ _ (as_rel _ _ _ Ha)).
      assert (Hx : forall x t, x ∈ enum (a_comps s.1) -> a_desc t = a_desc s.1 -> exists i d, x = (i, d) /\ a_comps t !! i = Some d).
      { intros x t Hx HI. apply elem_of_list_lookup in Hx as (i&Hi). apply enum_lookup_inv in Hi as (d&->&Hi). exists i, d. split; [done|]. unfold a_comps. by rewrite HI. }
      apply psim_first.
      - apply osim_mfor. intros x. apply asim_realloc_column.
      - apply (sim_mfor (fun a => a_desc a = a_desc s.1)); [done| |].
        + intros x t T Hin HI _. destruct (Hx _ _ Hin HI) as (i&d&->&Hi). by apply sim_realloc_column.
        + intros x t t' _ HI E'. by rewrite (realloc_column_desc _ _ _ _ _ E').
      - apply (psim_mfor (fun a => a_desc a = a_desc s.1)); [done|intros x; apply asim_realloc_column| |].
        + intros x t T Hin HI _. destruct (Hx _ _ Hin HI) as (i&d&->&Hi). split; [by apply sim_realloc_column|by apply psim_realloc_column].
        + intros x t t' _ HI E'. by rewrite (realloc_column_desc _ _ _ _ _ E').
      - intros []. apply asim_upd.
      - intros []. apply astill_upd. }
    assert (exists y1 u1, (mfor (enum (a_comps s.1)) (realloc_column (a_cap s.1) nc) ;;! am_upd (fun a => set_cap a nc)) (er_am (set_assoc s.1 (Some b'), e')) = Ret y1 u1) as (y1&u1&E1').
    { pose proof (may_realloc (a_assoc s.1) (ENTITY_SIZE * N.of_nat (a_cap s.1))%N ENTITY_ALIGN (ENTITY_SIZE * N.of_nat nc)%N nc s.2) as Hmay.
      rewrite Em' in Hmay. destruct Hmay as [Hmay _]. exists y, u.
      unfold bind at 1, am_env in E1. cbn [er_am fst snd] in E1. rewrite Hmay in E1. exact E1. }
    destruct (Hs Ha' _ _ _ E1' E) as (S3&lk&E3&Ha3&Hk3). exists S3, lk. split; [|split; [done|by eapply kept_trans]].
    unfold bind at 1, bm_mem. change ENTITY_ALIGN with 4%N. rewrite Er. exact E3.
  - cbn in E. injection E as <-. destruct (realloc_refused _ _ _ handle_bytes_length _ _ _ _ _ _ _ (ar_assoc _ _ _ (as_rel _ _ _ Ha)) Em) as (id&Hq&Er).
    eexists _, [id]. split; [unfold bind at 1, bm_mem; change ENTITY_ALIGN with 4%N; rewrite Er; done|]. split.
    + exact (forget_handles F s S1 id (Mem (m_blocks S1.2) (m_next S1.2) (m_place S1.2) e') Ha Hq eq_refl eq_refl).
    + by intros j.
Qed.
Lemma psim_resize_if F s S1 : psim F s S1 resize_if_necessary b_resize_if_necessary.
Proof.
  apply psim_get. intros Ha. unfold is_full. rewrite (ar_cap _ _ _ (as_rel _ _ _ Ha)), (ar_count _ _ _ (as_rel _ _ _ Ha)).
  destruct (_ =? _); [apply psim_resize|by intros ? ? ? ? _ [=]].
Qed.
Lemma psim_push_uninitialized F s S1 : psim F s S1 push_uninitialized_entity b_push_uninitialized.
Proof.
  apply psim_first; [apply asim_resize_if|apply sim_resize_if|apply psim_resize_if|intros []|intros []].
  - os.
  - st.
Qed.
Lemma psim_push_entity be G g F s S1 c h vs : gspec be G g -> in_U U G -> big c = be -> length vs = length G ->
  psim F s S1 (push_entity_unchecked c G h vs) (b_push_entity c G h vs).
Proof.
  intros Hg Hin Hbe Hl. unfold push_entity_unchecked, b_push_entity. apply psim_get. intros Ha.
  apply psim_bind; [apply osim_debug|by apply sim_debug|apply psim_quiet; [apply osim_debug|apply still_debug]|intros [] ? ? _ _].
  apply psim_bind; [apply osim_debug|apply sim_debug; by rewrite (ar_desc _ _ _ (as_rel _ _ _ Ha))|apply psim_quiet; [apply osim_debug|apply still_debug]|intros [] ? ? _ _].
  apply psim_first; [apply asim_resize_if|apply sim_resize_if|apply psim_resize_if|intros []|intros []].
  - unfold write_entity_unchecked, copy_in. os.
  - unfold write_entity_unchecked, copy_in. st.
Qed.
End archetype.

(** ** A new archetype *)
Lemma alloc_refused m sz al nc e' : mem_alloc (A := value) sz al nc (m_env m) = Ret None e' ->
  mm_alloc sz al m = Ret None (Mem (m_blocks m) (m_next m) (m_place m) e').
Proof.
  unfold mem_alloc, mm_alloc. destruct (_ || _); [done|]. unfold bind, mm_env. destruct (ask_allocator (m_env m)) as [ok e1|e1|]; [|done..].
  destruct ok; [done|]. cbn. by intros [= <-].
Qed.
Lemma alloc_no_panic {A} sz al nc e e' : mem_alloc (A := A) sz al nc e <> Panic e'.
Proof. unfold mem_alloc, bind. destruct (_ || _); [done|]. destruct e as [tr [|[] l]]; done. Qed.
Lemma alloc_columns_refused cap ds : forall m L e', heap_ok (m_blocks m) (m_next m) L -> alloc_columns ds cap (m_env m) = Panic e' ->
  exists lk m', b_alloc_columns ds cap m = Panic m' /\ m_env m' = e' /\ heap_ok (m_blocks m') (m_next m') (lk ++ L) /\ kept L m m'.
Proof.
  induction ds as [|d ds IH]; intros m L e' Hh E; cbn [alloc_columns b_alloc_columns] in *; [done|].
  unfold bind at 1 in E. destruct (mem_alloc _ _ cap (m_env m)) as [p e1|e1|] eqn:Em; [|by apply alloc_no_panic in Em|done]. destruct p as [b|] eqn:Eb.
  - unfold bind in E. destruct (alloc_columns ds cap e1) as [ps' e2|e2|] eqn:Er; [done| |done]. injection E as <-.
    destruct (alloc_mem (val_bytes (dsize d)) (dsize d) _ _ _ _ _ _ Em (col_size _ _) ltac:(done)) as (blk&m1&_&Ea&He1&Hn1&(h&Hb1)&Hp1).
    assert (Hh1 : heap_ok (m_blocks m1) (m_next m1) (m_next m :: L)) by (rewrite Hb1, Hn1; by apply heap_ok_add).
    rewrite <- He1 in Er. destruct (IH _ _ _ Hh1 Er) as (lk&m2&E2&He2&Hh2&Hk2). exists (lk ++ [m_next m]), m2. split_and!.
    + unfold bind. by rewrite Ea, E2.
    + done.
    + by rewrite <- app_assoc.
    + intros id Hid. rewrite Hk2 by (by apply elem_of_list_further). rewrite Hb1, lookup_insert_ne; [done|]. intros <-. exact (heap_ok_fresh _ _ _ _ Hh Hid eq_refl).
  - cbn in E. injection E as <-. exists [], (Mem (m_blocks m) (m_next m) (m_place m) e1). split_and!; [|done..]. unfold bind. by rewrite (alloc_refused _ _ _ _ _ Em).
Qed.
Lemma with_capacity_refused d cap m L e' : ad_is_valid d = true -> heap_ok (m_blocks m) (m_next m) L -> a_with_capacity d cap (m_env m) = Panic e' ->
  exists lk m', b_with_capacity d cap m = Panic m' /\ m_env m' = e' /\ heap_ok (m_blocks m') (m_next m') (lk ++ L) /\ kept L m m'.
Proof.
  intros Hv Hh E. unfold a_with_capacity in E. unfold b_with_capacity. unfold bind at 1 in E. unfold bind at 1.
  rewrite Hv in *. cbn [massert] in *. unfold ret at 1 in E. unfold ret at 1. destruct (_ && _); [|done].
  unfold bind at 1 in E. destruct (mem_alloc _ _ cap (m_env m)) as [p e1|e1|] eqn:Em; [|by apply alloc_no_panic in Em|done]. destruct p as [b|] eqn:Eb.
  - unfold bind in E. destruct (alloc_columns _ cap e1) as [ps e2|e2|] eqn:Er; [done| |done]. injection E as <-.
    destruct (alloc_mem handle_bytes 4 _ _ _ _ _ _ Em ltac:(unfold ENTITY_SIZE; lia) ltac:(done)) as (blk&m1&_&Ea&He1&Hn1&(h&Hb1)&Hp1).
    assert (Hh1 : heap_ok (m_blocks m1) (m_next m1) (m_next m :: L)) by (rewrite Hb1, Hn1; by apply heap_ok_add).
    rewrite <- He1 in Er. destruct (alloc_columns_refused _ _ _ _ _ Hh1 Er) as (lk&m2&E2&He2&Hh2&Hk2). exists (lk ++ [m_next m]), m2. split_and!.
    + unfold bind. by rewrite Ea, E2.
    + done.
    + by rewrite <- app_assoc.
    + intros id Hid. rewrite Hk2 by (by apply elem_of_list_further). rewrite Hb1, lookup_insert_ne; [done|]. intros <-. exact (heap_ok_fresh _ _ _ _ Hh Hid eq_refl).
  - cbn in E. injection E as <-. exists [], (Mem (m_blocks m) (m_next m) (m_place m) e1). split_and!; [|done..]. unfold bind.
    assert (mm_alloc (ENTITY_SIZE * N.of_nat cap) ENTITY_ALIGN m = Ret None (Mem (m_blocks m) (m_next m) (m_place m) e1)) as ->; [|done].
    revert Em. unfold mem_alloc, mm_alloc. destruct (_ || _); [done|]. unfold bind, mm_env. destruct (ask_allocator (m_env m)) as [ok e2|e2|]; [|done..].
    destruct ok; [done|]. cbn. by intros [= <-].
Qed.

(** ** The registry *)
Section registry.
Context {U : list ctype} {L : list (N * hblk)} (Hst : strict (ids_of U)) (Hsm : Forall small U) (Hla : laid_out U).
Notation arel := (@Bytes.arel U).
Notation brel := (@Bytes5.brel U L).
Notation rsim := (@Bytes5.rsim U L).
Notation r_same := (osim heal (fun r : reg => ev_oracle (r_env r))).
Notation r_quiet := (still (fun r : reg => ev_oracle (r_env r))).

Definition with_blocks (m : mem) (lk : list N) : list (N * hblk) := map (fun id => (id, default (HBlk 0 0 []) (m_blocks m !! id))) lk.
Lemma with_blocks_fst m lk : map fst (with_blocks m lk) = lk.
Proof. unfold with_blocks. rewrite map_map. apply map_id. Qed.
Lemma with_blocks_in m n l lk id b : heap_ok (m_blocks m) n l -> (forall x, x ∈ lk -> x ∈ l) -> (id, b) ∈ with_blocks m lk -> m_blocks m !! id = Some b.
Proof.
  intros H Hin Hb. apply elem_of_list_fmap in Hb as (x&[= -> ->]&Hx). destruct (proj2 (ho_dom _ _ _ H x) (Hin x Hx)) as [y Hy]. by rewrite Hy.
Qed.
Definition rpsim {X} (r : reg) (R : breg) (f : RM X) (g : BRM X) : Prop :=
  brel r R -> forall y u r', f (heal r) = Ret y u -> f r = Panic r' -> exists R' lk, g R = Panic R' /\ @Bytes5.brel U (lk ++ L) r' R'.
Lemma rpsim_quiet {X} r R (f : RM X) g : r_same f -> r_quiet f -> rpsim r R f g.
Proof. intros H1 H2 _ y u s' E1 E2. exfalso. by eapply (no_panic heal (fun r => ev_oracle (r_env r))). Qed.
Lemma rpsim_ret {X} r R (x : X) g : rpsim r R (ret x) g.
Proof. by intros _ y u r' _. Qed.
Lemma rpsim_bind {X Y} r R (f : RM X) g (k : X -> RM Y) k' :
  r_same f -> rsim r R f g -> rpsim r R f g ->
  (forall x r' R', f r = Ret x r' -> g R = Ret x R' -> rpsim r' R' (k x) (k' x)) -> rpsim r R (bind f k) (bind g k').
Proof.
  intros Ho Hf Hp Hk Ha y u s' E1 E2.
  destruct (panic_split heal (fun r => ev_oracle (r_env r)) _ _ _ _ _ _ Ho E1 E2) as [[Ef _]|(x&s1&Ef&Efe&Ek&Eke)].
  - unfold bind in E1. destruct (f (heal r)) as [x1 s1| |] eqn:E3; [|done..]. destruct (Hp Ha _ _ _ E3 Ef) as (S'&lk&Eg&H'). exists S', lk.
    split; [|exact H']. unfold bind. by rewrite Eg.
  - destruct (Hf Ha _ _ Ef) as (S2&Eg&Ha2). destruct (Hk _ _ _ Ef Eg Ha2 _ _ _ Eke Ek) as (S3&lk&Eg3&Ha3).
    exists S3, lk. split; [unfold bind; by rewrite Eg|done].
Qed.
Lemma rpsim_first {X Y} r R (f : RM X) g (k : X -> RM Y) k' :
  r_same f -> rsim r R f g -> rpsim r R f g -> (forall x, r_same (k x)) -> (forall x, r_quiet (k x)) -> rpsim r R (bind f k) (bind g k').
Proof. intros Ho Hf Hp Hk1 Hk2. apply rpsim_bind; [done..|]. intros x s' S' _ _. by apply rpsim_quiet. Qed.
Lemma rpsim_later {X Y} r R (f : RM X) g (k : X -> RM Y) k' :
  r_same f -> r_quiet f -> rsim r R f g ->
  (forall x r' R', f r = Ret x r' -> g R = Ret x R' -> rpsim r' R' (k x) (k' x)) -> rpsim r R (bind f k) (bind g k').
Proof. intros Ho Hq Hf Hk. apply rpsim_bind; [done|done|by apply rpsim_quiet|done]. Qed.
Lemma rpsim_get {X} r R (k : reg -> RM X) k' : (forall s, k (heal s) = k s) -> (brel r R -> rpsim r R (k r) (k' R)) -> rpsim r R (bind rm_get k) (bind bq_get k').
Proof. intros Hk H Ha y u r' E1 E2. apply (H Ha Ha y u r'); [|exact E2]. rewrite <- Hk. exact E1. Qed.
Lemma rpsim_dop {X} r R vs (f : RM X) g : rpsim r R f g -> rpsim r R (dropping_on_panic vs f) (b_dropping_on_panic vs g).
Proof.
  intros H Hb y u r' E1 E2. unfold dropping_on_panic in E1, E2. destruct (f (heal r)) as [y1 r1|r1|] eqn:Ef1; [|done..].
  destruct (f r) as [y2 r2|r2|] eqn:Ef2; [done| |done]. injection E2 as <-.
  destruct (H Hb _ _ _ Ef1 Ef2) as (R'&lk&Eg&H'). unfold b_dropping_on_panic. rewrite Eg. eexists _, lk. split; [done|].
  destruct H' as [A1 A2 A3 A4 A5 A6 A7]. split; cbn; try done. by rewrite A7.
Qed.
Lemma rpsim_with {X} r R i (f : AM X) g :
  (brel r R -> forall a A, archs r !! i = Some a -> br_archs R !! i = Some A -> psim (U := U) (rest_own i (br_archs R) ++ map fst L) (a, r_env r) (A, br_mem R) f g) ->
  rpsim r R (with_arch i f) (b_with_arch i g).
Proof.
  intros Hs H y u r' E1 E. unfold with_arch in E, E1. fold (archs r) in E. change (ar_archs (r_ar (heal r))) with (archs r) in E1. destruct (archs r !! i) as [a|] eqn:Ea; [|done].
  destruct (brel_at _ _ _ _ H Ea) as (A&EA&_). change (a, r_env (heal r)) with (er_am (a, r_env r)) in E1.
  destruct (f (er_am (a, r_env r))) as [y1 u1| |] eqn:Ef1; [|done..].
  destruct (f (a, r_env r)) as [y2 [a' e']|[a' e']|] eqn:Ef; [done| |done]. injection E as <-.
  destruct (Hs H _ _ eq_refl EA (brel_ast _ _ _ _ _ H Ea EA) _ _ _ Ef1 Ef) as ([A' m']&lk&Eg&Ha&Hk). cbn [snd] in Hk.
  eexists _, (with_blocks m' lk). split; [unfold b_with_arch; rewrite EA, Eg; done|]. split; cbn; rewrite ?map_app, ?with_blocks_fst.
  - by apply (bl_er _ _ H).
  - by apply (bl_maps _ _ H).
  - rewrite !insert_length. by apply (bl_len _ _ H).
  - intros j b B Hb HB. unfold archs in Hb. cbn in Hb. destruct (decide (j = i)) as [->|Hne].
    + rewrite list_lookup_insert in HB by (by eapply lookup_lt_Some). injection HB as <-.
      rewrite list_lookup_insert in Hb by (fold (archs r); rewrite <- (bl_len _ _ H); by eapply lookup_lt_Some). injection Hb as <-. apply (as_rel _ _ _ Ha).
    + rewrite list_lookup_insert_ne in Hb by done. rewrite list_lookup_insert_ne in HB by done.
      eapply arel_frame; [by eapply (bl_archs _ _ H)|]. intros id Hid. apply Hk. apply elem_of_app. left. by eapply rest_in.
  - eapply heap_ok_perm; [|apply (ast_heap _ _ _ Ha)]. cbn [fst]. destruct (own_split _ _ _ A' EA) as [_ HA']. rewrite HA'.
    rewrite <- !app_assoc. apply Permutation_app_head. rewrite !app_assoc. apply Permutation_app_tail, Permutation_app_comm.
  - intros id b [Hb|Hb]%elem_of_app.
    + eapply with_blocks_in; [exact (ast_heap _ _ _ Ha)| |exact Hb]. intros z Hz. apply elem_of_app. right. apply elem_of_app. by left.
    + rewrite (Hk id) by (apply elem_of_app; right; by apply (elem_of_list_fmap_1 fst _ (id, b))). by apply (bl_kept _ _ H).
  - apply (as_env _ _ _ Ha).
Qed.
Lemma rpsim_arch {X} r R i (k : arch -> RM X) k' :
  (forall a A, brel r R -> archs r !! i = Some a -> br_archs R !! i = Some A -> arel (m_blocks (br_mem R)) a A -> rpsim r R (k a) (k' A)) ->
  rpsim r R (let! a := rm_rd (arch_at i) in k a) (let! a := bq_rd (b_arch_at i) in k' a).
Proof.
  intros Hk H y u r' E1 E. unfold bind, rm_rd, arch_at in E, E1. fold (archs r) in E. change (ar_archs (r_ar (heal r))) with (archs r) in E1. destruct (archs r !! i) as [a|] eqn:Ea; [|done].
  destruct (brel_at _ _ _ _ H Ea) as (A&EA&Hr). unfold bind, bq_rd, b_arch_at. rewrite EA. exact (Hk a A H eq_refl EA Hr H y u r' E1 E).
Qed.
Lemma rpsim_find_or_create r R d : (ad_is_valid d = true -> knows U d) -> rpsim r R (find_or_create_archetype d) (b_find_or_create d).
Proof.
  intros Hk. unfold find_or_create_archetype, b_find_or_create. cbv zeta. destruct (_ || _) eqn:Ev; [apply rpsim_ret|].
  apply orb_false_iff in Ev as [_ Ev%negb_false_iff]. specialize (Hk Ev). destruct (_ =? 0); [by intros ? ? ?|].
  apply rpsim_get; [done|]. intros H. rewrite (bl_maps _ _ H). destruct (ar_maps (r_ar r) !! _) as [level|] eqn:El; [|by intros ? ? ?].
  destruct (binary_search _ _) as [f|ins]; rewrite (bl_len _ _ H).
  - destruct (level !! f); [|by intros ? ? ?]. unfold archs. destruct (_ <? _); [apply rpsim_ret|by intros ? ? ?].
  - unfold archs. destruct (_ <=? _)%N; [apply rpsim_ret|]. intros _ y u r' _ E. unfold bind at 1, rm_env in E.
    destruct (a_with_capacity _ _ _) as [a e'|e'|] eqn:Ea; [done| |done]. injection E as <-.
    rewrite <- (bl_env _ _ H) in Ea. destruct (with_capacity_refused _ _ _ _ _ Ev (bl_heap _ _ H) Ea) as (lk&m'&EA&He&Hh&Hkp).
    exists (BReg (br_er R) (br_maps R) (br_archs R) m'), (with_blocks m' lk). split; [unfold bind at 1, bq_mem; rewrite EA; done|]. split; cbn; rewrite ?map_app, ?with_blocks_fst.
    + by apply (bl_er _ _ H).
    + by apply (bl_maps _ _ H).
    + apply (bl_len _ _ H).
    + intros j b B Hb HB. eapply arel_frame; [by eapply (bl_archs _ _ H)|]. intros id Hid. apply Hkp. apply elem_of_app. left. apply elem_of_list_In, in_concat. exists (own B).
      split; [|by apply elem_of_list_In]. apply in_map, elem_of_list_In. by eapply elem_of_list_lookup_2.
    + eapply heap_ok_perm; [|exact Hh]. rewrite !app_assoc. apply Permutation_app_tail, Permutation_app_comm.
    + intros id b [Hb|Hb]%elem_of_app.
      * eapply with_blocks_in; [exact Hh| |exact Hb]. intros z Hz. apply elem_of_app. by left.
      * rewrite (Hkp id) by (apply elem_of_app; right; by apply (elem_of_list_fmap_1 fst _ (id, b))). by apply (bl_kept _ _ H).
    + done.
Qed.
Lemma rpsim_find_adding r R c src C : tidy r -> C ∈ U ->
  rpsim r R (find_or_create_archetype_adding_component c src (cdesc_of C)) (b_find_adding c src (cdesc_of C)).
Proof.
  intros Ht HC. apply rpsim_get; [done|]. intros H. rewrite (bl_len _ _ H). unfold archs. destruct (_ <? _); [apply rpsim_ret|].
  fold (archs r). destruct (archs r !! src) as [a|] eqn:Ea; [|by intros ? ? ?]. destruct (brel_at _ _ _ _ H Ea) as (A&EA&Hr). rewrite EA.
  rewrite (ar_desc _ _ _ Hr). apply rpsim_later; [apply osim_lift|apply still_lift|by apply rsim_lift|]. intros od r1 R1 E1 _. apply lift_inv in E1 as [E1 ->].
  destruct od as [nd|]; [|apply rpsim_ret]. assert (Hk : ad_is_valid nd = true -> knows U nd).
  { intros _. eapply knows_add; [by eapply Ht|apply (ar_knows _ _ _ Hr)|done|done]. }
  apply rpsim_first; [apply Alloc.rsim_find|by apply rsim_find_or_create|by apply rpsim_find_or_create|intros []; rs|intros []; st].
Qed.
Lemma rpsim_find_removing r R c src C : tidy r ->
  rpsim r R (find_or_create_archetype_removing_component c src (cdesc_of C)) (b_find_removing c src (cdesc_of C)).
Proof.
  intros Ht. apply rpsim_get; [done|]. intros H. rewrite (bl_len _ _ H). unfold archs. destruct (_ <? _); [apply rpsim_ret|].
  fold (archs r). destruct (archs r !! src) as [a|] eqn:Ea; [|by intros ? ? ?]. destruct (brel_at _ _ _ _ H Ea) as (A&EA&Hr). rewrite EA.
  rewrite (ar_desc _ _ _ Hr). apply rpsim_later; [apply osim_lift|apply still_lift|by apply rsim_lift|]. intros od r1 R1 E1 _. apply lift_inv in E1 as [E1 ->].
  destruct od as [nd|]; [|apply rpsim_ret]. assert (Hk : ad_is_valid nd = true -> knows U nd).
  { intros _. eapply knows_remove; [by eapply Ht|by eapply Ht|apply (ar_knows _ _ _ Hr)|done]. }
  apply rpsim_first; [apply Alloc.rsim_find|by apply rsim_find_or_create|by apply rpsim_find_or_create|intros []; rs|intros []; st].
Qed.
Lemma rpsim_create r R c G vs : in_U U G -> length vs = length G -> rpsim r R (create_entity c G vs) (b_create_entity c G vs).
Proof using Hsm.
  intros Hin Hl. apply rpsim_dop. cbv zeta. destruct (gd_is_valid _) eqn:Ev; [|apply rpsim_ret]. cbn [negb].
  destruct (gspec_exists _ _ Ev) as [g Hg].
  assert (Hk : ad_is_valid (gd_arch (group_desc (big c) G)) = true -> knows U (gd_arch (group_desc (big c) G))).
  { intros _. exists g. split; [apply Hg|]. split; [|apply Hg]. unfold in_U. by rewrite (gs_perm _ _ _ Hg). }
  apply rpsim_bind; [apply Alloc.rsim_find|by apply rsim_find_or_create|by apply rpsim_find_or_create|].
  intros [i|] r1 R1 _ _; [|apply rpsim_ret]. apply rpsim_arch. intros a A H Ha HA Hr. rewrite (ar_count _ _ _ Hr).
  apply rpsim_later; [apply osim_unwrap|apply still_unwrap|apply rsim_unwrap|intros row r2 R2 _ _].
  apply rpsim_later; [apply osim_unwrap|apply still_unwrap|apply rsim_unwrap|intros ai r3 R3 _ _].
  apply rpsim_later; [apply Alloc.rsim_er|apply rstill_er|apply rsim_er|intros [h|] r4 R4 _ _]; [|apply rpsim_ret].
  apply rpsim_first; [apply Alloc.rsim_arch, asim_push| | |intros _; rs|intros _; st].
  - apply rsim_with. intros _ b B _ _. by eapply sim_push_entity.
  - apply rpsim_with. intros _ b B _ _. by eapply psim_push_entity.
Qed.
Lemma rpsim_swap_back {X} r R c src row e (k : RM X) k' :
  (forall r' R', rpsim r' R' k k') ->
  rpsim r R
    (let! swapped := with_arch src (swap_to_last_unchecked c row) in
     (if (swapped : bool) then
        let! a := rm_rd (arch_at src) in
        let! h' := lift_rd (entity_at a row) in
        update_entry c h' (fun e' => entry_set_index_in_archetype e' (entry_index_in_archetype e))
      else ret tt) ;;! k)
    (let! swapped := b_with_arch src (b_swap_to_last c row) in
     (if (swapped : bool) then
        let! a := bq_rd (b_arch_at src) in
        let! h' := bq_mrd (fun m => b_entity_at a m row) in
        b_update_entry c h' (fun e' => entry_set_index_in_archetype e' (entry_index_in_archetype e))
      else ret tt) ;;! k').
Proof.
  intros Hk. apply rpsim_later; [apply Alloc.rsim_arch, asim_swap_to_last|st|apply rsim_with; intros _ a A _ _; apply sim_swap_to_last|]. intros swapped r1 R1 _ _.
  apply rpsim_later; [rs|st| |intros [] ? ? _ _; apply Hk].
  destruct swapped; [|apply rsim_ret]. apply rsim_arch. intros a A H1 Ha HA Hr. apply rsim_bind; [|intros h' ? ? _ _; apply rsim_upd].
  apply rsim_mrd. intros _ v. by apply (entity_at_sim (U := U)).
Qed.
Lemma rpsim_push r R i {Y} (k : nat -> RM Y) k' : (forall x, r_same (k x)) -> (forall x, r_quiet (k x)) ->
  rpsim r R (let! x := with_arch i push_uninitialized_entity in k x) (let! x := b_with_arch i b_push_uninitialized in k' x).
Proof.
  intros H1 H2. apply rpsim_first; [apply Alloc.rsim_arch, asim_push_uninit| | |done|done].
  - apply rsim_with. intros; apply sim_push_uninitialized.
  - apply rpsim_with. intros; apply psim_push_uninitialized.
Qed.
Lemma rpsim_add r R c C h v : tidy r -> C ∈ U -> rpsim r R (add_component c C h v) (b_add_component c C h v).
Proof using Hst Hsm Hla.
  intros Ht HC. apply rpsim_get; [done|]. intros H. rewrite (entry_same _ _ _ _ H). destruct (entry_of c r h) as [e|]; [|apply rpsim_ret]. cbv zeta.
  apply rpsim_bind; [apply Alloc.rsim_dop, rsim_find_add|apply rsim_dop; by apply rsim_find_adding|apply rpsim_dop; by apply rpsim_find_adding|].
  intros [[src dst]|] r1 R1 E1 _; [|apply rpsim_ret].
  assert (Hne : src <> dst).
  { unfold dropping_on_panic in E1. destruct (find_or_create_archetype_adding_component _ _ _ _) as [y r2|r2|] eqn:Ef; [|done..]. injection E1 as -> ->. by eapply find_adding_ne. }
  apply rpsim_first.
  - rs.
  - apply rsim_dop. apply rsim_swap_back. intros r2 R2. apply rsim_bind; [apply rsim_with; intros; apply sim_push_uninitialized|]. intros row' r3 R3 _ _.
    apply rsim_arch. intros sa SA H3 Hs HS Hrs. apply rsim_arch. intros da DA _ Hd HD Hrd.
    apply rsim_bind; [by apply rsim_last|]. intros srow r4 R4 E4%lift_same E4'%lift_same. subst r4 R4.
    apply rsim_bind; [by apply rsim_last|]. intros drow r4 R4 E4%lift_same E4'%lift_same. subst r4 R4.
    apply rsim_bind; [by eapply rsim_copy|]. intros [] r5 R5 _ _. apply rsim_bind; [apply rsim_with; intros; by apply sim_write_single|intros [] ? ? _ _]. apply rsim_ret.
  - apply rpsim_dop. apply rpsim_swap_back. intros r2 R2. apply rpsim_push; intros x; [rs|st].
  - intros [srow drow]. rs.
  - intros [srow drow]. st.
Qed.
Lemma rpsim_remove r R c C h : tidy r -> C ∈ U -> rpsim r R (remove_component c C h) (b_remove_component c C h).
Proof using Hst Hsm Hla.
  intros Ht HC. apply rpsim_get; [done|]. intros H. rewrite (entry_same _ _ _ _ H). destruct (entry_of c r h) as [e|]; [|apply rpsim_ret]. cbv zeta.
  apply rpsim_bind; [apply rsim_find_del|by apply rsim_find_removing|by apply rpsim_find_removing|]. intros [[src dst]|] r1 R1 E1 _; [|apply rpsim_ret].
  apply rpsim_swap_back. intros r2 R2. apply rpsim_push; intros x; [rs|st].
Qed.
End registry.
