(** Proofs for C53: allocating, growing and filling one archetype. *)
From Verif Require Import RegModel ByteModel SearchProofs MonadProofs DescrProofs ArchProofs ArchOps Bytes Bytes2 Bytes3 SpecBytes SpecBase SpecWorld.
Local Open Scope nat_scope.

(** ** Which blocks are live *)
Record heap_ok (H : gmap N hblk) (next : N) (L : list N) : Prop := {
  ho_nd : NoDup L;
  ho_dom : forall id, is_Some (H !! id) <-> id ∈ L;
  ho_next : forall id, id ∈ L -> (id < next)%N;
}.
Lemma heap_ok_perm H n L L' : L ≡ₚ L' -> heap_ok H n L -> heap_ok H n L'.
Proof. intros E []. split; [by rewrite <- E| |]; intros id; rewrite <- E; auto. Qed.
Lemma heap_ok_add H n L b : heap_ok H n L -> heap_ok (<[n := b]> H) (n + 1) (n :: L).
Proof.
  intros []. assert (Hn : n ∉ L) by (intros Hn; apply ho_next0 in Hn; lia). split.
  - by apply NoDup_cons.
  - intros id. rewrite elem_of_cons. destruct (decide (id = n)) as [->|Hne].
    + rewrite lookup_insert. split; [auto|by eexists].
    + rewrite lookup_insert_ne by done. rewrite ho_dom0. intuition.
  - intros id [->|Hid]%elem_of_cons; [lia|]. apply ho_next0 in Hid. lia.
Qed.
Lemma heap_ok_del H n L id : heap_ok H n (id :: L) -> heap_ok (delete id H) n L.
Proof.
  intros []. apply NoDup_cons in ho_nd0 as [Hid Hnd]. split; [done| |].
  - intros j. destruct (decide (j = id)) as [->|Hne].
    + rewrite lookup_delete. split; [by intros []|done].
    + rewrite lookup_delete_ne by done. rewrite ho_dom0, elem_of_cons. intuition.
  - intros j Hj. apply ho_next0. by apply elem_of_list_further.
Qed.
Lemma heap_ok_fresh H n L id : heap_ok H n L -> id ∈ L -> id <> n.
Proof. intros Hh Hid ->. apply (ho_next _ _ _ Hh) in Hid. lia. Qed.
Lemma ast_heap {U} F s S1 : @ast U F s S1 -> heap_ok (m_blocks S1.2) (m_next S1.2) (own S1.1 ++ F).
Proof. by intros []. Qed.
Lemma heap_ast {U} F s S1 : @arel U (m_blocks S1.2) s.1 S1.1 -> heap_ok (m_blocks S1.2) (m_next S1.2) (own S1.1 ++ F) -> m_env S1.2 = s.2 -> @ast U F s S1.
Proof. by intros ? [] ?. Qed.

Definition ids_opt (q : bptr) : list N := omap ptr_id [q].
Lemma omap_insert {X Y} (f : X -> option Y) (l : list X) (i : nat) x : l !! i = Some x ->
  exists R, omap f l ≡ₚ omap f [x] ++ R /\ forall y, omap f (<[i := y]> l) ≡ₚ omap f [y] ++ R.
Proof.
  intros Hi. exists (omap f (take i l) ++ omap f (drop (S i) l)).
  assert (Hm : forall z, omap f (take i l ++ z :: drop (S i) l) ≡ₚ omap f [z] ++ omap f (take i l) ++ omap f (drop (S i) l)).
  { intros z. rewrite omap_app. change (z :: drop (S i) l) with ([z] ++ drop (S i) l). rewrite omap_app. by rewrite !app_assoc, (Permutation_app_comm (omap f [z])). }
  split.
  - rewrite <- (take_drop_middle _ _ _ Hi) at 1. apply Hm.
  - intros y. rewrite insert_take_drop by (by eapply lookup_lt_Some). apply Hm.
Qed.
Lemma own_set_ptr A i q : b_ptrs A !! i = Some q ->
  exists R, own A ≡ₚ ids_opt q ++ R /\ forall q', own (bset_ptrs A (<[i := q']> (b_ptrs A))) ≡ₚ ids_opt q' ++ R.
Proof.
  intros Hi. destruct (omap_insert ptr_id (b_assoc A :: b_ptrs A) (S i) q Hi) as (R&H1&H2). exists R. split; [done|]. intros q'. apply H2.
Qed.
Lemma own_set_assoc A : exists R, own A ≡ₚ ids_opt (b_assoc A) ++ R /\ forall q', own (bset_assoc A q') ≡ₚ ids_opt q' ++ R.
Proof.
  destruct (omap_insert ptr_id (b_assoc A :: b_ptrs A) 0 (b_assoc A) eq_refl) as (R&H1&H2). exists R. split; [done|]. intros q'. apply H2.
Qed.

(** ** The allocator *)
Lemma N_mul_nat a k : N.to_nat (a * N.of_nat k) = k * N.to_nat a.
Proof. lia. Qed.
Section alloc.
  Context {A : Type} (f : A -> list mbyte) (n : nat) (al : N) (Hf : forall x, length (f x) = n).
  Lemma alloc_mem m size nc (b : ptr A) e' : mem_alloc size al nc (m_env m) = Ret b e' -> size = N.of_nat (nc * n) -> b <> None ->
    exists blk m', b = Some blk /\ mm_alloc size al m = Ret (Some (m_next m, 0)) m' /\ m_env m' = e' /\ m_next m' = (m_next m + 1)%N /\
      (exists h, m_blocks m' = <[m_next m := h]> (m_blocks m)) /\ prel f n al (m_blocks m') b (Some (m_next m, 0)).
  Proof using Type.
    intros E Hs Hb. unfold mem_alloc in E. unfold mm_alloc. destruct (_ || _); [done|].
    unfold bind in *. unfold mm_env at 1. destruct (ask_allocator (m_env m)) as [ok e1|e1|] eqn:Ea; [|done..].
    destruct ok; [|by injection E as <- _]. cbn in E. injection E as <- <-. eexists _, _. split; [done|].
    split; [by cbn|]. cbn. split; [done|]. split; [done|]. split; [by eexists|].
    rewrite replicate_length. split; [done|]. split; [done|]. split; [done|]. eexists. rewrite lookup_insert. split.
    - do 2 f_equal. rewrite Hs, Nat2N.id. symmetry. apply col_bytes_None.
    - exists (1 + m_place m (m_next m))%N. lia.
  Qed.
  Lemma realloc_mem m os ns nc (p b : ptr A) q e' : prel f n al (m_blocks m) p q ->
    mem_realloc p os al ns nc (m_env m) = Ret b e' -> ns = N.of_nat (nc * n) -> b <> None ->
    exists id blk m', q = Some (id, 0) /\ b = Some blk /\ mm_realloc q os al ns m = Ret (Some (m_next m, 0)) m' /\ m_env m' = e' /\
      m_next m' = (m_next m + 1)%N /\ (exists h, m_blocks m' = <[m_next m := h]> (delete id (m_blocks m))) /\
      prel f n al (m_blocks m') b (Some (m_next m, 0)).
  Proof using Hf.
    intros Hp E Hs Hb. unfold mem_realloc in E. destruct p as [b0|]; [|done]. destruct q as [[id o]|]; cbn [prel] in Hp; [|done].
    destruct Hp as (->&Hal&Hsz&base&HH&Hdiv). destruct (N.eqb_spec (bl_size b0) os) as [Hos|]; [|done]. destruct (N.eqb_spec (bl_align b0) al); [|done].
    destruct (N.eqb_spec ns 0) as [|Hns]; [done|]. cbn [andb negb] in E. unfold bind in E.
    assert (Hlay : has_layout m (Some (id, 0)) os al = Some (id, col_bytes f n (bl_cells b0))).
    { unfold has_layout. rewrite HH. cbn [hb_bytes hb_align]. rewrite (col_bytes_length _ _ Hf). rewrite <- Hsz, Hos, !N.eqb_refl. done. }
    destruct (ask_allocator (m_env m)) as [ok e1|e1|] eqn:Ea; [|done..].
    destruct ok; [|by injection E as <- _]. cbn in E. injection E as <- <-. eexists id, _, _. split; [done|]. split; [done|].
    unfold mm_realloc, bind, get_st. rewrite Hlay. destruct (N.eqb_spec ns 0) as [|_]; [done|]. unfold mm_env at 1. rewrite Ea.
    split; [by cbn|]. cbn. split; [done|]. split; [done|]. split; [by eexists|].
    rewrite app_length, take_length, replicate_length. split; [done|]. split; [done|]. split; [rewrite Hs; do 2 f_equal; lia|].
    eexists. rewrite lookup_insert. split.
    - do 2 f_equal. rewrite Hs, Nat2N.id. by apply col_realloc.
    - exists (1 + m_place m (m_next m))%N. lia.
  Qed.
  Lemma dealloc_mem m size (p : ptr A) q e' : prel f n al (m_blocks m) p q -> mem_dealloc p size al (m_env m) = Ret tt e' ->
    exists id, q = Some (id, 0) /\ mm_dealloc q size al m = Ret tt (Mem (delete id (m_blocks m)) (m_next m) (m_place m) e').
  Proof using Hf.
    intros Hp E. unfold mem_dealloc in E. destruct p as [b0|]; [|done]. destruct q as [[id o]|]; cbn [prel] in Hp; [|done].
    destruct Hp as (->&Hal&Hsz&base&HH&Hdiv). destruct (N.eqb_spec (bl_size b0) size) as [Hos|]; [|done]. destruct (N.eqb_spec (bl_align b0) al); [|done].
    cbn [andb] in E. exists id. split; [done|]. unfold mm_dealloc, bind, get_st.
    assert (Hlay : has_layout m (Some (id, 0)) size al = Some (id, col_bytes f n (bl_cells b0))).
    { unfold has_layout. rewrite HH. cbn [hb_bytes hb_align]. rewrite (col_bytes_length _ _ Hf). rewrite <- Hsz, Hos, !N.eqb_refl. done. }
    rewrite Hlay. unfold mm_env. unfold emit in *. injection E as <-. done.
  Qed.
End alloc.

Section change.
Context {U : list ctype} (Hst : strict (ids_of U)) (Hsm : Forall small U) (Hla : laid_out U).
Notation arel := (@Bytes.arel U).
Notation ast := (@Bytes.ast U).
Notation sim := (@Bytes.sim U).

(** ** Replacing the block of a column, or of the handles *)
Lemma prel_ids {A} f n al H (p : ptr A) q : prel f n al H p q -> forall id, id ∈ ids_opt q -> is_Some (H !! id).
Proof.
  intros Hp id Hid. destruct p as [b|], q as [[j o]|]; cbn [prel] in Hp; try done.
  - unfold ids_opt in Hid. cbn in Hid. apply elem_of_list_singleton in Hid as ->. destruct Hp as (_&_&_&base&->&_). by eexists.
  - by apply elem_of_nil in Hid.
Qed.
(** The other blocks stay as they are: [m'] differs from [m] in the old block,
    which is gone, and the new one. *)
Definition moved (m m' : mem) (q q' : bptr) : Prop :=
  forall id, id ∉ ids_opt q -> id ∉ ids_opt q' -> m_blocks m' !! id = m_blocks m !! id.
Lemma set_column F s S1 i d p q p' q' m' e' :
  ast F s S1 -> a_comps s.1 !! i = Some d -> a_ptrs s.1 !! i = Some p -> b_ptrs S1.1 !! i = Some q ->
  moved S1.2 m' q q' -> (forall id, id ∈ ids_opt q' -> m_blocks S1.2 !! id = None) ->
  prel (val_bytes (dsize d)) (dsize d) (cd_align d) (m_blocks m') p' q' -> m_env m' = e' ->
  (forall R, heap_ok (m_blocks S1.2) (m_next S1.2) (ids_opt q ++ R) -> heap_ok (m_blocks m') (m_next m') (ids_opt q' ++ R)) ->
  ast F (set_ptrs s.1 (<[i := p']> (a_ptrs s.1)), e') (bset_ptrs S1.1 (<[i := q']> (b_ptrs S1.1)), m') /\ kept F S1.2 m'.
Proof.
  intros Ha Hd Hp Hq Hmv Hfr Hp' He Hh. pose proof (as_nd_own _ _ _ Ha) as Hnd. pose proof (ast_heap _ _ _ Ha) as Hho.
  assert (Hother : forall id, id ∈ own S1.1 ++ F -> id ∉ ids_opt q -> m_blocks m' !! id = m_blocks S1.2 !! id).
  { intros id Hid Hnq. apply Hmv; [done|]. intros Hc%Hfr. apply (ho_dom _ _ _ Hho) in Hid as [x Hx]. congruence. }
  split.
  - apply heap_ast; cbn [fst snd].
    + pose proof (as_rel _ _ _ Ha) as [Dd Dk Dc Dp Dl Dcol Dr Das]. split; cbn; try done.
      * by rewrite !insert_length.
      * intros j dj pj qj Hdj Hpj Hqj. destruct (decide (j = i)) as [->|Hne].
        -- rewrite list_lookup_insert in Hpj by (by eapply lookup_lt_Some). rewrite list_lookup_insert in Hqj by (by eapply lookup_lt_Some).
           injection Hpj as <-. injection Hqj as <-. change (a_comps s.1 !! i = Some dj) in Hdj. rewrite Hd in Hdj. by injection Hdj as <-.
        -- rewrite list_lookup_insert_ne in Hpj by done. rewrite list_lookup_insert_ne in Hqj by done. eapply prel_frame; [by eapply Dcol|].
           intros id o ->. apply Hother; [apply elem_of_app; left; by eapply own_ptr|].
           intros Hc. destruct q as [[id' o']|]; [|by apply elem_of_nil in Hc]. cbn in Hc. apply elem_of_list_singleton in Hc as ->.
           apply Hne. by eapply own_ptr_inj.
      * intros j pj qj Hdj Hpj Hqj. destruct (decide (j = i)) as [->|Hne].
        -- change (a_comps s.1 !! i = None) in Hdj. by rewrite Hd in Hdj.
        -- rewrite list_lookup_insert_ne in Hpj by done. rewrite list_lookup_insert_ne in Hqj by done. by eapply Dr.
      * eapply prel_frame; [done|]. intros id o E. apply Hother; [apply elem_of_app; left; by eapply own_assoc|].
        intros Hc. destruct q as [[id' o']|]; [|by apply elem_of_nil in Hc]. cbn in Hc. apply elem_of_list_singleton in Hc as ->.
        by eapply own_ptr_assoc.
    + destruct (own_set_ptr _ _ _ Hq) as (R&HR&HR'). eapply heap_ok_perm; [by rewrite HR', <- app_assoc|]. apply Hh.
      eapply heap_ok_perm; [|exact Hho]. by rewrite HR, <- app_assoc.
    + done.
  - intros id Hid. apply Hother; [apply elem_of_app; by right|]. intros Hc. destruct q as [[id' o']|]; [|by apply elem_of_nil in Hc].
    cbn in Hc. apply elem_of_list_singleton in Hc as ->. eapply as_not_F; [exact Ha| |exact Hid]. by eapply own_ptr.
Qed.
Lemma set_handles F s S1 p' q' m' e' :
  ast F s S1 ->
  moved S1.2 m' (b_assoc S1.1) q' -> (forall id, id ∈ ids_opt q' -> m_blocks S1.2 !! id = None) ->
  prel handle_bytes 4 4 (m_blocks m') p' q' -> m_env m' = e' ->
  (forall R, heap_ok (m_blocks S1.2) (m_next S1.2) (ids_opt (b_assoc S1.1) ++ R) -> heap_ok (m_blocks m') (m_next m') (ids_opt q' ++ R)) ->
  ast F (set_assoc s.1 p', e') (bset_assoc S1.1 q', m') /\ kept F S1.2 m'.
Proof.
  intros Ha Hmv Hfr Hp' He Hh. pose proof (as_nd_own _ _ _ Ha) as Hnd. pose proof (ast_heap _ _ _ Ha) as Hho.
  assert (Hother : forall id, id ∈ own S1.1 ++ F -> id ∉ ids_opt (b_assoc S1.1) -> m_blocks m' !! id = m_blocks S1.2 !! id).
  { intros id Hid Hnq. apply Hmv; [done|]. intros Hc%Hfr. apply (ho_dom _ _ _ Hho) in Hid as [x Hx]. congruence. }
  split.
  - apply heap_ast; cbn [fst snd].
    + pose proof (as_rel _ _ _ Ha) as [Dd Dk Dc Dp Dl Dcol Dr Das]. split; cbn; try done.
      intros j dj pj qj Hdj Hpj Hqj. eapply prel_frame; [by eapply Dcol|].
      intros id o ->. apply Hother; [apply elem_of_app; left; by eapply own_ptr|].
      intros Hc. destruct (b_assoc S1.1) as [[id' o']|] eqn:Eq; [|by apply elem_of_nil in Hc]. cbn in Hc. apply elem_of_list_singleton in Hc as ->.
      by eapply own_ptr_assoc.
    + destruct (own_set_assoc S1.1) as (R&HR&HR'). eapply heap_ok_perm; [by rewrite HR', <- app_assoc|]. apply Hh.
      eapply heap_ok_perm; [|exact Hho]. by rewrite HR, <- app_assoc.
    + done.
  - intros id Hid. apply Hother; [apply elem_of_app; by right|]. intros Hc. destruct (b_assoc S1.1) as [[id' o']|] eqn:Eq; [|by apply elem_of_nil in Hc].
    cbn in Hc. apply elem_of_list_singleton in Hc as ->. eapply as_not_F; [exact Ha| |exact Hid]. by eapply own_assoc.
Qed.
Lemma realloc_moved F s S1 id m' h :
  ast F s S1 -> m_blocks m' = <[m_next S1.2 := h]> (delete id (m_blocks S1.2)) -> m_next m' = (m_next S1.2 + 1)%N ->
  moved S1.2 m' (Some (id, 0)) (Some (m_next S1.2, 0)) /\ (forall j, j ∈ ids_opt (Some (m_next S1.2, 0)) -> m_blocks S1.2 !! j = None) /\
  (forall R, heap_ok (m_blocks S1.2) (m_next S1.2) (ids_opt (Some (id, 0)) ++ R) -> heap_ok (m_blocks m') (m_next m') (ids_opt (Some (m_next S1.2, 0)) ++ R)).
Proof.
  intros Ha Hb Hn. split; [|split].
  - intros j Hj Hj'. unfold ids_opt in Hj, Hj'. cbn in Hj, Hj'. apply not_elem_of_cons in Hj as [? _]. apply not_elem_of_cons in Hj' as [? _].
    rewrite Hb, lookup_insert_ne, lookup_delete_ne by done. done.
  - intros j Hj. cbn in Hj. apply elem_of_list_singleton in Hj as ->. apply eq_None_not_Some. intros Hs%(ho_dom _ _ _ (ast_heap _ _ _ Ha)).
    by eapply heap_ok_fresh; [apply (ast_heap _ _ _ Ha)| |].
  - intros R HR. rewrite Hb, Hn. cbn. apply heap_ok_add. by apply heap_ok_del.
Qed.
Lemma col_size d nc : (cd_size d * N.of_nat nc)%N = N.of_nat (nc * dsize d).
Proof. unfold dsize. lia. Qed.
Lemma sim_realloc_column F s S1 oc nc i d : a_comps s.1 !! i = Some d ->
  sim F s S1 (realloc_column oc nc (i, d)) (b_realloc_column oc nc (i, d)).
Proof.
  intros Hd Ha [] s' E. unfold realloc_column, bind, am_get in E. destruct (a_ptrs s.1 !! i) as [p|] eqn:Ep; [|done].
  unfold am_env in E. destruct (mem_realloc p _ _ _ nc s.2) as [p' e'|e'|] eqn:Em; [|done..].
  destruct p' as [b'|]; [|done]. cbn in E. injection E as <-.
  destruct (lookup_lt_is_Some_2 (b_ptrs S1.1) i) as [q Eq].
  { rewrite (ar_len _ _ _ (as_rel _ _ _ Ha)). by eapply lookup_lt_Some. }
  pose proof (ar_col _ _ _ (as_rel _ _ _ Ha) _ _ _ _ Hd Ep Eq) as Hp. rewrite <- (as_env _ _ _ Ha) in Em.
  destruct (realloc_mem _ _ _ (val_bytes_length _) _ _ _ _ _ _ _ _ Hp Em (col_size _ _) ltac:(done)) as (id&blk&m'&->&_&Er&He&Hn&(h&Hb)&Hp').
  destruct (realloc_moved _ _ _ _ _ _ Ha Hb Hn) as (Hm1&Hm2&Hm3).
  destruct (set_column _ _ _ _ _ _ _ _ _ _ _ Ha Hd Ep Eq Hm1 Hm2 Hp' He Hm3) as [Ha' Hk].
  eexists. split; [|split; [exact Ha'|exact Hk]].
  unfold b_realloc_column, bind, bm_get. rewrite Eq. unfold bm_mem. rewrite Er. done.
Qed.
Lemma realloc_column_desc oc nc x s s' : realloc_column oc nc x s = Ret tt s' -> a_desc s'.1 = a_desc s.1.
Proof.
  destruct x as [i d]. unfold realloc_column, bind, am_get. destruct (a_ptrs s.1 !! i) as [p|]; [|done]. unfold am_env.
  destruct (mem_realloc _ _ _ _ _ _) as [[b|] e| |]; [|done..]. by intros [= <-].
Qed.
Lemma sim_dealloc_columns F l : forall s S1, (forall i d, (i, d) ∈ l -> a_comps s.1 !! i = Some d) ->
  sim F s S1 (dealloc_columns l) (b_dealloc_columns l).
Proof.
  induction l as [|[i d] l IH]; intros s S1 Hl; cbn [dealloc_columns b_dealloc_columns]; [apply sim_ret|].
  apply sim_get. intros Ha. destruct (a_ptrs s.1 !! i) as [p|] eqn:Ep; [|apply sim_panic].
  destruct (lookup_lt_is_Some_2 (b_ptrs S1.1) i) as [q Eq].
  { rewrite (ar_len _ _ _ (as_rel _ _ _ Ha)). by eapply lookup_lt_Some. }
  rewrite Eq. pose proof (Hl i d ltac:(apply elem_of_list_here)) as Hd.
  pose proof (ar_col _ _ _ (as_rel _ _ _ Ha) _ _ _ _ Hd Ep Eq) as Hp.
  destruct p as [b|]; [|destruct q as [[]|]; [done|apply sim_ret]]. destruct q as [q|]; [|done].
  intros _ x s' E. unfold bind at 1, am_env in E. destruct (mem_dealloc _ _ _ s.2) as [[] e'|e'|] eqn:Em; [|done..]. cbn in E.
  rewrite <- (as_env _ _ _ Ha) in Em. destruct (dealloc_mem _ _ _ (val_bytes_length _) _ _ _ _ _ Hp Em) as (id&[= ->]&Ed).
  destruct (set_column F s S1 i d (Some b) (Some (id, 0)) None None (Mem (delete id (m_blocks S1.2)) (m_next S1.2) (m_place S1.2) e') e' Ha Hd Ep Eq) as [Ha' Hk].
  - intros j Hj _. cbn. unfold ids_opt in Hj. cbn in Hj. apply not_elem_of_cons in Hj as [? _]. by rewrite lookup_delete_ne.
  - intros j Hj. by apply elem_of_nil in Hj.
  - done.
  - done.
  - intros R HR. cbn. by apply heap_ok_del.
  - destruct (IH (set_ptrs s.1 (<[i := None]> (a_ptrs s.1)), e') _ (fun j dj Hj => Hl j dj (elem_of_list_further _ _ _ Hj)) Ha' _ _ E) as (S3&E3&Ha3&Hk3).
    exists S3. split; [|split; [done|by eapply kept_trans]]. unfold bind at 1, bm_mem.
    rewrite (ar_cap _ _ _ (as_rel _ _ _ Ha)), Ed. exact E3.
Qed.
Lemma ast_cap F s S1 n : ast F s S1 -> ast F (set_cap s.1 n, s.2) (bset_cap S1.1 n, S1.2).
Proof. intros [[] ? ? ? ?]. by split. Qed.
Lemma sim_dealloc F s S1 : sim F s S1 a_dealloc b_dealloc.
Proof.
  apply sim_get. intros Ha. rewrite (ar_comps _ _ _ (as_rel _ _ _ Ha)). apply sim_bind.
  - apply sim_dealloc_columns. intros i d Hi. apply elem_of_list_lookup in Hi as (j&Hj). apply enum_lookup_inv in Hj as (x&[= -> ->]&Hx). done.
  - intros all s1 T1 _ _. destruct all; [|apply sim_ret]. apply sim_get. intros Ha1 _ [] s' E.
    unfold bind, am_env in E. destruct (mem_dealloc _ _ _ s1.2) as [[] e'|e'|] eqn:Em; [|done..]. cbn in E. injection E as <-.
    rewrite <- (as_env _ _ _ Ha1) in Em. destruct (dealloc_mem _ _ _ handle_bytes_length _ _ _ _ _ (ar_assoc _ _ _ (as_rel _ _ _ Ha1)) Em) as (id&Eq&Ed).
    destruct (set_handles F s1 T1 None None (Mem (delete id (m_blocks T1.2)) (m_next T1.2) (m_place T1.2) e') e' Ha1) as [Ha' Hk].
    + intros j Hj _. cbn. rewrite Eq in Hj. unfold ids_opt in Hj. cbn in Hj. apply not_elem_of_cons in Hj as [? _]. by rewrite lookup_delete_ne.
    + intros j Hj. by apply elem_of_nil in Hj.
    + done.
    + done.
    + intros R HR. cbn. rewrite Eq in HR. by apply heap_ok_del.
    + eexists. split; [|split; [exact (ast_cap _ _ _ 0 Ha')|exact Hk]].
      unfold bind, bm_mem. rewrite (ar_cap _ _ _ (as_rel _ _ _ Ha1)). change ENTITY_ALIGN with 4%N. rewrite Ed. done.
Qed.
Lemma sim_resize F s S1 change : sim F s S1 (resize_capacity change) (b_resize_capacity change).
Proof.
  apply sim_get. intros Ha. rewrite (ar_cap _ _ _ (as_rel _ _ _ Ha)). cbv zeta. destruct (_ || _)%Z; [apply sim_dealloc|].
  set (nc := Z.to_nat (Z.of_nat (a_cap s.1) + change)). intros _ [] s' E.
  unfold bind at 1, am_env in E. destruct (mem_realloc (a_assoc s.1) _ _ _ nc s.2) as [p' e'|e'|] eqn:Em; [|done..].
  unfold bind at 1 in E. cbn [am_upd] in E. unfold am_upd in E at 1. unfold bind at 1 in E. destruct p' as [b'|]; [|done]. cbn [massert ret fst snd] in E. unfold ret in E.
  rewrite <- (as_env _ _ _ Ha) in Em.
  destruct (realloc_mem _ _ _ handle_bytes_length _ _ _ _ _ _ _ _ (ar_assoc _ _ _ (as_rel _ _ _ Ha)) Em ltac:(unfold ENTITY_SIZE; lia) ltac:(done)) as (id&blk&m'&Eq&_&Er&He&Hn&(h&Hb)&Hp').
  destruct (realloc_moved _ _ _ _ _ _ Ha Hb Hn) as (Hm1&Hm2&Hm3). rewrite <- Eq in Hm1, Hm3.
  destruct (set_handles _ _ _ _ _ _ _ Ha Hm1 Hm2 Hp' He Hm3) as [Ha' Hk].
  assert (Hs : sim F (set_assoc s.1 (Some b'), e') (bset_assoc S1.1 (Some (m_next S1.2, 0)), m')
    (mfor (enum (a_comps s.1)) (realloc_column (a_cap s.1) nc) ;;! am_upd (fun a => set_cap a nc))
    (mfor (enum (b_comps S1.1)) (b_realloc_column (a_cap s.1) nc) ;;! bm_upd (fun a => bset_cap a nc))).
  { rewrite (ar_comps _ _ _ (as_rel _ _ _ Ha)). apply sim_bind.
    - apply (sim_mfor (fun a => a_desc a = a_desc s.1)); [done| |].
      + intros x t T Hx HI _. apply elem_of_list_lookup in Hx as (i&Hi). apply enum_lookup_inv in Hi as (d&->&Hi).
        apply sim_realloc_column. unfold a_comps. by rewrite HI.
      + intros x t t' _ HI E'. by rewrite (realloc_column_desc _ _ _ _ _ E').
    - intros [] t T _ _ Hat [] t' [= <-]. eexists. split; [done|]. split; [by apply ast_cap|apply kept_refl]. }
  destruct (Hs Ha' _ _ E) as (S3&E3&Ha3&Hk3). exists S3. split; [|split; [done|by eapply kept_trans]].
  unfold bind at 1, bm_mem. change ENTITY_ALIGN with 4%N. rewrite Er. exact E3.
Qed.
Lemma sim_resize_if F s S1 : sim F s S1 resize_if_necessary b_resize_if_necessary.
Proof.
  apply sim_get. intros Ha. unfold is_full. rewrite (ar_cap _ _ _ (as_rel _ _ _ Ha)), (ar_count _ _ _ (as_rel _ _ _ Ha)).
  destruct (_ =? _); [apply sim_resize|apply sim_ret].
Qed.
Lemma sim_push_uninitialized F s S1 : sim F s S1 push_uninitialized_entity b_push_uninitialized.
Proof.
  apply sim_bind; [apply sim_resize_if|intros [] ? ? _ _]. apply sim_get. intros Ha. rewrite (ar_count _ _ _ (as_rel _ _ _ Ha)).
  apply sim_bind; [apply sim_increment|intros [] ? ? _ _]. apply sim_ret.
Qed.

(** ** Filling rows *)
Lemma sim_write_single F s S1 C row v : C ∈ U -> sim F s S1 (write_single_component_unchecked C row v) (b_write_single C row v).
Proof using Hst Hsm Hla.
  intros HC Ha [] s' E. unfold write_single_component_unchecked, bind, am_get in E.
  destruct (binary_search _ _) as [idx|] eqn:Eb; [|done]. pose proof (search_id Hst _ _ _ (ar_knows _ _ _ (as_rel _ _ _ Ha)) HC Eb) as Hd.
  fold (a_comps s.1) in Hd. rewrite Hd in E. destruct (_ =? _)%N; [|done].
  destruct (cell_write _ _ _ _ _ _ _ _ Ha Hd E) as (id&m'&Hq&Hp&Hs&Ha'&Hk). rewrite (dsize_of Hsm) in Hp, Hs by done.
  exists (S1.1, m'). split; [|done]. unfold b_write_single, bind, bm_rd, b_component_ptr.
  rewrite (ar_comps _ _ _ (as_rel _ _ _ Ha)), Eb. rewrite Nat.mul_comm, Hp. cbn [lift_rd]. unfold bm_mem, write_as, bind, get_st.
  unfold write_cell in E. destruct (a_ptrs s.1 !! idx) as [[b|]|] eqn:Ep; [|done|done].
  destruct (column_here Hsm _ _ _ _ _ _ (as_rel _ _ _ Ha) HC Hd Ep) as (id'&base&Hq'&HH&Hdiv). rewrite Hq in Hq'. injection Hq' as <-.
  erewrite aligned_ok; [|done|done|rewrite Nat.mul_comm; by apply (size_align Hla)|by apply (align_pos Hsm)]. cbn [negb]. cbn [cell_bytes] in Hs. by rewrite Hs.
Qed.
(** The values on the stack and their bytes. *)
Section tuple.
Context (be : bool) (G : group) (g : list ctype) (Hg : gspec be G g) (Hin : in_U U G).
Definition vrel (x : list (option value)) (y : list (option (list mbyte))) : Prop :=
  length x = length y /\
  forall j v, x !! j = Some (Some v) -> exists C, g !! j = Some C /\ y !! j = Some (Some (val_bytes (size_of C) v)).
Lemma sorted_values_sim vs : length vs = length G -> vrel (as_sorted_values be G vs) (b_sorted_values be G vs).
Proof using Hg.
  intros Hl. unfold as_sorted_values, b_sorted_values.
  assert (Hgen : forall k vs' G' x y, (forall i C, G' !! i = Some C -> G !! (k + i) = Some C) -> length vs' = length G' -> vrel x y ->
    vrel (fold_left (fun ps '(i, v) => <[group_slot be G i := Some v]> ps) (zip (seq k (length vs')) vs') x)
         (fold_left (fun ps '(i, (C, v)) => <[group_slot be G i := Some (val_bytes (size_of C) v)]> ps) (zip (seq k (length (zip G' vs'))) (zip G' vs')) y)).
  { clear vs Hl. intros k vs'. revert k. induction vs' as [|v vs' IH]; intros k [|C G'] x y HG Hl Hr; try done.
    cbn [length seq zip zip_with fold_left]. apply (IH (S k) G'); [|cbn in Hl; lia|].
    - intros i C' Hi. replace (S k + i) with (k + S i) by lia. by apply HG.
    - pose proof (HG 0 C eq_refl) as HC. rewrite Nat.add_0_r in HC. pose proof (gs_slot _ _ _ Hg _ _ HC) as Hs.
      destruct Hr as [Hxy Hr]. split; [by rewrite !insert_length|]. intros j w Hj. destruct (decide (group_slot be G k = j)) as [<-|Hne].
      + assert (Hlt : group_slot be G k < length x) by (apply lookup_lt_Some in Hj; by rewrite insert_length in Hj).
        rewrite list_lookup_insert in Hj by done. injection Hj as <-. exists C. split; [done|]. rewrite list_lookup_insert by lia. done.
      + rewrite list_lookup_insert_ne in Hj by done. destruct (Hr _ _ Hj) as (C'&?&?). exists C'. split; [done|]. by rewrite list_lookup_insert_ne. }
  apply (Hgen 0 vs G); [done|done|]. split; [done|]. intros j v Hj%lookup_replicate. by destruct Hj.
Qed.
Lemma sim_copy_in F s S1 vals bvals row i d : vrel vals bvals -> g !! i = Some d ->
  sim F s S1 (copy_in vals row (i, cdesc_of d)) (b_copy_in bvals row (i, cdesc_of d)).
Proof using Hsm Hg Hin.
  intros [Hl Hr] Hi Ha [] s' E. unfold copy_in, bind, am_get in E. destruct (vals !! i) as [[v|]|] eqn:Ev; [|done|done].
  destruct (a_comps s.1 !! i) as [d'|] eqn:Ed; [|done]. destruct (N.eqb_spec (cd_size (cdesc_of d)) (cd_size d')) as [Hsz|]; [|done].
  destruct (Hr _ _ Ev) as (C&HC&Hb). rewrite Hi in HC. injection HC as <-. assert (HdU : d ∈ U).
  { apply (proj1 (Forall_forall _ _) Hin). rewrite <- (gs_perm _ _ _ Hg). by eapply elem_of_list_lookup_2. }
  destruct (cell_write _ _ _ _ _ _ _ _ Ha Ed E) as (id&m'&Hq&Hp&Hs&Ha'&Hk).
  assert (Hds : dsize d' = size_of d) by (rewrite <- (dsize_of Hsm) by done; unfold dsize; by rewrite Hsz). rewrite Hds in Hp, Hs.
  exists (S1.1, m'). split; [|done]. unfold b_copy_in. rewrite Hb, val_bytes_length, (dsize_of Hsm) by done.
  rewrite (proj2 (Nat.ltb_ge _ _)) by done. unfold bind, bm_get. rewrite Hq. unfold bm_rd. unfold column_at in Hp. rewrite Hq in Hp.
  rewrite Nat.mul_comm, Hp. cbn [lift_rd]. rewrite take_ge by by rewrite val_bytes_length. unfold bm_mem. cbn [cell_bytes] in Hs. by rewrite Hs.
Qed.
Lemma copy_in_desc vals row x s s' : copy_in vals row x s = Ret tt s' -> a_desc s'.1 = a_desc s.1.
Proof.
  destruct x as [i d]. unfold copy_in, bind, am_get. destruct (vals !! i) as [[v|]|]; [|done|done]. destruct (a_comps s.1 !! i); [|done].
  destruct (_ =? _)%N; [|done]. apply write_cell_desc.
Qed.
Lemma sim_push_entity F s S1 c h vs : big c = be -> length vs = length G ->
  sim F s S1 (push_entity_unchecked c G h vs) (b_push_entity c G h vs).
Proof using Hsm Hg Hin.
  intros Hbe Hl. unfold push_entity_unchecked, b_push_entity. rewrite Hbe. apply sim_get. intros Ha.
  apply sim_bind; [by apply sim_debug|intros [] ? ? _ _]. apply sim_bind; [apply sim_debug; by rewrite (ar_desc _ _ _ (as_rel _ _ _ Ha))|intros [] ? ? _ _].
  apply sim_bind; [apply sim_resize_if|intros [] ? ? _ _]. apply sim_get. intros Ha1. rewrite (ar_count _ _ _ (as_rel _ _ _ Ha1)).
  apply sim_bind; [apply sim_increment|intros [] ? ? _ _]. apply sim_bind; [|intros [] ? ? _ _; apply sim_ret].
  unfold write_entity_unchecked, b_write_entity_unchecked. rewrite Hbe. apply sim_get. intros Ha2.
  apply sim_bind; [apply sim_debug; by rewrite (ar_cap _ _ _ (as_rel _ _ _ Ha2))|intros [] ? ? _ _].
  apply sim_bind; [by apply sim_debug|intros [] ? ? _ _]. apply sim_bind; [apply sim_debug; by rewrite (ar_desc _ _ _ (as_rel _ _ _ Ha2))|intros [] t T _ _].
  apply sim_bind; [|intros [] ? ? _ _; apply sim_write_entity].
  apply (sim_mfor (fun a => True)); [done| |done]. intros x t' T' Hx _ _. apply elem_of_list_lookup in Hx as (i&Hi).
  apply enum_lookup_inv in Hi as (d&->&Hi). rewrite (gs_comps _ _ _ Hg) in Hi. apply map_lookup_inv in Hi as (C&Hi&->).
  apply sim_copy_in; [|done]. by apply sorted_values_sim.
Qed.
End tuple.
(** Copying between two archetypes of the same heap. *)
Lemma sim_copy_common F s S1 src SRC srow drow :
  arel (m_blocks S1.2) src SRC -> (forall id, id ∈ own SRC -> id ∈ F) ->
  sim F s S1 (copy_common_components src srow drow) (b_copy_common SRC srow drow).
Proof.
  intros Hsrc HF. apply sim_get. intros Ha. rewrite (ar_comps _ _ _ (as_rel _ _ _ Ha)), (ar_comps _ _ _ Hsrc).
  set (J := fun m => arel (m_blocks m) src SRC).
  assert (HJ : forall m m', J m -> kept F m m' -> J m').
  { intros m m' Hm Hk. eapply arel_frame; [exact Hm|]. intros id Hid. apply Hk. by apply HF. }
  assert (Hinner : forall si sd di dd t T, a_comps src !! si = Some sd -> a_comps s.1 !! di = Some dd -> a_desc t.1 = a_desc s.1 -> J T.2 ->
    sim F t T
     (if negb (cd_id sd =? cd_id dd)%N then ret tt else if negb (cd_size sd =? cd_size dd)%N then mub
      else let! cell := lift_rd (raw_cell src si srow) in write_cell di drow cell)
     (if negb (cd_id sd =? cd_id dd)%N then ret tt
      else let! p := bm_rd (fun _ m => column_at SRC m si (dsize sd * srow)) in
           let! q := bm_rd (fun a m => column_at a m di (dsize dd * drow)) in bm_mem (copy_bytes p q (dsize sd)))).
  { intros si sd di dd t T Hsi Hdi Ht HT. destruct (negb (cd_id sd =? cd_id dd)%N); [apply sim_ret|].
    destruct (N.eqb_spec (cd_size sd) (cd_size dd)) as [Hsz|]; [|apply sim_ub]. cbn [negb].
    intros Hat [] t' E. unfold bind in E. destruct (raw_cell src si srow) as [cell| |] eqn:Er; cbn [lift_rd] in E; [|done..].
    destruct (cell_load _ _ _ _ _ _ _ HT Hsi Er) as (id1&Hq1&Hp1&Hl1).
    assert (Hdi' : a_comps t.1 !! di = Some dd) by (unfold a_comps; by rewrite Ht).
    destruct (cell_write _ _ _ _ _ _ _ _ Hat Hdi' E) as (id2&m'&Hq2&Hp2&Hs2&Ha2&Hk2).
    assert (Hds : dsize sd = dsize dd) by (unfold dsize; by rewrite Hsz).
    exists (T.1, m'). split; [|done]. unfold bind, bm_rd. rewrite Nat.mul_comm, Hp1. cbn [lift_rd]. rewrite Nat.mul_comm, Hp2. cbn [lift_rd].
    unfold bm_mem, copy_bytes, bind, get_st.
    assert (Hdj : disjoint_ranges (Some (id1, srow * dsize sd)) (Some (id2, drow * dsize dd)) (dsize sd) = true).
    { unfold disjoint_ranges. destruct (N.eqb_spec id1 id2) as [->|]; [|done]. exfalso. apply (as_not_F _ _ _ id2 Hat); [by eapply own_ptr|].
      apply HF. by eapply own_ptr. }
    rewrite Hdj. cbn [negb]. rewrite Hl1. cbn [lift_rd]. rewrite Hds. by rewrite Hs2. }
  assert (Hdesc : forall si sd di dd (t t' : arch * env),
    (if negb (cd_id sd =? cd_id dd)%N then ret tt else if negb (cd_size sd =? cd_size dd)%N then mub
      else let! cell := lift_rd (raw_cell src si srow) in write_cell di drow cell) t = Ret tt t' -> a_desc t'.1 = a_desc t.1).
  { intros si sd di dd t t'. destruct (negb _); [by intros [= <-]|]. destruct (negb _); [done|]. unfold bind.
    destruct (raw_cell src si srow) as [cell| |]; cbn [lift_rd]; [|done..]. apply write_cell_desc. }
  apply (sim_mfor_J (fun a => a_desc a = a_desc s.1) J); [done|done|done| |].
  - intros x t T Hx HI HJT _. apply elem_of_list_lookup in Hx as (si&Hi). apply enum_lookup_inv in Hi as (sd&->&Hsi).
    apply (sim_mfor_J (fun a => a_desc a = a_desc s.1) J); [done|done|done| |].
    + intros y t2 T2 Hy HI2 HJ2 _. apply elem_of_list_lookup in Hy as (di&Hi). apply enum_lookup_inv in Hi as (dd&->&Hdi). by apply Hinner.
    + intros [di dd] t2 t3 _ HI2 E. by rewrite (Hdesc _ _ _ _ _ _ E).
  - intros [si sd] t t' _ HI E. rewrite <- HI. revert t E HI. generalize (enum (a_comps s.1)). intros l. induction l as [|[di dd] l IH]; intros t; cbn [mfor].
    + by intros [= <-].
    + unfold bind at 1. destruct (_ t) as [[] t2| |] eqn:E1; [|done..]. intros E HI. pose proof (Hdesc _ _ _ _ _ _ E1) as Hd.
      rewrite (IH _ E); [done|]. by rewrite Hd.
Qed.
(** ** Dropping an archetype *)
Lemma sim_drop F s S1 : sim F s S1 a_drop b_drop.
Proof using Hsm Hla.
  apply sim_get. intros Ha. rewrite (ar_cap _ _ _ (as_rel _ _ _ Ha)). destruct (_ =? 0); [apply sim_ret|].
  apply sim_bind; [by apply sim_drop_entities|intros [] ? ? _ _]. apply sim_dealloc.
Qed.

(** ** A new archetype *)
Lemma alloc_columns_sim cap ds : forall m L ps e', heap_ok (m_blocks m) (m_next m) L -> alloc_columns ds cap (m_env m) = Ret ps e' ->
  exists qs m', b_alloc_columns ds cap m = Ret qs m' /\ m_env m' = e' /\ heap_ok (m_blocks m') (m_next m') (omap ptr_id qs ++ L) /\
    kept L m m' /\ length qs = length ds /\ length ps = length ds /\
    forall i d p q, ds !! i = Some d -> ps !! i = Some p -> qs !! i = Some q -> prel (val_bytes (dsize d)) (dsize d) (cd_align d) (m_blocks m') p q.
Proof.
  induction ds as [|d ds IH]; intros m L ps e' Hh E; cbn [alloc_columns b_alloc_columns] in *.
  - injection E as <- <-. exists [], m. split_and!; try done.
  - unfold bind at 1 in E. destruct (mem_alloc _ _ cap (m_env m)) as [p e1|e1|] eqn:Em; [|done..]. destruct p as [b|] eqn:Eb; [|done].
    unfold bind in E. destruct (alloc_columns ds cap e1) as [ps' e2|e2|] eqn:Er; [|done..]. injection E as <- <-.
    destruct (alloc_mem (val_bytes (dsize d)) (dsize d) _ _ _ _ _ _ Em (col_size _ _) ltac:(done)) as (blk&m1&_&Ea&He1&Hn1&(h&Hb1)&Hp1).
    assert (Hh1 : heap_ok (m_blocks m1) (m_next m1) (m_next m :: L)) by (rewrite Hb1, Hn1; by apply heap_ok_add).
    rewrite <- He1 in Er. destruct (IH _ _ _ _ Hh1 Er) as (qs&m2&E2&He2&Hh2&Hk2&Hl2&Hl2'&Hp2).
    exists (Some (m_next m, 0) :: qs), m2. split; [unfold bind; rewrite Ea, E2; done|]. split; [done|]. split; [|split; [|split; [cbn; lia|split; [cbn; lia|]]]].
    + cbn. eapply heap_ok_perm; [|exact Hh2]. symmetry. apply Permutation_middle.
    + intros id Hid. rewrite Hk2 by (by apply elem_of_list_further). rewrite Hb1, lookup_insert_ne; [done|]. intros <-. exact (heap_ok_fresh _ _ _ _ Hh Hid eq_refl).
    + intros [|i] d' p1 q Hd Hp Hq; cbn in Hd, Hp, Hq.
      * injection Hd as <-. injection Hp as <-. injection Hq as <-. eapply prel_frame; [exact Hp1|]. intros id o [= <- _]. apply Hk2. apply elem_of_list_here.
      * by eapply Hp2.
Qed.
Lemma with_capacity_sim d cap m L a e' : knows U d -> heap_ok (m_blocks m) (m_next m) L -> a_with_capacity d cap (m_env m) = Ret a e' ->
  exists A m', b_with_capacity d cap m = Ret A m' /\ ast L (a, e') (A, m') /\ kept L m m' /\ a_desc a = d.
Proof.
  intros Hk Hh E. unfold a_with_capacity in E. unfold b_with_capacity. unfold bind at 1 in E. unfold bind at 1.
  destruct (ad_is_valid d); [|done]. cbn [massert] in *. unfold ret at 1 in E. unfold ret at 1. destruct (_ && _).
  - unfold bind at 1 in E. destruct (mem_alloc _ _ cap (m_env m)) as [p e1|e1|] eqn:Em; [|done..]. destruct p as [b|] eqn:Eb; [|done].
    unfold bind in E. destruct (alloc_columns _ cap e1) as [ps e2|e2|] eqn:Er; [|done..]. injection E as <- <-.
    destruct (alloc_mem handle_bytes 4 _ _ _ _ _ _ Em ltac:(unfold ENTITY_SIZE; lia) ltac:(done)) as (blk&m1&_&Ea&He1&Hn1&(h&Hb1)&Hp1).
    assert (Hh1 : heap_ok (m_blocks m1) (m_next m1) (m_next m :: L)) by (rewrite Hb1, Hn1; by apply heap_ok_add).
    rewrite <- He1 in Er. destruct (alloc_columns_sim _ _ _ _ _ _ Hh1 Er) as (qs&m2&E2&He2&Hh2&Hk2&Hl2&Hl2'&Hp2).
    eexists _, m2. split; [unfold bind; rewrite Ea, E2; done|]. split; [|split; [|done]].
    + apply heap_ast; cbn [fst snd].
      * split; cbn; try done.
        -- rewrite !app_length, !replicate_length. lia.
        -- intros i dd p1 q Hd Hp Hq. pose proof (lookup_lt_Some _ _ _ Hd) as Hlt. unfold a_comps in *. cbn in Hd, Hlt.
           rewrite lookup_app_l in Hp by lia. rewrite lookup_app_l in Hq by lia. by eapply Hp2.
        -- intros i p1 q Hd Hp Hq. apply lookup_ge_None in Hd. unfold a_comps in Hd. cbn in Hd.
           rewrite lookup_app_r in Hp by (etransitivity; [apply Nat.eq_le_incl; exact Hl2'|exact Hd]).
           rewrite lookup_app_r in Hq by (etransitivity; [apply Nat.eq_le_incl; exact Hl2|exact Hd]).
           apply lookup_replicate in Hp as [-> _]. apply lookup_replicate in Hq as [-> _]. done.
        -- change (prel handle_bytes 4 4 (m_blocks m2) (Some b) (Some (m_next m, 0))). eapply prel_frame; [exact Hp1|]. intros id o [= <- _]. apply Hk2. apply elem_of_list_here.
      * assert (Hown : own (BArch d (qs ++ replicate (MAX_COMPONENTS_PER_ENTITY - length qs) None) (Some (m_next m, 0)) 0 cap) = m_next m :: omap ptr_id qs).
        { unfold own. cbn [b_assoc b_ptrs]. cbn. f_equal. change (@omap list list_omap) with (@omap list list_omap). rewrite omap_app.
          assert (Hn : forall k, omap ptr_id (replicate k None) = []) by (intros k; induction k as [|k IHk]; [done|exact IHk]).
          rewrite Hn. by rewrite app_nil_r. }
        rewrite Hown. eapply heap_ok_perm; [|exact Hh2]. cbn [app]. symmetry. apply Permutation_middle.
      * done.
    + intros id Hid. rewrite Hk2 by (by apply elem_of_list_further). rewrite Hb1, lookup_insert_ne; [done|]. intros <-. exact (heap_ok_fresh _ _ _ _ Hh Hid eq_refl).
  - injection E as <- <-. eexists _, m. split; [done|]. split; [|split; [apply kept_refl|done]].
    apply heap_ast; cbn [fst snd]; [|done|done]. split; try done.
    + intros i dd p q Hd Hp Hq. change (replicate 14 None !! i = Some p) in Hp. apply lookup_replicate in Hp as [-> _]. change (replicate 14 None !! i = Some q) in Hq. apply lookup_replicate in Hq as [-> _]. done.
    + intros i p q Hd Hp Hq. change (replicate 14 None !! i = Some p) in Hp. apply lookup_replicate in Hp as [-> _]. change (replicate 14 None !! i = Some q) in Hq. apply lookup_replicate in Hq as [-> _]. done.
Qed.
End change.
