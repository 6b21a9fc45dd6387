(** Proofs for C68: a size that wraps around to a smaller one. *)
From Verif Require Import WidthModel Instances SpecEntity EntityProofs SearchProofs MonadProofs DescrProofs ArchProofs ArchOps AregProofs RegProofs RegOps Sizes Width SpecBase SpecWorld SpecWidth.
Local Open Scope nat_scope.

(** A component of 512 bytes, and archetypes of it with a column [cells]. *)
Definition c512 := CType 1 1 512 1.
Definition c512_desc : adesc := gd_arch (group_desc false [c512]).
Definition c512_arch (size hs : N) (cells : list (option value)) (hands : list (option N)) (n : nat) : arch :=
  Arch c512_desc (Some (Block size 1 cells) :: replicate 13 None) (Some (Block hs 4 hands)) n (length hands).
Lemma c512_comps : ad_components c512_desc = [cdesc_of c512]. Proof. vm_compute. reflexivity. Qed.
Lemma c512_alloc w size k cap : N.of_nat cap = 8388609%N -> w_size w release 4 4 cap = Rd 33554436%N -> w_size w release 512 1 cap = Rd size ->
  (0 < size)%N -> cells_in 512 size = k ->
  w_with_capacity w release c512_desc cap env_init =
    Ret (c512_arch size 33554436 (replicate k None) (replicate cap None) 0) (Env [EvAlloc 33554436 4; EvAlloc size 1] []).
Proof.
  intros Hc H4 H5 Hs Hk. unfold w_with_capacity. rewrite (bind_Ret _ _ _ tt env_init) by (vm_compute; reflexivity).
  assert (Hb : (0 <? cap) && (N.of_nat cap <=? MAX_ENTITIES_PER_ARCHETYPE)%N = true).
  { apply andb_true_intro. split; [apply Nat.ltb_lt; lia|]. by rewrite Hc. }
  rewrite Hb. rewrite c512_comps. cbn [w_alloc_columns]. unfold w_alloc. change ENTITY_SIZE with 4%N. change ENTITY_ALIGN with 4%N. rewrite H4.
  change (cd_size (cdesc_of c512)) with 512%N. change (cd_align (cdesc_of c512)) with 1%N. rewrite H5. unfold bind at 1 2. cbn [lift_rd]. unfold ret at 1.
  assert (Hcell : cells_in 4 33554436 = cap) by (unfold cells_in; change (33554436 / 4)%N with 8388609%N; rewrite <- Hc; apply Nat2N.id). rewrite Hcell.
  unfold mem_alloc at 1. cbn [N.eqb orb]. replace (is_pow2 4) with true by (vm_compute; reflexivity). cbn [negb]. unfold bind at 1 2, ask_allocator, env_init. cbn [ev_oracle ev_trace emit].
  unfold ret at 1. unfold bind at 1 2 3. cbn [lift_rd]. unfold ret at 1. unfold mem_alloc. replace (size =? 0)%N with false by (symmetry; apply N.eqb_neq; lia).
  cbn [orb]. replace (is_pow2 1) with true by (vm_compute; reflexivity). cbn [negb]. unfold bind, ask_allocator, emit, ret. cbn [ev_oracle ev_trace app length].
  rewrite Hk. unfold c512_arch. rewrite replicate_length. done.
Qed.
Lemma c512_push w size hs cells hands n h v e : n < length hands ->
  w_push_entity w release [c512] h [v] (c512_arch size hs cells hands n, e) =
  if n <? length cells then Ret n (c512_arch size hs (<[n := Some v]> cells) (<[n := Some h]> hands) (S n), e) else UB.
Proof.
  intros Hn. unfold w_push_entity. cbv zeta. unfold bind at 1. cbn [am_get]. unfold bind at 1. cbn [dbg release mdebug_assert]. unfold ret at 1. unfold bind at 1. unfold ret at 1.
  unfold bind at 1. unfold w_resize_if_necessary, bind at 1, am_get. cbn [fst]. unfold is_full. cbn [c512_arch a_count a_cap].
  rewrite (proj2 (Nat.eqb_neq _ _)) by lia. unfold ret at 1. unfold bind at 1. unfold bind at 1, am_upd. cbn [fst snd].
  unfold bind at 1. unfold write_entity_unchecked. cbv zeta. unfold bind at 1, am_get. cbn [fst]. unfold bind at 1. cbn [dbg release mdebug_assert]. unfold ret at 1. unfold bind at 1. unfold ret at 1.
  unfold bind at 1. unfold ret at 1. change (big release) with false. fold c512_desc. rewrite c512_comps. change (enum [cdesc_of c512]) with [(0, cdesc_of c512)]. cbn [mfor].
  replace (as_sorted_values false [c512] [v]) with (Some v :: replicate 13 None) by (vm_compute; reflexivity).
  unfold bind at 1 2. unfold copy_in at 1. unfold bind at 1, am_get. cbn [fst lookup list_lookup]. unfold a_comps. cbn [set_count c512_arch a_desc]. rewrite c512_comps. cbn [lookup list_lookup].
  rewrite N.eqb_refl. unfold write_cell. cbn [fst snd].
  change (a_count (c512_arch size hs cells hands n)) with n.
  change (a_ptrs (set_count (c512_arch size hs cells hands n) (S n)) !! 0) with (Some (Some (Block size 1 cells))). cbn [bl_cells bl_size bl_align].
  change (a_len (c512_arch size hs cells hands n)) with n.
  destruct (n <? length cells); [|done]. unfold ret at 1. unfold write_entity. cbn [fst snd].
  set (a := set_ptrs _ _). assert (He : entity_cells a = Rd (take (S n) hands)).
  { unfold entity_cells. change (a_assoc a) with (Some (Block hs 4 hands)). change (a_count a) with (S n). cbn [bl_cells]. by rewrite (proj2 (Nat.leb_le _ _)) by lia. }
  rewrite He, take_length, Nat.min_l by lia. rewrite (proj2 (Nat.ltb_lt _ _)) by lia. unfold ret. do 2 f_equal.
  unfold a, c512_arch. rewrite insert_length. done.
Qed.

(** With 32 bits the product is 512: there is room for one component, and the
    second push writes past the end.  With 64 bits there is room for all. *)
Lemma c512_32 cap : N.of_nat cap = 8388609%N ->
  exists a e s, w_with_capacity 32 release c512_desc cap env_init = Ret a e /\ a_cap a = cap /\ ev_trace e = [EvAlloc 33554436 4; EvAlloc 512 1] /\
    w_push_entity 32 release [c512] 0 [vl c512 1] (a, e) = Ret 0 s /\ w_push_entity 32 release [c512] 256 [vl c512 2] s = UB.
Proof.
  intros Hc. eexists _, _, _. split.
  - apply (c512_alloc 32 512 1 cap Hc); [| |done|vm_compute; reflexivity]; unfold w_size; rewrite Hc; vm_compute; reflexivity.
  - split; [unfold c512_arch; cbn [a_cap]; by rewrite replicate_length|]. split; [done|]. rewrite c512_push by (rewrite replicate_length; lia).
    replace (0 <? length (replicate 1 (@None value))) with true by done. split; [reflexivity|].
    rewrite c512_push by (rewrite insert_length, replicate_length; lia). done.
Qed.
Lemma c512_64 cap : N.of_nat cap = 8388609%N ->
  exists a e s s', w_with_capacity 64 release c512_desc cap env_init = Ret a e /\ a_cap a = cap /\ ev_trace e = [EvAlloc 33554436 4; EvAlloc 4294967808 1] /\
    w_push_entity 64 release [c512] 0 [vl c512 1] (a, e) = Ret 0 s /\ w_push_entity 64 release [c512] 256 [vl c512 2] s = Ret 1 s'.
Proof.
  intros Hc. eexists _, _, _, _. split.
  - apply (c512_alloc 64 4294967808 cap cap Hc); [unfold w_size; rewrite Hc; vm_compute; reflexivity..|done|].
    unfold cells_in. change (4294967808 / 512)%N with 8388609%N. rewrite <- Hc. apply Nat2N.id.
  - split; [unfold c512_arch; cbn [a_cap]; by rewrite replicate_length|]. split; [done|]. rewrite c512_push by (rewrite replicate_length; lia).
    rewrite (proj2 (Nat.ltb_lt 0 _)) by (rewrite replicate_length; lia). split; [reflexivity|].
    rewrite c512_push by (rewrite insert_length, replicate_length; lia).
    rewrite (proj2 (Nat.ltb_lt 1 _)) by (rewrite insert_length, replicate_length; lia). reflexivity.
Qed.
(** A debug build panics instead. *)
Lemma c512_debug cap : N.of_nat cap = 8388609%N -> exists e, w_with_capacity 32 debug c512_desc cap env_init = Panic e.
Proof.
  intros Hc. unfold w_with_capacity. rewrite (bind_Ret _ _ _ tt env_init) by (vm_compute; reflexivity).
  assert (Hb : (0 <? cap) && (N.of_nat cap <=? MAX_ENTITIES_PER_ARCHETYPE)%N = true).
  { apply andb_true_intro. split; [apply Nat.ltb_lt; lia|]. by rewrite Hc. }
  rewrite Hb. rewrite c512_comps. cbn [w_alloc_columns]. unfold w_alloc.
  replace (w_size 32 debug ENTITY_SIZE ENTITY_ALIGN cap) with (Rd 33554436%N) by (unfold w_size; rewrite Hc; vm_compute; reflexivity).
  replace (w_size 32 debug (cd_size (cdesc_of c512)) (cd_align (cdesc_of c512)) cap) with (@RdPanic N) by (unfold w_size; rewrite Hc; vm_compute; reflexivity).
  unfold bind at 1 2. cbn [lift_rd]. unfold ret at 1. generalize (cells_in ENTITY_SIZE 33554436) as k. intros k. unfold mem_alloc, bind, ask_allocator, emit, env_init, ret.
  cbn. eexists. reflexivity.
Qed.
