(** Proofs about src/fnv1a.rs. *)
From Verif Require Import FnvModel SpecBase.
Local Open Scope N_scope.

Lemma fnv_loop_fold prime m bs n h :
  fnv_loop prime m bs n h = fold_left (fun h b => (N.lxor h b * prime) mod m) (take n bs) h.
Proof.
  revert n h; induction bs as [|b bs IH]; intros [|n] h; cbn; auto.
Qed.

Lemma effective_len_prefix bs limit :
  take (fnv_effective_len (length bs) limit) bs = hashed_prefix bs limit.
Proof.
  unfold fnv_effective_len, hashed_prefix; destruct limit as [n|]; [|by apply take_ge].
  destruct (Nat.leb_spec n (length bs)), (Nat.ltb_spec 0 n); cbn; case_decide; try lia; auto;
    by apply take_ge.
Qed.

Lemma hash_32_reference bs limit :
  fnv1a_hash_32 bs limit = fnv1a_reference 16777619 2166136261 32 (hashed_prefix bs limit).
Proof. unfold fnv1a_hash_32. rewrite fnv_loop_fold, effective_len_prefix. reflexivity. Qed.

Lemma hash_64_reference bs limit :
  fnv1a_hash_64 bs limit = fnv1a_reference 1099511628211 14695981039346656037 64 (hashed_prefix bs limit).
Proof. unfold fnv1a_hash_64. rewrite fnv_loop_fold, effective_len_prefix. reflexivity. Qed.

Lemma reference_bound prime offset bits bs :
  offset < 2 ^ bits -> fnv1a_reference prime offset bits bs < 2 ^ bits.
Proof.
  unfold fnv1a_reference. revert offset. induction bs as [|b bs IH]; intros offset H; cbn; auto.
  apply IH. apply N.mod_lt. apply N.pow_nonzero. lia.
Qed.

Lemma hash_32_bound bs limit : fnv1a_hash_32 bs limit < 4294967296.
Proof. rewrite hash_32_reference. by apply (reference_bound _ _ 32). Qed.
Lemma hash_64_bound bs limit : fnv1a_hash_64 bs limit < 18446744073709551616.
Proof. rewrite hash_64_reference. by apply (reference_bound _ _ 64). Qed.

(** ** The 16-bit variant *)
Lemma hash_16_halves be bs limit :
  fnv1a_hash_16_xor be bs limit
  = N.lxor (fnv1a_hash_32 bs limit / 65536) (fnv1a_hash_32 bs limit mod 65536).
Proof.
  unfold fnv1a_hash_16_xor.
  pose proof (hash_32_bound bs limit) as Hb.
  set (h := fnv1a_hash_32 bs limit) in *. clearbody h.
  assert (Hlo : h mod 65536 = h mod 256 + (h / 256) mod 256 * 256) by lia.
  assert (Hhi : h / 65536 = (h / 65536) mod 256 + (h / 16777216) mod 256 * 256) by lia.
  destruct be; cbv [u32_to_ne rev app u16_from_ne fst snd].
  - f_equal; lia.
  - rewrite N.lxor_comm. f_equal; lia.
Qed.

Lemma lxor_bound a b n : a < 2 ^ n -> b < 2 ^ n -> N.lxor a b < 2 ^ n.
Proof.
  intros Ha Hb. destruct (N.eq_dec (N.lxor a b) 0) as [->|Hz].
  { apply N.neq_0_lt_0. apply N.pow_nonzero. lia. }
  apply N.log2_lt_pow2; [lia|].
  eapply N.le_lt_trans; [apply N.log2_lxor|].
  destruct (N.eq_dec a 0) as [->|], (N.eq_dec b 0) as [->|].
  - done.
  - rewrite N.max_r by (cbn; lia). apply N.log2_lt_pow2; lia.
  - rewrite N.max_l by (cbn; lia). apply N.log2_lt_pow2; lia.
  - apply N.max_lub_lt; apply N.log2_lt_pow2; lia.
Qed.

Lemma hash_16_bound be bs limit : fnv1a_hash_16_xor be bs limit < 65536.
Proof.
  rewrite hash_16_halves. pose proof (hash_32_bound bs limit).
  apply (lxor_bound _ _ 16); change (2 ^ 16) with 65536; lia.
Qed.

(** ** One differing byte *)
Lemma mul_mod_inj p inv m x y :
  m <> 0 -> (p * inv) mod m = 1 -> x < m -> y < m ->
  (x * p) mod m = (y * p) mod m -> x = y.
Proof.
  intros Hm Hinv Hx Hy E.
  assert (Hz : forall z, z < m -> ((z * p) mod m * inv) mod m = z).
  { intros z Hz. rewrite N.mul_mod_idemp_l by done.
    replace (z * p * inv) with (z * (p * inv)) by lia.
    rewrite <- N.mul_mod_idemp_r, Hinv, N.mul_1_r by done. by apply N.mod_small. }
  rewrite <- (Hz x Hx), <- (Hz y Hy), E. reflexivity.
Qed.

Lemma lxor_inj_l a b c : N.lxor a b = N.lxor a c -> b = c.
Proof.
  intros E. rewrite <- (N.lxor_0_l b), <- (N.lxor_nilpotent a), N.lxor_assoc, E,
    <- N.lxor_assoc, N.lxor_nilpotent, N.lxor_0_l. reflexivity.
Qed.
Lemma lxor_inj_r a b c : N.lxor b a = N.lxor c a -> b = c.
Proof. rewrite !(N.lxor_comm _ a). apply lxor_inj_l. Qed.

Section one_byte.
  Context (p inv bits offset : N).
  Context (Hbits : 8 <= bits) (Hoff : offset < 2 ^ bits) (Hinv : (p * inv) mod 2 ^ bits = 1).

  Lemma byte_lt b : b < 256 -> b < 2 ^ bits.
  Proof. intros. eapply N.lt_le_trans; [done|]. change 256 with (2 ^ 8). apply N.pow_le_mono_r; lia. Qed.

  Lemma ref_tail_inj r h h' :
    Forall (fun b => b < 256) r -> h < 2 ^ bits -> h' < 2 ^ bits ->
    fold_left (fun h b => (N.lxor h b * p) mod 2 ^ bits) r h
    = fold_left (fun h b => (N.lxor h b * p) mod 2 ^ bits) r h' -> h = h'.
  Proof.
    assert (2 ^ bits <> 0) by (apply N.pow_nonzero; lia).
    intros Hr; revert h h'; induction Hr as [|b r Hb Hr IH]; intros h h' Hh Hh' E; [done|].
    cbn in E. apply IH in E; [|apply N.mod_lt; done..].
    apply (mul_mod_inj p inv) in E; [|auto using lxor_bound, byte_lt..].
    by apply lxor_inj_r in E.
  Qed.

  Lemma ref_one_byte l r b b' :
    Forall (fun b => b < 256) r -> b < 256 -> b' < 256 -> b <> b' ->
    fnv1a_reference p offset bits (l ++ b :: r) <> fnv1a_reference p offset bits (l ++ b' :: r).
  Proof.
    assert (2 ^ bits <> 0) by (apply N.pow_nonzero; lia).
    intros Hr Hb Hb' Hne E. unfold fnv1a_reference in E. rewrite !fold_left_app in E. cbn in E.
    pose proof (reference_bound p offset bits l Hoff) as Hh. unfold fnv1a_reference in Hh.
    apply ref_tail_inj in E; [|done|apply N.mod_lt; done..].
    apply (mul_mod_inj p inv) in E; [|auto using lxor_bound, byte_lt..].
    by apply lxor_inj_l in E.
  Qed.
End one_byte.

Lemma hash_32_one_byte l r b b' :
  Forall (fun b => b < 256) r -> b < 256 -> b' < 256 -> b <> b' ->
  fnv1a_hash_32 (l ++ b :: r) None <> fnv1a_hash_32 (l ++ b' :: r) None.
Proof.
  intros. rewrite !hash_32_reference. cbn [hashed_prefix].
  apply (ref_one_byte _ 899433627); try done.
Qed.
Lemma hash_64_one_byte l r b b' :
  Forall (fun b => b < 256) r -> b < 256 -> b' < 256 -> b <> b' ->
  fnv1a_hash_64 (l ++ b :: r) None <> fnv1a_hash_64 (l ++ b' :: r) None.
Proof.
  intros. rewrite !hash_64_reference. cbn [hashed_prefix].
  apply (ref_one_byte _ 14886173955864302971); try done.
Qed.

(** ** The claims *)
Lemma fnv1a_correct :
  (forall bs limit, fnv1a_hash_32 bs limit = fnv1a_reference_32 (hashed_prefix bs limit) /\
                    fnv1a_hash_32 bs limit < 2 ^ 32) /\
  (forall bs limit, fnv1a_hash_64 bs limit = fnv1a_reference_64 (hashed_prefix bs limit) /\
                    fnv1a_hash_64 bs limit < 2 ^ 64) /\
  (forall be bs limit,
     let h := fnv1a_reference_32 (hashed_prefix bs limit) in
     fnv1a_hash_16_xor be bs limit = N.lxor (h / 2 ^ 16) (h mod 2 ^ 16) /\
     fnv1a_hash_16_xor be bs limit < 2 ^ 16) /\
  (forall name, default_component_id true name = default_component_id false name).
Proof.
  split; [|split; [|split]].
  - intros. split; [apply hash_32_reference|apply hash_32_bound].
  - intros. split; [apply hash_64_reference|apply hash_64_bound].
  - intros. split; [|apply hash_16_bound]. rewrite hash_16_halves, hash_32_reference. reflexivity.
  - intros. unfold default_component_id, fnv1a_hash_str_16_xor. by rewrite !hash_16_halves.
Qed.
Lemma one_byte_differs : forall l r b b',
  Forall (fun x => x < 256) (b :: b' :: r) -> b <> b' ->
  fnv1a_hash_32 (l ++ b :: r) None <> fnv1a_hash_32 (l ++ b' :: r) None /\
  fnv1a_hash_64 (l ++ b :: r) None <> fnv1a_hash_64 (l ++ b' :: r) None.
Proof.
  intros l r b b' H Hne. apply Forall_cons in H as [Hb H]. apply Forall_cons in H as [Hb' H].
  split; [by apply hash_32_one_byte|by apply hash_64_one_byte].
Qed.
