(** * Model of src/fnv1a.rs. *)
From Verif Require Export Consts.
Local Open Scope N_scope.

(** src/fnv1a.rs:1-7 *)
Definition FNV_OFFSET_BASIS_32 : N := 0x811c9dc5.
Definition FNV_OFFSET_BASIS_64 : N := 0xcbf29ce484222325.
Definition FNV_PRIME_32 : N := 0x01000193.
Definition FNV_PRIME_64 : N := 0x00000100000001B3.

(** src/fnv1a.rs:15-24 and :40-49, the choice of the number of bytes hashed. *)
Definition fnv_effective_len (len : nat) (limit : option nat) : nat :=
  match limit with
  | Some v => if (v <=? len)%nat && (0 <? v)%nat then v else len
  | None => len
  end.

(** src/fnv1a.rs:26-30 and :51-55: [while i < len { hash ^= bytes[i]; hash =
    hash.wrapping_mul(PRIME); i += 1 }].  The loop walks the first [n] bytes;
    since [n <= bytes.len()] the indexing never panics.  [modulus] is 2^32 or
    2^64 (the wrap of [wrapping_mul]). *)
Fixpoint fnv_loop (prime modulus : N) (bytes : list N) (n : nat) (hash : N) : N :=
  match n, bytes with
  | S n', b :: bytes' => fnv_loop prime modulus bytes' n' ((N.lxor hash b * prime) mod modulus)
  | _, _ => hash
  end.

(** src/fnv1a.rs:11-32 *)
Definition fnv1a_hash_64 (bytes : list N) (limit : option nat) : N :=
  fnv_loop FNV_PRIME_64 (2 ^ 64) bytes (fnv_effective_len (length bytes) limit) FNV_OFFSET_BASIS_64.

(** src/fnv1a.rs:36-57 *)
Definition fnv1a_hash_32 (bytes : list N) (limit : option nat) : N :=
  fnv_loop FNV_PRIME_32 (2 ^ 32) bytes (fnv_effective_len (length bytes) limit) FNV_OFFSET_BASIS_32.

(** [u32::to_ne_bytes] as used at src/fnv1a.rs:64. *)
Definition u32_to_ne (be : bool) (v : N) : list N :=
  let le := [v mod 256; (v / 256) mod 256; (v / 65536) mod 256; (v / 16777216) mod 256] in
  if be then rev le else le.

(** src/fnv1a.rs:63-68 *)
Definition fnv1a_hash_16_xor (be : bool) (bytes : list N) (limit : option nat) : N :=
  match u32_to_ne be (fnv1a_hash_32 bytes limit) with
  | [b0; b1; b2; b3] =>
      let upper := u16_from_ne be (b0, b1) in
      let lower := u16_from_ne be (b2, b3) in
      N.lxor upper lower
  | _ => 0  (* unreachable: to_ne_bytes gives four bytes *)
  end.

(** src/fnv1a.rs:72-86; a [&str] is modelled by its UTF-8 bytes. *)
Definition fnv1a_hash_str_64 (s : list N) : N := fnv1a_hash_64 s None.
Definition fnv1a_hash_str_32 (s : list N) : N := fnv1a_hash_32 s None.
Definition fnv1a_hash_str_16_xor (be : bool) (s : list N) : N := fnv1a_hash_16_xor be s None.
