(** * Specification vocabulary that does not depend on the model's functions
    (only on its data types): hashing, sorted keys, archetype identities. *)
From Verif Require Export DescrModel.
Local Open Scope N_scope.

(** Textbook FNV-1a, parameterised by width. *)
Definition fnv1a_reference (prime offset bits : N) (bs : list N) : N :=
  fold_left (fun h b => (N.lxor h b * prime) mod 2 ^ bits) bs offset.
Definition fnv1a_reference_32 : list N -> N := fnv1a_reference 16777619 2166136261 32.
Definition fnv1a_reference_64 : list N -> N := fnv1a_reference 1099511628211 14695981039346656037 64.

(** The part of the slice that is hashed, per the doc comment of the helpers. *)
Definition hashed_prefix (bs : list N) (limit : option nat) : list N :=
  match limit with
  | Some n => if decide (0 < n <= length bs)%nat then take n bs else bs
  | None => bs
  end.

(** Strictly increasing keys. *)
Definition strict (keys : list N) : Prop := StronglySorted N.lt keys.

(** The two bytes of a u16 in memory order. *)
Definition two_bytes (be : bool) (x : N) : list N :=
  if be then [x / 256 mod 256; x mod 256] else [x mod 256; x / 256 mod 256].
(** The archetype id of a tuple type whose sorted component ids are [l]: the
    hash of 14 two-byte slots, the unused ones 0xFFFF. *)
Definition tuple_archetype_id (be : bool) (l : list N) : N :=
  fnv1a_reference_32 (concat (map (two_bytes be) (l ++ replicate (14 - length l) 65535))).
(** The archetype id that [add_component]/[remove_component] compute for sorted
    component ids [l]: zero bytes fill the unused slots, and a single
    component's id is used as is. *)
Definition derived_archetype_id (be : bool) (l : list N) : N :=
  match l with
  | [] => 4294967295
  | [x] => x
  | _ => fnv1a_reference_32 (concat (map (two_bytes be) l) ++ replicate (28 - 2 * length l) 0)
  end.

(** Component ids of descriptors / of a tuple type. *)
Notation ids ds := (map cd_id ds).
Notation ids_of G := (map ct_id G).
(** A descriptor as the crate builds them: 14 slots, at most 14 used, the used
    ones strictly sorted by id. *)
Definition ad_wf (d : adesc) : Prop :=
  length (ad_comps d) = 14%nat /\ (ad_len d <= 14)%nat /\ strict (ids (ad_components d)).
(** A valid descriptor has between 1 and 14 components. *)
Definition regular (d : adesc) : Prop := ad_is_valid d = true -> (1 <= ad_len d <= 14)%nat.
