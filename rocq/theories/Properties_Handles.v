(** Properties C01-C05: handles, table entries and hashing. *)
From Verif Require Import EntityModel EntityProofs SpecBase FnvProofs.
Local Open Scope N_scope.

(** C01: handle packing is lossless. *)
Theorem C01_handle_packing :
  (forall i v, i < 2 ^ 24 -> v < 2 ^ 8 ->
     ent_index (ent_new_unchecked i v) = i /\
     ent_version (ent_new_unchecked i v) = v /\
     ent_raw (ent_new_unchecked i v) = i * 256 + v) /\
  (forall raw, raw < 2 ^ 32 ->
     ent_index (ent_from_raw raw) < 2 ^ 24 /\ ent_version (ent_from_raw raw) < 2 ^ 8 /\
     ent_new_unchecked (ent_index raw) (ent_version raw) = raw) /\
  (forall dbg h i, h < 2 ^ 32 -> i < 2 ^ 24 ->
     exists h', ent_set_index dbg h i = Some h' /\ ent_index h' = i /\ ent_version h' = ent_version h) /\
  (forall h v, h < 2 ^ 32 -> v < 2 ^ 8 ->
     ent_version (ent_set_version h v) = v /\ ent_index (ent_set_version h v) = ent_index h) /\
  (forall h, ent_is_valid h = true <-> h <> 2 ^ 32 - 1).
Proof. exact handle_packing. Qed.
Print Assumptions C01_handle_packing.
Example C01_example :
  ent_index (ent_new_unchecked 70000 9) = 70000 /\ ent_version (ent_new_unchecked 70000 9) = 9 /\
  ent_raw (ent_new_unchecked 70000 9) = 17920009.
Proof. vm_compute. auto. Qed.
(** Outside the documented precondition the index is truncated, and a debug
    build of [set_index] panics. *)
Example C01_precondition_needed :
  ent_index (ent_new_unchecked (2 ^ 24 + 5) 0) = 5 /\ ent_set_index true 0 (2 ^ 24) = None.
Proof. vm_compute. auto. Qed.

(** C02: IndexInArchetype accepts exactly the values below 16777215; its
    three-byte form is lossless for every 24-bit value. *)
Theorem C02_index_in_archetype :
  (forall v, (iia_new v = None <-> 16777215 <= v) /\ (forall w, iia_new v = Some w -> w = v)) /\
  (forall v, v < 2 ^ 24 -> iia_from_bytes (iia_to_bytes v) = v) /\
  (forall v, (iia_to_bytes v).1.1 < 256 /\ (iia_to_bytes v).1.2 < 256 /\ (iia_to_bytes v).2 < 256).
Proof. exact index_in_archetype. Qed.
Print Assumptions C02_index_in_archetype.
Example C02_example : iia_new 16777214 = Some 16777214 /\ iia_new 16777215 = None /\ iia_to_bytes 0x123456 = (0x12, 0x34, 0x56).
Proof. vm_compute. auto. Qed.

(** C03: the fields of a table entry are independent, on either endianness. *)
Theorem C03_entry_fields : forall be e,
  (forall v, entry_version (entry_set_version e v) = v /\
             entry_index_in_archetype (entry_set_version e v) = entry_index_in_archetype e /\
             entry_archetype_index be (entry_set_version e v) = entry_archetype_index be e) /\
  (forall v, v < 2 ^ 24 ->
             entry_index_in_archetype (entry_set_index_in_archetype e v) = v /\
             entry_version (entry_set_index_in_archetype e v) = entry_version e /\
             entry_archetype_index be (entry_set_index_in_archetype e v) = entry_archetype_index be e) /\
  (forall v, v < 2 ^ 16 ->
             entry_archetype_index be (entry_set_archetype_index be e v) = v /\
             entry_version (entry_set_archetype_index be e v) = entry_version e /\
             entry_index_in_archetype (entry_set_archetype_index be e v) = entry_index_in_archetype e) /\
  (entry_is_valid be e = true <-> entry_archetype_index be e <> 65535) /\
  (forall n, n < 2 ^ 24 ->
             entry_is_valid be (entry_invalidate be e n) = false /\
             entry_index_in_archetype (entry_invalidate be e n) = n /\
             entry_version (entry_invalidate be e n) = entry_version e).
Proof. exact entry_fields. Qed.
Print Assumptions C03_entry_fields.
Example C03_example :
  let e := entry_set_archetype_index false (entry_set_index_in_archetype (entry_set_version entry_default 7) 66051) 258 in
  e = Entry 7 1 2 3 2 1 /\ entry_version e = 7 /\ entry_index_in_archetype e = 66051 /\ entry_archetype_index false e = 258.
Proof. vm_compute. auto. Qed.

(** C04: the hash helpers compute FNV-1a. *)
Theorem C04_fnv1a :
  (forall bs limit, fnv1a_hash_32 bs limit = fnv1a_reference_32 (hashed_prefix bs limit) /\
                    fnv1a_hash_32 bs limit < 2 ^ 32) /\
  (forall bs limit, fnv1a_hash_64 bs limit = fnv1a_reference_64 (hashed_prefix bs limit) /\
                    fnv1a_hash_64 bs limit < 2 ^ 64) /\
  (forall be bs limit,
     let h := fnv1a_reference_32 (hashed_prefix bs limit) in
     fnv1a_hash_16_xor be bs limit = N.lxor (h / 2 ^ 16) (h mod 2 ^ 16) /\
     fnv1a_hash_16_xor be bs limit < 2 ^ 16) /\
  (forall name, default_component_id true name = default_component_id false name).
Proof. exact fnv1a_correct. Qed.
Print Assumptions C04_fnv1a.
(** Published FNV-1a test vectors ("", "a", "foobar"), and a limited prefix. *)
Example C04_example :
  fnv1a_hash_32 [] None = 0x811c9dc5 /\ fnv1a_hash_32 [0x61] None = 0xe40c292c /\
  fnv1a_hash_32 [0x66; 0x6f; 0x6f; 0x62; 0x61; 0x72] None = 0xbf9cf968 /\
  fnv1a_hash_64 [0x66; 0x6f; 0x6f; 0x62; 0x61; 0x72] None = 0x85944171f73967e8 /\
  fnv1a_hash_32 [0x61; 0x62] (Some 1%nat) = 0xe40c292c.
Proof. vm_compute. auto 10. Qed.

(** C05: strings of equal length differing in one byte never collide. *)
Theorem C05_one_byte : forall l r b b',
  Forall (fun x => x < 256) (b :: b' :: r) -> b <> b' ->
  fnv1a_hash_32 (l ++ b :: r) None <> fnv1a_hash_32 (l ++ b' :: r) None /\
  fnv1a_hash_64 (l ++ b :: r) None <> fnv1a_hash_64 (l ++ b' :: r) None.
Proof. exact one_byte_differs. Qed.
Print Assumptions C05_one_byte.
Example C05_example :
  Forall (fun x => x < 256) [0; 255; 17; 33] /\ 0 <> 255 /\
  fnv1a_hash_32 ([1] ++ 0 :: [17; 33]) None <> fnv1a_hash_32 ([1] ++ 255 :: [17; 33]) None.
Proof. vm_compute. repeat split; try discriminate; repeat constructor. Qed.
(** The 16-bit ids have no such guarantee beyond 2 bytes; two different short
    names already share one. *)
Example C05_not_for_names :
  default_component_id false [82; 105; 110; 103] = default_component_id false [71; 101; 109; 65; 109; 117; 108; 101; 116].
Proof. vm_compute. reflexivity. Qed.
