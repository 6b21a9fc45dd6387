(** * Model of src/entity_registry/ *)
From Verif Require Export Consts.
Local Open Scope N_scope.

(** ** Entity (src/entity_registry/entity.rs): a raw u32 handle. *)

(** entity.rs:43-47; [index << 8] on u32 drops the bits above 2^32. *)
Definition ent_new_unchecked (index version : N) : N :=
  N.lor (N.shiftl index ENTITY_VERSION_BITS mod 2 ^ 32) version.
(** entity.rs:17-18 *)
Definition ent_INVALID : N := ent_new_unchecked MAX_ENTITY_HANDLE_VALUE MAX_ENTITY_VERSION_VALUE.
(** entity.rs:25-27 *)
Definition ent_from_raw (raw : N) : N := raw.
(** entity.rs:30-32 *)
Definition ent_is_valid (h : N) : bool := negb (h =? ent_INVALID).
(** entity.rs:50-52 *)
Definition ent_index (h : N) : N := N.shiftr h ENTITY_VERSION_BITS.
(** entity.rs:70-72: [(0xFFFFFF & handle) as u8] *)
Definition ent_version (h : N) : N := N.land 0xFFFFFF h mod 256.
(** entity.rs:59-67; [None] = the debug assertion panics. *)
Definition ent_set_index (dbg : bool) (h index : N) : option N :=
  if dbg && negb (index <? 2 ^ ENTITY_HANDLE_BITS) then None
  else Some (N.lor (N.shiftl index ENTITY_VERSION_BITS mod 2 ^ 32) (N.land 0xFFFFFF h mod 256)).
(** entity.rs:75-77 *)
Definition ent_set_version (h version : N) : N :=
  N.lor (N.shiftl (ent_index h) ENTITY_VERSION_BITS mod 2 ^ 32) version.
(** entity.rs:80-82 *)
Definition ent_raw (h : N) : N := h.

(** ** ArchetypeIndex (archetype_index.rs:11-16): the newtype is its u16. *)
Definition ai_new (value : N) : option N :=
  if value =? INVALID_ARCHETYPE_INDEX then None else Some value.

(** ** IndexInArchetype (index_in_archetype.rs): the newtype is its u32. *)
(** index_in_archetype.rs:9 *)
Definition iia_INVALID_VALUE : N := 16777215.
(** index_in_archetype.rs:13-18 *)
Definition iia_new (value : N) : option N :=
  if iia_INVALID_VALUE <=? value then None else Some value.
(** index_in_archetype.rs:26-32 *)
Definition iia_from_bytes (b : N * N * N) : N :=
  N.shiftl b.1.1 16 + N.shiftl b.1.2 8 + b.2.
(** index_in_archetype.rs:36-42 *)
Definition iia_to_bytes (v : N) : N * N * N :=
  (N.shiftr (N.land v 0x00FF0000) 16 mod 256,
   N.shiftr (N.land v 0x0000FF00) 8 mod 256,
   N.land v 0x000000FF mod 256).

(** ** EntityEntry (entry.rs:9-13): six bytes. *)
Record entry := Entry { eb0 : N; eb1 : N; eb2 : N; eb3 : N; eb4 : N; eb5 : N }.

(** entry.rs:15-28 *)
Definition entry_default : entry := Entry 0 0 0 0 0 0.
(** entry.rs:31-36 *)
Definition entry_version (e : entry) : N := eb0 e.
Definition entry_set_version (e : entry) (v : N) : entry :=
  Entry v (eb1 e) (eb2 e) (eb3 e) (eb4 e) (eb5 e).
(** entry.rs:37-44 *)
Definition entry_index_in_archetype (e : entry) : N :=
  iia_from_bytes (eb1 e, eb2 e, eb3 e).
Definition entry_set_index_in_archetype (e : entry) (v : N) : entry :=
  let b := iia_to_bytes v in
  Entry (eb0 e) b.1.1 b.1.2 b.2 (eb4 e) (eb5 e).
(** entry.rs:45-52 *)
Definition entry_archetype_index (be : bool) (e : entry) : N :=
  u16_from_ne be (eb4 e, eb5 e).
Definition entry_set_archetype_index (be : bool) (e : entry) (v : N) : entry :=
  let b := u16_to_ne be v in
  Entry (eb0 e) (eb1 e) (eb2 e) (eb3 e) b.1 b.2.
(** entry.rs:54-56 *)
Definition entry_is_valid (be : bool) (e : entry) : bool :=
  negb (entry_archetype_index be e =? INVALID_ARCHETYPE_INDEX).
(** entry.rs:60-63 *)
Definition entry_invalidate (be : bool) (e : entry) (next_free_slot : N) : entry :=
  entry_set_archetype_index be (entry_set_index_in_archetype e next_free_slot) INVALID_ARCHETYPE_INDEX.

(** ** EntityRegistry (mod.rs:15-27).  The [Vec] is a list; its own memory
    management is not modelled. *)
Record er := Er { er_ents : list entry; er_next : N }.
Definition er_default : er := Er [] iia_INVALID_VALUE.

(** mod.rs:30 *)
Definition er_MAX_ENTITY_COUNT : N := MAX_ENTITY_HANDLE_VALUE.
(** mod.rs:32-34 *)
Definition er_can_register_new_entity (r : er) : bool :=
  N.of_nat (length (er_ents r)) <? er_MAX_ENTITY_COUNT.

(** mod.rs:36-60 *)
Definition er_create_entity (be : bool) (index_in_archetype archetype_index : N) : M er (option N) := fun r =>
  if er_MAX_ENTITY_COUNT <=? N.of_nat (length (er_ents r)) then Ret None r
  else
    let fill e := entry_set_index_in_archetype
                    (entry_set_archetype_index be e archetype_index) index_in_archetype in
    if er_next r =? iia_INVALID_VALUE then
      let idx := length (er_ents r) in
      Ret (Some (ent_new_unchecked (N.of_nat idx) 0))
          (Er (er_ents r ++ [fill entry_default]) (er_next r))
    else
      let slot := er_next r in
      match er_ents r !! N.to_nat slot with
      | None => Panic r  (* slice index out of bounds *)
      | Some e =>
          Ret (Some (ent_new_unchecked slot (entry_version e)))
              (Er (<[N.to_nat slot := fill e]> (er_ents r)) (entry_index_in_archetype e))
      end.

(** mod.rs:76-85 (and, reading the same entry for update, :87-96) *)
Definition er_entity_entry (be : bool) (r : er) (h : N) : option entry :=
  if (N.of_nat (length (er_ents r)) <=? ent_index h) || (h =? ent_INVALID) then None
  else
    match er_ents r !! N.to_nat (ent_index h) with
    | None => None  (* cannot happen: index checked above *)
    | Some e =>
        if negb (entry_version e =? ent_version h) || negb (entry_is_valid be e) then None
        else Some e
    end.

(** mod.rs:87-96 followed by an update through the returned [&mut]:
    [None] is [entity_entry_mut] returning [None]. *)
Definition er_update_entry (be : bool) (r : er) (h : N) (f : entry -> entry) : option er :=
  match er_entity_entry be r h with
  | None => None
  | Some e => Some (Er (<[N.to_nat (ent_index h) := f e]> (er_ents r)) (er_next r))
  end.

(** mod.rs:62-74 *)
Definition er_destroy_entity (be : bool) (h : N) : M er bool := fun r =>
  if (N.of_nat (length (er_ents r)) <=? ent_index h) || (h =? ent_INVALID) then Ret false r
  else
    match er_ents r !! N.to_nat (ent_index h) with
    | None => Panic r  (* cannot happen: index checked above *)
    | Some e =>
        if negb (entry_version e =? ent_version h) || negb (entry_is_valid be e) then Ret false r
        else
          let e1 := entry_invalidate be e (er_next r) in
          let e2 := entry_set_version e1 ((entry_version e1 + 1) mod 256) in
          Ret true (Er (<[N.to_nat (ent_index h) := e2]> (er_ents r)) (ent_index h))
    end.

(** ** EntityIter (iterator.rs).  The iterator state is [current]. *)
(** iterator.rs:22-36: the loop, walking the entries from [current] on. *)
Fixpoint eit_loop (be : bool) (rest : list entry) (current : nat) : option N * nat :=
  match rest with
  | [] => (None, current)
  | e :: rest' =>
      if entry_is_valid be e
      then (Some (ent_new_unchecked (N.of_nat current) (entry_version e)), S current)
      else eit_loop be rest' (S current)
  end.
Definition eit_next (be : bool) (ents : list entry) (current : nat) : rd (option N * nat) :=
  Rd (eit_loop be (drop current ents) current).
(** mod.rs:98-100: [iter()] driven to the end. *)
Definition er_iter (be : bool) (r : er) : rd (option (list N)) :=
  collect (eit_next be (er_ents r)) (S (length (er_ents r))) 0%nat.
