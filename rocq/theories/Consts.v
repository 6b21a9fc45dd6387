(** * Constants (src/constants.rs). *)
From Verif Require Export Base.
Local Open Scope N_scope.

(** src/constants.rs:3 *)
Definition ENTITY_HANDLE_BITS : N := 24.
(** src/constants.rs:6 *)
Definition MAX_ENTITY_HANDLE_VALUE : N := 16777215.
(** src/constants.rs:11 (not used by any code) *)
Definition INVALID_ENTITY_HANDLE_VALUE : N := 16777216.
(** src/constants.rs:15 *)
Definition ENTITY_VERSION_BITS : N := 8.
(** src/constants.rs:18 *)
Definition MAX_ENTITY_VERSION_VALUE : N := 255.
(** src/constants.rs:21 *)
Definition MAX_COMPONENTS_PER_ENTITY : nat := 14%nat.
(** src/constants.rs:24: (u16::MAX - 1) *)
Definition MAX_ARCHETYPE_COUNT : N := 65534.
(** src/constants.rs:27: u16::MAX *)
Definition INVALID_ARCHETYPE_INDEX : N := 65535.
(** src/constants.rs:30 *)
Definition MAX_ENTITIES_PER_ARCHETYPE : N := MAX_ENTITY_HANDLE_VALUE.
(** src/constants.rs:33 *)
Definition DEFAULT_ARCHETYPE_ALLOCATION_SIZE : nat := 128%nat.
