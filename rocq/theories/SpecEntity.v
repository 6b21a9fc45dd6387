(** * Specification vocabulary for the entity table (C16-C22). *)
From Verif Require Export EntityModel.
Local Open Scope N_scope.

(** A handle is live when the table accepts it. *)
Definition live (be : bool) (r : er) (h : N) : Prop := exists e, er_entity_entry be r h = Some e.

(** A slot is dead when it exists but holds no entity. *)
Definition dead_slot (be : bool) (r : er) (i : nat) : Prop :=
  exists e, er_ents r !! i = Some e /\ entry_is_valid be e = false.

(** Number of entities alive. *)
Definition live_count (be : bool) (r : er) : nat :=
  length (filter (fun e => entry_is_valid be e = true) (er_ents r)).

(** What a caller can do to the table: create, destroy, and move an entity to
    another row or archetype (through [entity_entry_mut]). *)
Inductive label :=
| LCreate (o : option N)
| LDestroy (h : N) (b : bool)
| LMove (h : N).
Inductive er_step (be : bool) : er -> label -> er -> Prop :=
| es_create r row ai o r' :
    row < 2 ^ 24 -> ai < 65535 -> er_create_entity be row ai r = Ret o r' -> er_step be r (LCreate o) r'
| es_destroy r h b r' :
    er_destroy_entity be h r = Ret b r' -> er_step be r (LDestroy h b) r'
| es_row r h row r' :
    row < 2 ^ 24 -> er_update_entry be r h (fun e => entry_set_index_in_archetype e row) = Some r' ->
    er_step be r (LMove h) r'
| es_arch r h ai r' :
    ai < 65535 -> er_update_entry be r h (fun e => entry_set_archetype_index be e ai) = Some r' ->
    er_step be r (LMove h) r'.
Inductive er_path (be : bool) : er -> list label -> er -> Prop :=
| ep_nil r : er_path be r [] r
| ep_cons r l r' ls r'' : er_step be r l r' -> er_path be r' ls r'' -> er_path be r (l :: ls) r''.
Definition er_reach (be : bool) (r : er) : Prop := exists ls, er_path be er_default ls r.

(** Following the free list from [next_free_slot] visits exactly [F]. *)
Inductive free_chain (be : bool) (ents : list entry) : N -> list nat -> Prop :=
| fc_end : free_chain be ents 16777215 []
| fc_slot i e F :
    (N.of_nat i < 16777215) -> ents !! i = Some e -> entry_is_valid be e = false ->
    free_chain be ents (entry_index_in_archetype e) F ->
    free_chain be ents (N.of_nat i) (i :: F).

(** How often slot [i] was destroyed along a path. *)
Definition destroys_slot (i : N) (l : label) : bool :=
  match l with LDestroy h true => ent_index h =? i | _ => false end.
Definition destroy_count (i : N) (ls : list label) : nat := length (filter (fun l => destroys_slot i l = true) ls).
