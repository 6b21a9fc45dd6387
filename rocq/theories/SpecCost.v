(** * What growing costs (C75), in terms of the log of SpecEvents.v.  No function
    of the model is used. *)
From Verif Require Export SpecEvents.
Local Open Scope N_scope.

Definition summed (l : list N) : N := foldr N.add 0 l.
(** The bytes that reallocations may have to copy: the old size of every array
    that was made larger. *)
Definition copied (evs : list event) : N := summed (map (fun e => match e with EvRealloc old _ _ => old | _ => 0 end) evs).
(** The bytes of arrays that were newly obtained. *)
Definition bought (evs : list event) : N := summed (map (fun e => match e with EvAlloc size _ => size | _ => 0 end) evs).
(** The bytes one entity takes in an archetype, its handle included; those of the
    arrays of all archetypes. *)
Definition row_bytes (s : sheet) : N := summed (map fst (SpecEvents.elements s)).
Definition held (S : list sheet) (caps : list nat) : N := summed (zip_with (fun s n => row_bytes s * N.of_nat n) S caps).
(** An entity with all components of the program. *)
Definition widest (U : list ctype) : N := 4 + summed (map ct_size U).
