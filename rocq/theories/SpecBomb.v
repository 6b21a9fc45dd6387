(** * Dropping a registry in which destructors panic, in terms of the reference
    implementation (C73).  No function of the model is used. *)
From Verif Require Export SpecEvents SpecCrash.
Local Open Scope nat_scope.

(** The values of one archetype, column by column. *)
Definition sheet_values (w : world) (s : sheet) : list value :=
  concat (map (fun C => omap (fun h => value_of w h C) (sh_ents s)) (sh_types s)).
Definition bombed (w : world) (s : sheet) : bool := existsb v_bomb (sheet_values w s).
(** An archetype is abandoned at the first destructor that panics: the values
    after it are not dropped and its arrays are not given back. *)
Definition abandon (w : world) (s : sheet) (n : nat) : list event :=
  if bombed w s then map EvDrop (until_bomb (sheet_values w s)) else map EvDrop (sheet_values w s) ++ free_arrays n s.
Definition abandon_log (b : book) (caps : list nat) : list event :=
  concat (zip_with (abandon (bk_world b)) (bk_sheets b) caps).
(** The memory that is lost: the arrays of the archetypes with such a value. *)
Definition lost (b : book) (caps : list nat) : list (N * N) :=
  concat (zip_with (fun s n => if bombed (bk_world b) s then map (fun x => (bytes x.1 n, x.2)) (SpecEvents.elements s) else []) (bk_sheets b) caps).
(** The archetype of [h] and its last entity. *)
Definition last_of (b : book) (h hl : N) : Prop :=
  exists s, s ∈ bk_sheets b /\ h ∈ sh_ents s /\ last (sh_ents s) = Some hl.
(** The entity whose components [x] shows after [h] and [hl] have exchanged
    theirs. *)
Definition swapped_with (h hl x : N) : N := if (x =? h)%N then hl else if (x =? hl)%N then h else x.
(** The registry after that: the rows have changed places. *)
Definition exchange (h hl : N) (b : book) : book :=
  Book (bk_world b) (map (fun s => Sheet (sh_id s) (sh_types s) (map (swapped_with h hl) (sh_ents s))) (bk_sheets b)) (bk_versions b) (bk_free b).
