(** * What is asked of a program and its component types for C49: archetype ids
    may differ between a little- and a big-endian target, but not in a way the
    program could notice. *)
From Verif Require Export SpecWorld.
Local Open Scope nat_scope.

(** Component sets of the program. *)
Definition set_of (U : list ctype) (l : list N) : Prop := l `sublist_of` ids_of U /\ 1 <= length l <= 14.
(** On both targets different sets have different archetype ids; the id of a
    tuple type is reserved on both or on neither; likewise for the id that
    adding and removing compute; and the two agree on both or on neither. *)
Definition portable (U : list ctype) : Prop :=
  strict (ids_of U) /\ @collision_free every false U /\ @collision_free every true U /\
  forall l, set_of U l ->
    (tuple_archetype_id false l = 4294967295%N <-> tuple_archetype_id true l = 4294967295%N) /\
    (derived_archetype_id false l = 4294967295%N <-> derived_archetype_id true l = 4294967295%N) /\
    (tuple_archetype_id false l = derived_archetype_id false l <-> tuple_archetype_id true l = derived_archetype_id true l).
(** A filter closure that does not look at the archetype id. *)
Definition id_blind (f : adesc -> bool) : Prop := forall x d, f (ADesc x (ad_comps d) (ad_len d)) = f d.
(** A call that names component types of the program only. *)
Definition ports (U : list ctype) (o : op) : Prop :=
  match o with
  | OpCreate G _ | OpRemoveEntity G _ | OpHasAll G _ | OpGetAll G _ | OpSetAll G _ _
  | OpIter G | OpIterE G | OpIterMut G _ | OpIterEMut G _ | OpExact G | OpExactE G | OpExactMut G _ | OpExactEMut G _ => in_U U G
  | OpIterF G f | OpIterEF G f | OpIterFMut G f _ | OpIterEFMut G f _ => in_U U G /\ id_blind f
  | OpHas C _ | OpGet C _ | OpSet C _ _ | OpAdd C _ _ | OpRemove C _ => C ∈ U
  | OpDestroy _ | OpIterEntities => True
  end.
(** The same result up to the order in which archetypes are visited. *)
Definition same_but_order (o1 o2 : output) : Prop :=
  match o1, o2 with
  | OutCols l1, OutCols l2 => l1 ≡ₚ l2
  | OutECols l1, OutECols l2 => l1 ≡ₚ l2
  | _, _ => o1 = o2
  end.
(** The same calls, with the same results up to that order ([None]: panicked). *)
Definition same_trace : list (op * option output) -> list (op * option output) -> Prop :=
  Forall2 (fun x y => x.1 = y.1 /\ match x.2, y.2 with Some a, Some b => same_but_order a b | None, None => True | _, _ => False end).
