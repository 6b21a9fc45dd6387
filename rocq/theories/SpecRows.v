(** * An archetype is a growable table of rows (C56).

    Nothing here calls a function of the model; only its data types are used. *)
From Verif Require Export ArchClient SpecEvents.
Local Open Scope nat_scope.

(** The number of rows there is room for, and the rows: a handle and a component map each. *)
Record table := Table { tb_cap : nat; tb_rows : list (N * gmap N value) }.

(** The values of some component types in one row; one column per type. *)
Definition pick (m : gmap N value) (G : group) : list value := omap (fun C => m !! ct_id C) G.
Definition columns (rows : list (N * gmap N value)) (G : group) : list (list value) :=
  map (fun C => omap (fun x : N * gmap N value => x.2 !! ct_id C) rows) G.
(** New values for some components of a row. *)
Definition put (G : group) (vs : list value) (m : gmap N value) : gmap N value := vmap G vs ∪ m.
(** Two rows trade places; the last row takes the place of another. *)
Definition exchange {A} (i j : nat) (l : list A) : list A :=
  match l !! i, l !! j with Some x, Some y => <[i := y]> (<[j := x]> l) | _, _ => l end.
Definition cut {A} (i : nat) (l : list A) : list A :=
  match last l with Some x => take (length l - 1) (<[i := x]> l) | None => [] end.

Section table.
  (** Endianness, and the component types of the archetype in order of their ids. *)
  Context (be : bool) (cs : list ctype).
  Definition sheet0 : sheet := Sheet 0 cs [].
  Definition at_row {B} (t : table) (i : nat) (f : N * gmap N value -> B) (b : B) : B :=
    match tb_rows t !! i with Some x => f x | None => b end.
  Definition with_rows (t : table) (rows : list (N * gmap N value)) : table := Table (tb_cap t) rows.
  Definition is_end (t : table) (i : nat) : bool := i =? length (tb_rows t) - 1.
  (** A full table doubles. *)
  Definition append (t : table) (x : N * gmap N value) : table * list event :=
    if length (tb_rows t) =? tb_cap t
    then (Table (2 * tb_cap t) (tb_rows t ++ [x]), grow_to (tb_cap t) (2 * tb_cap t) sheet0)
    else (with_rows t (tb_rows t ++ [x]), []).

  (** What a call returns, the table afterwards, and what it asks of the
      allocator and the destructors. *)
  Definition acall (t : table) (o : aop) : aout * table * list event :=
    let rows := tb_rows t in
    match o with
    | APush G h vs | AReserve G h vs =>
        let (t', evs) := append t (h, vmap G vs) in (AoNat (length rows), t', evs)
    | AOverwrite G i h vs => (AoUnit, with_rows t (<[i := (h, vmap G vs)]> rows), [])
    | AWrite C i v => (AoUnit, with_rows t (alter (fun x => (x.1, <[ct_id C := v]> x.2)) i rows), [])
    | ASetHandle i h => (AoUnit, with_rows t (alter (fun x => (h, x.2)) i rows), [])
    | AReplace C i v =>
        (at_row t i (fun x => match x.2 !! ct_id C with Some old => AoVal old | None => AoUnit end) AoUnit,
         with_rows t (alter (fun x => (x.1, <[ct_id C := v]> x.2)) i rows), [])
    | AReplaceAll G i vs =>
        (at_row t i (fun x => AoVals (pick x.2 G)) AoUnit, with_rows t (alter (fun x => (x.1, put G vs x.2)) i rows), [])
    | AStore k G cols =>
        (AoCols (match k with With_handles => map fst rows | _ => [] end) (columns rows G),
         with_rows t (imap (fun r x => (x.1, put G (omap (fun col => col !! r) cols) x.2)) rows), [])
    | ASwap i j => (AoUnit, with_rows t (exchange i j rows), [])
    | AToLast i => (AoBool (negb (is_end t i)), with_rows t (exchange i (length rows - 1) rows), [])
    | ASwapDrop i =>
        (AoBool (negb (is_end t i)), with_rows t (cut i rows), at_row t i (fun x => map EvDrop (pick x.2 cs)) [])
    | ASwapRemove G i =>
        (at_row t i (fun x => AoRemoved (pick x.2 G) (negb (is_end t i))) AoUnit, with_rows t (cut i rows), [])
    | AForget => (AoUnit, with_rows t (take (length rows - 1) rows), [])
    | AGet C i | ARead C i =>
        (at_row t i (fun x => match x.2 !! ct_id C with Some v => AoVal v | None => AoUnit end) AoUnit, t, [])
    | AGetAll G i | AReadAll G i => (at_row t i (fun x => AoVals (pick x.2 G)) AoUnit, t, [])
    | ASlices k G =>
        (AoCols (match k with With_handles => map fst rows | _ => [] end) (columns rows G), t, [])
    | AEntities => (AoHandles (map fst rows), t, [])
    | ALen => (AoNat (length rows), t, [])
    | ACapacity => (AoNat (tb_cap t), t, [])
    | AFull => (AoBool (length rows =? tb_cap t), t, [])
    end.

  (** The documented requirements of a call. *)
  Definition all_types (G : group) : Prop := G ≡ₚ cs.
  Definition some_types (G : group) : Prop := gvalid be G /\ forall C, C ∈ G -> C ∈ cs.
  Definition row_of (t : table) (i : nat) : Prop := i < length (tb_rows t).
  (** Doubling must not reach the limit of 16777215 rows. *)
  Definition can_append (t : table) : Prop :=
    length (tb_rows t) < tb_cap t \/ (2 * N.of_nat (tb_cap t) < 16777215)%N.
  Definition proper (t : table) (o : aop) : Prop :=
    match o with
    | APush G h vs | AReserve G h vs => all_types G /\ Forall2 fits G vs /\ can_append t
    | AOverwrite G i h vs => all_types G /\ Forall2 fits G vs /\ row_of t i
    | AWrite C i v | AReplace C i v => C ∈ cs /\ fits C v /\ row_of t i
    | ASetHandle i h => row_of t i
    | AReplaceAll G i vs => some_types G /\ Forall2 fits G vs /\ row_of t i
    | AStore k G cols =>
        match k with Exact => all_types G | _ => some_types G end /\
        Forall2 (fun C col => length col = length (tb_rows t) /\ Forall (fits C) col) G cols
    | ASwap i j => row_of t i /\ row_of t j /\ i <> j
    | AToLast i => row_of t i
    | ASwapDrop i => exists h m, tb_rows t !! i = Some (h, m) /\ calm m
    | ASwapRemove G i | AReadAll G i => all_types G /\ row_of t i
    | AForget => 0 < length (tb_rows t)
    | AGet C i | ARead C i => C ∈ cs /\ row_of t i
    | AGetAll G i => some_types G /\ row_of t i
    | ASlices k G => match k with Exact => all_types G | _ => some_types G end
    | AEntities | ALen | ACapacity | AFull => True
    end.

  Fixpoint acalls (t : table) (ops : list aop) : list aout * table * list event :=
    match ops with
    | [] => ([], t, [])
    | o :: ops' =>
        let '(x, t1, evs) := acall t o in
        let '(xs, t2, evs') := acalls t1 ops' in
        (x :: xs, t2, evs ++ evs')
    end.
  Fixpoint all_proper (t : table) (ops : list aop) : Prop :=
    match ops with
    | [] => True
    | o :: ops' => proper t o /\ all_proper (acall t o).1.2 ops'
    end.
  (** Dropping the archetype: all values, column by column, then the memory. *)
  Definition drop_table (t : table) : list event :=
    concat (map (map EvDrop) (columns (tb_rows t) cs)) ++ free_arrays (tb_cap t) sheet0.
End table.

(** A list of component types that an archetype can be made of: in order of their
    ids, 1 to 14 of them, no hash equal to the reserved one (SpecWorld.v), sizes
    that fit in the descriptor (C29). *)
Definition storable (be : bool) (cs : list ctype) : Prop :=
  strict (map ct_id cs) /\ Forall small cs /\ gvalid be cs.

(** Archetypes that a registry derived from others ([add_component],
    [remove_component]) have ids of their own (C12).  The methods for a tuple of
    exactly the archetype's components need a valid tuple type; most of them check
    the id in debug builds. *)
Definition whole (be : bool) (cs : list ctype) (aid : N) (o : aop) : Prop :=
  match o with
  | APush _ _ _ | AReserve _ _ _ | AOverwrite _ _ _ _ | AStore Exact _ _ | ASlices Exact _ =>
      gvalid be cs /\ aid = tuple_archetype_id be (map ct_id cs)
  | ASwapRemove _ _ | AReadAll _ _ => gvalid be cs
  | _ => True
  end.
