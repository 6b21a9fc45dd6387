(** * An archetype registry is a list of tables with keys (C60).

    Nothing here calls a function of the model; only its data types are used. *)
From Verif Require Export AregClient SpecRows.
Local Open Scope nat_scope.

(** The archetype id, the component types in order of their ids, and the rows. *)
Record shelf := Shelf { sf_id : N; sf_types : list ctype; sf_table : table }.

Definition id_le (C1 C2 : ctype) : Prop := (ct_id C1 <= ct_id C2)%N.
Global Instance id_le_dec C1 C2 : Decision (id_le C1 C2) := decide (ct_id C1 <= ct_id C2)%N.
Definition by_id (G : group) : list ctype := merge_sort id_le G.

(** The table with that id and number of components; a new one is appended and
    starts with room for 128 rows, unless there are 65534 already. *)
Definition seek (l : list shelf) (aid : N) (n : nat) : option nat :=
  fst <$> list_find (fun s => sf_id s = aid /\ length (sf_types s) = n) l.
Definition open_shelf (l : list shelf) (aid : N) (cs : list ctype) : option (nat * list shelf * list event) :=
  match seek l aid (length cs) with
  | Some i => Some (i, l, [])
  | None =>
      if (65534 <=? N.of_nat (length l))%N then None
      else Some (length l, l ++ [Shelf aid cs (Table 128 [])], obtain 128 (sheet0 cs))
  end.

(** Calls on tables, one after the other. *)
Fixpoint work (ops : list (nat * aop)) (l : list shelf) : list aout * list shelf * list event :=
  match ops with
  | [] => ([], l, [])
  | (i, o) :: ops' =>
      match l !! i with
      | None => ([], l, [])
      | Some s =>
          let '(x, t, evs) := acall (sf_types s) (sf_table s) o in
          let '(xs, l', evs') := work ops' (<[i := Shelf (sf_id s) (sf_types s) t]> l) in
          (x :: xs, l', evs ++ evs')
      end
  end.

(** Iteration: the tables that have the components (and that the closure
    accepts), by number of components, then by id. *)
Definition shelf_has (G : group) (s : shelf) : bool :=
  forallb (fun C => bool_decide (ct_id C ∈ ids_of (sf_types s))) G.
Definition shelf_desc (s : shelf) : adesc :=
  ADesc (sf_id s) (map cdesc_of (sf_types s) ++ replicate (14 - length (sf_types s)) cd_INVALID) (length (sf_types s)).
Definition wanted (G : group) (f : option (adesc -> bool)) (s : shelf) : bool :=
  shelf_has G s && match f with Some f => f (shelf_desc s) | None => true end.
Definition key_le (x y : nat * shelf) : Prop :=
  length (sf_types x.2) < length (sf_types y.2) \/
  (length (sf_types x.2) = length (sf_types y.2) /\ (sf_id x.2 <= sf_id y.2)%N).
Global Instance key_le_dec x y : Decision (key_le x y) := _.
Definition tour (l : list shelf) (G : group) (f : option (adesc -> bool)) : list (nat * shelf) :=
  merge_sort key_le (filter (fun x => wanted G f x.2 = true) (imap pair l)).
Definition shelf_item (h : bool) (G : group) (s : shelf) : list N * list (list value) :=
  (if h then map fst (tb_rows (sf_table s)) else [], columns (tb_rows (sf_table s)) G).

(** Deriving an archetype from another one.  With one component more than 12 or
    less than 14 the library panics, and if the source index is the number of
    archetypes. *)
Inductive derivation := Nothing | Crash | To (cs : list ctype).
Definition adding (l : list shelf) (src : nat) (C : ctype) : derivation :=
  match l !! src with
  | None => if src =? length l then Crash else Nothing
  | Some s =>
      let cs := sf_types s in
      if (length cs =? 14) || bool_decide (ct_id C ∈ ids_of cs) then Nothing
      else if length cs =? 13 then Crash else To (by_id (C :: cs))
  end.
Definition removing (l : list shelf) (src : nat) (C : ctype) : derivation :=
  match l !! src with
  | None => if src =? length l then Crash else Nothing
  | Some s =>
      let cs := sf_types s in
      if (length cs =? 1) || negb (bool_decide (ct_id C ∈ ids_of cs)) then Nothing
      else if length cs =? 14 then Crash else To (filter (fun C' => ct_id C' <> ct_id C) cs)
  end.

Section areg.
  (** Debug assertions; endianness. *)
  Context (dbg be : bool).
  Definition tuple_id (G : group) : N := tuple_archetype_id be (ids_of (by_id G)).
  Definition accepted (G : group) : bool := valid_tuple G (tuple_id G).

  (** What a call comes to: a panic that changes nothing, a result, or calls on
      tables after some new ones were made. *)
  Inductive plan :=
  | Panicking
  | Giving (x : gout)
  | Doing (result : list aout -> gout) (l : list shelf) (evs : list event) (ops : list (nat * aop)).
  Definition derive (l : list shelf) (src : nat) (ops : list (bool * aop)) (d : derivation) : plan :=
    match d with
    | Nothing => Giving GoNone
    | Crash => Panicking
    | To cs =>
        let aid := derived_archetype_id be (ids_of cs) in
        if (aid =? 4294967295)%N then Giving GoNone
        else match open_shelf l aid cs with
             | None => Giving GoNone
             | Some (dst, l', evs) => Doing (GoPair dst) l' evs (map (fun '(b, o) => (if b : bool then dst else src, o)) ops)
             end
    end.
  Definition plan_of (l : list shelf) (o : gop) : plan :=
    match o with
    | GFind G ops =>
        if accepted G then
          match seek l (tuple_id G) (length G) with
          | Some i => Doing GoRan l [] (map (pair i) ops)
          | None => Giving GoNone
          end
        else Giving GoNone
    | GMake G ops =>
        if accepted G then
          match open_shelf l (tuple_id G) (by_id G) with
          | Some (i, l', evs) => Doing (GoMade i) l' evs (map (pair i) ops)
          | None => Giving GoNone
          end
        else Giving GoNone
    | GAdding src C ops => derive l src ops (adding l src C)
    | GRemoving src C ops => derive l src ops (removing l src C)
    | GIndex i ops => if i <? length l then Doing GoRan l [] (map (pair i) ops) else Panicking
    | GUnchecked i ops => Doing GoRan l [] (map (pair i) ops)
    | GIter h f G =>
        if accepted G then Giving (GoItems (map (fun x => shelf_item h G x.2) (tour l G f)))
        else if dbg then Panicking else Giving (GoItems [])
    | GStore h f G new =>
        if accepted G then
          Doing (fun _ => GoItems (map (fun x => shelf_item h G x.2) (tour l G f))) l []
            (zip_with (fun x cols => (x.1, AStore (if h then With_handles else Some_of) G cols)) (tour l G f) new)
        else if dbg then Panicking else Giving (GoItems [])
    end.
  (** The result ([None]: a panic), the tables, the memory requests and destructor calls. *)
  Definition gcall (l : list shelf) (o : gop) : option gout * list shelf * list event :=
    match plan_of l o with
    | Panicking => (None, l, [])
    | Giving x => (Some x, l, [])
    | Doing result l1 evs ops => let '(xs, l2, evs') := work ops l1 in (Some (result xs), l2, evs ++ evs')
    end.
  Fixpoint gcalls (ops : list gop) (l : list shelf) : list (option gout) * list shelf * list event :=
    match ops with
    | [] => ([], l, [])
    | o :: ops' =>
        let '(x, l1, evs) := gcall l o in
        let '(xs, l2, evs') := gcalls ops' l1 in
        (x :: xs, l2, evs ++ evs')
    end.

  (** What is asked of a program: the methods of archetypes are used as
      documented, sizes fit (C29), an unchecked index is in range, and the
      component types that an iteration asks for are those that the ids say. *)
  Fixpoint work_ok (ops : list (nat * aop)) (l : list shelf) : Prop :=
    match ops with
    | [] => True
    | (i, o) :: ops' =>
        exists s, l !! i = Some s /\ proper be (sf_types s) (sf_table s) o /\ whole be (sf_types s) (sf_id s) o /\
          work_ok ops' (<[i := Shelf (sf_id s) (sf_types s) (acall (sf_types s) (sf_table s) o).1.2]> l)
    end.
  Definition well_typed (l : list shelf) (G : group) : Prop :=
    forall s, s ∈ l -> shelf_has G s = true -> forall C, C ∈ G -> C ∈ sf_types s.
  Definition arguments (l : list shelf) (o : gop) : Prop :=
    match o with
    | GMake G _ => Forall small G
    | GAdding _ C _ => small C
    | GUnchecked i _ => i < length l
    | GIter _ f G => well_typed l G /\ match f with Some f => respects f | None => True end
    | GStore _ f G new => well_typed l G /\ match f with Some f => respects f | None => True end /\ (accepted G = true -> length new = length (tour l G f))
    | _ => True
    end.
  Definition gproper (l : list shelf) (o : gop) : Prop :=
    arguments l o /\ match plan_of l o with Doing _ l1 _ ops => work_ok ops l1 | _ => True end.
  Fixpoint all_gproper (ops : list gop) (l : list shelf) : Prop :=
    match ops with
    | [] => True
    | o :: ops' => gproper l o /\ all_gproper ops' (gcall l o).1.2
    end.
  (** Dropping the registry: table by table. *)
  Definition drop_shelves (l : list shelf) : list event :=
    concat (map (fun s => drop_table (sf_types s) (sf_table s)) l).
End areg.
