(** * What every call does, within the contract or not (C57).

    The reference implementation of SpecRef.v says what calls within the contract
    return.  Here every call has a verdict: it returns, it panics, or it is
    undefined behaviour.  No function of the model is used. *)
From Verif Require Export SpecEvents.
Local Open Scope nat_scope.

Inductive verdict :=
| Returns (out : output) (b : book)
| Panics (b : book)
| Undefined.

Section total.
  (** [dbg]: debug assertions are compiled in. *)
  Context {Fm : family} (dbg be : bool) (U : list ctype).
  (** The components of a tuple type by id; tuple types the library accepts. *)
  Definition sorted (G : group) : list ctype := filter (fun C => ct_id C ∈ ids_of G) U.
  Definition valid (G : group) : bool := valid_tuple G (tuple_archetype_id be (ids_of (sorted G))).
  (** [remove_entity] never compares the tuple type with the entity: it reads the
      entity's first columns as the sorted tuple.  If the types agree the call
      returns, and the other components of the entity are leaked.  A tuple type
      that is not valid reads the first column for every element. *)
  Definition reads (e : ent) (G : group) : bool :=
    if valid G then bool_decide (sorted G `prefix_of` types U (en_vals e))
    else forallb (fun C => bool_decide (head (types U (en_vals e)) = Some C)) G.
  Definition answer (x : output * book) : verdict := Returns x.1 x.2.
  Definition outcome (b : book) (o : op) : verdict :=
    let w := bk_world b in
    let usual := answer (ref be U b o) in
    match o with
    | OpRemoveEntity G h => match w !! h with Some e => if reads e G then usual else Undefined | None => usual end
    | OpHasAll G h => if valid G then usual else Returns (OutBool (bool_decide (is_Some (w !! h)))) b
    | OpGetAll G h | OpSetAll G h _ =>
        match w !! h with
        | Some _ => if valid G then usual else if dbg then Panics b else Undefined
        | None => Returns (OutVals None) b
        end
    | OpAdd C h v =>
        match w !! h with
        | Some e => if (size (en_vals e) =? 13) && bool_decide (en_vals e !! ct_id C = None) then Panics b else usual
        | None => usual
        end
    | OpRemove C h =>
        match w !! h with
        | Some e => if (size (en_vals e) =? 14) && bool_decide (is_Some (en_vals e !! ct_id C)) then Panics b else usual
        | None => usual
        end
    | OpIter G | OpIterF G _ | OpIterMut G _ | OpIterFMut G _ _ =>
        if valid G then usual else if dbg then Panics b else Returns (OutCols []) b
    | OpIterE G | OpIterEF G _ | OpIterEMut G _ | OpIterEFMut G _ _ =>
        if valid G then usual else if dbg then Panics b else Returns (OutECols []) b
    | OpExact G | OpExactMut G _ => if valid G then usual else Returns (OutCols [map (fun _ => []) G]) b
    | OpExactE G | OpExactEMut G _ => if valid G then usual else Returns (OutECols [([], map (fun _ => []) G)]) b
    | _ => usual
    end.

  (** What is still asked of a call: its arguments have the types that the Rust
      compiler asks for, destructors do not panic, the archetypes are among
      those of the program, and none exceeds 8388608 entities.  Tuples have at least one element. *)
  Definition typed (G : group) : Prop := in_U U G /\ G <> [].
  Definition lawful (w : world) (o : op) : Prop :=
    match o with
    | OpCreate G vs =>
        typed G /\ Forall2 fits G vs /\
        (valid G = true -> room U w (en_aid (created be U G vs)) (ids_of (types U (vmap G vs))))
    | OpDestroy h => forall e, w !! h = Some e -> calm (en_vals e)
    | OpHas C h | OpGet C h => C ∈ U
    | OpSet C h v => C ∈ U /\ fits C v
    | OpRemoveEntity G h | OpHasAll G h | OpGetAll G h => typed G
    | OpSetAll G h vs => typed G /\ Forall2 fits G vs
    | OpAdd C h v => C ∈ U /\ fits C v /\
        forall e, w !! h = Some e -> en_vals e !! ct_id C = None ->
          let e' := derived be U (<[ct_id C := v]> (en_vals e)) in room U w (en_aid e') (ids_of (types U (en_vals e')))
    | OpRemove C h => C ∈ U /\
        forall e, w !! h = Some e -> is_Some (en_vals e !! ct_id C) ->
          let e' := derived be U (delete (ct_id C) (en_vals e)) in room U w (en_aid e') (ids_of (types U (en_vals e')))
    | OpIterEntities => True
    | OpIter G | OpIterE G => typed G
    | OpExact G | OpExactE G => typed G /\ (valid G = true -> known be U G)
    | OpIterF G f | OpIterEF G f => typed G /\ respects f
    | OpIterMut G upd | OpIterEMut G upd => typed G /\ keeps_types G upd
    | OpExactMut G upd | OpExactEMut G upd => typed G /\ (valid G = true -> known be U G) /\ keeps_types G upd
    | OpIterFMut G f upd | OpIterEFMut G f upd => typed G /\ respects f /\ keeps_types G upd
    end.

  (** A program that catches panics and goes on: per call its output, [None] if
      it panicked, up to the first undefined one; and the final state, unless
      there was an undefined one. *)
  Fixpoint predict (ops : list op) (b : book) : list (option output) * option book :=
    match ops with
    | [] => ([], Some b)
    | o :: ops' =>
        match outcome b o with
        | Returns out b1 => let (l, e) := predict ops' b1 in (Some out :: l, e)
        | Panics b1 => let (l, e) := predict ops' b1 in (None :: l, e)
        | Undefined => ([], None)
        end
    end.
  Fixpoint lawful_all (ops : list op) (b : book) : Prop :=
    match ops with
    | [] => True
    | o :: ops' => lawful (bk_world b) o /\
        match outcome b o with Returns _ b1 | Panics b1 => lawful_all ops' b1 | Undefined => True end
    end.

  (** The requests to the allocator and the destructor calls, as in SpecEvents.v.
      The value given to an [add_component] that panics is dropped; what
      [remove_entity] leaks is not. *)
  Definition verdict_log (b : book) (caps : list nat) (o : op) : list event * list nat :=
    match outcome b o with
    | Returns _ b' =>
        let old := bk_sheets b in
        let new := bk_sheets b' in
        (match o with OpDestroy h => drop_one U (bk_world b) h | _ => [] end ++
         concat (map (obtain 128) (drop (length old) new)) ++ growths caps old new,
         new_caps caps old new)
    | Panics _ => (match o with OpAdd _ _ v => [EvDrop v] | _ => [] end, caps)
    | Undefined => ([], caps)
    end.
  Fixpoint predict_log (ops : list op) (b : book) (caps : list nat) : list event * list nat :=
    match ops with
    | [] => ([], caps)
    | o :: ops' =>
        let (evs, caps1) := verdict_log b caps o in
        match outcome b o with
        | Returns _ b1 | Panics b1 => let (evs', caps2) := predict_log ops' b1 caps1 in (evs ++ evs', caps2)
        | Undefined => (evs, caps1)
        end
    end.
End total.

(** The same program against the registry. *)
Fixpoint attempt (c : cfg) (ops : list op) (r : reg) : list (option output) * option reg :=
  match ops with
  | [] => ([], Some r)
  | o :: ops' =>
      match step c o r with
      | Ret out r1 => let (l, e) := attempt c ops' r1 in (Some out :: l, e)
      | Panic r1 => let (l, e) := attempt c ops' r1 in (None :: l, e)
      | UB => ([], None)
      end
  end.
