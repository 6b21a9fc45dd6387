(** * The archetypes that a program uses (C58).

    Archetypes are found by a 32-bit hash.  Two component sets with the same
    hash and the same size are confused (C13), and among all sets of 14 out of
    39 components there are always two such.  What matters to a program is only
    the archetypes that its own calls look up: they are listed here. *)
From Verif Require Export RegModel SpecBase SpecWorld SpecRef SpecTotal.
Local Open Scope nat_scope.

Section used.
  Context (be : bool) (U : list ctype).
  (** The archetype (its id, and the component ids) that a call looks up. *)
  Definition place_of (e : ent) : N * list N := (en_aid e, ids_of (types U (en_vals e))).
  Definition asks (w : world) (o : op) : list (N * list N) :=
    match o with
    | OpCreate G vs => [place_of (created be U G vs)]
    | OpAdd C h v => match w !! h with Some e => [place_of (derived be U (<[ct_id C := v]> (en_vals e)))] | None => [] end
    | OpRemove C h => match w !! h with Some e => [place_of (derived be U (delete (ct_id C) (en_vals e)))] | None => [] end
    | OpExact G | OpExactE G | OpExactMut G _ | OpExactEMut G _ =>
        let l := ids_of (filter (fun C => ct_id C ∈ ids_of G) U) in [(tuple_archetype_id be l, l)]
    | _ => []
    end.
  (** Those that a program looks up, as the reference implementation runs it. *)
  Fixpoint asked (ops : list op) (b : book) : list (N * list N) :=
    match ops with
    | [] => []
    | o :: ops' => asks (bk_world b) o ++ asked ops' (ref be U b o).2
    end.
  (** The same for programs that catch panics and leave the contract. *)
  Fixpoint asked_any (dbg : bool) (ops : list op) (b : book) : list (N * list N) :=
    match ops with
    | [] => []
    | o :: ops' => asks (bk_world b) o ++
        match outcome dbg be U b o with Returns _ b1 | Panics b1 => asked_any dbg ops' b1 | Undefined => [] end
    end.
End used.

(** No archetype id (except the reserved one, which is never used) stands for
    two component sets of the same size. *)
Definition unambiguous (L : list (N * list N)) : Prop := forall x l1 l2,
  (x, l1) ∈ L -> (x, l2) ∈ L -> length l1 = length l2 -> x <> 4294967295%N -> l1 = l2.

(** The component types of the program, sorted by id; nothing about hashes. *)
Definition plain (U : list ctype) : Prop := strict (ids_of U) /\ Forall small U.
