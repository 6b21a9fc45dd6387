(** * Any program, whatever the hashes (C66).

    SpecTotal.v and SpecBrim.v ask that the archetypes a program uses are told
    apart by their ids.  Here nothing is asked: a program is followed up to the
    first call that looks up the archetype of one component set and finds that
    of another one, with the same id and the same number of components.  No
    function of the model is used. *)
From Verif Require Export SpecUsed SpecBrim.
Local Open Scope nat_scope.

(** How a program ends, or the state in which a call meets the wrong archetype. *)
Inductive ending := Ends (f : fate) | Clash (b : book) (o : op).

Section clash.
  Context (dbg be : bool) (U : list ctype).

  (** The archetype (id and component ids) that a call looks up, if it gets that far. *)
  Definition exact_place (G : group) : N * list N := (tuple_archetype_id be (ids_of (sorted U G)), ids_of (sorted U G)).
  Definition seeks (b : book) (o : op) : option (N * list N) :=
    match o with
    | OpCreate G vs => if valid be U G then Some (place_of U (created be U G vs)) else None
    | OpAdd C h v =>
        match bk_world b !! h with
        | Some e => if bool_decide (en_vals e !! ct_id C = None) && negb (size (en_vals e) =? 13)
                    then Some (place_of U (derived be U (<[ct_id C := v]> (en_vals e)))) else None
        | None => None
        end
    | OpRemove C h =>
        match bk_world b !! h with
        | Some e => if bool_decide (is_Some (en_vals e !! ct_id C)) && negb (size (en_vals e) =? 14)
                    then Some (place_of U (derived be U (delete (ct_id C) (en_vals e)))) else None
        | None => None
        end
    | OpExact G | OpExactE G | OpExactMut G _ | OpExactEMut G _ => if valid be U G then Some (exact_place G) else None
    | _ => None
    end.
  (** The archetype that is found instead. *)
  Definition mistaken (p : N * list N) (s : sheet) : bool :=
    (sh_id s =? p.1)%N && (length (sh_types s) =? length p.2) && negb (bool_decide (ids_of (sh_types s) = p.2)).
  Definition clashes (b : book) (o : op) : bool :=
    match seeks b o with Some p => existsb (mistaken p) (bk_sheets b) | None => false end.

  (** What is asked of calls, up to the clash: typed arguments, destructors that do not panic. *)
  Definition fair (w : world) (o : op) : Prop := @admissible every be U w o.
  Fixpoint fair_all (ops : list op) (b : book) : Prop :=
    match ops with
    | [] => True
    | o :: ops' => fair (bk_world b) o /\
        (clashes b o = false -> bursts be U b o = false ->
         match outcome dbg be U b o with Returns _ b1 | Panics b1 => fair_all ops' b1 | Undefined => True end)
    end.
  Fixpoint follow (ops : list op) (b : book) : list (option output) * ending :=
    match ops with
    | [] => ([], Ends (Completes b))
    | o :: ops' =>
        if clashes b o then ([], Clash b o)
        else if bursts be U b o then
          match o with
          | OpCreate _ _ => if dbg then ([None], Ends Wrecks) else ([], Ends Faults)
          | _ => ([], Ends Faults)
          end
        else
          match outcome dbg be U b o with
          | Returns out b1 => let (l, e) := follow ops' b1 in (Some out :: l, e)
          | Panics b1 => let (l, e) := follow ops' b1 in (None :: l, e)
          | Undefined => ([], Ends Faults)
          end
    end.
End clash.
