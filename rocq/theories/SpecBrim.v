(** * Any program (C65): SpecTotal.v without a bound on how full archetypes get.

    An archetype grows by doubling from 128 and its memory is freed where the
    next doubling would reach 16777216.  So it holds at most 8388608 entities,
    and this file says what a call does that puts one more into it.  No function
    of the model is used. *)
From Verif Require Export SpecTotal.
Local Open Scope nat_scope.

(** How a program ends: with a registry, with an undefined call, or with a call
    that panics and leaves an archetype without memory behind. *)
Inductive fate := Completes (b : book) | Faults | Wrecks.

Section brim.
  Context {Fm : family} (dbg be : bool) (U : list ctype).

  (** The archetype this entity belongs to holds 8388608 entities. *)
  Definition brimful (w : world) (e : ent) : bool :=
    (8388608 <=? N.of_nat (crowd U w (en_aid e) (ids_of (types U (en_vals e)))))%N.
  (** The call puts an entity into such an archetype.  [create_entity] asks for a
      handle first; adding to 13 and removing from 14 components panics before. *)
  Definition bursts (b : book) (o : op) : bool :=
    let w := bk_world b in
    match o with
    | OpCreate G vs =>
        valid be U G && bool_decide (is_Some (next_handle b)) && brimful w (created be U G vs)
    | OpAdd C h v =>
        match w !! h with
        | Some e => bool_decide (en_vals e !! ct_id C = None) && negb (size (en_vals e) =? 13) &&
                    brimful w (derived be U (<[ct_id C := v]> (en_vals e)))
        | None => false
        end
    | OpRemove C h =>
        match w !! h with
        | Some e => bool_decide (is_Some (en_vals e !! ct_id C)) && negb (size (en_vals e) =? 14) &&
                    brimful w (derived be U (delete (ct_id C) (en_vals e)))
        | None => false
        end
    | _ => false
    end.

  (** [lawful] without the bound. *)
  Definition in_use (e : ent) : Prop :=
    let l := ids_of (types U (en_vals e)) in 1 <= length l <= 14 -> occurs (en_aid e) l.
  Definition admissible (w : world) (o : op) : Prop :=
    match o with
    | OpCreate G vs => typed U G /\ Forall2 fits G vs /\ (valid be U G = true -> in_use (created be U G vs))
    | OpAdd C h v => C ∈ U /\ fits C v /\
        forall e, w !! h = Some e -> en_vals e !! ct_id C = None -> in_use (derived be U (<[ct_id C := v]> (en_vals e)))
    | OpRemove C h => C ∈ U /\
        forall e, w !! h = Some e -> is_Some (en_vals e !! ct_id C) -> in_use (derived be U (delete (ct_id C) (en_vals e)))
    | _ => lawful be U w o
    end.
  Fixpoint admissible_all (ops : list op) (b : book) : Prop :=
    match ops with
    | [] => True
    | o :: ops' => admissible (bk_world b) o /\
        (bursts b o = false ->
         match outcome dbg be U b o with Returns _ b1 | Panics b1 => admissible_all ops' b1 | Undefined => True end)
    end.

  (** The outputs up to the fault or the wreck, and the end. *)
  Fixpoint foresee (ops : list op) (b : book) : list (option output) * fate :=
    match ops with
    | [] => ([], Completes b)
    | o :: ops' =>
        if bursts b o then
          match o with
          | OpCreate _ _ => if dbg then ([None], Wrecks) else ([], Faults)
          | _ => ([], Faults)
          end
        else
          match outcome dbg be U b o with
          | Returns out b1 => let (l, e) := foresee ops' b1 in (Some out :: l, e)
          | Panics b1 => let (l, e) := foresee ops' b1 in (None :: l, e)
          | Undefined => ([], Faults)
          end
    end.
End brim.
