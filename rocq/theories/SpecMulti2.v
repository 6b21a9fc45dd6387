(** * What a program with several registries observes when it misuses some (C74)

    SpecMulti.v with the verdicts of SpecTotal.v instead of the answers of
    SpecRef.v: a call returns, panics or is undefined, as the book of its own
    registry says.  A registry may be dropped while it holds values whose
    destructors panic (SpecBomb.v).  The program catches panics and goes on. *)
From Verif Require Import MultiModel SpecMulti SpecEvents SpecTotal SpecBytes SpecBytes2 SpecBomb SpecTrace SpecBase SpecWorld SpecRef.
Local Open Scope nat_scope.

(** What a step answers; [None] if it panics. *)
Notation reply := (option (option output)) (only parsing).
(** The reply to one step, the memory requests and destructor calls it causes,
    and the memory (sizes and alignments) that it loses for good. *)
Record foreseen := Foreseen { fs_reply : reply; fs_log : list event; fs_lost : list (N * N) }.
Section multi.
  Context {Fm : family} (dbg be : bool) (U : list ctype).
  (** Any call whatsoever on a registry that is there. *)
  Definition mlawful (s : list cell) (o : mcall) : Prop :=
    match o with
    | MCall k o => exists b caps, s !! k = Some (Some (b, caps)) /\ lawful be U (bk_world b) o
    | MDrop k => exists b caps, s !! k = Some (Some (b, caps))
    | _ => mallowed be U s o
    end.
  (** What is to be seen of a step, and what the variables hold afterwards;
      [None] if the call is undefined. *)
  Definition mforesee (s : list cell) (o : mcall) : option (foreseen * list cell) :=
    match o with
    | MCall k o =>
        match s !! k with
        | Some (Some (b, caps)) =>
            let log := verdict_log dbg be U b caps o in
            match outcome dbg be U b o with
            | Returns out b' => Some (Foreseen (Some (Some out)) log.1 [], <[k := Some (b', log.2)]> s)
            | Panics b' => Some (Foreseen None log.1 [], <[k := Some (b', log.2)]> s)
            | Undefined => None
            end
        | _ => None
        end
    | MDrop k =>
        match s !! k with
        | Some (Some (b, caps)) =>
            Some (Foreseen (if existsb v_bomb (world_values (bk_world b)) then None else Some None) (abandon_log b caps) (lost b caps), <[k := None]> s)
        | _ => None
        end
    | _ => let x := mref be U s o in Some (Foreseen (Some x.1.1) x.1.2 [], x.2)
    end.
  Fixpoint mlawful_all (ops : list mcall) (s : list cell) : Prop :=
    match ops with
    | [] => True
    | o :: ops' => mlawful s o /\ match mforesee s o with Some (_, s1) => mlawful_all ops' s1 | None => True end
    end.
  (** Step by step, up to the first undefined call; what the
      variables hold in the end, unless there was one. *)
  Fixpoint mpredict (ops : list mcall) (s : list cell) : list foreseen * option (list cell) :=
    match ops with
    | [] => ([], Some s)
    | o :: ops' =>
        match mforesee s o with
        | Some (x, s1) => let (l, e) := mpredict ops' s1 in (x :: l, e)
        | None => ([], None)
        end
    end.
End multi.

(** The same program over the heap. *)
Fixpoint mattempt (c : cfg) (ops : list mcall) (s : multi) : list (option (option output)) * option multi :=
  match ops with
  | [] => ([], Some s)
  | o :: ops' =>
      match mstep c o s with
      | Ret x s1 => let (l, e) := mattempt c ops' s1 in (Some x :: l, e)
      | Panic s1 => let (l, e) := mattempt c ops' s1 in (None :: l, e)
      | UB => ([], None)
      end
  end.
(** Of the replies to a program, those to the calls on registry [k]: what was
    returned, [None] for those that panicked. *)
Fixpoint replies_on (k : nat) (ops : list mcall) (xs : list (option (option output))) : list (option output) :=
  match ops, xs with
  | MCall i _ :: ops', x :: xs' => if decide (i = k) then mjoin x :: replies_on k ops' xs' else replies_on k ops' xs'
  | _ :: ops', _ :: xs' => replies_on k ops' xs'
  | _, _ => []
  end.
