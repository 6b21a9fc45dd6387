(** * Allocators that may fail (C46).  The oracle of the environment says which
    of the next allocations fail ([false]); the empty one never fails. *)
From Verif Require Export RegModel SpecTrace SpecObs SpecBase SpecWorld SpecCrash.

(** The same state with an allocator that never fails. *)
Definition heal (r : reg) : reg := Reg (r_er r) (r_ar r) (Env (ev_trace (r_env r)) []).
(** Between the two lists of answers some allocation was refused. *)
Definition refused (o o' : list bool) : Prop := exists asked, o = asked ++ o' /\ false ∈ asked.

(** From [r] to [r'] memory was requested, then the values [vs] were dropped;
    nothing else happened outside the registry. *)
Definition asks (ev : event) : Prop := match ev with EvAlloc _ _ | EvRealloc _ _ _ => True | _ => False end.
Definition only_drops (r r' : reg) (vs : list value) : Prop :=
  exists evs, ev_trace (r_env r') = ev_trace (r_env r) ++ evs ++ map EvDrop vs /\ Forall asks evs.
(** Nothing in the registry itself changed, and it gave no memory back. *)
Definition untouched (r r' : reg) : Prop :=
  r_er r' = r_er r /\ r_ar r' = r_ar r /\ frees_of (ev_trace (r_env r')) = frees_of (ev_trace (r_env r)).

(** Two entities live in the same archetype. *)
Definition together (U : list ctype) (e e' : ent) : Prop :=
  en_aid e = en_aid e' /\ ids_of (types U (en_vals e)) = ids_of (types U (en_vals e')).
(** The column of the component [lost] is gone (or, if [None], only the
    archetype's list of handles): reading it is undefined; the other components
    of the entity are as before. *)
Definition damaged (c : cfg) (U : list ctype) (r r' : reg) (h : N) (lost : option ctype) : Prop :=
  (forall C v, C ∈ U -> lost <> Some C -> shows c r' h C v <-> shows c r h C v) /\
  (forall C, lost = Some C -> get_component c C h r' = RdUB).
(** The archetype of [e] has lost a block that it failed to grow; all handles
    outside that archetype, apart from those in [P], are as before. *)
Definition torn (c : cfg) (U : list ctype) (w : world) (r r' : reg) (e : ent) (lost : option ctype) (P : N -> Prop) : Prop :=
  (forall C, lost = Some C -> C ∈ types U (en_vals e)) /\
  forall h, ~ P h ->
    match w !! h with
    | Some e' => (together U e' e -> alive c r' h /\ damaged c U r r' h lost) /\ (~ together U e' e -> same c U r r' h)
    | None => same c U r r' h
    end.
(** [h] now shows the components of the last entity of its archetype instead of
    its own. *)
Definition misplaced (c : cfg) (U : list ctype) (r r' : reg) (h : N) : Prop :=
  (forall h', alive c r' h' <-> alive c r h') /\
  exists hl, last_mate c U r h hl /\ forall C v, C ∈ U -> shows c r' h C v <-> shows c r hl C v.

(** What a call that panics because memory ran out leaves behind.  The values
    given to the call are dropped.  Either the registry is as it was; or the
    archetype that should have taken the entity is torn: for [create_entity] a
    new live handle without storage stays behind, for [add_component] and
    [remove_component] the entity stays where it was, misplaced. *)
Definition given (o : op) : list value :=
  match o with OpCreate _ vs => vs | OpAdd _ _ v => [v] | _ => [] end.
Definition broken (c : cfg) (U : list ctype) (w : world) (r r' : reg) (o : op) : Prop :=
  match o with
  | OpCreate G vs => exists h lost, ~ alive c r h /\ alive c r' h /\
      (forall C, C ∈ G -> get_component c C h r' = RdUB) /\ (forall C, C ∈ U -> C ∉ G -> shows c r' h C None) /\
      torn c U w r r' (created (big c) U G vs) lost (eq h)
  | OpAdd C h v => exists e lost, w !! h = Some e /\ misplaced c U r r' h /\
      torn c U w r r' (derived (big c) U (<[ct_id C := v]> (en_vals e))) lost (eq h)
  | OpRemove C h => exists e lost, w !! h = Some e /\ misplaced c U r r' h /\
      torn c U w r r' (derived (big c) U (delete (ct_id C) (en_vals e))) lost (eq h)
  | _ => False
  end.

(** ** Histories with an allocator that may refuse any request: as [history],
    and panics that left the registry as it was may be caught. *)
Inductive unlucky {Fm : family} (c : cfg) (U : list ctype) : reg -> world -> list value -> list value -> Prop :=
| u_start oracle : unlucky c U (Reg er_default areg_default (Env [] oracle)) ∅ [] []
| u_call r w I O o out r' :
    unlucky c U r w I O -> contract (big c) U w o -> step c o r = Ret out r' ->
    unlucky c U r' (ledger (big c) U w o out) (I ++ ins o out) (O ++ outs o out)
| u_caught r w I O o r' :
    unlucky c U r w I O -> contract (big c) U w o -> step c o r = Panic r' -> untouched r r' ->
    unlucky c U r' w (I ++ given o) O.
