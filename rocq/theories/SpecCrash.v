(** * Panicking destructors (C45, C34) *)
From Verif Require Export RegModel SpecObs SpecBase SpecWorld.

(** Dropping the values one after the other stops at the first whose
    destructor panics; that one counts as dropped. *)
Fixpoint until_bomb (vs : list value) : list value :=
  match vs with
  | [] => []
  | v :: vs' => v :: if v_bomb v then [] else until_bomb vs'
  end.
(** The components of [h], sorted by component id ([U] is sorted). *)
Definition row_of (c : cfg) (U : list ctype) (r : reg) (h : N) (Cs : list ctype) (vs : list value) : Prop :=
  Cs `sublist_of` U /\ Forall2 (fun C v => shows c r h C (Some v)) Cs vs /\
  forall C, C ∈ U -> C ∉ Cs -> shows c r h C None.
(** [hl] is the last entity of the archetype of [h]: it ends every item of an
    iteration that contains [h]. *)
Definition last_mate (c : cfg) (U : list ctype) (r : reg) (h hl : N) : Prop :=
  alive c r hl /\
  (forall C, C ∈ U -> (exists v, shows c r hl C (Some v)) <-> (exists v, shows c r h C (Some v))) /\
  forall G items it, in_U U G -> gvalid (big c) G -> iter_entity_components_matching c G r = Rd (Some items) ->
    it ∈ items -> h ∈ it.1 -> last it.1 = Some hl.
(** The two entities have exchanged their components. *)
Definition exchanged (c : cfg) (U : list ctype) (r r' : reg) (h hl : N) : Prop :=
  forall C v, C ∈ U -> (shows c r' h C v <-> shows c r hl C v) /\ (shows c r' hl C v <-> shows c r h C v).
