(** * Specification: an archetype descriptor is a finite map from component ids
    to component descriptors, with an archetype id *)
From Verif Require Export DescrApiModel SpecBase.
Local Open Scope nat_scope.

Record cset := CSet { s_map : gmap N cdesc; s_id : N }.

(** The ids of a map in increasing order, and its descriptors in that order. *)
Definition in_order (m : gmap N cdesc) : list N := merge_sort N.le (elements (dom m : gset N)).
Definition listing (m : gmap N cdesc) : list cdesc := omap (fun i => m !! i) (in_order m).
Definition map_of (l : list cdesc) : gmap N cdesc := list_to_map (map (fun c => (cd_id c, c)) l).

(** The reserved archetype id. *)
Definition reserved : N := 4294967295.
Definition nothing : cset := CSet ∅ reserved.

(** What each call does to sets. *)
Definition set_new (id : N) (l : list cdesc) : cset :=
  if decide (l = [] \/ id = reserved) then nothing else CSet (map_of l) id.
Definition set_group (be : bool) (l : list cdesc) : cset :=
  if decide (NoDup (ids l) /\ 1 <= length l <= 14 /\ tuple_archetype_id be (in_order (map_of l)) <> reserved)
  then CSet (map_of l) (tuple_archetype_id be (in_order (map_of l))) else nothing.
(** [None]: the call panics; [Some None]: it returns [None]. *)
Definition set_add (be : bool) (s : cset) (c : cdesc) : option (option cset) :=
  if decide (is_Some (s_map s !! cd_id c) \/ size (s_map s) = 14) then Some None
  else if decide (size (s_map s) = 13) then None
  else let m := <[cd_id c := c]> (s_map s) in Some (Some (CSet m (derived_archetype_id be (in_order m)))).
Definition set_remove (be : bool) (s : cset) (id : N) : option (option cset) :=
  if decide (s_map s !! id = None \/ size (s_map s) = 1) then Some None
  else if decide (size (s_map s) = 14) then None
  else let m := delete id (s_map s) in Some (Some (CSet m (derived_archetype_id be (in_order m)))).

Definition set_made (ss : list cset) (r : option (option cset)) : list cset * danswer :=
  match r with
  | Some (Some s) => (ss ++ [s], AMade)
  | Some None => (ss, ANone)
  | None => (ss, APanic)
  end.
Definition set_ask (ss : list cset) (i : nat) (f : cset -> list cset * danswer) : list cset * danswer :=
  match ss !! i with None => (ss, ASkip) | Some s => f s end.
Definition set_step (be : bool) (ss : list cset) (o : dcall) : list cset * danswer :=
  match o with
  | DInvalid => (ss ++ [nothing], AMade)
  | DNew id len comps => (ss ++ [set_new id (take len comps)], AMade)
  | DInto c => (ss ++ [CSet {[cd_id c := c]} (cd_id c)], AMade)
  | DGroup l => (ss ++ [set_group be l], AMade)
  | DAdd i c => set_ask ss i (fun s => set_made ss (set_add be s c))
  | DAddFrom i c => set_ask ss i (fun s => set_made ss (set_add be s (cdesc_of c)))
  | DRemove i id => set_ask ss i (fun s => set_made ss (set_remove be s id))
  | DHas i c => set_ask ss i (fun s => (ss, ABool (bool_decide (is_Some (s_map s !! ct_id c)))))
  | DContains i j => set_ask ss i (fun s => set_ask ss j (fun t =>
      (ss, ABool (bool_decide ((dom (s_map t) : gset N) ⊆ dom (s_map s))))))
  | DExcludes i j => set_ask ss i (fun s => set_ask ss j (fun t =>
      (ss, ABool (bool_decide ((dom (s_map t) : gset N) ## dom (s_map s))))))
  | DValid i => set_ask ss i (fun s => (ss, ABool (bool_decide (s_id s <> reserved))))
  | DId i => set_ask ss i (fun s => (ss, AId (s_id s)))
  | DLen i => set_ask ss i (fun s => (ss, ALen (size (s_map s))))
  | DComponents i => set_ask ss i (fun s => (ss, AList (listing (s_map s))))
  end.
Fixpoint set_run (be : bool) (ss : list cset) (os : list dcall) : list danswer :=
  match os with
  | [] => []
  | o :: os => let r := set_step be ss o in r.2 :: set_run be r.1 os
  end.

(** The two calls that take data as it is.  [ArchetypeDescriptor::new] checks
    nothing: its array has to be sorted and its length within the array.  A
    component id is a u16. *)
Definition call_ok (o : dcall) : Prop :=
  match o with
  | DNew _ len comps => length comps = 14 /\ len <= 14 /\ strict (ids (take len comps))
  | DInto c => (cd_id c < 65536)%N
  | _ => True
  end.
