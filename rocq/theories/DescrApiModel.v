(** * Programs that use the descriptor types directly

    [ArchetypeDescriptor], [ComponentDescriptor] and [ComponentGroupDescriptor]
    are public (lib.rs:15, descriptors/mod.rs:1-14).  Descriptors are values:
    every call takes [&self] and hands back a new one, so a program is a
    sequence of calls over a growing list of descriptors. *)
From Verif Require Export DescrModel.
Local Open Scope nat_scope.

(** archetype_descriptor.rs:120-122 [add_component_from::<C>] *)
Definition ad_add_component_from (be : bool) (self : adesc) (c : ctype) : rd (option adesc) :=
  ad_add_component be self (cdesc_of c).

(** component_group_descriptor.rs:34-40 [as_unsorted]; the array returned by
    [components_unchecked] (archetype_descriptor.rs:197-201) is the sorted one.
    [RdPanic]: an array index is out of bounds. *)
Definition gd_as_unsorted (g : gdesc) (sorted_index : nat) : rd cdesc :=
  match gd_s2u g !! sorted_index with
  | None => RdPanic
  | Some i => match ad_comps (gd_arch g) !! i with None => RdPanic | Some d => Rd d end
  end.
(** component_group_descriptor.rs:42-44, with the bounds check of the index. *)
Definition gd_sorted_to_unsorted_at (g : gdesc) (index : nat) : rd nat :=
  match gd_s2u g !! index with None => RdPanic | Some i => Rd i end.
(** component_group_descriptor.rs:46-48, with the bounds check of the index. *)
Definition gd_unsorted_to_sorted_at (g : gdesc) (index : nat) : rd nat :=
  match gd_u2s g !! index with None => RdPanic | Some i => Rd i end.

(** The calls.  A number [i] stands for the [i]-th descriptor made so far. *)
Inductive dcall :=
| DInvalid                                     (* ArchetypeDescriptor::INVALID, archetype_descriptor.rs:19-23 *)
| DNew (id : N) (len : nat) (comps : list cdesc) (* ArchetypeDescriptor::new, :33-46; comps is the array of 14 *)
| DInto (c : cdesc)                            (* Into<ArchetypeDescriptor>, component_descriptor.rs:49-97 *)
| DGroup (ds : list cdesc)                     (* ComponentGroupDescriptor::new(&ds).archetype().clone(), component_group_descriptor.rs:30-32, :56-80 *)
| DAdd (i : nat) (c : cdesc)                   (* add_component, archetype_descriptor.rs:126-151 *)
| DAddFrom (i : nat) (c : ctype)               (* add_component_from, :120-122 *)
| DRemove (i : nat) (id : N)                   (* remove_component, :153-173 *)
| DHas (i : nat) (c : ctype)                   (* has_component, :176-181 *)
| DContains (i j : nat)                        (* contains_subset, :73-94 *)
| DExcludes (i j : nat)                        (* excludes_subset, :98-115 *)
| DValid (i : nat)                             (* is_valid, :28-30 *)
| DId (i : nat)                                (* archetype_id, :184-186 *)
| DLen (i : nat)                               (* len, :189-191 *)
| DComponents (i : nat).                       (* components, :205-207 *)

(** What a call gives back.  [AMade]: a descriptor (put at the end of the list). *)
Inductive danswer :=
| AMade
| ANone
| APanic
| ABool (b : bool)
| AId (id : N)
| ALen (n : nat)
| AList (l : list cdesc)
| ASkip. (* the program names a descriptor it does not have *)

(** The list of descriptors after a call that may make one. *)
Definition made (ds : list adesc) (r : rd (option adesc)) : list adesc * danswer :=
  match r with
  | Rd (Some d) => (ds ++ [d], AMade)
  | Rd None => (ds, ANone)
  | RdPanic => (ds, APanic)
  | RdUB => (ds, APanic) (* never: these functions are safe code without unsafe blocks *)
  end.
Definition ask (ds : list adesc) (i : nat) (f : adesc -> list adesc * danswer) : list adesc * danswer :=
  match ds !! i with None => (ds, ASkip) | Some d => f d end.

(** One call.  [components()] and the searches slice [components[0..len]]
    (archetype_descriptor.rs:133, :157, :206), which [ad_components] follows for
    [len <= 14]; a larger [len] can only come from [DNew]. *)
Definition dstep (be : bool) (ds : list adesc) (o : dcall) : list adesc * danswer :=
  match o with
  | DInvalid => (ds ++ [ad_INVALID], AMade)
  | DNew id len comps => (ds ++ [ad_new id len comps], AMade)
  | DInto c => (ds ++ [ad_of_cdesc c], AMade)
  | DGroup l => (ds ++ [gd_arch (gd_new be l)], AMade)
  | DAdd i c => ask ds i (fun d => made ds (ad_add_component be d c))
  | DAddFrom i c => ask ds i (fun d => made ds (ad_add_component_from be d c))
  | DRemove i id => ask ds i (fun d => made ds (ad_remove_component be d id))
  | DHas i c => ask ds i (fun d => (ds, ABool (ad_has_component d c)))
  | DContains i j => ask ds i (fun d => ask ds j (fun e => (ds, ABool (ad_contains_subset d e))))
  | DExcludes i j => ask ds i (fun d => ask ds j (fun e => (ds, ABool (ad_excludes_subset d e))))
  | DValid i => ask ds i (fun d => (ds, ABool (ad_is_valid d)))
  | DId i => ask ds i (fun d => (ds, AId (ad_id d)))
  | DLen i => ask ds i (fun d => (ds, ALen (ad_len d)))
  | DComponents i => ask ds i (fun d => (ds, AList (ad_components d)))
  end.
(** A program; a caller that catches a panic carries on. *)
Fixpoint drun (be : bool) (ds : list adesc) (os : list dcall) : list danswer :=
  match os with
  | [] => []
  | o :: os => let r := dstep be ds o in r.2 :: drun be r.1 os
  end.
