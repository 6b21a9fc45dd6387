(** * Arbitrary clients (C16-C20, C42): any sequence of calls whatsoever, valid
    or not, with panics caught.  No contract; a call that is undefined
    behaviour has no continuation. *)
From Verif Require Export RegModel SpecEntity SpecObs.

(** The calls made, each with its output ([None]: it panicked). *)
Inductive calls (c : cfg) : reg -> list (op * option output) -> reg -> Prop :=
| cs_nil r : calls c r [] r
| cs_ret r o out r1 tr r2 : step c o r = Ret out r1 -> calls c r1 tr r2 -> calls c r ((o, Some out) :: tr) r2
| cs_panic r o r1 tr r2 : step c o r = Panic r1 -> calls c r1 tr r2 -> calls c r ((o, None) :: tr) r2.
(** Reached from the empty registry, whatever the allocator answers. *)
Definition reachable (c : cfg) (r : reg) : Prop :=
  exists oracle tr, calls c (Reg er_default areg_default (Env [] oracle)) tr r.

(** The call may have issued the handle: it returned it, or is a creation that
    panicked. *)
Definition may_issue (h : N) (x : op * option output) : Prop :=
  match x with
  | (_, Some (OutCreate (Ok h'))) => h' = h
  | (OpCreate _ _, None) => True
  | _ => False
  end.
(** Destroying calls for a slot. *)
Definition destroying (i : N) (x : op * option output) : bool :=
  match x.1 with
  | OpDestroy h | OpRemoveEntity _ h => (ent_index h =? i)%N
  | _ => false
  end.
Definition destroying_calls (i : N) (tr : list (op * option output)) : nat :=
  length (filter (fun x => destroying i x = true) tr).
(** The handles an operation is given. *)
Definition handle_of (o : op) : option N :=
  match o with
  | OpDestroy h | OpRemoveEntity _ h | OpHas _ h | OpHasAll _ h | OpGet _ h | OpGetAll _ h
  | OpSet _ h _ | OpSetAll _ h _ | OpAdd _ h _ | OpRemove _ h => Some h
  | _ => None
  end.
(** The output of the operation for an entity that does not exist. *)
Definition rejection (o : op) : output :=
  match o with
  | OpDestroy _ | OpHas _ _ | OpHasAll _ _ => OutBool false
  | OpGet _ _ | OpSet _ _ _ => OutVal None
  | OpAdd _ _ v => OutAdd (Err v)
  | OpRemove _ _ => OutRemove (Err tt)
  | _ => OutVals None
  end.

(** Archetype [k] has the id and the number of components of [d]. *)
Definition stands (r : reg) (k : nat) (d : adesc) : Prop :=
  exists a, ar_archs (r_ar r) !! k = Some a /\ ad_id (a_desc a) = ad_id d /\ ad_len (a_desc a) = ad_len d.
(** The call destroyed the entity: it reported so. *)
Definition destroyed (o : op) (out : output) (h : N) : Prop :=
  match o, out with
  | OpDestroy h', OutBool true => h' = h
  | OpRemoveEntity _ h', OutVals (Some _) => h' = h
  | _, _ => False
  end.
