(** * Programs that use an [EntityRegistry] directly.

    Not code of the library: every sequence of calls of the public API of
    [EntityRegistry] and, through the [&mut EntityEntry] of [entity_entry_mut], of
    [EntityEntry] (entity_registry/mod.rs:29-101, entry.rs:30-64).  [EntityEntry] is
    [Clone] and [Default], so that a client can store any six bytes; setting the
    three fields does the same.  ([invalidate] is [ERow] and [EArch] with 65535.) *)
From Verif Require Export EntityModel.
Local Open Scope N_scope.

Inductive edit := EVersion (v : N) | ERow (row : N) | EArch (ai : N).
Definition edit_entry (be : bool) (e : entry) (x : edit) : entry :=
  match x with
  | EVersion v => entry_set_version e v
  | ERow row => entry_set_index_in_archetype e row
  | EArch ai => entry_set_archetype_index be e ai
  end.
Definition fields_of (be : bool) (e : entry) : N * N * N := (entry_version e, entry_index_in_archetype e, entry_archetype_index be e).

Inductive eop :=
| ERoom                              (* can_register_new_entity *)
| ECreate (row ai : N)
| EDestroy (h : N)
| ELook (h : N)                      (* entity_entry *)
| EEdit (h : N) (l : list edit)      (* entity_entry_mut and some setters *)
| EAll.                              (* iter *)
Inductive eout :=
| EoBool (b : bool)
| EoHandle (o : option N)
| EoFields (o : option (N * N * N))
| EoHandles (l : list N).

Definition estep (be : bool) (x : eop) : M er eout :=
  match x with
  | ERoom => fun r => Ret (EoBool (er_can_register_new_entity r)) r
  | ECreate row ai => let! o := er_create_entity be row ai in ret (EoHandle o)
  | EDestroy h => let! b := er_destroy_entity be h in ret (EoBool b)
  | ELook h => fun r => Ret (EoFields (fields_of be <$> er_entity_entry be r h)) r
  | EEdit h l => fun r =>
      match er_entity_entry be r h, er_update_entry be r h (fun e => fold_left (edit_entry be) l e) with
      | Some e, Some r' => Ret (EoFields (Some (fields_of be (fold_left (edit_entry be) l e)))) r'
      | _, _ => Ret (EoFields None) r
      end
  | EAll => fun r =>
      match er_iter be r with
      | Rd (Some l) => Ret (EoHandles l) r
      | Rd None => UB  (* the loop would not end *)
      | RdPanic => Panic r
      | RdUB => UB
      end
  end.
Fixpoint erun (be : bool) (l : list eop) : M er (list eout) :=
  match l with
  | [] => ret []
  | x :: l' => let! o := estep be x in let! os := erun be l' in ret (o :: os)
  end.
