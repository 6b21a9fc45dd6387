(** * Programs that use an [Archetype] directly

    The [archetype] module is public (lib.rs:5, :13), so a program can own an
    [Archetype] without a registry, as src/archetype/tests.rs does.  One
    constructor per public method of data_access.rs; the model functions are
    those of ArchModel.v. *)
From Verif Require Export ArchModel.
Local Open Scope nat_scope.

(** The three ways to obtain slices: data_access.rs:88-113 (exactly the
    archetype's components), :120-139 (some of them), :147-173 (with handles). *)
Inductive access := Exact | Some_of | With_handles.

Inductive aop :=
| APush (G : group) (h : N) (vs : list value)               (* data_access.rs:209 *)
| AReserve (G : group) (h : N) (vs : list value)            (* :229, then :272 on the new row *)
| AOverwrite (G : group) (i : nat) (h : N) (vs : list value) (* :272 on an existing row *)
| AWrite (C : ctype) (i : nat) (v : value)                  (* :245 *)
| ASetHandle (i : nat) (h : N)                              (* entities_mut()[i] = h, :198 *)
| AReplace (C : ctype) (i : nat) (v : value)                (* mem::replace through :29 *)
| AReplaceAll (G : group) (i : nat) (vs : list value)       (* mem::replace through :57 *)
| AStore (k : access) (G : group) (cols : list (list value)) (* mem::replace of every slice element, :88, :133, :164 *)
| ASwap (i j : nat)                                         (* :373 *)
| AToLast (i : nat)                                         (* :334 *)
| ASwapDrop (i : nat)                                       (* :313 *)
| ASwapRemove (G : group) (i : nat)                         (* :353 *)
| AForget                                                   (* :238 *)
| AGet (C : ctype) (i : nat)                                (* :14 *)
| ARead (C : ctype) (i : nat)                               (* :70 *)
| AGetAll (G : group) (i : nat)                             (* :44 *)
| AReadAll (G : group) (i : nat)                            (* :406 *)
| ASlices (k : access) (G : group)                          (* :104, :120, :147 *)
| AEntities                                                 (* :193 *)
| ALen                                                      (* :178 *)
| ACapacity                                                 (* :183 *)
| AFull.                                                    (* :188 *)

Inductive aout :=
| AoUnit
| AoNat (n : nat)
| AoBool (b : bool)
| AoVal (v : value)
| AoVals (vs : list value)
| AoRemoved (vs : list value) (swapped : bool)
| AoCols (hs : list N) (cols : list (list value))
| AoHandles (hs : list N).

(** [mem::replace] on a referenced cell. *)
Definition replace_cell (x : nat * nat) (v : value) : AM value :=
  let! old := am_rd (fun a => raw_cell a x.1 x.2) in
  match old with
  | None => mub
  | Some ov => write_cell x.1 x.2 (Some v) ;;! ret ov
  end.
Fixpoint replace_cells (xs : list (nat * nat)) (vs : list value) : AM (list value) :=
  match xs, vs with
  | x :: xs', v :: vs' =>
      let! ov := replace_cell x v in
      let! ovs := replace_cells xs' vs' in
      ret (ov :: ovs)
  | _, _ => ret []
  end.
Fixpoint replace_columns (xss : list (list (nat * nat))) (vss : list (list value)) : AM (list (list value)) :=
  match xss, vss with
  | xs :: xss', vs :: vss' =>
      let! ovs := replace_cells xs vs in
      let! ovss := replace_columns xss' vss' in
      ret (ovs :: ovss)
  | _, _ => ret []
  end.

(** Handles (if asked for) and slices. *)
Definition slices_of (c : cfg) (k : access) (G : group) (a : arch) : rd (list N * list (list value)) :=
  match k with
  | Exact => letr cols := get_slices_exact c G a in Rd ([], cols)
  | Some_of => letr cols := get_fuzzy_slices c G a in Rd ([], cols)
  | With_handles => get_entity_fuzzy_slices c G a
  end.
Definition mut_slices_of (c : cfg) (k : access) (G : group) (a : arch) : rd (list N * list (list (nat * nat))) :=
  match k with
  | Exact => letr cols := get_slices_exact_mut c G a in Rd ([], cols)
  | Some_of => letr cols := get_fuzzy_slices_mut c G a in Rd ([], cols)
  | With_handles => get_entity_fuzzy_slices_mut c G a
  end.

Definition astep (c : cfg) (o : aop) : AM aout :=
  match o with
  | APush G h vs => let! i := push_entity_unchecked c G h vs in ret (AoNat i)
  | AReserve G h vs =>
      let! i := push_uninitialized_entity in
      write_entity_unchecked c G i h vs ;;! ret (AoNat i)
  | AOverwrite G i h vs => write_entity_unchecked c G i h vs ;;! ret AoUnit
  | AWrite C i v => write_single_component_unchecked C i v ;;! ret AoUnit
  | ASetHandle i h => write_entity i h ;;! ret AoUnit
  | AReplace C i v =>
      let! x := am_rd (get_component_unchecked_mut C i) in
      let! old := replace_cell x v in ret (AoVal old)
  | AReplaceAll G i vs =>
      let! xs := am_rd (get_fuzzy_components_mut c G i) in
      let! olds := replace_cells xs vs in ret (AoVals olds)
  | AStore k G cols =>
      let! x := am_rd (mut_slices_of c k G) in
      let! olds := replace_columns x.2 cols in ret (AoCols x.1 olds)
  | ASwap i j => swap_entities i j ;;! ret AoUnit
  | AToLast i => let! b := swap_to_last_unchecked c i in ret (AoBool b)
  | ASwapDrop i => let! b := swap_drop_unchecked c i in ret (AoBool b)
  | ASwapRemove G i => let! x := swap_remove_unchecked c G i in ret (AoRemoved x.1 x.2)
  | AForget => decrement_len_unchecked c ;;! ret AoUnit
  | AGet C i => let! v := am_rd (get_component_unchecked C i) in ret (AoVal v)
  | ARead C i => let! v := am_rd (read_component_unchecked C i) in ret (AoVal v)
  | AGetAll G i => let! vs := am_rd (get_fuzzy_components c G i) in ret (AoVals vs)
  | AReadAll G i => let! vs := am_rd (read_components_exact_unchecked (big c) G i) in ret (AoVals vs)
  | ASlices k G => let! x := am_rd (slices_of c k G) in ret (AoCols x.1 x.2)
  | AEntities => let! hs := am_rd entities in ret (AoHandles hs)
  | ALen => let! a := am_get in ret (AoNat (a_len a))
  | ACapacity => let! a := am_get in ret (AoNat (a_cap a))
  | AFull => let! a := am_get in ret (AoBool (is_full a))
  end.
Fixpoint arun (c : cfg) (ops : list aop) : AM (list aout) :=
  match ops with
  | [] => ret []
  | o :: ops' =>
      let! x := astep c o in
      let! xs := arun c ops' in
      ret (x :: xs)
  end.
(** A program: [Archetype::with_capacity(<G0>::DESCRIPTOR.archetype(), n)], the
    calls, and dropping the archetype at the end. *)
Definition archetype_for (c : cfg) (G0 : group) (n : nat) : M env arch :=
  a_with_capacity (gd_arch (group_desc (big c) G0)) n.
