(** * Programs that use an [ArchetypeRegistry] directly

    The [archetype_registry] module is public (lib.rs:6), so a program can own an
    [ArchetypeRegistry] (archetype_registry/mod.rs:40) without a [Registry].  The
    model functions are those of RegModel.v; the entity table of [reg] is not
    used.  References to archetypes are used by calling methods of
    archetype/data_access.rs (ArchClient.v), any number of them, before the next
    call on the registry. *)
From Verif Require Export ArchClient RegModel.
Local Open Scope nat_scope.

(** [handles]: the iterator also yields the entities; [f]: the closure of the
    filtered iterators. *)
Inductive gop :=
| GFind (G : group) (ops : list aop)                       (* mod.rs:71, :89 *)
| GMake (G : group) (ops : list aop)                       (* :164 *)
| GAdding (src : nat) (C : ctype) (ops : list (bool * aop))   (* :110; methods of the source or, if [true], the destination *)
| GRemoving (src : nat) (C : ctype) (ops : list (bool * aop)) (* :138 *)
| GIndex (i : nat) (ops : list aop)                        (* :300, :307 *)
| GUnchecked (i : nat) (ops : list aop)                    (* :206, :213 *)
| GIter (handles : bool) (f : option (adesc -> bool)) (G : group) (* :217, :229, :241, :265 *)
| GStore (handles : bool) (f : option (adesc -> bool)) (G : group) (new : list (list (list value))).
                                                           (* :223, :235, :252, :280: the items are collected, then every element is replaced *)

Inductive gout :=
| GoNone                                          
| GoRan (outs : list aout)
| GoMade (i : nat) (outs : list aout)
| GoPair (dst : nat) (outs : list aout)
| GoItems (items : list (list N * list (list value))).

(** Methods called through references to the archetypes at some indices. *)
Fixpoint on_archs (c : cfg) (ops : list (nat * aop)) : RM (list aout) :=
  match ops with
  | [] => ret []
  | (i, o) :: ops' =>
      let! x := with_arch i (astep c o) in
      let! xs := on_archs c ops' in
      ret (x :: xs)
  end.
Definition desc_of_tuple (c : cfg) (G : group) : adesc := gd_arch (group_desc (big c) G).

(** The eight iterators, driven to their ends. *)
Definition iter_items (c : cfg) (handles : bool) (f : option (adesc -> bool)) (G : group) (s : reg) : rd (option (list (list N * list (list value)))) :=
  match handles, f with
  | false, None => letr o := iter_components_matching c G s in Rd (map (pair []) <$> o)
  | true, None => iter_entity_components_matching c G s
  | false, Some f => letr o := iter_filtered_components_matching c G f s in Rd (map (pair []) <$> o)
  | true, Some f => iter_filtered_entity_components_matching c G f s
  end.
Definition iter_slots (c : cfg) (handles : bool) (f : option (adesc -> bool)) (G : group) (s : reg) : rd (option (list (list N * list (list loc)))) :=
  match handles, f with
  | false, None => letr o := iter_components_matching_mut c G s in Rd (map (pair []) <$> o)
  | true, None => iter_entity_components_matching_mut c G s
  | false, Some f => letr o := iter_filtered_components_matching_mut c G f s in Rd (map (pair []) <$> o)
  | true, Some f => iter_filtered_entity_components_matching_mut c G f s
  end.
(** [mem::replace] on every element of every slice. *)
Fixpoint store_item (cols : list (list loc)) (new : list (list value)) : RM (list (list value)) :=
  match cols, new with
  | ls :: cols', vs :: new' =>
      let! olds := replace_locs ls vs in
      let! rest := store_item cols' new' in
      ret (olds :: rest)
  | _, _ => ret []
  end.
Fixpoint store_items (items : list (list N * list (list loc))) (new : list (list (list value))) : RM (list (list N * list (list value))) :=
  match items, new with
  | x :: items', n :: new' =>
      let! olds := store_item x.2 n in
      let! rest := store_items items' new' in
      ret ((x.1, olds) :: rest)
  | _, _ => ret []
  end.

(** One call, and what the program does with its result. *)
Definition derived_call (c : cfg) (src : nat) (ops : list (bool * aop)) (find : RM (option (nat * nat))) : RM gout :=
  let! o := find in
  match o with
  | None => ret GoNone
  | Some (s, d) =>
      let! outs := on_archs c (map (fun '(b, o) => (if b : bool then d else s, o)) ops) in
      ret (GoPair d outs)
  end.
Definition gstep (c : cfg) (o : gop) : RM gout :=
  match o with
  | GFind G ops =>
      let! o := rm_rd (fun s => find_archetype (desc_of_tuple c G) (r_ar s)) in
      match o with
      | None => ret GoNone
      | Some i => let! outs := on_archs c (map (pair i) ops) in ret (GoRan outs)
      end
  | GMake G ops =>
      let! o := find_or_create_archetype (desc_of_tuple c G) in
      match o with
      | None => ret GoNone
      | Some i => let! outs := on_archs c (map (pair i) ops) in ret (GoMade i outs)
      end
  | GAdding src C ops => derived_call c src ops (find_or_create_archetype_adding_component c src (cdesc_of C))
  | GRemoving src C ops => derived_call c src ops (find_or_create_archetype_removing_component c src (cdesc_of C))
  | GIndex i ops =>
      let! s := rm_get in
      if i <? length (ar_archs (r_ar s)) then let! outs := on_archs c (map (pair i) ops) in ret (GoRan outs)
      else mpanic
  | GUnchecked i ops =>
      rm_rd (arch_at i) ;;! let! outs := on_archs c (map (pair i) ops) in ret (GoRan outs)
  | GIter h f G =>
      let! o := rm_rd (iter_items c h f G) in
      match o with None => mub | Some items => ret (GoItems items) end
  | GStore h f G new =>
      let! o := rm_rd (iter_slots c h f G) in
      match o with None => mub | Some items => let! olds := store_items items new in ret (GoItems olds) end
  end.
(** A program that catches panics and goes on; [None]: undefined behaviour. *)
Fixpoint grun (c : cfg) (ops : list gop) (r : reg) : option (list (option gout) * reg) :=
  match ops with
  | [] => Some ([], r)
  | o :: ops' =>
      match gstep c o r with
      | Ret x r1 => (fun y => (Some x :: y.1, y.2)) <$> grun c ops' r1
      | Panic r1 => (fun y => (None :: y.1, y.2)) <$> grun c ops' r1
      | UB => None
      end
  end.

(** [mem::swap] of the two [&mut Archetype] returned by mod.rs:110 or :138: safe
    code that exchanges the archetypes and leaves the lookup lists as they are. *)
Definition swap_archs (i j : nat) (r : reg) : reg :=
  match ar_archs (r_ar r) !! i, ar_archs (r_ar r) !! j with
  | Some a, Some b => Reg (r_er r) (set_archs (r_ar r) (<[i := b]> (<[j := a]> (ar_archs (r_ar r))))) (r_env r)
  | _, _ => r
  end.
