(** * Client code that holds a mutable iterator and mutable references.

    Not code of the library: what a Rust program can do with one of the four
    mutable component iterators (registry.rs:363-461,
    archetype_registry/iterators/matching_iter_mut.rs,
    filter_matching_iter_mut.rs) and the slices it has returned so far: call [next]
    again, look at values and replace them, in any order and depending on what it
    has seen.  The elements of the slices are numbered in the order in which they
    were handed out, within one item column by column.  [O] is what else an item
    shows: the entity handles, or only the length of the slices. *)
From Verif Require Export CodeModel.
Local Open Scope nat_scope.

Inductive lcode (O : Type) :=
| LStop
| LNext (k : option O -> lcode O)
| LLook (p : nat) (k : value -> lcode O)
| LReplace (p : nat) (v : value) (k : value -> lcode O).
Global Arguments LStop {O}.
Global Arguments LNext {O} k.
Global Arguments LLook {O} p k.
Global Arguments LReplace {O} p v k.

(** What such a program observes, one per step. *)
Inductive sight (O : Type) :=
| Got (o : option O)
| Saw (v : value)
| Swapped (old new : value).
Global Arguments Got {O} o.
Global Arguments Saw {O} v.
Global Arguments Swapped {O} old new.

(** [next] is the iterator's [next] on the current registry, [st] its state, [ls]
    are the references handed out so far. *)
Fixpoint serve_lazy {O} (next : areg -> itst -> rd (option (O * list (list loc)) * itst)) (st : itst) (ls : list loc)
    (cd : lcode O) : RM (list (sight O)) :=
  match cd with
  | LStop => ret []
  | LNext k =>
      let! (o, st') := rm_rd (fun s => next (r_ar s) st) in
      match o with
      | None => let! seen := serve_lazy next st' ls (k None) in ret (Got None :: seen)
      | Some (x, cols) => let! seen := serve_lazy next st' (ls ++ concat cols) (k (Some x)) in ret (Got (Some x) :: seen)
      end
  | LLook p k =>
      match ls !! p with
      | None => mpanic
      | Some l => let! v := look_loc l in let! seen := serve_lazy next st ls (k v) in ret (Saw v :: seen)
      end
  | LReplace p v k =>
      match ls !! p with
      | None => mpanic
      | Some l => let! old := replace_loc l v in let! seen := serve_lazy next st ls (k old) in ret (Swapped old v :: seen)
      end
  end.
(** The iterator is made first. *)
Definition lazily {O} (c : cfg) (G : group) (next : areg -> itst -> rd (option (O * list (list loc)) * itst)) (cd : lcode O) : RM (list (sight O)) :=
  let! st := lift_rd (arch_iter_new c G) in serve_lazy next st [] cd.

(** The length of the slices of an item (of its first column). *)
Definition slice_len {A} (cols : list (list A)) : nat := match cols with [] => 0 | col :: _ => length col end.
(** matching_iter_mut.rs:26-29 and :52-55, filter_matching_iter_mut.rs:34-37 and :76-79 *)
Definition next_matching_mut (c : cfg) (G : group) : areg -> itst -> rd (option (nat * list (list loc)) * itst) :=
  slices_next c G (accept_matching (big c) G)
    (fun i a => letr cols := get_fuzzy_slices_mut c G a in Rd (slice_len cols, locate i cols)).
Definition next_entity_matching_mut (c : cfg) (G : group) : areg -> itst -> rd (option (list N * list (list loc)) * itst) :=
  slices_next c G (accept_matching (big c) G)
    (fun i a => letr x := get_entity_fuzzy_slices_mut c G a in Rd (x.1, locate i x.2)).
Definition next_filtered_mut (c : cfg) (G : group) (f : adesc -> bool) : areg -> itst -> rd (option (nat * list (list loc)) * itst) :=
  slices_next c G (accept_filtered (big c) G f)
    (fun i a => letr cols := get_fuzzy_slices_mut c G a in Rd (slice_len cols, locate i cols)).
Definition next_entity_filtered_mut (c : cfg) (G : group) (f : adesc -> bool) : areg -> itst -> rd (option (list N * list (list loc)) * itst) :=
  slices_next c G (accept_filtered (big c) G f)
    (fun i a => letr x := get_entity_fuzzy_slices_mut c G a in Rd (x.1, locate i x.2)).

(** The same over bytes. *)
Fixpoint b_serve_lazy {O} (next : breg -> itst -> rd (option (O * list (list bloc)) * itst)) (st : itst) (ls : list bloc)
    (cd : lcode O) : BRM (list (sight O)) :=
  match cd with
  | LStop => ret []
  | LNext k =>
      let! (o, st') := bq_rd (fun s => next s st) in
      match o with
      | None => let! seen := b_serve_lazy next st' ls (k None) in ret (Got None :: seen)
      | Some (x, cols) => let! seen := b_serve_lazy next st' (ls ++ concat cols) (k (Some x)) in ret (Got (Some x) :: seen)
      end
  | LLook p k =>
      match ls !! p with
      | None => mpanic
      | Some l => let! v := b_look l in let! seen := b_serve_lazy next st ls (k v) in ret (Saw v :: seen)
      end
  | LReplace p v k =>
      match ls !! p with
      | None => mpanic
      | Some l => let! old := b_replace l v in let! seen := b_serve_lazy next st ls (k old) in ret (Swapped old v :: seen)
      end
  end.
Definition b_lazily {O} (c : cfg) (G : group) (next : breg -> itst -> rd (option (O * list (list bloc)) * itst)) (cd : lcode O) : BRM (list (sight O)) :=
  let! st := lift_rd (arch_iter_new c G) in b_serve_lazy next st [] cd.
Definition b_next_matching_mut (c : cfg) (G : group) : breg -> itst -> rd (option (nat * list (list bloc)) * itst) :=
  b_slices_next c G (accept_matching (big c) G)
    (fun a m => letr cols := b_get_fuzzy_slices_mut c G a m in Rd (slice_len cols, cols)).
Definition b_next_entity_matching_mut (c : cfg) (G : group) : breg -> itst -> rd (option (list N * list (list bloc)) * itst) :=
  b_slices_next c G (accept_matching (big c) G) (b_get_entity_fuzzy_slices_mut c G).
Definition b_next_filtered_mut (c : cfg) (G : group) (f : adesc -> bool) : breg -> itst -> rd (option (nat * list (list bloc)) * itst) :=
  b_slices_next c G (accept_filtered (big c) G f)
    (fun a m => letr cols := b_get_fuzzy_slices_mut c G a m in Rd (slice_len cols, cols)).
Definition b_next_entity_filtered_mut (c : cfg) (G : group) (f : adesc -> bool) : breg -> itst -> rd (option (list N * list (list bloc)) * itst) :=
  b_slices_next c G (accept_filtered (big c) G f) (b_get_entity_fuzzy_slices_mut c G).
