(** * Filter closures with a state that may panic, and clients that catch it.

    The filtered iterators take any [Fn(&ArchetypeDescriptor) -> bool]
    (registry.rs:378-461); with interior mutability its answers can depend on the
    earlier calls, and it can panic, after which a client may go on using the
    iterator ([catch_unwind]). *)
From Verif Require Export LazyModel.
Local Open Scope nat_scope.

(** What one call of the closure does to its state. *)
Inductive verdict (St : Type) := Says (b : bool) (s : St) | Panics (s : St).
Global Arguments Says {St} b s.
Global Arguments Panics {St} s.
Definition closure (St : Type) := adesc -> St -> verdict St.
(** What one call of [next] does. *)
Inductive turn (X : Type) := Item (x : X) | Done | Crashed.
Global Arguments Item {X} x.
Global Arguments Done {X}.
Global Arguments Crashed {X}.

Section next.
  Context {St : Type} (c : cfg) (G : group) (f : closure St).
  (** filter_archetype_iter_mut.rs:47-64, filter_archetype_iter.rs:46-60: the inner
      loop.  The index is advanced before the tests, and the closure is called only
      if the archetype has the components. *)
  Fixpoint f_scan_level (archs : list arch) (keys : list akey) (idx : nat) (s : St) : rd (turn nat * nat * St) :=
    match keys with
    | [] => Rd (Done, idx, s)
    | k :: keys' =>
        match archs !! k_idx k with
        | None => RdUB
        | Some a =>
            if ad_contains_subset (a_desc a) (gd_arch (group_desc (big c) G)) then
              match f (a_desc a) s with
              | Says true s' => Rd (Item (k_idx k), S idx, s')
              | Says false s' => f_scan_level archs keys' (S idx) s'
              | Panics s' => Rd (Crashed, S idx, s')
              end
            else f_scan_level archs keys' (S idx) s
        end
    end.
  (** filter_archetype_iter_mut.rs:43-68, filter_archetype_iter.rs:42-64 *)
  Fixpoint f_scan_levels (r : areg) (fuel : nat) (st : itst) (s : St) : rd (turn nat * itst * St) :=
    match fuel with
    | O => Rd (Done, st, s)
    | S fuel' =>
        match ar_maps r !! it_level st with
        | None => RdUB
        | Some keys =>
            letr (x, s') := f_scan_level (ar_archs r) (drop (it_idx st) keys) (it_idx st) s in
            match x.1 with
            | Done => f_scan_levels r fuel' (ItSt (S (it_level st)) 0) s'
            | t => Rd (t, ItSt (it_level st) x.2, s')
            end
        end
    end.
  (** filter_archetype_iter_mut.rs:39-70, filter_archetype_iter.rs:38-66 *)
  Definition f_arch_next (r : areg) (st : itst) (s : St) : rd (turn nat * itst * St) :=
    if negb (gd_is_valid (group_desc (big c) G)) then Rd (Done, st, s)
    else f_scan_levels r (MAX_COMPONENTS_PER_ENTITY - it_level st) st s.
  (** filter_matching_iter.rs:29-32 and :67-70, filter_matching_iter_mut.rs:34-37
      and :76-79 *)
  Definition f_next {X} (item : nat -> arch -> rd X) (r : areg) (st : itst) (s : St) : rd (turn X * itst * St) :=
    letr (x, s') := f_arch_next r st s in
    match x.1 with
    | Done => Rd (Done, x.2, s')
    | Crashed => Rd (Crashed, x.2, s')
    | Item i =>
        match ar_archs r !! i with
        | None => RdUB
        | Some a => letr y := item i a in Rd (Item y, x.2, s')
        end
    end.
End next.

(** ** Clients *)
(** Calling [next] of an iterator [n] times. *)
Fixpoint pull {St X} (next : itst -> St -> rd (turn X * itst * St)) (n : nat) (st : itst) (s : St) : rd (list (turn X) * St) :=
  match n with
  | O => Rd ([], s)
  | S n' => letr (x, s') := next st s in letr (l, s2) := pull next n' x.2 s' in Rd (x.1 :: l, s2)
  end.
Definition pulls {St X} (c : cfg) (G : group) (next : areg -> itst -> St -> rd (turn X * itst * St)) (n : nat) (s : St) (r : reg) : rd (list (turn X) * St) :=
  letr st := arch_iter_new c G in pull (next (r_ar r)) n st s.

(** Code that advances a mutable iterator and uses the references received. *)
Inductive fcode (O : Type) :=
| FStop
| FNext (k : turn O -> fcode O)
| FLook (p : nat) (k : value -> fcode O)
| FReplace (p : nat) (v : value) (k : value -> fcode O).
Global Arguments FStop {O}.
Global Arguments FNext {O} k.
Global Arguments FLook {O} p k.
Global Arguments FReplace {O} p v k.
Inductive fsight (O : Type) :=
| FTurn (t : turn O)
| FSaw (v : value)
| FSwapped (old new : value).
Global Arguments FTurn {O} t.
Global Arguments FSaw {O} v.
Global Arguments FSwapped {O} old new.

Fixpoint serve_sift {St O} (next : areg -> itst -> St -> rd (turn (O * list (list loc)) * itst * St)) (st : itst) (s : St) (ls : list loc)
    (cd : fcode O) : RM (list (fsight O) * St) :=
  match cd with
  | FStop => ret ([], s)
  | FNext k =>
      let! (x, s') := rm_rd (fun r => next (r_ar r) st s) in
      match x.1 with
      | Done => let! (seen, s2) := serve_sift next x.2 s' ls (k Done) in ret (FTurn Done :: seen, s2)
      | Crashed => let! (seen, s2) := serve_sift next x.2 s' ls (k Crashed) in ret (FTurn Crashed :: seen, s2)
      | Item (o, cols) => let! (seen, s2) := serve_sift next x.2 s' (ls ++ concat cols) (k (Item o)) in ret (FTurn (Item o) :: seen, s2)
      end
  | FLook p k =>
      match ls !! p with
      | None => mpanic
      | Some l => let! v := look_loc l in let! (seen, s2) := serve_sift next st s ls (k v) in ret (FSaw v :: seen, s2)
      end
  | FReplace p v k =>
      match ls !! p with
      | None => mpanic
      | Some l => let! old := replace_loc l v in let! (seen, s2) := serve_sift next st s ls (k old) in ret (FSwapped old v :: seen, s2)
      end
  end.
Definition sifting {St O} (c : cfg) (G : group) (next : areg -> itst -> St -> rd (turn (O * list (list loc)) * itst * St)) (s : St) (cd : fcode O)
    : RM (list (fsight O) * St) :=
  let! st := lift_rd (arch_iter_new c G) in serve_sift next st s [] cd.

(** The four iterators (registry.rs:378-461). *)
Definition f_next_matching {St} (c : cfg) (G : group) (f : closure St) : areg -> itst -> St -> rd (turn (list (list value)) * itst * St) :=
  f_next c G f (fun _ a => get_fuzzy_slices c G a).
Definition f_next_entity_matching {St} (c : cfg) (G : group) (f : closure St) : areg -> itst -> St -> rd (turn (list N * list (list value)) * itst * St) :=
  f_next c G f (fun _ a => get_entity_fuzzy_slices c G a).
Definition f_next_matching_mut {St} (c : cfg) (G : group) (f : closure St) : areg -> itst -> St -> rd (turn (nat * list (list loc)) * itst * St) :=
  f_next c G f (fun i a => letr cols := get_fuzzy_slices_mut c G a in Rd (slice_len cols, locate i cols)).
Definition f_next_entity_matching_mut {St} (c : cfg) (G : group) (f : closure St) : areg -> itst -> St -> rd (turn (list N * list (list loc)) * itst * St) :=
  f_next c G f (fun i a => letr x := get_entity_fuzzy_slices_mut c G a in Rd (x.1, locate i x.2)).
