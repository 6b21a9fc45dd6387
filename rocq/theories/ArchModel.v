(** * Model of src/archetype/ (mod.rs and data_access.rs) *)
From Verif Require Export DescrModel.
Local Open Scope nat_scope.

(** ** Memory

    A heap block obtained from the allocator: the layout it was requested with
    and its cells.  Cells are whole elements (one component or one entity
    handle) rather than bytes; [None] is uninitialised memory.  Moving a value
    out of a cell or dropping it leaves the bits in place, as in Rust.
    A pointer is null or the start of a block.  Each block is owned by exactly
    one archetype field, so ownership is structural (no address map). *)
Record block (A : Type) := Block { bl_size : N; bl_align : N; bl_cells : list (option A) }.
Global Arguments Block {A} bl_size bl_align bl_cells.
Global Arguments bl_size {A} b.
Global Arguments bl_align {A} b.
Global Arguments bl_cells {A} b.
Definition ptr (A : Type) := option (block A).

(** The outside world: what the allocator and the destructors were asked to do
    (newest event last), and the allocator's upcoming answers
    ([ev_oracle]: [false] = this request fails; an exhausted oracle means the
    remaining requests succeed). *)
Inductive event :=
| EvAlloc (size align : N)
| EvRealloc (old_size align new_size : N)
| EvDealloc (size align : N)
| EvDrop (v : value).
Record env := Env { ev_trace : list event; ev_oracle : list bool }.
Definition env_init : env := Env [] [].
Definition emit (e : event) : M env unit := fun v => Ret tt (Env (ev_trace v ++ [e]) (ev_oracle v)).
Definition ask_allocator : M env bool := fun v =>
  match ev_oracle v with
  | [] => Ret true v
  | b :: o => Ret b (Env (ev_trace v) o)
  end.

(** What [Layout::from_size_align_unchecked] demands of an alignment. *)
Definition is_pow2 (a : N) : bool := (a =? 2 ^ N.log2 a)%N.
(** [alloc(Layout { size, align })]: a zero size breaks the [GlobalAlloc]
    contract, an alignment that is no power of two that of [Layout]; failure
    returns null. *)
Definition mem_alloc {A} (size align : N) (ncells : nat) : M env (ptr A) :=
  if (size =? 0)%N || negb (is_pow2 align) then mub
  else
    let! ok := ask_allocator in
    if ok then emit (EvAlloc size align) ;;! ret (Some (Block size align (replicate ncells None)))
    else ret None.

(** [realloc(ptr, layout, new_size)]: the pointer must be non-null and have been
    allocated with [layout]; [new_size] must not be zero.  On failure null is
    returned (and the caller here overwrites its only copy of the pointer). *)
Definition mem_realloc {A} (p : ptr A) (old_size align new_size : N) (ncells : nat) : M env (ptr A) :=
  match p with
  | None => mub
  | Some b =>
      if (bl_size b =? old_size)%N && (bl_align b =? align)%N && negb (new_size =? 0)%N then
        let! ok := ask_allocator in
        if ok then
          emit (EvRealloc old_size align new_size) ;;!
          ret (Some (Block new_size align
                 (take ncells (bl_cells b) ++ replicate (ncells - length (bl_cells b)) None)))
        else ret None
      else mub
  end.

(** [dealloc(ptr, layout)] *)
Definition mem_dealloc {A} (p : ptr A) (size align : N) : M env unit :=
  match p with
  | None => mub
  | Some b =>
      if (bl_size b =? size)%N && (bl_align b =? align)%N then emit (EvDealloc size align) else mub
  end.

(** ** Archetype (archetype/mod.rs:12-18) *)
Record arch := Arch {
  a_desc : adesc;
  a_ptrs : list (ptr value);
  a_assoc : ptr N;
  a_count : nat;
  a_cap : nat
}.
(** [size_of::<Entity>()] and [align_of::<Entity>()] (entity.rs:4-8). *)
Definition ENTITY_SIZE : N := 4.
Definition ENTITY_ALIGN : N := 4.

Definition AM (A : Type) := M (arch * env) A.
Definition set_ptrs (a : arch) (p : list (ptr value)) : arch := Arch (a_desc a) p (a_assoc a) (a_count a) (a_cap a).
Definition set_assoc (a : arch) (p : ptr N) : arch := Arch (a_desc a) (a_ptrs a) p (a_count a) (a_cap a).
Definition set_count (a : arch) (n : nat) : arch := Arch (a_desc a) (a_ptrs a) (a_assoc a) n (a_cap a).
Definition set_cap (a : arch) (n : nat) : arch := Arch (a_desc a) (a_ptrs a) (a_assoc a) (a_count a) n.

Definition am_get : AM arch := fun s => Ret s.1 s.
Definition am_upd (f : arch -> arch) : AM unit := fun s => Ret tt (f s.1, s.2).
Definition am_env {A} (m : M env A) : AM A := fun s =>
  match m s.2 with
  | Ret x e => Ret x (s.1, e)
  | Panic e => Panic (s.1, e)
  | UB => UB
  end.
Definition am_rd {A} (f : arch -> rd A) : AM A := fun s => lift_rd (f s.1) s.

(** [iter().enumerate()] *)
Definition enum {A} (l : list A) : list (nat * A) := zip (seq 0 (length l)) l.

(** The components of the archetype's descriptor. *)
Definition a_comps (a : arch) : list cdesc := ad_components (a_desc a).
(** data_access.rs:178-180 *)
Definition a_len (a : arch) : nat := a_count a.

(** *** Typed and untyped access to one cell *)

(** The bits of row [row] of column [idx]: index past the 14-element pointer
    array panics; a null pointer or a row outside the block is UB. *)
Definition raw_cell (a : arch) (idx row : nat) : rd (option value) :=
  match a_ptrs a !! idx with
  | None => RdPanic
  | Some None => RdUB
  | Some (Some b) =>
      match bl_cells b !! row with
      | None => RdUB
      | Some c => Rd c
      end
  end.
(** Reading (or referencing) that cell as a [c]: the column's stride must be
    [size_of::<C>()], the bits must be initialised and be a [C]. *)
Definition typed_cell (c : ctype) (a : arch) (idx row : nat) : rd value :=
  letr cell := raw_cell a idx row in
  match cell, a_comps a !! idx with
  | Some v, Some d =>
      if (v_ty v =? ct_ty c)%N && (ct_size c =? cd_size d)%N then Rd v else RdUB
  | _, _ => RdUB
  end.
(** Overwriting the bits of a cell. *)
Definition write_cell (idx row : nat) (v : option value) : AM unit := fun s =>
  match a_ptrs s.1 !! idx with
  | None => Panic s
  | Some None => UB
  | Some (Some b) =>
      if row <? length (bl_cells b) then
        Ret tt (set_ptrs s.1 (<[idx := Some (Block (bl_size b) (bl_align b) (<[row := v]> (bl_cells b)))]> (a_ptrs s.1)), s.2)
      else UB
  end.

(** *** Construction (archetype/mod.rs:40-71) *)
Fixpoint alloc_columns (ds : list cdesc) (cap : nat) : M env (list (ptr value)) :=
  match ds with
  | [] => ret []
  | d :: ds' =>
      let! p := mem_alloc (cd_size d * N.of_nat cap)%N (cd_align d) cap in
      match p with
      | None => mpanic
      | Some _ => let! ps := alloc_columns ds' cap in ret (p :: ps)
      end
  end.
(** The local [archetype] of a panicking [with_capacity] still has capacity 0,
    so its [Drop] does nothing: the blocks already allocated are leaked. *)
Definition a_with_capacity (d : adesc) (cap : nat) : M env arch :=
  massert (ad_is_valid d) ;;!
  if (0 <? cap) && (N.of_nat cap <=? MAX_ENTITIES_PER_ARCHETYPE)%N then
    let! assoc := mem_alloc (ENTITY_SIZE * N.of_nat cap)%N ENTITY_ALIGN cap in
    match assoc with
    | None => mpanic
    | Some _ =>
        let! ps := alloc_columns (ad_components d) cap in
        ret (Arch d (ps ++ replicate (MAX_COMPONENTS_PER_ENTITY - length ps) None) assoc 0 cap)
    end
  else ret (Arch d (replicate MAX_COMPONENTS_PER_ENTITY None) None 0 0).
(** archetype/mod.rs:27-33 *)
Definition a_new (d : adesc) : M env arch :=
  massert (ad_is_valid d) ;;! a_with_capacity d DEFAULT_ARCHETYPE_ALLOCATION_SIZE.

(** *** Single-component access *)
(** data_access.rs:14-23 *)
Definition get_component_unchecked (c : ctype) (row : nat) (a : arch) : rd value :=
  match binary_search (map cd_id (a_comps a)) (ct_id c) with
  | inl idx => typed_cell c a idx row
  | inr _ => RdPanic
  end.
(** data_access.rs:29-38: the [&mut C], as the cell (column, row) it points to. *)
Definition get_component_unchecked_mut (c : ctype) (row : nat) (a : arch) : rd (nat * nat) :=
  match binary_search (map cd_id (a_comps a)) (ct_id c) with
  | inl idx => letr _ := typed_cell c a idx row in Rd (idx, row)
  | inr _ => RdPanic
  end.
(** data_access.rs:70-81: [ptr::read], a bitwise copy. *)
Definition read_component_unchecked (c : ctype) (row : nat) (a : arch) : rd value :=
  match binary_search (map cd_id (a_comps a)) (ct_id c) with
  | inl idx => typed_cell c a idx row
  | inr _ => RdPanic
  end.

(** *** Tuple access *)
(** Cell pointers as the crate computes them: [None] stands for null (or a
    pointer computed with the wrong stride), which must not be dereferenced. *)
Definition cellptr := option (nat * nat).

(** data_access.rs:544-568: for the [index]-th sorted component of [G], scan the
    archetype's components from [index] on for the same id. *)
Fixpoint find_from (ds : list cdesc) (pos : nat) (id : N) : option nat :=
  match ds with
  | [] => None
  | d :: ds' => if (cd_id d =? id)%N then Some pos else find_from ds' (S pos) id
  end.
Definition fuzzy_pointer (a : arch) (offset : nat) (index : nat) (d : cdesc) : cellptr :=
  match find_from (drop index (a_comps a)) index (cd_id d) with
  | None => None
  | Some k => if (cd_size d =? cd_size (cnth (a_comps a) k))%N then Some (k, offset) else None
  end.
Definition get_fuzzy_pointers (g : gdesc) (offset : nat) (a : arch) : list cellptr :=
  let ps := map (fun '(i, d) => fuzzy_pointer a offset i d) (enum (ad_components (gd_arch g))) in
  ps ++ replicate (MAX_COMPONENTS_PER_ENTITY - length ps) None.

(** Dereferencing one of those pointers as a [c]. *)
Definition deref (c : ctype) (a : arch) (ps : list cellptr) (slot : nat) : rd (nat * nat * value) :=
  match ps !! slot with
  | None => RdPanic
  | Some None => RdUB
  | Some (Some (idx, row)) => letr v := typed_cell c a idx row in Rd (idx, row, v)
  end.
(** component_group.rs:98-102, :167-173 and :104-108, :175-181. *)
Definition pointers_as_ref_tuple (be : bool) (G : group) (ps : list cellptr) (a : arch) : rd (list value) :=
  rmap (fun '(i, c) => letr x := deref c a ps (group_slot be G i) in Rd x.2) (enum G).
Definition pointers_as_mut_ref_tuple (be : bool) (G : group) (ps : list cellptr) (a : arch) : rd (list (nat * nat)) :=
  rmap (fun '(i, c) => letr x := deref c a ps (group_slot be G i) in Rd x.1) (enum G).

(** data_access.rs:44-51 *)
Definition get_fuzzy_components (c : cfg) (G : group) (row : nat) (a : arch) : rd (list value) :=
  let g := group_desc (big c) G in
  letr _ := rdebug_assert (dbg c) (gd_is_valid g) in
  pointers_as_ref_tuple (big c) G (get_fuzzy_pointers g row a) a.
(** data_access.rs:57-64 *)
Definition get_fuzzy_components_mut (c : cfg) (G : group) (row : nat) (a : arch) : rd (list (nat * nat)) :=
  let g := group_desc (big c) G in
  letr _ := rdebug_assert (dbg c) (gd_is_valid g) in
  pointers_as_mut_ref_tuple (big c) G (get_fuzzy_pointers g row a) a.

(** *** Slices *)
(** [slice::from_raw_parts(ptr as *const C, len)]: the pointer must be non-null
    even for an empty slice; every element must be a valid [C]. *)
Definition slice_cells (c : ctype) (a : arch) (ps : list cellptr) (slot len : nat) : rd (list (nat * nat * value)) :=
  match ps !! slot with
  | None => RdPanic
  | Some None => RdUB
  | Some (Some (idx, row)) =>
      match a_ptrs a !! idx with
      | Some (Some _) => rmap (fun r => letr v := typed_cell c a idx r in Rd (idx, r, v)) (seq row len)
      | _ => RdUB
      end
  end.
(** component_group.rs:110-115, :183-190 (shared) and :117-122, :192-199 (mutable;
    yields the cells the slice elements occupy). *)
Definition slice_unchecked (be : bool) (G : group) (ps : list cellptr) (len : nat) (a : arch) : rd (list (list value)) :=
  rmap (fun '(i, c) => letr l := slice_cells c a ps (group_slot be G i) len in Rd (map snd l)) (enum G).
Definition slice_unchecked_mut (be : bool) (G : group) (ps : list cellptr) (len : nat) (a : arch) : rd (list (list (nat * nat))) :=
  rmap (fun '(i, c) => letr l := slice_cells c a ps (group_slot be G i) len in Rd (map fst l)) (enum G).

(** The archetype's own pointer array, used as the sorted pointers. *)
Definition own_pointers (a : arch) : list cellptr :=
  map (fun '(i, p) => match p with None => None | Some _ => Some (i, 0) end) (enum (a_ptrs a)).

(** data_access.rs:104-113 *)
Definition get_slices_exact (c : cfg) (G : group) (a : arch) : rd (list (list value)) :=
  let g := group_desc (big c) G in
  letr _ := rdebug_assert (dbg c) (ad_id (gd_arch g) =? ad_id (a_desc a))%N in
  slice_unchecked (big c) G (own_pointers a) (a_len a) a.
(** data_access.rs:88-97 *)
Definition get_slices_exact_mut (c : cfg) (G : group) (a : arch) : rd (list (list (nat * nat))) :=
  let g := group_desc (big c) G in
  letr _ := rdebug_assert (dbg c) (ad_id (gd_arch g) =? ad_id (a_desc a))%N in
  slice_unchecked_mut (big c) G (own_pointers a) (a_len a) a.
(** data_access.rs:120-126 *)
Definition get_fuzzy_slices (c : cfg) (G : group) (a : arch) : rd (list (list value)) :=
  let g := group_desc (big c) G in
  letr _ := rdebug_assert (dbg c) (gd_is_valid g) in
  slice_unchecked (big c) G (get_fuzzy_pointers g 0 a) (a_len a) a.
(** data_access.rs:133-139 *)
Definition get_fuzzy_slices_mut (c : cfg) (G : group) (a : arch) : rd (list (list (nat * nat))) :=
  let g := group_desc (big c) G in
  letr _ := rdebug_assert (dbg c) (gd_is_valid g) in
  slice_unchecked_mut (big c) G (get_fuzzy_pointers g 0 a) (a_len a) a.

(** *** Entity associations *)
(** data_access.rs:193-200: the raw cells of the slice. *)
Definition entity_cells (a : arch) : rd (list (option N)) :=
  match a_assoc a with
  | None => RdUB
  | Some b => if a_count a <=? length (bl_cells b) then Rd (take (a_count a) (bl_cells b)) else RdUB
  end.
Definition read_entity_cell (c : option N) : rd N :=
  match c with Some h => Rd h | None => RdUB end.
(** [entities()] handed out as a slice: every element is read. *)
Definition entities (a : arch) : rd (list N) :=
  letr cells := entity_cells a in rmap read_entity_cell cells.
(** [entities()[i]]: bounds-checked. *)
Definition entity_at (a : arch) (i : nat) : rd N :=
  letr cells := entity_cells a in
  match cells !! i with None => RdPanic | Some c => read_entity_cell c end.
(** [*entities().get_unchecked(i)] *)
Definition entity_at_unchecked (a : arch) (i : nat) : rd N :=
  letr cells := entity_cells a in
  match cells !! i with None => RdUB | Some c => read_entity_cell c end.
(** Overwrite one raw association cell of the block. *)
Definition set_assoc_cell (a : arch) (i : nat) (c : option N) : arch :=
  match a_assoc a with
  | None => a
  | Some b => set_assoc a (Some (Block (bl_size b) (bl_align b) (<[i := c]> (bl_cells b))))
  end.
(** [entities_mut()[i] = h]: bounds-checked against the length. *)
Definition write_entity (i : nat) (h : N) : AM unit := fun s =>
  match entity_cells s.1 with
  | Rd cells => if i <? length cells then Ret tt (set_assoc_cell s.1 i (Some h), s.2) else Panic s
  | RdPanic => Panic s
  | RdUB => UB
  end.

(** data_access.rs:147-156 *)
Definition get_entity_fuzzy_slices (c : cfg) (G : group) (a : arch) : rd (list N * list (list value)) :=
  let g := group_desc (big c) G in
  letr _ := rdebug_assert (dbg c) (gd_is_valid g) in
  letr es := entities a in
  letr cols := slice_unchecked (big c) G (get_fuzzy_pointers g 0 a) (a_len a) a in
  Rd (es, cols).
(** data_access.rs:164-173 *)
Definition get_entity_fuzzy_slices_mut (c : cfg) (G : group) (a : arch) : rd (list N * list (list (nat * nat))) :=
  let g := group_desc (big c) G in
  letr _ := rdebug_assert (dbg c) (gd_is_valid g) in
  letr es := entities a in
  letr cols := slice_unchecked_mut (big c) G (get_fuzzy_pointers g 0 a) (a_len a) a in
  Rd (es, cols).

(** *** Memory management *)
(** data_access.rs:188-190 *)
Definition is_full (a : arch) : bool := a_count a =? a_cap a.

(** data_access.rs:461-484; a null column pointer returns early, leaving the
    capacity as it is. *)
Fixpoint dealloc_columns (ds : list (nat * cdesc)) : AM bool :=
  match ds with
  | [] => ret true
  | (i, d) :: ds' =>
      let! a := am_get in
      match a_ptrs a !! i with
      | None => mpanic
      | Some None => ret false
      | Some p =>
          am_env (mem_dealloc p (cd_size d * N.of_nat (a_cap a))%N (cd_align d)) ;;!
          am_upd (fun a => set_ptrs a (<[i := None]> (a_ptrs a))) ;;!
          dealloc_columns ds'
      end
  end.
Definition a_dealloc : AM unit :=
  let! a := am_get in
  let! all := dealloc_columns (enum (a_comps a)) in
  if all then
    let! a := am_get in
    am_env (mem_dealloc (a_assoc a) (ENTITY_SIZE * N.of_nat (a_cap a))%N ENTITY_ALIGN) ;;!
    am_upd (fun a => set_cap (set_assoc a None) 0)
  else ret tt.

(** data_access.rs:420-456 *)
Definition realloc_column (old_cap new_cap : nat) (x : nat * cdesc) : AM unit :=
  let (i, d) := x in
  let! a := am_get in
  match a_ptrs a !! i with
  | None => mpanic
  | Some p =>
      let! p' := am_env (mem_realloc p (cd_size d * N.of_nat old_cap)%N (cd_align d)
                                     (cd_size d * N.of_nat new_cap)%N new_cap) in
      am_upd (fun a => set_ptrs a (<[i := p']> (a_ptrs a))) ;;!
      massert (match p' with Some _ => true | None => false end)
  end.
Definition resize_capacity (change : Z) : AM unit :=
  let! a := am_get in
  let old_cap := a_cap a in
  let new_cap := (Z.of_nat old_cap + change)%Z in
  if (new_cap <=? 0)%Z || (Z.of_N MAX_ENTITIES_PER_ARCHETYPE <=? new_cap)%Z then a_dealloc
  else
    let new_cap := Z.to_nat new_cap in
    let! p := am_env (mem_realloc (a_assoc a) (ENTITY_SIZE * N.of_nat old_cap)%N ENTITY_ALIGN
                                  (ENTITY_SIZE * N.of_nat new_cap)%N new_cap) in
    am_upd (fun a => set_assoc a p) ;;!
    massert (match p with Some _ => true | None => false end) ;;!
    mfor (enum (a_comps a)) (realloc_column old_cap new_cap) ;;!
    am_upd (fun a => set_cap a new_cap).

(** data_access.rs:503-512 *)
Definition resize_if_necessary : AM unit :=
  let! a := am_get in
  if is_full a then
    resize_capacity (Z.of_nat (if a_cap a =? 0 then DEFAULT_ARCHETYPE_ALLOCATION_SIZE else a_cap a))
  else ret tt.

(** *** Adding rows *)
(** component_group.rs:90-92, :155-159: the values of the tuple in sorted
    order; slots no tuple element maps to stay null. *)
Definition as_sorted_values (be : bool) (G : group) (vs : list value) : list (option value) :=
  fold_left (fun ps '(i, v) => <[group_slot be G i := Some v]> ps) (enum vs)
    (replicate MAX_COMPONENTS_PER_ENTITY None).

(** data_access.rs:286-301: copy the bytes of each sorted value into its column.
    The copy uses the group's component size, the column was laid out with the
    archetype's. *)
Definition copy_in (vals : list (option value)) (row : nat) (x : nat * cdesc) : AM unit :=
  let (i, d) := x in
  let! a := am_get in
  match vals !! i, a_comps a !! i with
  | Some (Some v), Some d' => if (cd_size d =? cd_size d')%N then write_cell i row (Some v) else mub
  | _, _ => mub
  end.
(** data_access.rs:272-304 *)
Definition write_entity_unchecked (c : cfg) (G : group) (row : nat) (h : N) (vs : list value) : AM unit :=
  let g := group_desc (big c) G in
  let! a := am_get in
  mdebug_assert (dbg c) (row <? a_cap a) ;;!
  mdebug_assert (dbg c) (gd_is_valid g) ;;!
  mdebug_assert (dbg c) (ad_id (gd_arch g) =? ad_id (a_desc a))%N ;;!
  mfor (enum (ad_components (gd_arch g))) (copy_in (as_sorted_values (big c) G vs) row) ;;!
  write_entity row h.

(** data_access.rs:209-224 *)
Definition push_entity_unchecked (c : cfg) (G : group) (h : N) (vs : list value) : AM nat :=
  let g := group_desc (big c) G in
  let! a := am_get in
  mdebug_assert (dbg c) (gd_is_valid g) ;;!
  mdebug_assert (dbg c) (ad_id (gd_arch g) =? ad_id (a_desc a))%N ;;!
  resize_if_necessary ;;!
  let! a := am_get in
  let row := a_len a in
  am_upd (fun a => set_count a (S (a_count a))) ;;!
  write_entity_unchecked c G row h vs ;;!
  ret row.

(** data_access.rs:229-234 *)
Definition push_uninitialized_entity : AM nat :=
  resize_if_necessary ;;!
  let! a := am_get in
  let row := a_len a in
  am_upd (fun a => set_count a (S (a_count a))) ;;!
  ret row.

(** data_access.rs:238-240: at length 0 the subtraction overflows (a debug
    build panics; a release build would wrap to u32::MAX, reported as UB). *)
Definition decrement_len_unchecked (c : cfg) : AM unit :=
  let! a := am_get in
  match a_count a with
  | O => if dbg c then mpanic else mub
  | S n => am_upd (fun a => set_count a n)
  end.

(** data_access.rs:245-261 *)
Definition write_single_component_unchecked (c : ctype) (row : nat) (v : value) : AM unit :=
  let! a := am_get in
  match binary_search (map cd_id (a_comps a)) (ct_id c) with
  | inl idx =>
      match a_comps a !! idx with
      | Some d => if (ct_size c =? cd_size d)%N then write_cell idx row (Some v) else mub
      | None => mub
      end
  | inr _ => mpanic
  end.

(** *** Removing rows *)
(** data_access.rs:373-380.  [swap_nonoverlapping] is UB when the two rows are
    the same (non-empty) memory or not inside the block. *)
Definition swap_cells (first second : nat) (x : nat * cdesc) : AM unit :=
  let (i, _) := x in
  if first =? second then mub
  else
    let! c1 := am_rd (fun a => raw_cell a i first) in
    let! c2 := am_rd (fun a => raw_cell a i second) in
    write_cell i first c2 ;;! write_cell i second c1.
(** [entities_mut().swap(first, second)]: bounds-checked. *)
Definition swap_assoc (first second : nat) : AM unit := fun s =>
  match entity_cells s.1 with
  | Rd cells =>
      match cells !! first, cells !! second with
      | Some c1, Some c2 => Ret tt (set_assoc_cell (set_assoc_cell s.1 first c2) second c1, s.2)
      | _, _ => Panic s
      end
  | RdPanic => Panic s
  | RdUB => UB
  end.
Definition swap_entities (first second : nat) : AM unit :=
  let! a := am_get in
  mfor (enum (a_comps a)) (swap_cells first second) ;;!
  swap_assoc first second.

(** component_descriptor.rs:137-140, [drop_handler_wrapper::<C>(ptr, n)] on rows
    [start .. start+n) of column [i]: every destructor that runs is recorded; a
    panicking destructor stops the loop. *)
Definition drop_cell (c : ctype) (i row : nat) : AM unit :=
  let! v := am_rd (fun a => typed_cell c a i row) in
  am_env (emit (EvDrop v)) ;;!
  if v_bomb v then mpanic else ret tt.
Definition run_drop_handler (d : cdesc) (i start n : nat) : AM unit :=
  match cd_drop d with
  | None => ret tt
  | Some c =>
      let! a := am_get in
      match a_ptrs a !! i with
      | None => mpanic
      | Some None => mub
      | Some (Some _) => mfor (seq start n) (drop_cell c i)
      end
  end.
(** data_access.rs:385-392 *)
Definition drop_entity (row : nat) : AM unit :=
  let! a := am_get in
  mfor (enum (a_comps a)) (fun '(i, d) => run_drop_handler d i row 1).
(** data_access.rs:396-400 *)
Definition drop_entities : AM unit :=
  let! a := am_get in
  mfor (enum (a_comps a)) (fun '(i, d) => run_drop_handler d i 0 (a_len a)).

(** [self.len() - 1]: overflows on an empty archetype (debug: panic; release:
    wraps to u32::MAX, whose use as a row index is reported as UB). *)
Definition last_row (c : cfg) (a : arch) : rd nat :=
  match a_count a with
  | O => if dbg c then RdPanic else RdUB
  | S n => Rd n
  end.

(** data_access.rs:313-326 *)
Definition swap_drop_unchecked (c : cfg) (row : nat) : AM bool :=
  let! a := am_get in
  mdebug_assert (dbg c) (row <? a_len a) ;;!
  let! last := lift_rd (last_row c a) in
  if row =? last then
    drop_entity row ;;!
    decrement_len_unchecked c ;;!
    ret false
  else
    swap_entities row last ;;!
    drop_entity last ;;!
    decrement_len_unchecked c ;;!
    ret true.

(** data_access.rs:334-342 *)
Definition swap_to_last_unchecked (c : cfg) (row : nat) : AM bool :=
  let! a := am_get in
  mdebug_assert (dbg c) (row <? a_len a) ;;!
  let! last := lift_rd (last_row c a) in
  if row =? last then ret false
  else swap_entities row last ;;! ret true.

(** data_access.rs:487-500 *)
Definition offset_sorted_pointers (row : nat) (a : arch) : list cellptr :=
  let ps := map (fun '(i, _) => match a_ptrs a !! i with Some (Some _) => Some (i, row) | _ => None end)
                (enum (a_comps a)) in
  ps ++ replicate (MAX_COMPONENTS_PER_ENTITY - length ps) None.
(** component_group.rs:94-96, :161-165 *)
Definition read_from_sorted_pointers (be : bool) (G : group) (ps : list cellptr) (a : arch) : rd (list value) :=
  rmap (fun '(i, c) => letr x := deref c a ps (group_slot be G i) in Rd x.2) (enum G).
(** data_access.rs:406-409 *)
Definition read_components_exact_unchecked (be : bool) (G : group) (row : nat) (a : arch) : rd (list value) :=
  read_from_sorted_pointers be G (offset_sorted_pointers row a) a.

(** data_access.rs:353-366 *)
Definition swap_remove_unchecked (c : cfg) (G : group) (row : nat) : AM (list value * bool) :=
  let! a := am_get in
  mdebug_assert (dbg c) (row <? a_len a) ;;!
  let! last := lift_rd (last_row c a) in
  if row =? last then
    let! data := am_rd (read_components_exact_unchecked (big c) G row) in
    decrement_len_unchecked c ;;!
    ret (data, false)
  else
    swap_entities row last ;;!
    let! data := am_rd (read_components_exact_unchecked (big c) G last) in
    decrement_len_unchecked c ;;!
    ret (data, true).

(** data_access.rs:515-537; runs on the destination, [src] is the source. *)
Definition copy_common_components (src : arch) (src_row dst_row : nat) : AM unit :=
  let! dst := am_get in
  mfor (enum (a_comps src)) (fun '(si, sd) =>
    mfor (enum (a_comps dst)) (fun '(di, dd) =>
      if negb (cd_id sd =? cd_id dd)%N then ret tt
      else if negb (cd_size sd =? cd_size dd)%N then mub
      else
        let! cell := lift_rd (raw_cell src si src_row) in
        write_cell di dst_row cell)).

(** archetype/mod.rs:78-89 *)
Definition a_drop : AM unit :=
  let! a := am_get in
  if a_cap a =? 0 then ret tt
  else drop_entities ;;! a_dealloc.
