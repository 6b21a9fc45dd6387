(** * The archetype storage again, down to bytes and pointers
    (src/archetype/mod.rs and data_access.rs)

    ArchModel.v stores whole elements in blocks that belong to archetype fields.
    Here a pointer is a block and a byte offset, blocks hold bytes, and one heap
    is shared by all archetypes.  Offsets, strides, copy lengths, alignment,
    overlap, bounds and liveness of blocks are what the code computes. *)
From Verif Require Export RegModel.
Local Open Scope nat_scope.

(** ** Memory *)
(** A byte: uninitialised, byte [i] of a component value, or byte [i] of an
    entity handle.  The representation of a value is [size_of] such bytes. *)
Inductive mbyte := Poison | VByte (v : value) (i : nat) | HByte (h : N) (i : nat).
Global Instance mbyte_eq_dec : EqDecision mbyte.
Proof. solve_decision. Defined.
Definition val_bytes (n : nat) (v : value) : list mbyte := map (VByte v) (seq 0 n).
Definition handle_bytes (h : N) : list mbyte := map (HByte h) (seq 0 4).
(** The value all the bytes together represent, if any. *)
Definition bytes_val (bs : list mbyte) : option value :=
  match bs with
  | VByte v _ :: _ => if decide (bs = val_bytes (length bs) v) then Some v else None
  | _ => None
  end.
Definition bytes_handle (bs : list mbyte) : option N :=
  match bs with
  | HByte h _ :: _ => if decide (bs = handle_bytes h) then Some h else None
  | _ => None
  end.

(** An allocated block: its address, the alignment it was requested with, its
    bytes (their number is the requested size). *)
Record hblk := HBlk { hb_base : N; hb_align : N; hb_bytes : list mbyte }.
(** The heap: live blocks, a counter that names blocks (no name is reused, so a
    stale pointer never becomes valid again), the places the allocator chooses
    (any multiple of the alignment but zero), and the trace and oracle of
    ArchModel.v. *)
Record mem := Mem { m_blocks : gmap N hblk; m_next : N; m_place : N -> N; m_env : env }.
(** A raw pointer: null, or a block and a byte offset into it. *)
Notation bptr := (option (N * nat)%type).

Definition mm_env {A} (f : M env A) : M mem A := fun m =>
  match f (m_env m) with
  | Ret x e => Ret x (Mem (m_blocks m) (m_next m) (m_place m) e)
  | Panic e => Panic (Mem (m_blocks m) (m_next m) (m_place m) e)
  | UB => UB
  end.
Definition mm_add (align : N) (bs : list mbyte) : M mem bptr := fun m =>
  Ret (Some (m_next m, 0))
      (Mem (<[m_next m := HBlk (align * (1 + m_place m (m_next m))) align bs]> (m_blocks m))
           (m_next m + 1) (m_place m) (m_env m)).
Definition mm_del (id : N) : M mem unit := fun m =>
  Ret tt (Mem (delete id (m_blocks m)) (m_next m) (m_place m) (m_env m)).

(** [alloc(Layout { size, align })] *)
Definition mm_alloc (size align : N) : M mem bptr :=
  if (size =? 0)%N || negb (is_pow2 align) then mub
  else
    let! ok := mm_env ask_allocator in
    if ok then mm_env (emit (EvAlloc size align)) ;;! mm_add align (replicate (N.to_nat size) Poison)
    else ret None.
(** The pointer is the start of a live block that was allocated with the layout. *)
Definition has_layout (m : mem) (p : bptr) (size align : N) : option (N * list mbyte) :=
  match p with
  | Some (id, 0) =>
      match m_blocks m !! id with
      | Some b => if (N.of_nat (length (hb_bytes b)) =? size)%N && (hb_align b =? align)%N then Some (id, hb_bytes b) else None
      | None => None
      end
  | _ => None
  end.
(** [realloc(ptr, layout, new_size)]: the block moves; what fits is copied. *)
Definition mm_realloc (p : bptr) (old_size align new_size : N) : M mem bptr :=
  let! m := get_st in
  match has_layout m p old_size align with
  | Some (id, bs) =>
      if (new_size =? 0)%N then mub
      else
        let! ok := mm_env ask_allocator in
        if ok then
          mm_env (emit (EvRealloc old_size align new_size)) ;;!
          mm_del id ;;!
          mm_add align (take (N.to_nat new_size) bs ++ replicate (N.to_nat new_size - length bs) Poison)
        else ret None
  | None => mub
  end.
(** [dealloc(ptr, layout)] *)
Definition mm_dealloc (p : bptr) (size align : N) : M mem unit :=
  let! m := get_st in
  match has_layout m p size align with
  | Some (id, _) => mm_env (emit (EvDealloc size align)) ;;! mm_del id
  | None => mub
  end.

(** The [n] bytes at [p]; null, a dead block or a byte outside is UB. *)
Definition load (m : mem) (p : bptr) (n : nat) : rd (list mbyte) :=
  match p with
  | None => RdUB
  | Some (id, off) =>
      match m_blocks m !! id with
      | None => RdUB
      | Some b => if off + n <=? length (hb_bytes b) then Rd (take n (drop off (hb_bytes b))) else RdUB
      end
  end.
Definition store (p : bptr) (bs : list mbyte) : M mem unit := fun m =>
  match p with
  | None => UB
  | Some (id, off) =>
      match m_blocks m !! id with
      | None => UB
      | Some b =>
          if off + length bs <=? length (hb_bytes b) then
            Ret tt (Mem (<[id := HBlk (hb_base b) (hb_align b)
                                   (take off (hb_bytes b) ++ bs ++ drop (off + length bs) (hb_bytes b))]> (m_blocks m))
                        (m_next m) (m_place m) (m_env m))
          else UB
      end
  end.
(** [ptr.offset(k)], [k] in bytes: must stay inside the block (or be the null
    pointer moved by nothing). *)
Definition offset (m : mem) (p : bptr) (k : nat) : rd bptr :=
  match p with
  | None => if k =? 0 then Rd None else RdUB
  | Some (id, off) =>
      match m_blocks m !! id with
      | None => RdUB
      | Some b => if off + k <=? length (hb_bytes b) then Rd (Some (id, off + k)) else RdUB
      end
  end.
(** The address is a multiple of [align]. *)
Definition aligned (m : mem) (p : bptr) (align : N) : bool :=
  match p with
  | None => false
  | Some (id, off) =>
      match m_blocks m !! id with
      | None => false
      | Some b => ((hb_base b + N.of_nat off) mod align =? 0)%N
      end
  end.
(** [n] bytes at [p] and at [q] do not overlap. *)
Definition disjoint_ranges (p q : bptr) (n : nat) : bool :=
  match p, q with
  | Some (i, x), Some (j, y) => negb (i =? j)%N || (x + n <=? y) || (y + n <=? x)
  | _, _ => false
  end.
(** [copy_nonoverlapping::<u8>(src, dst, n)] *)
Definition copy_bytes (src dst : bptr) (n : nat) : M mem unit :=
  let! m := get_st in
  if negb (disjoint_ranges src dst n) then mub
  else let! bs := lift_rd (load m src n) in store dst bs.
(** [swap_nonoverlapping::<u8>(p, q, n)] *)
Definition swap_bytes (p q : bptr) (n : nat) : M mem unit :=
  let! m := get_st in
  if negb (disjoint_ranges p q n) then mub
  else
    let! x := lift_rd (load m p n) in
    let! y := lift_rd (load m q n) in
    store p y ;;! store q x.

(** Sizes as byte counts. *)
Definition size_of (C : ctype) : nat := N.to_nat (ct_size C).
Definition dsize (d : cdesc) : nat := N.to_nat (cd_size d).
(** Reading (or referencing) a [C] at [p]: aligned, [size_of::<C>()] bytes that
    represent a [C]. *)
Definition read_as (m : mem) (C : ctype) (p : bptr) : rd value :=
  if negb (aligned m p (ct_align C)) then RdUB
  else
    letr bs := load m p (size_of C) in
    match bytes_val bs with
    | Some v => if (v_ty v =? ct_ty C)%N then Rd v else RdUB
    | None => RdUB
    end.
(** [ptr::write::<C>(p, v)] *)
Definition write_as (C : ctype) (p : bptr) (v : value) : M mem unit :=
  let! m := get_st in
  if negb (aligned m p (ct_align C)) then mub else store p (val_bytes (size_of C) v).
(** Element [r] of a slice of [C]s that starts at [p]. *)
Definition elem (p : bptr) (C : ctype) (r : nat) : bptr :=
  match p with None => None | Some (id, off) => Some (id, off + r * size_of C) end.
(** [slice::from_raw_parts(p as *const T, len)] with elements of [n] bytes:
    non-null, aligned, inside one block. *)
Definition slice_ok (m : mem) (p : bptr) (align : N) (n len : nat) : bool :=
  aligned m p align && match load m p (len * n) with Rd _ => true | _ => false end.

(** ** Archetype (archetype/mod.rs:12-18) *)
Record barch := BArch { b_desc : adesc; b_ptrs : list bptr; b_assoc : bptr; b_count : nat; b_cap : nat }.
Definition BAM (A : Type) := M (barch * mem) A.
Definition bset_ptrs (a : barch) p := BArch (b_desc a) p (b_assoc a) (b_count a) (b_cap a).
Definition bset_assoc (a : barch) p := BArch (b_desc a) (b_ptrs a) p (b_count a) (b_cap a).
Definition bset_count (a : barch) n := BArch (b_desc a) (b_ptrs a) (b_assoc a) n (b_cap a).
Definition bset_cap (a : barch) n := BArch (b_desc a) (b_ptrs a) (b_assoc a) (b_count a) n.
Definition bm_get : BAM barch := fun s => Ret s.1 s.
Definition bm_upd (f : barch -> barch) : BAM unit := fun s => Ret tt (f s.1, s.2).
Definition bm_mem {A} (f : M mem A) : BAM A := fun s =>
  match f s.2 with
  | Ret x e => Ret x (s.1, e)
  | Panic e => Panic (s.1, e)
  | UB => UB
  end.
Definition bm_rd {A} (f : barch -> mem -> rd A) : BAM A := fun s => lift_rd (f s.1 s.2) s.
Definition b_comps (a : barch) : list cdesc := ad_components (b_desc a).

(** [self.pointers[idx].offset(k)] for byte offset [k]; an index past the
    14-element array panics. *)
Definition column_at (a : barch) (m : mem) (idx k : nat) : rd bptr :=
  match b_ptrs a !! idx with None => RdPanic | Some p => offset m p k end.

(** *** Construction (archetype/mod.rs:40-71) *)
Fixpoint b_alloc_columns (ds : list cdesc) (cap : nat) : M mem (list bptr) :=
  match ds with
  | [] => ret []
  | d :: ds' =>
      let! p := mm_alloc (cd_size d * N.of_nat cap)%N (cd_align d) in
      match p with
      | None => mpanic
      | Some _ => let! ps := b_alloc_columns ds' cap in ret (p :: ps)
      end
  end.
Definition b_with_capacity (d : adesc) (cap : nat) : M mem barch :=
  massert (ad_is_valid d) ;;!
  if (0 <? cap) && (N.of_nat cap <=? MAX_ENTITIES_PER_ARCHETYPE)%N then
    let! assoc := mm_alloc (ENTITY_SIZE * N.of_nat cap)%N ENTITY_ALIGN in
    match assoc with
    | None => mpanic
    | Some _ =>
        let! ps := b_alloc_columns (ad_components d) cap in
        ret (BArch d (ps ++ replicate (MAX_COMPONENTS_PER_ENTITY - length ps) None) assoc 0 cap)
    end
  else ret (BArch d (replicate MAX_COMPONENTS_PER_ENTITY None) None 0 0).

(** *** Single-component access: [(self.pointers[idx] as *mut C).offset(index)],
    so the stride is [size_of::<C>()]. *)
Definition b_component_ptr (C : ctype) (row : nat) (a : barch) (m : mem) : rd bptr :=
  match binary_search (map cd_id (b_comps a)) (ct_id C) with
  | inl idx => column_at a m idx (size_of C * row)
  | inr _ => RdPanic
  end.
(** data_access.rs:14-23 and :70-81 *)
Definition b_get_component (C : ctype) (row : nat) (a : barch) (m : mem) : rd value :=
  letr p := b_component_ptr C row a m in read_as m C p.
(** data_access.rs:29-38: the [&mut C], as the bytes it covers. *)
Definition bloc := (bptr * nat)%type.
Definition b_get_component_mut (C : ctype) (row : nat) (a : barch) (m : mem) : rd bloc :=
  letr p := b_component_ptr C row a m in
  letr _ := read_as m C p in Rd (p, size_of C).

(** *** Tuple access *)
(** data_access.rs:544-568: the offset is [descriptor.size()] of the tuple's
    descriptor times [offset]; an id that is not found leaves null. *)
Definition b_fuzzy_pointer (a : barch) (m : mem) (row : nat) (index : nat) (d : cdesc) : rd bptr :=
  match find_from (drop index (b_comps a)) index (cd_id d) with
  | None => Rd None
  | Some k => column_at a m k (dsize d * row)
  end.
Definition b_get_fuzzy_pointers (g : gdesc) (row : nat) (a : barch) (m : mem) : rd (list bptr) :=
  letr ps := rmap (fun '(i, d) => b_fuzzy_pointer a m row i d) (enum (ad_components (gd_arch g))) in
  Rd (ps ++ replicate (MAX_COMPONENTS_PER_ENTITY - length ps) None).

Definition b_deref (C : ctype) (m : mem) (ps : list bptr) (slot : nat) : rd (bloc * value) :=
  match ps !! slot with
  | None => RdPanic
  | Some p => letr v := read_as m C p in Rd (p, size_of C, v)
  end.
(** component_group.rs:94-108 and :161-181 *)
Definition b_ref_tuple (be : bool) (G : group) (ps : list bptr) (m : mem) : rd (list value) :=
  rmap (fun '(i, C) => letr x := b_deref C m ps (group_slot be G i) in Rd x.2) (enum G).
Definition b_mut_ref_tuple (be : bool) (G : group) (ps : list bptr) (m : mem) : rd (list bloc) :=
  rmap (fun '(i, C) => letr x := b_deref C m ps (group_slot be G i) in Rd x.1) (enum G).
(** data_access.rs:44-51 *)
Definition b_get_fuzzy_components (c : cfg) (G : group) (row : nat) (a : barch) (m : mem) : rd (list value) :=
  let g := group_desc (big c) G in
  letr _ := rdebug_assert (dbg c) (gd_is_valid g) in
  letr ps := b_get_fuzzy_pointers g row a m in
  b_ref_tuple (big c) G ps m.
(** data_access.rs:57-64 *)
Definition b_get_fuzzy_components_mut (c : cfg) (G : group) (row : nat) (a : barch) (m : mem) : rd (list bloc) :=
  let g := group_desc (big c) G in
  letr _ := rdebug_assert (dbg c) (gd_is_valid g) in
  letr ps := b_get_fuzzy_pointers g row a m in
  b_mut_ref_tuple (big c) G ps m.

(** *** Slices *)
Definition b_slice (C : ctype) (m : mem) (ps : list bptr) (slot len : nat) : rd (list (bloc * value)) :=
  match ps !! slot with
  | None => RdPanic
  | Some p =>
      if negb (slice_ok m p (ct_align C) (size_of C) len) then RdUB
      else rmap (fun r => letr v := read_as m C (elem p C r) in Rd (elem p C r, size_of C, v)) (seq 0 len)
  end.
(** component_group.rs:110-122, :183-199 *)
Definition b_slices (be : bool) (G : group) (ps : list bptr) (len : nat) (m : mem) : rd (list (list value)) :=
  rmap (fun '(i, C) => letr l := b_slice C m ps (group_slot be G i) len in Rd (map snd l)) (enum G).
Definition b_slices_mut (be : bool) (G : group) (ps : list bptr) (len : nat) (m : mem) : rd (list (list bloc)) :=
  rmap (fun '(i, C) => letr l := b_slice C m ps (group_slot be G i) len in Rd (map fst l)) (enum G).
(** data_access.rs:104-113 *)
Definition b_get_slices_exact (c : cfg) (G : group) (a : barch) (m : mem) : rd (list (list value)) :=
  let g := group_desc (big c) G in
  letr _ := rdebug_assert (dbg c) (ad_id (gd_arch g) =? ad_id (b_desc a))%N in
  b_slices (big c) G (b_ptrs a) (b_count a) m.
(** data_access.rs:88-97 *)
Definition b_get_slices_exact_mut (c : cfg) (G : group) (a : barch) (m : mem) : rd (list (list bloc)) :=
  let g := group_desc (big c) G in
  letr _ := rdebug_assert (dbg c) (ad_id (gd_arch g) =? ad_id (b_desc a))%N in
  b_slices_mut (big c) G (b_ptrs a) (b_count a) m.
(** data_access.rs:120-126 *)
Definition b_get_fuzzy_slices (c : cfg) (G : group) (a : barch) (m : mem) : rd (list (list value)) :=
  let g := group_desc (big c) G in
  letr _ := rdebug_assert (dbg c) (gd_is_valid g) in
  letr ps := b_get_fuzzy_pointers g 0 a m in
  b_slices (big c) G ps (b_count a) m.
(** data_access.rs:133-139 *)
Definition b_get_fuzzy_slices_mut (c : cfg) (G : group) (a : barch) (m : mem) : rd (list (list bloc)) :=
  let g := group_desc (big c) G in
  letr _ := rdebug_assert (dbg c) (gd_is_valid g) in
  letr ps := b_get_fuzzy_pointers g 0 a m in
  b_slices_mut (big c) G ps (b_count a) m.

(** *** Entity associations (data_access.rs:193-200) *)
Definition hsize : nat := 4.
Definition handle_at (p : bptr) (i : nat) : bptr :=
  match p with None => None | Some (id, off) => Some (id, off + i * hsize) end.
Definition entities_ok (a : barch) (m : mem) : bool := slice_ok m (b_assoc a) ENTITY_ALIGN hsize (b_count a).
Definition read_handle (m : mem) (p : bptr) : rd N :=
  if negb (aligned m p ENTITY_ALIGN) then RdUB
  else
    letr bs := load m p hsize in
    match bytes_handle bs with Some h => Rd h | None => RdUB end.
Definition b_entities (a : barch) (m : mem) : rd (list N) :=
  if negb (entities_ok a m) then RdUB
  else rmap (fun i => read_handle m (handle_at (b_assoc a) i)) (seq 0 (b_count a)).
(** [entities()[i]] *)
Definition b_entity_at (a : barch) (m : mem) (i : nat) : rd N :=
  if negb (entities_ok a m) then RdUB
  else if i <? b_count a then read_handle m (handle_at (b_assoc a) i) else RdPanic.
(** [*entities().get_unchecked(i)] *)
Definition b_entity_at_unchecked (a : barch) (m : mem) (i : nat) : rd N :=
  if negb (entities_ok a m) then RdUB
  else if i <? b_count a then read_handle m (handle_at (b_assoc a) i) else RdUB.
(** [entities_mut()[i] = h] *)
Definition b_write_entity (i : nat) (h : N) : BAM unit := fun s =>
  if negb (entities_ok s.1 s.2) then UB
  else if i <? b_count s.1 then bm_mem (store (handle_at (b_assoc s.1) i) (handle_bytes h)) s
  else Panic s.
(** [entities_mut().swap(first, second)] *)
Definition b_swap_assoc (first second : nat) : BAM unit := fun s =>
  if negb (entities_ok s.1 s.2) then UB
  else if (first <? b_count s.1) && (second <? b_count s.1) then
    bm_mem (
      let! m := get_st in
      let! x := lift_rd (load m (handle_at (b_assoc s.1) first) hsize) in
      let! y := lift_rd (load m (handle_at (b_assoc s.1) second) hsize) in
      store (handle_at (b_assoc s.1) first) y ;;! store (handle_at (b_assoc s.1) second) x) s
  else Panic s.
(** data_access.rs:147-156 *)
Definition b_get_entity_fuzzy_slices (c : cfg) (G : group) (a : barch) (m : mem) : rd (list N * list (list value)) :=
  let g := group_desc (big c) G in
  letr _ := rdebug_assert (dbg c) (gd_is_valid g) in
  letr ps := b_get_fuzzy_pointers g 0 a m in
  letr es := b_entities a m in
  letr cols := b_slices (big c) G ps (b_count a) m in
  Rd (es, cols).
(** data_access.rs:164-173 *)
Definition b_get_entity_fuzzy_slices_mut (c : cfg) (G : group) (a : barch) (m : mem) : rd (list N * list (list bloc)) :=
  let g := group_desc (big c) G in
  letr _ := rdebug_assert (dbg c) (gd_is_valid g) in
  letr ps := b_get_fuzzy_pointers g 0 a m in
  letr es := b_entities a m in
  letr cols := b_slices_mut (big c) G ps (b_count a) m in
  Rd (es, cols).

(** *** Memory management *)
(** data_access.rs:461-484 *)
Fixpoint b_dealloc_columns (ds : list (nat * cdesc)) : BAM bool :=
  match ds with
  | [] => ret true
  | (i, d) :: ds' =>
      let! a := bm_get in
      match b_ptrs a !! i with
      | None => mpanic
      | Some None => ret false
      | Some p =>
          bm_mem (mm_dealloc p (cd_size d * N.of_nat (b_cap a))%N (cd_align d)) ;;!
          bm_upd (fun a => bset_ptrs a (<[i := None]> (b_ptrs a))) ;;!
          b_dealloc_columns ds'
      end
  end.
Definition b_dealloc : BAM unit :=
  let! a := bm_get in
  let! all := b_dealloc_columns (enum (b_comps a)) in
  if all then
    let! a := bm_get in
    bm_mem (mm_dealloc (b_assoc a) (ENTITY_SIZE * N.of_nat (b_cap a))%N ENTITY_ALIGN) ;;!
    bm_upd (fun a => bset_cap (bset_assoc a None) 0)
  else ret tt.
(** data_access.rs:420-456 *)
Definition b_realloc_column (old_cap new_cap : nat) (x : nat * cdesc) : BAM unit :=
  let (i, d) := x in
  let! a := bm_get in
  match b_ptrs a !! i with
  | None => mpanic
  | Some p =>
      let! p' := bm_mem (mm_realloc p (cd_size d * N.of_nat old_cap)%N (cd_align d) (cd_size d * N.of_nat new_cap)%N) in
      bm_upd (fun a => bset_ptrs a (<[i := p']> (b_ptrs a))) ;;!
      massert (match p' with Some _ => true | None => false end)
  end.
Definition b_resize_capacity (change : Z) : BAM unit :=
  let! a := bm_get in
  let old_cap := b_cap a in
  let new_cap := (Z.of_nat old_cap + change)%Z in
  if (new_cap <=? 0)%Z || (Z.of_N MAX_ENTITIES_PER_ARCHETYPE <=? new_cap)%Z then b_dealloc
  else
    let new_cap := Z.to_nat new_cap in
    let! p := bm_mem (mm_realloc (b_assoc a) (ENTITY_SIZE * N.of_nat old_cap)%N ENTITY_ALIGN (ENTITY_SIZE * N.of_nat new_cap)%N) in
    bm_upd (fun a => bset_assoc a p) ;;!
    massert (match p with Some _ => true | None => false end) ;;!
    mfor (enum (b_comps a)) (b_realloc_column old_cap new_cap) ;;!
    bm_upd (fun a => bset_cap a new_cap).
(** data_access.rs:503-512 *)
Definition b_resize_if_necessary : BAM unit :=
  let! a := bm_get in
  if b_count a =? b_cap a then
    b_resize_capacity (Z.of_nat (if b_cap a =? 0 then DEFAULT_ARCHETYPE_ALLOCATION_SIZE else b_cap a))
  else ret tt.

(** *** Adding rows *)
(** component_group.rs:90-92, :155-159: pointers into the tuple on the stack,
    here the bytes they point to (as many as the element's type has). *)
Definition b_sorted_values (be : bool) (G : group) (vs : list value) : list (option (list mbyte)) :=
  fold_left (fun ps '(i, (C, v)) => <[group_slot be G i := Some (val_bytes (size_of C) v)]> ps) (enum (zip G vs))
    (replicate MAX_COMPONENTS_PER_ENTITY None).
(** data_access.rs:286-301: [component.size] bytes are copied, to
    [component.size * index] bytes behind the column's start; [component] is the
    tuple's descriptor. *)
Definition b_copy_in (vals : list (option (list mbyte))) (row : nat) (x : nat * cdesc) : BAM unit :=
  let (i, d) := x in
  match vals !! i with
  | Some (Some bs) =>
      if length bs <? dsize d then mub
      else
        let! a := bm_get in
        match b_ptrs a !! i with
        | None => mub
        | Some p =>
            let! q := bm_rd (fun _ m => offset m p (dsize d * row)) in
            bm_mem (store q (take (dsize d) bs))
        end
  | _ => mub
  end.
(** data_access.rs:272-304 *)
Definition b_write_entity_unchecked (c : cfg) (G : group) (row : nat) (h : N) (vs : list value) : BAM unit :=
  let g := group_desc (big c) G in
  let! a := bm_get in
  mdebug_assert (dbg c) (row <? b_cap a) ;;!
  mdebug_assert (dbg c) (gd_is_valid g) ;;!
  mdebug_assert (dbg c) (ad_id (gd_arch g) =? ad_id (b_desc a))%N ;;!
  mfor (enum (ad_components (gd_arch g))) (b_copy_in (b_sorted_values (big c) G vs) row) ;;!
  b_write_entity row h.
(** data_access.rs:209-224 *)
Definition b_push_entity (c : cfg) (G : group) (h : N) (vs : list value) : BAM nat :=
  let g := group_desc (big c) G in
  let! a := bm_get in
  mdebug_assert (dbg c) (gd_is_valid g) ;;!
  mdebug_assert (dbg c) (ad_id (gd_arch g) =? ad_id (b_desc a))%N ;;!
  b_resize_if_necessary ;;!
  let! a := bm_get in
  let row := b_count a in
  bm_upd (fun a => bset_count a (S (b_count a))) ;;!
  b_write_entity_unchecked c G row h vs ;;!
  ret row.
(** data_access.rs:229-234 *)
Definition b_push_uninitialized : BAM nat :=
  b_resize_if_necessary ;;!
  let! a := bm_get in
  let row := b_count a in
  bm_upd (fun a => bset_count a (S (b_count a))) ;;!
  ret row.
(** data_access.rs:238-240 *)
Definition b_decrement_len (c : cfg) : BAM unit :=
  let! a := bm_get in
  match b_count a with
  | O => if dbg c then mpanic else mub
  | S n => bm_upd (fun a => bset_count a n)
  end.
(** data_access.rs:245-261 *)
Definition b_write_single (C : ctype) (row : nat) (v : value) : BAM unit :=
  let! p := bm_rd (b_component_ptr C row) in
  bm_mem (write_as C p v).

(** *** Removing rows *)
(** data_access.rs:373-380 *)
Definition b_swap_cells (first second : nat) (x : nat * cdesc) : BAM unit :=
  let (i, d) := x in
  let! p := bm_rd (fun a m => column_at a m i (first * dsize d)) in
  let! q := bm_rd (fun a m => column_at a m i (second * dsize d)) in
  bm_mem (swap_bytes p q (dsize d)).
Definition b_swap_entities (first second : nat) : BAM unit :=
  let! a := bm_get in
  mfor (enum (b_comps a)) (b_swap_cells first second) ;;!
  b_swap_assoc first second.
(** component_descriptor.rs:137-140 *)
Definition b_drop_at (C : ctype) (p : bptr) (r : nat) : BAM unit :=
  let! v := bm_rd (fun _ m => read_as m C (elem p C r)) in
  bm_mem (mm_env (emit (EvDrop v))) ;;!
  if v_bomb v then mpanic else ret tt.
Definition b_run_drop_handler (d : cdesc) (p : bptr) (n : nat) : BAM unit :=
  match cd_drop d with
  | None => ret tt
  | Some C =>
      let! ok := bm_rd (fun _ m => Rd (slice_ok m p (ct_align C) (size_of C) n)) in
      if negb ok then mub else mfor (seq 0 n) (b_drop_at C p)
  end.
(** data_access.rs:385-392 *)
Definition b_drop_entity (row : nat) : BAM unit :=
  let! a := bm_get in
  mfor (enum (b_comps a)) (fun '(i, d) =>
    let! p := bm_rd (fun a m => column_at a m i (row * dsize d)) in b_run_drop_handler d p 1).
(** data_access.rs:396-400 *)
Definition b_drop_entities : BAM unit :=
  let! a := bm_get in
  mfor (enum (b_comps a)) (fun '(i, d) =>
    let! p := bm_rd (fun a m => column_at a m i 0) in b_run_drop_handler d p (b_count a)).
Definition b_last_row (c : cfg) (a : barch) : rd nat :=
  match b_count a with
  | O => if dbg c then RdPanic else RdUB
  | S n => Rd n
  end.
(** data_access.rs:313-326 *)
Definition b_swap_drop (c : cfg) (row : nat) : BAM bool :=
  let! a := bm_get in
  mdebug_assert (dbg c) (row <? b_count a) ;;!
  let! last := lift_rd (b_last_row c a) in
  if row =? last then
    b_drop_entity row ;;!
    b_decrement_len c ;;!
    ret false
  else
    b_swap_entities row last ;;!
    b_drop_entity last ;;!
    b_decrement_len c ;;!
    ret true.
(** data_access.rs:334-342 *)
Definition b_swap_to_last (c : cfg) (row : nat) : BAM bool :=
  let! a := bm_get in
  mdebug_assert (dbg c) (row <? b_count a) ;;!
  let! last := lift_rd (b_last_row c a) in
  if row =? last then ret false
  else b_swap_entities row last ;;! ret true.
(** data_access.rs:487-500 *)
Definition b_offset_sorted_pointers (row : nat) (a : barch) (m : mem) : rd (list bptr) :=
  letr ps := rmap (fun '(i, d) => column_at a m i (dsize d * row)) (enum (b_comps a)) in
  Rd (ps ++ replicate (MAX_COMPONENTS_PER_ENTITY - length ps) None).
(** data_access.rs:406-409 *)
Definition b_read_components_exact (be : bool) (G : group) (row : nat) (a : barch) (m : mem) : rd (list value) :=
  letr ps := b_offset_sorted_pointers row a m in b_ref_tuple be G ps m.
(** data_access.rs:353-366 *)
Definition b_swap_remove (c : cfg) (G : group) (row : nat) : BAM (list value * bool) :=
  let! a := bm_get in
  mdebug_assert (dbg c) (row <? b_count a) ;;!
  let! last := lift_rd (b_last_row c a) in
  if row =? last then
    let! data := bm_rd (b_read_components_exact (big c) G row) in
    b_decrement_len c ;;!
    ret (data, false)
  else
    b_swap_entities row last ;;!
    let! data := bm_rd (b_read_components_exact (big c) G last) in
    b_decrement_len c ;;!
    ret (data, true).
(** data_access.rs:515-537 *)
Definition b_copy_common (src : barch) (src_row dst_row : nat) : BAM unit :=
  let! dst := bm_get in
  mfor (enum (b_comps src)) (fun '(si, sd) =>
    mfor (enum (b_comps dst)) (fun '(di, dd) =>
      if negb (cd_id sd =? cd_id dd)%N then ret tt
      else
        let! p := bm_rd (fun _ m => column_at src m si (dsize sd * src_row)) in
        let! q := bm_rd (fun a m => column_at a m di (dsize dd * dst_row)) in
        bm_mem (copy_bytes p q (dsize sd)))).
(** archetype/mod.rs:78-89 *)
Definition b_drop : BAM unit :=
  let! a := bm_get in
  if b_cap a =? 0 then ret tt
  else b_drop_entities ;;! b_dealloc.
