(** * The storage on a target whose pointers have [w] bits

    ArchModel.v computes sizes in bytes as mathematical products.  The code
    computes them as [usize] products and hands them to
    [Layout::from_size_align_unchecked].  This file repeats the functions of
    src/archetype that do so, for pointers of [w] bits, and the functions that
    call those, up to a whole client program; everything else is as in ArchModel.v
    and RegModel.v. *)
From Verif Require Export RegModel.
Local Open Scope nat_scope.

(** [x as usize * y as usize]: an overflow panics with overflow checks and wraps
    without. *)
Definition usize_mul (w : N) (c : cfg) (x y : N) : rd N :=
  if (x * y <? 2 ^ w)%N then Rd (x * y)%N
  else if dbg c then RdPanic else Rd ((x * y) mod 2 ^ w)%N.
(** What [Layout::from_size_align_unchecked] and [GlobalAlloc::realloc] demand of
    a size: rounded up to the alignment it is at most [isize::MAX]. *)
Definition layout_size_ok (w size align : N) : bool := (size + (align - 1) <=? 2 ^ (w - 1) - 1)%N.
(** How many elements of [esz] bytes a block of that size has room for. *)
Definition cells_in (esz size : N) : nat := N.to_nat (size / esz).

Definition w_size (w : N) (c : cfg) (esz align : N) (n : nat) : rd N :=
  letr size := usize_mul w c esz (N.of_nat n) in
  if layout_size_ok w size align then Rd size else RdUB.
(** [alloc(Layout::from_size_align_unchecked(esz * n, align))] *)
Definition w_alloc {A} (w : N) (c : cfg) (esz align : N) (n : nat) : M env (ptr A) :=
  let! size := lift_rd (w_size w c esz align n) in
  mem_alloc size align (cells_in esz size).
(** [realloc(ptr, Layout::from_size_align_unchecked(esz * old, align), esz * new)] *)
Definition w_realloc {A} (w : N) (c : cfg) (p : ptr A) (esz align : N) (old new : nat) : M env (ptr A) :=
  let! old_size := lift_rd (w_size w c esz align old) in
  let! new_size := lift_rd (w_size w c esz align new) in
  mem_realloc p old_size align new_size (cells_in esz new_size).
(** [dealloc(ptr, Layout::from_size_align_unchecked(esz * n, align))] *)
Definition w_dealloc {A} (w : N) (c : cfg) (p : ptr A) (esz align : N) (n : nat) : M env unit :=
  let! size := lift_rd (w_size w c esz align n) in
  mem_dealloc p size align.

(** archetype/mod.rs:40-71 *)
Fixpoint w_alloc_columns (w : N) (c : cfg) (ds : list cdesc) (cap : nat) : M env (list (ptr value)) :=
  match ds with
  | [] => ret []
  | d :: ds' =>
      let! p := w_alloc w c (cd_size d) (cd_align d) cap in
      match p with
      | None => mpanic
      | Some _ => let! ps := w_alloc_columns w c ds' cap in ret (p :: ps)
      end
  end.
Definition w_with_capacity (w : N) (c : cfg) (d : adesc) (cap : nat) : M env arch :=
  massert (ad_is_valid d) ;;!
  if (0 <? cap) && (N.of_nat cap <=? MAX_ENTITIES_PER_ARCHETYPE)%N then
    let! assoc := w_alloc w c ENTITY_SIZE ENTITY_ALIGN cap in
    match assoc with
    | None => mpanic
    | Some _ =>
        let! ps := w_alloc_columns w c (ad_components d) cap in
        ret (Arch d (ps ++ replicate (MAX_COMPONENTS_PER_ENTITY - length ps) None) assoc 0 cap)
    end
  else ret (Arch d (replicate MAX_COMPONENTS_PER_ENTITY None) None 0 0).

(** data_access.rs:461-484 *)
Fixpoint w_dealloc_columns (w : N) (c : cfg) (ds : list (nat * cdesc)) : AM bool :=
  match ds with
  | [] => ret true
  | (i, d) :: ds' =>
      let! a := am_get in
      match a_ptrs a !! i with
      | None => mpanic
      | Some None => ret false
      | Some p =>
          am_env (w_dealloc w c p (cd_size d) (cd_align d) (a_cap a)) ;;!
          am_upd (fun a => set_ptrs a (<[i := None]> (a_ptrs a))) ;;!
          w_dealloc_columns w c ds'
      end
  end.
Definition w_dealloc_arch (w : N) (c : cfg) : AM unit :=
  let! a := am_get in
  let! all := w_dealloc_columns w c (enum (a_comps a)) in
  if all then
    let! a := am_get in
    am_env (w_dealloc w c (a_assoc a) ENTITY_SIZE ENTITY_ALIGN (a_cap a)) ;;!
    am_upd (fun a => set_cap (set_assoc a None) 0)
  else ret tt.

(** data_access.rs:420-456 *)
Definition w_realloc_column (w : N) (c : cfg) (old_cap new_cap : nat) (x : nat * cdesc) : AM unit :=
  let (i, d) := x in
  let! a := am_get in
  match a_ptrs a !! i with
  | None => mpanic
  | Some p =>
      let! p' := am_env (w_realloc w c p (cd_size d) (cd_align d) old_cap new_cap) in
      am_upd (fun a => set_ptrs a (<[i := p']> (a_ptrs a))) ;;!
      massert (match p' with Some _ => true | None => false end)
  end.
Definition w_resize_capacity (w : N) (c : cfg) (change : Z) : AM unit :=
  let! a := am_get in
  let old_cap := a_cap a in
  let new_cap := (Z.of_nat old_cap + change)%Z in
  if (new_cap <=? 0)%Z || (Z.of_N MAX_ENTITIES_PER_ARCHETYPE <=? new_cap)%Z then w_dealloc_arch w c
  else
    let new_cap := Z.to_nat new_cap in
    let! p := am_env (w_realloc w c (a_assoc a) ENTITY_SIZE ENTITY_ALIGN old_cap new_cap) in
    am_upd (fun a => set_assoc a p) ;;!
    massert (match p with Some _ => true | None => false end) ;;!
    mfor (enum (a_comps a)) (w_realloc_column w c old_cap new_cap) ;;!
    am_upd (fun a => set_cap a new_cap).
(** data_access.rs:503-512 *)
Definition w_resize_if_necessary (w : N) (c : cfg) : AM unit :=
  let! a := am_get in
  if is_full a then
    w_resize_capacity w c (Z.of_nat (if a_cap a =? 0 then DEFAULT_ARCHETYPE_ALLOCATION_SIZE else a_cap a))
  else ret tt.
(** archetype/mod.rs:78-89 *)
Definition w_drop (w : N) (c : cfg) : AM unit :=
  let! a := am_get in
  if a_cap a =? 0 then ret tt
  else drop_entities ;;! w_dealloc_arch w c.

(** data_access.rs:209-224 *)
Definition w_push_entity (w : N) (c : cfg) (G : group) (h : N) (vs : list value) : AM nat :=
  let g := group_desc (big c) G in
  let! a := am_get in
  mdebug_assert (dbg c) (gd_is_valid g) ;;!
  mdebug_assert (dbg c) (ad_id (gd_arch g) =? ad_id (a_desc a))%N ;;!
  w_resize_if_necessary w c ;;!
  let! a := am_get in
  let row := a_len a in
  am_upd (fun a => set_count a (S (a_count a))) ;;!
  write_entity_unchecked c G row h vs ;;!
  ret row.

(** data_access.rs:229-234 *)
Definition w_push_uninitialized (w : N) (c : cfg) : AM nat :=
  w_resize_if_necessary w c ;;!
  let! a := am_get in
  let row := a_len a in
  am_upd (fun a => set_count a (S (a_count a))) ;;!
  ret row.

(** archetype_registry/mod.rs:164-201 *)
Definition w_find_or_create (w : N) (c : cfg) (d : adesc) : RM (option nat) :=
  let len := ad_len d in
  if (MAX_COMPONENTS_PER_ENTITY <? len) || negb (ad_is_valid d) then ret None
  else if len =? 0 then mpanic
  else
    let! s := rm_get in
    match ar_maps (r_ar s) !! (len - 1) with
    | None => mpanic
    | Some level =>
        match binary_search (map k_id level) (ad_id d) with
        | inl f =>
            match level !! f with
            | None => mpanic
            | Some k => if k_idx k <? length (ar_archs (r_ar s)) then ret (Some (k_idx k)) else mpanic
            end
        | inr ins =>
            if (MAX_ARCHETYPE_COUNT <=? N.of_nat (length (ar_archs (r_ar s))))%N then ret None
            else
              let! a := rm_env (w_with_capacity w c d DEFAULT_ARCHETYPE_ALLOCATION_SIZE) in
              let! s := rm_get in
              let idx := length (ar_archs (r_ar s)) in
              put_st (Reg (r_er s)
                        (AReg (<[len - 1 := vec_insert level ins (AKey (ad_id d) idx)]> (ar_maps (r_ar s)))
                              (ar_archs (r_ar s) ++ [a]))
                        (r_env s)) ;;!
              ret (Some idx)
        end
    end.

(** archetype_registry/mod.rs:110-134 *)
Definition w_find_adding (w : N) (c : cfg) (src : nat) (d : cdesc) : RM (option (nat * nat)) :=
  let! s := rm_get in
  if length (ar_archs (r_ar s)) <? src then ret None
  else
    match ar_archs (r_ar s) !! src with
    | None => mpanic
    | Some a =>
        let! od := lift_rd (ad_add_component (big c) (a_desc a) d) in
        match od with
        | None => ret None
        | Some nd =>
            let! oi := w_find_or_create w c nd in
            match oi with
            | None => ret None
            | Some dst =>
                let! s := rm_get in
                lift_rd (disjoint_mut (length (ar_archs (r_ar s))) src dst)
            end
        end
    end.

(** archetype_registry/mod.rs:138-162 *)
Definition w_find_removing (w : N) (c : cfg) (src : nat) (d : cdesc) : RM (option (nat * nat)) :=
  let! s := rm_get in
  if length (ar_archs (r_ar s)) <? src then ret None
  else
    match ar_archs (r_ar s) !! src with
    | None => mpanic
    | Some a =>
        let! od := lift_rd (ad_remove_component (big c) (a_desc a) (cd_id d)) in
        match od with
        | None => ret None
        | Some nd =>
            let! oi := w_find_or_create w c nd in
            match oi with
            | None => ret None
            | Some dst =>
                let! s := rm_get in
                lift_rd (disjoint_mut (length (ar_archs (r_ar s))) src dst)
            end
        end
    end.

(** registry.rs:21-39 *)
Definition w_create_entity (w : N) (c : cfg) (G : group) (vs : list value) : RM (result N (list value)) :=
  dropping_on_panic vs (
    let g := group_desc (big c) G in
    if negb (gd_is_valid g) then ret (Err vs)
    else
      let! oi := w_find_or_create w c (gd_arch g) in
      match oi with
      | None => ret (Err vs)
      | Some i =>
          let! a := rm_rd (arch_at i) in
          let! row := unwrap (iia_new (N.of_nat (a_len a))) in
          let! ai := unwrap (ai_new (N.of_nat i)) in
          let! oh := rm_er (er_create_entity (big c) row ai) in
          match oh with
          | None => ret (Err vs)
          | Some h =>
              let! _ := with_arch i (w_push_entity w c G h vs) in
              ret (Ok h)
          end
      end).

(** registry.rs:213-274 *)
Definition w_add_component (w : N) (c : cfg) (C : ctype) (h : N) (v : value) : RM (result unit value) :=
  let! s := rm_get in
  match entry_of c s h with
  | None => ret (Err v)
  | Some e =>
      let row := e_row e in
      let! o := dropping_on_panic [v] (w_find_adding w c (e_arch c e) (cdesc_of C)) in
      match o with
      | None => ret (Err v)
      | Some (src, dst) =>
          let! (srow, drow) := dropping_on_panic [v] (
            let! swapped := with_arch src (swap_to_last_unchecked c row) in
            (if (swapped : bool) then
              let! a := rm_rd (arch_at src) in
              let! h' := lift_rd (entity_at a row) in
              update_entry c h' (fun e' => entry_set_index_in_archetype e' (entry_index_in_archetype e))
            else ret tt) ;;!
            let! _ := with_arch dst (w_push_uninitialized w c) in
            let! sa := rm_rd (arch_at src) in
            let! da := rm_rd (arch_at dst) in
            let! srow := lift_rd (last_row c sa) in
            let! drow := lift_rd (last_row c da) in
            with_arch dst (copy_common_components sa srow drow) ;;!
            with_arch dst (write_single_component_unchecked C drow v) ;;!
            ret (srow, drow)) in
          let! sa := rm_rd (arch_at src) in
          let! hs := lift_rd (entity_at sa srow) in
          with_arch dst (write_entity drow hs) ;;!
          with_arch src (decrement_len_unchecked c) ;;!
          update_entry c h (fun e' => entry_set_archetype_index (big c) e' (N.of_nat dst)) ;;!
          let! idx := unwrap (iia_new (N.of_nat drow)) in
          update_entry c h (fun e' => entry_set_index_in_archetype e' idx) ;;!
          ret (Ok tt)
      end
  end.

(** registry.rs:281-342 *)
Definition w_remove_component (w : N) (c : cfg) (C : ctype) (h : N) : RM (result value unit) :=
  let! s := rm_get in
  match entry_of c s h with
  | None => ret (Err tt)
  | Some e =>
      let row := e_row e in
      let! o := w_find_removing w c (e_arch c e) (cdesc_of C) in
      match o with
      | None => ret (Err tt)
      | Some (src, dst) =>
          let! swapped := with_arch src (swap_to_last_unchecked c row) in
          (if (swapped : bool) then
            let! a := rm_rd (arch_at src) in
            let! h' := lift_rd (entity_at a row) in
            update_entry c h' (fun e' => entry_set_index_in_archetype e' (entry_index_in_archetype e))
          else ret tt) ;;!
          let! _ := with_arch dst (w_push_uninitialized w c) in
          let! sa := rm_rd (arch_at src) in
          let! da := rm_rd (arch_at dst) in
          let! srow := lift_rd (last_row c sa) in
          let! drow := lift_rd (last_row c da) in
          with_arch dst (copy_common_components sa srow drow) ;;!
          let! v := lift_rd (read_component_unchecked C srow sa) in
          dropping_on_panic [v] (
            let! hs := lift_rd (entity_at sa srow) in
            with_arch dst (write_entity drow hs) ;;!
            with_arch src (decrement_len_unchecked c) ;;!
            update_entry c h (fun e' => entry_set_archetype_index (big c) e' (N.of_nat dst)) ;;!
            let! idx := unwrap (iia_new (N.of_nat drow)) in
            update_entry c h (fun e' => entry_set_index_in_archetype e' idx) ;;!
            ret (Ok v))
      end
  end.

(** Dropping the registry (as in RegModel.v). *)
Fixpoint w_drop_archs (w : N) (c : cfg) (k : nat) (n : nat) (panicked : bool) : RM unit := fun s =>
  match n with
  | O => if panicked then Panic s else Ret tt s
  | S n' =>
      match with_arch k (w_drop w c) s with
      | Ret _ s' => w_drop_archs w c (S k) n' panicked s'
      | Panic s' => w_drop_archs w c (S k) n' true s'
      | UB => UB
      end
  end.
Definition w_drop_registry (w : N) (c : cfg) : RM unit :=
  let! s := rm_get in w_drop_archs w c 0 (length (ar_archs (r_ar s))) false.

(** One call, and a client program.  The other calls request no memory. *)
Definition w_step (w : N) (c : cfg) (o : op) : RM output :=
  match o with
  | OpCreate G vs => let! r := w_create_entity w c G vs in ret (OutCreate r)
  | OpAdd C h v => let! r := w_add_component w c C h v in ret (OutAdd r)
  | OpRemove C h => let! r := w_remove_component w c C h in ret (OutRemove r)
  | _ => step c o
  end.
Fixpoint w_run (w : N) (c : cfg) (ops : list op) : RM (list output) :=
  match ops with
  | [] => ret []
  | o :: ops' => let! x := w_step w c o in let! xs := w_run w c ops' in ret (x :: xs)
  end.
