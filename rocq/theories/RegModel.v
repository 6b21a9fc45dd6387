(** * Model of src/archetype_registry/ and src/registry/registry.rs *)
From Verif Require Export EntityModel ArchModel.
Local Open Scope nat_scope.

(** ** ArchetypeRegistry (archetype_registry/mod.rs:40-44,
    sorted_archetype_key.rs:4-7).  The [Vec]s are lists. *)
Record akey := AKey { k_id : N; k_idx : nat }.
Record areg := AReg { ar_maps : list (list akey); ar_archs : list arch }.
(** archetype_registry/mod.rs:46-68 *)
Definition areg_default : areg := AReg (replicate MAX_COMPONENTS_PER_ENTITY []) [].

(** ** Registry (registry.rs:11-14), together with the outside world. *)
Record reg := Reg { r_er : er; r_ar : areg; r_env : env }.
Definition reg_default : reg := Reg er_default areg_default env_init.

Definition RM (A : Type) := M reg A.
Definition rm_get : RM reg := get_st.
Definition rm_er {A} (m : M er A) : RM A := fun s =>
  match m (r_er s) with
  | Ret x e => Ret x (Reg e (r_ar s) (r_env s))
  | Panic e => Panic (Reg e (r_ar s) (r_env s))
  | UB => UB
  end.
Definition rm_env {A} (m : M env A) : RM A := fun s =>
  match m (r_env s) with
  | Ret x e => Ret x (Reg (r_er s) (r_ar s) e)
  | Panic e => Panic (Reg (r_er s) (r_ar s) e)
  | UB => UB
  end.
Definition set_archs (r : areg) (l : list arch) : areg := AReg (ar_maps r) l.
(** Run an archetype method on archetype [i], reached by [get_unchecked_mut]
    (mod.rs:213-215): an index out of bounds is UB. *)
Definition with_arch {A} (i : nat) (m : AM A) : RM A := fun s =>
  match ar_archs (r_ar s) !! i with
  | None => UB
  | Some a =>
      let upd x := Reg (r_er s) (set_archs (r_ar s) (<[i := x.1]> (ar_archs (r_ar s)))) x.2 in
      match m (a, r_env s) with
      | Ret x st => Ret x (upd st)
      | Panic st => Panic (upd st)
      | UB => UB
      end
  end.
(** [get_unchecked] (mod.rs:206-208) *)
Definition arch_at (i : nat) (s : reg) : rd arch :=
  match ar_archs (r_ar s) !! i with None => RdUB | Some a => Rd a end.
Definition rm_rd {A} (f : reg -> rd A) : RM A := fun s => lift_rd (f s) s.

(** mod.rs:22-36 [disjoint_mut], on indices: which two elements are returned. *)
Definition disjoint_mut (len first second : nat) : rd (option (nat * nat)) :=
  if (first =? second) || (len <=? first) || (len <=? second) then Rd None
  else if first <? second then
    (* head = slice[0 ..= first], tail = slice[first+1 ..] *)
    let head_len := first + 1 in
    if (head_len <=? len) && (first <? head_len) && (second - first - 1 <? len - head_len)
    then Rd (Some (first, head_len + (second - first - 1)))
    else RdPanic
  else
    let head_len := second + 1 in
    if (head_len <=? len) && (first - second - 1 <? len - head_len) && (second <? head_len)
    then Rd (Some (head_len + (first - second - 1), second))
    else RdPanic.

(** mod.rs:71-86 (and :89-106, the same lookup for a [&mut]): the index of the
    archetype found.  [len - 1] underflows / indexes out of bounds for a valid
    descriptor of length 0 (no constructor makes one): panic. *)
Definition find_archetype (d : adesc) (r : areg) : rd (option nat) :=
  let len := ad_len d in
  if (MAX_COMPONENTS_PER_ENTITY <? len) || negb (ad_is_valid d) then Rd None
  else if len =? 0 then RdPanic
  else
    match ar_maps r !! (len - 1) with
    | None => RdPanic
    | Some level =>
        match binary_search (map k_id level) (ad_id d) with
        | inl f =>
            match level !! f with
            | None => RdPanic
            | Some k => if k_idx k <? length (ar_archs r) then Rd (Some (k_idx k)) else RdPanic
            end
        | inr _ => Rd None
        end
    end.

(** [Vec::insert] *)
Definition vec_insert {A} (l : list A) (i : nat) (x : A) : list A := take i l ++ x :: drop i l.

(** mod.rs:164-201 *)
Definition find_or_create_archetype (d : adesc) : RM (option nat) :=
  let len := ad_len d in
  if (MAX_COMPONENTS_PER_ENTITY <? len) || negb (ad_is_valid d) then ret None
  else if len =? 0 then mpanic
  else
    let! s := rm_get in
    match ar_maps (r_ar s) !! (len - 1) with
    | None => mpanic
    | Some level =>
        match binary_search (map k_id level) (ad_id d) with
        | inl f =>
            match level !! f with
            | None => mpanic
            | Some k => if k_idx k <? length (ar_archs (r_ar s)) then ret (Some (k_idx k)) else mpanic
            end
        | inr ins =>
            if (MAX_ARCHETYPE_COUNT <=? N.of_nat (length (ar_archs (r_ar s))))%N then ret None
            else
              let! a := rm_env (a_with_capacity d DEFAULT_ARCHETYPE_ALLOCATION_SIZE) in
              let! s := rm_get in
              let idx := length (ar_archs (r_ar s)) in
              put_st (Reg (r_er s)
                        (AReg (<[len - 1 := vec_insert level ins (AKey (ad_id d) idx)]> (ar_maps (r_ar s)))
                              (ar_archs (r_ar s) ++ [a]))
                        (r_env s)) ;;!
              ret (Some idx)
        end
    end.

(** mod.rs:110-134; the result is (source index, destination index).  The range
    check uses [>], so a source index equal to the number of archetypes gets
    past it and the slice index panics. *)
Definition find_or_create_archetype_adding_component (c : cfg) (src : nat) (d : cdesc) : RM (option (nat * nat)) :=
  let! s := rm_get in
  if length (ar_archs (r_ar s)) <? src then ret None
  else
    match ar_archs (r_ar s) !! src with
    | None => mpanic
    | Some a =>
        let! od := lift_rd (ad_add_component (big c) (a_desc a) d) in
        match od with
        | None => ret None
        | Some nd =>
            let! oi := find_or_create_archetype nd in
            match oi with
            | None => ret None
            | Some dst =>
                let! s := rm_get in
                lift_rd (disjoint_mut (length (ar_archs (r_ar s))) src dst)
            end
        end
    end.

(** mod.rs:138-162 *)
Definition find_or_create_archetype_removing_component (c : cfg) (src : nat) (d : cdesc) : RM (option (nat * nat)) :=
  let! s := rm_get in
  if length (ar_archs (r_ar s)) <? src then ret None
  else
    match ar_archs (r_ar s) !! src with
    | None => mpanic
    | Some a =>
        let! od := lift_rd (ad_remove_component (big c) (a_desc a) (cd_id d)) in
        match od with
        | None => ret None
        | Some nd =>
            let! oi := find_or_create_archetype nd in
            match oi with
            | None => ret None
            | Some dst =>
                let! s := rm_get in
                lift_rd (disjoint_mut (length (ar_archs (r_ar s))) src dst)
            end
        end
    end.

(** ** Archetype iterators (archetype_registry/iterators/) *)
Record itst := ItSt { it_level : nat; it_idx : nat }.

(** archetype_iter.rs:42-54: the inner loop over the keys of a level, from
    [idx] on. [accept] is the test on the archetype's descriptor. *)
Fixpoint scan_level (archs : list arch) (accept : adesc -> bool) (keys : list akey) (idx : nat) : rd (option nat * nat) :=
  match keys with
  | [] => Rd (None, idx)
  | k :: keys' =>
      match archs !! k_idx k with
      | None => RdUB
      | Some a =>
          if accept (a_desc a) then Rd (Some (k_idx k), S idx)
          else scan_level archs accept keys' (S idx)
      end
  end.
(** archetype_iter.rs:37-58: the outer loop over the remaining levels. *)
Fixpoint scan_levels (r : areg) (accept : adesc -> bool) (fuel : nat) (st : itst) : rd (option nat * itst) :=
  match fuel with
  | O => Rd (None, st)
  | S fuel' =>
      match ar_maps r !! it_level st with
      | None => RdUB
      | Some keys =>
          letr (o, idx) := scan_level (ar_archs r) accept (drop (it_idx st) keys) (it_idx st) in
          match o with
          | Some i => Rd (Some i, ItSt (it_level st) idx)
          | None => scan_levels r accept fuel' (ItSt (S (it_level st)) 0)
          end
      end
  end.
(** The test of archetype_iter.rs:48-51 / archetype_iter_mut.rs:51-54. *)
Definition accept_matching (be : bool) (G : group) (d : adesc) : bool :=
  ad_contains_subset d (gd_arch (group_desc be G)).
(** The test of filter_archetype_iter.rs:53-56 / filter_archetype_iter_mut.rs:57-60. *)
Definition accept_filtered (be : bool) (G : group) (f : adesc -> bool) (d : adesc) : bool :=
  ad_contains_subset d (gd_arch (group_desc be G)) && f d.

(** archetype_iter.rs:16-27 (the other three constructors are the same):
    [G::DESCRIPTOR.len() - 1] on u8 underflows for an invalid group: panic with
    overflow checks, wraps to 255 without. *)
Definition arch_iter_new (c : cfg) (G : group) : rd itst :=
  match gd_len (group_desc (big c) G) with
  | O => if dbg c then RdPanic else Rd (ItSt 255 0)
  | S n => Rd (ItSt n 0)
  end.
(** archetype_iter.rs:33-60, archetype_iter_mut.rs:33-63,
    filter_archetype_iter.rs:38-66, filter_archetype_iter_mut.rs:39-70; the
    archetype is returned by index. *)
Definition arch_iter_next (c : cfg) (G : group) (accept : adesc -> bool) (r : areg) (st : itst) : rd (option nat * itst) :=
  if negb (gd_is_valid (group_desc (big c) G)) then Rd (None, st)
  else scan_levels r accept (MAX_COMPONENTS_PER_ENTITY - it_level st) st.

(** matching_iter.rs:26-29 and the seven sibling [next] functions
    (matching_iter.rs:52-55, matching_iter_mut.rs:26-29 and :52-55,
    filter_matching_iter.rs:29-32 and :67-70, filter_matching_iter_mut.rs:34-37
    and :76-79): fetch the next archetype, then build its item with [item]. *)
Definition slices_next {I} (c : cfg) (G : group) (accept : adesc -> bool) (item : nat -> arch -> rd I)
    (r : areg) (st : itst) : rd (option I * itst) :=
  letr (o, st') := arch_iter_next c G accept r st in
  match o with
  | None => Rd (None, st')
  | Some i =>
      match ar_archs r !! i with
      | None => RdUB
      | Some a => letr x := item i a in Rd (Some x, st')
      end
  end.
Definition total_keys (r : areg) : nat := length (concat (ar_maps r)).
Definition slices_collect {I} (c : cfg) (G : group) (accept : adesc -> bool) (item : nat -> arch -> rd I)
    (r : areg) : rd (option (list I)) :=
  letr st := arch_iter_new c G in
  collect (slices_next c G accept item r) (S (total_keys r)) st.

(** A component's place: archetype, column, row. *)
Definition loc := (nat * nat * nat)%type.
Definition locate (i : nat) (cols : list (list (nat * nat))) : list (list loc) :=
  map (map (fun '(idx, row) => (i, idx, row))) cols.

(** mod.rs:217-295 via registry.rs:353-461, each driven to its end. *)
Definition iter_components_matching (c : cfg) (G : group) (s : reg) : rd (option (list (list (list value)))) :=
  slices_collect c G (accept_matching (big c) G) (fun _ a => get_fuzzy_slices c G a) (r_ar s).
Definition iter_components_matching_mut (c : cfg) (G : group) (s : reg) : rd (option (list (list (list loc)))) :=
  slices_collect c G (accept_matching (big c) G)
    (fun i a => letr cols := get_fuzzy_slices_mut c G a in Rd (locate i cols)) (r_ar s).
Definition iter_entity_components_matching (c : cfg) (G : group) (s : reg) : rd (option (list (list N * list (list value)))) :=
  slices_collect c G (accept_matching (big c) G) (fun _ a => get_entity_fuzzy_slices c G a) (r_ar s).
Definition iter_entity_components_matching_mut (c : cfg) (G : group) (s : reg) : rd (option (list (list N * list (list loc)))) :=
  slices_collect c G (accept_matching (big c) G)
    (fun i a => letr x := get_entity_fuzzy_slices_mut c G a in Rd (x.1, locate i x.2)) (r_ar s).
Definition iter_filtered_components_matching (c : cfg) (G : group) (f : adesc -> bool) (s : reg) : rd (option (list (list (list value)))) :=
  slices_collect c G (accept_filtered (big c) G f) (fun _ a => get_fuzzy_slices c G a) (r_ar s).
Definition iter_filtered_components_matching_mut (c : cfg) (G : group) (f : adesc -> bool) (s : reg) : rd (option (list (list (list loc)))) :=
  slices_collect c G (accept_filtered (big c) G f)
    (fun i a => letr cols := get_fuzzy_slices_mut c G a in Rd (locate i cols)) (r_ar s).
Definition iter_filtered_entity_components_matching (c : cfg) (G : group) (f : adesc -> bool) (s : reg) : rd (option (list (list N * list (list value)))) :=
  slices_collect c G (accept_filtered (big c) G f) (fun _ a => get_entity_fuzzy_slices c G a) (r_ar s).
Definition iter_filtered_entity_components_matching_mut (c : cfg) (G : group) (f : adesc -> bool) (s : reg) : rd (option (list (list N * list (list loc)))) :=
  slices_collect c G (accept_filtered (big c) G f)
    (fun i a => letr x := get_entity_fuzzy_slices_mut c G a in Rd (x.1, locate i x.2)) (r_ar s).

(** ** Exact access (registry.rs:465-523) *)
Definition find_exact (c : cfg) (G : group) (s : reg) : rd (option (nat * arch)) :=
  letr o := find_archetype (gd_arch (group_desc (big c) G)) (r_ar s) in
  match o with
  | None => Rd None
  | Some i => match ar_archs (r_ar s) !! i with None => RdPanic | Some a => Rd (Some (i, a)) end
  end.
(** component_group.rs:124-130, :144-150: a tuple of empty slices. *)
Definition empty_slices {A} (G : group) : list (list A) := map (fun _ => []) G.
(** registry.rs:465-472 *)
Definition iter_components_exact (c : cfg) (G : group) (s : reg) : rd (list (list value)) :=
  letr o := find_exact c G s in
  match o with None => Rd (empty_slices G) | Some (_, a) => get_slices_exact c G a end.
(** registry.rs:476-486 *)
Definition iter_components_exact_mut (c : cfg) (G : group) (s : reg) : rd (list (list loc)) :=
  letr o := find_exact c G s in
  match o with
  | None => Rd (empty_slices G)
  | Some (i, a) => letr cols := get_slices_exact_mut c G a in Rd (locate i cols)
  end.
(** registry.rs:490-500 *)
Definition iter_entity_components_exact (c : cfg) (G : group) (s : reg) : rd (list N * list (list value)) :=
  letr o := find_exact c G s in
  match o with
  | None => Rd ([], empty_slices G)
  | Some (_, a) => letr es := entities a in letr cols := get_slices_exact c G a in Rd (es, cols)
  end.
(** registry.rs:504-523 *)
Definition iter_entity_components_exact_mut (c : cfg) (G : group) (s : reg) : rd (list N * list (list loc)) :=
  letr o := find_exact c G s in
  match o with
  | None => Rd ([], empty_slices G)
  | Some (i, a) =>
      letr es := entities a in letr cols := get_slices_exact_mut c G a in Rd (es, locate i cols)
  end.

(** ** Entity-level operations (registry.rs:21-342) *)

(** [entity_entry(entity)] as seen from the registry. *)
Definition entry_of (c : cfg) (s : reg) (h : N) : option entry := er_entity_entry (big c) (r_er s) h.
Definition e_arch (c : cfg) (e : entry) : nat := N.to_nat (entry_archetype_index (big c) e).
Definition e_row (e : entry) : nat := N.to_nat (entry_index_in_archetype e).
(** [entity_entry_mut(h).unwrap()] followed by an update of the entry. *)
Definition update_entry (c : cfg) (h : N) (f : entry -> entry) : RM unit := fun s =>
  match er_update_entry (big c) (r_er s) h f with
  | None => Panic s
  | Some r => Ret tt (Reg r (r_ar s) (r_env s))
  end.
(** Arguments still owned by a frame that unwinds are dropped. *)
Definition dropping_on_panic {A} (vs : list value) (m : RM A) : RM A := fun s =>
  match m s with
  | Ret x s' => Ret x s'
  | Panic s' => Panic (Reg (r_er s') (r_ar s') (Env (ev_trace (r_env s') ++ map EvDrop vs) (ev_oracle (r_env s'))))
  | UB => UB
  end.
Definition unwrap {S A} (o : option A) : M S A := match o with Some x => ret x | None => mpanic end.

Inductive result (A E : Type) := Ok (a : A) | Err (e : E).
Global Arguments Ok {A E} a.
Global Arguments Err {A E} e.

(** registry.rs:21-39 *)
Definition create_entity (c : cfg) (G : group) (vs : list value) : RM (result N (list value)) :=
  dropping_on_panic vs (
    let g := group_desc (big c) G in
    if negb (gd_is_valid g) then ret (Err vs)
    else
      let! oi := find_or_create_archetype (gd_arch g) in
      match oi with
      | None => ret (Err vs)
      | Some i =>
          let! a := rm_rd (arch_at i) in
          let! row := unwrap (iia_new (N.of_nat (a_len a))) in
          let! ai := unwrap (ai_new (N.of_nat i)) in
          let! oh := rm_er (er_create_entity (big c) row ai) in
          match oh with
          | None => ret (Err vs)
          | Some h =>
              let! _ := with_arch i (push_entity_unchecked c G h vs) in
              ret (Ok h)
          end
      end).

(** registry.rs:43-66 *)
Definition destroy_entity (c : cfg) (h : N) : RM bool :=
  let! s := rm_get in
  match entry_of c s h with
  | None => ret false
  | Some e =>
      let i := e_arch c e in
      let row := e_row e in
      let! swapped := with_arch i (swap_drop_unchecked c row) in
      (if swapped then
        let! a := rm_rd (arch_at i) in
        let! h' := lift_rd (entity_at_unchecked a row) in
        update_entry c h' (fun e' => entry_set_index_in_archetype e' (entry_index_in_archetype e))
      else ret tt) ;;!
      let! v := rm_er (er_destroy_entity (big c) h) in
      mdebug_assert (dbg c) v ;;!
      ret true
  end.

(** registry.rs:71-99 *)
Definition remove_entity (c : cfg) (G : group) (h : N) : RM (option (list value)) :=
  let! s := rm_get in
  match entry_of c s h with
  | None => ret None
  | Some e =>
      let i := e_arch c e in
      let row := e_row e in
      let! (data, swapped) := with_arch i (swap_remove_unchecked c G row) in
      dropping_on_panic data (
        (if (swapped : bool) then
          let! a := rm_rd (arch_at i) in
          let! h' := lift_rd (entity_at a row) in
          update_entry c h' (fun e' => entry_set_index_in_archetype e' (entry_index_in_archetype e))
        else ret tt) ;;!
        let! v := rm_er (er_destroy_entity (big c) h) in
        mdebug_assert (dbg c) v ;;!
        ret (Some data))
  end.

(** registry.rs:103-110 *)
Definition has_component (c : cfg) (C : ctype) (h : N) (s : reg) : rd bool :=
  match entry_of c s h with
  | None => Rd false
  | Some e => letr a := arch_at (e_arch c e) s in Rd (ad_has_component (a_desc a) C)
  end.
(** registry.rs:115-124 *)
Definition has_components (c : cfg) (G : group) (h : N) (s : reg) : rd bool :=
  match entry_of c s h with
  | None => Rd false
  | Some e =>
      letr a := arch_at (e_arch c e) s in
      Rd (ad_contains_subset (a_desc a) (gd_arch (group_desc (big c) G)))
  end.
(** registry.rs:128-141 *)
Definition get_component (c : cfg) (C : ctype) (h : N) (s : reg) : rd (option value) :=
  match entry_of c s h with
  | None => Rd None
  | Some e =>
      letr a := arch_at (e_arch c e) s in
      if negb (ad_has_component (a_desc a) C) then Rd None
      else letr v := get_component_unchecked C (e_row e) a in Rd (Some v)
  end.
(** registry.rs:146-165 *)
Definition get_components (c : cfg) (G : group) (h : N) (s : reg) : rd (option (list value)) :=
  match entry_of c s h with
  | None => Rd None
  | Some e =>
      letr a := arch_at (e_arch c e) s in
      if negb (ad_contains_subset (a_desc a) (gd_arch (group_desc (big c) G))) then Rd None
      else letr vs := get_fuzzy_components c G (e_row e) a in Rd (Some vs)
  end.
(** registry.rs:170-183; the [&mut C] as the cell it points to. *)
Definition get_component_mut (c : cfg) (C : ctype) (h : N) (s : reg) : rd (option loc) :=
  match entry_of c s h with
  | None => Rd None
  | Some e =>
      letr a := arch_at (e_arch c e) s in
      if negb (ad_has_component (a_desc a) C) then Rd None
      else letr l := get_component_unchecked_mut C (e_row e) a in Rd (Some (e_arch c e, l.1, l.2))
  end.
(** registry.rs:187-206 *)
Definition get_components_mut (c : cfg) (G : group) (h : N) (s : reg) : rd (option (list loc)) :=
  match entry_of c s h with
  | None => Rd None
  | Some e =>
      letr a := arch_at (e_arch c e) s in
      if negb (ad_contains_subset (a_desc a) (gd_arch (group_desc (big c) G))) then Rd None
      else letr ls := get_fuzzy_components_mut c G (e_row e) a in
           Rd (Some (map (fun l : nat * nat => (e_arch c e, l.1, l.2)) ls))
  end.

(** registry.rs:213-274.  [v] is owned by this frame until it is written. *)
Definition add_component (c : cfg) (C : ctype) (h : N) (v : value) : RM (result unit value) :=
  let! s := rm_get in
  match entry_of c s h with
  | None => ret (Err v)
  | Some e =>
      let row := e_row e in
      let! o := dropping_on_panic [v] (find_or_create_archetype_adding_component c (e_arch c e) (cdesc_of C)) in
      match o with
      | None => ret (Err v)
      | Some (src, dst) =>
          let! (srow, drow) := dropping_on_panic [v] (
            let! swapped := with_arch src (swap_to_last_unchecked c row) in
            (if (swapped : bool) then
              let! a := rm_rd (arch_at src) in
              let! h' := lift_rd (entity_at a row) in
              update_entry c h' (fun e' => entry_set_index_in_archetype e' (entry_index_in_archetype e))
            else ret tt) ;;!
            let! _ := with_arch dst push_uninitialized_entity in
            let! sa := rm_rd (arch_at src) in
            let! da := rm_rd (arch_at dst) in
            let! srow := lift_rd (last_row c sa) in
            let! drow := lift_rd (last_row c da) in
            with_arch dst (copy_common_components sa srow drow) ;;!
            with_arch dst (write_single_component_unchecked C drow v) ;;!
            ret (srow, drow)) in
          let! sa := rm_rd (arch_at src) in
          let! hs := lift_rd (entity_at sa srow) in
          with_arch dst (write_entity drow hs) ;;!
          with_arch src (decrement_len_unchecked c) ;;!
          update_entry c h (fun e' => entry_set_archetype_index (big c) e' (N.of_nat dst)) ;;!
          let! idx := unwrap (iia_new (N.of_nat drow)) in
          update_entry c h (fun e' => entry_set_index_in_archetype e' idx) ;;!
          ret (Ok tt)
      end
  end.

(** registry.rs:281-342 *)
Definition remove_component (c : cfg) (C : ctype) (h : N) : RM (result value unit) :=
  let! s := rm_get in
  match entry_of c s h with
  | None => ret (Err tt)
  | Some e =>
      let row := e_row e in
      let! o := find_or_create_archetype_removing_component c (e_arch c e) (cdesc_of C) in
      match o with
      | None => ret (Err tt)
      | Some (src, dst) =>
          let! swapped := with_arch src (swap_to_last_unchecked c row) in
          (if (swapped : bool) then
            let! a := rm_rd (arch_at src) in
            let! h' := lift_rd (entity_at a row) in
            update_entry c h' (fun e' => entry_set_index_in_archetype e' (entry_index_in_archetype e))
          else ret tt) ;;!
          let! _ := with_arch dst push_uninitialized_entity in
          let! sa := rm_rd (arch_at src) in
          let! da := rm_rd (arch_at dst) in
          let! srow := lift_rd (last_row c sa) in
          let! drow := lift_rd (last_row c da) in
          with_arch dst (copy_common_components sa srow drow) ;;!
          let! v := lift_rd (read_component_unchecked C srow sa) in
          dropping_on_panic [v] (
            let! hs := lift_rd (entity_at sa srow) in
            with_arch dst (write_entity drow hs) ;;!
            with_arch src (decrement_len_unchecked c) ;;!
            update_entry c h (fun e' => entry_set_archetype_index (big c) e' (N.of_nat dst)) ;;!
            let! idx := unwrap (iia_new (N.of_nat drow)) in
            update_entry c h (fun e' => entry_set_index_in_archetype e' idx) ;;!
            ret (Ok v))
      end
  end.

(** registry.rs:347-349 *)
Definition iter_entities (c : cfg) (s : reg) : rd (option (list N)) := er_iter (big c) (r_er s).

(** ** Writing through the references the registry hands out *)

(** [mem::replace(&mut *loc, v)]: returns the old value.  The reference was
    produced by one of the functions above, so its cell exists; a missing cell
    is reported as UB. *)
Definition replace_loc (l : loc) (v : value) : RM value :=
  let! a := rm_rd (arch_at l.1.1) in
  let! old := lift_rd (raw_cell a l.1.2 l.2) in
  match old with
  | None => mub
  | Some ov => with_arch l.1.1 (write_cell l.1.2 l.2 (Some v)) ;;! ret ov
  end.
Fixpoint replace_locs (ls : list loc) (vs : list value) : RM (list value) :=
  match ls, vs with
  | l :: ls', v :: vs' =>
      let! ov := replace_loc l v in
      let! ovs := replace_locs ls' vs' in
      ret (ov :: ovs)
  | _, _ => ret []
  end.
(** Replace the value at [loc] by [f] of it, with [mem::replace]. *)
Definition modify_loc (f : value -> value) (l : loc) : RM value :=
  let! a := rm_rd (arch_at l.1.1) in
  let! old := lift_rd (raw_cell a l.1.2 l.2) in
  match old with
  | None => mub
  | Some ov => replace_loc l (f ov)
  end.
Fixpoint mmap {S A B} (f : A -> M S B) (l : list A) : M S (list B) :=
  match l with
  | [] => ret []
  | x :: l' => let! y := f x in let! ys := mmap f l' in ret (y :: ys)
  end.
(** For each item, each tuple position [i], each row: apply [upd i]. *)
Definition modify_item (upd : nat -> value -> value) (cols : list (list loc)) : RM (list (list value)) :=
  mmap (fun '(i, col) => mmap (modify_loc (upd i)) col) (enum cols).

(** ** Dropping the registry: the [Vec<Archetype>] drops its elements in order;
    a panic in one does not stop the others (the panic continues afterwards).
    A second panic during that unwinding aborts the process; the model keeps
    going and reports [Panic]. *)
Fixpoint drop_archs (k : nat) (n : nat) (panicked : bool) : RM unit := fun s =>
  match n with
  | O => if panicked then Panic s else Ret tt s
  | S n' =>
      match with_arch k a_drop s with
      | Ret _ s' => drop_archs (S k) n' panicked s'
      | Panic s' => drop_archs (S k) n' true s'
      | UB => UB
      end
  end.
Definition drop_registry : RM unit :=
  let! s := rm_get in drop_archs 0 (length (ar_archs (r_ar s))) false.

(** ** The whole API as one step function *)
Inductive op :=
| OpCreate (G : group) (vs : list value)
| OpDestroy (h : N)
| OpRemoveEntity (G : group) (h : N)
| OpHas (C : ctype) (h : N)
| OpHasAll (G : group) (h : N)
| OpGet (C : ctype) (h : N)
| OpGetAll (G : group) (h : N)
| OpSet (C : ctype) (h : N) (v : value)          (* get_component_mut, then mem::replace *)
| OpSetAll (G : group) (h : N) (vs : list value) (* get_components_mut, then mem::replace *)
| OpAdd (C : ctype) (h : N) (v : value)
| OpRemove (C : ctype) (h : N)
| OpIterEntities
| OpIter (G : group)
| OpIterE (G : group)
| OpIterF (G : group) (f : adesc -> bool)
| OpIterEF (G : group) (f : adesc -> bool)
| OpIterMut (G : group) (upd : nat -> value -> value)
| OpIterEMut (G : group) (upd : nat -> value -> value)
| OpIterFMut (G : group) (f : adesc -> bool) (upd : nat -> value -> value)
| OpIterEFMut (G : group) (f : adesc -> bool) (upd : nat -> value -> value)
| OpExact (G : group)
| OpExactE (G : group)
| OpExactMut (G : group) (upd : nat -> value -> value)
| OpExactEMut (G : group) (upd : nat -> value -> value).

Inductive output :=
| OutCreate (r : result N (list value))
| OutBool (b : bool)
| OutVals (o : option (list value))
| OutVal (o : option value)
| OutAdd (r : result unit value)
| OutRemove (r : result value unit)
| OutEntities (l : list N)
| OutCols (l : list (list (list value)))
| OutECols (l : list (list N * list (list value))).

(** The mutable iterators are run to the end first (all items may be held at
    once) and then every cell is replaced; the old contents are the output. *)
Definition modify_items (upd : nat -> value -> value) (items : list (list (list loc))) : RM (list (list (list value))) :=
  mmap (modify_item upd) items.
Definition modify_eitems (upd : nat -> value -> value) (items : list (list N * list (list loc))) : RM (list (list N * list (list value))) :=
  mmap (fun '(es, cols) => let! vs := modify_item upd cols in ret (es, vs)) items.

Definition step (c : cfg) (o : op) : RM output :=
  match o with
  | OpCreate G vs => let! r := create_entity c G vs in ret (OutCreate r)
  | OpDestroy h => let! b := destroy_entity c h in ret (OutBool b)
  | OpRemoveEntity G h => let! x := remove_entity c G h in ret (OutVals x)
  | OpHas C h => let! b := rm_rd (has_component c C h) in ret (OutBool b)
  | OpHasAll G h => let! b := rm_rd (has_components c G h) in ret (OutBool b)
  | OpGet C h => let! x := rm_rd (get_component c C h) in ret (OutVal x)
  | OpGetAll G h => let! x := rm_rd (get_components c G h) in ret (OutVals x)
  | OpSet C h v =>
      let! l := rm_rd (get_component_mut c C h) in
      match l with
      | None => ret (OutVal None)
      | Some l => let! old := replace_loc l v in ret (OutVal (Some old))
      end
  | OpSetAll G h vs =>
      let! ls := rm_rd (get_components_mut c G h) in
      match ls with
      | None => ret (OutVals None)
      | Some ls => let! olds := replace_locs ls vs in ret (OutVals (Some olds))
      end
  | OpAdd C h v => let! r := add_component c C h v in ret (OutAdd r)
  | OpRemove C h => let! r := remove_component c C h in ret (OutRemove r)
  | OpIterEntities => let! l := rm_rd (iter_entities c) in let! l := unwrap l in ret (OutEntities l)
  | OpIter G => let! l := rm_rd (iter_components_matching c G) in let! l := unwrap l in ret (OutCols l)
  | OpIterE G => let! l := rm_rd (iter_entity_components_matching c G) in let! l := unwrap l in ret (OutECols l)
  | OpIterF G f => let! l := rm_rd (iter_filtered_components_matching c G f) in let! l := unwrap l in ret (OutCols l)
  | OpIterEF G f => let! l := rm_rd (iter_filtered_entity_components_matching c G f) in let! l := unwrap l in ret (OutECols l)
  | OpIterMut G upd =>
      let! l := rm_rd (iter_components_matching_mut c G) in let! l := unwrap l in
      let! old := modify_items upd l in ret (OutCols old)
  | OpIterEMut G upd =>
      let! l := rm_rd (iter_entity_components_matching_mut c G) in let! l := unwrap l in
      let! old := modify_eitems upd l in ret (OutECols old)
  | OpIterFMut G f upd =>
      let! l := rm_rd (iter_filtered_components_matching_mut c G f) in let! l := unwrap l in
      let! old := modify_items upd l in ret (OutCols old)
  | OpIterEFMut G f upd =>
      let! l := rm_rd (iter_filtered_entity_components_matching_mut c G f) in let! l := unwrap l in
      let! old := modify_eitems upd l in ret (OutECols old)
  | OpExact G => let! l := rm_rd (iter_components_exact c G) in ret (OutCols [l])
  | OpExactE G => let! l := rm_rd (iter_entity_components_exact c G) in ret (OutECols [l])
  | OpExactMut G upd =>
      let! l := rm_rd (iter_components_exact_mut c G) in
      let! old := modify_items upd [l] in ret (OutCols old)
  | OpExactEMut G upd =>
      let! l := rm_rd (iter_entity_components_exact_mut c G) in
      let! old := modify_eitems upd [l] in ret (OutECols old)
  end.

(** A client program: a list of calls run one after the other. *)
Fixpoint run (c : cfg) (ops : list op) : RM (list output) :=
  match ops with
  | [] => ret []
  | o :: ops' => let! x := step c o in let! xs := run c ops' in ret (x :: xs)
  end.
