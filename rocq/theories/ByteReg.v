(** * The registry on top of the byte-level storage
    (src/archetype_registry/ and src/registry/registry.rs)

    The functions of RegModel.v again, calling the archetype functions of
    ByteModel.v; all archetypes share one heap. *)
From Verif Require Export ByteModel.
Local Open Scope nat_scope.

Record breg := BReg { br_er : er; br_maps : list (list akey); br_archs : list barch; br_mem : mem }.
(** An empty registry and heap; [place] are the allocator's choices. *)
Definition breg_default (place : N -> N) : breg :=
  BReg er_default (replicate MAX_COMPONENTS_PER_ENTITY []) [] (Mem ∅ 0 place env_init).

Definition BRM (A : Type) := M breg A.
Definition bq_get : BRM breg := get_st.
Definition bq_er {A} (f : M er A) : BRM A := fun s =>
  match f (br_er s) with
  | Ret x e => Ret x (BReg e (br_maps s) (br_archs s) (br_mem s))
  | Panic e => Panic (BReg e (br_maps s) (br_archs s) (br_mem s))
  | UB => UB
  end.
Definition bq_mem {A} (f : M mem A) : BRM A := fun s =>
  match f (br_mem s) with
  | Ret x e => Ret x (BReg (br_er s) (br_maps s) (br_archs s) e)
  | Panic e => Panic (BReg (br_er s) (br_maps s) (br_archs s) e)
  | UB => UB
  end.
Definition b_with_arch {A} (i : nat) (f : BAM A) : BRM A := fun s =>
  match br_archs s !! i with
  | None => UB
  | Some a =>
      let upd x := BReg (br_er s) (br_maps s) (<[i := x.1]> (br_archs s)) x.2 in
      match f (a, br_mem s) with
      | Ret x st => Ret x (upd st)
      | Panic st => Panic (upd st)
      | UB => UB
      end
  end.
Definition b_arch_at (i : nat) (s : breg) : rd barch :=
  match br_archs s !! i with None => RdUB | Some a => Rd a end.
Definition bq_rd {A} (f : breg -> rd A) : BRM A := fun s => lift_rd (f s) s.
(** Read with the heap as it is now. *)
Definition bq_mrd {A} (f : mem -> rd A) : BRM A := fun s => lift_rd (f (br_mem s)) s.

(** The lookups and iterators of RegModel.v look at the sorted mappings and the
    archetypes' descriptors only; this is all of the registry they see. *)
Definition bare (a : barch) : arch := Arch (b_desc a) [] None 0 0.
Definition shadow (s : breg) : areg := AReg (br_maps s) (map bare (br_archs s)).

(** mod.rs:164-201 *)
Definition b_find_or_create (d : adesc) : BRM (option nat) :=
  let len := ad_len d in
  if (MAX_COMPONENTS_PER_ENTITY <? len) || negb (ad_is_valid d) then ret None
  else if len =? 0 then mpanic
  else
    let! s := bq_get in
    match br_maps s !! (len - 1) with
    | None => mpanic
    | Some level =>
        match binary_search (map k_id level) (ad_id d) with
        | inl f =>
            match level !! f with
            | None => mpanic
            | Some k => if k_idx k <? length (br_archs s) then ret (Some (k_idx k)) else mpanic
            end
        | inr ins =>
            if (MAX_ARCHETYPE_COUNT <=? N.of_nat (length (br_archs s)))%N then ret None
            else
              let! a := bq_mem (b_with_capacity d DEFAULT_ARCHETYPE_ALLOCATION_SIZE) in
              let! s := bq_get in
              let idx := length (br_archs s) in
              put_st (BReg (br_er s)
                        (<[len - 1 := vec_insert level ins (AKey (ad_id d) idx)]> (br_maps s))
                        (br_archs s ++ [a]) (br_mem s)) ;;!
              ret (Some idx)
        end
    end.
(** mod.rs:110-134 *)
Definition b_find_adding (c : cfg) (src : nat) (d : cdesc) : BRM (option (nat * nat)) :=
  let! s := bq_get in
  if length (br_archs s) <? src then ret None
  else
    match br_archs s !! src with
    | None => mpanic
    | Some a =>
        let! od := lift_rd (ad_add_component (big c) (b_desc a) d) in
        match od with
        | None => ret None
        | Some nd =>
            let! oi := b_find_or_create nd in
            match oi with
            | None => ret None
            | Some dst =>
                let! s := bq_get in
                lift_rd (disjoint_mut (length (br_archs s)) src dst)
            end
        end
    end.
(** mod.rs:138-162 *)
Definition b_find_removing (c : cfg) (src : nat) (d : cdesc) : BRM (option (nat * nat)) :=
  let! s := bq_get in
  if length (br_archs s) <? src then ret None
  else
    match br_archs s !! src with
    | None => mpanic
    | Some a =>
        let! od := lift_rd (ad_remove_component (big c) (b_desc a) (cd_id d)) in
        match od with
        | None => ret None
        | Some nd =>
            let! oi := b_find_or_create nd in
            match oi with
            | None => ret None
            | Some dst =>
                let! s := bq_get in
                lift_rd (disjoint_mut (length (br_archs s)) src dst)
            end
        end
    end.

(** ** Iterators *)
Definition b_slices_next {I} (c : cfg) (G : group) (accept : adesc -> bool) (item : barch -> mem -> rd I)
    (s : breg) (st : itst) : rd (option I * itst) :=
  letr (o, st') := arch_iter_next c G accept (shadow s) st in
  match o with
  | None => Rd (None, st')
  | Some i =>
      match br_archs s !! i with
      | None => RdUB
      | Some a => letr x := item a (br_mem s) in Rd (Some x, st')
      end
  end.
Definition b_slices_collect {I} (c : cfg) (G : group) (accept : adesc -> bool) (item : barch -> mem -> rd I)
    (s : breg) : rd (option (list I)) :=
  letr st := arch_iter_new c G in
  collect (b_slices_next c G accept item s) (S (length (concat (br_maps s)))) st.
(** mod.rs:217-295 via registry.rs:353-461 *)
Definition b_iter_matching (c : cfg) (G : group) (s : breg) : rd (option (list (list (list value)))) :=
  b_slices_collect c G (accept_matching (big c) G) (b_get_fuzzy_slices c G) s.
Definition b_iter_matching_mut (c : cfg) (G : group) (s : breg) : rd (option (list (list (list bloc)))) :=
  b_slices_collect c G (accept_matching (big c) G) (b_get_fuzzy_slices_mut c G) s.
Definition b_iter_entity_matching (c : cfg) (G : group) (s : breg) : rd (option (list (list N * list (list value)))) :=
  b_slices_collect c G (accept_matching (big c) G) (b_get_entity_fuzzy_slices c G) s.
Definition b_iter_entity_matching_mut (c : cfg) (G : group) (s : breg) : rd (option (list (list N * list (list bloc)))) :=
  b_slices_collect c G (accept_matching (big c) G) (b_get_entity_fuzzy_slices_mut c G) s.
Definition b_iter_filtered (c : cfg) (G : group) (f : adesc -> bool) (s : breg) : rd (option (list (list (list value)))) :=
  b_slices_collect c G (accept_filtered (big c) G f) (b_get_fuzzy_slices c G) s.
Definition b_iter_filtered_mut (c : cfg) (G : group) (f : adesc -> bool) (s : breg) : rd (option (list (list (list bloc)))) :=
  b_slices_collect c G (accept_filtered (big c) G f) (b_get_fuzzy_slices_mut c G) s.
Definition b_iter_entity_filtered (c : cfg) (G : group) (f : adesc -> bool) (s : breg) : rd (option (list (list N * list (list value)))) :=
  b_slices_collect c G (accept_filtered (big c) G f) (b_get_entity_fuzzy_slices c G) s.
Definition b_iter_entity_filtered_mut (c : cfg) (G : group) (f : adesc -> bool) (s : breg) : rd (option (list (list N * list (list bloc)))) :=
  b_slices_collect c G (accept_filtered (big c) G f) (b_get_entity_fuzzy_slices_mut c G) s.

(** ** Exact access (registry.rs:465-523) *)
Definition b_find_exact (c : cfg) (G : group) (s : breg) : rd (option barch) :=
  letr o := find_archetype (gd_arch (group_desc (big c) G)) (shadow s) in
  match o with
  | None => Rd None
  | Some i => match br_archs s !! i with None => RdPanic | Some a => Rd (Some a) end
  end.
Definition b_exact (c : cfg) (G : group) (s : breg) : rd (list (list value)) :=
  letr o := b_find_exact c G s in
  match o with None => Rd (empty_slices G) | Some a => b_get_slices_exact c G a (br_mem s) end.
Definition b_exact_mut (c : cfg) (G : group) (s : breg) : rd (list (list bloc)) :=
  letr o := b_find_exact c G s in
  match o with None => Rd (empty_slices G) | Some a => b_get_slices_exact_mut c G a (br_mem s) end.
Definition b_entity_exact (c : cfg) (G : group) (s : breg) : rd (list N * list (list value)) :=
  letr o := b_find_exact c G s in
  match o with
  | None => Rd ([], empty_slices G)
  | Some a => letr es := b_entities a (br_mem s) in letr cols := b_get_slices_exact c G a (br_mem s) in Rd (es, cols)
  end.
Definition b_entity_exact_mut (c : cfg) (G : group) (s : breg) : rd (list N * list (list bloc)) :=
  letr o := b_find_exact c G s in
  match o with
  | None => Rd ([], empty_slices G)
  | Some a => letr es := b_entities a (br_mem s) in letr cols := b_get_slices_exact_mut c G a (br_mem s) in Rd (es, cols)
  end.

(** ** Entity-level operations (registry.rs:21-342) *)
Definition b_entry_of (c : cfg) (s : breg) (h : N) : option entry := er_entity_entry (big c) (br_er s) h.
Definition b_update_entry (c : cfg) (h : N) (f : entry -> entry) : BRM unit := fun s =>
  match er_update_entry (big c) (br_er s) h f with
  | None => Panic s
  | Some r => Ret tt (BReg r (br_maps s) (br_archs s) (br_mem s))
  end.
Definition b_dropping_on_panic {A} (vs : list value) (f : BRM A) : BRM A := fun s =>
  match f s with
  | Ret x s' => Ret x s'
  | Panic s' =>
      let m := br_mem s' in
      Panic (BReg (br_er s') (br_maps s') (br_archs s')
        (Mem (m_blocks m) (m_next m) (m_place m) (Env (ev_trace (m_env m) ++ map EvDrop vs) (ev_oracle (m_env m)))))
  | UB => UB
  end.

(** registry.rs:21-39 *)
Definition b_create_entity (c : cfg) (G : group) (vs : list value) : BRM (result N (list value)) :=
  b_dropping_on_panic vs (
    let g := group_desc (big c) G in
    if negb (gd_is_valid g) then ret (Err vs)
    else
      let! oi := b_find_or_create (gd_arch g) in
      match oi with
      | None => ret (Err vs)
      | Some i =>
          let! a := bq_rd (b_arch_at i) in
          let! row := unwrap (iia_new (N.of_nat (b_count a))) in
          let! ai := unwrap (ai_new (N.of_nat i)) in
          let! oh := bq_er (er_create_entity (big c) row ai) in
          match oh with
          | None => ret (Err vs)
          | Some h =>
              let! _ := b_with_arch i (b_push_entity c G h vs) in
              ret (Ok h)
          end
      end).
(** registry.rs:43-66 *)
Definition b_destroy_entity (c : cfg) (h : N) : BRM bool :=
  let! s := bq_get in
  match b_entry_of c s h with
  | None => ret false
  | Some e =>
      let i := e_arch c e in
      let row := e_row e in
      let! swapped := b_with_arch i (b_swap_drop c row) in
      (if swapped then
        let! a := bq_rd (b_arch_at i) in
        let! h' := bq_mrd (fun m => b_entity_at_unchecked a m row) in
        b_update_entry c h' (fun e' => entry_set_index_in_archetype e' (entry_index_in_archetype e))
      else ret tt) ;;!
      let! v := bq_er (er_destroy_entity (big c) h) in
      mdebug_assert (dbg c) v ;;!
      ret true
  end.
(** registry.rs:71-99 *)
Definition b_remove_entity (c : cfg) (G : group) (h : N) : BRM (option (list value)) :=
  let! s := bq_get in
  match b_entry_of c s h with
  | None => ret None
  | Some e =>
      let i := e_arch c e in
      let row := e_row e in
      let! (data, swapped) := b_with_arch i (b_swap_remove c G row) in
      b_dropping_on_panic data (
        (if (swapped : bool) then
          let! a := bq_rd (b_arch_at i) in
          let! h' := bq_mrd (fun m => b_entity_at a m row) in
          b_update_entry c h' (fun e' => entry_set_index_in_archetype e' (entry_index_in_archetype e))
        else ret tt) ;;!
        let! v := bq_er (er_destroy_entity (big c) h) in
        mdebug_assert (dbg c) v ;;!
        ret (Some data))
  end.
(** registry.rs:103-110 *)
Definition b_has_component (c : cfg) (C : ctype) (h : N) (s : breg) : rd bool :=
  match b_entry_of c s h with
  | None => Rd false
  | Some e => letr a := b_arch_at (e_arch c e) s in Rd (ad_has_component (b_desc a) C)
  end.
(** registry.rs:115-124 *)
Definition b_has_components (c : cfg) (G : group) (h : N) (s : breg) : rd bool :=
  match b_entry_of c s h with
  | None => Rd false
  | Some e =>
      letr a := b_arch_at (e_arch c e) s in
      Rd (ad_contains_subset (b_desc a) (gd_arch (group_desc (big c) G)))
  end.
(** registry.rs:128-141 *)
Definition b_get (c : cfg) (C : ctype) (h : N) (s : breg) : rd (option value) :=
  match b_entry_of c s h with
  | None => Rd None
  | Some e =>
      letr a := b_arch_at (e_arch c e) s in
      if negb (ad_has_component (b_desc a) C) then Rd None
      else letr v := b_get_component C (e_row e) a (br_mem s) in Rd (Some v)
  end.
(** registry.rs:146-165 *)
Definition b_get_all (c : cfg) (G : group) (h : N) (s : breg) : rd (option (list value)) :=
  match b_entry_of c s h with
  | None => Rd None
  | Some e =>
      letr a := b_arch_at (e_arch c e) s in
      if negb (ad_contains_subset (b_desc a) (gd_arch (group_desc (big c) G))) then Rd None
      else letr vs := b_get_fuzzy_components c G (e_row e) a (br_mem s) in Rd (Some vs)
  end.
(** registry.rs:170-183 *)
Definition b_get_mut (c : cfg) (C : ctype) (h : N) (s : breg) : rd (option bloc) :=
  match b_entry_of c s h with
  | None => Rd None
  | Some e =>
      letr a := b_arch_at (e_arch c e) s in
      if negb (ad_has_component (b_desc a) C) then Rd None
      else letr l := b_get_component_mut C (e_row e) a (br_mem s) in Rd (Some l)
  end.
(** registry.rs:187-206 *)
Definition b_get_all_mut (c : cfg) (G : group) (h : N) (s : breg) : rd (option (list bloc)) :=
  match b_entry_of c s h with
  | None => Rd None
  | Some e =>
      letr a := b_arch_at (e_arch c e) s in
      if negb (ad_contains_subset (b_desc a) (gd_arch (group_desc (big c) G))) then Rd None
      else letr ls := b_get_fuzzy_components_mut c G (e_row e) a (br_mem s) in Rd (Some ls)
  end.
(** registry.rs:213-274 *)
Definition b_add_component (c : cfg) (C : ctype) (h : N) (v : value) : BRM (result unit value) :=
  let! s := bq_get in
  match b_entry_of c s h with
  | None => ret (Err v)
  | Some e =>
      let row := e_row e in
      let! o := b_dropping_on_panic [v] (b_find_adding c (e_arch c e) (cdesc_of C)) in
      match o with
      | None => ret (Err v)
      | Some (src, dst) =>
          let! (srow, drow) := b_dropping_on_panic [v] (
            let! swapped := b_with_arch src (b_swap_to_last c row) in
            (if (swapped : bool) then
              let! a := bq_rd (b_arch_at src) in
              let! h' := bq_mrd (fun m => b_entity_at a m row) in
              b_update_entry c h' (fun e' => entry_set_index_in_archetype e' (entry_index_in_archetype e))
            else ret tt) ;;!
            let! _ := b_with_arch dst b_push_uninitialized in
            let! sa := bq_rd (b_arch_at src) in
            let! da := bq_rd (b_arch_at dst) in
            let! srow := lift_rd (b_last_row c sa) in
            let! drow := lift_rd (b_last_row c da) in
            b_with_arch dst (b_copy_common sa srow drow) ;;!
            b_with_arch dst (b_write_single C drow v) ;;!
            ret (srow, drow)) in
          let! sa := bq_rd (b_arch_at src) in
          let! hs := bq_mrd (fun m => b_entity_at sa m srow) in
          b_with_arch dst (b_write_entity drow hs) ;;!
          b_with_arch src (b_decrement_len c) ;;!
          b_update_entry c h (fun e' => entry_set_archetype_index (big c) e' (N.of_nat dst)) ;;!
          let! idx := unwrap (iia_new (N.of_nat drow)) in
          b_update_entry c h (fun e' => entry_set_index_in_archetype e' idx) ;;!
          ret (Ok tt)
      end
  end.
(** registry.rs:281-342 *)
Definition b_remove_component (c : cfg) (C : ctype) (h : N) : BRM (result value unit) :=
  let! s := bq_get in
  match b_entry_of c s h with
  | None => ret (Err tt)
  | Some e =>
      let row := e_row e in
      let! o := b_find_removing c (e_arch c e) (cdesc_of C) in
      match o with
      | None => ret (Err tt)
      | Some (src, dst) =>
          let! swapped := b_with_arch src (b_swap_to_last c row) in
          (if (swapped : bool) then
            let! a := bq_rd (b_arch_at src) in
            let! h' := bq_mrd (fun m => b_entity_at a m row) in
            b_update_entry c h' (fun e' => entry_set_index_in_archetype e' (entry_index_in_archetype e))
          else ret tt) ;;!
          let! _ := b_with_arch dst b_push_uninitialized in
          let! sa := bq_rd (b_arch_at src) in
          let! da := bq_rd (b_arch_at dst) in
          let! srow := lift_rd (b_last_row c sa) in
          let! drow := lift_rd (b_last_row c da) in
          b_with_arch dst (b_copy_common sa srow drow) ;;!
          let! v := bq_mrd (fun m => b_get_component C srow sa m) in
          b_dropping_on_panic [v] (
            let! hs := bq_mrd (fun m => b_entity_at sa m srow) in
            b_with_arch dst (b_write_entity drow hs) ;;!
            b_with_arch src (b_decrement_len c) ;;!
            b_update_entry c h (fun e' => entry_set_archetype_index (big c) e' (N.of_nat dst)) ;;!
            let! idx := unwrap (iia_new (N.of_nat drow)) in
            b_update_entry c h (fun e' => entry_set_index_in_archetype e' idx) ;;!
            ret (Ok v))
      end
  end.
(** registry.rs:347-349 *)
Definition b_iter_entities (c : cfg) (s : breg) : rd (option (list N)) := er_iter (big c) (br_er s).

(** ** Writing through the references handed out
    [mem::replace] through a reference: its bytes are read, must represent a
    value, and are overwritten.  (Alignment and type were checked when the
    reference was made.) *)
Definition b_replace (l : bloc) (v : value) : BRM value :=
  let! bs := bq_mrd (fun m => load m l.1 l.2) in
  match bytes_val bs with
  | None => mub
  | Some ov => bq_mem (store l.1 (val_bytes l.2 v)) ;;! ret ov
  end.
Fixpoint b_replaces (ls : list bloc) (vs : list value) : BRM (list value) :=
  match ls, vs with
  | l :: ls', v :: vs' =>
      let! ov := b_replace l v in
      let! ovs := b_replaces ls' vs' in
      ret (ov :: ovs)
  | _, _ => ret []
  end.
Definition b_modify (f : value -> value) (l : bloc) : BRM value :=
  let! bs := bq_mrd (fun m => load m l.1 l.2) in
  match bytes_val bs with
  | None => mub
  | Some ov => b_replace l (f ov)
  end.
Definition b_modify_item (upd : nat -> value -> value) (cols : list (list bloc)) : BRM (list (list value)) :=
  mmap (fun '(i, col) => mmap (b_modify (upd i)) col) (enum cols).
Definition b_modify_items (upd : nat -> value -> value) (items : list (list (list bloc))) : BRM (list (list (list value))) :=
  mmap (b_modify_item upd) items.
Definition b_modify_eitems (upd : nat -> value -> value) (items : list (list N * list (list bloc))) : BRM (list (list N * list (list value))) :=
  mmap (fun '(es, cols) => let! vs := b_modify_item upd cols in ret (es, vs)) items.

(** ** Dropping the registry *)
Fixpoint b_drop_archs (k : nat) (n : nat) (panicked : bool) : BRM unit := fun s =>
  match n with
  | O => if panicked then Panic s else Ret tt s
  | S n' =>
      match b_with_arch k b_drop s with
      | Ret _ s' => b_drop_archs (S k) n' panicked s'
      | Panic s' => b_drop_archs (S k) n' true s'
      | UB => UB
      end
  end.
Definition b_drop_registry : BRM unit :=
  let! s := bq_get in b_drop_archs 0 (length (br_archs s)) false.

(** ** The whole API, and programs *)
Definition bstep (c : cfg) (o : op) : BRM output :=
  match o with
  | OpCreate G vs => let! r := b_create_entity c G vs in ret (OutCreate r)
  | OpDestroy h => let! b := b_destroy_entity c h in ret (OutBool b)
  | OpRemoveEntity G h => let! x := b_remove_entity c G h in ret (OutVals x)
  | OpHas C h => let! b := bq_rd (b_has_component c C h) in ret (OutBool b)
  | OpHasAll G h => let! b := bq_rd (b_has_components c G h) in ret (OutBool b)
  | OpGet C h => let! x := bq_rd (b_get c C h) in ret (OutVal x)
  | OpGetAll G h => let! x := bq_rd (b_get_all c G h) in ret (OutVals x)
  | OpSet C h v =>
      let! l := bq_rd (b_get_mut c C h) in
      match l with
      | None => ret (OutVal None)
      | Some l => let! old := b_replace l v in ret (OutVal (Some old))
      end
  | OpSetAll G h vs =>
      let! ls := bq_rd (b_get_all_mut c G h) in
      match ls with
      | None => ret (OutVals None)
      | Some ls => let! olds := b_replaces ls vs in ret (OutVals (Some olds))
      end
  | OpAdd C h v => let! r := b_add_component c C h v in ret (OutAdd r)
  | OpRemove C h => let! r := b_remove_component c C h in ret (OutRemove r)
  | OpIterEntities => let! l := bq_rd (b_iter_entities c) in let! l := unwrap l in ret (OutEntities l)
  | OpIter G => let! l := bq_rd (b_iter_matching c G) in let! l := unwrap l in ret (OutCols l)
  | OpIterE G => let! l := bq_rd (b_iter_entity_matching c G) in let! l := unwrap l in ret (OutECols l)
  | OpIterF G f => let! l := bq_rd (b_iter_filtered c G f) in let! l := unwrap l in ret (OutCols l)
  | OpIterEF G f => let! l := bq_rd (b_iter_entity_filtered c G f) in let! l := unwrap l in ret (OutECols l)
  | OpIterMut G upd =>
      let! l := bq_rd (b_iter_matching_mut c G) in let! l := unwrap l in
      let! old := b_modify_items upd l in ret (OutCols old)
  | OpIterEMut G upd =>
      let! l := bq_rd (b_iter_entity_matching_mut c G) in let! l := unwrap l in
      let! old := b_modify_eitems upd l in ret (OutECols old)
  | OpIterFMut G f upd =>
      let! l := bq_rd (b_iter_filtered_mut c G f) in let! l := unwrap l in
      let! old := b_modify_items upd l in ret (OutCols old)
  | OpIterEFMut G f upd =>
      let! l := bq_rd (b_iter_entity_filtered_mut c G f) in let! l := unwrap l in
      let! old := b_modify_eitems upd l in ret (OutECols old)
  | OpExact G => let! l := bq_rd (b_exact c G) in ret (OutCols [l])
  | OpExactE G => let! l := bq_rd (b_entity_exact c G) in ret (OutECols [l])
  | OpExactMut G upd =>
      let! l := bq_rd (b_exact_mut c G) in
      let! old := b_modify_items upd [l] in ret (OutCols old)
  | OpExactEMut G upd =>
      let! l := bq_rd (b_entity_exact_mut c G) in
      let! old := b_modify_eitems upd [l] in ret (OutECols old)
  end.
Fixpoint brun (c : cfg) (ops : list op) : BRM (list output) :=
  match ops with
  | [] => ret []
  | o :: ops' => let! x := bstep c o in let! xs := brun c ops' in ret (x :: xs)
  end.
