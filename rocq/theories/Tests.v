(** * The project's own unit tests and example programs, run on the model

    Every [#[test]] of /repo/src is transcribed statement by statement into a
    model program: [assert!] is [massert], [unwrap] is [unwrap], a value going
    out of scope at the end of the test is its [Drop].  The [Example]s below
    evaluate the programs for the four kinds of build (debug or release, little
    or big endian): none panics, none is undefined behaviour.  This validates
    the definitions of the model against what the project's authors checked; no
    theorem depends on it.  The last part runs the programs of /repo/examples. *)
From Verif Require Import RegModel Instances.
Local Open Scope N_scope.

(** ** Assertions *)
Definition assert_eq {S A} `{EqDecision A} (x y : A) : M S unit := massert (bool_decide (x = y)).
Definition is_some {A} (o : option A) : bool := match o with Some _ => true | None => false end.
Definition is_ok {A B} (r : result A B) : bool := match r with Ok _ => true | Err _ => false end.
Definition unwrap_ok {S A B} (r : result A B) : M S A := match r with Ok x => ret x | Err _ => mpanic end.
(** The test ran to its end. *)
Definition passes {S A} (r : res S A) : bool := match r with Ret _ _ => true | _ => false end.
(** The four kinds of build. *)
Definition builds : list cfg := [Cfg false false; Cfg false true; Cfg true false; Cfg true true].

(** ** src/test_components.rs: three components holding one [usize] *)
Definition cA := CType 1 1 8 8.
Definition cB := CType 2 2 8 8.
Definition cC := CType 3 3 8 8.
Definition vA (n : Z) := Value 1 n false.
Definition vB (n : Z) := Value 2 n false.
Definition vC (n : Z) := Value 3 n false.
(** test_components.rs:7-11, :20-24, :33-37 *)
Definition dA := vA 1.
Definition dB := vB 2.
Definition dC := vC 3.

(** ** src/entity_registry/entity.rs:85-102 *)
Definition test_entity_handles (c : cfg) : M unit unit :=
  let entity := ent_new_unchecked 8000000 255 in
  assert_eq (ent_index entity) 8000000 ;;!
  assert_eq (ent_version entity) 255 ;;!
  let entity := ent_set_version entity 20 in
  assert_eq (ent_version entity) 20 ;;!
  assert_eq (ent_index entity) 8000000 ;;!
  let! entity := unwrap (ent_set_index (dbg c) entity 30) in
  assert_eq (ent_index entity) 30 ;;!
  assert_eq (ent_version entity) 20 ;;!
  assert_eq (ent_raw ent_INVALID) 4294967295.
Example test_entity_handles_passes : forallb (fun c => passes (test_entity_handles c tt)) builds = true.
Proof. vm_compute. reflexivity. Qed.

(** ** src/entity_registry/entry.rs:70-138 *)
Definition TEST_VALUES_U8 : list N := [0; 3; 7; 12; 89; 254; 255; 72; 134; 1].
Definition TEST_VALUES_U16 : list N := [0; 1; 3; 7; 234; 29304; 13032; 65535; 65534; 1].
Definition TEST_VALUES_U32 : list N := [0; 1; 3; 7; 234; 2429304; 13032; iia_INVALID_VALUE - 1; 2304820; 1].
Definition entry_bytes (e : entry) : list N := [eb0 e; eb1 e; eb2 e; eb3 e; eb4 e; eb5 e].
(** entry.rs:86-101 *)
Definition check_bytes (before after : list N) (mutation_allowed : list nat) : bool :=
  forallb (fun '(i, (x, y)) => bool_decide (i ∈ mutation_allowed) || (x =? y)) (enum (zip before after)).
Definition test_entity_register_entry (c : cfg) : M entry unit :=
  let! entry := get_st in
  assert_eq (entry_version entry) 0 ;;!
  assert_eq (entry_archetype_index (big c) entry) 0 ;;!
  assert_eq (entry_index_in_archetype entry) 0 ;;!
  mfor TEST_VALUES_U32 (fun value =>
    let! idx := unwrap (iia_new value) in assert_eq idx value) ;;!
  mfor TEST_VALUES_U8 (fun value =>
    let! before := get_st in
    put_st (entry_set_version before value) ;;!
    let! entry := get_st in
    assert_eq (entry_version entry) value ;;!
    massert (check_bytes (entry_bytes before) (entry_bytes entry) [0%nat])) ;;!
  mfor TEST_VALUES_U16 (fun value =>
    let! before := get_st in
    put_st (entry_set_archetype_index (big c) before value) ;;!
    let! entry := get_st in
    assert_eq (entry_archetype_index (big c) entry) value ;;!
    massert (check_bytes (entry_bytes before) (entry_bytes entry) [4; 5]%nat)) ;;!
  mfor TEST_VALUES_U32 (fun value =>
    let! before := get_st in
    put_st (entry_set_index_in_archetype before value) ;;!
    let! entry := get_st in
    assert_eq (entry_index_in_archetype entry) value ;;!
    massert (check_bytes (entry_bytes before) (entry_bytes entry) [1; 2; 3]%nat)).
Example test_entity_register_entry_passes :
  forallb (fun c => passes (test_entity_register_entry c entry_default)) builds = true.
Proof. vm_compute. reflexivity. Qed.

(** ** src/entity_registry/mod.rs:106-157 *)
(** mod.rs:107-122; the [while] loop gets fuel one more than the table is long
    (it would not end on a cyclic list: that is a failure here). *)
Fixpoint walk_free_list (c : cfg) (fuel : nat) (value : N) : M er unit :=
  match fuel with
  | O => mpanic
  | S fuel' =>
      if value =? iia_INVALID_VALUE then ret tt
      else
        let! r := get_st in
        massert (value <=? N.of_nat (length (er_ents r))) ;;!
        let! slot := unwrap (er_ents r !! N.to_nat value) in
        massert (negb (entry_is_valid (big c) slot)) ;;!
        walk_free_list c fuel' (entry_index_in_archetype slot)
  end.
Definition verify_linked_list (c : cfg) : M er unit :=
  let! r := get_st in
  if er_next r =? iia_INVALID_VALUE then mfor (er_ents r) (fun e => massert (entry_is_valid (big c) e))
  else walk_free_list c (S (length (er_ents r))) (er_next r).
Definition er_entry (c : cfg) (h : N) : M er (option entry) :=
  let! r := get_st in ret (er_entity_entry (big c) r h).
(** [entity_entry_mut(h).is_none()] *)
Definition er_entry_mut_none (c : cfg) (h : N) : M er bool :=
  let! r := get_st in ret (negb (is_some (er_update_entry (big c) r h id))).
Definition test_entity_register (c : cfg) : M er unit :=
  let! index_in_archetype := unwrap (iia_new 1) in
  let! archetype_index := unwrap (ai_new 1) in
  let! oh := er_create_entity (big c) index_in_archetype archetype_index in
  let! entity := unwrap oh in
  let! e := er_entry c entity in
  massert (is_some e) ;;!
  verify_linked_list c ;;!
  let! r := get_st in
  assert_eq (er_next r) iia_INVALID_VALUE ;;!
  assert_eq (length (er_ents r)) 1%nat ;;!
  let! b := er_destroy_entity (big c) entity in
  massert b ;;!
  let! r := get_st in
  assert_eq (er_next r) (ent_index entity) ;;!
  let! slot := unwrap (er_ents r !! N.to_nat (ent_index entity)) in
  massert (negb (entry_is_valid (big c) slot)) ;;!
  assert_eq (entry_version slot) 1 ;;!
  assert_eq (entry_archetype_index (big c) slot) INVALID_ARCHETYPE_INDEX ;;!
  let! e := er_entry c entity in
  massert (negb (is_some e)) ;;!
  let! n := er_entry_mut_none c entity in
  massert n ;;!
  let! oh := er_create_entity (big c) index_in_archetype archetype_index in
  let! entity := unwrap oh in
  let! e := er_entry c entity in
  let! e := unwrap e in
  assert_eq (entry_archetype_index (big c) e) archetype_index ;;!
  assert_eq (entry_index_in_archetype e) index_in_archetype ;;!
  assert_eq (ent_index entity) 0 ;;!
  verify_linked_list c ;;!
  let! r := get_st in
  assert_eq (er_next r) iia_INVALID_VALUE ;;!
  assert_eq (length (er_ents r)) 1%nat.
Example test_entity_register_passes :
  forallb (fun c => passes (test_entity_register c er_default)) builds = true.
Proof. vm_compute. reflexivity. Qed.

(** ** src/entity_registry/mod.rs:159-208 *)
Definition ENTITY_COUNT : nat := 1024%nat.
(** [(0..n).filter_map(|_| create_entity(..)).collect()] *)
Fixpoint create_many (c : cfg) (n : nat) (row ai : N) : M er (list N) :=
  match n with
  | O => ret []
  | S n' =>
      let! o := er_create_entity (big c) row ai in
      let! l := create_many c n' row ai in
      ret (match o with Some h => h :: l | None => l end)
  end.
Definition check_dead (c : cfg) (h : N) : M er unit :=
  let! b := er_destroy_entity (big c) h in
  massert (negb b) ;;!
  let! e := er_entry c h in
  massert (negb (is_some e)) ;;!
  let! n := er_entry_mut_none c h in
  massert n.
Definition check_alive (c : cfg) (version_ok : N -> bool) (h : N) : M er unit :=
  let! e := er_entry c h in
  let! e := unwrap e in
  massert (version_ok (entry_version e)) ;;!
  assert_eq (entry_archetype_index (big c) e) 1 ;;!
  assert_eq (entry_index_in_archetype e) 2 ;;!
  let! b := er_destroy_entity (big c) h in
  massert b.
Definition test_many_entities (c : cfg) : M er unit :=
  let! b := er_destroy_entity (big c) ent_INVALID in
  massert (negb b) ;;!
  let! index_in_archetype := unwrap (iia_new 2) in
  let! archetype_index := unwrap (ai_new 1) in
  let! entities := create_many c ENTITY_COUNT index_in_archetype archetype_index in
  mfor (rev entities) (check_alive c (fun v => v =? 0)) ;;!
  mfor entities (check_dead c) ;;!
  let! b := er_destroy_entity (big c) ent_INVALID in
  massert (negb b) ;;!
  let! entities := create_many c ENTITY_COUNT index_in_archetype archetype_index in
  mfor (rev entities) (check_alive c (fun v => negb (v =? 0))) ;;!
  mfor entities (check_dead c) ;;!
  let! r := get_st in
  let! l := lift_rd (er_iter (big c) r) in
  massert (is_some l).
(** A computation too long to be kept as a proof term: it is checked here, when the
    file is compiled, and not again. *)
Check (eq_refl true <: forallb (fun c => passes (test_many_entities c er_default)) builds = true).

(** ** src/descriptors/component_group_descriptor.rs:178-244: components without
    fields *)
Definition zA := CType 1 1 0 1.
Definition zB := CType 2 2 0 1.
Definition zC := CType 3 3 0 1.
Global Instance cdesc_eq_dec : EqDecision cdesc.
Proof. solve_decision. Defined.
(** component_group_descriptor.rs:195-206 *)
Definition test_compute_sorted_descriptors : M unit unit :=
  let result := compute_sorted_descriptors (map cdesc_of [zA; zB; zC]) in
  assert_eq (Some (cdesc_of zA)) (result !! 0%nat) ;;!
  assert_eq (Some (cdesc_of zB)) (result !! 1%nat) ;;!
  assert_eq (Some (cdesc_of zC)) (result !! 2%nat).
Example test_compute_sorted_descriptors_passes : passes (test_compute_sorted_descriptors tt) = true.
Proof. vm_compute. reflexivity. Qed.
(** component_group_descriptor.rs:208-243 *)
Definition test_compute_sort_mappings : M unit unit :=
  let unsorted := map cdesc_of [zA; zB; zC] in
  let (u2s, s2u) := compute_sort_mappings unsorted (compute_sorted_descriptors unsorted) in
  assert_eq (take 3 u2s) [0; 1; 2]%nat ;;!
  assert_eq (take 3 s2u) [0; 1; 2]%nat ;;!
  let unsorted := map cdesc_of [zB; zC; zA] in
  let (u2s, s2u) := compute_sort_mappings unsorted (compute_sorted_descriptors unsorted) in
  assert_eq (take 3 u2s) [1; 2; 0]%nat ;;!
  assert_eq (take 3 s2u) [2; 0; 1]%nat.
Example test_compute_sort_mappings_passes : passes (test_compute_sort_mappings tt) = true.
Proof. vm_compute. reflexivity. Qed.

(** ** src/descriptors/archetype_descriptor.rs:210-277 *)
Definition descr (c : cfg) (G : group) : adesc := gd_arch (group_desc (big c) G).
Definition test_archetype_descriptor_add_remove (c : cfg) : M unit unit :=
  let d := descr c [cA; cB] in
  massert (ad_has_component d cA) ;;!
  massert (ad_has_component d cB) ;;!
  let! d := lift_rd (ad_add_component (big c) d (cdesc_of cC)) in
  let! d := unwrap d in
  massert (ad_has_component d cC) ;;!
  massert (ad_has_component d cA) ;;!
  massert (ad_has_component d cB) ;;!
  let! d := lift_rd (ad_remove_component (big c) d (ct_id cB)) in
  let! d := unwrap d in
  massert (negb (ad_has_component d cB)) ;;!
  massert (ad_has_component d cA) ;;!
  massert (ad_has_component d cC) ;;!
  assert_eq (ad_len d) 2%nat.
Definition test_archetype_descriptor_contains (c : cfg) : M unit unit :=
  assert_eq (ad_contains_subset (descr c [cA; cB]) (descr c [cA])) true ;;!
  assert_eq (ad_contains_subset (descr c [cA; cB]) (descr c [cB])) true ;;!
  assert_eq (ad_contains_subset (descr c [cA; cB]) (descr c [cC])) false.
Definition test_archetype_descriptor_excludes (c : cfg) : M unit unit :=
  assert_eq (ad_excludes_subset (descr c [cA; cB]) (descr c [cC])) true ;;!
  assert_eq (ad_excludes_subset (descr c [cA; cB]) (descr c [cA])) false ;;!
  assert_eq (ad_contains_subset (descr c [cA; cB]) (descr c [cB])) true.
Example test_archetype_descriptor_add_remove_passes :
  forallb (fun c => passes (test_archetype_descriptor_add_remove c tt)) builds = true.
Proof. vm_compute. reflexivity. Qed.
Example test_archetype_descriptor_contains_passes :
  forallb (fun c => passes (test_archetype_descriptor_contains c tt)) builds = true.
Proof. vm_compute. reflexivity. Qed.
Example test_archetype_descriptor_excludes_passes :
  forallb (fun c => passes (test_archetype_descriptor_excludes c tt)) builds = true.
Proof. vm_compute. reflexivity. Qed.

(** ** src/descriptors/component_group.rs:541-579: components whose id is the
    default one, the hash of their name *)
(** The bytes of "Position", "Rotation" and "Velocity". *)
Definition name_Position : list N := [80; 111; 115; 105; 116; 105; 111; 110].
Definition name_Rotation : list N := [82; 111; 116; 97; 116; 105; 111; 110].
Definition name_Velocity : list N := [86; 101; 108; 111; 99; 105; 116; 121].
Definition named (c : cfg) (ty : N) (name : list N) (size align : N) : ctype :=
  CType ty (default_component_id (big c) name) size align.
Definition test_component_group_len (c : cfg) : M unit unit :=
  let position := named c 1 name_Position 0 1 in
  let rotation := named c 2 name_Rotation 0 1 in
  let velocity := named c 3 name_Velocity 0 1 in
  assert_eq (ad_len (descr c [position])) 1%nat ;;!
  assert_eq (ad_len (descr c [position; rotation])) 2%nat ;;!
  assert_eq (ad_len (descr c [position; rotation; velocity])) 3%nat.
Definition test_component_group_descriptor (c : cfg) : M unit unit :=
  let position := named c 1 name_Position 0 1 in
  let rotation := named c 2 name_Rotation 0 1 in
  massert (gd_is_valid (group_desc (big c) [position])) ;;!
  massert (negb (gd_is_valid (group_desc (big c) [position; position]))) ;;!
  massert (gd_is_valid (group_desc (big c) [position; rotation])).
Example test_component_group_len_passes :
  forallb (fun c => passes (test_component_group_len c tt)) builds = true.
Proof. vm_compute. reflexivity. Qed.
Example test_component_group_descriptor_passes :
  forallb (fun c => passes (test_component_group_descriptor c tt)) builds = true.
Proof. vm_compute. reflexivity. Qed.

(** ** src/descriptors/component_group.rs:203-353: pointer shuffling.  The tuple
    whose address the test takes is the single row of an archetype here, so that
    "the address of element [i]" is the cell of a column. *)
Definition test_component_group_as_sorted_pointers (c : cfg) : M unit unit :=
  let ptrs := as_sorted_values (big c) [cA; cB; cC] [dA; dB; dC] in
  assert_eq (take 3 ptrs) [Some dA; Some dB; Some dC] ;;!
  let ptrs := as_sorted_values (big c) [cB; cC; cA] [dB; dC; dA] in
  assert_eq (take 3 ptrs) [Some dA; Some dB; Some dC].
Example test_component_group_as_sorted_pointers_passes :
  forallb (fun c => passes (test_component_group_as_sorted_pointers c tt)) builds = true.
Proof. vm_compute. reflexivity. Qed.

(** Runs an archetype test on [Archetype::new(descriptor)], which goes out of
    scope at the end. *)
Definition on_new {A} (d : adesc) (m : AM A) : M env unit :=
  let! a := a_new d in
  fun e =>
    match (let! _ := m in a_drop) (a, e) with
    | Ret _ s => Ret tt s.2
    | Panic s => Panic s.2
    | UB => UB
    end.
Definition rows_pushed (c : cfg) (G : group) (rows : list (N * list value)) : AM (list nat) :=
  mmap (fun '(h, vs) => push_entity_unchecked c G h vs) rows.

Definition test_component_group_sorted_pointers_as_ref_tuples (c : cfg) : M env unit :=
  on_new (descr c [cA; cB; cC])
    (let! _ := rows_pushed c [cA; cB; cC] [(ent_INVALID, [dA; dB; dC])] in
     let! a := am_get in
     let ptrs := own_pointers a in
     assert_eq (take 3 ptrs) [Some (0, 0); Some (1, 0); Some (2, 0)]%nat ;;!
     let! r := am_rd (pointers_as_ref_tuple (big c) [cA; cB; cC] ptrs) in
     assert_eq r [dA; dB; dC] ;;!
     let! r := am_rd (pointers_as_mut_ref_tuple (big c) [cA; cB; cC] ptrs) in
     assert_eq r [(0, 0); (1, 0); (2, 0)]%nat ;;!
     let! r := am_rd (pointers_as_ref_tuple (big c) [cB; cC; cA] ptrs) in
     assert_eq r [dB; dC; dA] ;;!
     let! r := am_rd (pointers_as_mut_ref_tuple (big c) [cC; cA; cB] ptrs) in
     assert_eq r [(2, 0); (0, 0); (1, 0)]%nat).
Definition test_component_group_sorted_pointers_to_tuples (c : cfg) : M env unit :=
  on_new (descr c [cA; cB; cC])
    (let! _ := rows_pushed c [cA; cB; cC] [(ent_INVALID, [dA; dB; dC])] in
     let! a := am_get in
     let ptrs := own_pointers a in
     let! r := am_rd (read_from_sorted_pointers (big c) [cA; cB; cC] ptrs) in
     assert_eq r [dA; dB; dC] ;;!
     let! r := am_rd (read_from_sorted_pointers (big c) [cC; cA; cB] ptrs) in
     assert_eq r [dC; dA; dB]).
Definition test_component_group_slices (c : cfg) : M env unit :=
  on_new (descr c [cA; cB; cC])
    (let! _ := rows_pushed c [cA; cB; cC] (replicate 16 (ent_INVALID, [dA; dB; dC])) in
     let! a := am_get in
     let column k := map (fun r => (k, r)) (seq 0 16) in
     let! r := am_rd (slice_unchecked_mut (big c) [cA; cB; cC] (own_pointers a) 16) in
     assert_eq r [column 0%nat; column 1%nat; column 2%nat] ;;!
     let! r := am_rd (slice_unchecked_mut (big c) [cB; cC; cA] (own_pointers a) 16) in
     assert_eq r [column 1%nat; column 2%nat; column 0%nat]).
Example test_component_group_sorted_pointers_as_ref_tuples_passes :
  forallb (fun c => passes (test_component_group_sorted_pointers_as_ref_tuples c env_init)) builds = true.
Proof. vm_compute. reflexivity. Qed.
Example test_component_group_sorted_pointers_to_tuples_passes :
  forallb (fun c => passes (test_component_group_sorted_pointers_to_tuples c env_init)) builds = true.
Proof. vm_compute. reflexivity. Qed.
Example test_component_group_slices_passes :
  forallb (fun c => passes (test_component_group_slices c env_init)) builds = true.
Proof. vm_compute. reflexivity. Qed.

(** ** src/archetype/tests.rs *)
(** tests.rs:7-15.  Each archetype is dropped at once.  The third one has
    16,777,215 rows: that case is proved, not computed. *)
Definition scoped (m : M env arch) : M env unit :=
  let! a := m in
  fun e =>
    match a_drop (a, e) with
    | Ret _ s => Ret tt s.2
    | Panic s => Panic s.2
    | UB => UB
    end.
Definition test_archetype_constructors (c : cfg) : M env unit :=
  let d := descr c [cA; cB] in
  scoped (a_new d) ;;!
  scoped (a_with_capacity d 0) ;;!
  scoped (a_with_capacity d (N.to_nat MAX_ENTITIES_PER_ARCHETYPE)) ;;!
  scoped (a_with_capacity d (S (N.to_nat MAX_ENTITIES_PER_ARCHETYPE))).

(** The descriptor of a tuple of two components, and an archetype for it with
    any number of rows in range. *)
Lemma scoped_capacity (d : adesc) (d1 d2 : cdesc) (n : nat) (e : env) :
  ad_is_valid d = true -> ad_components d = [d1; d2] ->
  cd_size d1 = 8 -> cd_align d1 = 8 -> cd_size d2 = 8 -> cd_align d2 = 8 ->
  is_some (cd_drop d1) = true -> is_some (cd_drop d2) = true ->
  (0 < n)%nat -> N.of_nat n <= MAX_ENTITIES_PER_ARCHETYPE -> ev_oracle e = [] ->
  exists e', scoped (a_with_capacity d n) e = Ret tt e' /\ ev_oracle e' = [].
Proof.
  intros Hv Hc S1 A1 S2 A2 D1 D2 Hn Hm He.
  unfold scoped, a_with_capacity, bind, massert. rewrite Hv. cbn [ret].
  replace (0 <? n)%nat with true by (symmetry; apply Nat.ltb_lt; exact Hn).
  replace (N.of_nat n <=? MAX_ENTITIES_PER_ARCHETYPE) with true by (symmetry; apply N.leb_le; exact Hm).
  cbn [andb]. rewrite Hc. cbn [alloc_columns]. rewrite S1, A1, S2, A2.
  unfold bind, mem_alloc, ask_allocator, emit, ENTITY_SIZE, ENTITY_ALIGN.
  replace (4 * N.of_nat n =? 0) with false by (symmetry; apply N.eqb_neq; lia).
  replace (8 * N.of_nat n =? 0) with false by (symmetry; apply N.eqb_neq; lia).
  replace (is_pow2 4) with true by reflexivity. replace (is_pow2 8) with true by reflexivity.
  cbn [orb negb]. unfold bind. rewrite He.
  destruct e as [tr o]. cbn [ev_oracle ev_trace] in *. subst o. cbn [ret ev_oracle ev_trace].
  cbn [app length Nat.sub replicate MAX_COMPONENTS_PER_ENTITY].
  unfold a_drop, bind, am_get. cbn [fst a_cap].
  replace (n =? 0)%nat with false by (symmetry; apply Nat.eqb_neq; lia).
  unfold drop_entities, a_dealloc, bind, am_get, a_comps, a_len. cbn [fst snd a_desc a_count].
  rewrite Hc. cbn [enum length seq zip zip_with mfor].
  unfold run_drop_handler, bind.
  destruct (cd_drop d1) as [t1|]; [|discriminate]. destruct (cd_drop d2) as [t2|]; [|discriminate].
  cbn -[N.mul N.of_nat N.eqb app bind mem_dealloc].
  unfold bind. cbn -[N.mul N.of_nat N.eqb app mem_dealloc]. rewrite Hc.
  cbn -[N.mul N.of_nat N.eqb app mem_dealloc]. unfold bind. cbn -[N.mul N.of_nat N.eqb app mem_dealloc].
  rewrite S1, A1, S2, A2.
  unfold mem_dealloc, emit. cbn -[N.mul N.of_nat N.eqb app]. rewrite !N.eqb_refl. cbn [andb].
  cbn -[N.mul N.of_nat N.eqb app]. unfold ENTITY_SIZE, ENTITY_ALIGN. cbn [andb fst snd].
  unfold am_env, am_upd, set_ptrs, ret. cbn [fst snd a_assoc a_cap a_ptrs a_desc a_count bl_size bl_align].
  rewrite !N.eqb_refl. cbn -[N.mul N.of_nat N.eqb app]. rewrite ?N.eqb_refl. cbn [andb fst snd].
  eexists. split; reflexivity.
Qed.
Example test_archetype_constructors_passes (c : cfg) :
  passes (test_archetype_constructors c env_init) = true.
Proof.
  assert (Hd : exists d1 d2, let d := descr c [cA; cB] in
    (ad_is_valid d = true /\ ad_components d = [d1; d2]) /\
    (cd_size d1 = 8 /\ cd_align d1 = 8 /\ cd_size d2 = 8 /\ cd_align d2 = 8) /\
    is_some (cd_drop d1) = true /\ is_some (cd_drop d2) = true).
  { exists (cdesc_of cA), (cdesc_of cB). destruct c as [[] []]; repeat split; vm_compute; reflexivity. }
  destruct Hd as (d1 & d2 & (Hv & Hc) & (S1 & A1 & S2 & A2) & D1 & D2).
  unfold test_archetype_constructors. cbv zeta. remember (descr c [cA; cB]) as d eqn:Ed. clear Ed.
  assert (Hcap : forall n e, (0 < n)%nat -> N.of_nat n <= MAX_ENTITIES_PER_ARCHETYPE -> ev_oracle e = [] ->
    exists e', scoped (a_with_capacity d n) e = Ret tt e' /\ ev_oracle e' = []).
  { intros n e. apply (scoped_capacity d d1 d2 n e); assumption. }
  assert (Hout : forall n e, (0 <? n)%nat && (N.of_nat n <=? MAX_ENTITIES_PER_ARCHETYPE) = false ->
    scoped (a_with_capacity d n) e = Ret tt e).
  { intros n e E. unfold scoped, a_with_capacity, bind, massert. rewrite Hv. cbn [ret]. rewrite E. reflexivity. }
  assert (Hnew : forall e, scoped (a_new d) e = scoped (a_with_capacity d DEFAULT_ARCHETYPE_ALLOCATION_SIZE) e).
  { intros e. unfold scoped, a_new, bind, massert. rewrite Hv. reflexivity. }
  unfold bind. rewrite Hnew.
  destruct (Hcap DEFAULT_ARCHETYPE_ALLOCATION_SIZE env_init) as (e1 & -> & O1); [unfold DEFAULT_ARCHETYPE_ALLOCATION_SIZE; lia|vm_compute; discriminate|reflexivity|].
  rewrite (Hout 0%nat) by reflexivity.
  destruct (Hcap (N.to_nat MAX_ENTITIES_PER_ARCHETYPE) e1) as (e2 & -> & O2);
    [unfold MAX_ENTITIES_PER_ARCHETYPE, MAX_ENTITY_HANDLE_VALUE; lia|lia|exact O1|].
  rewrite Hout; [reflexivity|].
  apply andb_false_iff. right. apply N.leb_gt. lia.
Qed.

(** tests.rs:17-55 *)
Definition test_archetype_slices (c : cfg) : M env unit :=
  on_new (descr c [cA; cB; cC])
    (let! _ := push_entity_unchecked c [cA; cB; cC] ent_INVALID [dA; dB; dC] in
     let! a := am_get in
     assert_eq (a_count a) 1%nat ;;!
     let! h := am_rd (fun a => entity_at a 0) in
     assert_eq h ent_INVALID ;;!
     let! slices := am_rd (get_slices_exact c [cA; cB; cC]) in
     assert_eq slices [[dA]; [dB]; [dC]] ;;!
     let! slices := am_rd (get_slices_exact c [cB; cA; cC]) in
     assert_eq slices [[dB]; [dA]; [dC]] ;;!
     let! slices := am_rd (get_fuzzy_slices c [cB; cA]) in
     assert_eq slices [[dB]; [dA]] ;;!
     let! slices := am_rd (get_fuzzy_slices c [cA; cC]) in
     assert_eq slices [[dA]; [dC]]).
(** Reading through the [&mut] returned by [get_component_unchecked_mut]. *)
Definition deref_mut (C : ctype) (row : nat) : AM (option value) :=
  let! l := am_rd (get_component_unchecked_mut C row) in
  am_rd (fun a => raw_cell a l.1 l.2).
(** tests.rs:57-72 *)
Definition test_archetype_get_components (c : cfg) : M env unit :=
  on_new (descr c [cA; cB; cC])
    (let! idx := push_entity_unchecked c [cA; cB; cC] ent_INVALID [dA; dB; dC] in
     let! v := am_rd (get_component_unchecked cA idx) in
     assert_eq v dA ;;!
     let! v := deref_mut cB idx in
     assert_eq v (Some dB)).
(** tests.rs:74-163 *)
Definition check_row (idx : nat) (h : N) (a b : Z) : AM unit :=
  let! v := am_rd (get_component_unchecked cA idx) in
  assert_eq v (vA a) ;;!
  let! v := am_rd (read_component_unchecked cA idx) in
  assert_eq v (vA a) ;;!
  let! v := deref_mut cB idx in
  assert_eq v (Some (vB b)) ;;!
  let! v := am_rd (read_component_unchecked cB idx) in
  assert_eq v (vB b) ;;!
  let! e := am_rd (fun a => entity_at a idx) in
  assert_eq e h.
Definition test_archetype_swap_entities (c : cfg) : M env unit :=
  on_new (descr c [cA; cB])
    (let meta1 := ent_from_raw 1 in
     let meta2 := ent_from_raw 2 in
     let! idx1 := push_entity_unchecked c [cA; cB] meta1 [vA 1; vB 3] in
     let! idx2 := push_entity_unchecked c [cA; cB] meta2 [vA 2; vB 4] in
     check_row idx1 meta1 1 3 ;;! check_row idx2 meta2 2 4 ;;!
     swap_entities idx1 idx2 ;;!
     check_row idx2 meta1 1 3 ;;! check_row idx1 meta2 2 4 ;;!
     swap_entities idx1 idx2 ;;!
     check_row idx1 meta1 1 3 ;;! check_row idx2 meta2 2 4).
(** tests.rs:165-196 *)
Definition test_archetype_read_components (c : cfg) : M env unit :=
  on_new (descr c [cA; cB])
    (let! idx := push_entity_unchecked c [cA; cB] ent_INVALID [dA; dB] in
     let! vs := am_rd (read_components_exact_unchecked (big c) [cA; cB] idx) in
     assert_eq vs [dA; dB] ;;!
     let! vs := am_rd (read_components_exact_unchecked (big c) [cB; cA] idx) in
     assert_eq vs [dB; dA]) ;;!
  on_new (descr c [cA; cB; cC])
    (let! idx := push_entity_unchecked c [cA; cB; cC] ent_INVALID [dA; dB; dC] in
     let! vs := am_rd (read_components_exact_unchecked (big c) [cA; cB; cC] idx) in
     assert_eq vs [dA; dB; dC] ;;!
     let! vs := am_rd (read_components_exact_unchecked (big c) [cB; cC; cA] idx) in
     assert_eq vs [dB; dC; dA]).
Example test_archetype_slices_passes :
  forallb (fun c => passes (test_archetype_slices c env_init)) builds = true.
Proof. vm_compute. reflexivity. Qed.
Example test_archetype_get_components_passes :
  forallb (fun c => passes (test_archetype_get_components c env_init)) builds = true.
Proof. vm_compute. reflexivity. Qed.
Example test_archetype_swap_entities_passes :
  forallb (fun c => passes (test_archetype_swap_entities c env_init)) builds = true.
Proof. vm_compute. reflexivity. Qed.
Example test_archetype_read_components_passes :
  forallb (fun c => passes (test_archetype_read_components c env_init)) builds = true.
Proof. vm_compute. reflexivity. Qed.

(** ** src/archetype_registry/tests.rs *)
(** The value a location holds (reading through a [&mut]). *)
Definition at_loc (l : loc) : RM (option value) :=
  rm_rd (fun s => letr a := arch_at l.1.1 s in raw_cell a l.1.2 l.2).
(** [for (idx, elem) in v.iter().enumerate() { assert_eq!(elem._data, f(idx)) }] *)
Definition check_slice {S} (f : nat -> Z) (v : list value) : M S unit :=
  mfor (enum v) (fun '(i, x) => assert_eq (v_tok x) (f i)).
Definition check_mut_slice (f : nat -> Z) (v : list loc) : RM unit :=
  mfor (enum v) (fun '(i, l) => let! x := at_loc l in let! x := unwrap x in assert_eq (v_tok x) (f i)).
Definition columns {S A} (n : nat) (cols : list A) : M S (list A) :=
  if (length cols =? n)%nat then ret cols else mpanic.
Definition up (i : nat) : Z := Z.of_nat i.
Definition down (i : nat) : Z := 1048576 - Z.of_nat i.
Definition test_archetype_registry (c : cfg) : RM unit :=
  let! o := find_or_create_archetype (descr c [cA; cB]) in
  let! i := unwrap o in
  with_arch i (mfor [0%nat] (fun e =>
    let! _ := push_entity_unchecked c [cA; cB] (ent_new_unchecked (N.of_nat e) 0) [vA (up e); vB (down e)] in
    ret tt)) ;;!
  let! l := rm_rd (iter_components_matching c [cA]) in
  let! l := unwrap l in
  mfor l (fun v => mfor v (check_slice up)) ;;!
  let! l := rm_rd (iter_components_matching c [cA; cB]) in
  let! l := unwrap l in
  mfor l (fun v =>
    let! v := columns 2 v in
    mfor (take 1 v) (check_slice up) ;;! mfor (drop 1 v) (check_slice down)) ;;!
  let! l := rm_rd (iter_components_matching_mut c [cA]) in
  let! l := unwrap l in
  mfor l (fun v => mfor v (check_mut_slice up)) ;;!
  let! l := rm_rd (iter_components_matching_mut c [cA; cB]) in
  let! l := unwrap l in
  mfor l (fun v =>
    let! v := columns 2 v in
    mfor (take 1 v) (check_mut_slice up) ;;! mfor (drop 1 v) (check_mut_slice down)) ;;!
  drop_registry.
Example test_archetype_registry_passes :
  forallb (fun c => passes (test_archetype_registry c reg_default)) builds = true.
Proof. vm_compute. reflexivity. Qed.

(** ** src/registry/tests.rs *)
Definition at_locs (o : option (list loc)) : RM (option (list (option value))) :=
  match o with
  | None => ret None
  | Some ls => let! vs := mmap at_loc ls in ret (Some vs)
  end.
Definition at_opt (o : option loc) : RM (option (option value)) :=
  match o with
  | None => ret None
  | Some l => let! v := at_loc l in ret (Some v)
  end.
(** tests.rs:7-41 *)
Definition registry_test_get_component (c : cfg) : RM unit :=
  let! r := create_entity c [cA; cB] [dA; dB] in
  let! entity := unwrap_ok r in
  let! x := rm_rd (get_component c cA entity) in
  assert_eq x (Some dA) ;;!
  let! l := rm_rd (get_component_mut c cB entity) in
  let! x := at_opt l in
  assert_eq x (Some (Some dB)) ;;!
  let! x := rm_rd (get_component c cC entity) in
  assert_eq x None ;;!
  let! l := rm_rd (get_component_mut c cA ent_INVALID) in
  assert_eq l None ;;!
  let! x := rm_rd (get_components c [cA; cB] entity) in
  assert_eq x (Some [dA; dB]) ;;!
  let! x := rm_rd (get_components c [cB; cA] entity) in
  assert_eq x (Some [dB; dA]) ;;!
  let! x := rm_rd (get_components c [cA; cB] ent_INVALID) in
  assert_eq x None ;;!
  let! l := rm_rd (get_components_mut c [cA; cB] entity) in
  let! x := at_locs l in
  assert_eq x (Some [Some dA; Some dB]) ;;!
  let! l := rm_rd (get_components_mut c [cB; cA] entity) in
  let! x := at_locs l in
  assert_eq x (Some [Some dB; Some dA]) ;;!
  let! l := rm_rd (get_components_mut c [cA; cB] ent_INVALID) in
  assert_eq l None ;;!
  let! x := rm_rd (get_component c cA entity) in
  let! y := rm_rd (get_components c [cA] entity) in
  assert_eq (option_map (fun v => [v]) x) y ;;!
  drop_registry.
Example registry_test_get_component_passes :
  forallb (fun c => passes (registry_test_get_component c reg_default)) builds = true.
Proof. vm_compute. reflexivity. Qed.

(** [assert_eq!(registry.has_component::<C>(h), b)] and the tuple version *)
Definition check_has (c : cfg) (C : ctype) (h : N) (b : bool) : RM unit :=
  let! x := rm_rd (has_component c C h) in assert_eq x b.
Definition check_has_all (c : cfg) (G : group) (h : N) (b : bool) : RM unit :=
  let! x := rm_rd (has_components c G h) in assert_eq x b.
(** tests.rs:43-57 *)
Definition registry_test_has_component (c : cfg) : RM unit :=
  let! r := create_entity c [cA; cB] [dA; dB] in
  let! entity := unwrap_ok r in
  check_has c cA entity true ;;!
  check_has c cB entity true ;;!
  check_has c cC entity false ;;!
  check_has c cA ent_INVALID false ;;!
  check_has_all c [cA; cB] entity true ;;!
  check_has_all c [cA; cC] entity false ;;!
  check_has_all c [cA; cB] ent_INVALID false ;;!
  drop_registry.
Example registry_test_has_component_passes :
  forallb (fun c => passes (registry_test_has_component c reg_default)) builds = true.
Proof. vm_compute. reflexivity. Qed.

(** tests.rs:59-112, the part on the first registry *)
Definition check_components (c : cfg) (entity : N) : RM unit :=
  let! x := rm_rd (get_component c cA entity) in
  let! x := unwrap x in
  assert_eq x dA ;;!
  let! l := rm_rd (get_component_mut c cB entity) in
  let! l := unwrap l in
  let! x := at_loc l in
  assert_eq x (Some dB).
Definition test_registry_first (c : cfg) : RM unit :=
  let! r := create_entity c [cA; cB] [dA; dB] in
  let! entity := unwrap_ok r in
  assert_eq (ent_version entity) 0 ;;!
  check_components c entity ;;!
  let! _ := destroy_entity c entity in
  let! r := create_entity c [cA; cB] [dA; dB] in
  let! entity := unwrap_ok r in
  assert_eq (ent_version entity) 1 ;;!
  check_components c entity ;;!
  let! data := remove_entity c [cB; cA] entity in
  assert_eq data (Some [dB; dA]) ;;!
  let! r := create_entity c [cA; cB] [dA; dB] in
  let! entity := unwrap_ok r in
  check_has c cB entity true ;;!
  check_has c cA entity true ;;!
  let! r := add_component c cC entity dC in
  massert (is_ok r) ;;!
  check_has c cB entity true ;;!
  check_has c cA entity true ;;!
  check_has c cC entity true ;;!
  let! r := remove_component c cA entity in
  massert (is_ok r) ;;!
  check_has_all c [cC; cB] entity true ;;!
  check_has c cA entity false ;;!
  let! _ := destroy_entity c entity in
  drop_registry.
(** tests.rs:114-199, the part on the second registry; [rnd] are the answers of
    [rand::random], two per entity of the third batch (which has 1000). *)
Definition COUNT : nat := 32%nat.
Definition third (c : cfg) (x : N * (bool * bool)) : RM unit :=
  let '(entity, (destroy, first)) := x in
  if (destroy : bool) then let! b := destroy_entity c entity in massert b
  else if (first : bool) then
    let! r := remove_component c cC entity in
    massert (is_ok r) ;;!
    check_has_all c [cA; cB] entity true ;;!
    check_has c cC entity false ;;!
    let! vs := rm_rd (get_components c [cA; cB] entity) in
    assert_eq vs (Some [dA; dB])
  else
    let! r := remove_component c cA entity in
    massert (is_ok r) ;;!
    check_has_all c [cC; cB] entity true ;;!
    check_has c cA entity false ;;!
    let! vs := rm_rd (get_components c [cC; cB] entity) in
    assert_eq vs (Some [dC; dB]).
Definition test_registry_second (c : cfg) (rnd : list (bool * bool)) : RM unit :=
  let n := length rnd in
  let! entities := mmap (fun e =>
    let! r := create_entity c [cA; cB] [vA (Z.of_nat e); vB (Z.of_nat (COUNT - e))] in unwrap_ok r) (seq 0 COUNT) in
  let! l := rm_rd (iter_entities c) in
  let! l := unwrap l in
  mfor l (fun e => massert (bool_decide (e ∈ entities))) ;;!
  let! l := rm_rd (iter_entity_components_matching c [cA; cB]) in
  let! l := unwrap l in
  mfor l (fun '(_, cols) =>
    let! cols := columns 2 cols in
    mfor (take 1 cols) (check_slice (fun i => Z.of_nat i)) ;;!
    mfor (drop 1 cols) (check_slice (fun i => Z.of_nat (COUNT - i)))) ;;!
  let! _ := mmap (fun e =>
    let! r := create_entity c [cA; cB; cC] [vA (Z.of_nat e); vB (Z.of_nat (COUNT - e)); vC (Z.of_nat e)] in
    unwrap_ok r) (seq 0 COUNT) in
  let! l := rm_rd (iter_components_matching c [cA; cB]) in
  let! l := unwrap l in
  assert_eq (length l) 2%nat ;;!
  let! entities := mmap (fun _ =>
    let! r := create_entity c [cA; cB] [dA; dB] in unwrap_ok r) (seq 0 n) in
  mfor entities (fun entity =>
    let! r := add_component c cC entity dC in
    massert (is_ok r) ;;!
    check_has c cC entity true) ;;!
  mfor (zip entities rnd) (third c) ;;!
  drop_registry.
(** Some answers of [rand::random]: a linear congruential generator. *)
Fixpoint answers (n : nat) (seed : N) : list (bool * bool) :=
  match n with
  | O => []
  | S n' => (N.testbit seed 16, N.testbit seed 20) :: answers n' ((seed * 1103515245 + 12345) mod 2147483648)
  end.
Example test_registry_first_passes :
  forallb (fun c => passes (test_registry_first c reg_default)) builds = true.
Proof. vm_compute. reflexivity. Qed.
(** The test at full size, as [cargo test] builds it, and at a smaller size for all
    builds (checked when the file is compiled, and not again). *)
Check (eq_refl true <: passes (test_registry_second (Cfg true false) (answers 1000 1) reg_default) = true).
Check (eq_refl true <: forallb (fun rnd => forallb (fun c => passes (test_registry_second c rnd reg_default)) builds)
  [answers 30 1; replicate 3 (true, true); replicate 3 (false, true); replicate 3 (false, false)] = true).

(** ** /repo/examples: in three of the four programs [Rotation] is given the
    [NAME] "Position" (add_remove_components.rs:21, create_destroy_entity.rs:21,
    iterations.rs:20), so both components have the same id.  [ex_rotation] is
    the component as written, [ex_rotation_meant] with its own name. *)
Definition ex_position (c : cfg) : ctype := named c 1 name_Position 12 4.
Definition ex_rotation (c : cfg) : ctype := named c 2 name_Position 16 4.
Definition ex_rotation_meant (c : cfg) : ctype := named c 2 name_Rotation 16 4.
Definition v_position : value := Value 1 7 false.
Definition v_rotation : value := Value 2 8 false.

(** add_remove_components.rs:24-51: the results of its three calls *)
Definition add_remove_components (c : cfg) (rotation : ctype) : RM (bool * result unit value * result value unit) :=
  let! r := create_entity c [ex_position c] [v_position] in
  let! entity := unwrap_ok r in
  let! added := add_component c rotation entity v_rotation in
  let! removed := remove_component c (ex_position c) entity in
  drop_registry ;;!
  ret (is_ok r, added, removed).
Definition result_of {S A} (r : res S A) : option A := match r with Ret x _ => Some x | _ => None end.
(** As written the component is not added ("already has a component of the
    specific type") and cannot be removed (it is the only one). *)
Example add_remove_components_as_written :
  map (fun c => result_of (add_remove_components c (ex_rotation c) reg_default)) builds =
  replicate 4 (Some (true, Err v_rotation, Err tt)).
Proof. vm_compute. reflexivity. Qed.
Example add_remove_components_as_meant :
  map (fun c => result_of (add_remove_components c (ex_rotation_meant c) reg_default)) builds =
  replicate 4 (Some (true, Ok tt, Ok v_position)).
Proof. vm_compute. reflexivity. Qed.

(** create_destroy_entity.rs:25-57 *)
Definition create_destroy_entity (c : cfg) (rotation : ctype) : RM (bool * bool * bool) :=
  let! r := create_entity c [ex_position c] [v_position] in
  let! entity := unwrap_ok r in
  let! r2 := create_entity c [ex_position c; rotation] [v_position; v_rotation] in
  let! destroyed := destroy_entity c entity in
  drop_registry ;;!
  ret (is_ok r, is_ok r2, destroyed).
(** As written the entity with two components is not created. *)
Example create_destroy_entity_as_written :
  map (fun c => result_of (create_destroy_entity c (ex_rotation c) reg_default)) builds =
  replicate 4 (Some (true, false, true)).
Proof. vm_compute. reflexivity. Qed.
Example create_destroy_entity_as_meant :
  map (fun c => result_of (create_destroy_entity c (ex_rotation_meant c) reg_default)) builds =
  replicate 4 (Some (true, true, true)).
Proof. vm_compute. reflexivity. Qed.

(** iterations.rs:25-92 with [n] for 10000: how many elements each of the five
    iterations visits. *)
Definition iterations (c : cfg) (rotation : ctype) (n : nat) : RM (list nat) :=
  let position := ex_position c in
  let! _ := mmap (fun _ => create_entity c [position; rotation] [v_position; v_rotation]) (seq 0 n) in
  let! es := rm_rd (iter_entities c) in
  let! es := unwrap es in
  let! exact := rm_rd (iter_components_exact c [position; rotation]) in
  let! matching := rm_rd (iter_components_matching c [position]) in
  let! matching := unwrap matching in
  let! filtered := rm_rd (iter_filtered_components_matching c [position] (fun d => negb (ad_has_component d rotation))) in
  let! filtered := unwrap filtered in
  let! with_entities := rm_rd (iter_entity_components_matching c [rotation]) in
  let! with_entities := unwrap with_entities in
  drop_registry ;;!
  ret [length es; length (concat exact); length (concat (concat matching));
       length (concat (concat filtered)); length (concat (map fst with_entities))].
(** As written no entity is ever created and every iteration is empty. *)
Example iterations_as_written :
  map (fun c => result_of (iterations c (ex_rotation c) 50 reg_default)) builds =
  replicate 4 (Some [0; 0; 0; 0; 0]%nat).
Proof. vm_compute. reflexivity. Qed.
Example iterations_as_meant :
  map (fun c => result_of (iterations c (ex_rotation_meant c) 5 reg_default)) builds =
  replicate 4 (Some [5; 10; 5; 0; 5]%nat).
Proof. vm_compute. reflexivity. Qed.
(** One more call in safe code on the components as written reads a 16-byte
    [Rotation] where a 12-byte [Position] is stored: undefined behaviour
    (C14). *)
Example examples_one_line_more :
  forallb (fun c => is_ub ((let! r := create_entity c [ex_position c] [v_position] in
                            let! entity := unwrap_ok r in
                            rm_rd (get_component c (ex_rotation c) entity)) reg_default)) builds = true.
Proof. vm_compute. reflexivity. Qed.
