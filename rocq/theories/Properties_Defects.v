(** Claims that do not hold, with concrete counterexamples (each is a program
    of public calls run by the model from the empty registry).

    The positive parts of the same claims are in the other [Properties_*.v]. *)
From Verif Require Import RegModel Instances SpecBase.
Local Open Scope N_scope.

(** C13 is false: (1584,1885) and (2114,2754) are different valid component
    sets with the same archetype hash.  The second entity is stored in the
    first one's archetype: it does not have the component it was created with,
    has one it was never given, and reading that is undefined. *)
Theorem C13_distinct_archetypes_refuted :
  exists (G1 G2 : group) (vs1 vs2 : list value) (P Q : ctype),
    gd_is_valid (group_desc false G1) = true /\ gd_is_valid (group_desc false G2) = true /\
    length G1 = length G2 /\ P ∈ G1 /\ P ∉ G2 /\ Q ∈ G2 /\
    returns release [OpCreate G1 vs1; OpCreate G2 vs2; OpHas Q 256; OpHas P 256] =
      Some [OutCreate (Ok 0); OutCreate (Ok 256); OutBool false; OutBool true] /\
    is_ub (run release [OpCreate G1 vs1; OpCreate G2 vs2; OpGet P 256] reg_default) = true.
Proof.
  exists [ty 1584; ty 1885], [ty 2114; ty 2754], [vl (ty 1584) 1; vl (ty 1885) 2], [vl (ty 2114) 3; vl (ty 2754) 4], (ty 1584), (ty 2114).
  split; [vm_compute; reflexivity|]. split; [vm_compute; reflexivity|]. split; [reflexivity|].
  split; [left|]. split; [by repeat (rewrite not_elem_of_cons; split; [discriminate|]); apply not_elem_of_nil|]. split; [left|].
  split; vm_compute; reflexivity.
Qed.
Print Assumptions C13_distinct_archetypes_refuted.
(** Even pairs whose hash is [u32::MAX] exist: they are valid types of two
    different components, but no entity can be created with them. *)
Theorem C13_uncreatable_pair_refuted :
  exists (G : group) (vs : list value), NoDup (ids_of G) /\ length G = 2%nat /\
    returns release [OpCreate G vs] = Some [OutCreate (Err vs)].
Proof.
  exists [ty 17891; ty 64606], [vl (ty 17891) 1; vl (ty 64606) 2]. split; [|split; [reflexivity|vm_compute; reflexivity]].
  apply NoDup_cons; split; [rewrite elem_of_list_singleton; discriminate|]. apply NoDup_singleton.
Qed.
Print Assumptions C13_uncreatable_pair_refuted.

(** C14 is false: the 16-bit ids of components named "Score" and "NpcKey"
    agree, so an entity with only the first has the second, and reading the
    second reads the bytes of the first (undefined). *)
Definition name_Score : list N := [83; 99; 111; 114; 101].
Definition name_NpcKey : list N := [78; 112; 99; 75; 101; 121].
Theorem C14_names_never_alias_refuted :
  exists (S K : ctype) (v : value), ct_ty S <> ct_ty K /\ name_Score <> name_NpcKey /\
    ct_id S = default_component_id false name_Score /\ ct_id K = default_component_id false name_NpcKey /\
    returns release [OpCreate [S] [v]; OpHas K 0] = Some [OutCreate (Ok 0); OutBool true] /\
    is_ub (run release [OpCreate [S] [v]; OpGet K 0] reg_default) = true.
Proof.
  exists (CType 1 30174 4 4), (CType 2 30174 4 4), (Value 1 7 false).
  repeat split; try discriminate; vm_compute; reflexivity.
Qed.
Print Assumptions C14_names_never_alias_refuted.

(** C25 is false: [remove_entity::<G>] does not check [G].  With a subset it
    returns a part of the entity, destroys it, and the rest is neither returned
    nor dropped; with other components it reads the wrong type. *)
Theorem C25_exact_match_refuted :
  exists (A B D : ctype) (a b : value),
    NoDup [ct_id A; ct_id B; ct_id D] /\
    (exists s, run release [OpCreate [A; B] [a; b]; OpRemoveEntity [A] 0; OpHas A 0] reg_default =
                 Ret [OutCreate (Ok 0); OutVals (Some [a]); OutBool false] s /\ EvDrop b ∉ ev_trace (r_env s)) /\
    is_ub (run release [OpCreate [A; B] [a; b]; OpRemoveEntity [D] 0] reg_default) = true.
Proof.
  exists tA, tB, tC, (vl tA 1), (vl tB 2). split; [|split].
  - apply (bool_decide_unpack _); vm_compute; reflexivity.
  - eexists. split; [vm_compute; reflexivity|]. apply (bool_decide_unpack _); vm_compute; reflexivity.
  - vm_compute. reflexivity.
Qed.
Print Assumptions C25_exact_match_refuted.

(** C26 is false for tuples with a repeated type: such a tuple's descriptor is
    the invalid one, of length 0, and every entity "has" all of its components. *)
Theorem C26_has_components_refuted :
  exists (A B : ctype) (a : value), ct_id A <> ct_id B /\
    returns release [OpCreate [A] [a]; OpHas B 0; OpHasAll [B; B] 0] =
      Some [OutCreate (Ok 0); OutBool false; OutBool true].
Proof. exists tA, tB, (vl tA 1). split; [discriminate|vm_compute; reflexivity]. Qed.
Print Assumptions C26_has_components_refuted.

(** C27 is false for the same tuples: a release build dereferences null, even
    if the entity has the component; a debug build panics. *)
Theorem C27_get_components_refuted :
  exists (A B : ctype) (a : value), ct_id A <> ct_id B /\
    is_ub (run release [OpCreate [A] [a]; OpGetAll [B; B] 0] reg_default) = true /\
    is_ub (run release [OpCreate [A] [a]; OpGetAll [A; A] 0] reg_default) = true /\
    panics (run debug [OpCreate [A] [a]; OpGetAll [A; A] 0] reg_default) = true.
Proof. exists tA, tB, (vl tA 1). repeat split; [discriminate|vm_compute; reflexivity..]. Qed.
Print Assumptions C27_get_components_refuted.

(** C29 is false: adding a 14th component panics (and the value is dropped). *)
Definition wide (n : nat) : group := map (fun i => ty (N.of_nat i)) (seq 1 n).
Definition wide_vals (n : nat) : list value := map (fun c => vl c 0) (wide n).
Theorem C29_add_fourteenth_refuted :
  exists (G : group) (vs : list value) (C : ctype) (v : value),
    length G = 13%nat /\ NoDup (ids_of (C :: G)) /\
    returns release [OpCreate G vs] = Some [OutCreate (Ok 0)] /\
    panics (run release [OpCreate G vs; OpAdd C 0 v] reg_default) = true /\
    returns release [OpCreate (C :: G) (v :: vs)] = Some [OutCreate (Ok 0)].
Proof.
  exists (wide 13), (wide_vals 13), (ty 14), (vl (ty 14) 1). split; [reflexivity|].
  split; [apply (bool_decide_unpack _); vm_compute; reflexivity|]. repeat split; vm_compute; reflexivity.
Qed.
Print Assumptions C29_add_fourteenth_refuted.
(** C30 is false: removing one of 14 components panics. *)
Theorem C30_remove_from_fourteen_refuted :
  exists (G : group) (vs : list value) (C : ctype),
    length G = 14%nat /\ C ∈ G /\
    returns release [OpCreate G vs; OpHas C 0] = Some [OutCreate (Ok 0); OutBool true] /\
    panics (run release [OpCreate G vs; OpRemove C 0] reg_default) = true.
Proof.
  exists (wide 14), (wide_vals 14), (ty 5). split; [reflexivity|].
  split; [apply (bool_decide_unpack _); vm_compute; reflexivity|]. repeat split; vm_compute; reflexivity.
Qed.
Print Assumptions C30_remove_from_fourteen_refuted.

(** C38 is false (completeness): entity 256 gets the component set {A, B} by
    [add_component]; matching iteration visits it, exact iteration does not. *)
Theorem C38_exact_iteration_refuted :
  exists (A B : ctype) (a0 b0 a1 b1 : value),
    returns release [OpCreate [A; B] [a0; b0]; OpCreate [A] [a1]; OpAdd B 256 b1; OpIterE [A; B]; OpExactE [A; B]] =
    Some [OutCreate (Ok 0); OutCreate (Ok 256); OutAdd (Ok tt);
          OutECols [([256], [[a1]; [b1]]); ([0], [[a0]; [b0]])];
          OutECols [([0], [[a0]; [b0]])]].
Proof. exists tA, tB, (vl tA 1), (vl tB 2), (vl tA 3), (vl tB 4). vm_compute. reflexivity. Qed.
Print Assumptions C38_exact_iteration_refuted.

(** C43 is false: the source index equal to the number of archetypes passes the
    range check and panics. *)
Theorem C43_source_range_refuted : forall c d r,
  find_or_create_archetype_adding_component c (length (ar_archs (r_ar r))) d r = Panic r /\
  find_or_create_archetype_removing_component c (length (ar_archs (r_ar r))) d r = Panic r.
Proof.
  intros c d r.
  unfold find_or_create_archetype_adding_component, find_or_create_archetype_removing_component, bind, rm_get, get_st.
  rewrite Nat.ltb_irrefl, lookup_ge_None_2 by lia. done.
Qed.
Print Assumptions C43_source_range_refuted.

(** C45 is false: destroying entity 0, whose destructor panics, leaves entity
    256 showing the destroyed entity's (already dropped) component; dropping
    the registry then drops that value a second time. *)
Theorem C45_panicking_destructor_refuted :
  exists (A : ctype) (a0 a1 : value) (s : reg),
    (exists s0, run release [OpCreate [A] [a0]; OpCreate [A] [a1]] reg_default = Ret [OutCreate (Ok 0); OutCreate (Ok 256)] s0 /\
      step release (OpDestroy 0) s0 = Panic s) /\
    a0 <> a1 /\ EvDrop a0 ∈ ev_trace (r_env s) /\
    get_component release A 256 s = Rd (Some a0) /\
    (exists s', drop_registry s = Panic s' /\ length (filter (fun e => e = EvDrop a0) (ev_trace (r_env s'))) = 2%nat) .
Proof.
  eexists tA, (bomb tA 1), (vl tA 2), _. split.
  { eexists. split; [vm_compute; reflexivity|]. vm_compute; reflexivity. }
  split; [discriminate|]. split; [apply (bool_decide_unpack _); vm_compute; reflexivity|].
  split; [vm_compute; reflexivity|]. eexists. split; [vm_compute; reflexivity|]. vm_compute. reflexivity.
Qed.
Print Assumptions C45_panicking_destructor_refuted.

(** C46 is false: 128 entities are created; growing the storage for one more
    fails.  The panic leaves (1) with the entity array's growth failing, a
    registry whose entity iteration dereferences null, (2) with the column's
    growth failing, a registry in which reading any old entity does, and in both
    cases (3) one more live handle than before, with no component storage. *)
Definition many (n : nat) : list op := map (fun i => OpCreate [tA] [vl tA (Z.of_nat i)]) (seq 0 n).
Definition after_failure (oracle : list bool) : option reg :=
  match run release (many 128) (reg_with oracle) with
  | Ret _ s => match step release (OpCreate [tA] [vl tA 999]) s with Panic s' => Some s' | _ => None end
  | _ => None
  end.
Theorem C46_allocation_failure_refuted :
  (exists s, after_failure [true; true; false] = Some s /\ iter_entity_components_matching release [tA] s = RdUB /\
             (exists e, entry_of release s (128 * 256) = Some e)) /\
  (exists s, after_failure [true; true; true; false] = Some s /\ get_component release tA 0 s = RdUB /\
             (exists e, entry_of release s (128 * 256) = Some e)).
Proof.
  split; eexists; (split; [vm_compute; reflexivity|split; [vm_compute; reflexivity|eexists; vm_compute; reflexivity]]).
Qed.
Print Assumptions C46_allocation_failure_refuted.

(** C47 is false: a component of size zero asks the allocator for zero bytes. *)
Theorem C47_zero_sized_refuted : forall c,
  exists (Z : ctype) (z : value), ct_size Z = 0 /\ v_ty z = ct_ty Z /\
    is_ub (run c [OpCreate [Z] [z]] reg_default) = true.
Proof. intros [[] []]; exists (CType 1 1 0 1), (Value 1 1 false); repeat split; vm_compute; reflexivity. Qed.
Print Assumptions C47_zero_sized_refuted.
