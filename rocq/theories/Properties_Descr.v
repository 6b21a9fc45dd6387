(** Properties C06-C12 and C15: descriptors and the sorted-key lookup. *)
From Verif Require Import SpecBase SearchProofs DescrProofs.
Local Open Scope nat_scope.

(** Concrete component types for the examples: type number = id, 4 bytes. *)
Definition T (i : N) : ctype := CType i i 4 4.

(** C06: a group is valid exactly when it has 1..14 components with distinct ids
    and its hash is not the reserved value. *)
Theorem C06_group_validity : forall be G,
  (gd_is_valid (group_desc be G) = true <->
     1 <= length G <= 14 /\ NoDup (ids_of G) /\
     exists s, s ≡ₚ ids_of G /\ strict s /\ tuple_archetype_id be s <> 4294967295%N) /\
  (gd_is_valid (group_desc be G) = false -> gd_len (group_desc be G) = 0) /\
  (gd_is_valid (group_desc be G) = true -> gd_len (group_desc be G) = length G).
Proof. exact group_validity. Qed.
Print Assumptions C06_group_validity.
Example C06_valid : gd_is_valid (group_desc false [T 30; T 10; T 20]) = true.
Proof. vm_compute. reflexivity. Qed.
Example C06_duplicate : gd_is_valid (group_desc false [T 30; T 10; T 30]) = false.
Proof. vm_compute. reflexivity. Qed.
(** The reserved hash value is hit by real id pairs. *)
Example C06_reserved_hash : gd_is_valid (group_desc false [T 17891; T 64606]) = false.
Proof. vm_compute. reflexivity. Qed.

(** C07: the order of a tuple does not matter. *)
Theorem C07_tuple_order : forall be G G',
  G ≡ₚ G' ->
  gd_arch (group_desc be G) = gd_arch (group_desc be G') /\
  (gd_is_valid (group_desc be G) = true ->
     ad_components (gd_arch (group_desc be G)) ≡ₚ map cdesc_of G /\
     strict (ids (ad_components (gd_arch (group_desc be G)))) /\
     ad_len (gd_arch (group_desc be G)) = length G /\
     ad_id (gd_arch (group_desc be G)) = tuple_archetype_id be (ids (ad_components (gd_arch (group_desc be G))))).
Proof. exact tuple_order. Qed.
Print Assumptions C07_tuple_order.
Example C07_example :
  [T 30; T 10; T 20] ≡ₚ [T 20; T 30; T 10] /\ gd_is_valid (group_desc true [T 30; T 10; T 20]) = true /\
  ids (ad_components (gd_arch (group_desc true [T 30; T 10; T 20]))) = [10%N; 20%N; 30%N].
Proof. split; [|by vm_compute]. by rewrite (Permutation_app_comm [T 30; T 10] [T 20]). Qed.

(** C08: the sort mappings. *)
Theorem C08_sort_mappings : forall be G,
  let g := group_desc be G in
  gd_is_valid g = true ->
  (forall i, i < length G ->
     gd_unsorted_to_sorted g i < length G /\ gd_sorted_to_unsorted g i < length G /\
     gd_sorted_to_unsorted g (gd_unsorted_to_sorted g i) = i /\
     gd_unsorted_to_sorted g (gd_sorted_to_unsorted g i) = i) /\
  (forall i c, G !! i = Some c ->
     ad_components (gd_arch g) !! gd_unsorted_to_sorted g i = Some (cdesc_of c)).
Proof. exact sort_mappings. Qed.
Print Assumptions C08_sort_mappings.
Example C08_example :
  let g := group_desc false [T 30; T 10; T 20] in
  gd_is_valid g = true /\ map (gd_unsorted_to_sorted g) [0; 1; 2] = [2; 0; 1] /\
  map (gd_sorted_to_unsorted g) [0; 1; 2] = [1; 2; 0].
Proof. vm_compute. auto. Qed.

(** C09: subset, exclusion and membership tests. *)
Theorem C09_subset_tests : forall self d,
  ad_wf self -> ad_wf d ->
  (ad_contains_subset self d = true <->
     forall x, x ∈ ids (ad_components d) -> x ∈ ids (ad_components self)) /\
  (ad_excludes_subset self d = true <->
     forall x, x ∈ ids (ad_components d) -> x ∉ ids (ad_components self)) /\
  (forall c, ad_has_component self c = true <-> ct_id c ∈ ids (ad_components self)).
Proof. exact subset_tests. Qed.
Print Assumptions C09_subset_tests.
(** Every descriptor the crate builds satisfies the hypothesis. *)
Theorem C09_wf_closed :
  (forall be G, ad_wf (gd_arch (group_desc be G))) /\
  (forall c, ad_wf (ad_of_cdesc c)) /\ ad_wf ad_INVALID /\
  (forall be d c d', ad_wf d -> ad_add_component be d c = Rd (Some d') -> ad_wf d') /\
  (forall be d id d', ad_wf d -> 1 <= ad_len d -> ad_remove_component be d id = Rd (Some d') -> ad_wf d').
Proof. exact wf_closed. Qed.
Print Assumptions C09_wf_closed.
Example C09_example :
  let d := gd_arch (group_desc false [T 5; T 3; T 9]) in
  ad_contains_subset d (gd_arch (group_desc false [T 9; T 3])) = true /\
  ad_contains_subset d (gd_arch (group_desc false [T 9; T 4])) = false /\
  ad_excludes_subset d (gd_arch (group_desc false [T 2; T 4])) = true /\
  ad_excludes_subset d (gd_arch (group_desc false [T 2; T 9])) = false /\
  ad_has_component d (T 5) = true /\ ad_has_component d (T 6) = false.
Proof. vm_compute. auto 10. Qed.

(** C10: adding a component to a descriptor.  Full claim: [None] iff full or
    present, otherwise the extended descriptor.  False at 13 components. *)
Theorem C10_add_component_partial : forall be d c,
  ad_wf d ->
  (ad_len d = 14 \/ cd_id c ∈ ids (ad_components d) -> ad_add_component be d c = Rd None) /\
  (ad_len d <= 12 -> cd_id c ∉ ids (ad_components d) ->
     exists d', ad_add_component be d c = Rd (Some d') /\
       ad_len d' = S (ad_len d) /\
       ad_components d' ≡ₚ c :: ad_components d /\ strict (ids (ad_components d')) /\
       ad_id d' = derived_archetype_id be (ids (ad_components d'))) /\
  (* what is missing: at 13 components the call always panics *)
  (ad_len d = 13 -> cd_id c ∉ ids (ad_components d) -> ad_add_component be d c = RdPanic).
Proof. exact descr_add_component. Qed.
Print Assumptions C10_add_component_partial.
Theorem C10_add_component_refuted :
  exists be d c, ad_wf d /\ ad_is_valid d = true /\ ad_len d < 14 /\ cd_id c ∉ ids (ad_components d) /\
    ad_add_component be d c = RdPanic.
Proof. exact descr_add_refuted. Qed.
Print Assumptions C10_add_component_refuted.
Example C10_example :
  let d := gd_arch (group_desc false [T 5; T 3; T 9]) in
  ad_wf d /\ exists d', ad_add_component false d (cdesc_of (T 7)) = Rd (Some d') /\ ids (ad_components d') = [3; 5; 7; 9]%N.
Proof. split; [apply group_arch_wf|]. eexists. vm_compute. auto. Qed.

(** C11: removing a component from a descriptor.  Full claim: [None] iff absent
    or the only one, otherwise the shrunk descriptor.  False at 14 components. *)
Theorem C11_remove_component_partial : forall be d id,
  ad_wf d -> 1 <= ad_len d ->
  (ad_len d = 1 \/ id ∉ ids (ad_components d) -> ad_remove_component be d id = Rd None) /\
  (2 <= ad_len d <= 13 -> id ∈ ids (ad_components d) ->
     exists d' c, ad_remove_component be d id = Rd (Some d') /\
       S (ad_len d') = ad_len d /\ cd_id c = id /\
       ad_components d ≡ₚ c :: ad_components d' /\ strict (ids (ad_components d')) /\
       ad_id d' = derived_archetype_id be (ids (ad_components d'))) /\
  (* what is missing: at 14 components the call always panics *)
  (ad_len d = 14 -> id ∈ ids (ad_components d) -> ad_remove_component be d id = RdPanic).
Proof. exact descr_remove_component. Qed.
Print Assumptions C11_remove_component_partial.
Theorem C11_remove_component_refuted :
  exists be d id, ad_wf d /\ ad_is_valid d = true /\ 1 < ad_len d /\ id ∈ ids (ad_components d) /\
    ad_remove_component be d id = RdPanic.
Proof. exact descr_remove_refuted. Qed.
Print Assumptions C11_remove_component_refuted.
Example C11_example :
  let d := gd_arch (group_desc false [T 5; T 3; T 9]) in
  ad_wf d /\ exists d', ad_remove_component false d 5 = Rd (Some d') /\ ids (ad_components d') = [3; 9]%N.
Proof. split; [apply group_arch_wf|]. eexists. vm_compute. auto. Qed.

(** C12: one archetype id per component set.  False: a set reached by adding a
    component gets a different id than the tuple type with that set. *)
Theorem C12_one_identity_refuted :
  exists be A B d, gd_is_valid (group_desc be [A; B]) = true /\
    ad_add_component be (gd_arch (group_desc be [A])) (cdesc_of B) = Rd (Some d) /\
    ad_components d = ad_components (gd_arch (group_desc be [A; B])) /\
    ad_id d <> ad_id (gd_arch (group_desc be [A; B])).
Proof. exact one_identity_refuted. Qed.
Print Assumptions C12_one_identity_refuted.
(** What does hold: tuple types with the same set agree; descriptors derived by
    add/remove with the same set agree, whatever route they were derived by.
    Missing: agreement between the two kinds. *)
Theorem C12_one_identity_partial :
  (forall be G G', gd_is_valid (group_desc be G) = true -> gd_is_valid (group_desc be G') = true ->
     (forall x, x ∈ ids_of G <-> x ∈ ids_of G') ->
     ad_id (gd_arch (group_desc be G)) = ad_id (gd_arch (group_desc be G'))) /\
  (forall be d1 c1 r1 d2 c2 r2, ad_wf d1 -> ad_wf d2 ->
     ad_add_component be d1 c1 = Rd (Some r1) -> ad_add_component be d2 c2 = Rd (Some r2) ->
     (forall x, x ∈ ids (ad_components r1) <-> x ∈ ids (ad_components r2)) -> ad_id r1 = ad_id r2) /\
  (forall be d1 c1 r1 d2 i2 r2, ad_wf d1 -> ad_wf d2 -> 1 <= ad_len d2 ->
     ad_add_component be d1 c1 = Rd (Some r1) -> ad_remove_component be d2 i2 = Rd (Some r2) ->
     (forall x, x ∈ ids (ad_components r1) <-> x ∈ ids (ad_components r2)) -> ad_id r1 = ad_id r2).
Proof. exact one_identity_partial. Qed.
Print Assumptions C12_one_identity_partial.
Example C12_example :
  exists r1 r2, ad_add_component false (gd_arch (group_desc false [T 5; T 3])) (cdesc_of (T 9)) = Rd (Some r1) /\
    ad_remove_component false (gd_arch (group_desc false [T 5; T 3; T 9; T 1])) 1 = Rd (Some r2) /\
    ids (ad_components r1) = ids (ad_components r2).
Proof. do 2 eexists. vm_compute. auto. Qed.

(** C15: the sorted-key lookup. *)
Theorem C15_binary_search : forall keys key,
  strict keys ->
  match binary_search keys key with
  | inl i => keys !! i = Some key
  | inr i => i <= length keys /\ key ∉ keys /\ strict (take i keys ++ key :: drop i keys)
  end /\
  (key ∈ keys <-> exists i, binary_search keys key = inl i).
Proof. exact binary_search_correct. Qed.
Print Assumptions C15_binary_search.
Example C15_example :
  strict [2; 5; 9; 40]%N /\ binary_search [2; 5; 9; 40]%N 9 = inl 2 /\ binary_search [2; 5; 9; 40]%N 10 = inr 3.
Proof. split; [repeat constructor|]. vm_compute. auto. Qed.
