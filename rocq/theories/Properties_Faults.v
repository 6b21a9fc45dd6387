(** What the calls do outside the contract: the exact behaviour behind the
    refuted claims C13, C14, C25, C29, C30 (see Properties_Defects.v), and C50. *)
From Verif Require Import RegModel Clients Faults Faults2 Instances Instances2 SpecClient SpecObs SpecBase SpecWorld.
Local Open Scope nat_scope.

(** ** C29, C30 at the boundary left out of the contract *)
(** Adding any component to an entity that has 13 others panics.  The value is
    dropped; neither the entities nor the archetypes change. *)
Theorem C29_at_thirteen : forall (Fm : family) c U r w I O C h v e,
  universe (big c) U -> history c U r w I O -> w !! h = Some e ->
  size (en_vals e) = 13 -> C ∈ U -> en_vals e !! ct_id C = None ->
  exists r', add_component c C h v r = Panic r' /\ r_er r' = r_er r /\ r_ar r' = r_ar r /\
    ev_trace (r_env r') = ev_trace (r_env r) ++ [EvDrop v].
Proof. intros Fm c U r w I O C h v e HU Hh. exact (add_thirteen c U HU r w I O Hh C h v e). Qed.
Print Assumptions C29_at_thirteen.
(** Removing any component of an entity that has 14 panics; nothing changes. *)
Theorem C30_at_fourteen : forall (Fm : family) c U r w I O C h e,
  universe (big c) U -> history c U r w I O -> w !! h = Some e ->
  size (en_vals e) = 14 -> C ∈ U -> is_Some (en_vals e !! ct_id C) ->
  remove_component c C h r = Panic r.
Proof. intros Fm c U r w I O C h e HU Hh. exact (remove_fourteen c U HU r w I O Hh C h e). Qed.
Print Assumptions C30_at_fourteen.
Example C29_C30_boundary_example :
  universe (big release) U14 /\ history release U14 wide_reg wide_world wide_demo.1.2 wide_demo.2 /\
  (exists e, wide_world !! 0%N = Some e /\ size (en_vals e) = 13 /\ ty 14 ∈ U14 /\ en_vals e !! ct_id (ty 14) = None) /\
  (exists e, wide_world !! 256%N = Some e /\ size (en_vals e) = 14 /\ is_Some (en_vals e !! ct_id (ty 3))).
Proof.
  split; [apply U14_ok|]. split; [apply wide_history|]. split.
  - assert (H : match wide_world !! 0%N with Some e => (size (en_vals e) =? 13) && negb (bool_decide (is_Some (en_vals e !! ct_id (ty 14)))) | None => false end = true) by (vm_compute; reflexivity).
    destruct (wide_world !! 0%N) as [e|]; [|done]. apply andb_true_iff in H as [H1%Nat.eqb_eq H2%negb_true_iff%bool_decide_eq_false].
    exists e. split; [done|]. split; [done|]. split; [apply (bool_decide_unpack _); vm_compute; reflexivity|by apply eq_None_not_Some].
  - assert (H : match wide_world !! 256%N with Some e => (size (en_vals e) =? 14) && bool_decide (is_Some (en_vals e !! ct_id (ty 3))) | None => false end = true) by (vm_compute; reflexivity).
    destruct (wide_world !! 256%N) as [e|]; [|done]. apply andb_true_iff in H as [H1%Nat.eqb_eq H2%bool_decide_eq_true]. by exists e.
Qed.

(** ** C25: [remove_entity::<G>] of a live entity, for any valid [G] *)
(** Let [s] be [G] sorted by component id.  If [s] is an initial part of the
    entity's components (sorted by id), the call returns those; the entity is
    gone, and the components that are not in [G] are neither returned nor
    dropped.  For every other [G] a component is read at the wrong type. *)
Theorem C25_any_tuple : forall (Fm : family) c U r w I O G s h e,
  universe (big c) U -> history c U r w I O -> w !! h = Some e -> in_U U G -> gvalid (big c) G ->
  s ≡ₚ G -> strict (ids_of s) -> NoDup (map ct_ty U) ->
  (s `prefix_of` types U (en_vals e) ->
    exists vs r', remove_entity c G h r = Ret (Some vs) r' /\ Forall2 (fun C v => shows c r h C (Some v)) G vs /\
      ~ alive c r' h /\ others_same c U r r' h /\ r_env r' = r_env r) /\
  (~ s `prefix_of` types U (en_vals e) -> remove_entity c G h r = UB).
Proof. intros Fm c U r w I O G s h e HU Hh. exact (remove_any c U HU r w I O Hh G s h e). Qed.
Print Assumptions C25_any_tuple.
Example C25_any_tuple_example :
  NoDup (map ct_ty UABC) /\ in_U UABC [tB; tA] /\ gvalid (big release) [tB; tA] /\ [tA; tB] ≡ₚ [tB; tA] /\ strict (ids_of [tA; tB]) /\
  (exists e, demo_world release !! 768%N = Some e /\ types UABC (en_vals e) = [tA; tB; tC] /\ [tA; tB] `prefix_of` types UABC (en_vals e)) /\
  (exists s, step release (OpRemoveEntity [tB; tA] 768) (demo_reg release) = Ret (OutVals (Some [vl tB 41; vl tA 42])) s) /\
  ~ [tB] `prefix_of` [tA; tB; tC] /\ is_ub (step release (OpRemoveEntity [tB] 768) (demo_reg release)) = true.
Proof.
  split; [apply (bool_decide_unpack _); vm_compute; reflexivity|]. split; [apply in_Ub_ok; vm_compute; reflexivity|].
  split; [apply gvalid_dec; vm_compute; reflexivity|]. split; [by apply perm_swap|]. split; [apply strictb_ok; vm_compute; reflexivity|].
  split; [|split; [eexists; vm_compute; reflexivity|split; [|vm_compute; reflexivity]]].
  - assert (Et : (types UABC ∘ en_vals) <$> demo_world release !! 768%N = Some [tA; tB; tC]) by (vm_compute; reflexivity).
    destruct (demo_world release !! 768%N) as [e|]; [|done]. injection Et as Et. exists e. split; [done|].
    rewrite Et. split; [done|]. by exists [tC].
  - intros [k E]. discriminate.
Qed.

(** ** C13 (partial: over a universe without hash collisions, and in general up
    to the 32-bit hash; without that the claim is false, see
    [C13_distinct_archetypes_refuted]) *)
(** Two live entities are in the same archetype iff they have the same
    components and got them the same way (see C12). *)
Theorem C13_distinct_archetypes_partial : forall (Fm : family) c U r w I O h1 e1 h2 e2,
  universe (big c) U -> history c U r w I O -> w !! h1 = Some e1 -> w !! h2 = Some e2 ->
  exists n1 n2, entry_of c r h1 = Some n1 /\ entry_of c r h2 = Some n2 /\
    (e_arch c n1 = e_arch c n2 <-> en_aid e1 = en_aid e2 /\ dom (en_vals e1) = dom (en_vals e2)).
Proof. intros Fm c U r w I O h1 e1 h2 e2 HU Hh. exact (together_history c U HU r w I O Hh h1 e1 h2 e2). Qed.
Print Assumptions C13_distinct_archetypes_partial.
(** For every client whatsoever: two entities created one after the other share
    an archetype iff the hashes of their tuple types and their sizes agree. *)
Theorem C13_up_to_hash : forall c r G1 vs1 h1 r1 G2 vs2 h2 r2, reachable c r ->
  create_entity c G1 vs1 r = Ret (Ok h1) r1 -> create_entity c G2 vs2 r1 = Ret (Ok h2) r2 ->
  exists n1 n2, entry_of c r2 h1 = Some n1 /\ entry_of c r2 h2 = Some n2 /\
    (e_arch c n1 = e_arch c n2 <->
      ad_id (gd_arch (group_desc (big c) G1)) = ad_id (gd_arch (group_desc (big c) G2)) /\ length G1 = length G2).
Proof. exact create_twice. Qed.
Print Assumptions C13_up_to_hash.
Example C13_example :
  (exists e1 e2 n1 n2, demo_world release !! 0%N = Some e1 /\ demo_world release !! 256%N = Some e2 /\
    entry_of release (demo_reg release) 0 = Some n1 /\ entry_of release (demo_reg release) 256 = Some n2 /\ e_arch release n1 <> e_arch release n2) /\
  reachable release reg_default /\
  returns release [OpCreate [tA; tB] [vl tA 1; vl tB 2]; OpCreate [tB; tA] [vl tB 3; vl tA 4]] = Some [OutCreate (Ok 0%N); OutCreate (Ok 256%N)].
Proof.
  split; [|split; [by exists [], []; constructor|]].
  - assert (H : match demo_world release !! 0%N, demo_world release !! 256%N, entry_of release (demo_reg release) 0, entry_of release (demo_reg release) 256 with
      | Some _, Some _, Some n1, Some n2 => negb (e_arch release n1 =? e_arch release n2) | _, _, _, _ => false end = true) by (vm_compute; reflexivity).
    destruct (demo_world release !! 0%N) as [e1|]; [|done]. destruct (demo_world release !! 256%N) as [e2|]; [|done].
    destruct (entry_of release (demo_reg release) 0) as [n1|]; [|done]. destruct (entry_of release (demo_reg release) 256) as [n2|]; [|done].
    apply negb_true_iff, Nat.eqb_neq in H. by exists e1, e2, n1, n2.
  - vm_compute. reflexivity.
Qed.

(** ** C14 (partial: components are told apart exactly as far as their 16-bit
    ids differ; without that the claim is false, see [C14_names_never_alias_refuted]) *)
(** For any component type, whether the program's entities use it or not: a live
    entity has it iff it has a component with that id. *)
Theorem C14_aliasing_partial : forall (Fm : family) c U r w I O h e C,
  universe (big c) U -> history c U r w I O -> w !! h = Some e ->
  has_component c C h r = Rd (bool_decide (is_Some (en_vals e !! ct_id C))) /\
  (en_vals e !! ct_id C = None -> get_component c C h r = Rd None).
Proof. intros Fm c U r w I O h e C HU Hh. exact (any_component_history c U HU r w I O Hh h e C). Qed.
Print Assumptions C14_aliasing_partial.
(** Collisions are unavoidable: among any 65537 names two have the same id. *)
Theorem C14_pigeonhole : forall be (names : list (list N)), NoDup names -> (65536 < N.of_nat (length names))%N ->
  exists n1 n2, n1 ∈ names /\ n2 ∈ names /\ n1 <> n2 /\ default_component_id be n1 = default_component_id be n2.
Proof. exact names_collide. Qed.
Print Assumptions C14_pigeonhole.
Example C14_example :
  (exists e, demo_world release !! 0%N = Some e /\ en_vals e !! ct_id (CType 99 1000 8 8) = None) /\
  (exists names : list (list N), NoDup names /\ (65536 < N.of_nat (length names))%N).
Proof.
  split.
  { assert (H : match demo_world release !! 0%N with Some e => negb (bool_decide (is_Some (en_vals e !! ct_id (CType 99 1000 8 8)))) | None => false end = true) by (vm_compute; reflexivity).
    destruct (demo_world release !! 0%N) as [e|]; [|done]. apply negb_true_iff, bool_decide_eq_false, eq_None_not_Some in H. by exists e. }
  assert (Hinj : Inj eq eq (fun i : nat => [N.of_nat i])) by (intros x y [= E]; lia).
  exists (map (fun i => [N.of_nat i]) (seq 0 (N.to_nat 65537))). split.
  - apply (NoDup_fmap_2 (fun i : nat => [N.of_nat i])). apply NoDup_seq.
  - rewrite map_length, seq_length, N2Nat.id. lia.
Qed.

(** ** C50: tuple types that are not valid (a repeated component, more than 14
    components, or a set that hashes to the reserved id) *)
(** The claim "every call rejects them" is false: [remove_entity::<(A, A)>]
    returns the entity's only [A] twice - two owners of one value. *)
Theorem C50_duplicate_ownership_refuted :
  exists (A : ctype) (a : value), ~ gvalid (big release) [A; A] /\
    returns release [OpCreate [A] [a]; OpHasAll [A; A] 0; OpRemoveEntity [A; A] 0] =
      Some [OutCreate (Ok 0%N); OutBool true; OutVals (Some [a; a])].
Proof.
  exists tA, (vl tA 1). split; [|vm_compute; reflexivity]. intros (Hnd&_). apply NoDup_cons in Hnd as [Hn _]. apply Hn. left.
Qed.
Print Assumptions C50_duplicate_ownership_refuted.
(** On every registry: creation refuses; exact iteration yields the empty
    slices; matching iteration yields nothing (release) or panics (debug).
    Nothing changes. *)
Theorem C50_rejected_partial : forall c G r, ~ gvalid (big c) G ->
  (forall vs, step c (OpCreate G vs) r = Ret (OutCreate (Err vs)) r) /\
  (forall f upd, Forall (fun o => step c o r = if dbg c then Panic r else Ret (OutCols []) r) [OpIter G; OpIterF G f; OpIterMut G upd; OpIterFMut G f upd]) /\
  (forall f upd, Forall (fun o => step c o r = if dbg c then Panic r else Ret (OutECols []) r) [OpIterE G; OpIterEF G f; OpIterEMut G upd; OpIterEFMut G f upd]) /\
  (forall upd, Forall (fun o => step c o r = Ret (OutCols [map (fun _ => []) G]) r) [OpExact G; OpExactMut G upd]) /\
  (forall upd, Forall (fun o => step c o r = Ret (OutECols [([], map (fun _ => []) G)]) r) [OpExactE G; OpExactEMut G upd]).
Proof. intros c G r H. exact (invalid_calls c G r (not_gvalid _ _ H)). Qed.
Print Assumptions C50_rejected_partial.
(** Of a live entity: it is said to have the components, whatever they are, and
    getting them panics (debug) or dereferences null (release). *)
Theorem C50_live_entity : forall (Fm : family) c U r w I O G h e,
  universe (big c) U -> history c U r w I O -> w !! h = Some e -> ~ gvalid (big c) G -> G <> [] ->
  has_components c G h r = Rd true /\
  get_components c G h r = (if dbg c then RdPanic else RdUB) /\ get_components_mut c G h r = (if dbg c then RdPanic else RdUB).
Proof. intros Fm c U r w I O G h e HU Hh Hw Hv. exact (invalid_live_calls c U HU r w I O Hh G h e Hw (not_gvalid _ _ Hv)). Qed.
Print Assumptions C50_live_entity.
(** And removing it reads the component with the smallest id for every element
    of the tuple: each copy is returned if all types are that one, else the call
    is undefined. *)
Theorem C50_remove_entity : forall (Fm : family) c U r w I O G h e,
  universe (big c) U -> history c U r w I O -> w !! h = Some e -> in_U U G -> G <> [] -> ~ gvalid (big c) G -> NoDup (map ct_ty U) ->
  exists C0 v0, head (types U (en_vals e)) = Some C0 /\ shows c r h C0 (Some v0) /\
    ((forall C, C ∈ G -> C = C0) ->
       exists r', remove_entity c G h r = Ret (Some (map (fun _ => v0) G)) r' /\ ~ alive c r' h /\ others_same c U r r' h /\ r_env r' = r_env r) /\
    ((exists C, C ∈ G /\ C <> C0) -> remove_entity c G h r = UB).
Proof. intros Fm c U r w I O G h e HU Hh Hw HG Hn Hv. exact (invalid_take c U HU r w I O Hh G h e Hw HG Hn (not_gvalid _ _ Hv)). Qed.
Print Assumptions C50_remove_entity.
Example C50_example :
  ~ gvalid (big release) [tB; tB] /\ in_U UABC [tB; tB] /\ NoDup (map ct_ty UABC) /\
  (exists e, demo_world release !! 256%N = Some e /\ types UABC (en_vals e) = [tA; tC]) /\
  (exists s, step release (OpHasAll [tB; tB] 256) (demo_reg release) = Ret (OutBool true) s) /\
  (exists s, step release (OpRemoveEntity [tA; tA] 256) (demo_reg release) = Ret (OutVals (Some [vl tA 20; vl tA 20])) s) /\
  is_ub (step release (OpRemoveEntity [tB; tB] 256) (demo_reg release)) = true.
Proof.
  split; [intros (Hnd&_); apply NoDup_cons in Hnd as [Hn _]; apply Hn; left|]. split; [apply in_Ub_ok; vm_compute; reflexivity|].
  split; [apply (bool_decide_unpack _); vm_compute; reflexivity|]. split; [|split; [eexists; vm_compute; reflexivity|split; [eexists; vm_compute; reflexivity|vm_compute; reflexivity]]].
  assert (Et : (types UABC ∘ en_vals) <$> demo_world release !! 256%N = Some [tA; tC]) by (vm_compute; reflexivity).
  destruct (demo_world release !! 256%N) as [e|]; [|done]. injection Et as Et. by exists e.
Qed.
