(** Claims that hold for every client program whatsoever: C16-C20 seen through
    the registry's public calls, C39, C42, C43 (partial) and C44.

    [reachable c r]: [r] is reached from the empty registry by any calls, inside
    the contract or not (wrong tuple types, stale handles, panicking
    destructors, failing allocations), with panics caught; only a call that is
    undefined behaviour has no continuation.  See SpecClient.v. *)
From Verif Require Import RegModel DescrProofs AregProofs IterProofs Clients Instances SpecEntity SpecClient SpecBase.
Local Open Scope nat_scope.

(** A client that misuses the library: a destructor that panics while the first
    of two entities is destroyed, an invalid tuple, the wrong tuple type, then
    a reused slot. *)
Definition rough_ops : list op :=
  [ OpCreate [tA] [bomb tA 1]; OpCreate [tA] [vl tA 2]; OpCreate [tB; tA] [vl tB 3; vl tA 4]; OpDestroy 0;
    OpCreate [tA; tA] [vl tA 5; vl tA 6]; OpRemoveEntity [tA; tC] 1; OpDestroy 512; OpCreate [tC] [vl tC 7] ]%N.
Fixpoint play (c : cfg) (ops : list op) (r : reg) : list (op * option output) * reg :=
  match ops with
  | [] => ([], r)
  | o :: ops' =>
      match step c o r with
      | Ret out r' => let '(tr, r2) := play c ops' r' in ((o, Some out) :: tr, r2)
      | Panic r' => let '(tr, r2) := play c ops' r' in ((o, None) :: tr, r2)
      | UB => ([], r)
      end
  end.
Lemma play_calls c ops r : calls c r (play c ops r).1 (play c ops r).2.
Proof.
  revert r. induction ops as [|o ops IH]; intros r; cbn [play]; [constructor|]. destruct (step c o r) as [out r'|r'|] eqn:E.
  - specialize (IH r'). destruct (play c ops r') as [tr r2]. by eapply cs_ret.
  - specialize (IH r'). destruct (play c ops r') as [tr r2]. by eapply cs_panic.
  - constructor.
Qed.
Definition rough : reg := (play release rough_ops reg_default).2.
Lemma rough_reachable : reachable release rough.
Proof. exists [], (play release rough_ops reg_default).1. apply (play_calls release rough_ops reg_default). Qed.
Definition trace_of (c : cfg) (ops : list op) : list (option output) := (play c ops reg_default).1.*2.
Lemma rough_trace : trace_of release rough_ops =
  [ Some (OutCreate (Ok 0)); Some (OutCreate (Ok 256)); Some (OutCreate (Ok 512)); None;
    Some (OutCreate (Err [vl tA 5; vl tA 6])); Some (OutVals None); Some (OutBool true); Some (OutCreate (Ok 513)) ]%N.
Proof. vm_compute. reflexivity. Qed.
Definition is_live (c : cfg) (r : reg) (h : N) : bool := match entry_of c r h with Some _ => true | None => false end.
Lemma is_live_alive c r h : is_live c r h = true -> alive c r h.
Proof. unfold is_live, alive. destruct (entry_of c r h); by eauto. Qed.
Lemma is_live_dead c r h : is_live c r h = false -> ~ alive c r h.
Proof. unfold is_live, alive. destruct (entry_of c r h); [done|]. by intros _ [? [=]]. Qed.

(** ** C16: a created handle is new, shares its slot with no live handle, and
    the call makes or kills no other handle. *)
Theorem C16_registry_create : forall c r G vs h r',
  reachable c r -> create_entity c G vs r = Ret (Ok h) r' ->
  ~ alive c r h /\ alive c r' h /\ (forall h', alive c r h' -> ent_index h' <> ent_index h) /\
  (forall h', h' <> h -> alive c r' h' <-> alive c r h') /\ h <> ent_INVALID /\ (h < 2 ^ 32)%N.
Proof. exact registry_create. Qed.
Print Assumptions C16_registry_create.
Theorem C16_registry_distinct : forall c r h h',
  reachable c r -> alive c r h -> alive c r h' -> ent_index h = ent_index h' -> h = h'.
Proof. exact registry_distinct. Qed.
Print Assumptions C16_registry_distinct.
Example C16_registry_example :
  reachable release rough /\ (exists r', create_entity release [tB] [vl tB 9] rough = Ret (Ok 768%N) r') /\
  alive release rough 256 /\ alive release rough 513 /\ ~ alive release rough 512.
Proof.
  split; [exact rough_reachable|]. split.
  - destruct (create_entity release [tB] [vl tB 9] rough) as [[h|e] r'|r'|] eqn:E; vm_compute in E; try discriminate. injection E as <- _. by eexists.
  - split; [|split]; [apply is_live_alive|apply is_live_alive|apply is_live_dead]; vm_compute; reflexivity.
Qed.

(** ** C17: the invalid handle is alive in no registry whatsoever and every call
    rejects it, changing nothing. *)
Theorem C17_registry_invalid : forall c r,
  ~ alive c r ent_INVALID /\ forall o, handle_of o = Some ent_INVALID -> step c o r = Ret (rejection o) r.
Proof. intros c r. split; [apply invalid_dead|]. intros o Ho. exact (dead_handle c o _ r Ho (invalid_dead c r)). Qed.
Print Assumptions C17_registry_invalid.
Example C17_registry_example :
  handle_of (OpAdd tC ent_INVALID (vl tC 1)) = Some ent_INVALID /\ rejection (OpAdd tC ent_INVALID (vl tC 1)) = OutAdd (Err (vl tC 1)).
Proof. done. Qed.

(** ** C18 *)
Theorem C18_registry_destroyed : forall c r o out h r',
  reachable c r -> step c o r = Ret out r' -> destroyed o out h ->
  alive c r h /\ ~ alive c r' h /\ forall h', h' <> h -> alive c r' h' <-> alive c r h'.
Proof. exact registry_destroyed. Qed.
Print Assumptions C18_registry_destroyed.
(** A dead handle stays dead until a creation returns it again (a creation that
    panicked may have issued any handle). *)
Theorem C18_registry_dead : forall c r tr r' h,
  reachable c r -> calls c r tr r' -> ~ alive c r h -> (forall x, x ∈ tr -> ~ may_issue h x) -> ~ alive c r' h.
Proof. exact registry_dead. Qed.
Print Assumptions C18_registry_dead.
(** In any registry whatsoever a dead handle is rejected by every call taking a
    handle, and nothing changes: not the entities, not the storage, not the
    allocator or drop trace. *)
Theorem C18_registry_rejected : forall c r o h,
  handle_of o = Some h -> ~ alive c r h -> step c o r = Ret (rejection o) r.
Proof. intros c r o h. exact (dead_handle c o h r). Qed.
Print Assumptions C18_registry_rejected.
Example C18_registry_example :
  let r1 := (play release [OpDestroy 513; OpCreate [tB] [vl tB 9]; OpAdd tC 513 (vl tC 1)]%N rough) in
  r1.1 = [(OpDestroy 513, Some (OutBool true)); (OpCreate [tB] [vl tB 9], Some (OutCreate (Ok 514)));
          (OpAdd tC 513 (vl tC 1), Some (OutAdd (Err (vl tC 1))))]%N /\
  destroyed (OpDestroy 513) (OutBool true) 513%N.
Proof. split; [vm_compute; reflexivity|done]. Qed.

(** ** C19: a handle comes back only after its slot went through at least 255
    further destroying calls. *)
Theorem C19_registry_stale : forall c r o out h r1 tr r2,
  reachable c r -> step c o r = Ret out r1 -> destroyed o out h -> calls c r1 tr r2 -> alive c r2 h ->
  255 <= destroying_calls (ent_index h) tr.
Proof. exact registry_stale. Qed.
Print Assumptions C19_registry_stale.
(** The bound is met: after destroying 0 and 255 more create/destroy rounds the
    next creation returns 0 again, and it is alive. *)
(** Taking apart the result of one computation. *)
Lemma three_parts {A B D} (a a' : A) (b b' : B) (d d' : D) : (a, b, d) = (a', b', d') -> a = a' /\ b = b' /\ d = d'.
Proof. by intros [= -> -> ->]. Qed.
Definition cycle (k : nat) : list op := flat_map (fun i => [OpCreate [tA] [vl tA 0]; OpDestroy (N.of_nat i)]) (seq 1 k).
Example C19_registry_example :
  let ops := [OpCreate [tA] [vl tA 0]; OpDestroy 0]%N ++ cycle 255 ++ [OpCreate [tA] [vl tA 0]] in
  let p := play release ops reg_default in
  last (p.1.*2) = Some (Some (OutCreate (Ok 0%N))) /\ alive release p.2 0 /\ destroying_calls 0 (drop 2 p.1) = 255.
Proof.
  set (f := fun p : list (op * option output) * reg => (last (p.1.*2), is_live release p.2 0, destroying_calls 0 (drop 2 p.1))).
  intros ops p. assert (E : f p = (Some (Some (OutCreate (Ok 0%N))), true, 255)) by (vm_compute; reflexivity).
  destruct (three_parts _ _ _ _ _ _ E) as (E1&E2&E3). split; [exact E1|]. split; [exact (is_live_alive _ _ _ E2)|exact E3].
Qed.

(** ** C20: the entity table inside a reachable registry is one of those the
    theorems of Properties_Entity.v are about (free list exact, slots reused
    before the table grows, table as long as the peak population). *)
Theorem C20_registry_table : forall c r, reachable c r -> er_reach (big c) (r_er r).
Proof. exact registry_table. Qed.
Print Assumptions C20_registry_table.
Example C20_registry_example : er_reach false (r_er rough) /\ length (er_ents (r_er rough)) = 3.
Proof. split; [exact (C20_registry_table release rough rough_reachable)|vm_compute; reflexivity]. Qed.

(** ** C42.  [regular]/[ad_wf]: the descriptor has 1 to 14 components when valid
    and they are strictly sorted by id, as every constructor of the crate
    makes them (C09_wf_closed). *)
Theorem C42_found_forever : forall c r d k r' tr r2,
  reachable c r -> regular d -> ad_wf d -> find_or_create_archetype d r = Ret (Some k) r' -> calls c r' tr r2 ->
  find_archetype d (r_ar r2) = Rd (Some k) /\ find_or_create_archetype d r2 = Ret (Some k) r2.
Proof. exact found_forever. Qed.
Print Assumptions C42_found_forever.
Theorem C42_unique : forall c r i j d, reachable c r -> stands r i d -> stands r j d -> i = j.
Proof. exact stands_unique. Qed.
Print Assumptions C42_unique.
Theorem C42_indices_stable : forall c r tr r' i a,
  reachable c r -> calls c r tr r' -> ar_archs (r_ar r) !! i = Some a ->
  exists a', ar_archs (r_ar r') !! i = Some a' /\ a_desc a' = a_desc a.
Proof. exact archetypes_stay. Qed.
Print Assumptions C42_indices_stable.
Theorem C42_lookup : forall c r d,
  reachable c r -> regular d ->
  exists o, find_archetype d (r_ar r) = Rd o /\ forall k, o = Some k <-> ad_is_valid d = true /\ stands r k d.
Proof.
  intros c r d Hr Hd. destruct (Clients.lookup_total c r d Hr Hd) as [o Ho]. exists o. split; [exact Ho|].
  intros k. rewrite <- (lookup_iff c r d k Hr Hd), Ho. split; congruence.
Qed.
Print Assumptions C42_lookup.
Theorem C42_creation_fails : forall c r d,
  reachable c r -> regular d ->
  (exists r', find_or_create_archetype d r = Ret None r') <->
  ad_is_valid d = false \/ ((forall k, ~ stands r k d) /\ (65534 <= N.of_nat (length (ar_archs (r_ar r))))%N).
Proof. exact create_fails. Qed.
Print Assumptions C42_creation_fails.
Theorem C42_creation_result : forall c r d k r',
  reachable c r -> regular d -> find_or_create_archetype d r = Ret (Some k) r' ->
  ad_is_valid d = true /\ stands r' k d /\ r_er r' = r_er r /\
  (r' = r \/ (forall j, ~ stands r j d) /\ k = length (ar_archs (r_ar r)) /\
     exists a, ar_archs (r_ar r') = ar_archs (r_ar r) ++ [a] /\ a_desc a = d).
Proof. exact create_result. Qed.
Print Assumptions C42_creation_result.
(** Three archetypes are in use, the fourth is new. *)
Example C42_example :
  let d := fun G => gd_arch (group_desc false G) in
  reachable release rough /\ (forall G, regular (d G) /\ ad_wf (d G)) /\ length (ar_archs (r_ar rough)) = 3 /\
  find_archetype (d [tA; tB]) (r_ar rough) = Rd (Some 1) /\ find_archetype (d [tB; tC]) (r_ar rough) = Rd None /\
  (exists r', find_or_create_archetype (d [tA; tB]) rough = Ret (Some 1) r') /\
  (exists r', find_or_create_archetype (d [tB; tC]) rough = Ret (Some 3) r').
Proof.
  cbn zeta. split; [exact rough_reachable|]. split; [intros G; split; [exact (group_regular release G)|apply group_arch_wf]|].
  split; [vm_compute; reflexivity|]. split; [vm_compute; reflexivity|]. split; [vm_compute; reflexivity|].
  split; eexists; vm_compute; reflexivity.
Qed.

(** ** C43 (partial: an index past the end; the index equal to the number of
    archetypes panics, [C43_source_range_refuted]) *)
Theorem C43_source_range_partial : forall c r src d,
  length (ar_archs (r_ar r)) < src ->
  find_or_create_archetype_adding_component c src d r = Ret None r /\
  find_or_create_archetype_removing_component c src d r = Ret None r.
Proof.
  intros c r src d H. unfold find_or_create_archetype_adding_component, find_or_create_archetype_removing_component, bind, rm_get, get_st.
  by rewrite (proj2 (Nat.ltb_lt _ _) H).
Qed.
Print Assumptions C43_source_range_partial.
Example C43_example : length (ar_archs (r_ar rough)) < 4.
Proof. vm_compute. lia. Qed.

(** ** C44.  [disjoint_mut] on a slice of length [len]: the indices the two
    returned references point to. *)
Theorem C44_disjoint_mut : forall len i j,
  disjoint_mut len i j = Rd (if decide (i <> j /\ i < len /\ j < len) then Some (i, j) else None).
Proof. exact disjoint_mut_spec. Qed.
Print Assumptions C44_disjoint_mut.
Example C44_example : disjoint_mut 5 4 1 = Rd (Some (4, 1)) /\ disjoint_mut 5 1 4 = Rd (Some (1, 4)) /\ disjoint_mut 5 5 1 = Rd None.
Proof. vm_compute. auto. Qed.

(** ** C39: once any archetype iterator or component iterator returned [None], it
    does so forever, in the same state, even if the filter closure changes
    its mind.  (The entity iterator is [C22_fused].) *)
Theorem C39_archetype_iterators_fused : forall c G accept r st st' r2 accept2,
  arch_iter_next c G accept r st = Rd (None, st') -> arch_iter_next c G accept2 r2 st' = Rd (None, st').
Proof. exact arch_next_fused. Qed.
Print Assumptions C39_archetype_iterators_fused.
Theorem C39_component_iterators_fused : forall I c G accept (item : nat -> arch -> rd I) r st st' r2 accept2,
  slices_next c G accept item r st = Rd (None, st') -> slices_next c G accept2 item r2 st' = Rd (None, st').
Proof. exact @slices_next_fused. Qed.
Print Assumptions C39_component_iterators_fused.
Example C39_example :
  exists st', arch_iter_next release [tC] (accept_matching false [tC]) (r_ar rough) (ItSt 0 0) = Rd (Some 2, st') /\
  exists st2, arch_iter_next release [tC] (accept_matching false [tC]) (r_ar rough) st' = Rd (None, st2).
Proof. eexists. split; [vm_compute; reflexivity|]. eexists. vm_compute. reflexivity. Qed.
