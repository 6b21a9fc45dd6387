(** C46: what exactly happens when the allocator fails. *)
From Verif Require Import RegModel SpecTrace Alloc Alloc3 Instances Properties_Defects SpecObs SpecBase SpecWorld SpecCrash SpecAlloc.
Local Open Scope N_scope.

(** C46 is false (Properties_Defects.v).  What holds instead, from any state
    reached with an allocator that may refuse any request (panics that left the
    registry as it was having been caught), for any call within the contract: no
    undefined behaviour, and a call that returns returns what it should.  A call
    panics only if a request was refused; it drops exactly the values it was
    given; and it leaves the registry either as it was, or [broken]: an
    archetype has lost the block that could not be grown, so that reading it is
    undefined, and the registry cannot even be dropped.  Only [create_entity],
    [add_component] and [remove_component] can break it. *)
Theorem C46_failures_exactly : forall (Fm : family) c U r w I O o,
  universe (big c) U -> unlucky c U r w I O -> contract (big c) U w o ->
  match step c o r with
  | Ret out r' => allowed (big c) U (table_full r) (archetypes_full r) w o out
  | Panic r' => refused (ev_oracle (r_env r)) (ev_oracle (r_env r')) /\ only_drops r r' (given o) /\
      (untouched r r' \/ broken c U w r r' o /\ (all_calm w -> drop_registry r' = UB))
  | UB => False
  end.
Proof. intros Fm c U r w I O o HU Hh. exact (unlucky_step c U HU r w I O o Hh). Qed.
Print Assumptions C46_failures_exactly.

(** As long as the registry was only ever left as it was: all handles show what
    the calls that succeeded put there, every value is in the registry, dropped
    or handed back, exactly once; dropping the registry drops the rest and frees
    nothing that it did not allocate (blocks obtained for an archetype whose
    construction failed are leaked). *)
Theorem C46_untouched_registry : forall (Fm : family) c U r w I O,
  universe (big c) U -> unlucky c U r w I O ->
  (forall h, alive c r h <-> is_Some (w !! h)) /\
  (forall h C, C ∈ U -> get_component c C h r = Rd (value_of w h C)) /\
  I ≡ₚ O ++ drops_of (ev_trace (r_env r)) ++ world_values w /\
  (all_calm w -> exists r', drop_registry r = Ret tt r' /\ I ≡ₚ O ++ drops_of (ev_trace (r_env r')) /\
    frees_of (ev_trace (r_env r')) ⊆+ allocs_of (ev_trace (r_env r'))).
Proof. intros Fm c U r w I O HU Hh. exact (unlucky_facts c U HU r w I O Hh). Qed.
Print Assumptions C46_untouched_registry.

(** For arbitrary calls (within the contract or not): as long as none panics,
    the allocator's answers make no difference. *)
Theorem C46_answers_do_not_matter : forall c ops oracle outs r,
  run c ops (reg_with oracle) = Ret outs r -> run c ops reg_default = Ret outs (heal r).
Proof. exact run_heal. Qed.
Print Assumptions C46_answers_do_not_matter.

(** ** Examples *)
(** The second allocation of the first [create_entity] fails: the registry is
    as it was, the given value is dropped, one block is leaked; trying again works. *)
Definition first_fails : reg := Eval vm_compute in
  match step release (OpCreate [tA] [vl tA 1]) (reg_with [true; false]) with Panic r' => r' | _ => reg_default end.
Example C46_first_example :
  universe (big release) UABC /\
  unlucky release UABC first_fails ∅ [vl tA 1] [] /\
  ev_trace (r_env first_fails) = [EvAlloc 512 4; EvDrop (vl tA 1)] /\
  contract (big release) UABC ∅ (OpCreate [tA] [vl tA 2]) /\
  (exists r', step release (OpCreate [tA] [vl tA 2]) first_fails = Ret (OutCreate (Ok 0)) r').
Proof.
  split; [apply UABC_ok|].
  assert (Hc : forall x, contract (big release) UABC ∅ (OpCreate [tA] [vl tA x])).
  { intros x. split; [|split].
    - by repeat constructor.
    - by repeat constructor.
    - intros _. apply room_small; [vm_compute; reflexivity|done]. }
  split.
  { eapply (u_caught _ _ (reg_with [true; false]) ∅ [] [] (OpCreate [tA] [vl tA 1])); [apply u_start|apply Hc| |].
    - vm_compute. reflexivity.
    - split; [reflexivity|]. split; reflexivity. }
  split; [reflexivity|]. split; [apply Hc|].
  eexists. vm_compute. reflexivity.
Qed.

Section play.
  Context (c : cfg) (U : list ctype).
  Lemma after_unlucky ops r w I O r' w' I' O' : unlucky c U r w I O -> permits c U ops r w ->
    after c U ops r w I O = (r', w', I', O') -> unlucky c U r' w' I' O'.
  Proof.
    revert r w I O. induction ops as [|o ops IH]; intros r w I O Hh Hp E; cbn in *.
    - by injection E as <- <- <- <-.
    - destruct Hp as [Hc Hp]. destruct (step c o r) as [out r1| |] eqn:Es; [|done..]. eapply IH; [|exact Hp|exact E]. by eapply u_call.
  Qed.
End play.
(** 128 entities, and growing for one more fails: the hypotheses hold, and the
    registry is broken. *)
Definition crowded (oracle : list bool) := after release UABC (many 128) (reg_with oracle) ∅ [] [].
Lemma crowded_unlucky oracle : oracle = [true; true; false] \/ oracle = [true; true; true; false] ->
  unlucky release UABC (crowded oracle).1.1.1 (crowded oracle).1.1.2 (crowded oracle).1.2 (crowded oracle).2.
Proof.
  intros Ho. eapply (after_unlucky release UABC (many 128) (reg_with oracle) ∅ [] []); [apply u_start| |].
  - apply permitsb_ok. destruct Ho as [-> | ->]; vm_compute; reflexivity.
  - unfold crowded. by destruct (after _ _ _ _ _ _ _) as [[[r w] I] O].
Qed.
(** Taking apart the result of one computation. *)
Lemma three_parts {A B D} (a a' : A) (b b' : B) (d d' : D) : (a, b, d) = (a', b', d') -> a = a' /\ b = b' /\ d = d'.
Proof. by intros [= -> -> ->]. Qed.
Definition breaks (r : reg) (f : reg -> bool) : bool :=
  match step release (OpCreate [tA] [vl tA 999]) r with
  | Panic r' => f r' && match drop_registry r' with UB => true | _ => false end
  | _ => false
  end.
Definition unreadable (r' : reg) : bool := match get_component release tA 0 r' with RdUB => true | _ => false end.
Example C46_broken_example : forall oracle,
  oracle = [true; true; false] \/ oracle = [true; true; true; false] ->
  universe (big release) UABC /\
  unlucky release UABC (crowded oracle).1.1.1 (crowded oracle).1.1.2 (crowded oracle).1.2 (crowded oracle).2 /\
  contract (big release) UABC (crowded oracle).1.1.2 (OpCreate [tA] [vl tA 999]) /\
  breaks (crowded oracle).1.1.1 unreadable = bool_decide (oracle = [true; true; true; false]) /\
  breaks (crowded oracle).1.1.1 (fun r' => true) = true.
Proof.
  intros oracle Ho. split; [apply UABC_ok|]. split; [by apply crowded_unlucky|].
  set (f := fun p : reg * world * list value * list value =>
    (contractb release UABC p.1.1.2 (OpCreate [tA] [vl tA 999]), breaks p.1.1.1 unreadable, breaks p.1.1.1 (fun _ => true))).
  assert (E : f (crowded oracle) = (true, bool_decide (oracle = [true; true; true; false]), true)).
  { destruct Ho as [-> | ->]; vm_compute; reflexivity. }
  destruct (three_parts _ _ _ _ _ _ E) as (E1&E2&E3). split; [exact (contractb_ok _ _ _ _ E1)|]. split; [exact E2|exact E3].
Qed.
