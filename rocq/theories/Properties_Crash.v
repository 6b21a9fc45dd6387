(** C45 and C34 with destructors that panic: what exactly happens. *)
From Verif Require Import RegModel Crash Instances SpecTrace SpecObs SpecBase SpecWorld SpecCrash.
Local Open Scope N_scope.

(** C45 is false (Properties_Defects.v).  What destroying an entity with a
    panicking destructor does instead, from any reachable state: the components
    are dropped in order of their ids up to and including the first whose
    destructor panics; the entity stays live, but it and the last entity [hl] of
    its archetype have exchanged their components (no change at all if it is
    that last entity itself); every other entity is untouched.  A later drop of
    the registry panics again, and drops any value at most once more than the
    destroyed entity's values were dropped already. *)
Theorem C45_destructor_panics_exactly : forall (Fm : family) c U r w I O h C v,
  universe (big c) U -> history c U r w I O ->
  C ∈ U -> shows c r h C (Some v) -> v_bomb v = true ->
  exists r' hl Cs vs, destroy_entity c h r = Panic r' /\
    (forall h', alive c r' h' <-> alive c r h') /\
    row_of c U r h Cs vs /\ ev_trace (r_env r') = ev_trace (r_env r) ++ map EvDrop (until_bomb vs) /\
    last_mate c U r h hl /\ exchanged c U r r' h hl /\ (forall h', h' <> h -> h' <> hl -> same c U r r' h') /\
    exists r'' D, drop_registry r' = Panic r'' /\
      drops_of (ev_trace (r_env r'')) = drops_of (ev_trace (r_env r)) ++ until_bomb vs ++ D /\ D ⊆+ world_values w.
Proof. intros Fm c U r w I O h C v HU Hh. exact (history_bomb c U HU r w I O h C v Hh). Qed.
Print Assumptions C45_destructor_panics_exactly.

(** C34 without the assumption that no destructor panics: dropping the registry
    panics exactly if some live component's destructor does; no value is handed
    back or dropped twice, and nothing is freed that was not allocated. *)
Theorem C34_drop_registry_any : forall (Fm : family) c U r w I O,
  universe (big c) U -> history c U r w I O ->
  exists r', drop_registry r = (if existsb v_bomb (world_values w) then Panic r' else Ret tt r') /\
    O ++ drops_of (ev_trace (r_env r')) ⊆+ I /\ frees_of (ev_trace (r_env r')) ⊆+ allocs_of (ev_trace (r_env r')).
Proof. intros Fm c U r w I O HU Hh. exact (history_drop_any c U HU r w I O Hh). Qed.
Print Assumptions C34_drop_registry_any.

(** Two entities with the same components; a destructor of the first panics. *)
Definition bomb_ops : list op :=
  [ OpCreate [tA; tB] [vl tA 1; bomb tB 2]; OpCreate [tA; tB] [vl tA 3; vl tB 4]; OpCreate [tC] [bomb tC 5] ].
Definition bomb_demo := after release UABC bomb_ops reg_default ∅ [] [].
Definition bomb_reg : reg := bomb_demo.1.1.1.
Definition bomb_world : gmap N ent := bomb_demo.1.1.2.
Example C45_C34_crash_example :
  universe (big release) UABC /\ history release UABC bomb_reg bomb_world bomb_demo.1.2 bomb_demo.2 /\
  tB ∈ UABC /\ shows release bomb_reg 0 tB (Some (bomb tB 2)) /\ v_bomb (bomb tB 2) = true /\
  existsb v_bomb (world_values bomb_world) = true.
Proof.
  split; [apply UABC_ok|]. split.
  { eapply (after_history release UABC bomb_ops reg_default ∅ [] []); [apply h_start| |].
    - apply permitsb_ok. vm_compute. reflexivity.
    - unfold bomb_reg, bomb_world, bomb_demo. by destruct (after _ _ _ _ _ _ _) as [[[r w] I] O]. }
  split; [apply (bool_decide_unpack _); vm_compute; reflexivity|].
  split; [unfold shows; vm_compute; reflexivity|]. split; [reflexivity|]. vm_compute. reflexivity.
Qed.
