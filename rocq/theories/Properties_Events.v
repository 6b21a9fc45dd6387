(** * C55: the exact sequence of memory requests and destructor calls

    SpecEvents.v: creating an archetype obtains its arrays for 128 entities (the
    handles first, then the columns by component id); a full archetype that
    receives an entity doubles all of them in the same order; [destroy_entity]
    runs the destructors of that entity's values by component id; no other call
    asks for memory, releases any, or runs a destructor.  Dropping the registry
    goes through the archetypes in order of creation: destructors column by
    column, then the columns, then the handles. *)
From Verif Require Import RegModel Instances ByteReg Ref Events2 Events3 SpecBytes SpecBase SpecWorld SpecRef SpecEvents.
Local Open Scope N_scope.

(** Every program within the contract: the trace is the log, and the archetypes
    have the capacities of the log. *)
Theorem C55_every_program : forall (Fm : family) c U ops,
  universe (big c) U -> within (big c) U ops book_empty ->
  exists r, run c ops reg_default = Ret (ref_run (big c) U ops book_empty).1 r /\
    ev_trace (r_env r) = (run_log (big c) U ops book_empty []).1 /\
    map a_cap (ar_archs (r_ar r)) = (run_log (big c) U ops book_empty []).2.
Proof. intros Fm c U ops HU. exact (run_requests c U HU ops). Qed.
Print Assumptions C55_every_program.
(** Dropping the registry at the end. *)
Theorem C55_dropping : forall (Fm : family) c U ops,
  universe (big c) U -> within (big c) U ops book_empty -> all_calm (bk_world (ref_run (big c) U ops book_empty).2) ->
  exists r r', run c ops reg_default = Ret (ref_run (big c) U ops book_empty).1 r /\ drop_registry r = Ret tt r' /\
    ev_trace (r_env r') = ((run_log (big c) U ops book_empty []).1 ++
      final_log (ref_run (big c) U ops book_empty).2 (run_log (big c) U ops book_empty []).2)%list.
Proof. intros Fm c U ops HU. exact (run_drop_requests c U HU ops). Qed.
Print Assumptions C55_dropping.
(** The capacity of an archetype is the smallest of 128, 256, 512, ... with room
    for the most entities it ever held: it never shrinks and never grows early. *)
Theorem C55_capacities : forall (Fm : family) c U ops,
  universe (big c) U -> within (big c) U ops book_empty ->
  Forall2 fitting (run_peaks (big c) U ops book_empty []) (run_log (big c) U ops book_empty []).2.
Proof. intros Fm c U ops HU. exact (run_capacities c U HU ops). Qed.
Print Assumptions C55_capacities.
(** The same requests, in the same order, at the level of bytes (C53). *)
Theorem C55_bytes : forall (Fm : family) c U place ops out R,
  universe (big c) U -> laid_out U -> within (big c) U ops book_empty -> brun c ops (breg_default place) = Ret out R ->
  ev_trace (m_env (br_mem R)) = (run_log (big c) U ops book_empty []).1.
Proof. intros Fm c U place ops out R HU Hla. exact (bytes_requests c U HU Hla place ops out R). Qed.
Print Assumptions C55_bytes.
Theorem C55_bytes_dropping : forall (Fm : family) c U place ops out R,
  universe (big c) U -> laid_out U -> within (big c) U ops book_empty -> all_calm (bk_world (ref_run (big c) U ops book_empty).2) ->
  brun c ops (breg_default place) = Ret out R ->
  exists R', b_drop_registry R = Ret tt R' /\ m_blocks (br_mem R') = ∅ /\
    ev_trace (m_env (br_mem R')) = ((run_log (big c) U ops book_empty []).1 ++
      final_log (ref_run (big c) U ops book_empty).2 (run_log (big c) U ops book_empty []).2)%list.
Proof. intros Fm c U place ops out R HU Hla. exact (bytes_drop_requests c U HU Hla place ops out R). Qed.
Print Assumptions C55_bytes_dropping.

(** Components of 1, 12 and 16 bytes.  130 entities of one archetype (it doubles
    at the 129th), 126 of them destroyed again (it does not shrink), one entity
    moves to a new archetype. *)
Definition zA := CType 1 1 1 1. Definition zB := CType 2 2 12 4. Definition zC := CType 3 3 16 8.
Definition UZ : list ctype := [zA; zB; zC].
Definition busy : list op :=
  map (fun k => OpCreate [zB; zA] [vl zB (Z.of_nat k); vl zA (- Z.of_nat k)]) (seq 0 130) ++
  [ OpAdd zC 256 (vl zC 7); OpGet zA 512; OpRemoveEntity [zA; zB] 0 ] ++ map (fun k => OpDestroy (256 * N.of_nat (3 + k))) (seq 0 126).
Definition trace_of {A} (r : res reg A) : option (list event) := match r with Ret _ s => Some (ev_trace (r_env s)) | _ => None end.
Example C55_example :
  universe (big release) UZ /\ laid_out UZ /\ within (big release) UZ busy book_empty /\
  all_calm (bk_world (ref_run (big release) UZ busy book_empty).2) /\
  trace_of (run release busy reg_default) = Some (run_log (big release) UZ busy book_empty []).1 /\
  take 14 (run_log (big release) UZ busy book_empty []).1 =
    [ EvAlloc 512 4; EvAlloc 128 1; EvAlloc 1536 4;
      EvRealloc 512 4 1024; EvRealloc 128 1 256; EvRealloc 1536 4 3072;
      EvAlloc 512 4; EvAlloc 128 1; EvAlloc 1536 4; EvAlloc 2048 8;
      EvDrop (vl zA (-3)); EvDrop (vl zB 3); EvDrop (vl zA (-4)); EvDrop (vl zB 4) ] /\
  run_peaks (big release) UZ busy book_empty [] = [130; 1]%nat /\ (run_log (big release) UZ busy book_empty []).2 = [256; 128]%nat /\
  final_log (ref_run (big release) UZ busy book_empty).2 [256; 128]%nat =
    [ EvDrop (vl zA (-2)); EvDrop (vl zA (-129)); EvDrop (vl zB 2); EvDrop (vl zB 129);
      EvDealloc 256 1; EvDealloc 3072 4; EvDealloc 1024 4;
      EvDrop (vl zA (-1)); EvDrop (vl zB 1); EvDrop (vl zC 7);
      EvDealloc 128 1; EvDealloc 1536 4; EvDealloc 2048 8; EvDealloc 512 4 ].
Proof.
  split; [apply universeb_ok; vm_compute; reflexivity|]. split; [repeat constructor; [exists 1|exists 3|exists 2]; reflexivity|].
  split; [apply withinb_ok; vm_compute; reflexivity|]. split; [apply all_calm_dec; vm_compute; reflexivity|].
  split; [vm_compute; reflexivity|]. split; [vm_compute; reflexivity|]. split; [vm_compute; reflexivity|]. split; vm_compute; reflexivity.
Qed.
