(** * C75: growing costs a constant number of bytes per call

    SpecCost.v: [copied] are the bytes that reallocations may have to move, [bought]
    those of the arrays newly obtained.  A program of [n] calls never makes the
    allocator move more than [2 * widest * n] bytes, where [widest] is the size of
    an entity with all components: doubling makes the cost of adding an entity
    constant on average, over all archetypes together and with entities removed,
    created again and moved between archetypes in any order.  A fixed increment
    instead of doubling would make it quadratic. *)
From Verif Require Import RegModel Instances ByteReg Ref Events2 Cost SpecBytes SpecBase SpecWorld SpecRef SpecCost.
Local Open Scope N_scope.

(** Exactly: what was obtained and what was moved add up to the arrays held at the
    end; what was obtained are 128 rows per archetype; and the bound. *)
Theorem C75_registry : forall (Fm : family) c U ops,
  universe (big c) U -> within (big c) U ops book_empty ->
  exists r, run c ops reg_default = Ret (ref_run (big c) U ops book_empty).1 r /\
    copied (ev_trace (r_env r)) + bought (ev_trace (r_env r)) = held (bk_sheets (ref_run (big c) U ops book_empty).2) (map a_cap (ar_archs (r_ar r))) /\
    bought (ev_trace (r_env r)) = held (bk_sheets (ref_run (big c) U ops book_empty).2) (map (fun _ => 128%nat) (bk_sheets (ref_run (big c) U ops book_empty).2)) /\
    copied (ev_trace (r_env r)) <= 2 * widest U * N.of_nat (length ops).
Proof. intros Fm c U ops HU. exact (registry_cost c U HU ops). Qed.
Print Assumptions C75_registry.
(** The same bound for the program on bytes, wherever blocks are placed. *)
Theorem C75_bytes : forall (Fm : family) c U place ops out R,
  universe (big c) U -> laid_out U -> within (big c) U ops book_empty -> brun c ops (breg_default place) = Ret out R ->
  copied (ev_trace (m_env (br_mem R))) <= 2 * widest U * N.of_nat (length ops) /\
  copied (ev_trace (m_env (br_mem R))) + bought (ev_trace (m_env (br_mem R))) =
    held (bk_sheets (ref_run (big c) U ops book_empty).2) (run_log (big c) U ops book_empty []).2.
Proof. intros Fm c U place ops out R HU Hla. exact (bytes_cost c U HU Hla place ops out R). Qed.
Print Assumptions C75_bytes.
(** The memory held at the end: besides the first 128 rows of every archetype at
    most twice what its largest population needs; these populations together are
    no more than the calls. *)
Theorem C75_memory : forall (Fm : family) c U ops,
  universe (big c) U -> within (big c) U ops book_empty ->
  exists r, run c ops reg_default = Ret (ref_run (big c) U ops book_empty).1 r /\
    held (bk_sheets (ref_run (big c) U ops book_empty).2) (map a_cap (ar_archs (r_ar r))) <=
      held (bk_sheets (ref_run (big c) U ops book_empty).2) (map (fun _ => 128%nat) (bk_sheets (ref_run (big c) U ops book_empty).2)) +
      2 * held (bk_sheets (ref_run (big c) U ops book_empty).2) (run_peaks (big c) U ops book_empty []) /\
    (list_sum (run_peaks (big c) U ops book_empty []) <= length ops)%nat.
Proof. intros Fm c U ops HU. exact (registry_memory c U HU ops). Qed.
Print Assumptions C75_memory.

(** 257 entities of 17 bytes each, handle included: the archetype grows from 128
    rows to 256 and then to 512.  The factor 2 cannot be left out. *)
Definition kA := CType 1 1 1 1. Definition kB := CType 2 2 12 4.
Definition UK : list ctype := [kA; kB].
Definition many : list op := map (fun k => OpCreate [kB; kA] [vl kB (Z.of_nat k); vl kA (- Z.of_nat k)]) (seq 0 257).
Definition log_of {A} (r : res reg A) : list event := match r with Ret _ s => ev_trace (r_env s) | _ => [] end.
Example C75_example :
  universe (big release) UK /\ laid_out UK /\ within (big release) UK many book_empty /\
  log_of (run release many reg_default) = [ EvAlloc 512 4; EvAlloc 128 1; EvAlloc 1536 4;
    EvRealloc 512 4 1024; EvRealloc 128 1 256; EvRealloc 1536 4 3072; EvRealloc 1024 4 2048; EvRealloc 256 1 512; EvRealloc 3072 4 6144 ] /\
  copied (log_of (run release many reg_default)) = 6528 /\ bought (log_of (run release many reg_default)) = 2176 /\
  held (bk_sheets (ref_run (big release) UK many book_empty).2) [512%nat] = 8704 /\
  run_peaks (big release) UK many book_empty [] = [257%nat] /\
  widest UK = 17 /\ 1 * widest UK * N.of_nat (length many) < 6528 <= 2 * widest UK * N.of_nat (length many).
Proof.
  split; [apply universeb_ok; vm_compute; reflexivity|]. split; [repeat constructor; [exists 1|exists 3]; reflexivity|].
  split; [apply withinb_ok; vm_compute; reflexivity|].
  split; [vm_compute; reflexivity|]. split; [vm_compute; reflexivity|]. split; [vm_compute; reflexivity|]. split; [vm_compute; reflexivity|].
  split; [vm_compute; reflexivity|]. split; [vm_compute; reflexivity|]. split; [vm_compute; reflexivity|]. vm_compute. discriminate.
Qed.
