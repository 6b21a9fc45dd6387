(** * C52: the registry computes exactly what a small reference implementation
    computes, including which handle comes next and the order of iteration.

    SpecRef.v: the world map, a list of archetypes (each a list of handles), the
    version of every slot, and the list of free slots.  A new entity goes to the
    end of its archetype; a leaving one is replaced by the last; handles are
    reused last destroyed first, with the next version; iterations visit
    archetypes by number of components, then by archetype id. *)
From Verif Require Import RegModel Instances Ref SpecBase SpecWorld SpecRef.
Local Open Scope N_scope.

(** Every program within the contract returns, call by call, what the reference
    implementation returns. *)
Theorem C52_every_program : forall (Fm : family) c U ops,
  universe (big c) U -> within (big c) U ops book_empty ->
  exists r, run c ops reg_default = Ret (ref_run (big c) U ops book_empty).1 r.
Proof. intros Fm c U ops HU. exact (run_is_ref c U HU ops). Qed.
Print Assumptions C52_every_program.
(** Nothing is left out: every registry of a history (C23-C40) is the result of
    such a program, and the reference implementation knows its world. *)
Theorem C52_every_history : forall (Fm : family) c U r w I O,
  universe (big c) U -> history c U r w I O ->
  exists ops, within (big c) U ops book_empty /\ bk_world (ref_run (big c) U ops book_empty).2 = w /\
    run c ops reg_default = Ret (ref_run (big c) U ops book_empty).1 r.
Proof. intros Fm c U r w I O HU. exact (history_program c U HU r w I O). Qed.
Print Assumptions C52_every_history.
(** The tour creates, destroys and reuses handles, moves entities between
    archetypes, swaps rows, and iterates; the last calls are shown in full. *)
Example C52_example :
  universe (big release) UABC /\ within (big release) UABC tour book_empty /\
  returns release tour = Some (ref_run (big release) UABC tour book_empty).1 /\
  drop 6 (take 13 (ref_run (big release) UABC tour book_empty).1) =
    [ OutBool true; OutCreate (Ok 1); OutCreate (Ok 513); OutCreate (Ok 1024);
      OutECols [([], [[]]); ([256], [[vl tA 20]]); ([513; 1024], [[vl tA 61; vl tA 70]]); ([768], [[vl tA 42]])];
      OutECols [([513; 1024], [[vl tB 60; vl tB 71]; [vl tA 61; vl tA 70]]); ([768], [[vl tB 41]; [vl tA 42]])];
      OutEntities [1; 256; 513; 768; 1024] ].
Proof.
  split; [apply UABC_ok|]. split; [apply withinb_ok; vm_compute; reflexivity|]. split; vm_compute; reflexivity.
Qed.
