(** * C67: every program, misuse included, down to bytes

    C53 follows programs within the contract over the byte-level registry.  Here
    are all the others: programs that catch panics (C57), fill archetypes (C65),
    and programs about whose hashes nothing is known (C66). *)
From Verif Require Import Instances Instances2 ByteReg Total Used Clash Bytes9 Bytes10 Properties_Total Properties_Clash
  SpecBytes SpecBase SpecWorld SpecRef SpecEvents SpecTotal SpecUsed SpecBrim SpecClash SpecBytes2.
Local Open Scope N_scope.

(** Call by call the byte-level registry returns, panics, or does something
    undefined, as predicted by [predict] (SpecTotal.v) from the program alone. *)
Theorem C67_every_program : forall (Fm : family) c U place ops,
  universe (big c) U -> laid_out U -> NoDup (map ct_ty U) -> lawful_all (dbg c) (big c) U ops book_empty ->
  (battempt c ops (breg_default place)).1 = (predict (dbg c) (big c) U ops book_empty).1 /\
  ((battempt c ops (breg_default place)).2 = None <-> (predict (dbg c) (big c) U ops book_empty).2 = None).
Proof. intros Fm c U place ops HU Hla Hnt. exact (battempt_predicted c U HU Hla Hnt place ops). Qed.
Print Assumptions C67_every_program.
(** Allocations, deallocations and destructor calls are as predicted too. *)
Theorem C67_requests : forall (Fm : family) c U place ops R,
  universe (big c) U -> laid_out U -> NoDup (map ct_ty U) -> lawful_all (dbg c) (big c) U ops book_empty ->
  (battempt c ops (breg_default place)).2 = Some R ->
  ev_trace (m_env (br_mem R)) = (predict_log (dbg c) (big c) U ops book_empty []).1.
Proof. intros Fm c U place ops R HU Hla Hnt. exact (battempt_requests c U HU Hla Hnt place ops R). Qed.
Print Assumptions C67_requests.
(** Dropping the registry frees every block, whatever calls panicked before. *)
Theorem C67_dropping : forall (Fm : family) c U place ops R b,
  universe (big c) U -> laid_out U -> NoDup (map ct_ty U) -> lawful_all (dbg c) (big c) U ops book_empty ->
  (battempt c ops (breg_default place)).2 = Some R -> (predict (dbg c) (big c) U ops book_empty).2 = Some b -> all_calm (bk_world b) ->
  exists R', b_drop_registry R = Ret tt R' /\ m_blocks (br_mem R') = ∅ /\
    ev_trace (m_env (br_mem R')) = ((predict_log (dbg c) (big c) U ops book_empty []).1 ++
      final_log b (predict_log (dbg c) (big c) U ops book_empty []).2)%list.
Proof. intros Fm c U place ops R b HU Hla Hnt. exact (battempt_drop c U HU Hla Hnt place ops R b). Qed.
Print Assumptions C67_dropping.
(** Nothing assumed about hashes or the number of entities: the program is
    followed up to the first call that finds the archetype of other components. *)
Theorem C67_any_program : forall c U place ops,
  plain U -> laid_out U -> NoDup (map ct_ty U) -> fair_all (dbg c) (big c) U ops book_empty ->
  match follow (dbg c) (big c) U ops book_empty with
  | (l, Ends (Completes _)) => (battempt c ops (breg_default place)).1 = l /\ is_Some (battempt c ops (breg_default place)).2
  | (l, Ends Faults) => battempt c ops (breg_default place) = (l, None)
  | (l, Ends Wrecks) | (l, Clash _ _) => l `prefix_of` (battempt c ops (breg_default place)).1
  end.
Proof.
  intros c U place ops HU Hla Hnt Hf. pose proof (b_followed c U HU Hla Hnt place ops Hf) as Hm. unfold b_met in Hm.
  destruct (follow (dbg c) (big c) U ops book_empty) as [l [[b| |]|b o]]; cbn [fst snd] in Hm;
    [|by destruct (battempt c ops (breg_default place)), Hm; cbn in *; subst|done|done].
  destruct Hm as (E&r&R&ER&_). by rewrite E, ER.
Qed.
Print Assumptions C67_any_program.
Theorem C67_any_dropping : forall c U place ops l b,
  plain U -> laid_out U -> NoDup (map ct_ty U) -> fair_all (dbg c) (big c) U ops book_empty ->
  follow (dbg c) (big c) U ops book_empty = (l, Ends (Completes b)) -> all_calm (bk_world b) ->
  exists R R', (battempt c ops (breg_default place)).2 = Some R /\ b_drop_registry R = Ret tt R' /\ m_blocks (br_mem R') = ∅.
Proof. intros c U place ops l b HU Hla Hnt. exact (b_followed_drop c U HU Hla Hnt place ops l b). Qed.
Print Assumptions C67_any_dropping.

(** The programs of the examples for C57 and C66, over bytes.  [rough] panics at
    13 and 14 components and ends, in release builds, with an undefined call;
    [mixed] goes on with a call that finds the archetype of other components. *)
Definition nowhere (id : N) : N := id * 1024.
Definition panics (l : list (option output)) : nat := length (filter (fun o => match o with None => true | _ => false end = true) l).
Definition ended (x : list (option output) * option breg) : list (option output) * bool := (x.1, match x.2 with Some _ => true | None => false end).
Example C67_example :
  universe (big release) U14 /\ laid_out U14 /\ NoDup (map ct_ty U14) /\
  lawful_all (dbg release) (big release) U14 rough book_empty /\ lawful_all (dbg debug) (big debug) U14 rough book_empty /\
  panics (predict (dbg release) (big release) U14 rough book_empty).1 = 2%nat /\ panics (predict (dbg debug) (big debug) U14 rough book_empty).1 = 4%nat /\
  plain UC /\ laid_out UC /\ NoDup (map ct_ty UC) /\ fair_all (dbg release) (big release) UC mixed book_empty.
Proof.
  destruct C57_example as (H1&_&H2&H3&H4&_). destruct C66_example as (P1&P2&P3&_).
  split; [exact H1|]. split; [repeat constructor; exists 1; reflexivity|]. split; [exact H2|]. split; [exact H3|]. split; [exact H4|].
  split; [vm_compute; reflexivity|]. split; [vm_compute; reflexivity|].
  split; [exact P1|]. split; [repeat constructor; exists 1; reflexivity|]. split; [exact P2|]. exact P3.
Qed.
(** The runs, checked at compile time (see Tests.v for why not a lemma). *)
Definition rough_release : list (option output) * bool := ((predict (dbg release) (big release) U14 rough book_empty).1, false).
Definition rough_debug : list (option output) * bool := ((predict (dbg debug) (big debug) U14 rough book_empty).1, true).
Check (eq_refl rough_release <: ended (battempt release rough (breg_default nowhere)) = rough_release).
Check (eq_refl rough_debug <: ended (battempt debug rough (breg_default nowhere)) = rough_debug).
Check (eq_refl (mixed_l, true) <: ended (battempt release mixed (breg_default nowhere)) = (mixed_l, true)).
