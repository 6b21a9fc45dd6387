(** * C71: threads that share out the references of one call *)
From Verif Require Import Instances ByteReg Ref Bytes7 Bytes8 Codes2 Threads3 Properties_Bytes Properties_Codes SpecBytes SpecBase SpecWorld SpecRef SpecCode SpecThreads.
Local Open Scope N_scope.

(** A client gives the references that one mutable iteration (or tuple access)
    handed out to several scoped threads: each reference to one thread, or to all for
    looking.  Accesses are not atomic; the bytes of different threads may move in any
    order.  Nothing undefined happens, every thread sees what it would see alone, and
    in the end the memory is the one that calls lead to, so that all other theorems
    continue to apply. *)
Theorem C71_matching : forall (Fm : family) c U place ops out R G,
  universe (big c) U -> laid_out U -> within (big c) U ops book_empty -> brun c ops (breg_default place) = Ret out R ->
  in_U U G -> gvalid (big c) G ->
  exists refs items, b_iter_entity_matching_mut c G R = Rd (Some refs) /\ b_iter_matching_mut c G R = Rd (Some (map snd refs)) /\
    b_iter_entity_matching c G R = Rd (Some items) /\ map fst refs = map fst items /\
    like_alone c U place ops out R (concat (concat (map snd refs))) (concat (map (owners G) (map fst items))) (concat (concat (map snd items))).
Proof. intros Fm c U place ops out R G HU Hla Hw Er. exact (matching_threads c U HU Hla place ops out R Hw Er G). Qed.
Print Assumptions C71_matching.
Theorem C71_filtered : forall (Fm : family) c U place ops out R G f,
  universe (big c) U -> laid_out U -> within (big c) U ops book_empty -> brun c ops (breg_default place) = Ret out R ->
  in_U U G -> gvalid (big c) G -> respects f ->
  exists refs items, b_iter_entity_filtered_mut c G f R = Rd (Some refs) /\ b_iter_filtered_mut c G f R = Rd (Some (map snd refs)) /\
    b_iter_entity_filtered c G f R = Rd (Some items) /\ map fst refs = map fst items /\
    like_alone c U place ops out R (concat (concat (map snd refs))) (concat (map (owners G) (map fst items))) (concat (concat (map snd items))).
Proof. intros Fm c U place ops out R G f HU Hla Hw Er. exact (filtered_threads c U HU Hla place ops out R Hw Er G f). Qed.
Print Assumptions C71_filtered.
Theorem C71_exact : forall (Fm : family) c U place ops out R G,
  universe (big c) U -> laid_out U -> within (big c) U ops book_empty -> brun c ops (breg_default place) = Ret out R ->
  in_U U G -> gvalid (big c) G -> known (big c) U G ->
  exists refs it, b_entity_exact_mut c G R = Rd refs /\ b_exact_mut c G R = Rd refs.2 /\ b_entity_exact c G R = Rd it /\ refs.1 = it.1 /\
    like_alone c U place ops out R (concat refs.2) (owners G it.1) (concat it.2).
Proof. intros Fm c U place ops out R G HU Hla Hw Er. exact (exact_threads c U HU Hla place ops out R Hw Er G). Qed.
Print Assumptions C71_exact.
Theorem C71_tuple : forall (Fm : family) c U place ops out R G h,
  universe (big c) U -> laid_out U -> within (big c) U ops book_empty -> brun c ops (breg_default place) = Ret out R ->
  in_U U G -> gvalid (big c) G ->
  exists res vals, b_get_all_mut c G h R = Rd res /\ b_get_all c G h R = Rd vals /\
    match res, vals with
    | Some ls, Some vs => like_alone c U place ops out R ls (map (fun C => (h, C)) G) vs
    | None, None => True
    | _, _ => False
    end.
Proof. intros Fm c U place ops out R G h HU Hla Hw Er. exact (tuple_threads c U HU Hla place ops out R Hw Er G h). Qed.
Print Assumptions C71_tuple.

(** The three entities of C59.  Thread 0 has the A of the first entity and adds to it
    the B of the first, which is shared; thread 1 has the other Bs and swaps them
    if the B of the third is smaller, after looking at the shared B. *)
Definition thread0 : code := Look 0 (fun b => Look 2 (fun a => Replace 2 (Value (v_ty a) (v_tok a + v_tok b) false) (fun _ => Stop))).
Definition thread1 : code :=
  Look 1 (fun x => Look 4 (fun y => if (v_tok y <? v_tok x)%Z then Replace 1 y (fun x' => Replace 4 x' (fun _ => Look 0 (fun _ => Stop))) else Stop)).
Definition split2 (p : nat) : option nat := match p with 2%nat => Some 0%nat | 1%nat | 4%nat => Some 1%nat | _ => None end.
Definition zipped : list nat := concat (repeat [1; 0; 0; 1; 1]%nat 40).
Lemma threads_typed : forall t cd, [thread0; thread1] !! t = Some cd -> threaded [wB; wB; wA; wA; wB; wA] split2 t cd.
Proof.
  intros [|[|t]] cd E; [injection E as <-|injection E as <-|discriminate].
  - exists wB. split; [reflexivity|]. split; [right; reflexivity|]. intros b Hb. exists wA. split; [reflexivity|]. split; [left; reflexivity|]. intros a Ha.
    exists wA. split; [reflexivity|]. split; [reflexivity|]. split; [exact Ha|]. intros _ _. exact I.
  - exists wB. split; [reflexivity|]. split; [left; reflexivity|]. intros x Hx. exists wB. split; [reflexivity|]. split; [left; reflexivity|]. intros y Hy. destruct (_ <? _)%Z; [|exact I].
    exists wB. split; [reflexivity|]. split; [reflexivity|]. split; [exact Hy|]. intros x' Hx'. exists wB. split; [reflexivity|]. split; [reflexivity|]. split; [exact Hx'|]. intros _ _.
    exists wB. split; [reflexivity|]. split; [right; reflexivity|]. intros _ _. exact I.
Qed.
(** What the threads saw, which of them finished, and what a look at the bytes
    of each reference then shows. *)
Definition stops (cd : code) : bool := match cd with Stop => true | _ => false end.
Definition seen_by (cds : list code) (sched : list nat) : option (list (list value) * list bool * list (option value)) :=
  match weave trio_refs sched (spawn cds) (br_mem after_trio) with
  | Ret ths m => Some (map th_seen ths, map (fun th => stops (th_code th)) ths,
      map (fun l : bloc => match load m l.1 l.2 with Rd bs => bytes_val bs | _ => None end) trio_refs)
  | _ => None
  end.
Example C71_example :
  universe (big release) UW /\ laid_out UW /\ within (big release) UW trio book_empty /\ in_U UW [wB; wA] /\ gvalid (big release) [wB; wA] /\
  (forall t cd, [thread0; thread1] !! t = Some cd -> threaded [wB; wB; wA; wA; wB; wA] split2 t cd) /\
  seen_by [thread0; thread1] zipped =
    Some ([[vl wB 1; vl wA 10; vl wA 10]; [vl wB 5; vl wB 3; vl wB 5; vl wB 3; vl wB 1]], [true; true],
      map Some [vl wB 1; vl wB 3; vl wA 11; vl wA 20; vl wB 5; vl wA 30]).
Proof.
  split; [apply UW_ok|]. split; [apply UW_laid_out|]. split; [apply withinb_ok; vm_compute; reflexivity|].
  split; [apply in_Ub_ok; vm_compute; reflexivity|]. split; [apply (gvalid_dec release); vm_compute; reflexivity|].
  split; [exact threads_typed|]. vm_compute; reflexivity.
Qed.

Definition lone : list op := [OpCreate [wA; wB] [vl wA 10; vl wB 1]].
Definition racers : list code := [Replace 0 (vl wB 7) (fun _ => Look 0 (fun _ => Stop)); Replace 0 (vl wB 2) (fun _ => Stop)].
Definition racing : list nat := repeat 0%nat 18 ++ repeat 1%nat 25.
(** Sharing out is necessary: if two threads replace the value of the same
    reference, some schedule leaves bytes that represent no value, and looking at
    them is undefined. *)
Theorem C71_race_refuted : exists place ops out R ls cds sched,
  within (big release) UW ops book_empty /\ brun release ops (breg_default place) = Ret out R /\
  b_iter_entity_matching_mut release [wB] R = Rd (Some ls) /\
  Forall (typed_code [wB]) cds /\ weave (concat (concat (map snd ls))) sched (spawn cds) (br_mem R) = UB.
Proof.
  assert (Ht : match brun release lone (breg_default somewhere) with
    | Ret _ R => match b_iter_entity_matching_mut release [wB] R with Rd (Some ls) => match weave (concat (concat (map snd ls))) racing (spawn racers) (br_mem R) with UB => true | _ => false end | _ => false end
    | _ => false end = true) by (vm_compute; reflexivity).
  destruct (brun release lone (breg_default somewhere)) as [out R|?|] eqn:E1; [|discriminate..].
  destruct (b_iter_entity_matching_mut release [wB] R) as [[ls|]| |] eqn:E2; [|discriminate..].
  destruct (weave _ _ _ _) eqn:E3; [discriminate..|].
  exists somewhere, lone, out, R, ls, racers, racing.
  split; [apply withinb_ok; vm_compute; reflexivity|]. split; [exact E1|]. split; [exact E2|]. split; [|exact E3].
  assert (Hf : forall z, fits wB (vl wB z)) by reflexivity.
  apply Forall_cons; split; [|apply Forall_cons; split; [|apply Forall_nil; exact I]].
  - exists wB. split; [reflexivity|]. split; [apply Hf|]. intros _ _. exists wB. split; [reflexivity|]. intros _ _. exact I.
  - exists wB. split; [reflexivity|]. split; [apply Hf|]. intros _ _. exact I.
Qed.
Print Assumptions C71_race_refuted.
