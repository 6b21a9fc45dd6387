(** * C72: several registries in one program

    MultiModel.v: the registries of a program take their memory from one heap;
    calls on them are made in any order, registries are swapped and dropped. *)
From Verif Require Import Instances Properties_Bytes MultiModel Multi Multi2 Multi3 SpecMulti SpecBytes SpecEvents SpecBase SpecWorld SpecRef.
Local Open Scope nat_scope.

(** ** C72 *)
(** No program within the contract runs into [UB] or a panic; each call returns
    what the book of its own registry says, and causes the memory requests and
    destructor calls of that book, and no others.  When all registries are
    dropped, no block is left. *)
Theorem C72_together : forall (Fm : family) c U place ops,
  universe (big c) U -> laid_out U -> mwithin (big c) U ops [] ->
  exists s, mrun c ops (multi_default place) = Ret (map fst (mref_run (big c) U ops []).1) s /\
    ev_trace (m_env (mu_mem s)) = concat (map snd (mref_run (big c) U ops []).1) /\
    (Forall (fun x => x = None) (mref_run (big c) U ops []).2 -> m_blocks (mu_mem s) = ∅).
Proof. intros Fm c U place ops HU Hla. exact (together c U HU Hla place ops). Qed.
Print Assumptions C72_together.
(** Whatever happens to other registries in between, the calls on registry [k]
    return what the same calls return in a program in which it is the only one,
    with another allocator. *)
Theorem C72_alone : forall (Fm : family) c U place place' ops k,
  universe (big c) U -> laid_out U -> mwithin (big c) U ops [] -> Forall (fun o => swaps o = false) ops ->
  exists outs s R, mrun c ops (multi_default place) = Ret outs s /\
    within (big c) U (calls_on k ops) book_empty /\
    brun c (calls_on k ops) (breg_default place') = Ret (omap id (those_on k ops outs)) R.
Proof. intros Fm c U place place' ops k HU Hla. exact (alone c U HU Hla place place' ops k). Qed.
Print Assumptions C72_alone.
(** Its memory requests and destructor calls are also those it causes alone, in
    the same order, and it ends in the same state. *)
Theorem C72_alone_log : forall (Fm : family) c U ops k,
  mwithin (big c) U ops [] -> Forall (fun o => swaps o = false) ops ->
  let mine := concat (map snd (those_on k ops (mref_run (big c) U ops []).1)) in
  let b := (ref_run (big c) U (calls_on k ops) book_empty).2 in
  let log := run_log (big c) U (calls_on k ops) book_empty [] in
  match (mref_run (big c) U ops []).2 !! k with
  | Some (Some y) => y = (b, log.2) /\ mine = log.1
  | Some None => mine = log.1 ++ final_log b log.2
  | None => True
  end.
Proof. intros Fm c U ops k. exact (alone_log c U ops k). Qed.
Print Assumptions C72_alone_log.
(** References into two registries share no byte, whatever calls hand them out. *)
Theorem C72_references : forall (Fm : family) c U place ops outs s i j h h' ls ls',
  universe (big c) U -> laid_out U -> mwithin (big c) U ops [] ->
  mrun c ops (multi_default place) = Ret outs s -> mu_regs s !! i = Some (Some h) -> mu_regs s !! j = Some (Some h') -> i <> j ->
  hands_out c (filled h (mu_mem s)) ls -> hands_out c (filled h' (mu_mem s)) ls' -> apart ls ls'.
Proof. intros Fm c U place ops outs s i j h h' ls ls' HU Hla. exact (references c U HU Hla place ops outs s i j h h' ls ls'). Qed.
Print Assumptions C72_references.

(** Two registries with entities of the same handles. *)
Definition pair_of (k : nat) (z : Z) : mcall := MCall k (OpCreate [wB; wA] [vl wB z; vl wA (- z)]).
Definition duo_of (n : nat) : list mcall :=
  [MNew; MNew; pair_of 1 1000] ++ map (fun z => pair_of 0 (Z.of_nat z)) (seq 0 n) ++
  [ MCall 1 (OpAdd wC 0 (vl wC 7)); MCall 0 (OpDestroy 256); MCall 1 (OpGetAll [wA; wB; wC] 0); MCall 0 (OpGetAll [wA; wB] 0) ].
Definition duo : list mcall := duo_of 3.
Definition duo_end : list mcall := [ MCall 1 (OpSet wA 0 (vl wA 5)); MDrop 0; MCall 1 (OpIterE [wC; wA]); MDrop 1 ].
(** Swapped: variable 0 now holds the small one. *)
Definition duo_swapped : list mcall := [ MSwap 0 1; MCall 0 (OpGetAll [wA; wB; wC] 0); MDrop 1; MCall 0 (OpGet wB 0) ].
Definition calmb (w : world) : bool :=
  forallb (fun p : N * ent => forallb (fun q : N * value => negb (v_bomb q.2)) (map_to_list (en_vals p.2))) (map_to_list w).
Definition mallowedb (c : cfg) (U : list ctype) (s : list cell) (o : mcall) : bool :=
  match o with
  | MNew => true
  | MCall k o => match s !! k with Some (Some (b, _)) => contractb c U (bk_world b) o | _ => false end
  | MDrop k => match s !! k with Some (Some (b, _)) => calmb (bk_world b) | _ => false end
  | MSwap i j => match s !! i, s !! j with Some (Some _), Some (Some _) => true | _, _ => false end
  end.
Fixpoint mwithinb (c : cfg) (U : list ctype) (ops : list mcall) (s : list cell) : bool :=
  match ops with
  | [] => true
  | o :: ops' => if mallowedb c U s o then mwithinb c U ops' (mref (big c) U s o).2 else false
  end.
Lemma mwithinb_ok c U ops s : mwithinb c U ops s = true -> mwithin (big c) U ops s.
Proof.
  revert s. induction ops as [|o ops IH]; intros s H; cbn [mwithinb mwithin] in *; [done|].
  destruct (mallowedb c U s o) eqn:Ea; [|done]. split; [|by apply IH]. destruct o as [|k o|k|i j]; cbn [mallowedb mallowed] in *.
  - done.
  - destruct (s !! k) as [[[b caps]|]|]; [|done..]. exists b, caps. split; [done|]. by apply contractb_ok.
  - destruct (s !! k) as [[[b caps]|]|]; [|done..]. exists b, caps. split; [done|]. by apply all_calm_dec.
  - destruct (s !! i) as [[x|]|]; [|done..]. destruct (s !! j) as [[y|]|]; [|done..]. by exists x, y.
Qed.
(** The heap after [ops]: how many blocks are live. *)
Definition live_blocks (ops : list mcall) : option nat :=
  match mrun release ops (multi_default somewhere) with Ret _ s => Some (size (m_blocks (mu_mem s))) | _ => None end.
Example C72_example :
  universe (big release) UW /\ laid_out UW /\
  mwithin (big release) UW (duo ++ duo_end) [] /\ Forall (fun o => swaps o = false) (duo ++ duo_end) /\
  mwithin (big release) UW (duo ++ duo_swapped) [] /\
  drop 6 <$> outputs_of (mrun release (duo ++ duo_end) (multi_default somewhere)) =
    Some [ Some (OutAdd (Ok tt)); Some (OutBool true); Some (OutVals (Some [vl wA (-1000); vl wB 1000; vl wC 7])); Some (OutVals (Some [vl wA 0; vl wB 0]));
           Some (OutVal (Some (vl wA (-1000)))); None; Some (OutECols [([0%N], [[vl wC 7]; [vl wA 5]])]); None ] /\
  drop 10 <$> outputs_of (mrun release (duo ++ duo_swapped) (multi_default somewhere)) =
    Some [ None; Some (OutVals (Some [vl wA (-1000); vl wB 1000; vl wC 7])); None; Some (OutVal (Some (vl wB 1000))) ] /\
  live_blocks duo = Some 10 /\ live_blocks (duo ++ duo_swapped) = Some 7 /\ live_blocks (duo ++ duo_end) = Some 0.
Proof.
  split; [apply UW_ok|]. split; [apply UW_laid_out|]. split; [apply (mwithinb_ok release); vm_compute; reflexivity|].
  split; [apply Forall_forall; intros o Ho; assert (H : forallb (fun o => negb (swaps o)) (duo ++ duo_end) = true) by (vm_compute; reflexivity);
    rewrite forallb_forall in H; apply elem_of_list_In, H, negb_true_iff in Ho; exact Ho|].
  split; [apply (mwithinb_ok release); vm_compute; reflexivity|].
  split; [vm_compute; reflexivity|]. split; [vm_compute; reflexivity|]. split; [vm_compute; reflexivity|]. split; vm_compute; reflexivity.
Qed.
(** The first one grows (its columns are reallocated) while the second is in use. *)
Definition grows_beside : option (list (option output)) * option nat :=
  let ops := duo_of 129 ++ duo_end in (drop 132 <$> outputs_of (mrun release ops (multi_default somewhere)), live_blocks ops).
Definition expected : option (list (option output)) * option nat :=
  (Some [ Some (OutAdd (Ok tt)); Some (OutBool true); Some (OutVals (Some [vl wA (-1000); vl wB 1000; vl wC 7])); Some (OutVals (Some [vl wA 0; vl wB 0]));
          Some (OutVal (Some (vl wA (-1000)))); None; Some (OutECols [([0%N], [[vl wC 7]; [vl wA 5]])]); None ], Some 0).
Check (eq_refl expected <: grows_beside = expected).
(** References into both registries at once. *)
Definition both (ops : list mcall) : option (list bloc * list bloc) :=
  match mrun release ops (multi_default somewhere) with
  | Ret _ (Multi [Some h; Some h'] m) =>
      match b_get_all_mut release [wA; wB] 0 (filled h m), b_get_all_mut release [wA; wB] 0 (filled h' m) with
      | Rd (Some ls), Rd (Some ls') => Some (ls, ls')
      | _, _ => None
      end
  | _ => None
  end.
Definition two_each (x : option (list bloc * list bloc)) : bool :=
  match x with Some (ls, ls') => (length ls =? 2) && (length ls' =? 2) | None => false end.
Lemma both_inv ops outs s : mrun release ops (multi_default somewhere) = Ret outs s -> two_each (both ops) = true ->
  exists h h' ls ls', mu_regs s !! 0 = Some (Some h) /\ mu_regs s !! 1 = Some (Some h') /\
    hands_out release (filled h (mu_mem s)) ls /\ hands_out release (filled h' (mu_mem s)) ls' /\ length ls = 2 /\ length ls' = 2.
Proof.
  intros E Eb. unfold both in Eb. rewrite E in Eb. destruct s as [[|[h|] [|[h'|] [|]]] m]; try discriminate Eb.
  destruct (b_get_all_mut release [wA; wB] 0 (filled h m)) as [[ls|]| |] eqn:E1; try discriminate Eb.
  destruct (b_get_all_mut release [wA; wB] 0 (filled h' m)) as [[ls'|]| |] eqn:E2; try discriminate Eb.
  apply andb_true_iff in Eb as [L1%Nat.eqb_eq L2%Nat.eqb_eq].
  exists h, h', ls, ls'. split; [done|]. split; [done|].
  split; [do 6 right; left; by exists [wA; wB], 0%N|]. split; [do 6 right; left; by exists [wA; wB], 0%N|]. exact (conj L1 L2).
Qed.
Lemma duo_within : mwithin (big release) UW duo [].
Proof. apply (mwithinb_ok release). vm_compute. reflexivity. Qed.
Lemma both_duo : two_each (both duo) = true.
Proof. vm_compute. reflexivity. Qed.
Example C72_references_example :
  exists outs s h h' ls ls', mrun release duo (multi_default somewhere) = Ret outs s /\
    mu_regs s !! 0 = Some (Some h) /\ mu_regs s !! 1 = Some (Some h') /\
    hands_out release (filled h (mu_mem s)) ls /\ hands_out release (filled h' (mu_mem s)) ls' /\ length ls = 2 /\ length ls' = 2.
Proof.
  destruct (together release UW UW_ok UW_laid_out somewhere duo duo_within) as (s&E&_).
  destruct (both_inv duo _ s E both_duo) as (h&h'&ls&ls'&H). exists (map fst (mref_run (big release) UW duo []).1), s, h, h', ls, ls'. exact (conj E H).
Qed.
