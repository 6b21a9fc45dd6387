(** * C74: several registries in one program, some of them misused

    C72 follows programs within the contract of every registry.  Here the program
    makes any calls at all, drops registries whose values' destructors panic,
    catches panics and goes on, as in C67 and C73. *)
From Verif Require Import Instances Properties_Bytes Properties_Multi MultiModel Total Multi Multi4 SpecMulti SpecMulti2 SpecBytes SpecEvents SpecTotal SpecBytes2 SpecBomb SpecFail SpecTrace SpecBase SpecWorld SpecRef.
Local Open Scope nat_scope.

(** ** C74 *)
(** Step by step the program is answered as the book of the registry in question
    says, by a value or by a panic, up to the first undefined call; memory
    requests and destructor calls are those of the books too.  When all
    registries are dropped, the blocks that are left are the arrays of the
    archetypes whose destructors panicked: calls that panic lose nothing, in this
    registry or in another.  (As in C34: when two archetypes of one registry
    panic while it is dropped, the real process aborts at the second.) *)
Theorem C74_misused : forall (Fm : family) c U place ops,
  universe (big c) U -> laid_out U -> NoDup (map ct_ty U) -> mlawful_all (dbg c) (big c) U ops [] ->
  let foretold := mpredict (dbg c) (big c) U ops [] in
  (mattempt c ops (multi_default place)).1 = map fs_reply foretold.1 /\
  match (mattempt c ops (multi_default place)).2, foretold.2 with
  | Some s, Some l => ev_trace (m_env (mu_mem s)) = concat (map fs_log foretold.1) /\
      (Forall (fun x => x = None) l -> map layout_of (map_to_list (m_blocks (mu_mem s))).*2 ≡ₚ concat (map fs_lost foretold.1))
  | None, None => True
  | _, _ => False
  end.
Proof. intros Fm c U place ops HU Hla Hnt. exact (misused c U HU Hla Hnt place ops). Qed.
Print Assumptions C74_misused.
(** As long as nothing undefined happens, registry [k] answers as in a program
    that has no other registry, however the others are misused. *)
Theorem C74_alone : forall (Fm : family) c U place place' ops k s,
  universe (big c) U -> laid_out U -> NoDup (map ct_ty U) -> mlawful_all (dbg c) (big c) U ops [] -> Forall (fun o => swaps o = false) ops ->
  (mattempt c ops (multi_default place)).2 = Some s ->
  lawful_all (dbg c) (big c) U (calls_on k ops) book_empty /\
  (battempt c (calls_on k ops) (breg_default place')).1 = replies_on k ops (mattempt c ops (multi_default place)).1.
Proof. intros Fm c U place place' ops k s HU Hla Hnt. exact (misused_alone c U HU Hla Hnt place place' ops k s). Qed.
Print Assumptions C74_alone.

(** Registry 0 is misused with tuple types that name a component twice; in debug
    builds two of the calls panic, in release builds the second is undefined. *)
Definition misuses : list mcall :=
  duo ++ [ MCall 0 (OpIter [wA; wA]); MCall 1 (OpGet wC 0); MCall 0 (OpGetAll [wB; wB] 0); MCall 1 (OpSet wA 0 (vl wA 5)); MCall 0 (OpRemoveEntity [wA] 0) ] ++
  [ MDrop 0; MCall 1 (OpIterE [wC; wA]); MDrop 1 ].
Definition mlawfulb (c : cfg) (U : list ctype) (s : list cell) (o : mcall) : bool :=
  match o with
  | MCall k o => match s !! k with Some (Some (b, _)) => lawfulb c U (bk_world b) o | _ => false end
  | MDrop k => match s !! k with Some (Some _) => true | _ => false end
  | _ => mallowedb c U s o
  end.
Fixpoint mlawful_allb (c : cfg) (U : list ctype) (ops : list mcall) (s : list cell) : bool :=
  match ops with
  | [] => true
  | o :: ops' => if mlawfulb c U s o then match mforesee (dbg c) (big c) U s o with Some (_, s1) => mlawful_allb c U ops' s1 | None => true end else false
  end.
Lemma mlawful_allb_ok c U ops s : mlawful_allb c U ops s = true -> mlawful_all (dbg c) (big c) U ops s.
Proof.
  revert s. induction ops as [|o ops IH]; intros s H; cbn [mlawful_allb mlawful_all] in *; [done|].
  destruct (mlawfulb c U s o) eqn:Ea; [|done]. split.
  - assert (Hm : forall o, mwithinb c U [o] s = true -> mallowed (big c) U s o) by (intros o' H'; by destruct (mwithinb_ok c U [o'] s H')).
    destruct o as [|k o|k|i j]; cbn [mlawfulb mlawful] in *; [done| | |by apply (Hm (MSwap i j)); cbn [mwithinb]; rewrite Ea].
    { destruct (s !! k) as [[[b caps]|]|]; [|done..]. exists b, caps. split; [done|]. by apply lawfulb_ok. }
    destruct (s !! k) as [[[b caps]|]|]; [|done..]. by exists b, caps.
  - destruct (mforesee (dbg c) (big c) U s o) as [[x s1]|]; [by apply IH|done].
Qed.
Definition blocks_left (x : list (option (option output)) * option multi) : option nat := (fun s => size (m_blocks (mu_mem s))) <$> x.2.
Example C74_example :
  universe (big debug) UW /\ laid_out UW /\ NoDup (map ct_ty UW) /\
  mlawful_all (dbg debug) (big debug) UW misuses [] /\ mlawful_all (dbg release) (big release) UW misuses [] /\
  Forall (fun o => swaps o = false) misuses /\
  drop 10 (mattempt debug misuses (multi_default somewhere)).1 =
    [ None; Some (Some (OutVal (Some (vl wC 7)))); None; Some (Some (OutVal (Some (vl wA (-1000))))); Some (Some (OutVals (Some [vl wA 0])));
      Some None; Some (Some (OutECols [([0%N], [[vl wC 7]; [vl wA 5]])])); Some None ] /\
  blocks_left (mattempt debug misuses (multi_default somewhere)) = Some 0 /\
  drop 10 (mattempt release misuses (multi_default somewhere)).1 = [ Some (Some (OutCols [])); Some (Some (OutVal (Some (vl wC 7)))) ] /\
  blocks_left (mattempt release misuses (multi_default somewhere)) = None.
Proof.
  split; [apply UW_ok|]. split; [apply UW_laid_out|]. split; [apply (bool_decide_unpack _); vm_compute; exact I|].
  split; [apply (mlawful_allb_ok debug); vm_compute; reflexivity|]. split; [apply (mlawful_allb_ok release); vm_compute; reflexivity|].
  split; [apply Forall_forall; intros o Ho; assert (H : forallb (fun o => negb (swaps o)) misuses = true) by (vm_compute; reflexivity);
    rewrite forallb_forall in H; apply elem_of_list_In, H, negb_true_iff in Ho; exact Ho|].
  split; [vm_compute; reflexivity|]. split; [vm_compute; reflexivity|]. split; vm_compute; reflexivity.
Qed.
(** Dropping registry 0 panics: its first archetype is lost, its second is given
    back, and registry 1 does not notice. *)
Definition mines : list mcall :=
  [ MNew; MNew; pair_of 1 1000; MCall 0 (OpCreate [wA; wB] [vl wA 3; vl wB 4]); MCall 0 (OpCreate [wB; wA] [bomb wB 2; vl wA 1]); MCall 0 (OpCreate [wC] [vl wC 5]);
    MDrop 0; MCall 1 (OpIterE [wA; wB]); MDrop 1 ].
Definition layouts_left (x : list (option (option output)) * option multi) : option (list (N * N)) :=
  (fun s => map layout_of (map_to_list (m_blocks (mu_mem s))).*2) <$> x.2.
Example C74_mines :
  mlawful_all (dbg release) (big release) UW mines [] /\ Forall (fun o => swaps o = false) mines /\
  drop 6 (mattempt release mines (multi_default somewhere)).1 = [ None; Some (Some (OutECols [([0%N], [[vl wA (-1000)]; [vl wB 1000]])])); Some None ] /\
  concat (map fs_lost (mpredict (dbg release) (big release) UW mines []).1) = [(512, 4); (128, 1); (1536, 4)]%N /\
  layouts_left (mattempt release mines (multi_default somewhere)) = Some [(512, 4); (1536, 4); (128, 1)]%N /\
  replies_on 0 mines (mattempt release mines (multi_default somewhere)).1 = [ Some (OutCreate (Ok 0%N)); Some (OutCreate (Ok 256%N)); Some (OutCreate (Ok 512%N)) ].
Proof.
  split; [apply (mlawful_allb_ok release); vm_compute; reflexivity|].
  split; [apply Forall_forall; intros o Ho; assert (H : forallb (fun o => negb (swaps o)) mines = true) by (vm_compute; reflexivity);
    rewrite forallb_forall in H; apply elem_of_list_In, H, negb_true_iff in Ho; exact Ho|].
  split; [vm_compute; reflexivity|]. split; [vm_compute; reflexivity|]. split; vm_compute; reflexivity.
Qed.
