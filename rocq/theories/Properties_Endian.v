(** C49: little- and big-endian targets agree. *)
From Verif Require Import RegModel Endian Instances SpecClient SpecBase SpecWorld SpecPorts.
Local Open Scope nat_scope.

(** Component universes can be checked for portability by computation. *)
Definition portableb (U : list ctype) : bool :=
  strictb (ids_of U) && no_collisions false (ids_of U) && no_collisions true (ids_of U) &&
  forallb (fun l =>
    Bool.eqb (tuple_archetype_id false l =? 4294967295)%N (tuple_archetype_id true l =? 4294967295)%N &&
    Bool.eqb (derived_archetype_id false l =? 4294967295)%N (derived_archetype_id true l =? 4294967295)%N &&
    Bool.eqb (tuple_archetype_id false l =? derived_archetype_id false l)%N (tuple_archetype_id true l =? derived_archetype_id true l)%N)
    (subs (ids_of U)).
Lemma eqb_same a b x y : Bool.eqb (a =? b)%N (x =? y)%N = true -> (a = b <-> x = y).
Proof. intros H%Bool.eqb_prop. rewrite <- !N.eqb_eq, H. done. Qed.
Lemma portableb_ok U : portableb U = true -> portable U.
Proof.
  unfold portableb. rewrite !andb_true_iff. intros [[[H1 H2] H3] H4]. split; [by apply strictb_ok|]. split; [by apply no_collisions_ok|].
  split; [by apply no_collisions_ok|]. intros l [Hl _]. rewrite forallb_forall in H4. specialize (H4 l (proj1 (elem_of_list_In _ _) (elem_subs _ _ Hl))).
  rewrite !andb_true_iff in H4. destruct H4 as [[A B] D]. split; [by apply eqb_same|]. split; by apply eqb_same.
Qed.

(** Not the same results: the archetype id is computed from bytes in the order of
    the target, archetypes are visited in the order of their ids, so the
    iteration order differs. *)
Theorem C49_same_results_refuted : exists U ops l1 l2,
  universe false U /\ universe true U /\ portable U /\ Forall (ports U) ops /\
  returns (Cfg false false) ops = Some l1 /\ returns (Cfg false true) ops = Some l2 /\ l1 <> l2.
Proof.
  exists UABC, [OpCreate [tA; tB] [vl tA 1; vl tB 2]; OpCreate [tA; tC] [vl tA 3; vl tC 4]; OpIter [tA]],
    [OutCreate (Ok 0%N); OutCreate (Ok 256%N); OutCols [[[vl tA 3]]; [[vl tA 1]]]], [OutCreate (Ok 0%N); OutCreate (Ok 256%N); OutCols [[[vl tA 1]]; [[vl tA 3]]]].
  split; [apply universeb_ok; vm_compute; reflexivity|]. split; [apply universeb_ok; vm_compute; reflexivity|].
  split; [apply portableb_ok; vm_compute; reflexivity|].
  split; [repeat constructor; cbn; apply in_Ub_ok; vm_compute; reflexivity|].
  split; [vm_compute; reflexivity|]. split; [vm_compute; reflexivity|]. discriminate.
Qed.
Print Assumptions C49_same_results_refuted.

(** The order of the visited archetypes is all that differs: any program, valid
    or not, with any allocator answers, gives on both targets the same results
    up to that order, panics on both or on neither, is undefined behaviour on
    both or on neither, and allocates and drops the same things in the same
    order.  Missing from the full claim: that order. *)
Theorem C49_programs_partial : forall U ops answers,
  portable U -> Forall (ports U) ops ->
  match run (Cfg false false) ops (Reg er_default areg_default (Env [] answers)),
        run (Cfg false true) ops (Reg er_default areg_default (Env [] answers)) with
  | Ret out1 r1, Ret out2 r2 => Forall2 same_but_order out1 out2 /\ r_env r1 = r_env r2
  | Panic r1, Panic r2 => r_env r1 = r_env r2
  | UB, UB => True
  | _, _ => False
  end.
Proof. intros U ops answers HU. exact (endian_run U HU ops answers). Qed.
Print Assumptions C49_programs_partial.
(** The same for programs that go on after a panic. *)
Theorem C49_clients_partial : forall U answers tr r,
  portable U -> calls (Cfg false false) (Reg er_default areg_default (Env [] answers)) tr r -> Forall (fun x => ports U x.1) tr ->
  exists tr2 r2, calls (Cfg false true) (Reg er_default areg_default (Env [] answers)) tr2 r2 /\ same_trace tr tr2 /\ r_env r = r_env r2 /\
    forall o, ports U o -> step (Cfg false false) o r = UB <-> step (Cfg false true) o r2 = UB.
Proof. intros U answers tr r HU. exact (endian_calls U HU answers tr r). Qed.
Print Assumptions C49_clients_partial.
Theorem C49_clients_back_partial : forall U answers tr r,
  portable U -> calls (Cfg false true) (Reg er_default areg_default (Env [] answers)) tr r -> Forall (fun x => ports U x.1) tr ->
  exists tr1 r1, calls (Cfg false false) (Reg er_default areg_default (Env [] answers)) tr1 r1 /\ same_trace tr1 tr /\ r_env r1 = r_env r /\
    forall o, ports U o -> step (Cfg false false) o r1 = UB <-> step (Cfg false true) o r = UB.
Proof. intros U answers tr r HU. exact (endian_calls_back U HU answers tr r). Qed.
Print Assumptions C49_clients_back_partial.

(** A program with two archetypes, one of them entered by adding a component,
    written to through a filtered mutable iterator and read back. *)
Definition endian_demo : list op :=
  [OpCreate [tA; tB] [vl tA 1; vl tB 2]; OpCreate [tA; tC] [vl tA 3; vl tC 4]; OpAdd tB 256%N (vl tB 5);
   OpIterFMut [tA] (fun d => (1 <? ad_len d)) (fun _ v => Value (v_ty v) (v_tok v + 10) (v_bomb v)); OpIterE [tA]; OpGet tA 256%N; OpRemove tB 0%N;
   OpExact [tA; tC]; OpDestroy 0%N; OpIterEntities].
Example C49_example :
  portable UABC /\ Forall (ports UABC) endian_demo /\
  returns (Cfg false false) endian_demo = Some
    [OutCreate (Ok 0%N); OutCreate (Ok 256%N); OutAdd (Ok tt); OutCols [[[]]; [[vl tA 1]]; [[vl tA 3]]];
     OutECols [([], [[]]); ([0%N], [[vl tA 11]]); ([256%N], [[vl tA 13]])];
     OutVal (Some (vl tA 13)); OutRemove (Ok (vl tB 2)); OutCols [[[]; []]]; OutBool true; OutEntities [256%N]] /\
  returns (Cfg false true) endian_demo = Some
    [OutCreate (Ok 0%N); OutCreate (Ok 256%N); OutAdd (Ok tt); OutCols [[[vl tA 1]]; [[]]; [[vl tA 3]]];
     OutECols [([0%N], [[vl tA 11]]); ([], [[]]); ([256%N], [[vl tA 13]])];
     OutVal (Some (vl tA 13)); OutRemove (Ok (vl tB 2)); OutCols [[[]; []]]; OutBool true; OutEntities [256%N]].
Proof.
  split; [apply portableb_ok; vm_compute; reflexivity|].
  split.
  { repeat constructor; cbn; try (apply in_Ub_ok; vm_compute; reflexivity); try (apply bool_decide_eq_true; vm_compute; reflexivity). }
  split; vm_compute; reflexivity.
Qed.
