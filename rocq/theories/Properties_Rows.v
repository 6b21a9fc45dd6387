(** * C56: an archetype on its own is a growable table of rows

    [Archetype] is public and used on its own in src/archetype/tests.rs.  SpecRows.v
    describes it as a list of rows (handle and component values) with a capacity. *)
From Verif Require Import ArchClient Instances Rows SpecBase SpecWorld SpecRows.
Local Open Scope nat_scope.

(** Created with any capacity from 1 to 16777215, used by any sequence of calls
    that meet their documented requirements: every call returns what the table
    says, the memory requests and destructor calls are those of the table, and
    so are the length and the capacity at the end.  Dropping the archetype drops
    each value once, column by column, and releases what was obtained. *)
Theorem C56_every_program : forall c cs G0 n ops e,
  storable (big c) cs -> G0 ≡ₚ cs -> 0 < n -> (N.of_nat n <= 16777215)%N -> ev_oracle e = [] ->
  all_proper (big c) cs (Table n []) ops ->
  let '(outs, t, evs) := acalls cs (Table n []) ops in
  exists a e0 a' e1, archetype_for c G0 n e = Ret a e0 /\ ev_trace e0 = ev_trace e ++ obtain n (sheet0 cs) /\
    arun c ops (a, e0) = Ret outs (a', e1) /\ ev_trace e1 = ev_trace e0 ++ evs /\
    a_len a' = length (tb_rows t) /\ a_cap a' = tb_cap t /\
    (Forall (fun x : N * gmap N value => calm x.2) (tb_rows t) ->
     exists a2 e2, a_drop (a', e1) = Ret tt (a2, e2) /\ ev_trace e2 = ev_trace e1 ++ drop_table cs t).
Proof. exact table_programs. Qed.
Print Assumptions C56_every_program.
(** A full table that cannot double below 16777215 rows: one more row panics in a
    debug build and is undefined behaviour in a release build. *)
Theorem C56_limit : forall c cs G0 n ops e G h vs,
  storable (big c) cs -> G0 ≡ₚ cs -> 0 < n -> (N.of_nat n <= 16777215)%N -> ev_oracle e = [] ->
  all_proper (big c) cs (Table n []) ops -> ~ can_append (acalls cs (Table n []) ops).1.2 -> G ≡ₚ cs -> Forall2 fits G vs ->
  exists a e0 x s, archetype_for c G0 n e = Ret a e0 /\ arun c ops (a, e0) = Ret x s /\
    if dbg c then exists s', astep c (APush G h vs) s = Panic s' else astep c (APush G h vs) s = UB.
Proof. exact table_limit. Qed.
Print Assumptions C56_limit.
(** Created with capacity 0 or with more than 16777215, as the first test of
    src/archetype/tests.rs does, the archetype can only be dropped: the safe
    method [entities] makes a slice from a null pointer, and adding a row
    reallocates null. *)
Theorem C56_unallocated : forall c cs G0 n e G h vs,
  storable (big c) cs -> G0 ≡ₚ cs -> G ≡ₚ cs -> n = 0 \/ (16777215 < N.of_nat n)%N ->
  exists a, archetype_for c G0 n e = Ret a e /\ a_len a = 0 /\ a_cap a = 0 /\
    astep c AEntities (a, e) = UB /\ astep c (APush G h vs) (a, e) = UB /\ astep c (AReserve G h vs) (a, e) = UB /\
    astep c (ASlices Exact G) (a, e) = UB /\ a_drop (a, e) = Ret tt (a, e).
Proof. exact table_unallocated. Qed.
Print Assumptions C56_unallocated.

(** An archetype of three components with room for one row: it doubles twice;
    rows are added, rewritten, exchanged, removed and forgotten. *)
Definition rA := CType 1 1 1 1. Definition rB := CType 2 2 12 4. Definition rC := CType 3 3 16 8.
Definition CR : list ctype := [rA; rB; rC].
Definition e_start : env := Env [] [].
Definition chores : list aop :=
  [ APush [rC; rA; rB] 10 [vl rC 1; vl rA 2; vl rB 3]; AReserve [rA; rB; rC] 11 [vl rA 4; vl rB 5; vl rC 6];
    APush [rB; rA; rC] 12 [vl rB 7; vl rA 8; vl rC 9]; ACapacity; AFull; AOverwrite [rB; rC; rA] 1 21 [vl rB 10; vl rC 11; vl rA 12];
    AReplace rC 0 (vl rC 13); AReplaceAll [rC; rA] 2 [vl rC 14; vl rA 15]; AWrite rB 0 (vl rB 16); ASetHandle 2 22;
    AStore With_handles [rB] [[vl rB 17; vl rB 18; vl rB 19]]; ASlices Exact [rC; rB; rA]; ASlices Some_of [rB; rA]; ASwap 0 2; AEntities;
    AToLast 1; AGet rA 1; ARead rB 0; AGetAll [rC; rB] 2; AReadAll [rB; rC; rA] 2; ASwapDrop 0; ASwapRemove [rC; rA; rB] 0; ALen;
    APush [rC; rA; rB] 30 [vl rC 20; vl rA 21; vl rB 22]; AForget ].
Definition a_out {A} (r : res (arch * env) A) : option (A * list event) := match r with Ret x (_, e) => Some (x, ev_trace e) | _ => None end.
Definition whole (c : cfg) (G0 : group) (n : nat) (ops : list aop) : option (list aout * list event) :=
  match archetype_for c G0 n e_start with
  | Ret a e => a_out ((let! x := arun c ops in a_drop ;;! ret x) (a, e))
  | _ => None
  end.
(** Each requirement of the example is decided by computation. *)
Local Ltac chore := cbn [proper]; repeat first
  [ exact I
  | match goal with |- _ /\ _ => split end
  | match goal with |- exists _ _, _ => apply droppable; vm_compute; reflexivity end
  | match goal with |- all_types _ _ => unfold all_types, CR; solve_Permutation end
  | match goal with |- gvalid _ _ => apply (RegOps.gvalid_iff release); vm_compute; reflexivity end
  | match goal with |- some_types _ _ _ => split end
  | match goal with |- forall C, C ∈ _ -> C ∈ _ => intros C HC; unfold CR; set_solver end
  | match goal with |- Forall2 _ _ _ => constructor end
  | match goal with |- Forall _ _ => constructor end
  | match goal with |- can_append _ => first [left; vm_compute; lia | right; vm_compute; reflexivity] end
  | match goal with |- _ ∈ _ => unfold CR; set_solver end
  | match goal with |- row_of _ _ => vm_compute; lia end
  | vm_compute; reflexivity
  | vm_compute; lia ].
Example C56_example :
  storable (big release) CR /\ [rB; rC; rA] ≡ₚ CR /\ all_proper (big release) CR (Table 1 []) chores /\
  whole release [rB; rC; rA] 1 chores =
    Some ((acalls CR (Table 1 []) chores).1.1,
      obtain 1 (sheet0 CR) ++ (acalls CR (Table 1 []) chores).2 ++ drop_table CR (acalls CR (Table 1 []) chores).1.2) /\
  (acalls CR (Table 1 []) chores).1.1 =
    [ AoNat 0; AoNat 1; AoNat 2; AoNat 4; AoBool false; AoUnit; AoVal (vl rC 1); AoVals [vl rC 9; vl rA 8]; AoUnit; AoUnit;
      AoCols [10%N; 21%N; 22%N] [[vl rB 16; vl rB 10; vl rB 7]];
      AoCols [] [[vl rC 13; vl rC 11; vl rC 14]; [vl rB 17; vl rB 18; vl rB 19]; [vl rA 2; vl rA 12; vl rA 15]];
      AoCols [] [[vl rB 17; vl rB 18; vl rB 19]; [vl rA 2; vl rA 12; vl rA 15]]; AoUnit; AoHandles [22%N; 21%N; 10%N];
      AoBool true; AoVal (vl rA 2); AoVal (vl rB 19); AoVals [vl rC 11; vl rB 18]; AoVals [vl rB 18; vl rC 11; vl rA 12];
      AoBool true; AoRemoved [vl rC 11; vl rA 12; vl rB 18] true; AoNat 1; AoNat 1; AoUnit ] /\
  (acalls CR (Table 1 []) chores).2 =
    [ EvRealloc 4 4 8; EvRealloc 1 1 2; EvRealloc 12 4 24; EvRealloc 16 8 32;
      EvRealloc 8 4 16; EvRealloc 2 1 4; EvRealloc 24 4 48; EvRealloc 32 8 64;
      EvDrop (vl rA 15); EvDrop (vl rB 19); EvDrop (vl rC 14) ] /\
  drop_table CR (acalls CR (Table 1 []) chores).1.2 =
    [ EvDrop (vl rA 2); EvDrop (vl rB 17); EvDrop (vl rC 13); EvDealloc 4 1; EvDealloc 48 4; EvDealloc 64 8; EvDealloc 16 4 ].
Proof.
  split. { split; [|split]; [repeat constructor; lia| |apply (RegOps.gvalid_iff release); vm_compute; reflexivity].
    repeat apply Forall_cons_2; [apply smallb_ok; vm_compute; reflexivity..|constructor]. }
  split. { unfold CR. solve_Permutation. }
  split.
  { unfold chores. cbn [all_proper]. repeat (split; [chore|]). exact I. }
  vm_compute. repeat split; reflexivity.
Qed.
(** 8388608 rows in a table made for as many. *)
Definition crowd : list aop := repeat (APush [rB; rA; rC] 1 [vl rB 1; vl rA 2; vl rC 3]) (N.to_nat 8388608).
Example C56_limit_example :
  all_proper (big release) CR (Table (N.to_nat 8388608) []) crowd /\
  ~ can_append (acalls CR (Table (N.to_nat 8388608) []) crowd).1.2.
Proof.
  destruct (filling (big release) CR (N.to_nat 8388608) [rB; rA; rC] 1 [vl rB 1; vl rA 2; vl rC 3] (N.to_nat 8388608) []) as [H1 H2].
  { unfold CR. solve_Permutation. } { repeat constructor. } { apply Nat.le_refl. }
  split; [exact H1|]. unfold crowd. rewrite H2. unfold can_append. cbn [tb_rows tb_cap app]. rewrite replicate_length, N2Nat.id.
  intros [H|H]; [by apply Nat.lt_irrefl in H|]. vm_compute in H. discriminate.
Qed.
(** The archetypes of capacity 0 and 16777216 of the three components. *)
Example C56_unallocated_example :
  match archetype_for release CR 0 e_start with Ret a e => a_drop (a, e) = Ret tt (a, e) /\ astep release AEntities (a, e) = UB | _ => False end /\
  (16777215 < N.of_nat (N.to_nat 16777216))%N.
Proof. split; [vm_compute; split; reflexivity|]. rewrite N2Nat.id. reflexivity. Qed.
