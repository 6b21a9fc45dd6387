(** C65: every program, however many entities it creates. *)
From Verif Require Import RegModel Instances Instances2 Total Brim Properties_Total SpecBase SpecWorld SpecRef SpecTotal SpecBrim.
Local Open Scope nat_scope.

(** Over a set of component types with different ids, any sequence of calls does
    what [foresee] says: call by call the same output, the same panics, an
    undefined call exactly where one is foreseen.  There is no bound on the
    number of entities.  After a wreck (debug builds only) no more is said. *)
Theorem C65_every_program : forall (Fm : family) c U ops,
  universe (big c) U -> NoDup (map ct_ty U) -> admissible_all (dbg c) (big c) U ops book_empty ->
  match foresee (dbg c) (big c) U ops book_empty with
  | (l, Completes b) => (attempt c ops reg_default).1 = l /\ is_Some (attempt c ops reg_default).2
  | (l, Faults) => attempt c ops reg_default = (l, None)
  | (l, Wrecks) => l `prefix_of` (attempt c ops reg_default).1
  end.
Proof.
  intros Fm c U ops HU Hnt Ha. pose proof (foreseen c U HU Hnt ops Ha) as H. unfold ends in H.
  destruct (foresee (dbg c) (big c) U ops book_empty) as [l [b| |]], (attempt c ops reg_default) as [l' e]; cbn [fst snd] in *.
  - destruct H as (->&r&->&_). by split.
  - by destruct H as [-> ->].
  - done.
Qed.
Print Assumptions C65_every_program.

(** In a release build everything is foreseen. *)
Theorem C65_release : forall (Fm : family) be U ops,
  universe be U -> NoDup (map ct_ty U) -> admissible_all false be U ops book_empty ->
  (attempt (Cfg false be) ops reg_default).1 = (foresee false be U ops book_empty).1 /\
  ((attempt (Cfg false be) ops reg_default).2 = None <-> (foresee false be U ops book_empty).2 = Faults).
Proof.
  intros Fm be U ops HU Hnt Ha. pose proof (C65_every_program Fm (Cfg false be) U ops HU Hnt Ha) as H. cbn [dbg big] in H.
  pose proof (never_wrecks false be U ops book_empty eq_refl) as Hw.
  destruct (foresee false be U ops book_empty) as [l [b| |]]; cbn [fst snd] in *; [| |done].
  - destruct H as [-> [r Hr]]. split; [done|]. rewrite Hr. by split.
  - rewrite H. done.
Qed.
Print Assumptions C65_release.

(** The bound of C57 is no condition on programs of up to 8388608 calls. *)
Theorem C65_short : forall (Fm : family) dbg be U ops,
  (N.of_nat (length ops) <= 8388608)%N -> (admissible_all dbg be U ops book_empty <-> lawful_all dbg be U ops book_empty).
Proof. intros Fm dbg be U ops Hl. split; [by apply short_lawful|apply lawful_admissible]. Qed.
Print Assumptions C65_short.

(** Creating 8388609 entities of any one tuple type: the first 8388608 calls
    return the handles 0, 256, 512, ..., the last one is undefined in a release
    build and panics in a debug build. *)
Theorem C65_too_many : forall (Fm : family) (d be : bool) U G vs n,
  universe be U -> NoDup (map ct_ty U) -> in_U U G -> Forall2 fits G vs -> valid be U G = true -> known be U G -> N.of_nat n = 8388608%N ->
  let l := map (fun k => Some (OutCreate (Ok (256 * N.of_nat k)%N))) (seq 0 n) in
  if d then exists r, attempt (Cfg d be) (repeat (OpCreate G vs) (S n)) reg_default = ((l ++ [None])%list, Some r)
  else attempt (Cfg d be) (repeat (OpCreate G vs) (S n)) reg_default = (l, None).
Proof.
  intros Fm d be U G vs n HU Hnt HG HF Hv Hk Hn l. pose proof (flood_over d be U HU Hnt G vs HG HF Hv Hk n Hn) as H. cbv zeta in H.
  unfold handles in H. rewrite map_map in H. exact H.
Qed.
Print Assumptions C65_too_many.

(** After the panic the archetype has no memory: reading a component of any of
    its entities is undefined. *)
Theorem C65_after_the_panic : forall (Fm : family) be U ops l b G vs h e C,
  universe be U -> NoDup (map ct_ty U) -> admissible_all true be U ops book_empty ->
  foresee true be U ops book_empty = (l, Completes b) ->
  admissible be U (bk_world b) (OpCreate G vs) -> bursts be U b (OpCreate G vs) = true ->
  bk_world b !! h = Some e -> en_aid e = en_aid (created be U G vs) -> types U (en_vals e) = types U (vmap G vs) -> C ∈ types U (en_vals e) ->
  attempt (Cfg true be) (ops ++ [OpCreate G vs; OpGet C h]) reg_default = ((l ++ [None])%list, None).
Proof. intros Fm be U ops l b G vs h e C HU Hnt. exact (wrecked (Cfg true be) U HU Hnt ops l b G vs h e C eq_refl). Qed.
Print Assumptions C65_after_the_panic.

(** The rough program of C57 is admissible.  A flood of one tuple type is as well,
    it fills the archetype, and one more call of it bursts it. *)
Example C65_example :
  universe (big release) U14 /\ NoDup (map ct_ty U14) /\
  admissible_all (dbg release) (big release) U14 rough book_empty /\ admissible_all (dbg debug) (big debug) U14 rough book_empty /\
  (foresee (dbg release) (big release) U14 rough book_empty).2 = Faults /\
  (forall d, exists n b, N.of_nat n = 8388608%N /\ let ops := repeat (OpCreate [tB; tA] [vl tB 1; vl tA 2]) n in
    admissible_all d false U14 (ops ++ [OpCreate [tB; tA] [vl tB 1; vl tA 2]]) book_empty /\
    (foresee d false U14 ops book_empty).2 = Completes b /\ bursts false U14 b (OpCreate [tB; tA] [vl tB 1; vl tA 2]) = true /\
    is_Some (bk_world b !! 256%N) /\
    (foresee d false U14 (ops ++ [OpCreate [tB; tA] [vl tB 1; vl tA 2]]) book_empty).2 = if d then Wrecks else Faults).
Proof.
  destruct C57_example as (HU&_&Hnt&H1&H2&_). split; [done|]. split; [done|]. split; [exact (lawful_admissible (dbg release) (big release) U14 rough book_empty H1)|].
  split; [exact (lawful_admissible (dbg debug) (big debug) U14 rough book_empty H2)|].
  split; [vm_compute; reflexivity|]. intros d.
  assert (Hex : exists n, N.of_nat n = 8388608%N) by (exists (N.to_nat 8388608); apply N2Nat.id). destruct Hex as [n Hn].
  assert (HG : in_U U14 [tB; tA]) by (apply in_Ub_ok; vm_compute; reflexivity).
  assert (HF : Forall2 fits [tB; tA] [vl tB 1; vl tA 2]) by (by repeat constructor).
  assert (Hv : valid false U14 [tB; tA] = true) by (vm_compute; reflexivity).
  destruct (flood d false U14 HU [tB; tA] _ HG HF Hv Logic.I n) as (Ha&b&Ef&Hb); [by rewrite Hn|].
  pose proof (flood_bursts false U14 [tB; tA] _ Hv n b Hb Hn) as Hbu.
  exists n, b. split; [done|]. cbv zeta. split; [eapply admissible_snoc; [exact Ha|exact Ef|by apply (flood_admissible d)]|].
  split; [by rewrite Ef|]. split; [done|]. split.
  - eexists. apply (fl_all _ _ _ _ _ _ Hb). unfold handles. change 256%N with (256 * N.of_nat 1)%N. apply elem_of_list_In.
    change (256 * N.of_nat 1)%N with ((fun k => 256 * N.of_nat k)%N 1). apply in_map. apply in_seq. lia.
  - rewrite (foresee_snoc _ _ _ _ _ _ _ _ Ef). cbn [foresee]. rewrite Hbu. by destruct d.
Qed.
