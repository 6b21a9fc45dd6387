(** C48: debug and release builds agree. *)
From Verif Require Import RegModel Refine Profiles Instances SpecObs SpecBase SpecWorld.
Local Open Scope nat_scope.

(** Every call, on every registry whatsoever: the release build does exactly what
    the debug build does (result, state, allocator and drop trace), unless the
    debug build panics. *)
Theorem C48_any_call : forall be o r,
  (exists r', step (Cfg true be) o r = Panic r') \/ step (Cfg true be) o r = step (Cfg false be) o r.
Proof. exact s_step. Qed.
Print Assumptions C48_any_call.
(** Within the contract the two are equal, call by call, ... *)
Theorem C48_call : forall (Fm : family) be U r w I O o,
  universe be U -> history (Cfg false be) U r w I O -> contract be U w o ->
  step (Cfg true be) o r = step (Cfg false be) o r.
Proof. intros Fm be U r w I O o HU. exact (agree be U HU r w I O o). Qed.
Print Assumptions C48_call.
Theorem C48_histories : forall (Fm : family) be U r w I O,
  universe be U -> history (Cfg true be) U r w I O <-> history (Cfg false be) U r w I O.
Proof. intros Fm be U r w I O HU. exact (history_profile be U HU r w I O). Qed.
Print Assumptions C48_histories.
(** ... and for whole programs. *)
Theorem C48_programs : forall (Fm : family) be U ops,
  universe be U ->
  (forall ops1 o ops2 outs r w I O, ops = ops1 ++ o :: ops2 -> run (Cfg false be) ops1 reg_default = Ret outs r ->
     history (Cfg false be) U r w I O -> contract be U w o) ->
  run (Cfg true be) ops reg_default = run (Cfg false be) ops reg_default.
Proof. intros Fm be U ops HU. exact (agree_run be U HU ops). Qed.
Print Assumptions C48_programs.
Example C48_example :
  universe false UABC /\ history (Cfg false false) UABC (demo_reg release) (demo_world release) (demo_in release) (demo_out release) /\
  contract false UABC (demo_world release) (OpAdd tC 0 (vl tC 60)) /\
  returns debug demo_ops = returns release demo_ops /\
  (exists out r', step debug (OpAdd tC 0 (vl tC 60)) (demo_reg release) = Ret out r' /\ out = OutAdd (Ok tt)).
Proof.
  split; [apply UABC_ok|]. split; [apply demo_history|]. split; [apply (contractb_ok release); vm_compute; reflexivity|].
  split; [vm_compute; reflexivity|]. destruct (step debug (OpAdd tC 0 (vl tC 60)) (demo_reg release)) as [out r'|r'|] eqn:E; vm_compute in E; try discriminate.
  exists out, r'. split; [done|]. by injection E as <- _.
Qed.
(** Outside the contract they do differ: iterating an invalid tuple type panics
    in a debug build (u8 underflow of [len() - 1]) and yields nothing in a
    release build. *)
Example C48_contract_needed :
  (exists r, step debug (OpIter [tA; tA]) (demo_reg debug) = Panic r) /\ (exists r, step release (OpIter [tA; tA]) (demo_reg release) = Ret (OutCols []) r).
Proof. split; eexists; vm_compute; reflexivity. Qed.
