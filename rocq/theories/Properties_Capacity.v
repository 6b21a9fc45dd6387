(** C41: how many entities an archetype holds.  The documented limit is
    MAX_ENTITIES_PER_ARCHETYPE = 16,777,215; the code reaches 8,388,608. *)
From Verif Require Import Consts RegModel RegProofs RegOps Refine Clients Overflow Instances SpecObs Observe SpecBase SpecWorld.
Local Open Scope nat_scope.

(** What the documentation promises: as long as the archetype holds fewer than
    16,777,215 entities and the entity table has room, creating one more
    succeeds.  (Entities of other archetypes may exist.) *)
Definition documented_capacity (c : cfg) (U : list ctype) : Prop := forall r w I O G vs,
  history c U r w I O -> gvalid (big c) G -> in_U U G -> Forall2 fits G vs -> ~ table_full r ->
  ~ archetypes_full r (en_aid (created (big c) U G vs)) (length G) ->
  (N.of_nat (crowd U w (en_aid (created (big c) U G vs)) (ids_of (types U (vmap G vs)))) < 16777215)%N ->
  exists h r', create_entity c G vs r = Ret (Ok h) r'.

(** Up to 2^23 entities it holds, and nothing else changes.  Missing for the
    full claim: the sizes 2^23 <= n < 2^24 - 1, where it is false (below). *)
Theorem C41_capacity_partial : forall (Fm : family) c U r w I O G vs,
  universe (big c) U -> history c U r w I O -> gvalid (big c) G -> in_U U G -> known (big c) U G -> Forall2 fits G vs -> ~ table_full r ->
  ~ archetypes_full r (en_aid (created (big c) U G vs)) (length G) ->
  (N.of_nat (crowd U w (en_aid (created (big c) U G vs)) (ids_of (types U (vmap G vs)))) < 8388608)%N ->
  exists h r', create_entity c G vs r = Ret (Ok h) r' /\ ~ alive c r h /\ consists c U r' h G vs /\ others_same c U r r' h.
Proof.
  intros Fm c U r w I O G vs HU Hh Hv Hin Hkn HF Hnt Hna Hn.
  destruct (create_observed c U HU r w I O Hh G vs) as (res&r'&E&[(h&->&_&H)|(_&Hnc&_)]); [|by exists h, r'|].
  { split; [done|]. split; [done|]. intros _. split; [|done]. intros _. apply (created_known c U HU); try done. symmetry. by eapply Forall2_length. }
  exfalso. by apply Hnc.
Qed.
Print Assumptions C41_capacity_partial.

Example C41_partial_example :
  universe false UABC /\ history release UABC (demo_reg release) (demo_world release) (demo_in release) (demo_out release) /\
  contract false UABC (demo_world release) (OpCreate [tC; tA] [vl tC 51; vl tA 50]) /\
  (exists h r', create_entity release [tC; tA] [vl tC 51; vl tA 50] (demo_reg release) = Ret (Ok h) r').
Proof.
  split; [apply UABC_ok|]. split; [apply demo_history|]. split; [apply (contractb_ok release); vm_compute; reflexivity|].
  eexists _, _. vm_compute. reflexivity.
Qed.

(** With exactly 2^23 entities, creating one more always goes wrong: the columns
    are freed and the new row is written through a null pointer (undefined
    behaviour; the debug build panics on its capacity assertion). *)
Theorem C41_breaks_at_half : forall (Fm : family) d be U r w I O G vs,
  universe be U -> history (Cfg d be) U r w I O -> gvalid be G -> in_U U G -> Forall2 fits G vs -> ~ table_full r ->
  N.of_nat (crowd U w (en_aid (created be U G vs)) (ids_of (types U (vmap G vs)))) = 8388608%N ->
  if d then exists s', create_entity (Cfg d be) G vs r = Panic s' else create_entity (Cfg d be) G vs r = UB.
Proof. intros Fm d be U r w I O G vs HU. exact (full_history d be U HU r w I O G vs). Qed.
Print Assumptions C41_breaks_at_half.

(** Every size up to 2^23 occurs, for every valid tuple of components. *)
Theorem C41_every_size_occurs : forall (Fm : family) d be U G vs n,
  universe be U -> gvalid be G -> in_U U G -> known be U G -> Forall2 fits G vs -> (N.of_nat n <= 8388608)%N ->
  exists r w I O, history (Cfg d be) U r w I O /\
    crowd U w (en_aid (created be U G vs)) (ids_of (types U (vmap G vs))) = n /\ length (er_ents (r_er r)) <= n.
Proof.
  intros Fm d be U G vs n HU Hv Hin Hkn HF Hn. destruct (fill d be U HU G vs n Hv Hin Hkn HF Hn) as (r&w&I&O&?&?&?&_). by exists r, w, I, O.
Qed.
Print Assumptions C41_every_size_occurs.
Example C41_example : forall d, let c := Cfg d false in
  universe false UABC /\ gvalid false [tB; tA] /\ in_U UABC [tB; tA] /\ Forall2 fits [tB; tA] [vl tB 1; vl tA 2].
Proof.
  intros d c. split; [apply UABC_ok|]. split; [apply (gvalid_iff release); vm_compute; reflexivity|].
  split; [by apply in_Ub_ok; vm_compute|]. by repeat constructor.
Qed.

(** The documented limit is not met, in either build. *)
Theorem C41_documented_capacity_refuted : exists U, universe false U /\ forall d, ~ documented_capacity (Cfg d false) U.
Proof.
  exists UABC. split; [apply UABC_ok|]. intros d Hdoc. destruct (C41_example d) as (HU&Hv&Hin&HF).
  assert (Hex : exists n, N.of_nat n = 8388608%N) by (exists (N.to_nat 8388608); apply N2Nat.id). destruct Hex as [n Hn].
  destruct (fill d false UABC HU _ _ n Hv Hin Logic.I HF) as (r&w&I&O&Hh&Hcr&Hl&_); [by rewrite Hn|]. rewrite <- Hcr in Hn.
  assert (Hnt : ~ table_full r). { intros Hf. unfold table_full in Hf. clear - Hn Hl Hf Hcr. rewrite <- Hcr in Hl. lia. }
  pose proof (full_has_archetype d false UABC HU r w I O _ _ Hh Hv Hin HF) as Hna. rewrite Hn in Hna. specialize (Hna eq_refl).
  pose proof (full_history d false UABC HU r w I O _ _ Hh Hv Hin HF Hnt Hn) as Hbad.
  destruct (Hdoc r w I O _ _ Hh Hv Hin HF Hnt Hna) as (h&r'&E).
  - exact (eq_ind_r (fun x => (x < 16777215)%N) (eq_refl : (8388608 ?= 16777215)%N = Lt) Hn).
  - destruct d; [destruct Hbad as [s' Hbad]|]; by rewrite Hbad in E.
Qed.
Print Assumptions C41_documented_capacity_refuted.
