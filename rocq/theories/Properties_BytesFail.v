(** * C70: an allocator that refuses, down to bytes

    C46 says what happens, with the registry of RegModel.v, when the allocator
    refuses requests.  Here are the same programs over the byte-level registry. *)
From Verif Require Import Instances ByteReg Bytes5 Bytes12 Bytes13 Bytes14 Properties_Defects SpecBytes SpecBase SpecWorld SpecObs SpecCrash SpecTotal SpecAlloc SpecBytes2 SpecFail.
Local Open Scope N_scope.

(** Whatever the allocator answers and wherever it puts the blocks: a program
    within the contract that catches the panics which left the registry as it was
    (and stops after the first one that did not) does nothing undefined.  The
    same calls return the same or panic, the same requests and destructor calls
    are made in the same order, and the same answers are left over. *)
Theorem C70_every_program : forall (Fm : family) c U i place oracle ops,
  universe (big c) U -> laid_out U -> luckless i c U ops (reg_asking oracle) ∅ ->
  exists l r R, attempt c ops (reg_asking oracle) = (l, Some r) /\
    battempt c ops (breg_asking place oracle) = (l, Some R) /\ m_env (br_mem R) = r_env r.
Proof.
  intros Fm c U i place oracle ops HU Hla Hl. destruct (luckless_run c U HU Hla i place oracle ops Hl) as (l&r&R&L&E1&E2&Hb&_).
  exists l, r, R. split; [exact E1|]. split; [exact E2|]. exact (bl_env _ _ Hb).
Qed.
Print Assumptions C70_every_program.
(** If the registry was only ever left as it was, then it is in a state of C46's
    histories, and dropping it does what C46 says. *)
Theorem C70_dropping : forall (Fm : family) c U place oracle ops l r R,
  universe (big c) U -> laid_out U -> luckless true c U ops (reg_asking oracle) ∅ ->
  attempt c ops (reg_asking oracle) = (l, Some r) -> battempt c ops (breg_asking place oracle) = (l, Some R) ->
  (exists I O, unlucky c U r (survivors c U ops (reg_asking oracle) ∅) I O) /\
  (all_calm (survivors c U ops (reg_asking oracle) ∅) ->
    exists r' R', drop_registry r = Ret tt r' /\ b_drop_registry R = Ret tt R' /\ m_env (br_mem R') = r_env r').
Proof.
  intros Fm c U place oracle ops l r R HU Hla Hl E1 E2. split; [exact (luckless_unlucky c U ops _ _ _ _ _ _ Hl (u_start c U oracle) E1)|].
  intros Hcalm. destruct (luckless_run c U HU Hla true place oracle ops Hl) as (l'&r1&R1&L&E1'&E2'&Hb&HT).
  rewrite E1 in E1'. rewrite E2 in E2'. injection E1' as <- <-. injection E2' as <-. destruct (HT eq_refl) as [T HT'].
  destruct (calm_drop c U HU r T _ HT' Hcalm) as [r' Er]. destruct (b_drop_sim c U HU Hla _ _ _ Hb Er) as (R'&ER&Hb').
  exists r', R'. split; [exact Er|]. split; [exact ER|]. exact (bl_env _ _ Hb').
Qed.
Print Assumptions C70_dropping.
(** If the next call then panics and does not leave the registry as it was (C46
    says how it leaves it), dropping the registry is undefined over bytes as well. *)
Theorem C70_broken : forall (Fm : family) c U place oracle ops o l r rb,
  universe (big c) U -> laid_out U -> luckless true c U ops (reg_asking oracle) ∅ ->
  attempt c ops (reg_asking oracle) = (l, Some r) -> contract (big c) U (survivors c U ops (reg_asking oracle) ∅) o ->
  step c o r = Panic rb -> ~ untouched r rb -> all_calm (survivors c U ops (reg_asking oracle) ∅) ->
  exists R Rb, battempt c ops (breg_asking place oracle) = (l, Some R) /\ bstep c o R = Panic Rb /\
    m_env (br_mem Rb) = r_env rb /\ b_drop_registry Rb = UB.
Proof. intros Fm c U place oracle ops o l r rb HU Hla. exact (broken_run c U HU Hla place oracle ops o l r rb). Qed.
Print Assumptions C70_broken.
(** Whatever the program (any calls with any arguments, any panics caught): the
    live blocks are, by size and alignment, those obtained and not given back
    according to the events.  So the blocks left after dropping the registry are
    what it leaks. *)
Theorem C70_balanced : forall c place oracle ops l R,
  battempt c ops (breg_asking place oracle) = (l, Some R) ->
  balanced (br_mem R) /\ match b_drop_registry R with Ret _ R' | Panic R' => balanced (br_mem R') | UB => True end.
Proof.
  intros c place oracle ops l R E. split; [exact (attempt_balanced c place oracle ops l R E)|exact (drop_balanced c place oracle ops l R E)].
Qed.
Print Assumptions C70_balanced.

(** ** Examples *)
Definition places (id : N) : N := id * 1000.
(** The second request of the first [create_entity] is refused; the program
    tries again. *)
Definition again : list op := [OpCreate [tA] [vl tA 1]; OpCreate [tA] [vl tA 2]; OpGet tA 0].
Definition end_of (x : list (option output) * option breg) : breg := default (breg_asking places []) x.2.
Definition left_over (x : res breg unit) : list (N * N) :=
  match x with Ret _ R => map layout_of ((map_to_list (m_blocks (br_mem R))).*2) | _ => [] end.
Lemma UABC_laid_out : laid_out UABC.
Proof. repeat apply Forall_cons_2; [apply N.mod_divide; [done|reflexivity]..|by apply Forall_nil]. Qed.
(** Run a program whose calls all return, checking the contract on the way. *)
Fixpoint play (c : cfg) (U : list ctype) (ops : list op) (r : reg) (w : world) : option (list (option output) * reg * world) :=
  match ops with
  | [] => Some ([], r, w)
  | o :: ops' =>
      if contractb c U w o then
        match step c o r with
        | Ret out r' => match play c U ops' r' (ledger (big c) U w o out) with Some (l, r1, w1) => Some (Some out :: l, r1, w1) | None => None end
        | _ => None
        end
      else None
  end.
Lemma play_ok c U ops : forall r w l r' w', play c U ops r w = Some (l, r', w') ->
  luckless true c U ops r w /\ attempt c ops r = (l, Some r') /\ survivors c U ops r w = w'.
Proof.
  induction ops as [|o ops IH]; intros r w l r' w' E; cbn [play luckless attempt survivors] in *; [by injection E as <- <- <-|].
  destruct (contractb c U w o) eqn:Ec; [|done]. apply contractb_ok in Ec. destruct (step c o r) as [out r1| |]; [|done..].
  destruct (play c U ops r1 _) as [[[l1 r2] w2]|] eqn:E1; [|done]. injection E as <- <- <-. destruct (IH _ _ _ _ _ E1) as (H1&H2&H3).
  split; [done|]. split; [by rewrite H2|done].
Qed.
Lemma play_luckless c U ops r w : match play c U ops r w with Some _ => true | None => false end = true -> luckless true c U ops r w.
Proof. destruct (play c U ops r w) as [[[l r'] w']|] eqn:E; [|done]. intros _. exact (proj1 (play_ok c U ops r w l r' w' E)). Qed.
(** The registry a panicking call leaves. *)
Definition left_by (o : op) (r : reg) : reg := match step release o r with Panic r' => r' | _ => r end.
Lemma panics_with o r : match step release o r with Panic _ => true | _ => false end = true -> step release o r = Panic (left_by o r).
Proof. unfold left_by. by destruct (step release o r). Qed.
Example C70_again_example :
  universe (big release) UABC /\ laid_out UABC /\ luckless true release UABC again (reg_asking [true; false]) ∅ /\
  (battempt release again (breg_asking places [true; false])).1 = [None; Some (OutCreate (Ok 0)); Some (OutVal (Some (vl tA 2)))] /\
  all_calm (survivors release UABC again (reg_asking [true; false]) ∅) /\
  left_over (b_drop_registry (end_of (battempt release again (breg_asking places [true; false])))) = [(512, 4)].
Proof.
  split; [apply UABC_ok|]. split; [exact UABC_laid_out|].
  assert (Hc : forall x, contract (big release) UABC ∅ (OpCreate [tA] [vl tA x])).
  { intros x. split; [|split]; [by repeat constructor|by repeat constructor|]. intros _. apply room_small; [vm_compute; reflexivity|done]. }
  split.
  { cbn [luckless again]. split; [apply Hc|]. rewrite (panics_with (OpCreate [tA] [vl tA 1]) (reg_asking [true; false])); [|vm_compute; reflexivity]. left.
    split; [split; [|split]; vm_compute; reflexivity|].
    apply (play_luckless release UABC [OpCreate [tA] [vl tA 2]; OpGet tA 0]). vm_compute. reflexivity. }
  split; [vm_compute; reflexivity|]. split; [apply all_calm_dec; vm_compute; reflexivity|]. vm_compute. reflexivity.
Qed.

(** 128 entities fill an archetype; then the list of handles grows and the column
    does not. *)
Definition torn_oracle : list bool := [true; true; true; false].
Definition one_more : op := OpCreate [tA] [vl tA 999].
Definition frees (r : reg) : N := N.of_nat (length (frees_of (ev_trace (r_env r)))).
Definition breaking (x : list (option output) * reg * world) : bool :=
  contractb release UABC x.2 one_more && 
  forallb (fun p : N * ent => forallb (fun q : N * value => negb (v_bomb q.2)) (map_to_list (en_vals p.2))) (map_to_list x.2) &&
  match step release one_more x.1.2 with Panic rb => frees x.1.2 <? frees rb | _ => false end.
Example C70_broken_example : exists l r rb,
  luckless true release UABC (many 128) (reg_asking torn_oracle) ∅ /\
  attempt release (many 128) (reg_asking torn_oracle) = (l, Some r) /\
  contract (big release) UABC (survivors release UABC (many 128) (reg_asking torn_oracle) ∅) one_more /\
  step release one_more r = Panic rb /\ ~ untouched r rb /\ all_calm (survivors release UABC (many 128) (reg_asking torn_oracle) ∅).
Proof.
  assert (E : match play release UABC (many 128) (reg_asking torn_oracle) ∅ with Some x => breaking x | None => false end = true) by (vm_compute; reflexivity).
  destruct (play release UABC (many 128) (reg_asking torn_oracle) ∅) as [[[l r] w]|] eqn:Ep; [|discriminate E].
  destruct (play_ok _ _ _ _ _ _ _ _ Ep) as (H1&H2&H3). clear Ep. rewrite H3. unfold breaking in E. cbn [fst snd] in E.
  apply andb_true_iff in E as [[E1 E2]%andb_true_iff E3]. destruct (step release one_more r) as [|rb|] eqn:Es; [discriminate E3| |discriminate E3].
  exists l, r, rb. split; [exact H1|]. split; [exact H2|]. split; [exact (contractb_ok _ _ _ _ E1)|]. split; [exact Es|]. split.
  - intros (_&_&Hf). unfold frees in E3. rewrite Hf, N.ltb_irrefl in E3. discriminate E3.
  - exact (all_calm_dec _ E2).
Qed.
