(** A universe of 14 component types, for entities with 13 and 14 components. *)
From Verif Require Import RegModel DescrProofs ArchProofs ArchOps RegProofs RegOps Refine Instances SpecBase SpecWorld.
Local Open Scope N_scope.

(** A quicker test for collisions: the sets are walked as a tree, so that the
    hashes of common prefixes are computed once, and entered into one table from
    (archetype id, number of components) to the component set seen with it. *)
Definition q_step (h b : N) : N := N.land (16777619 * N.lxor h b) 4294967295.
Lemma low_bits x : N.land x 4294967295 = x mod 2 ^ 32.
Proof. exact (N.land_ones x 32). Qed.
Lemma q_step_ok h b : q_step h b = (N.lxor h b * 16777619) mod 2 ^ 32.
Proof. unfold q_step. by rewrite low_bits, N.mul_comm. Qed.
Definition q_fold (bs : list N) (h : N) : N := fold_left q_step bs h.
Lemma q_fold_ok bs : q_fold bs 2166136261 = fnv1a_reference_32 bs.
Proof.
  unfold q_fold, fnv1a_reference_32, fnv1a_reference. generalize 2166136261 as h. induction bs as [|b bs IH]; intros h; [done|].
  cbn [fold_left]. by rewrite IH, q_step_ok.
Qed.
Lemma q_fold_lt bs h : h < 2 ^ 32 -> q_fold bs h < 2 ^ 32.
Proof.
  revert h. induction bs as [|b bs IH]; intros h Hh; [done|]. apply IH. rewrite q_step_ok. by apply N.mod_lt.
Qed.
(** Zero bytes multiply by a power of the prime. *)
Definition powers : list N := Eval vm_compute in map (fun k => 16777619 ^ N.of_nat k mod 2 ^ 32) (seq 0 29).
Lemma powers_ok k : (k <= 28)%nat -> nth k powers 0 = 16777619 ^ N.of_nat k mod 2 ^ 32.
Proof.
  intros Hk. assert (H : forallb (fun k => nth k powers 0 =? 16777619 ^ N.of_nat k mod 2 ^ 32) (seq 0 29) = true) by (vm_compute; reflexivity).
  rewrite forallb_forall in H. apply N.eqb_eq, H, in_seq. lia.
Qed.
Lemma zeros_power k h : h < 2 ^ 32 -> q_fold (replicate k 0) h = (h * 16777619 ^ N.of_nat k) mod 2 ^ 32.
Proof.
  revert h. induction k as [|k IH]; intros h Hh.
  - cbn [replicate q_fold fold_left]. rewrite N.pow_0_r, N.mul_1_r. by rewrite N.mod_small.
  - cbn [replicate q_fold fold_left]. fold (q_fold (replicate k 0) (q_step h 0)). rewrite IH by (rewrite q_step_ok; by apply N.mod_lt).
    rewrite q_step_ok, N.lxor_0_r, Nat2N.inj_succ, N.pow_succ_r', N.mul_assoc. by apply N.mul_mod_idemp_l.
Qed.
Lemma zeros_ok k h : (k <= 28)%nat -> h < 2 ^ 32 -> q_fold (replicate k 0) h = N.land (h * nth k powers 0) 4294967295.
Proof. intros Hk Hh. rewrite zeros_power, low_bits, powers_ok by done. symmetry. by apply N.mul_mod_idemp_r. Qed.
(** Every subset with its two archetype ids; [s] is the hash of [rev acc]. *)
Fixpoint leaves (be : bool) (ids : list (N * list N)) (s : N) (acc : list N) : list (list N * (N * N)) :=
  match ids with
  | [] =>
      let k := (28 - 2 * length acc)%nat in
      [(rev acc, (q_fold (replicate k 255) s,
         match rev acc with [] => 4294967295 | [x] => x | _ => N.land (s * nth k powers 0) 4294967295 end))]
  | (x, bs) :: ids' => leaves be ids' (q_fold bs s) (x :: acc) ++ leaves be ids' s acc
  end.
Lemma q_fold_app b1 b2 h : q_fold (b1 ++ b2) h = q_fold b2 (q_fold b1 h).
Proof. apply fold_left_app. Qed.
Lemma pads be k : concat (map (two_bytes be) (replicate k 65535)) = replicate (2 * k) 255.
Proof.
  induction k as [|k IH]; [done|]. cbn [replicate map concat]. rewrite IH. replace (2 * S k)%nat with (S (S (2 * k))) by lia. by destruct be.
Qed.
Lemma leaves_in be ids m acc s : m `sublist_of` ids -> s = q_fold (concat (map (two_bytes be) (rev acc))) 2166136261 ->
  (rev acc ++ m, (tuple_archetype_id be (rev acc ++ m), derived_archetype_id be (rev acc ++ m))) ∈
    leaves be (map (fun x => (x, two_bytes be x)) ids) s acc.
Proof.
  intros H. revert acc s. induction H as [|x k l H IH|x k l H IH]; intros acc s Hs; cbn [map leaves].
  - rewrite app_nil_r. apply elem_of_list_singleton. cbv zeta. f_equal. f_equal.
    + unfold tuple_archetype_id. rewrite <- q_fold_ok, map_app, concat_app, pads, q_fold_app, <- Hs, rev_length. f_equal. f_equal. lia.
    + unfold derived_archetype_id. destruct (rev acc) as [|y [|z l]] eqn:Ea; [done|done|]. rewrite <- Ea in *.
      rewrite <- q_fold_ok, q_fold_app, <- Hs, rev_length. apply zeros_ok; [lia|]. rewrite Hs. by apply q_fold_lt.
  - apply elem_of_app. left. specialize (IH (x :: acc) (q_fold (two_bytes be x) s)). cbn [rev] in IH. rewrite <- app_assoc in IH. apply IH.
    rewrite map_app, concat_app, q_fold_app, <- Hs. cbn [map concat]. by rewrite app_nil_r.
  - apply elem_of_app. right. by apply IH.
Qed.
Definition key (x : N) (len : nat) : N := x * 16 + N.of_nat len.
(** Enter the set [l] under the id [x]; [None] if another set is there. *)
Definition enter (x : N) (l : list N) (t : option (gmap N (list N))) : option (gmap N (list N)) :=
  t ← t; if x =? 4294967295 then Some t else
  match t !! key x (length l) with
  | None => Some (<[key x (length l) := l]> t)
  | Some l' => if bool_decide (l = l') then Some t else None
  end.
Definition enter_all (ls : list (list N * (N * N))) (t : option (gmap N (list N))) : option (gmap N (list N)) :=
  fold_left (fun t x => enter x.2.2 x.1 (enter x.2.1 x.1 t)) ls t.
Definition quick_free (be : bool) (l : list N) : bool :=
  if enter_all (leaves be (map (fun x => (x, two_bytes be x)) l) 2166136261 []) (Some ∅) then true else false.

Definition grows (t t' : option (gmap N (list N))) : Prop := forall m', t' = Some m' -> exists m, t = Some m /\ m ⊆ m'.
Lemma grows_trans t1 t2 t3 : grows t1 t2 -> grows t2 t3 -> grows t1 t3.
Proof. intros H1 H2 m3 E. destruct (H2 _ E) as (m2&E2&S2). destruct (H1 _ E2) as (m1&E1&S1). exists m1. split; [done|]. by etrans. Qed.
Lemma enter_grows x l t : grows t (enter x l t).
Proof.
  intros m' E. destruct t as [m|]; [|done]. exists m. split; [done|]. cbn in E. destruct (x =? 4294967295); [by injection E as <-|].
  destruct (m !! key x (length l)) as [l'|] eqn:El.
  - case_bool_decide; [|done]. by injection E as <-.
  - injection E as <-. by apply insert_subseteq.
Qed.
Lemma enter_in x l t m' : enter x l t = Some m' -> x <> 4294967295 -> m' !! key x (length l) = Some l.
Proof.
  intros E Hx. destruct t as [m|]; [|done]. cbn in E. apply N.eqb_neq in Hx. rewrite Hx in E.
  destruct (m !! key x (length l)) as [l'|] eqn:El.
  - case_bool_decide; [|done]. injection E as <-. by subst.
  - injection E as <-. by rewrite lookup_insert.
Qed.
Lemma enter_all_grows ls t : grows t (enter_all ls t).
Proof.
  revert t. induction ls as [|l ls IH]; intros t; cbn [enter_all fold_left]; [by intros m ->; exists m|].
  eapply grows_trans; [|apply IH]. eapply grows_trans; apply enter_grows.
Qed.
Lemma enter_all_in ls t m' l p x : enter_all ls t = Some m' -> (l, p) ∈ ls -> x <> 4294967295 ->
  x = p.1 \/ x = p.2 -> m' !! key x (length l) = Some l.
Proof.
  intros E Hl Hx Hid. revert t E. remember (l, p) as lp eqn:Elp. revert Elp. induction Hl as [lp ls|lp l' ls Hl IH]; intros -> t E; cbn [enter_all fold_left] in E; [|by eapply IH].
  destruct (enter_all_grows _ _ _ E) as (m2&E2&S2). eapply lookup_weaken; [|exact S2]. cbn [fst snd] in E2.
  destruct Hid as [->| ->]; [|by eapply enter_in].
  destruct (enter_grows _ _ _ _ E2) as (m1&E1&S1). eapply lookup_weaken; [|exact S1]. by eapply enter_in.
Qed.
Lemma quick_free_ok {Fm : family} be U : quick_free be (ids_of U) = true -> collision_free be U.
Proof.
  unfold quick_free. destruct (enter_all _ (Some ∅)) as [m|] eqn:E; [|done]. intros _ l1 l2 x H1 H2 Hl Hlen Hx [_ A1] [_ A2].
  pose proof (enter_all_in _ _ _ _ _ _ E (leaves_in be _ _ [] _ H1 eq_refl) Hx A1) as K1.
  pose proof (enter_all_in _ _ _ _ _ _ E (leaves_in be _ _ [] _ H2 eq_refl) Hx A2) as K2.
  cbn [rev app] in K1, K2. rewrite Hl, K2 in K1. by injection K1.
Qed.

Definition U14 : list ctype := map (fun i => ty (N.of_nat i)) (seq 1 14).
Lemma U14_ok : universe (big release) U14.
Proof.
  split; [apply strictb_ok; vm_compute; reflexivity|]. split; [|apply quick_free_ok; vm_compute; reflexivity].
  apply Forall_forall. intros C HC. assert (forallb smallb U14 = true) as H2 by (vm_compute; reflexivity).
  rewrite forallb_forall in H2. specialize (H2 C (proj1 (elem_of_list_In _ _) HC)).
  by apply smallb_ok.
Qed.
(** Two entities, with 13 and with all 14 components. *)
Definition wide_ops : list op :=
  [ OpCreate (take 13 U14) (map (fun C => vl C 5) (take 13 U14)); OpCreate U14 (map (fun C => vl C 6) U14) ].
Definition wide_demo := after release U14 wide_ops reg_default ∅ [] [].
Definition wide_reg : reg := wide_demo.1.1.1.
Definition wide_world : gmap N ent := wide_demo.1.1.2.
Lemma wide_history : history release U14 wide_reg wide_world wide_demo.1.2 wide_demo.2.
Proof.
  eapply (after_history release U14 wide_ops reg_default ∅ [] []); [apply h_start| |].
  - apply permitsb_ok. vm_compute. reflexivity.
  - unfold wide_reg, wide_world, wide_demo. by destruct (after _ _ _ _ _ _ _) as [[[r w] I] O].
Qed.
