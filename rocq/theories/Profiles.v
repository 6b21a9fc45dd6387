(** Proofs for C48: a release build does what the debug build does, unless the
    debug build panics. *)
From Verif Require Import RegModel MonadProofs Refine SpecBase SpecWorld.
Local Open Scope nat_scope.

(** [m2] does what [m1] does unless [m1] panics. *)
Definition sim {S A} (m1 m2 : M S A) : Prop := forall s, (exists s', m1 s = Panic s') \/ m1 s = m2 s.
Definition rsim {A} (m1 m2 : rd A) : Prop := m1 = RdPanic \/ m1 = m2.
Lemma sim_refl {S A} (m : M S A) : sim m m.
Proof. intros s. by right. Qed.
Lemma rsim_refl {A} (m : rd A) : rsim m m.
Proof. by right. Qed.
Lemma sim_panic {S A} (m : M S A) : sim mpanic m.
Proof. intros s. left. by exists s. Qed.
Lemma sim_bind {S A B} (m1 m2 : M S A) (k1 k2 : A -> M S B) : sim m1 m2 -> (forall a, sim (k1 a) (k2 a)) -> sim (bind m1 k1) (bind m2 k2).
Proof.
  intros Hm Hk s. unfold bind. destruct (Hm s) as [[s' ->]| ->]; [left; by exists s'|].
  destruct (m2 s) as [a s'|s'|]; [apply Hk|by right|by right].
Qed.
Lemma rsim_bind {A B} (m1 m2 : rd A) (k1 k2 : A -> rd B) : rsim m1 m2 -> (forall a, rsim (k1 a) (k2 a)) -> rsim (rbind m1 k1) (rbind m2 k2).
Proof. intros [->| ->] Hk; [by left|]. destruct m2; [apply Hk|by right|by right]. Qed.
Lemma sim_debug {S} b : sim (mdebug_assert (S := S) true b) (mdebug_assert false b).
Proof. intros s. destruct b; cbn; [by right|left; by eexists]. Qed.
Lemma rsim_debug b : rsim (rdebug_assert true b) (rdebug_assert false b).
Proof. destruct b; [by right|by left]. Qed.
Lemma sim_lift {S A} (m1 m2 : rd A) : rsim m1 m2 -> sim (S := S) (lift_rd m1) (lift_rd m2).
Proof. intros [->| ->] s; [left; by exists s|by right]. Qed.
Lemma sim_rm_rd {A} (f1 f2 : reg -> rd A) : (forall s, rsim (f1 s) (f2 s)) -> sim (rm_rd f1) (rm_rd f2).
Proof. intros H s. unfold rm_rd. by apply sim_lift. Qed.
Lemma sim_with_arch {A} i (m1 m2 : AM A) : sim m1 m2 -> sim (with_arch i m1) (with_arch i m2).
Proof.
  intros H s. unfold with_arch. destruct (ar_archs (r_ar s) !! i) as [a|]; [|by right].
  destruct (H (a, r_env s)) as [[s' ->]| ->]; [left; by eexists|by right].
Qed.
Lemma sim_dop {A} vs (m1 m2 : RM A) : sim m1 m2 -> sim (dropping_on_panic vs m1) (dropping_on_panic vs m2).
Proof. intros H s. unfold dropping_on_panic. destruct (H s) as [[s' ->]| ->]; [left; by eexists|by right]. Qed.
Lemma collect_sim {S A} (n1 n2 : S -> rd (option A * S)) fuel s : (forall s, rsim (n1 s) (n2 s)) -> rsim (collect n1 fuel s) (collect n2 fuel s).
Proof.
  intros H. revert s. induction fuel as [|fuel IH]; intros s; cbn [collect]; [apply rsim_refl|].
  apply rsim_bind; [apply H|]. intros [[a|] s']; [|apply rsim_refl]. apply rsim_bind; [apply IH|]. intros. apply rsim_refl.
Qed.

Section profiles.
  Context (be : bool).
  Notation D := (Cfg true be).
  Notation R := (Cfg false be).
  Ltac sm :=
    repeat first
      [ apply sim_refl | apply rsim_refl | apply sim_panic
      | apply sim_debug | apply rsim_debug
      | apply sim_bind; [|intros ?] | apply rsim_bind; [|intros ?]
      | apply sim_with_arch | apply sim_dop | apply sim_lift
      | apply sim_rm_rd; intros ?
      | match goal with |- sim (match ?x with _ => _ end) _ => destruct x end
      | match goal with |- rsim (match ?x with _ => _ end) _ => destruct x end ].
  Ltac go :=
    unfold entry_of, e_arch, update_entry, get_component, get_components, get_component_mut, get_components_mut, has_component, has_components,
      find_or_create_archetype_adding_component, find_or_create_archetype_removing_component,
      iter_components_exact, iter_components_exact_mut, iter_entity_components_exact, iter_entity_components_exact_mut, find_exact,
      get_slices_exact, get_slices_exact_mut, get_fuzzy_slices, get_fuzzy_slices_mut, get_entity_fuzzy_slices, get_entity_fuzzy_slices_mut,
      get_fuzzy_components, get_fuzzy_components_mut, entry_of, e_arch;
    cbn [dbg big]; cbv zeta; sm.
  Lemma s_write_entity G row h vs : sim (write_entity_unchecked D G row h vs) (write_entity_unchecked R G row h vs).
  Proof. unfold write_entity_unchecked. go. Qed.
  Lemma s_push G h vs : sim (push_entity_unchecked D G h vs) (push_entity_unchecked R G h vs).
  Proof. unfold push_entity_unchecked. go. Qed.
  Lemma s_last a : rsim (last_row D a) (last_row R a).
  Proof. unfold last_row. go. by left. Qed.
  Lemma s_dec : sim (decrement_len_unchecked D) (decrement_len_unchecked R).
  Proof. unfold decrement_len_unchecked. go. Qed.
  Ltac go2 := go; try apply s_last; try apply s_dec.
  Lemma s_swap_drop row : sim (swap_drop_unchecked D row) (swap_drop_unchecked R row).
  Proof. unfold swap_drop_unchecked. go2. Qed.
  Lemma s_swap_to_last row : sim (swap_to_last_unchecked D row) (swap_to_last_unchecked R row).
  Proof. unfold swap_to_last_unchecked. go2. Qed.
  Lemma s_swap_remove G row : sim (swap_remove_unchecked D G row) (swap_remove_unchecked R G row).
  Proof. unfold swap_remove_unchecked. go2. Qed.
  Lemma s_create G vs : sim (create_entity D G vs) (create_entity R G vs).
  Proof. unfold create_entity. go2. Qed.
  Lemma s_destroy h : sim (destroy_entity D h) (destroy_entity R h).
  Proof. unfold destroy_entity. go2. Qed.
  Lemma s_remove G h : sim (remove_entity D G h) (remove_entity R G h).
  Proof. unfold remove_entity. go2. Qed.
  Lemma s_add C h v : sim (add_component D C h v) (add_component R C h v).
  Proof. unfold add_component. go2. Qed.
  Lemma s_del C h : sim (remove_component D C h) (remove_component R C h).
  Proof. unfold remove_component. go2. Qed.
  Lemma s_slices {I} G accept (i1 i2 : nat -> arch -> rd I) r : (forall k a, rsim (i1 k a) (i2 k a)) ->
    rsim (slices_collect D G accept i1 r) (slices_collect R G accept i2 r).
  Proof.
    intros H. unfold slices_collect. apply rsim_bind; [unfold arch_iter_new; go; by left|]. intros st. apply collect_sim. intros s.
    unfold slices_next. apply rsim_bind; [apply rsim_refl|]. intros [[k|] st']; [|apply rsim_refl]. destruct (ar_archs r !! k); [|apply rsim_refl].
    apply rsim_bind; [apply H|]. intros. apply rsim_refl.
  Qed.
  Lemma s_step o : sim (step D o) (step R o).
  Proof.
    destruct o; cbn [step];
      try (apply sim_bind; [first [apply s_create|apply s_destroy|apply s_remove|apply s_add|apply s_del]|intros ?; apply sim_refl]).
    all: unfold iter_entities, iter_components_matching, iter_components_matching_mut, iter_entity_components_matching,
      iter_entity_components_matching_mut, iter_filtered_components_matching, iter_filtered_components_matching_mut,
      iter_filtered_entity_components_matching, iter_filtered_entity_components_matching_mut.
    all: try (apply sim_bind; [apply sim_rm_rd; intros s; apply s_slices; intros k a; go|intros ?; apply sim_refl]).
    all: go.
  Qed.
End profiles.

Section agree.
  Context {Fm : family} (be : bool) (U : list ctype) (HU : universe be U).
  Notation D := (Cfg true be).
  Notation R := (Cfg false be).
  Lemma agree_debug r w I O o : history D U r w I O -> contract be U w o -> step D o r = step R o r.
  Proof.
    intros Hh Hc. destruct (history_step D U HU r w I O o Hh Hc) as (out&r'&E&_).
    destruct (s_step be o r) as [[r2 E2]|H]; [congruence|done].
  Qed.
  Lemma history_profile r w I O : history D U r w I O <-> history R U r w I O.
  Proof.
    split; intros H.
    - induction H as [|r w I O o out r' Hh IH Hc E]; [apply h_start|].
      apply (h_call R U r w I O); [done|done|]. by rewrite <- (agree_debug _ _ _ _ _ Hh Hc).
    - induction H as [|r w I O o out r' Hh IH Hc E]; [apply h_start|].
      apply (h_call D U r w I O); [done|done|]. by rewrite (agree_debug _ _ _ _ _ IH Hc).
  Qed.
  Lemma agree r w I O o : history R U r w I O -> contract be U w o -> step D o r = step R o r.
  Proof. intros Hh%history_profile. by apply agree_debug with (w := w) (I := I) (O := O). Qed.
  Lemma agree_run ops :
    (forall ops1 o ops2 outs r w I O, ops = ops1 ++ o :: ops2 -> run R ops1 reg_default = Ret outs r ->
       history R U r w I O -> contract be U w o) ->
    run D ops reg_default = run R ops reg_default.
  Proof.
    assert (H : forall ops r w I O, history R U r w I O ->
      (forall ops1 o ops2 outs r' w' I' O', ops = ops1 ++ o :: ops2 -> run R ops1 r = Ret outs r' ->
         history R U r' w' I' O' -> contract be U w' o) -> run D ops r = run R ops r).
    { clear ops. intros ops. induction ops as [|o ops IH]; intros r w I O Hh H; [done|]. cbn [run]. unfold bind.
      assert (Hc : contract be U w o) by (by eapply (H [] o ops)). rewrite (agree _ _ _ _ _ Hh Hc).
      destruct (step R o r) as [out r1|r1|] eqn:E; [|done|done].
      rewrite (IH r1 (ledger be U w o out) (I ++ ins o out) (O ++ outs o out)); [done|by apply (h_call R U r w I O)|].
      intros ops1 o2 ops2 outs0 r' w' I' O' -> Er Hh'. apply (H (o :: ops1) o2 ops2 (out :: outs0) r' w' I' O'); [done| |done].
      cbn [run]. unfold bind. by rewrite E, Er. }
    intros Hops. by apply (H ops reg_default ∅ [] []); [apply h_start|].
  Qed.
End agree.
