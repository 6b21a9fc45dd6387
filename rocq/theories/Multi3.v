(** Proofs for C72: references into different registries. *)
From Verif Require Import MultiModel MonadProofs RegProofs Ref Bytes Bytes2 Bytes4 Bytes5 Bytes8 Multi SpecMulti SpecBytes SpecEvents SpecBase SpecWorld SpecRef.
Local Open Scope nat_scope.

(** The pointer, if it is not null, leads into a block of the list. *)
Definition inside (ids : list N) (p : bptr) : Prop := forall id off, p = Some (id, off) -> id ∈ ids.
Definition refs_in (ids : list N) (ls : list bloc) : Prop := Forall (fun l : bloc => inside ids l.1) ls.
Lemma column_inside A m i n p : column_at A m i n = Rd p -> inside (own A) p.
Proof.
  unfold column_at. destruct (b_ptrs A !! i) as [q|] eqn:Eq; [|done]. unfold offset. destruct q as [[id o]|]; [|destruct (n =? 0); [by intros [= <-]|done]].
  destruct (m_blocks m !! id) as [b|]; [|done]. destruct (_ <=? _); [|done]. intros [= <-] id' off [= <- <-]. by eapply own_ptr.
Qed.
Lemma own_inside A p i : b_ptrs A !! i = Some p -> inside (own A) p.
Proof. intros E id off ->. by eapply own_ptr. Qed.
Lemma elem_inside ids p C r : inside ids p -> inside ids (elem p C r).
Proof. intros H id off E. destruct p as [[id' o]|]; [|done]. injection E as <- <-. by eapply H. Qed.
Lemma fuzzy_inside g row A m ps : b_get_fuzzy_pointers g row A m = Rd ps -> Forall (inside (own A)) ps.
Proof.
  unfold b_get_fuzzy_pointers. destruct (rmap _ _) as [qs| |] eqn:E; cbn [rbind]; [|done..]. intros [= <-]. apply Forall_app. split.
  - apply rmap_inv in E. apply Forall_lookup. intros i q Hq. destruct (Forall2_lookup_r _ _ _ _ _ E Hq) as ([j d]&_&Ed).
    unfold b_fuzzy_pointer in Ed. destruct (find_from _ _ _); [by eapply column_inside|]. by injection Ed as <-.
  - by apply Forall_replicate.
Qed.
Lemma slices_inside be G ps n m cols ids : Forall (inside ids) ps -> b_slices_mut be G ps n m = Rd cols -> refs_in ids (concat cols).
Proof.
  intros Hps E. apply rmap_inv in E. unfold refs_in. apply Forall_concat, Forall_lookup. intros i col Hc. destruct (Forall2_lookup_r _ _ _ _ _ E Hc) as ([j C]&_&Ed).
  unfold b_slice in Ed. destruct (ps !! _) as [p|] eqn:Ep; cbn [rbind] in Ed; [|done]. destruct (negb _); cbn [rbind] in Ed; [done|].
  destruct (rmap _ _) as [l| |] eqn:El; cbn [rbind] in Ed; [|done..]. injection Ed as <-. apply rmap_inv in El.
  change (map fst l) with (fst <$> l). apply Forall_fmap, Forall_lookup. intros r x Hx. destruct (Forall2_lookup_r _ _ _ _ _ El Hx) as (r'&_&Er).
  destruct (read_as m C (elem p C r')) as [v| |]; cbn [rbind] in Er; [|done..]. injection Er as <-. cbn [compose fst].
  apply elem_inside. exact (proj1 (Forall_lookup _ _) Hps _ _ Ep).
Qed.
Lemma tuple_inside be G ps m ls ids : Forall (inside ids) ps -> b_mut_ref_tuple be G ps m = Rd ls -> refs_in ids ls.
Proof.
  intros Hps E. apply rmap_inv in E. apply Forall_lookup. intros i l Hl. destruct (Forall2_lookup_r _ _ _ _ _ E Hl) as ([j C]&_&Ed).
  unfold b_deref in Ed. destruct (ps !! _) as [p|] eqn:Ep; cbn [rbind] in Ed; [|done]. destruct (read_as m C p); cbn [rbind] in Ed; [|done..].
  injection Ed as <-. exact (proj1 (Forall_lookup _ _) Hps _ _ Ep).
Qed.
Lemma refs_in_own A As ls : A ∈ As -> refs_in (own A) ls -> refs_in (concat (map own As)) ls.
Proof.
  intros HA H. eapply Forall_impl; [exact H|]. intros p Hp id off E. apply elem_of_list_In, in_concat. exists (own A). split; [by apply in_map, elem_of_list_In|].
  apply elem_of_list_In. by eapply Hp.
Qed.
Lemma collect_from {J} c G accept (bitem : barch -> mem -> rd J) R l : b_slices_collect c G accept bitem R = Rd (Some l) ->
  Forall (fun y => exists A, A ∈ br_archs R /\ bitem A (br_mem R) = Rd y) l.
Proof.
  unfold b_slices_collect. destruct (arch_iter_new c G) as [st| |]; cbn [rbind]; [|done..]. generalize (S (length (concat (br_maps R)))) as fuel.
  intros fuel. revert st l. induction fuel as [|fuel IH]; intros st l E; cbn [collect] in E; [done|].
  unfold b_slices_next in E at 1. destruct (arch_iter_next _ _ _ _ _) as [[[i|] st']| |]; cbn [rbind] in E; [|injection E as <-; constructor|done|done].
  destruct (br_archs R !! i) as [A|] eqn:EA; cbn [rbind] in E; [|done]. destruct (bitem A (br_mem R)) as [y| |] eqn:Ey; cbn [rbind] in E; [|done..].
  destruct (collect _ fuel st') as [[l1|]| |] eqn:El; cbn [rbind] in E; [|done..]. injection E as <-.
  constructor; [exists A; split; [by eapply elem_of_list_lookup_2|done]|]. by eapply IH.
Qed.
Lemma items_in c G accept R items : b_slices_collect c G accept (b_get_fuzzy_slices_mut c G) R = Rd (Some items) ->
  refs_in (concat (map own (br_archs R))) (concat (concat items)).
Proof.
  intros E%collect_from. apply Forall_concat, Forall_concat. eapply Forall_impl; [exact E|]. intros cols (A&HA&Ec).
  apply Forall_concat. eapply refs_in_own; [exact HA|]. unfold b_get_fuzzy_slices_mut in Ec. destruct (rdebug_assert _ _); cbn [rbind] in Ec; [|done..].
  destruct (b_get_fuzzy_pointers _ _ _ _) as [ps| |] eqn:Ep; cbn [rbind] in Ec; [|done..]. eapply slices_inside; [by eapply fuzzy_inside|exact Ec].
Qed.
Lemma eitems_in c G accept R items : b_slices_collect c G accept (b_get_entity_fuzzy_slices_mut c G) R = Rd (Some items) ->
  refs_in (concat (map own (br_archs R))) (concat (concat (map snd items))).
Proof.
  intros E%collect_from. apply Forall_concat, Forall_concat. change (map snd items) with (snd <$> items). apply Forall_fmap.
  eapply Forall_impl; [exact E|]. intros [es cols] (A&HA&Ec). cbn [compose snd].
  apply Forall_concat. eapply refs_in_own; [exact HA|]. unfold b_get_entity_fuzzy_slices_mut in Ec. destruct (rdebug_assert _ _); cbn [rbind] in Ec; [|done..].
  destruct (b_get_fuzzy_pointers _ _ _ _) as [ps| |] eqn:Ep; cbn [rbind] in Ec; [|done..]. destruct (b_entities _ _); cbn [rbind] in Ec; [|done..].
  destruct (b_slices_mut _ _ _ _ _) as [cols'| |] eqn:Es; cbn [rbind] in Ec; [|done..]. injection Ec as <- <-. eapply slices_inside; [by eapply fuzzy_inside|exact Es].
Qed.
Lemma find_exact_in c G R A : b_find_exact c G R = Rd (Some A) -> A ∈ br_archs R.
Proof.
  unfold b_find_exact. destruct (find_archetype _ _) as [[i|]| |]; cbn [rbind]; [|done..]. destruct (br_archs R !! i) eqn:E; [|done].
  intros [= <-]. by eapply elem_of_list_lookup_2.
Qed.
Lemma exact_in c G A m cols : b_get_slices_exact_mut c G A m = Rd cols -> refs_in (own A) (concat cols).
Proof.
  unfold b_get_slices_exact_mut. destruct (rdebug_assert _ _); cbn [rbind]; [|done..]. apply slices_inside.
  apply Forall_lookup. intros i p Hp. by eapply own_inside.
Qed.
Lemma empty_in ids G : refs_in ids (concat (empty_slices G)).
Proof. unfold empty_slices. induction G as [|C G IH]; [constructor|exact IH]. Qed.
Lemma hands_in c R ls : hands_out c R ls -> refs_in (concat (map own (br_archs R))) ls.
Proof.
  intros [(G&items&E&->)|[(G&items&E&->)|[(G&f&items&E&->)|[(G&f&items&E&->)|[(G&cols&E&->)|[(G&es&cols&E&->)|[(G&h&E)|(C&h&l&E&->)]]]]]]].
  - by eapply items_in.
  - by eapply eitems_in.
  - by eapply items_in.
  - by eapply eitems_in.
  - unfold b_exact_mut in E. destruct (b_find_exact c G R) as [[A|]| |] eqn:Ef; cbn [rbind] in E; [| |done..].
    + eapply refs_in_own; [by eapply find_exact_in|by eapply exact_in].
    + injection E as <-. apply empty_in.
  - unfold b_entity_exact_mut in E. destruct (b_find_exact c G R) as [[A|]| |] eqn:Ef; cbn [rbind] in E; [| |done..].
    + destruct (b_entities _ _); cbn [rbind] in E; [|done..]. destruct (b_get_slices_exact_mut _ _ _ _) as [cols'| |] eqn:Ec; cbn [rbind] in E; [|done..]. injection E as <- <-.
      eapply refs_in_own; [by eapply find_exact_in|by eapply exact_in].
    + injection E as <- <-. apply empty_in.
  - unfold b_get_all_mut in E. destruct (b_entry_of _ _ _); [|done]. unfold b_arch_at in E. destruct (br_archs R !! _) as [A|] eqn:EA; cbn [rbind] in E; [|done].
    destruct (negb _); [done|]. destruct (b_get_fuzzy_components_mut _ _ _ _ _) as [l| |] eqn:El; cbn [rbind] in E; [|done..]. injection E as <-.
    eapply refs_in_own; [by eapply elem_of_list_lookup_2|]. unfold b_get_fuzzy_components_mut in El. destruct (rdebug_assert _ _); cbn [rbind] in El; [|done..].
    destruct (b_get_fuzzy_pointers _ _ _ _) as [ps| |] eqn:Ep; cbn [rbind] in El; [|done..]. eapply tuple_inside; [by eapply fuzzy_inside|exact El].
  - unfold b_get_mut in E. destruct (b_entry_of _ _ _); [|done]. unfold b_arch_at in E. destruct (br_archs R !! _) as [A|] eqn:EA; cbn [rbind] in E; [|done].
    destruct (negb _); [done|]. destruct (b_get_component_mut _ _ _ _) as [x| |] eqn:El; cbn [rbind] in E; [|done..]. injection E as <-.
    eapply refs_in_own; [by eapply elem_of_list_lookup_2|]. unfold b_get_component_mut, b_component_ptr in El.
    destruct (binary_search _ _); [|done]. destruct (column_at _ _ _ _) as [p| |] eqn:Ep; cbn [rbind] in El; [|done..].
    destruct (read_as _ _ _); cbn [rbind] in El; [|done..]. injection El as <-. constructor; [by eapply column_inside|constructor].
Qed.

Lemma references {Fm : family} c U (HU : universe (big c) U) (Hla : laid_out U) place ops outs s i j h h' ls ls' : mwithin (big c) U ops [] ->
  mrun c ops (multi_default place) = Ret outs s -> mu_regs s !! i = Some (Some h) -> mu_regs s !! j = Some (Some h') -> i <> j ->
  hands_out c (filled h (mu_mem s)) ls -> hands_out c (filled h' (mu_mem s)) ls' -> apart ls ls'.
Proof.
  intros Hw E Hi Hj Hne Hl%hands_in Hl'%hands_in. destruct (mrun_ok c U HU Hla ops _ _ _ (minv_start c U place) Hw) as (s1&E1&Hinv&_).
  rewrite E in E1. assert (s1 = s) as -> by (by injection E1). intros l l' id k Hin Hin' (off&Eo&_) (off'&Eo'&_).
  pose proof (proj1 (Forall_forall _ _) Hl _ Hin _ _ Eo) as H1. pose proof (proj1 (Forall_forall _ _) Hl' _ Hin' _ _ Eo') as H2.
  cbn [filled br_archs] in H1, H2. pose proof (mi_heap _ _ _ _ _ Hinv) as Hh. pose proof (ho_nd _ _ _ Hh) as Hnd.
  cbn [map] in Hnd. rewrite app_nil_r, (parts_at hown _ _ _ Hi) in Hnd. apply NoDup_app in Hnd as (_&Hd&_). apply (Hd id H1).
  apply (others_in hown _ _ _ _ _ Hj); [done|exact H2].
Qed.
