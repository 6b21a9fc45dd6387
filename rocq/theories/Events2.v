(** The requests to the allocator and the destructor calls of a program, continued: whole calls and programs (C55). *)
From Verif Require Import RegModel Instances SpecTrace SpecEntity EntityProofs EntityTable SearchProofs DescrProofs MonadProofs ArchProofs ArchOps ArchOps2 ArchOps3 AregProofs IterProofs RegProofs RegOps RegOps2 RegOps3 RegIter RegMut RegExact Refine SpecObs Sizes Clients Ref Events SpecBase SpecWorld SpecRef SpecEvents.
Local Open Scope nat_scope.

(** ** Calls that move entities *)
Ltac quiet E Hp He := let L := fresh in pose proof E as L;
  match type of E with ?m ?r = Ret ?x ?r' =>
    let H := fresh in assert (H : rstill m) by (rstill); apply H in L as [Hp He]; clear H end.
Lemma dop_inv {A} vs (m : RM A) r x r' : dropping_on_panic vs m r = Ret x r' -> m r = Ret x r'.
Proof. unfold dropping_on_panic. by destruct (m r). Qed.
Lemma create_log c G vs r x r' : ev_oracle (r_env r) = [] -> sound r -> sound r' -> create_entity c G vs r = Ret x r' -> logged r r' [].
Proof.
  intros Ho Hs Hs' E. unfold create_entity in E. apply dop_inv in E. cbv zeta in E.
  destruct (negb _); [injection E as _ <-; apply logged_opened; by apply opened_refl|].
  apply bind_Ret_inv in E as (oi&r1&E1&E). apply find_log in E1; [|done].
  destruct oi as [i|]; [|injection E as _ <-; by apply logged_opened].
  apply bind_Ret_inv in E as (a0&r2&E2&E). quiet E2 P2 N2.
  apply bind_Ret_inv in E as (row&r3&E3&E). quiet E3 P3 N3.
  apply bind_Ret_inv in E as (ai&r4&E4&E). quiet E4 P4 N4.
  apply bind_Ret_inv in E as (oh&r5&E5&E). quiet E5 P5 N5.
  assert (H5 : opened r r5) by (eapply opened_still; [exact E1|congruence|congruence]).
  destruct oh as [h|]; [|injection E as _ <-; by apply logged_opened].
  apply bind_Ret_inv in E as (y&r6&E6&E). injection E as _ <-. apply with_inv in E6 as (a&a'&e'&Ha&Em&Ep&Ee).
  pose proof (opened_sound _ _ H5 Hs) as Hs5. pose proof (Forall_lookup_1 _ _ _ _ Hs5 (rpf_lookup _ _ _ Ha)) as [Hk _].
  apply push_log in Em as (k&Epf&Hor); [|exact Hk|by eapply opened_oracle]. cbn [fst snd] in *. rewrite Epf in Ep.
  eapply logged_push; [exact H5|exact Ha|apply lowers_refl|done|done|exact Ep|]. rewrite Ee. exact Hor.
Qed.
Lemma remove_entity_log c G h r x r' : remove_entity c G h r = Ret x r' -> logged r r' [].
Proof.
  intros E. unfold remove_entity in E. apply bind_Ret_inv in E as (s&s1&E1&E). injection E1 as <- <-.
  destruct (entry_of c r h) as [en|]; [|injection E as _ <-; apply logged_opened; by apply opened_refl].
  cbv zeta in E. apply bind_Ret_inv in E as ([data swapped]&r1&E1&E). apply with_inv in E1 as (a&a'&e'&Ha&Em&Ep&Ee).
  apply swap_remove_pf in Em as (n&En&Epf&Eenv). cbn [fst snd] in *. quiet E P2 N2. apply logged_low.
  - rewrite P2, Ep, Epf. eapply lowers_insert; [|instantiate (1 := a_count a); lia]. by apply rpf_lookup.
  - rewrite emitted_nil. congruence.
Qed.
(** The part shared by [add_component] and [remove_component]. *)
Lemma move_log c r r1 r2 r3 r4 r5 r' src dst x : ev_oracle (r_env r) = [] -> sound r -> sound r' -> opened r r1 -> src <> dst ->
  rpf r2 = rpf r1 -> r_env r2 = r_env r1 ->
  with_arch dst push_uninitialized_entity r2 = Ret x r3 -> rpf r4 = rpf r3 -> r_env r4 = r_env r3 ->
  with_arch src (decrement_len_unchecked c) r4 = Ret tt r5 -> rpf r' = rpf r5 -> r_env r' = r_env r5 -> logged r r' [].
Proof.
  intros Ho Hs Hs' H1 Hne P2 N2 E3 P4 N4 E5 P' N'.
  assert (H2 : opened r r2) by (eapply opened_still; [exact H1|done|done]).
  apply with_inv in E3 as (a&a'&e'&Ha&Em&Ep&Ee).
  pose proof (opened_sound _ _ H2 Hs) as Hs2. pose proof (Forall_lookup_1 _ _ _ _ Hs2 (rpf_lookup _ _ _ Ha)) as [Hk _].
  apply push_uninit_log in Em as (k&Epf&Hor); [|exact Hk|by eapply opened_oracle]. cbn [fst snd] in *. rewrite Epf in Ep.
  apply with_inv in E5 as (b&b'&e2&Hb&Em2&Ep2&Ee2). apply decrement_pf in Em2 as (n&En&Epf2&Eenv2). cbn [fst snd] in *. rewrite Epf2 in Ep2.
  assert (Hb2 : rpf r2 !! src = Some (a_desc b, S n, a_cap b)).
  { apply rpf_lookup in Hb. rewrite P4, Ep in Hb. rewrite list_lookup_insert_ne in Hb by done. rewrite Hb. unfold pf. by rewrite En. }
  eapply (logged_push r r2 r' dst a k (<[src := (a_desc b, n, a_cap b)]> (rpf r2))); [done|done|eapply lowers_insert; [exact Hb2|lia]|done|done| |].
  - rewrite P', Ep2, P4, Ep. by rewrite list_insert_commute.
  - rewrite N', Ee2, Eenv2, N4, Ee. exact Hor.
Qed.
Lemma add_log c C h v r x r' : ev_oracle (r_env r) = [] -> sound r -> sound r' -> add_component c C h v r = Ret x r' -> logged r r' [].
Proof.
  intros Ho Hs Hs' E. unfold add_component in E. apply bind_Ret_inv in E as (s&s1&E1&E). injection E1 as <- <-.
  destruct (entry_of c r h) as [en|]; [|injection E as _ <-; apply logged_opened; by apply opened_refl].
  cbv zeta in E. apply bind_Ret_inv in E as (o&r1&E1&E). apply dop_inv, adding_log in E1 as [H1 Hne]; [|done].
  destruct o as [[src dst]|]; [|injection E as _ <-; by apply logged_opened]. specialize (Hne src dst eq_refl).
  apply bind_Ret_inv in E as ([srow drow]&r2&E2&E). apply dop_inv in E2.
  apply bind_Ret_inv in E2 as (sw&t1&F1&E2). quiet F1 P1 N1. apply bind_Ret_inv in E2 as ([]&t2&F2&E2). quiet F2 P2 N2.
  apply bind_Ret_inv in E2 as (y&t3&F3&E2). quiet E2 P4 N4.
  apply bind_Ret_inv in E as (sa&t5&F5&E). quiet F5 P5 N5. apply bind_Ret_inv in E as (hs&t6&F6&E). quiet F6 P6 N6.
  apply bind_Ret_inv in E as ([]&t7&F7&E). quiet F7 P7 N7. apply bind_Ret_inv in E as ([]&t8&F8&E). quiet E P9 N9.
  eapply (move_log c r r1 t2 t3 t7 t8 r' src dst); [done|done|done|done|done|congruence|congruence|exact F3|congruence|congruence|exact F8|done|done].
Qed.
Lemma remove_log c C h r x r' : ev_oracle (r_env r) = [] -> sound r -> sound r' -> remove_component c C h r = Ret x r' -> logged r r' [].
Proof.
  intros Ho Hs Hs' E. unfold remove_component in E. apply bind_Ret_inv in E as (s&s1&E1&E). injection E1 as <- <-.
  destruct (entry_of c r h) as [en|]; [|injection E as _ <-; apply logged_opened; by apply opened_refl].
  cbv zeta in E. apply bind_Ret_inv in E as (o&r1&E1&E). apply removing_log in E1 as [H1 Hne]; [|done].
  destruct o as [[src dst]|]; [|injection E as _ <-; by apply logged_opened]. specialize (Hne src dst eq_refl).
  apply bind_Ret_inv in E as (sw&t1&F1&E). quiet F1 P1 N1. apply bind_Ret_inv in E as ([]&t2&F2&E). quiet F2 P2 N2.
  apply bind_Ret_inv in E as (y&t3&F3&E).
  apply bind_Ret_inv in E as (sa&u1&G1&E). quiet G1 Q1 O1. apply bind_Ret_inv in E as (da&u2&G2&E). quiet G2 Q2 O2.
  apply bind_Ret_inv in E as (srow&u3&G3&E). quiet G3 Q3 O3. apply bind_Ret_inv in E as (drow&u4&G4&E). quiet G4 Q4 O4.
  apply bind_Ret_inv in E as ([]&u5&G5&E). quiet G5 Q5 O5. apply bind_Ret_inv in E as (v&u6&G6&E). quiet G6 Q6 O6. apply dop_inv in E.
  apply bind_Ret_inv in E as (hs&t6&F6&E). quiet F6 P6 N6.
  apply bind_Ret_inv in E as ([]&t7&F7&E). quiet F7 P7 N7. apply bind_Ret_inv in E as ([]&t8&F8&E). quiet E P9 N9.
  eapply (move_log c r r1 t2 t3 t7 t8 r' src dst); [done|done|done|done|done|congruence|congruence|exact F3|congruence|congruence|exact F8|done|done].
Qed.

(** ** Destructors, exactly *)
Section exact.
  Context {K : caps}.
  Context (d : adesc) (cs : list ctype) (Hd : desc_ok d cs).
  Lemma drop_entity_exact a rows r h m e :
    a_desc a = d -> arch_ok a cs rows -> rows !! r = Some (h, m) -> calm m ->
    drop_entity r (a, e) = Ret tt (a, emitted e (map EvDrop (row_values cs m))).
  Proof.
    intros Ed (_&Hcap&Hle&HFr&C&H&Ea&Hs&HS) Hr Hcalm. rewrite Ed in Ea.
    destruct (HS _ _ _ Hr) as [_ HR]. pose proof (Forall_lookup_1 _ _ _ _ HFr Hr) as Hrow. pose proof Hs as (HlC&_&_).
    unfold drop_entity. unfold bind at 1, am_get at 1. cbn [fst].
    destruct (mfor_enum_inv (fun i s => s = (a, emitted e (map EvDrop (row_values (take i cs) m))))
       (a_comps a) (fun '(i, d) => run_drop_handler d i r 1) (a, e)) as (s'&E&->).
    - by rewrite emitted_nil.
    - intros i x s Hx ->. rewrite Ea, (mk_comps d cs Hd) in Hx.
      change (map cdesc_of cs) with (cdesc_of <$> cs) in Hx. rewrite list_lookup_fmap in Hx.
      destruct (cs !! i) as [c|] eqn:Hc; [|done]. injection Hx as <-.
      destruct (row_ok_get _ _ _ _ Hrow Hc) as (v&Hv&Hty). cbn [snd] in Hv. pose proof (Hcalm _ _ Hv) as Hb.
      destruct (HR i c Hc) as (col&Hk&Hcell). rewrite Hv in Hcell.
      set (e1 := emitted e _). exists (a, emitted e1 [EvDrop v]). split.
      + unfold run_drop_handler. cbn [cd_drop cdesc_of]. unfold bind at 1, am_get at 1. cbn [fst].
        assert (Ep : a_ptrs a !! i = Some (colb (a_cap a) c col)) by (rewrite Ea; by apply colbs_lookup).
        rewrite_ptr Ep. cbn [colb seq mfor].
        unfold bind at 1. unfold drop_cell.
        erewrite bind_Ret; [|apply am_rd_Rd; rewrite Ea; eapply typed_cell_mk; eauto].
        unfold bind at 1. cbn. rewrite Hb. done.
      + rewrite (take_S_r _ _ _ Hc). unfold e1. rewrite emitted_app. unfold row_values. rewrite omap_app, map_app. cbn [omap list_omap]. by rewrite Hv.
    - rewrite E. rewrite Ea at 2. rewrite (mk_comps d cs Hd), map_length, take_ge by lia. done.
  Qed.
  Lemma swap_drop_exact c a rows r h m e :
    a_desc a = d -> arch_ok a cs rows -> rows !! r = Some (h, m) -> calm m ->
    exists x a', swap_drop_unchecked c r (a, e) = Ret x (a', emitted e (map EvDrop (row_values cs m))) /\
      pf a' = (a_desc a, a_count a - 1, a_cap a).
  Proof.
    intros Ed Hok Hr Hcalm. pose proof (lookup_lt_Some _ _ _ Hr) as Hlt. pose proof (count_ok _ _ _ Hok) as Hcnt.
    assert (Hdec : forall b e0, pf b = pf a -> exists b', decrement_len_unchecked c (b, e0) = Ret tt (b', e0) /\ pf b' = (a_desc a, a_count a - 1, a_cap a)).
    { intros b e0 Hp. injection Hp as Hp1 Hp2 Hp3. exists (set_count b (a_count a - 1)). unfold decrement_len_unchecked, bind, am_get. cbn [fst].
      rewrite Hp2, Hcnt. destruct (length rows); [lia|]. unfold am_upd. cbn [fst snd]. rewrite Nat.sub_succ, Nat.sub_0_r. split; [done|].
      unfold pf. cbn. by rewrite Hp1, Hp3. }
    unfold swap_drop_unchecked. unfold bind at 1, am_get at 1. cbn [fst].
    erewrite (bind_Ret (mdebug_assert _ _)); [|apply mdebug_true; unfold a_len; rewrite Hcnt; by apply Nat.ltb_lt].
    erewrite bind_Ret; [|apply lift_Rd; apply (last_row_ok cs); [done|lia]].
    destruct (Nat.eqb_spec r (length rows - 1)) as [El|El].
    - rewrite (bind_Ret _ _ _ _ _ (drop_entity_exact a rows r h m e Ed Hok Hr Hcalm)).
      destruct (Hdec a (emitted e (map EvDrop (row_values cs m))) eq_refl) as (b'&Eb&Hb). rewrite (bind_Ret _ _ _ _ _ Eb). by exists false, b'.
    - destruct (swap_ok d cs Hd a rows r (length rows - 1) e Ed Hok Hlt ltac:(lia) El) as (a1&E1&Ed1&Ec1&Hok1).
      rewrite (bind_Ret _ _ _ _ _ E1). apply still_swap in E1 as [Hp _].
      assert (Hr1 : swapl r (length rows - 1) rows !! (length rows - 1) = Some (h, m)).
      { rewrite swapl_lookup by lia. unfold swp. rewrite decide_False by lia. by rewrite decide_True. }
      rewrite (bind_Ret _ _ _ _ _ (drop_entity_exact a1 _ _ h m e Ed1 Hok1 Hr1 Hcalm)).
      destruct (Hdec a1 (emitted e (map EvDrop (row_values cs m))) Hp) as (b'&Eb&Hb). rewrite (bind_Ret _ _ _ _ _ Eb). by exists true, b'.
  Qed.

  (** *** Releasing a whole archetype *)
  Definition col_values (rows : list row) (c : ctype) : list value := omap (fun x : row => x.2 !! ct_id c) rows.
  Lemma drop_rows_exact a rows k c n e :
    a_desc a = d -> arch_ok a cs rows -> cs !! k = Some c -> n <= length rows -> Forall (fun x : row => calm x.2) rows ->
    mfor (seq 0 n) (drop_cell c k) (a, e) = Ret tt (a, emitted e (map EvDrop (col_values (take n rows) c))).
  Proof.
    intros Ed Hok Hk Hn Hcalm. induction n as [|n IH].
    { cbn. by rewrite emitted_nil. }
    specialize (IH ltac:(lia)). destruct (lookup_lt_is_Some_2 rows n) as [[h m] Hrow]; [lia|].
    pose proof Hok as (_&_&_&HFr&_). destruct (row_ok_get _ _ _ _ (Forall_lookup_1 _ _ _ _ HFr Hrow) Hk) as (v&Hm&_). cbn [snd] in Hm.
    assert (Hb : v_bomb v = false) by (exact (Forall_lookup_1 _ _ _ _ Hcalm Hrow _ _ Hm)).
    destruct (typed_cell_ok d cs Hd _ _ _ _ _ _ _ _ Ed Hok Hrow Hk Hm) as [Ht _].
    rewrite seq_S. rewrite (mfor_app _ _ _ _ _ IH). cbn [mfor Nat.add]. unfold bind at 1. unfold drop_cell.
    erewrite bind_Ret; [|by apply am_rd_Rd]. unfold bind at 1. cbn. rewrite Hb. cbn. do 2 f_equal.
    rewrite (take_S_r _ _ _ Hrow). unfold col_values. rewrite omap_app, map_app. cbn [omap list_omap snd]. rewrite Hm. cbn [map].
    unfold emitted. cbn. by rewrite app_assoc.
  Qed.
  Definition value_drops (rows : list row) (l : list ctype) : list event := concat (map (fun c => map EvDrop (col_values rows c)) l).
  Lemma drop_entities_exact a rows e :
    a_desc a = d -> arch_ok a cs rows -> Forall (fun x : row => calm x.2) rows ->
    drop_entities (a, e) = Ret tt (a, emitted e (value_drops rows cs)).
  Proof.
    intros Ed Hok Hcalm. pose proof Hok as (_&_&_&HFr&C&H&Ea&(HlC&_&_)&_). rewrite Ed in Ea.
    assert (Hcomps : a_comps a = map cdesc_of cs) by (rewrite Ea; apply (mk_comps d cs Hd)).
    unfold drop_entities. unfold bind at 1, am_get at 1. cbn [fst]. unfold a_len. rewrite (count_ok cs _ _ Hok).
    destruct (mfor_enum_inv (fun i s => s = (a, emitted e (value_drops rows (take i cs))))
       (a_comps a) (fun '(i, d) => run_drop_handler d i 0 (length rows)) (a, e)) as (s'&E&->).
    - by rewrite emitted_nil.
    - intros i x s Hx ->. rewrite Hcomps in Hx.
      change (map cdesc_of cs) with (cdesc_of <$> cs) in Hx. rewrite list_lookup_fmap in Hx.
      destruct (cs !! i) as [c|] eqn:Hc; [|done]. injection Hx as <-.
      destruct (lookup_lt_is_Some_2 C i) as [cl Hcl]. { rewrite HlC. by eapply lookup_lt_Some. }
      set (e1 := emitted e _). exists (a, emitted e1 (map EvDrop (col_values rows c))). split.
      + unfold run_drop_handler. cbn [cd_drop cdesc_of]. unfold bind at 1, am_get at 1. cbn [fst].
        assert (Ep : a_ptrs a !! i = Some (colb (a_cap a) c cl)) by (rewrite Ea; by apply colbs_lookup).
        rewrite_ptr Ep. cbn [colb]. rewrite (drop_rows_exact a rows i c (length rows) e1 Ed Hok Hc (le_n _) Hcalm). by rewrite firstn_all.
      + unfold e1. rewrite emitted_app. do 2 f_equal. rewrite (take_S_r _ _ _ Hc). unfold value_drops. rewrite map_app, concat_app. cbn [map concat].
        by rewrite app_nil_r.
    - rewrite E, Hcomps, map_length, firstn_all. done.
  Qed.
  Definition cfree (n : nat) (l : list ctype) : list event := map (fun c => EvDealloc (ct_size c * N.of_nat n) (ct_align c)) l.
  Lemma dealloc_columns_exact cap n ps p (l : list ctype) (C : list column) e i :
    Forall small l -> length C = length l ->
    (forall j c col, l !! j = Some c -> C !! j = Some col -> ps !! (i + j) = Some (colb cap c col)) ->
    exists ps', dealloc_columns (zip (seq i (length l)) (map cdesc_of l)) (Arch d ps p n cap, e) =
      Ret true (Arch d ps' p n cap, emitted e (cfree cap l)).
  Proof.
    revert C e i ps. induction l as [|c l IH]; intros C e i ps Hsm HC Hps.
    { exists ps. cbn. by rewrite emitted_nil. }
    apply Forall_cons in Hsm as [Hc Hsm]. destruct C as [|col C]; [done|]. cbn [length] in HC.
    cbn [length seq map zip zip_with dealloc_columns]. unfold bind at 1, am_get at 1. cbn [fst a_ptrs].
    pose proof (Hps 0 c col eq_refl eq_refl) as Hp. rewrite Nat.add_0_r in Hp.
    rewrite_ptr Hp. cbn [colb a_cap].
    rewrite small_size, small_align by done.
    assert (Ed : mem_dealloc (colb cap c col) (ct_size c * N.of_nat cap) (ct_align c) e =
                 Ret tt (emitted e [EvDealloc (ct_size c * N.of_nat cap) (ct_align c)])%N).
    { unfold mem_dealloc, colb. cbn [bl_size bl_align]. rewrite !N.eqb_refl. done. }
    unfold colb in Ed. rewrite (bind_Ret _ _ _ _ _ (am_env_Ret _ _ _ _ _ Ed)). unfold bind at 1, am_upd at 1. cbn [fst snd].
    unfold set_ptrs. cbn [a_desc a_assoc a_count a_cap a_ptrs].
    destruct (IH C (emitted e [EvDealloc (ct_size c * N.of_nat cap) (ct_align c)])%N (S i) (<[i := None]> ps)) as (ps'&E').
    { done. } { lia. }
    { intros j c' col' Hj Hcol'. rewrite list_lookup_insert_ne by lia.
      replace (S i + j) with (i + S j) by lia. by apply Hps. }
    exists ps'. rewrite E', emitted_app. done.
  Qed.
  Lemma a_drop_exact a rows e :
    a_desc a = d -> arch_ok a cs rows -> Forall (fun x : row => calm x.2) rows ->
    exists a', a_drop (a, e) =
      Ret tt (a', emitted e (value_drops rows cs ++ cfree (a_cap a) cs ++ [EvDealloc (4 * N.of_nat (a_cap a)) 4])).
  Proof.
    intros Ed Hok Hcalm. unfold a_drop. unfold bind at 1, am_get at 1. cbn [fst].
    pose proof Hok as (_&Hcap&_&_&C&H&Ea&(HlC&_&_)&_). rewrite Ed in Ea.
    assert (Hcomps : a_comps a = map cdesc_of cs) by (rewrite Ea; apply (mk_comps d cs Hd)).
    rewrite (proj2 (Nat.eqb_neq (a_cap a) 0)) by (pose proof (capok_pos _ Hcap); lia).
    rewrite (bind_Ret _ _ _ _ _ (drop_entities_exact a rows e Ed Hok Hcalm)). set (e1 := emitted e _).
    unfold a_dealloc. unfold bind at 1, am_get at 1. cbn [fst].
    rewrite Hcomps. unfold enum. rewrite map_length.
    destruct (dealloc_columns_exact (a_cap a) (length rows) (colbs (a_cap a) cs C) (Some (Block (4 * N.of_nat (a_cap a))%N 4%N H)) cs C e1 0)
      as (ps'&E2); [apply Hd|done| |].
    { intros j c col Hj Hcol. by apply colbs_lookup. }
    set (e2 := emitted e1 _) in E2.
    assert (E2' : dealloc_columns (zip (seq 0 (length cs)) (map cdesc_of cs)) (a, e1) =
      Ret true (Arch d ps' (Some (Block (4 * N.of_nat (a_cap a))%N 4%N H)) (length rows) (a_cap a), e2)).
    { rewrite <- E2. rewrite Ea at 1. done. }
    rewrite (bind_Ret _ _ _ _ _ E2'). cbn iota. unfold bind at 1, am_get at 1. cbn [fst a_assoc a_cap].
    assert (Edl : mem_dealloc (Some (Block (4 * N.of_nat (a_cap a))%N 4%N H)) (ENTITY_SIZE * N.of_nat (a_cap a)) ENTITY_ALIGN e2 =
                 Ret tt (emitted e2 [EvDealloc (4 * N.of_nat (a_cap a)) 4])%N).
    { unfold mem_dealloc, ENTITY_SIZE, ENTITY_ALIGN. cbn [bl_size bl_align]. rewrite !N.eqb_refl. done. }
    rewrite (bind_Ret _ _ _ _ _ (am_env_Ret _ _ _ _ _ Edl)). unfold am_upd. cbn [fst snd].
    eexists. do 2 f_equal. unfold e2, e1. rewrite !emitted_app; done.
  Qed.
End exact.

(** ** Against the log of SpecEvents.v *)
Section main.
  Context {Fm : family} (c : cfg) (U : list ctype) (HU : universe (big c) U).
  Notation be := (big c).
  Definition fits_sheet (s : sheet) (p : prof) : Prop :=
    ad_components (pd p) = map cdesc_of (sh_types s) /\ Forall small (sh_types s) /\ pn p = length (sh_ents s).
  Lemma booked_fits r b : booked c U r b -> Forall2 fits_sheet (bk_sheets b) (rpf r) /\ sound r /\ ev_oracle (r_env r) = [].
  Proof.
    intros [(T&H&<-) _ _ _]. pose proof (ro_tabs _ _ _ _ _ H) as HT. split; [|split; [|apply H]].
    - unfold rpf, skel. clear H. induction HT as [|a t A T Hta HT IH]; [constructor|]. cbn [map]. constructor; [|exact IH].
      pose proof (proj1 (proj2 Hta)) as Hok. pose proof (proj1 Hok) as Hd. unfold fits_sheet, pd, pn, pf. cbn [fst snd sh_types sh_ents].
      split; [apply (do_comps _ _ Hd)|]. split; [apply Hd|]. rewrite map_length. by apply count_ok in Hok.
    - unfold sound, rpf. clear H. induction HT as [|a t A T Hta HT IH]; [constructor|]. cbn [map]. constructor; [|exact IH].
      pose proof (proj1 (proj2 Hta)) as Hok. pose proof Hok as (_&Hcap&Hle&_). apply count_ok in Hok. apply capok_pos in Hcap. unfold pk, pn, pf. cbn. lia.
  Qed.
  Lemma cbuy_obtain n l : Forall small l -> cbuy n (map cdesc_of l) = map (fun x => EvAlloc (bytes x.1 n) x.2) (map (fun C => (ct_size C, ct_align C)) l).
  Proof. induction 1 as [|C l HC _ IH]; [done|]. cbn [map cbuy]. unfold cbuy in IH. rewrite IH, small_size, small_align by done. done. Qed.
  Lemma buy_obtain n s p : fits_sheet s p -> buy n (ad_components (pd p)) = obtain n s.
  Proof. intros (E&Hs&_). unfold buy, obtain, elements. cbn [map]. by rewrite E, cbuy_obtain. Qed.
  Lemma cgrow_to n m l : Forall small l -> cgrow n m (map cdesc_of l) = map (fun x => EvRealloc (bytes x.1 n) x.2 (bytes x.1 m)) (map (fun C => (ct_size C, ct_align C)) l).
  Proof. induction 1 as [|C l HC _ IH]; [done|]. cbn [map cgrow]. unfold cgrow in IH. rewrite IH, small_size, small_align by done. done. Qed.
  Lemma grows_to n m s p : fits_sheet s p -> grows n m (ad_components (pd p)) = grow_to n m s.
  Proof. intros (E&Hs&_). unfold grows, grow_to, elements. cbn [map]. by rewrite E, cgrow_to. Qed.
  Lemma gains_log S P S' Q new G : Forall2 fits_sheet S P -> Forall2 fits_sheet S' Q -> gains (P ++ fresh_of new) Q G ->
    G = growths (map pk P) S S' /\ map pk Q = new_caps (map pk P) S S' /\
    concat (map (fun d => buy 128 (ad_components d)) new) = concat (map (obtain 128) (drop (length S) S')).
  Proof.
    intros HS. revert S' Q G. induction HS as [|s p S P Hsp HS IH]; intros S' Q G HS' [HF ->].
    - cbn [app map growths new_caps length] in *. rewrite drop_0. revert S' Q HS' HF. induction new as [|d new IH]; intros S' Q HS' HF; cbn [fresh_of map] in HF.
      + inversion HF; subst. inversion HS'; subst. done.
      + inversion HF as [|? q ? Q' [Hd Hk] HF']; subst. inversion HS' as [|s' ? S1 ? Hs' HS1]; subst.
        destruct (IH _ _ HS1 HF') as (E1&E2&E3). assert (Hfu : full_up (d, 0, 128) q = false) by done.
        unfold next_cap in Hk. rewrite Hfu in Hk. change (fresh_of (d :: new)) with ((d, 0, 128) :: fresh_of new). cbn [zip_with concat map]. split; [|split].
        * rewrite E1. unfold grow_ev. by rewrite Hfu.
        * by rewrite E2, Hk.
        * rewrite E3. f_equal. rewrite <- (buy_obtain _ _ _ Hs'). unfold pd in Hd. cbn in Hd. unfold pd. by rewrite Hd.
    - cbn [app] in HF. inversion HF as [|? q ? Q' [Hd Hk] HF']; subst. inversion HS' as [|s' ? S1 ? Hs' HS1]; subst.
      destruct (IH _ _ _ HS1 (conj HF' eq_refl)) as (E1&E2&E3).
      assert (Hfu : full_up p q = outgrows (pk p) s s').
      { unfold full_up, outgrows. destruct Hsp as (_&_&->). by destruct Hs' as (_&_&->). }
      cbn [map growths new_caps length drop app zip_with concat]. split; [|split].
      + rewrite E1. unfold grow_ev. rewrite Hfu. by rewrite (grows_to _ _ _ _ Hsp).
      + rewrite E2, Hk. unfold next_cap. by rewrite Hfu.
      + exact E3.
  Qed.
  Definition drops_in (w : world) (o : op) : list event := match o with OpDestroy h => drop_one U w h | _ => [] end.
  Lemma row_drop_one r T w i t j h m a : reg_ok be U r T w -> T !! i = Some t -> t_rows t !! j = Some (h, m) -> tab_ok be U a t ->
    map EvDrop (row_values (t_cs t) m) = drop_one U w h.
  Proof.
    intros H Ht Hj Hta. unfold drop_one. f_equal. destruct (tab_row _ _ HU _ _ _ _ _ Hta Hj) as (_&_&<-). unfold row_values, types.
    assert (Hv : forall C, value_of w h C = m !! ct_id C) by (intros C; by eapply value_row). clear -Hv. induction U as [|C l IH]; [done|].
    rewrite filter_cons. cbn [omap list_omap]. rewrite Hv. destruct (m !! ct_id C) as [v|] eqn:E.
    - rewrite decide_True by eauto. cbn [omap list_omap]. rewrite E. by f_equal.
    - rewrite decide_False by (by intros [? ?]). exact IH.
  Qed.
  Lemma destroy_log h r b x r' : booked c U r b -> contract be U (bk_world b) (OpDestroy h) -> destroy_entity c h r = Ret x r' ->
    logged r r' (drop_one U (bk_world b) h).
  Proof.
    intros [(T&H&_) _ _ _] Hcalm E. unfold destroy_entity in E. apply bind_Ret_inv in E as (s&s1&E1&E). injection E1 as <- <-.
    destruct (bk_world b !! h) as [e|] eqn:Ew.
    - destruct (live_entry c U _ _ _ _ _ H Ew) as (en&i&j&t&m&a&Een&<-&<-&Hrow&Ht&Hj&->&Ha&Hta). rewrite Een in E. cbv zeta in E.
      pose proof (proj1 (proj2 Hta)) as Hok. pose proof (proj1 Hok) as Hd.
      destruct (swap_drop_exact _ _ Hd c a (t_rows t) (e_row en) h m (r_env r) eq_refl Hok Hj (Hcalm _ Ew)) as (y&a'&Es&Hpf).
      apply bind_Ret_inv in E as (y'&r1&E1&E). apply with_inv in E1 as (a0&a1&e1&Ha0&E1&Ep&Ee). rewrite Ha in Ha0. injection Ha0 as <-.
      rewrite Es in E1. injection E1 as _ <- <-. quiet E P2 N2. rewrite (row_drop_one _ _ _ _ _ _ _ _ _ H Ht Hj Hta) in Ee. apply logged_low.
      + rewrite P2, Ep, Hpf. eapply lowers_insert; [by apply rpf_lookup|lia].
      + congruence.
    - rewrite (dead_entry c U _ _ _ _ H Ew) in E. injection E as _ <-. apply logged_low; [apply lowers_refl|].
      assert (drop_one U (bk_world b) h = []) as ->; [|by rewrite emitted_nil]. unfold drop_one, value_of. rewrite Ew. cbn.
      clear; by induction U.
  Qed.
  Lemma step_log o r b x r' b' : booked c U r b -> contract be U (bk_world b) o -> step c o r = Ret x r' -> booked c U r' b' ->
    logged r r' (drops_in (bk_world b) o).
  Proof.
    intros Hb Hc E Hb'. destruct (booked_fits _ _ Hb) as (_&Hs&Ho). destruct (booked_fits _ _ Hb') as (_&Hs'&_).
    destruct (structural o) eqn:Hst.
    - destruct o; try done; cbn [step] in E; apply bind_Ret_inv in E as (y&r1&E&E1); injection E1 as _ <-; cbn [drops_in].
      + by eapply create_log.
      + by eapply destroy_log.
      + by eapply remove_entity_log.
      + by eapply add_log.
      + by eapply remove_log.
    - apply step_still in E as [Ep Ee]; [|done]. assert (drops_in (bk_world b) o = []) as -> by (by destruct o).
      apply logged_opened, opened_refl; done.
  Qed.
  Lemma step_exact o r b : booked c U r b -> contract be U (bk_world b) o ->
    exists r', step c o r = Ret (ref be U b o).1 r' /\ booked c U r' (ref be U b o).2 /\
      (r_env r' = emitted (r_env r) (call_log be U b (map pk (rpf r)) o).1) /\
      map pk (rpf r') = (call_log be U b (map pk (rpf r)) o).2.
  Proof.
    intros Hb Hc. destruct (ref_step c U HU r b o Hb Hc) as (r'&E&Hb'&_). exists r'. split; [done|]. split; [done|].
    destruct (step_log _ _ _ _ _ _ Hb Hc E Hb') as (new&G&_&Hg&Ee).
    destruct (booked_fits _ _ Hb) as (HS&_). destruct (booked_fits _ _ Hb') as (HS'&_).
    destruct (gains_log _ _ _ _ _ _ HS HS' Hg) as (->&E2&E3). rewrite Ee, E2, E3. done.
  Qed.
  Lemma run_exact ops r b : booked c U r b -> within be U ops b ->
    exists r', run c ops r = Ret (ref_run be U ops b).1 r' /\ booked c U r' (ref_run be U ops b).2 /\
      (r_env r' = emitted (r_env r) (run_log be U ops b (map pk (rpf r))).1) /\
      map pk (rpf r') = (run_log be U ops b (map pk (rpf r))).2.
  Proof.
    revert r b. induction ops as [|o ops IH]; intros r b Hb Hw.
    { exists r. cbn [run ref_run run_log fst snd]. by rewrite emitted_nil. }
    destruct Hw as [Hc Hw]. destruct (step_exact o r b Hb Hc) as (r1&E1&H1&Ee1&Ek1). destruct (IH r1 _ H1 Hw) as (r2&E2&H2&Ee2&Ek2).
    exists r2. cbn [run ref_run run_log]. destruct (call_log be U b (map pk (rpf r)) o) as [evs caps1]. cbn [fst snd] in Ee1, Ek1. rewrite Ek1 in Ee2, Ek2.
    destruct (ref be U b o) as [out b1]. cbn [fst snd] in *. destruct (ref_run be U ops b1) as [outs b2].
    destruct (run_log be U ops b1 caps1) as [evs' caps2]. cbn [fst snd] in *.
    rewrite (bind_Ret _ _ _ _ _ E1), (bind_Ret _ _ _ _ _ E2). split; [done|]. split; [done|]. split; [|done]. by rewrite Ee2, Ee1, emitted_app.
  Qed.
  Lemma pk_caps r : map pk (rpf r) = map a_cap (ar_archs (r_ar r)).
  Proof. unfold rpf. by rewrite map_map. Qed.
  Lemma run_requests ops : within be U ops book_empty ->
    exists r, run c ops reg_default = Ret (ref_run be U ops book_empty).1 r /\
      ev_trace (r_env r) = (run_log be U ops book_empty []).1 /\
      map a_cap (ar_archs (r_ar r)) = (run_log be U ops book_empty []).2.
  Proof.
    intros Hw. destruct (run_exact ops _ _ (booked_start c U) Hw) as (r&E&_&Ee&Ek). exists r. split; [done|]. rewrite <- pk_caps. split; [by rewrite Ee|done].
  Qed.

  (** *** Dropping the registry *)
  Lemma drop_archs_exact n k r T :
    n = length (ar_archs (r_ar r)) - k -> Forall2 (tab_ok be U) (drop k (ar_archs (r_ar r))) T ->
    Forall (fun t => Forall (fun x : row => calm x.2) (t_rows t)) T ->
    exists r', drop_archs k n false r = Ret tt r' /\
      r_env r' = emitted (r_env r) (concat (zip_with (fun t n => value_drops (t_rows t) (t_cs t) ++ cfree n (t_cs t) ++ [EvDealloc (4 * N.of_nat n) 4]) T
                                              (map a_cap (drop k (ar_archs (r_ar r)))))).
  Proof.
    revert k r T. induction n as [|n IH]; intros k r T Hn HT Hcalm; cbn [drop_archs].
    - rewrite drop_ge in * by lia. inversion HT; subst. exists r. cbn. by rewrite emitted_nil.
    - destruct (lookup_lt_is_Some_2 (ar_archs (r_ar r)) k) as [a Ha]; [lia|].
      rewrite (drop_S _ _ _ Ha) in *. inversion HT as [|? t ? T' Ht HT' E1 E2]; subst. apply Forall_cons in Hcalm as [Hct Hcalm].
      pose proof (proj1 (proj2 Ht)) as Hok. pose proof (proj1 Hok) as Hd.
      destruct (a_drop_exact _ _ Hd a (t_rows t) (r_env r) eq_refl Hok Hct) as (a'&E).
      rewrite (with_arch_Ret _ _ _ _ _ _ _ Ha E). set (e1 := emitted _ _).
      destruct (IH (S k) (put_arch r k a' e1) T') as (r'&Er&Ee).
      + cbn. rewrite insert_length. lia.
      + cbn. rewrite drop_insert_gt by lia. done.
      + done.
      + exists r'. split; [done|]. rewrite Ee. cbn [put_arch r_env r_ar set_archs ar_archs]. rewrite drop_insert_gt by lia. unfold e1.
        rewrite emitted_app. done.
  Qed.
  Lemma drop_sheet r T w i t n : reg_ok be U r T w -> T !! i = Some t ->
    value_drops (t_rows t) (t_cs t) ++ cfree n (t_cs t) ++ [EvDealloc (4 * N.of_nat n) 4] = drop_all w (sheet_of t) ++ free_arrays n (sheet_of t).
  Proof.
    intros H Ht. f_equal.
    - unfold value_drops, drop_all, col_values. cbn [sheet_of sh_types sh_ents]. f_equal. apply map_ext. intros C. f_equal.
      assert (Hv : forall j h m, t_rows t !! j = Some (h, m) -> value_of w h C = m !! ct_id C) by (intros; by eapply value_row).
      clear -Hv. induction (t_rows t) as [|[h m] rows IH]; [done|]. cbn [map omap list_omap fst snd]. rewrite (Hv 0 h m eq_refl).
      rewrite IH by (intros j; apply (Hv (S j))). done.
    - unfold free_arrays, cfree, elements. cbn [sheet_of sh_types tail take app]. rewrite map_app, map_map. done.
  Qed.
  Lemma drop_exact r b : booked c U r b -> all_calm (bk_world b) ->
    exists r', drop_registry r = Ret tt r' /\ r_env r' = emitted (r_env r) (final_log b (map a_cap (ar_archs (r_ar r)))).
  Proof.
    intros [(T&H&HS) _ _ _] Hcalm. unfold drop_registry. rewrite rm_get_step.
    destruct (drop_archs_exact (length (ar_archs (r_ar r))) 0 r T) as (r'&E&Ee); [lia|rewrite drop_0; apply H|by eapply all_calm_rows|].
    exists r'. split; [done|]. rewrite drop_0 in Ee. rewrite Ee. f_equal. unfold final_log. rewrite <- HS. unfold skel. f_equal.
    generalize (map a_cap (ar_archs (r_ar r))) as caps. intros caps.
    assert (Hin : forall i t, T !! i = Some t -> exists i, T !! i = Some t) by eauto. revert caps.
    assert (Hall : forall t n, t ∈ T -> value_drops (t_rows t) (t_cs t) ++ cfree n (t_cs t) ++ [EvDealloc (4 * N.of_nat n) 4] =
      drop_all (bk_world b) (sheet_of t) ++ free_arrays n (sheet_of t)).
    { intros t n [i Hi]%elem_of_list_lookup. by eapply drop_sheet. }
    clear -Hall. induction T as [|t T IH]; intros [|n caps]; [done..|]. cbn [map zip_with]. rewrite (Hall t n (elem_of_list_here _ _)). f_equal.
    apply IH. intros; apply Hall. by right.
  Qed.
  Lemma run_drop_requests ops : within be U ops book_empty -> all_calm (bk_world (ref_run be U ops book_empty).2) ->
    exists r r', run c ops reg_default = Ret (ref_run be U ops book_empty).1 r /\ drop_registry r = Ret tt r' /\
      ev_trace (r_env r') = (run_log be U ops book_empty []).1 ++ final_log (ref_run be U ops book_empty).2 (run_log be U ops book_empty []).2.
  Proof.
    intros Hw Hcalm. destruct (run_exact ops _ _ (booked_start c U) Hw) as (r&E&Hb&Ee&Ek). destruct (drop_exact r _ Hb Hcalm) as (r'&E'&Ee').
    exists r, r'. split; [done|]. split; [done|]. rewrite Ee', Ee. rewrite <- pk_caps, Ek. done.
  Qed.

  (** *** Capacities *)
  Lemma fitting_step caps peaks S S' : Forall2 fitting peaks caps -> length S = length caps ->
    Forall2 (fun n s => length (sh_ents s) <= n) (new_caps caps S S') S' ->
    Forall2 fitting (raise peaks S') (new_caps caps S S').
  Proof.
    intros Hf. revert S S'. induction Hf as [|p n peaks caps Hpn Hf IH]; intros S S' Hl Hle.
    - destruct S; [|done]. cbn [new_caps raise] in *. induction S' as [|s' S' IH]; [constructor|]. cbn [map] in *. inversion Hle as [|? ? ? ? H1 H2]; subst.
      constructor; [|by apply IH]. exists 0%N. split; [done|]. split; [done|by left].
    - destruct S as [|s S]; [done|]. destruct S' as [|s' S']; [constructor|]. cbn [new_caps raise] in *. inversion Hle as [|? ? ? ? H1 H2]; subst.
      constructor; [|apply IH; [by injection Hl|done]]. destruct Hpn as (k&Hk&Hp&Hmin). unfold outgrows in *.
      destruct (Nat.eqb_spec (length (sh_ents s)) n) as [E|]; cbn [andb] in *; [destruct (Nat.ltb_spec n (length (sh_ents s'))) as [Hlt|Hge]|].
      + exists (k + 1)%N. rewrite N.pow_add_r. split; [lia|]. split; [lia|]. right. lia.
      + exists k. split; [done|]. split; [lia|]. destruct Hmin; [by left|right; lia].
      + exists k. split; [done|]. split; [lia|]. destruct Hmin; [by left|right; lia].
  Qed.
  Lemma run_fitting ops r b peaks : booked c U r b -> within be U ops b -> Forall2 fitting peaks (map pk (rpf r)) ->
    Forall2 fitting (run_peaks be U ops b peaks) (run_log be U ops b (map pk (rpf r))).2.
  Proof.
    revert r b peaks. induction ops as [|o ops IH]; intros r b peaks Hb Hw Hf; [exact Hf|].
    destruct Hw as [Hc Hw]. destruct (step_exact o r b Hb Hc) as (r1&E1&H1&Ee1&Ek1). cbn [run_log run_peaks].
    destruct (call_log be U b (map pk (rpf r)) o) as [evs caps1] eqn:Ecl. cbn [fst snd] in Ek1.
    specialize (IH r1 _ (raise peaks (bk_sheets (ref be U b o).2)) H1 Hw). rewrite Ek1 in IH.
    destruct (run_log be U ops (ref be U b o).2 caps1) as [evs' caps2]. cbn [snd] in *. apply IH.
    assert (caps1 = new_caps (map pk (rpf r)) (bk_sheets b) (bk_sheets (ref be U b o).2)) as -> by (unfold call_log in Ecl; congruence).
    destruct (booked_fits _ _ Hb) as (HS&_). destruct (booked_fits _ _ H1) as (HS1&Hs1&_).
    apply fitting_step; [done|rewrite map_length; by eapply Forall2_length|]. rewrite <- Ek1.
    clear -HS1 Hs1. unfold sound in Hs1. induction HS1 as [|s p S P (_&_&Hn) HS IH]; [constructor|]. cbn [map]. apply Forall_cons in Hs1 as [[_ Hp] Hs1].
    constructor; [lia|by apply IH].
  Qed.
  Lemma run_capacities ops : within be U ops book_empty ->
    Forall2 fitting (run_peaks be U ops book_empty []) (run_log be U ops book_empty []).2.
  Proof. intros Hw. apply (run_fitting ops _ _ [] (booked_start c U) Hw). constructor. Qed.
End main.
