(** Programs up to the first clash of archetype ids, and the clash itself (C66). *)
From Verif Require Import RegModel Instances SpecTrace SpecEntity EntityProofs EntityTable SearchProofs DescrProofs MonadProofs ArchProofs ArchOps ArchOps2 ArchOps3 AregProofs IterProofs RegProofs RegOps RegOps2 RegOps3 RegIter RegMut RegExact Refine SpecObs SpecClient Observe Sizes Clients Overflow Faults Faults2 Ref Events Events2 Total Used Brim SpecBase SpecWorld SpecRef SpecEvents SpecTotal SpecUsed SpecBrim SpecClash.
Local Open Scope nat_scope.

(** ** The family of archetypes can be chosen anew before every call *)
Definition places (S : list sheet) : list (N * list N) := map (fun s => (sh_id s, ids_of (sh_types s))) S.
Lemma booked_family (Fm Fm' : family) c U r b : @booked Fm c U r b ->
  (forall p, p ∈ places (bk_sheets b) -> @occurs Fm' p.1 p.2) -> @booked Fm' c U r b.
Proof.
  intros [(T&H&HS) Hi HF HV] Hocc. split; [|done|done|done]. exists T. split; [|done]. destruct H as [H1 H2 H3 H4 H5 H6]. split; try done.
  rewrite <- HS in Hocc. apply Forall2_same_length_lookup. split; [by eapply Forall2_length|]. intros i a t Ha Ht.
  destruct (Forall2_lookup_lr _ _ _ _ _ _ H2 Ha Ht) as (E1&E2&E3&_&E4). split; [done|]. split; [done|]. split; [done|]. split; [|done].
  apply (Hocc (t_id t, ids_of (t_cs t))). unfold places, skel. rewrite map_map. cbn [sh_id sh_types]. apply elem_of_list_In, in_map_iff.
  exists t. split; [done|]. apply elem_of_list_In. by eapply elem_of_list_lookup_2.
Qed.
Lemma booked_every (Fm : family) c U r b : @booked Fm c U r b -> @booked every c U r b.
Proof. intros H. eapply booked_family; [exact H|done]. Qed.
Lemma elem_places S x l : (x, l) ∈ places S <-> exists s, s ∈ S /\ sh_id s = x /\ ids_of (sh_types s) = l.
Proof.
  unfold places. split.
  - intros (s&E&Hs)%elem_of_list_fmap. injection E as -> ->. by exists s.
  - intros (s&Hs&<-&<-). apply elem_of_list_fmap. by exists s.
Qed.
Lemma sheets_unique (Fm : family) c U r b s1 s2 : @booked Fm c U r b -> s1 ∈ bk_sheets b -> s2 ∈ bk_sheets b ->
  sh_id s1 = sh_id s2 -> length (sh_types s1) = length (sh_types s2) -> s1 = s2.
Proof.
  intros [(T&H&HS) _ _ _] [i H1]%elem_of_list_lookup [j H2]%elem_of_list_lookup E1 E2. rewrite <- HS in H1, H2.
  unfold skel in H1, H2. change (map ?f T) with (f <$> T) in H1, H2. rewrite list_lookup_fmap in H1, H2.
  destruct (T !! i) as [t1|] eqn:Ht1; [|done]. destruct (T !! j) as [t2|] eqn:Ht2; [|done]. injection H1 as <-. injection H2 as <-.
  cbn [sh_id sh_types] in *. destruct (ro_tab _ _ _ _ _ _ _ H Ht1) as (a1&Ha1&Hta1). destruct (ro_tab _ _ _ _ _ _ _ H Ht2) as (a2&Ha2&Hta2).
  destruct (tab_facts _ _ _ _ Hta1) as (_&_&_&_&Hl1&_). destruct (tab_facts _ _ _ _ Hta2) as (_&_&_&_&Hl2&_).
  destruct Hta1 as (Hid1&_), Hta2 as (Hid2&_).
  assert (i = j) as ->; [|congruence]. apply (is_arch_unique (r_ar r) i j (a_desc a1) (ro_areg _ _ _ _ _ H)).
  - exists a1. done.
  - exists a2. split; [done|]. split; [congruence|]. congruence.
Qed.
Lemma places_unambiguous (Fm : family) c U r b : @booked Fm c U r b -> unambiguous (places (bk_sheets b)).
Proof.
  intros Hb x l1 l2 (s1&Hs1&E1&<-)%elem_places (s2&Hs2&E2&<-)%elem_places Hl _. f_equal. f_equal.
  rewrite !map_length in Hl. eapply sheets_unique; [exact Hb|done|done|congruence|done].
Qed.
Lemma place_added L x l : unambiguous L -> (forall l', (x, l') ∈ L -> length l' = length l -> l' = l) -> unambiguous (L ++ [(x, l)]).
Proof.
  intros HL Hx y l1 l2 [H1|H1%elem_of_list_singleton]%elem_of_app [H2|H2%elem_of_list_singleton]%elem_of_app Hl Hy.
  - by apply (HL y).
  - injection H2 as -> ->. by apply Hx.
  - injection H1 as -> ->. symmetry. apply Hx; [done|by symmetry].
  - congruence.
Qed.
Lemma not_mistaken S p : existsb (mistaken p) S = false -> forall l', (p.1, l') ∈ places S -> length l' = length p.2 -> l' = p.2.
Proof.
  intros H l' (s&Hs&E&<-)%elem_places Hl. apply not_true_iff_false in H. apply dec_stable. intros Hne. apply H, existsb_exists. exists s.
  split; [by apply elem_of_list_In|]. unfold mistaken. rewrite map_length in Hl. rewrite E, N.eqb_refl, Hl, Nat.eqb_refl, bool_decide_eq_false_2 by done. done.
Qed.

Section steps.
  Context (c : cfg) (U : list ctype) (HU : plain U) (Hnt : NoDup (map ct_ty U)).
  Notation be := (big c).
  (** The archetypes there are, and the one that the call looks up. *)
  Definition near (b : book) (o : op) : family := listed (places (bk_sheets b) ++ match seeks be U b o with Some p => [p] | None => [] end).
  Lemma near_universe (Fm : family) r b o : @booked Fm c U r b -> clashes be U b o = false -> @universe (near b o) be U.
  Proof.
    intros Hb Hc. apply universe_listed; [done|]. unfold clashes in Hc. destruct (seeks be U b o) as [[x l]|]; [|rewrite app_nil_r; by eapply places_unambiguous].
    apply place_added; [by eapply places_unambiguous|]. exact (not_mistaken _ (x, l) Hc).
  Qed.
  Lemma near_booked (Fm : family) r b o : @booked Fm c U r b -> @booked (near b o) c U r b.
  Proof. intros Hb. eapply booked_family; [exact Hb|]. intros [x l] Hp. apply elem_of_app. by left. Qed.
  Lemma good_every (Fm : family) r b o v : @good Fm c U r b o v -> @good every c U r b o v.
  Proof.
    destruct v as [out b'|b'|]; cbn [good]; [| |done].
    - intros (r'&E&Hb&Hx). exists r'. split; [done|]. split; [by eapply booked_every|done].
    - intros (r'&E&Hb&Hx). exists r'. split; [done|]. split; [by eapply booked_every|done].
  Qed.
  Lemma near_sought b o p : seeks be U b o = Some p -> @occurs (near b o) p.1 p.2.
  Proof. intros E. unfold near. rewrite E. apply elem_of_app. right. destruct p. by left. Qed.
  Lemma clash_free r b o : @booked every c U r b -> fair be U (bk_world b) o -> clashes be U b o = false ->
    if bursts be U b o then breaks c r o else @good every c U r b o (outcome (dbg c) be U b o).
  Proof.
    intros Hb Hf Hc. pose proof (near_universe _ _ _ _ Hb Hc) as HU'. pose proof (near_booked _ _ _ o Hb) as Hb'.
    assert (Hany : @admissible (near b o) be U (bk_world b) o -> if bursts be U b o then breaks c r o else @good every c U r b o (outcome (dbg c) be U b o)).
    { intros Ha. pose proof (any_step c U HU' Hnt r b o Hb' Ha) as Hs. destruct (bursts be U b o); [done|]. exact (good_every (near b o) r b o _ Hs). }
    destruct o; try (apply Hany; exact Hf).
    - destruct Hf as (H1&H2&_). apply Hany. split; [done|]. split; [done|]. intros Hv Hl. apply (near_sought b (OpCreate G vs) (place_of U (created be U G vs))). cbn [seeks]. by rewrite Hv.
    - destruct Hf as (H1&H2&_). destruct (bk_world b !! h) as [e|] eqn:Ew.
      2: { apply Hany. split; [done|]. split; [done|]. intros e. by rewrite Ew. }
      destruct (decide (en_vals e !! ct_id C = None)) as [Hn|Hs].
      2: { apply Hany. split; [done|]. split; [done|]. intros e' Ew'. rewrite Ew in Ew'. by injection Ew' as <-. }
      destruct (Nat.eqb_spec (size (en_vals e)) 13) as [E13|N13].
      + cbn [bursts outcome]. rewrite Ew, E13, !(bool_decide_eq_true_2 (_ !! _ = None)) by done. cbn [Nat.eqb negb andb].
        pose proof Hb' as [(T&H&_) _ _ _].
        pose proof (add_13_panics c U HU' r T _ C h v e H Ew E13 H1 Hn) as E. eexists. split; [cbn [step]; unfold bind; rewrite E; done|].
        split; [|done]. destruct Hb as [(T0&H0&HS0) Hi0 HF0 HV0]. split; [|done|done|done]. exists T0. split; [|done]. destruct H0. split; done.
      + apply Hany. split; [done|]. split; [done|]. intros e' Ew' Hn' Hl. rewrite Ew in Ew'. injection Ew' as <-.
        apply (near_sought b (OpAdd C h v) (place_of U (derived be U (<[ct_id C := v]> (en_vals e))))). cbn [seeks]. rewrite Ew, bool_decide_eq_true_2 by done.
        rewrite (proj2 (Nat.eqb_neq _ _) N13). done.
    - destruct Hf as (H1&_). destruct (bk_world b !! h) as [e|] eqn:Ew.
      2: { apply Hany. split; [done|]. intros e. by rewrite Ew. }
      destruct (decide (is_Some (en_vals e !! ct_id C))) as [Hs|Hn].
      2: { apply Hany. split; [done|]. intros e' Ew'. rewrite Ew in Ew'. by injection Ew' as <-. }
      destruct (Nat.eqb_spec (size (en_vals e)) 14) as [E14|N14].
      + cbn [bursts outcome]. rewrite Ew, E14, !(bool_decide_eq_true_2 (is_Some _)) by done. cbn [Nat.eqb negb andb].
        pose proof Hb' as [(T&H&_) _ _ _]. destruct Hs as [v Hv].
        pose proof (remove_14_panics c U HU' r T _ C h e v H Ew E14 H1 Hv) as E. apply good_panic; [done|done|]. cbn [step]. unfold bind. by rewrite E.
      + apply Hany. split; [done|]. intros e' Ew' Hn' Hl. rewrite Ew in Ew'. injection Ew' as <-.
        apply (near_sought b (OpRemove C h) (place_of U (derived be U (delete (ct_id C) (en_vals e))))). cbn [seeks]. rewrite Ew, bool_decide_eq_true_2 by done.
        rewrite (proj2 (Nat.eqb_neq _ _) N14). done.
    - destruct Hf as (H1&_). apply Hany. split; [done|]. intros Hv. apply (near_sought b (OpExact G) (exact_place be U G)). cbn [seeks]. by rewrite Hv.
    - destruct Hf as (H1&_). apply Hany. split; [done|]. intros Hv. apply (near_sought b (OpExactE G) (exact_place be U G)). cbn [seeks]. by rewrite Hv.
    - destruct Hf as (H1&_&H3). apply Hany. split; [done|]. split; [|done]. intros Hv. apply (near_sought b (OpExactMut G upd) (exact_place be U G)). cbn [seeks]. by rewrite Hv.
    - destruct Hf as (H1&_&H3). apply Hany. split; [done|]. split; [|done]. intros Hv. apply (near_sought b (OpExactEMut G upd) (exact_place be U G)). cbn [seeks]. by rewrite Hv.
  Qed.

  (** ** Programs *)
  Definition met (x : list (option output) * option reg) (y : list (option output) * ending) : Prop :=
    match y.2 with
    | Ends (Completes b) => x.1 = y.1 /\ exists r, x.2 = Some r /\ @booked every c U r b
    | Ends Faults => x.1 = y.1 /\ x.2 = None
    | Ends Wrecks | Clash _ _ => y.1 `prefix_of` x.1
    end.
  Lemma met_cons out x y : met x y -> met (out :: x.1, x.2) (out :: y.1, y.2).
  Proof.
    unfold met. cbn [fst snd]. destruct y.2 as [[b| |]|b o].
    - intros [-> ?]. done.
    - intros [-> ?]. done.
    - apply prefix_cons.
    - apply prefix_cons.
  Qed.
  Lemma followed_from ops r b : @booked every c U r b -> fair_all (dbg c) be U ops b -> met (attempt c ops r) (follow (dbg c) be U ops b).
  Proof.
    revert r b. induction ops as [|o ops IH]; intros r b Hb Hl; [by split; [|exists r]|].
    destruct Hl as [Hl1 Hl]. cbn [attempt follow]. destruct (clashes be U b o) eqn:Hc; [apply prefix_nil|]. specialize (Hl eq_refl).
    pose proof (clash_free r b o Hb Hl1 Hc) as Hs. destruct (bursts be U b o).
    - unfold breaks in Hs. destruct o; try (by rewrite Hs). destruct (dbg c); [|by rewrite Hs]. destruct Hs as [r' ->].
      destruct (attempt c ops r') as [l e]. unfold met. cbn [fst snd]. apply prefix_cons, prefix_nil.
    - specialize (Hl eq_refl). destruct (outcome (dbg c) be U b o) as [out b1|b1|]; cbn [good] in Hs.
      + destruct Hs as (r1&E&Hb1&_). rewrite E. specialize (IH r1 b1 Hb1 Hl). apply (met_cons (Some out)) in IH.
        destruct (attempt c ops r1), (follow (dbg c) be U ops b1). exact IH.
      + destruct Hs as (r1&E&Hb1&_). rewrite E. specialize (IH r1 b1 Hb1 Hl). apply (met_cons None) in IH.
        destruct (attempt c ops r1), (follow (dbg c) be U ops b1). exact IH.
      + by rewrite Hs.
  Qed.
  Lemma followed ops : fair_all (dbg c) be U ops book_empty -> met (attempt c ops reg_default) (follow (dbg c) be U ops book_empty).
  Proof. apply followed_from, booked_start. Qed.
End steps.

(** ** A tuple pushed to the archetype of other components *)
Section wrong.
  Context {K : caps} (d : adesc) (cs : list ctype) (Hd : desc_ok d cs).
  Lemma sorted_value be G s vs k C v : gspec be G s -> length vs = length G -> s !! k = Some C -> vmap G vs !! ct_id C = Some v ->
    as_sorted_values be G vs !! k = Some (Some v).
  Proof.
    intros Hg Hl HC Hv. destruct (gspec_NoDup _ _ _ Hg) as (HndG&Hnds&Hnd&HlG).
    assert (HCG : C ∈ G) by (rewrite <- (gs_perm _ _ _ Hg); by eapply elem_of_list_lookup_2).
    apply elem_of_list_lookup in HCG as [i Hi].
    destruct (lookup_lt_is_Some_2 vs i) as [w Hw]. { rewrite Hl. by eapply lookup_lt_Some. }
    assert (Esl : group_slot be G i = k). { eapply NoDup_lookup; [exact Hnd|by apply (gs_slot _ _ _ Hg)|done]. }
    pose proof (as_sorted_lookup _ _ _ _ _ _ _ Hg Hl Hi Hw) as Eas. rewrite Esl in Eas. rewrite Eas.
    rewrite (vmap_lookup _ _ _ _ _ HndG Hl Hi Hw) in Hv. by injection Hv as ->.
  Qed.
  (** The row as the columns hold it: the k-th component in order under the id of the k-th column. *)
  Definition shifted (s : list ctype) (m : gmap N value) (C : list column) (r : nat) : list column :=
    zip_with (fun B col => <[r := m !! ct_id B]> col) s C.
  Lemma shifted_lookup s m C r k B col : s !! k = Some B -> C !! k = Some col -> shifted s m C r !! k = Some (<[r := m !! ct_id B]> col).
  Proof. intros HB Hk. apply lookup_zip_with_Some. by exists B, col. Qed.
  Lemma push_wrong c G s vs h a rows e :
    a_desc a = d -> arch_ok a cs rows -> (N.of_nat (length rows) < 8388608)%N -> ev_oracle e = [] ->
    gspec (big c) G s -> Forall small s -> ad_id d = tuple_archetype_id (big c) (ids_of s) -> length s = length cs ->
    map ct_size s = map ct_size cs -> Forall2 fits G vs ->
    exists e' cap C H, push_entity_unchecked c G h vs (a, e) = Ret (length rows) (mk d cs cap (S (length rows)) C H, e') /\ shape cs cap C H /\
      forall k B, s !! k = Some B -> exists col, C !! k = Some col /\ col !! length rows = Some (vmap G vs !! ct_id B).
  Proof.
    intros Ed Hok Hlt Ho Hg Hsm Hid Hls Hsz HF. pose proof (Forall2_length _ _ _ HF) as HFl.
    destruct (resize_ok d cs Hd a rows e Ed Hok Hlt Ho) as (cap&C&H&e'&Er&Hcap&Hn&Hs&HS&Hem). pose proof Hs as (HlC&HFC&HH).
    exists e', cap, (shifted s (vmap G vs) C (length rows)), (<[length rows := Some h]> H). split; [|split].
    - unfold push_entity_unchecked. unfold bind at 1, am_get at 1. cbn [fst].
      rewrite (bind_Ret _ _ _ _ _ (mdebug_true _ _ _ (gs_valid _ _ _ Hg))).
      erewrite (bind_Ret (mdebug_assert _ _)); [|apply mdebug_true; rewrite Ed, Hid, (gs_id _ _ _ Hg); apply N.eqb_refl].
      rewrite (bind_Ret _ _ _ _ _ Er). unfold bind at 1, am_get at 1. cbn [fst].
      unfold bind at 1, am_upd at 1. cbn [fst snd]. change (a_len (mk d cs cap (length rows) C H)) with (length rows).
      change (set_count (mk d cs cap (length rows) C H) (S (a_count (mk d cs cap (length rows) C H))))
        with (mk d cs cap (S (length rows)) C H).
      assert (Ew : write_entity_unchecked c G (length rows) h vs (mk d cs cap (S (length rows)) C H, e') =
        Ret tt (mk d cs cap (S (length rows)) (shifted s (vmap G vs) C (length rows)) (<[length rows := Some h]> H), e')).
      { unfold write_entity_unchecked. unfold bind at 1, am_get at 1. cbn [fst].
        erewrite (bind_Ret (mdebug_assert _ _)); [|apply mdebug_true; by apply Nat.ltb_lt].
        rewrite (bind_Ret _ _ _ _ _ (mdebug_true _ _ _ (gs_valid _ _ _ Hg))).
        erewrite (bind_Ret (mdebug_assert _ _)); [|apply mdebug_true; cbn [a_desc mk]; rewrite Hid, (gs_id _ _ _ Hg); apply N.eqb_refl].
        erewrite bind_Ret; [apply write_entity_mk; lia|]. rewrite (gs_comps _ _ _ Hg).
        apply mfor_columns; [by rewrite map_length|done|unfold shifted; rewrite zip_with_length; lia|].
        intros k x col col' D Hx Hk Hk' HD HDk. change (map cdesc_of s) with (cdesc_of <$> s) in Hx. rewrite list_lookup_fmap in Hx.
        destruct (s !! k) as [B|] eqn:HB; [|done]. injection Hx as <-.
        rewrite (shifted_lookup _ _ _ _ _ _ _ HB Hk) in Hk'. injection Hk' as <-.
        destruct (lookup_lt_is_Some_2 cs k) as [B' HB']; [rewrite <- Hls; by eapply lookup_lt_Some|].
        unfold copy_in. unfold bind, am_get. cbn [fst]. rewrite (mk_comps_lookup d cs Hd _ _ _ _ _ _ HB').
        assert (is_Some (vmap G vs !! ct_id B)) as [v Hv].
        { destruct (gspec_NoDup _ _ _ Hg) as (HndG&_). apply (vmap_full G vs); [done|lia|]. apply elem_of_ids. exists B. split; [|done].
          rewrite <- (gs_perm _ _ _ Hg). by eapply elem_of_list_lookup_2. }
        rewrite (sorted_value _ _ _ _ _ _ _ Hg (eq_sym HFl) HB Hv).
        assert (Esz : cd_size (cdesc_of B) = cd_size (cdesc_of B')).
        { rewrite !small_size; [|by eapply cs_small|by eapply Forall_lookup_1].
          assert (Ek : map ct_size s !! k = map ct_size cs !! k) by (by rewrite Hsz).
          change (map ct_size s) with (ct_size <$> s) in Ek. change (map ct_size cs) with (ct_size <$> cs) in Ek.
          rewrite !list_lookup_fmap, HB, HB' in Ek. by injection Ek. }
        rewrite Esz, N.eqb_refl. rewrite (write_cell_mk d cs cap _ D H k (length rows) col); [by rewrite Hv|done|done|by rewrite (shape_col _ _ _ _ _ _ Hs Hk)]. }
      rewrite (bind_Ret _ _ _ _ _ Ew). done.
    - split; [unfold shifted; rewrite zip_with_length; lia|]. split; [|by rewrite insert_length].
      apply Forall_lookup. intros k col Hk. apply lookup_zip_with_Some in Hk as (B&col0&->&_&H0).
      rewrite insert_length. exact (Forall_lookup_1 _ _ _ _ HFC H0).
    - intros k B HB. destruct (lookup_lt_is_Some_2 C k) as [col Hk]. { rewrite HlC, <- Hls. by eapply lookup_lt_Some. }
      eexists. split; [by apply shifted_lookup|]. apply list_lookup_insert. by rewrite (shape_col _ _ _ _ _ _ Hs Hk).
  Qed.
  Lemma wrong_cell s (m : gmap N value) cap n C H r k A B v : Forall small s -> length s = length cs -> map ct_size s = map ct_size cs ->
    shape cs cap C H -> (forall k B, s !! k = Some B -> exists col, C !! k = Some col /\ col !! r = Some (m !! ct_id B)) ->
    cs !! k = Some A -> s !! k = Some B -> m !! ct_id B = Some v ->
    get_component_unchecked A r (mk d cs cap n C H) = if (v_ty v =? ct_ty A)%N then Rd v else RdUB.
  Proof.
    intros Hsm Hls Hsz Hs HC HA HB Hv. destruct (HC k B HB) as (col&Hk&Hcell). unfold get_component_unchecked.
    rewrite (search_col d cs Hd k A cap n C H HA). unfold typed_cell, raw_cell. cbn [a_ptrs mk].
    rewrite (colbs_lookup _ _ _ _ _ _ HA Hk). cbn [colb bl_cells]. rewrite Hcell. cbn [rbind].
    change (a_comps (Arch d (colbs cap cs C) (Some (Block (4 * N.of_nat cap) 4 H)) n cap)) with (a_comps (mk d cs cap n C H)).
    rewrite (mk_comps_lookup d cs Hd _ _ _ _ _ _ HA), Hv, small_size by (by eapply cs_small). rewrite N.eqb_refl, andb_true_r. done.
  Qed.
  (** *** Reading the columns of an archetype as other components *)
  Lemma rmap_ub {A B} (f : A -> rd B) l x : (forall y, y ∈ l -> f y = RdUB \/ exists z, f y = Rd z) -> x ∈ l -> f x = RdUB -> rmap f l = RdUB.
  Proof.
    induction l as [|y l IH]; intros Hall Hx Ex; [by apply elem_of_nil in Hx|]. cbn [rmap].
    destruct (Hall y ltac:(left)) as [->|[z Ez]]; [done|]. apply elem_of_cons in Hx as [->|Hx]; [by rewrite Ex|].
    rewrite Ez. cbn [rbind]. rewrite IH; [done| |done|done]. intros y' Hy'. apply Hall. by right.
  Qed.
  Lemma slice_wrong a rows A B k : a_desc a = d -> arch_ok a cs rows -> cs !! k = Some A -> rows <> [] -> ct_ty A <> ct_ty B ->
    slice_cells B a (own_pointers a) k (length rows) = RdUB.
  Proof.
    intros Ed Hok HA Hne Hty. unfold slice_cells. rewrite (own_pointers_ok d cs a rows k A Ed Hok HA).
    pose proof Hok as (_&_&_&Hrows&C&H&Ea&(HlC&_&_)&HS). rewrite Ed in Ea.
    destruct (lookup_lt_is_Some_2 C k) as [cl Hcl]. { rewrite HlC. by eapply lookup_lt_Some. }
    assert (Ep : a_ptrs a !! k = Some (colb (a_cap a) A cl)) by (rewrite Ea; by apply colbs_lookup).
    destruct rows as [|[h m] rows]; [done|]. rewrite_ptr Ep. cbn [colb length seq rmap]. unfold typed_cell, raw_cell. rewrite_ptr Ep. cbn [colb bl_cells].
    destruct (HS 0 h m eq_refl) as [_ HR]. destruct (HR k A HA) as (cl'&Hcl'&Hcell). rewrite Hcl in Hcl'. injection Hcl' as <-.
    rewrite Hcell. cbn [rbind]. apply Forall_cons in Hrows as [Hrow _]. destruct (row_ok_get _ _ _ _ Hrow HA) as (v&Hv&Hfit). cbn [snd] in Hv.
    rewrite Hv. rewrite Ea, (mk_comps_lookup d cs Hd _ _ _ _ _ _ HA). rewrite (proj2 (N.eqb_neq _ _)) by (rewrite Hfit; done). done.
  Qed.
  Lemma exact_wrong c G s a rows : a_desc a = d -> arch_ok a cs rows -> gspec (big c) G s -> ad_id d = tuple_archetype_id (big c) (ids_of s) ->
    length s = length cs -> (forall A B, A ∈ cs -> B ∈ s -> ct_ty A = ct_ty B -> A = B) -> s <> cs ->
    match rows with
    | [] => get_slices_exact c G a = Rd (map (fun _ => []) G) /\ get_slices_exact_mut c G a = Rd (map (fun _ => []) G)
    | _ => get_slices_exact c G a = RdUB /\ get_slices_exact_mut c G a = RdUB
    end.
  Proof.
    intros Ed Hok Hg Hid Hls Hinj Hdiff. unfold get_slices_exact, get_slices_exact_mut. rewrite Ed, Hid, (gs_id _ _ _ Hg), N.eqb_refl.
    rewrite !rdebug_true by done. cbn [rbind]. unfold slice_unchecked, slice_unchecked_mut, a_len. rewrite (count_ok cs _ _ Hok).
    destruct (gspec_NoDup _ _ _ Hg) as (HndG&Hnds&Hnd&HlG).
    assert (Hslot : forall i B, G !! i = Some B -> exists A, s !! group_slot (big c) G i = Some B /\ cs !! group_slot (big c) G i = Some A).
    { intros i B Hi. pose proof (gs_slot _ _ _ Hg _ _ Hi) as HB. destruct (lookup_lt_is_Some_2 cs (group_slot (big c) G i)) as [A HA]; [|by exists A].
      rewrite <- Hls. by eapply lookup_lt_Some. }
    destruct rows as [|row0 rows0] eqn:Erows.
    - assert (Hempty : forall i B, G !! i = Some B -> slice_cells B a (own_pointers a) (group_slot (big c) G i) 0 = Rd []).
      { intros i B Hi. destruct (Hslot i B Hi) as (A&HB&HA). unfold slice_cells. rewrite (own_pointers_ok d cs a [] _ A Ed Hok HA).
        pose proof Hok as (_&_&_&_&C&H&Ea&(HlC&_&_)&_). rewrite Ed in Ea.
        destruct (lookup_lt_is_Some_2 C (group_slot (big c) G i)) as [cl Hcl]. { rewrite HlC. by eapply lookup_lt_Some. }
        assert (Ep : a_ptrs a !! group_slot (big c) G i = Some (colb (a_cap a) A cl)) by (rewrite Ea; by apply colbs_lookup). by rewrite_ptr Ep. }
      split; (apply rmap_enum; [by rewrite map_length|]); intros i B y Hi Hy; cbn [length]; rewrite (Hempty i B Hi); cbn [rbind map];
        change (map ?f G) with (f <$> G) in Hy; rewrite list_lookup_fmap, Hi in Hy; by injection Hy as <-.
    - rewrite <- Erows in *. assert (Hne : rows <> []) by (by rewrite Erows).
      assert (Hcase : forall i B, G !! i = Some B -> (exists z, slice_cells B a (own_pointers a) (group_slot (big c) G i) (length rows) = Rd z) \/
        slice_cells B a (own_pointers a) (group_slot (big c) G i) (length rows) = RdUB).
      { intros i B Hi. destruct (Hslot i B Hi) as (A&HB&HA). destruct (decide (ct_ty A = ct_ty B)) as [E|E].
        - left. assert (A = B) as ->. { apply Hinj; [by eapply elem_of_list_lookup_2|by eapply elem_of_list_lookup_2|done]. }
          destruct (cols_exist cs [B] rows) as [cols Hcols]; [apply Hok|intros ? ->%elem_of_list_singleton; by eapply elem_of_list_lookup_2|].
          apply Forall2_cons_inv_l in Hcols as (col&?&Hcol&_&_). eexists. eapply slice_cells_ok; [done|done|done|by eapply own_pointers_ok|done|done].
        - right. by eapply slice_wrong. }
      assert (exists i B, G !! i = Some B /\ slice_cells B a (own_pointers a) (group_slot (big c) G i) (length rows) = RdUB) as (i&B&Hi&Ei).
      { assert (exists k A B, cs !! k = Some A /\ s !! k = Some B /\ A <> B) as (k&A&B&HA&HB&HAB).
        { destruct (decide (Exists (fun p => p.1 <> p.2) (zip cs s))) as [([A B]&Hin&HAB)%Exists_exists|Hno].
          - apply elem_of_list_lookup in Hin as [k Hk]. apply lookup_zip_with_Some in Hk as (A'&B'&[= <- <-]&HA&HB). by exists k, A, B.
          - exfalso. apply Hdiff. apply list_eq. intros k. destruct (s !! k) as [B|] eqn:HB.
            + destruct (lookup_lt_is_Some_2 cs k) as [A HA]. { rewrite <- Hls. by eapply lookup_lt_Some. }
              rewrite HA. f_equal. symmetry. apply dec_stable. intros HAB. apply Hno, Exists_exists. exists (A, B). split; [|done].
              apply elem_of_list_lookup. exists k. apply lookup_zip_with_Some. by exists A, B.
            + symmetry. apply lookup_ge_None. rewrite <- Hls. by apply lookup_ge_None. }
        assert (HBG : B ∈ G) by (rewrite <- (gs_perm _ _ _ Hg); by eapply elem_of_list_lookup_2).
        apply elem_of_list_lookup in HBG as [i Hi]. exists i, B. split; [done|].
        assert (Esl : group_slot (big c) G i = k). { eapply NoDup_lookup; [exact Hnd|by apply (gs_slot _ _ _ Hg)|done]. } rewrite Esl.
        eapply slice_wrong; [done|done|done|done|]. intros E. apply HAB. apply Hinj; [by eapply elem_of_list_lookup_2|by eapply elem_of_list_lookup_2|done]. }
      split.
      + eapply (rmap_ub _ _ (i, B)); [|eapply elem_of_list_lookup_2; by apply enum_lookup|cbn; by rewrite Ei].
        intros [i' B'] [j Hj]%elem_of_list_lookup. apply enum_lookup_inv in Hj as (x&[= -> ->]&Hi').
        destruct (Hcase _ _ Hi') as [[z ->]| ->]; [right; eauto|by left].
      + eapply (rmap_ub _ _ (i, B)); [|eapply elem_of_list_lookup_2; by apply enum_lookup|cbn; by rewrite Ei].
        intros [i' B'] [j Hj]%elem_of_list_lookup. apply enum_lookup_inv in Hj as (x&[= -> ->]&Hi').
        destruct (Hcase _ _ Hi') as [[z ->]| ->]; [right; eauto|by left].
  Qed.
End wrong.

(** ** Calls that meet the wrong archetype *)
Lemma found_arch ar r d i : r_ar r = ar -> areg_inv ar -> 1 <= ad_len d <= 14 -> ad_is_valid d = true -> is_arch ar i d ->
  find_or_create_archetype d r = Ret (Some i) r.
Proof.
  intros <- Hinv Hl Hv Hi. unfold find_or_create_archetype. change MAX_COMPONENTS_PER_ENTITY with 14.
  rewrite (proj2 (Nat.ltb_ge _ _)), Hv by lia. cbn [orb negb]. rewrite (proj2 (Nat.eqb_neq _ 0)) by lia.
  rewrite rm_get_step. destruct (areg_search _ d Hinv Hl) as (level&->&_&Hs).
  destruct (binary_search (map k_id level) (ad_id d)) as [f|f]; [|by destruct (Hs i)]. destruct Hs as (k&->&Hk).
  rewrite (proj2 (Nat.ltb_lt _ _)) by (by eapply is_arch_lt). by rewrite (is_arch_unique _ _ _ _ Hinv Hk Hi).
Qed.
Section calls.
  Context (c : cfg) (U : list ctype) (HU : plain U) (Hnt : NoDup (map ct_ty U)).
  Notation be := (big c).
  Lemma sheet_tab (Fm : family) r b s : @booked Fm c U r b -> s ∈ bk_sheets b ->
    exists T i t a, reg_ok be U r T (bk_world b) /\ T !! i = Some t /\ ar_archs (r_ar r) !! i = Some a /\ tab_ok be U a t /\
      sh_id s = t_id t /\ sh_types s = t_cs t /\ sh_ents s = map fst (t_rows t).
  Proof.
    intros [(T&H&HS) _ _ _] [i Hi]%elem_of_list_lookup. rewrite <- HS in Hi.
    unfold skel in Hi. change (map ?f T) with (f <$> T) in Hi. rewrite list_lookup_fmap in Hi.
    destruct (T !! i) as [t|] eqn:Ht; [|done]. injection Hi as <-. destruct (ro_tab _ _ _ _ _ _ _ H Ht) as (a&Ha&Hta). by exists T, i, t, a.
  Qed.
  Lemma type_inj A B : A ∈ U -> B ∈ U -> ct_ty A = ct_ty B -> A = B.
  Proof.
    intros [i Hi]%elem_of_list_lookup [j Hj]%elem_of_list_lookup E. assert (i = j) as ->; [|congruence]. eapply (NoDup_lookup (map ct_ty U)); [done| |].
    - change (map ct_ty U) with (ct_ty <$> U). by rewrite list_lookup_fmap, Hi.
    - change (map ct_ty U) with (ct_ty <$> U). by rewrite list_lookup_fmap, Hj, E.
  Qed.
  Lemma id_inj A B : A ∈ U -> B ∈ U -> ct_id A = ct_id B -> A = B.
  Proof.
    intros [i Hi]%elem_of_list_lookup [j Hj]%elem_of_list_lookup E. assert (i = j) as ->; [|congruence].
    eapply (NoDup_lookup (ids_of U)); [apply strict_NoDup, HU|by apply ids_of_lookup|rewrite E; by apply ids_of_lookup].
  Qed.
  Lemma all_small G : in_U U G -> Forall small G.
  Proof. intros HG. destruct HU as [_ Hs]. unfold in_U in HG. rewrite Forall_forall in *. intros C HC. by apply Hs, HG. Qed.
  Lemma create_wrong r b G vs s h : @booked every c U r b -> in_U U G -> Forall2 fits G vs -> valid be U G = true ->
    s ∈ bk_sheets b -> mistaken (place_of U (created be U G vs)) s = true -> (N.of_nat (length (sh_ents s)) < 8388608)%N -> next_handle b = Some h ->
    map ct_size (sorted U G) = map ct_size (sh_types s) ->
    exists r', step c (OpCreate G vs) r = Ret (OutCreate (Ok h)) r' /\
      forall C, C ∈ U ->
        step c (OpHas C h) r' = Ret (OutBool (bool_decide (C ∈ sh_types s))) r' /\
        (C ∉ sh_types s -> step c (OpGet C h) r' = Ret (OutVal None) r') /\
        (forall k, sh_types s !! k = Some C ->
           if decide (sorted U G !! k = Some C) then step c (OpGet C h) r' = Ret (OutVal (vmap G vs !! ct_id C)) r' else step c (OpGet C h) r' = UB).
  Proof.
    intros Hb HG HF Hval Hs Hm Hroom Hnext Hsz. pose proof (Forall2_length _ _ _ HF) as HFl.
    set (L := places (bk_sheets b)). assert (HU' : @universe (listed L) be U) by (apply universe_listed; [done|]; by eapply places_unambiguous).
    assert (Hb' : @booked (listed L) c U r b) by (apply (booked_family every); [done|by intros [x l] Hp]).
    pose proof (proj1 (@valid_iff (listed L) c U HU' G HG) Hval) as Hgv. pose proof (proj1 (gvalid_iff c G) Hgv) as Hv.
    destruct (gspec_exists be G Hv) as [q Hg]. destruct (@gspec_desc (listed L) c U HU' _ _ Hg HG) as (Hd&Hins).
    pose proof (@gspec_types (listed L) c U HU' _ _ vs Hg HG (eq_sym HFl)) as Ety.
    assert (Esort : sorted U G = q) by (rewrite <- Ety; symmetry; apply sorted_vmap; lia). rewrite Esort in *.
    destruct (sheet_tab _ _ _ _ Hb' Hs) as (T&i&t&a&H&Ht&Ha&Hta&Eid&Ecs&Ents). rewrite Ents, map_length in Hroom. rewrite Ecs in *.
    unfold mistaken, place_of in Hm. cbn [created en_aid en_vals fst snd] in Hm. rewrite Ety, Eid, map_length in Hm.
    apply andb_true_iff in Hm as [[E1%N.eqb_eq E2%Nat.eqb_eq]%andb_true_iff _]. rewrite Ecs in E2.
    destruct (tab_facts _ _ _ _ Hta) as (Hda&Hst&Hnd&H14&Hla&_). pose proof Hta as (Hida&Hok&Hint&_).
    assert (Hi : is_arch (r_ar r) i (gd_arch (group_desc be G))).
    { exists a. split; [done|]. rewrite (gs_id _ _ _ Hg), (gs_len _ _ _ Hg). split; congruence. }
    pose proof (found_arch _ r _ i eq_refl (ro_areg _ _ _ _ _ H) ltac:(rewrite (gs_len _ _ _ Hg); apply Hg) (gs_avalid _ _ _ Hg) Hi) as Efc.
    pose proof (ro_small_index c U _ _ _ _ _ H Ht) as Hix. pose proof Hb' as [_ _ Her Hvers].
    assert (Ecount : a_len a = length (t_rows t)) by (unfold a_len; by eapply count_ok).
    destruct (loc_create be (r_er r) _ (N.of_nat (length (t_rows t))) (N.of_nat i) Her) as [[Hge Ec]|[Hlt (h'&rg&F'&Ec&_&_&Hfresh&Hloc)]]; [lia|lia| |].
    { exfalso. assert (is_Some (next_handle b)) as Hfull%(@handle_room (listed L) c U r b Hb') by eauto. apply Hfull. unfold table_full. done. }
    assert (h' = h) as ->.
    { destruct (create_vers be (r_er r) h' rg _ (bk_world b) (bk_sheets b) Her) as (En&_).
      - econstructor; [| |exact Ec]; lia.
      - rewrite Hvers in En. destruct b. cbn in En, Hnext. rewrite Hnext in En. by injection En. }
    destruct (push_wrong (a_desc a) (t_cs t) Hda c G q vs h a (t_rows t) (r_env r)) as (e'&cap&Cs&Hs'&Ep&Hsh&Hcells);
      [done|done|done|apply H|done|by apply all_small|congruence|lia|done|done|].
    eexists. split.
    { cbn [step]. unfold create_entity, dropping_on_panic. unfold bind at 1. rewrite Hv. cbn [negb].
      rewrite (bind_Ret _ _ _ _ _ Efc). rewrite (bind_Ret _ _ _ _ _ (arch_at_Rd _ _ _ Ha)).
      rewrite Ecount, iia_new_spec, decide_True by lia. cbn [unwrap]. rewrite bind_ret_l.
      rewrite ai_new_spec, decide_False by lia. cbn [unwrap]. rewrite bind_ret_l.
      rewrite (bind_Ret _ _ _ _ _ (rm_er_Ret _ _ _ _ Ec)). unfold bind, with_arch. cbn [r_ar r_env]. rewrite Ha, Ep. done. }
    set (r' := Reg _ _ _).
    assert (Hent : exists en, entry_of c r' h = Some en /\ e_arch c en = i /\ e_row en = length (t_rows t)).
    { assert (El : loc_of be rg h = Some (N.to_nat (N.of_nat i), N.to_nat (N.of_nat (length (t_rows t))))) by (by rewrite Hloc, decide_True).
      unfold loc_of in El. unfold entry_of, r'. cbn [r_er]. destruct (er_entity_entry be rg h) as [en|]; [|done]. cbn in El. injection El as X1 X2.
      exists en. split; [done|]. unfold e_arch, e_row. rewrite X1, X2. split; lia. }
    destruct Hent as (en&Een&Earch&Erow).
    assert (Hat : arch_at i r' = Rd (mk (a_desc a) (t_cs t) cap (S (length (t_rows t))) Cs Hs')).
    { unfold arch_at, r'. cbn [r_ar set_archs ar_archs]. rewrite list_lookup_insert by (by eapply lookup_lt_Some). done. }
    intros C HC. assert (Hhas : ad_has_component (a_desc a) C = bool_decide (C ∈ t_cs t)).
    { apply eq_true_iff_eq. rewrite bool_decide_eq_true, has_component_spec; rewrite (do_comps _ _ Hda), ids_cdesc_of; [|done].
      rewrite elem_of_ids. split; [|eauto]. intros (C'&HC'&E). assert (C' = C) as ->; [|done].
      apply id_inj; [|done|done]. unfold in_U in Hint. rewrite Forall_forall in Hint. by apply Hint. }
    split; [|split].
    - cbn [step]. erewrite bind_Ret; [|apply rm_rd_Rd]; [done|]. unfold has_component. rewrite Een, Earch, Hat. cbn [rbind a_desc mk]. by rewrite Hhas.
    - intros Hn. cbn [step]. erewrite bind_Ret; [|apply rm_rd_Rd]; [done|]. unfold get_component. rewrite Een, Earch, Hat. cbn [rbind a_desc mk].
      rewrite Hhas, bool_decide_eq_false_2 by done. done.
    - intros k Hk. destruct (lookup_lt_is_Some_2 q k) as [B HB]; [rewrite <- E2; by eapply lookup_lt_Some|].
      assert (HBU : B ∈ U) by (unfold in_U in Hins; rewrite Forall_forall in Hins; apply Hins; by eapply elem_of_list_lookup_2).
      assert (HBG : B ∈ G) by (rewrite <- (gs_perm _ _ _ Hg); by eapply elem_of_list_lookup_2).
      destruct (gspec_NoDup _ _ _ Hg) as (HndG&_).
      assert (is_Some (vmap G vs !! ct_id B)) as [v Hvb]. { apply (vmap_full G vs); [done|lia|]. apply elem_of_ids. eauto. }
      assert (Hfit : v_ty v = ct_ty B) by (by apply (vmap_fit G vs HndG HF B v)).
      pose proof (wrong_cell (a_desc a) (t_cs t) Hda q (vmap G vs) cap (S (length (t_rows t))) Cs Hs' (length (t_rows t)) k C B v) as Hw.
      specialize (Hw (all_small _ Hins) ltac:(lia) Hsz Hsh Hcells Hk HB Hvb).
      assert (Eg : get_component c C h r' = letr x := (if (v_ty v =? ct_ty C)%N then Rd v else RdUB) in Rd (Some x)).
      { unfold get_component. rewrite Een, Earch, Hat. cbn [rbind a_desc mk]. rewrite Hhas, bool_decide_eq_true_2 by (by eapply elem_of_list_lookup_2).
        cbn [negb]. by rewrite Erow, Hw. }
      rewrite HB. destruct (decide (Some B = Some C)) as [[= ->]|Hne].
      + rewrite Hfit, N.eqb_refl in Eg. cbn [step]. rewrite (bind_Ret _ _ _ _ _ (rm_rd_Rd _ _ _ Eg)). by rewrite Hvb.
      + rewrite (proj2 (N.eqb_neq _ _)) in Eg; [|rewrite Hfit; intros E; apply Hne; f_equal; by apply type_inj].
        cbn [step]. unfold bind, rm_rd, lift_rd. by rewrite Eg.
  Qed.
  Lemma exact_clash r b G s upd o : @booked every c U r b -> in_U U G -> valid be U G = true -> s ∈ bk_sheets b -> mistaken (exact_place be U G) s = true ->
    o ∈ [OpExact G; OpExactE G; OpExactMut G upd; OpExactEMut G upd] ->
    match sh_ents s with
    | [] => step c o r = Ret (match o with OpExact _ | OpExactMut _ _ => OutCols [map (fun _ => []) G] | _ => OutECols [([], map (fun _ => []) G)] end) r
    | _ => step c o r = UB
    end.
  Proof.
    intros Hb HG Hval Hs Hm Ho.
    set (L := places (bk_sheets b)). assert (HU' : @universe (listed L) be U) by (apply universe_listed; [done|]; by eapply places_unambiguous).
    assert (Hb' : @booked (listed L) c U r b) by (apply (booked_family every); [done|by intros [x l] Hp]).
    pose proof (proj1 (@valid_iff (listed L) c U HU' G HG) Hval) as Hgv. pose proof (proj1 (gvalid_iff c G) Hgv) as Hv.
    destruct (gspec_exists be G Hv) as [q Hg]. destruct (@gspec_desc (listed L) c U HU' _ _ Hg HG) as (Hd&Hins).
    set (vs := map (fun _ => Value 0 0 false) G).
    assert (Esort : sorted U G = q).
    { rewrite <- (@gspec_types (listed L) c U HU' _ _ vs Hg HG) by (unfold vs; by rewrite map_length). symmetry. apply sorted_vmap. unfold vs. by rewrite map_length. }
    destruct (sheet_tab _ _ _ _ Hb' Hs) as (T&i&t&a&H&Ht&Ha&Hta&Eid&Ecs&Ents).
    unfold mistaken, exact_place in Hm. cbn [fst snd] in Hm. rewrite Esort, Eid, Ecs, map_length in Hm.
    apply andb_true_iff in Hm as [[E1%N.eqb_eq E2%Nat.eqb_eq]%andb_true_iff E3%negb_true_iff%bool_decide_eq_false].
    destruct (tab_facts _ _ _ _ Hta) as (Hda&Hst&Hnd&H14&Hla&_). pose proof Hta as (Hida&Hok&Hint&_).
    assert (Hi : is_arch (r_ar r) i (gd_arch (group_desc be G))).
    { exists a. split; [done|]. rewrite (gs_id _ _ _ Hg), (gs_len _ _ _ Hg). split; congruence. }
    assert (Hfind : find_exact c G r = Rd (Some (i, a))).
    { unfold find_exact. rewrite (find_archetype_found _ _ i (ro_areg _ _ _ _ _ H) (gs_avalid _ _ _ Hg) Hi). cbn [rbind]. by rewrite Ha. }
    pose proof (exact_wrong (a_desc a) (t_cs t) Hda c G q a (t_rows t) eq_refl Hok Hg) as Hw. specialize (Hw ltac:(congruence) ltac:(lia)).
    unfold in_U in Hint, Hins. rewrite Forall_forall in Hint, Hins.
    specialize (Hw (fun A B HA HB E => type_inj A B (Hint A HA) (Hins B HB) E) ltac:(by intros ->)).
    pose proof (entities_ok (a_desc a) (t_cs t) a (t_rows t) eq_refl Hok) as Hes. rewrite Ents.
    assert (Eall : match map fst (t_rows t) with
      | [] => iter_components_exact c G r = Rd (map (fun _ => []) G) /\ iter_entity_components_exact c G r = Rd ([], map (fun _ => []) G) /\
              iter_components_exact_mut c G r = Rd (map (fun _ => []) G) /\ iter_entity_components_exact_mut c G r = Rd ([], map (fun _ => []) G)
      | _ => iter_components_exact c G r = RdUB /\ iter_entity_components_exact c G r = RdUB /\
             iter_components_exact_mut c G r = RdUB /\ iter_entity_components_exact_mut c G r = RdUB
      end).
    { unfold iter_components_exact, iter_entity_components_exact, iter_components_exact_mut, iter_entity_components_exact_mut.
      rewrite Hfind. cbn [rbind]. rewrite Hes. cbn [rbind]. destruct (t_rows t) as [|x rows]; cbn [map]; destruct Hw as [-> ->]; cbn [rbind]; [|done].
      unfold locate. rewrite !map_map. cbn [map]. done. }
    assert (Emod1 : forall u (s : reg), modify_item u (map (fun _ => []) G) s = Ret (map (fun _ => []) G) s).
    { intros u s0. unfold modify_item.
      assert (Hz : forall k, mmap (fun '(i, col) => mmap (modify_loc (u i)) col) (zip (seq k (length (map (fun _ : ctype => @nil loc) G))) (map (fun _ => []) G)) s0 = Ret (map (fun _ => []) G) s0).
      { clear. induction G as [|C G' IH]; intros k; [done|]. cbn [map length seq zip_with mmap]. rewrite bind_ret_l. rewrite (bind_Ret _ _ _ _ _ (IH (S k))). done. }
      apply Hz. }
    assert (Emod : forall u, modify_items u [map (fun _ => []) G] r = Ret [map (fun _ => []) G] r).
    { intros u. unfold modify_items. cbn [mmap]. by rewrite (bind_Ret _ _ _ _ _ (Emod1 u r)). }
    destruct (map fst (t_rows t)) as [|x l]; destruct Eall as (X1&X2&X3&X4).
    - rewrite !elem_of_cons, elem_of_nil in Ho. destruct Ho as [->|[->|[->|[->|[]]]]]; cbn [step].
      + by rewrite (bind_Ret _ _ _ _ _ (rm_rd_Rd _ _ _ X1)).
      + by rewrite (bind_Ret _ _ _ _ _ (rm_rd_Rd _ _ _ X2)).
      + rewrite (bind_Ret _ _ _ _ _ (rm_rd_Rd _ _ _ X3)). by rewrite (bind_Ret _ _ _ _ _ (Emod upd)).
      + rewrite (bind_Ret _ _ _ _ _ (rm_rd_Rd _ _ _ X4)). erewrite bind_Ret; [|by apply (modify_eitems_Ret _ [([], map (fun _ => []) G)])]. done.
    - rewrite !elem_of_cons, elem_of_nil in Ho. destruct Ho as [->|[->|[->|[->|[]]]]]; cbn [step]; unfold bind, rm_rd, lift_rd.
      + by rewrite X1.
      + by rewrite X2.
      + by rewrite X3.
      + by rewrite X4.
  Qed.
End calls.

(** ** Moving an entity to the archetype of other components *)
Section moves.
  Context {Fm : family} (c : cfg) (U : list ctype) (HU : universe (big c) U).
  Notation be := (big c).
  Context (r : reg) (T : list tab) (w : world) (H : reg_ok be U r T w) (i d j : nat) (Hne : i <> d).
  Context (t td : tab) (Ht : T !! i = Some t) (Htd : T !! d = Some td) (a ad : arch).
  Context (Ha : ar_archs (r_ar r) !! i = Some a) (Had : ar_archs (r_ar r) !! d = Some ad).
  Context (Hta : tab_ok be U a t) (Htad : tab_ok be U ad td).
  Context (h : N) (m : gmap N value) (Hj : t_rows t !! j = Some (h, m)).
  Context (Hroom : (N.of_nat (length (t_rows td)) < 8388608)%N).
  Lemma move_back_half {A} sa da rg e P (x : A) : moving c r i j t td a ad sa da rg e P ->
    exists r', move_back c h i d sa (length (t_rows t) - 1) (length (t_rows td)) x (put2 r i sa d da rg e) = Ret x r' /\
      forall C, C ∈ U ->
        step c (OpHas C h) r' = Ret (OutBool (bool_decide (C ∈ t_cs td))) r' /\
        (C ∉ t_cs td -> step c (OpGet C h) r' = Ret (OutVal None) r') /\
        (forall v, C ∈ t_cs td -> P !! ct_id C = Some v -> fits C v -> step c (OpGet C h) r' = Ret (OutVal (Some v)) r').
  Proof.
    intros [Esd Esc Hsok Edd Hh Hem [F Hinv] Hloc].
    pose proof Hta as (_&Hok&Hin&_). pose proof (proj1 Hok) as Hds. pose proof Htad as (Eidd&Hokd&Hind&Haidd). pose proof (proj1 Hokd) as Hdd.
    pose proof (lookup_lt_Some _ _ _ Hj) as Hjlt. pose proof (ro_small_index c U _ _ _ _ _ H Htd) as Hdi.
    destruct (entity_at_ok (a_desc a) (t_cs t) sa _ _ _ _ Esd Hsok (moving_last _ _ _ _ Hj)) as [Ee _].
    destruct Hh as (_&Hcap&Hlt&HFr&Cs&Hc&Ea&Hsh&HS&HP). pose proof Hsh as (HlC&HFC&HHl). rewrite Edd in Ea.
    set (da' := mk (a_desc ad) (t_cs td) (a_cap da) (S (length (t_rows td))) Cs (<[length (t_rows td) := Some h]> Hc)).
    assert (Ewr : write_entity (length (t_rows td)) h (da, e) = Ret tt (da', e)) by (rewrite Ea at 1; apply write_entity_mk; lia).
    destruct (decrement_ok (a_desc a) (t_cs t) Hds c sa (swapl j (length (t_rows t) - 1) (t_rows t)) e Esd Hsok) as (sa'&Edec&Esd'&Esc'&Hsok').
    { rewrite swapl_length. lia. }
    assert (Hloch : loc_of be rg h = Some (i, j)).
    { rewrite Hloc. assert (loc_of be (r_er r) h = Some (i, j)) as -> by (apply (ro_loc _ _ _ _ _ H); eauto). by case_decide. }
    destruct (loc_set_arch be rg F h i j (N.of_nat d) Hinv Hloch) as (rg1&Eu1&Hinv1&_&Hloc1); [lia|].
    assert (Hloch1 : loc_of be rg1 h = Some (d, j)) by (rewrite Hloc1, decide_True by done; by rewrite Nat2N.id).
    destruct (loc_set_row be rg1 F h d j (N.of_nat (length (t_rows td))) Hinv1 Hloch1) as (rg2&Eu2&Hinv2&_&Hloc2); [lia|].
    exists (put2 r i sa' d da' rg2 e). split.
    { unfold move_back. rewrite Ee. erewrite bind_Ret; [|done].
      erewrite bind_Ret; [|eapply with_arch_Ret; [by eapply put2_dst|exact Ewr]]. rewrite put2_put_dst.
      erewrite bind_Ret; [|eapply with_arch_Ret; [by eapply put2_src|exact Edec]]. rewrite put2_put_src by done.
      erewrite bind_Ret; [|apply update_entry_Ret; exact Eu1].
      rewrite iia_new_spec, decide_True by lia. cbn [unwrap]. rewrite bind_ret_l.
      erewrite bind_Ret; [|apply update_entry_Ret; exact Eu2]. done. }
    set (r' := put2 _ _ _ _ _ _ _).
    assert (Hent : exists en, entry_of c r' h = Some en /\ e_arch c en = d /\ e_row en = length (t_rows td)).
    { assert (El : loc_of be rg2 h = Some (d, length (t_rows td))) by (rewrite Hloc2, decide_True by done; by rewrite Nat2N.id).
      unfold loc_of in El. unfold entry_of, r', put2. cbn [r_er]. destruct (er_entity_entry be rg2 h) as [en|]; [|done]. cbn in El. injection El as X1 X2.
      exists en. done. }
    destruct Hent as (en&Een&Earch&Erow).
    assert (Hat : arch_at d r' = Rd da') by (apply arch_at_step; unfold r'; by eapply put2_dst).
    intros C HC. assert (Hhas : ad_has_component (a_desc ad) C = bool_decide (C ∈ t_cs td)).
    { apply eq_true_iff_eq. rewrite bool_decide_eq_true, has_component_spec; rewrite (do_comps _ _ Hdd), ids_cdesc_of; [|by eapply desc_strict].
      rewrite elem_of_ids. split; [|eauto]. intros (C'&HC'&E). assert (C' = C) as ->; [|done].
      apply (ids_inj U); [apply (U_nodup _ _ HU)|by apply (in_U_elem _ _ _ Hind)|done|done]. }
    split; [|split].
    - cbn [step]. erewrite bind_Ret; [|apply rm_rd_Rd]; [done|]. unfold has_component. rewrite Een, Earch, Hat. cbn [rbind]. unfold da'. cbn [a_desc mk]. by rewrite Hhas.
    - intros Hn. cbn [step]. erewrite bind_Ret; [|apply rm_rd_Rd]; [done|]. unfold get_component. rewrite Een, Earch, Hat. cbn [rbind]. unfold da'. cbn [a_desc mk].
      rewrite Hhas, bool_decide_eq_false_2 by done. done.
    - intros v HCt Hv Hfit. cbn [step]. erewrite bind_Ret; [|apply rm_rd_Rd]; [done|]. unfold get_component. rewrite Een, Earch, Hat. cbn [rbind].
      change (a_desc da') with (a_desc ad). rewrite Hhas, bool_decide_eq_true_2 by done. cbn [negb]. rewrite Erow.
      apply elem_of_list_lookup in HCt as [k Hk]. destruct (HP k C v Hk Hv) as (col&Hcol&Hcell).
      unfold get_component_unchecked, da'. rewrite (search_col (a_desc ad) (t_cs td) Hdd k C _ _ _ _ Hk). unfold typed_cell, raw_cell. cbn [a_ptrs mk].
      rewrite (colbs_lookup _ _ _ _ _ _ Hk Hcol). cbn [colb bl_cells]. rewrite Hcell. cbn [rbind].
      match goal with |- context [a_comps ?x !! k] => change (a_comps x) with (a_comps (mk (a_desc ad) (t_cs td) (a_cap da) (S (length (t_rows td))) Cs Hc)) end.
      rewrite (mk_comps_lookup (a_desc ad) (t_cs td) Hdd _ _ _ _ _ _ Hk), small_size by (by eapply cs_small). rewrite Hfit, !N.eqb_refl. done.
  Qed.
End moves.

Section more_calls.
  Context (c : cfg) (U : list ctype) (HU : plain U) (Hnt : NoDup (map ct_ty U)).
  Notation be := (big c).
  Lemma found_dst (Fm : family) r T w i t d td ad nd : @reg_ok Fm be U r T w -> T !! i = Some t -> T !! d = Some td ->
    ar_archs (r_ar r) !! d = Some ad -> @tab_ok Fm be U ad td -> ad_id nd = t_id td -> ad_len nd = length (t_cs td) -> length (t_cs t) <> length (t_cs td) ->
    find_dst i nd r = Ret (Some (i, d)) r /\ i <> d.
  Proof.
    intros H Ht Htd Had Htad Eid Elen Hl. destruct (tab_facts _ _ _ _ Htad) as (_&_&_&H14&Hla&Hnm). pose proof Htad as (Hida&_).
    assert (Hne : i <> d) by (intros ->; congruence). split; [|done].
    assert (Hd : is_arch (r_ar r) d nd). { exists ad. split; [done|]. split; congruence. }
    assert (Hv : ad_is_valid nd = true). { unfold ad_is_valid, aid_is_valid, AID_INVALID. rewrite Eid. by rewrite (proj2 (N.eqb_neq _ _) Hnm). }
    unfold find_dst. rewrite (bind_Ret _ _ _ _ _ (found_arch _ r nd d eq_refl (ro_areg _ _ _ _ _ H) ltac:(rewrite Elen; exact H14) Hv Hd)).
    rewrite rm_get_step, disjoint_mut_spec, decide_True; [done|].
    rewrite (ro_len _ _ _ _ _ H). split; [done|]. split; eapply lookup_lt_Some; eauto.
  Qed.
  Lemma add_clash r b C h v e s : @booked every c U r b -> C ∈ U -> fits C v -> bk_world b !! h = Some e -> en_vals e !! ct_id C = None ->
    size (en_vals e) <> 13 -> s ∈ bk_sheets b -> mistaken (place_of U (derived be U (<[ct_id C := v]> (en_vals e)))) s = true ->
    (N.of_nat (length (sh_ents s)) < 8388608)%N ->
    if bool_decide (C ∈ sh_types s) then
      exists r', step c (OpAdd C h v) r = Ret (OutAdd (Ok tt)) r' /\
        forall D, D ∈ U ->
          step c (OpHas D h) r' = Ret (OutBool (bool_decide (D ∈ sh_types s))) r' /\
          (D ∉ sh_types s -> step c (OpGet D h) r' = Ret (OutVal None) r') /\
          (forall u, D ∈ sh_types s -> <[ct_id C := v]> (en_vals e) !! ct_id D = Some u -> step c (OpGet D h) r' = Ret (OutVal (Some u)) r')
    else exists r', step c (OpAdd C h v) r = Panic r'.
  Proof.
    intros Hb HC Hfv Ew Hnone Hn13 Hs Hm Hroom.
    set (L := places (bk_sheets b)). assert (HU' : @universe (listed L) be U) by (apply universe_listed; [done|]; by eapply places_unambiguous).
    assert (Hb' : @booked (listed L) c U r b) by (apply (booked_family every); [done|by intros [x l] Hp]).
    destruct (sheet_tab c U _ _ _ _ Hb' Hs) as (T&d&td&ad&H&Htd&Had&Htad&Eid&Ecs&Ents). rewrite Ents, map_length in Hroom. rewrite Ecs in *.
    destruct (live_entry c U _ _ _ _ _ H Ew) as (en&i&j&t&m&a&Een&Ei&Ej&Hrow&Ht&Hj&->&Ha&Hta). cbn [en_vals] in *.
    destruct (tab_facts _ _ _ _ Hta) as (Hd&Hst&Hnd&H14&Hlen&_). destruct (tab_row _ _ HU' _ _ _ _ _ Hta Hj) as (Hfull&Hfit&Ety).
    destruct (tab_facts _ _ _ _ Htad) as (Hdd&_&_&H14d&_&_).
    destruct (tab_has c U HU' _ _ _ _ _ C Hta Hj HC) as [_ Ehas].
    pose proof (full_size _ _ Hnd Hfull) as Hsize.
    unfold mistaken, place_of in Hm. cbn [derived en_aid en_vals fst snd] in Hm.
    apply andb_true_iff in Hm as [[E1%N.eqb_eq E2%Nat.eqb_eq]%andb_true_iff _]. rewrite Eid in E1. rewrite Ecs, map_length in E2.
    assert (HnC' : cd_id (cdesc_of C) ∉ ids (ad_components (a_desc a))).
    { rewrite (do_comps _ _ Hd), ids_cdesc_of. cbn. intros Hx. apply Hfull in Hx as [? ?]. congruence. }
    assert (Hn14 : length (t_cs t) < 14).
    { assert (Hf1 : length (types U (<[ct_id C := v]> m)) = size (<[ct_id C := v]> m)).
      { symmetry. apply full_size; [apply strict_NoDup, (types_strict _ _ HU')|]. apply full_types. intros x [Hx|[_ Hx]]%lookup_insert_is_Some.
        - rewrite <- Hx. apply elem_of_ids. by exists C.
        - apply Hfull in Hx. apply elem_of_ids in Hx as (C'&HC'&<-). apply elem_of_ids. exists C'. split; [|done]. eapply in_U_elem; [apply Hta|done]. }
      rewrite map_size_insert_None in Hf1 by done. lia. }
    destruct (add_component_spec be (a_desc a) (cdesc_of C) (do_wf _ _ Hd)) as (nd&k&Eadd&_); [lia|done|].
    destruct (add_desc c U HU' _ _ _ _ _ _ v _ Hta Hj HC Eadd) as (cs'&Hwf&Hcomp&Hin'&Hp&Ety'&Hid&Hfull').
    pose proof (Permutation_length Hp) as Hlen'. cbn in Hlen'. rewrite Ety' in E1, E2. rewrite <- Hid in E1.
    assert (Hnl : ad_len nd = length cs') by (rewrite <- (ad_components_length _ Hwf), Hcomp; by rewrite map_length).
    destruct (found_dst _ _ _ _ i t d td ad nd H Ht Htd Had Htad) as [Ef Hne]; [congruence|congruence|lia|].
    assert (Hfind : find_or_create_archetype_adding_component c i (cdesc_of C) r = Ret (Some (i, d)) r).
    { unfold find_or_create_archetype_adding_component. rewrite rm_get_step, Ha.
      rewrite (proj2 (Nat.ltb_ge _ _)) by (apply Nat.lt_le_incl; by eapply lookup_lt_Some). rewrite Eadd. exact Ef. }
    assert (Hstep : add_component c C h v r =
      (let! (srow, drow) := dropping_on_panic [v] (move_front c j en i d (fun sa srow drow =>
              with_arch d (write_single_component_unchecked C drow v) ;;! ret (srow, drow))) in
       let! sa := rm_rd (arch_at i) in
       move_back c h i d sa srow drow (Ok tt)) r).
    { unfold add_component. rewrite rm_get_step, Een, Ei, Ej. erewrite bind_Ret; [|apply dop_Ret; exact Hfind]. done. }
    destruct (move_front_ok c U HU' r T _ H i d j Hne t td Ht a ad Ha Had Hta Htad h m Hj en Hrow Hroom
      (fun sa srow drow => with_arch d (write_single_component_unchecked C drow v) ;;! ret (srow, drow)))
      as (sa&da&rg&e1&P&Hmv&HP&Efront).
    pose proof Htad as (_&Hokd&Hind&_). case_bool_decide as HCd.
    - destruct (write_single_ok (a_desc ad) (t_cs td) (proj1 Hokd) C da (t_rows td) P v e1 (mv_ddesc _ _ _ _ _ _ _ _ _ _ _ _ _ Hmv)
         (mv_dhalf _ _ _ _ _ _ _ _ _ _ _ _ _ Hmv) HCd) as (da'&Ews&Edd&Ecd&Hh').
      assert (Hmv' : moving c r i j t td a ad sa da' rg e1 (<[ct_id C := v]> P)).
      { destruct Hmv as [A1 A2 A3 A4 A5 A6 A7 A8]. split; try done. by rewrite Ecd. }
      destruct (move_back_half c U HU' r T _ H i d j Hne t td Ht Htd a ad Ha Had Hta Htad h m Hj Hroom sa da' rg e1 _ (Ok tt : result unit value) Hmv')
        as (r2&Eback&Hobs).
      exists r2. split.
      + cbn [step]. erewrite bind_Ret; [done|]. rewrite Hstep.
        erewrite bind_Ret.
        2: { apply dop_Ret. rewrite Efront. erewrite bind_Ret; [|eapply with_arch_Ret; [by eapply put2_dst|exact Ews]]. done. }
        cbn beta iota. rewrite put2_put_dst. erewrite bind_Ret; [|apply arch_at_Rd; by eapply put2_src].
        exact Eback.
      + intros D HD. destruct (Hobs D HD) as (O1&O2&O3). split; [done|]. split; [done|]. intros u HDt Hu. apply O3; [done| |].
        * apply lookup_insert_Some in Hu as [[E <-]|[Hne' Hu]]; [by rewrite E, lookup_insert|].
          rewrite lookup_insert_ne by done. rewrite HP; [done| |apply elem_of_ids; eauto]. apply Hfull. by exists u.
        * apply lookup_insert_Some in Hu as [[E <-]|[Hne' Hu]].
          -- assert (D = C) as ->; [|done]. by apply (id_inj U HU).
          -- assert (HDi : ct_id D ∈ ids_of (t_cs t)) by (apply Hfull; by exists u). apply elem_of_ids in HDi as (D'&HD'&E).
             assert (D' = D) as ->. { apply (id_inj U HU); [|done|done]. eapply in_U_elem; [apply Hta|done]. }
             by apply Hfit.
    - cbn [step]. unfold bind at 1. rewrite Hstep. unfold bind at 1. unfold dropping_on_panic. rewrite Efront. unfold bind at 1, with_arch.
      erewrite put2_dst by done. unfold write_single_component_unchecked. unfold bind at 1, am_get at 1. cbn [fst].
      pose proof (half_comps (a_desc ad) (t_cs td) (proj1 Hokd) da _ P (mv_ddesc _ _ _ _ _ _ _ _ _ _ _ _ _ Hmv) (mv_dhalf _ _ _ _ _ _ _ _ _ _ _ _ _ Hmv)) as Ecomp.
      assert (Hbs : exists q, binary_search (map cd_id (a_comps da)) (ct_id C) = inr q).
      { destruct (binary_search (map cd_id (a_comps da)) (ct_id C)) as [q|q] eqn:Eq; [|by exists q]. exfalso. apply HCd.
        apply binary_search_inl in Eq; [|rewrite Ecomp; change (strict (ids (map cdesc_of (t_cs td)))); rewrite ids_cdesc_of; by eapply desc_strict, Hdd].
        apply elem_of_list_lookup_2 in Eq. rewrite Ecomp in Eq. change (ct_id C ∈ ids (map cdesc_of (t_cs td))) in Eq. rewrite ids_cdesc_of in Eq.
        apply elem_of_ids in Eq as (C'&HC'&E). assert (C' = C) as ->; [|done]. apply (id_inj U HU); [by eapply in_U_elem|done|done]. }
      destruct Hbs as [q ->]. by eexists.
  Qed.
  Lemma remove_clash r b C h v e s : @booked every c U r b -> C ∈ U -> bk_world b !! h = Some e -> en_vals e !! ct_id C = Some v ->
    size (en_vals e) <> 14 -> s ∈ bk_sheets b -> mistaken (place_of U (derived be U (delete (ct_id C) (en_vals e)))) s = true ->
    (N.of_nat (length (sh_ents s)) < 8388608)%N ->
    exists r', step c (OpRemove C h) r = Ret (OutRemove (Ok v)) r' /\
      forall D, D ∈ U ->
        step c (OpHas D h) r' = Ret (OutBool (bool_decide (D ∈ sh_types s))) r' /\
        (D ∉ sh_types s -> step c (OpGet D h) r' = Ret (OutVal None) r') /\
        (forall u, D ∈ sh_types s -> en_vals e !! ct_id D = Some u -> step c (OpGet D h) r' = Ret (OutVal (Some u)) r').
  Proof.
    intros Hb HC Ew Hsome Hn14 Hs Hm Hroom.
    set (L := places (bk_sheets b)). assert (HU' : @universe (listed L) be U) by (apply universe_listed; [done|]; by eapply places_unambiguous).
    assert (Hb' : @booked (listed L) c U r b) by (apply (booked_family every); [done|by intros [x l] Hp]).
    destruct (sheet_tab c U _ _ _ _ Hb' Hs) as (T&d&td&ad&H&Htd&Had&Htad&Eid&Ecs&Ents). rewrite Ents, map_length in Hroom. rewrite Ecs in *.
    destruct (live_entry c U _ _ _ _ _ H Ew) as (en&i&j&t&m&a&Een&Ei&Ej&Hrow&Ht&Hj&->&Ha&Hta). cbn [en_vals] in *.
    destruct (tab_facts _ _ _ _ Hta) as (Hd&Hst&Hnd&H14&Hlen&_). destruct (tab_row _ _ HU' _ _ _ _ _ Hta Hj) as (Hfull&Hfit&Ety).
    destruct (tab_facts _ _ _ _ Htad) as (Hdd&_&_&H14d&_&_).
    destruct (tab_has c U HU' _ _ _ _ _ C Hta Hj HC) as [_ Ehas]. assert (HCt : C ∈ t_cs t) by (apply Ehas; eauto).
    pose proof (full_size _ _ Hnd Hfull) as Hsize.
    unfold mistaken, place_of in Hm. cbn [derived en_aid en_vals fst snd] in Hm.
    apply andb_true_iff in Hm as [[E1%N.eqb_eq E2%Nat.eqb_eq]%andb_true_iff _]. rewrite Eid in E1. rewrite Ecs, map_length in E2.
    assert (HCin : ct_id C ∈ ids (ad_components (a_desc a))).
    { rewrite (do_comps _ _ Hd), ids_cdesc_of. apply Hfull. eauto. }
    assert (Hsz0 : length (types U (delete (ct_id C) m)) = size (delete (ct_id C) m)).
    { symmetry. apply full_size; [apply strict_NoDup, (types_strict _ _ HU')|]. apply full_types. intros x [_ Hx]%lookup_delete_is_Some.
      apply Hfull in Hx. apply elem_of_ids in Hx as (C'&HC'&<-). apply elem_of_ids. exists C'. split; [|done]. eapply in_U_elem; [apply Hta|done]. }
    rewrite map_size_delete, Hsome in Hsz0.
    destruct (remove_component_spec be (a_desc a) (ct_id C) (do_wf _ _ Hd)) as (nd&k&Erem&_); [lia|done|].
    destruct (remove_desc c U HU' _ _ _ _ _ _ _ Hta Hj HC Erem) as (cs'&Hwf&Hcomp&Hin'&Hp&Ety'&Hid&Hfull').
    pose proof (Permutation_length Hp) as Hlen'. cbn in Hlen'. rewrite Ety' in E1, E2. rewrite <- Hid in E1.
    assert (Hnl : ad_len nd = length cs') by (rewrite <- (ad_components_length _ Hwf), Hcomp; by rewrite map_length).
    destruct (found_dst _ _ _ _ i t d td ad nd H Ht Htd Had Htad) as [Ef Hne]; [congruence|congruence|lia|].
    assert (Hfind : find_or_create_archetype_removing_component c i (cdesc_of C) r = Ret (Some (i, d)) r).
    { unfold find_or_create_archetype_removing_component. rewrite rm_get_step, Ha.
      rewrite (proj2 (Nat.ltb_ge _ _)) by (apply Nat.lt_le_incl; by eapply lookup_lt_Some). cbn [cdesc_of cd_id]. rewrite Erem. exact Ef. }
    assert (Hstep : remove_component c C h r =
      move_front c j en i d (fun sa srow drow =>
        let! v := lift_rd (read_component_unchecked C srow sa) in
        dropping_on_panic [v] (move_back c h i d sa srow drow (Ok v : result value unit))) r).
    { unfold remove_component. rewrite rm_get_step, Een, Ei, Ej. erewrite bind_Ret; [|exact Hfind]. done. }
    destruct (move_front_ok c U HU' r T _ H i d j Hne t td Ht a ad Ha Had Hta Htad h m Hj en Hrow Hroom
      (fun sa srow drow => let! v := lift_rd (read_component_unchecked C srow sa) in
        dropping_on_panic [v] (move_back c h i d sa srow drow (Ok v : result value unit))))
      as (sa&da&rg&e1&P&Hmv&HP&Efront).
    destruct (move_back_half c U HU' r T _ H i d j Hne t td Ht Htd a ad Ha Had Hta Htad h m Hj Hroom sa da rg e1 _ (Ok v : result value unit) Hmv)
      as (r2&Eback&Hobs).
    exists r2. split.
    - cbn [step]. erewrite bind_Ret; [done|]. rewrite Hstep, Efront. pose proof Hmv as [A1 A2 A3 A4 A5 A6 A7 A8].
      pose proof (proj1 A3) as Hds1. rewrite A1 in Hds1.
      destruct (get_component_ok (a_desc a) (t_cs t) Hds1 sa _ _ _ _ C v A1 A3 (moving_last _ _ _ _ Hj) HCt Hsome) as (_&Erd&_).
      rewrite Erd. erewrite bind_Ret; [|done]. by rewrite (dop_Ret _ _ _ _ _ Eback).
    - intros D HD. destruct (Hobs D HD) as (O1&O2&O3). split; [done|]. split; [done|]. intros u HDt Hu.
      assert (HDi : ct_id D ∈ ids_of (t_cs t)) by (apply Hfull; by exists u). apply O3; [done| |].
      + rewrite HP; [done|done|apply elem_of_ids; eauto].
      + apply elem_of_ids in HDi as (D'&HD'&E).
        assert (D' = D) as ->. { apply (id_inj U HU); [|done|done]. eapply in_U_elem; [apply Hta|done]. }
        by apply Hfit.
  Qed.
End more_calls.

(** ** In programs *)
Lemma follow_clash (d be : bool) U ops b0 l b o : follow d be U ops b0 = (l, Clash b o) ->
  exists ops1 ops2, ops = ops1 ++ o :: ops2 /\ follow d be U ops1 b0 = (l, Ends (Completes b)) /\ clashes be U b o = true.
Proof.
  revert b0 l. induction ops as [|o' ops IH]; intros b0 l; cbn [follow]; [done|].
  destruct (clashes be U b0 o') eqn:Hc; [intros [= <- <- <-]; by exists [], ops|].
  destruct (bursts be U b0 o') eqn:Hbu; [by destruct o', d|].
  destruct (outcome d be U b0 o') as [out b1|b1|] eqn:Eo; [| |done]; destruct (follow d be U ops b1) as [l1 e1] eqn:Ef; intros [= <- ->].
  - destruct (IH _ _ Ef) as (ops1&ops2&->&E1&E2). exists (o' :: ops1), ops2. split; [done|]. split; [|done]. cbn [follow]. by rewrite Hc, Hbu, Eo, E1.
  - destruct (IH _ _ Ef) as (ops1&ops2&->&E1&E2). exists (o' :: ops1), ops2. split; [done|]. split; [|done]. cbn [follow]. by rewrite Hc, Hbu, Eo, E1.
Qed.
Lemma clash_found be U b o : clashes be U b o = true -> exists p s, seeks be U b o = Some p /\ s ∈ bk_sheets b /\ mistaken p s = true.
Proof.
  unfold clashes. destruct (seeks be U b o) as [p|]; [|done]. intros (s&Hs&Hm)%existsb_exists. exists p, s. split; [done|]. split; [|done]. by apply elem_of_list_In.
Qed.
Section programs.
  Context (c : cfg) (U : list ctype) (HU : plain U) (Hnt : NoDup (map ct_ty U)).
  Notation be := (big c).
  Context (ops : list op) (l : list (option output)) (b : book).
  Context (Hfair : fair_all (dbg c) be U ops book_empty) (Hrun : follow (dbg c) be U ops book_empty = (l, Ends (Completes b))).
  Lemma so_far : exists r, attempt c ops reg_default = (l, Some r) /\ @booked every c U r b.
  Proof.
    pose proof (followed c U HU Hnt ops Hfair) as Hm. unfold met in Hm. rewrite Hrun in Hm. cbn [fst snd] in Hm. destruct Hm as (E1&r&E2&Hb).
    exists r. split; [|done]. destruct (attempt c ops reg_default). cbn in *. congruence.
  Qed.
  Lemma clash_create G vs s h : in_U U G -> Forall2 fits G vs -> valid be U G = true ->
    s ∈ bk_sheets b -> mistaken (place_of U (created be U G vs)) s = true -> (N.of_nat (length (sh_ents s)) < 8388608)%N -> next_handle b = Some h ->
    map ct_size (sorted U G) = map ct_size (sh_types s) -> forall C, C ∈ U ->
    (attempt c (ops ++ [OpCreate G vs; OpHas C h]) reg_default).1 = l ++ [Some (OutCreate (Ok h)); Some (OutBool (bool_decide (C ∈ sh_types s)))] /\
    (C ∉ sh_types s -> (attempt c (ops ++ [OpCreate G vs; OpGet C h]) reg_default).1 = l ++ [Some (OutCreate (Ok h)); Some (OutVal None)]) /\
    (forall k, sh_types s !! k = Some C -> sorted U G !! k = Some C ->
      (attempt c (ops ++ [OpCreate G vs; OpGet C h]) reg_default).1 = l ++ [Some (OutCreate (Ok h)); Some (OutVal (vmap G vs !! ct_id C))]) /\
    (forall k, sh_types s !! k = Some C -> sorted U G !! k <> Some C ->
      attempt c (ops ++ [OpCreate G vs; OpGet C h]) reg_default = (l ++ [Some (OutCreate (Ok h))], None)).
  Proof.
    intros HG HF Hval Hs Hm Hroom Hnext Hsz C HC. destruct so_far as (r&Er&Hb).
    destruct (create_wrong c U HU Hnt r b G vs s h Hb HG HF Hval Hs Hm Hroom Hnext Hsz) as (r'&E1&Hobs). destruct (Hobs C HC) as (O1&O2&O3).
    rewrite !(attempt_app c ops _ _ r l Er). cbn [attempt]. rewrite E1, O1. cbn [fst snd]. split; [done|]. split; [|split].
    - intros Hn. by rewrite (O2 Hn).
    - intros k Hk1 Hk2. specialize (O3 k Hk1). destruct (decide (sorted U G !! k = Some C)); [|done]. by rewrite O3.
    - intros k Hk1 Hk2. specialize (O3 k Hk1). destruct (decide (sorted U G !! k = Some C)); [done|]. by rewrite O3.
  Qed.
  Lemma sheet_types s : s ∈ bk_sheets b -> forall C, C ∈ sh_types s -> C ∈ U.
  Proof.
    intros Hs C HC. destruct so_far as (r&_&Hb). destruct (sheet_tab c U _ _ _ _ Hb Hs) as (T&i&t&a&_&_&_&Hta&_&Ecs&_). rewrite Ecs in HC.
    eapply in_U_elem; [apply Hta|done].
  Qed.
  (** There is always a component that cannot be read. *)
  Lemma clash_create_undefined G vs s h : in_U U G -> Forall2 fits G vs -> valid be U G = true ->
    s ∈ bk_sheets b -> mistaken (place_of U (created be U G vs)) s = true -> (N.of_nat (length (sh_ents s)) < 8388608)%N -> next_handle b = Some h ->
    map ct_size (sorted U G) = map ct_size (sh_types s) ->
    exists C, C ∈ sh_types s /\ attempt c (ops ++ [OpCreate G vs; OpGet C h]) reg_default = (l ++ [Some (OutCreate (Ok h))], None).
  Proof.
    intros HG HF Hval Hs Hm Hroom Hnext Hsz.
    assert (Hne : sorted U G <> sh_types s).
    { intros E. unfold mistaken in Hm. apply andb_true_iff in Hm as [_ Hm]. apply negb_true_iff, bool_decide_eq_false in Hm. apply Hm.
      rewrite <- E. cbn [place_of fst snd created en_vals]. rewrite sorted_vmap; [done|]. symmetry. by eapply Forall2_length. }
    assert (Hlen : length (sorted U G) = length (sh_types s)) by (apply (f_equal length) in Hsz; by rewrite !map_length in Hsz).
    assert (exists k C, sh_types s !! k = Some C /\ sorted U G !! k <> Some C) as (k&C&Hk&Hk').
    { revert Hne Hlen. generalize (sorted U G) (sh_types s). clear. intros q. induction q as [|x q IH]; intros [|y l']; [done|done|done|]. intros Hne Hlen.
      destruct (decide (x = y)) as [->|Hxy].
      - destruct (IH l') as (k&C&H1&H2); [congruence|cbn in Hlen; lia|]. by exists (S k), C.
      - exists 0, y. split; [done|]. cbn. congruence. }
    exists C. assert (HCs : C ∈ sh_types s) by (by eapply elem_of_list_lookup_2). split; [done|].
    destruct (clash_create G vs s h HG HF Hval Hs Hm Hroom Hnext Hsz C (sheet_types s Hs C HCs)) as (_&_&_&Hub). by eapply Hub.
  Qed.
  Lemma clash_exact G s upd o : in_U U G -> valid be U G = true -> s ∈ bk_sheets b -> mistaken (exact_place be U G) s = true ->
    o ∈ [OpExact G; OpExactE G; OpExactMut G upd; OpExactEMut G upd] ->
    attempt c (ops ++ [o]) reg_default =
      match sh_ents s with
      | [] => (l ++ [Some (match o with OpExact _ | OpExactMut _ _ => OutCols [map (fun _ => []) G] | _ => OutECols [([], map (fun _ => []) G)] end)],
               (attempt c ops reg_default).2)
      | _ => (l, None)
      end.
  Proof.
    intros HG Hval Hs Hm Ho. destruct so_far as (r&Er&Hb). rewrite (attempt_app c ops _ _ r l Er), Er. cbn [snd].
    pose proof (exact_clash c U HU Hnt r b G s upd o Hb HG Hval Hs Hm Ho) as E. destruct (sh_ents s); cbn [attempt]; rewrite E; [done|]. cbn [fst snd]. by rewrite app_nil_r.
  Qed.
  Lemma clash_add C h v e s : C ∈ U -> fits C v -> bk_world b !! h = Some e -> en_vals e !! ct_id C = None ->
    size (en_vals e) <> 13 -> s ∈ bk_sheets b -> mistaken (place_of U (derived be U (<[ct_id C := v]> (en_vals e)))) s = true ->
    (N.of_nat (length (sh_ents s)) < 8388608)%N ->
    if bool_decide (C ∈ sh_types s) then
      forall D, D ∈ U ->
        (attempt c (ops ++ [OpAdd C h v; OpHas D h]) reg_default).1 = l ++ [Some (OutAdd (Ok tt)); Some (OutBool (bool_decide (D ∈ sh_types s)))] /\
        (D ∉ sh_types s -> (attempt c (ops ++ [OpAdd C h v; OpGet D h]) reg_default).1 = l ++ [Some (OutAdd (Ok tt)); Some (OutVal None)]) /\
        (forall u, D ∈ sh_types s -> <[ct_id C := v]> (en_vals e) !! ct_id D = Some u ->
          (attempt c (ops ++ [OpAdd C h v; OpGet D h]) reg_default).1 = l ++ [Some (OutAdd (Ok tt)); Some (OutVal (Some u))])
    else (attempt c (ops ++ [OpAdd C h v]) reg_default).1 = l ++ [None].
  Proof.
    intros HC Hf Ew Hn Hn13 Hs Hm Hroom. destruct so_far as (r&Er&Hb).
    pose proof (add_clash c U HU r b C h v e s Hb HC Hf Ew Hn Hn13 Hs Hm Hroom) as E. case_bool_decide as HCs.
    - destruct E as (r'&E1&Hobs). intros D HD. destruct (Hobs D HD) as (O1&O2&O3). rewrite !(attempt_app c ops _ _ r l Er). cbn [attempt]. rewrite E1, O1. cbn [fst snd].
      split; [done|]. split; [intros HDn; by rewrite (O2 HDn)|]. intros u HDs Hu. by rewrite (O3 u HDs Hu).
    - destruct E as (r'&E1). rewrite (attempt_app c ops _ _ r l Er). cbn [attempt]. by rewrite E1.
  Qed.
  Lemma clash_remove C h v e s : C ∈ U -> bk_world b !! h = Some e -> en_vals e !! ct_id C = Some v ->
    size (en_vals e) <> 14 -> s ∈ bk_sheets b -> mistaken (place_of U (derived be U (delete (ct_id C) (en_vals e)))) s = true ->
    (N.of_nat (length (sh_ents s)) < 8388608)%N -> forall D, D ∈ U ->
      (attempt c (ops ++ [OpRemove C h; OpHas D h]) reg_default).1 = l ++ [Some (OutRemove (Ok v)); Some (OutBool (bool_decide (D ∈ sh_types s)))] /\
      (D ∉ sh_types s -> (attempt c (ops ++ [OpRemove C h; OpGet D h]) reg_default).1 = l ++ [Some (OutRemove (Ok v)); Some (OutVal None)]) /\
      (forall u, D ∈ sh_types s -> en_vals e !! ct_id D = Some u ->
        (attempt c (ops ++ [OpRemove C h; OpGet D h]) reg_default).1 = l ++ [Some (OutRemove (Ok v)); Some (OutVal (Some u))]).
  Proof.
    intros HC Ew Hv Hn14 Hs Hm Hroom D HD. destruct so_far as (r&Er&Hb).
    destruct (remove_clash c U HU r b C h v e s Hb HC Ew Hv Hn14 Hs Hm Hroom) as (r'&E1&Hobs).
    destruct (Hobs D HD) as (O1&O2&O3). rewrite !(attempt_app c ops _ _ r l Er). cbn [attempt]. rewrite E1, O1. cbn [fst snd].
    split; [done|]. split; [intros HDn; by rewrite (O2 HDn)|]. intros u HDs Hu. by rewrite (O3 u HDs Hu).
  Qed.
End programs.

(** Without a clash, this is the prediction of C65. *)
Lemma follow_foresee (d be : bool) U ops b l f : follow d be U ops b = (l, Ends f) -> foresee d be U ops b = (l, f).
Proof.
  revert b l. induction ops as [|o ops IH]; intros b l; cbn [follow foresee]; [by intros [= <- <-]|].
  destruct (clashes be U b o); [done|]. destruct (bursts be U b o); [destruct o, d; by intros [= <- <-]|].
  destruct (outcome d be U b o) as [out b1|b1|]; [| |by intros [= <- <-]]; destruct (follow d be U ops b1) as [l1 e1] eqn:Ef; intros [= <- ->]; by rewrite (IH _ _ Ef).
Qed.
Section checks.
  Context (c : cfg) (U : list ctype).
  Fixpoint fair_allb (ops : list op) (b : book) : bool :=
    match ops with
    | [] => true
    | o :: ops' => @lawfulb every every_check c U (bk_world b) o &&
        match outcome (dbg c) (big c) U b o with Returns _ b1 | Panics b1 => fair_allb ops' b1 | Undefined => true end
    end.
  Lemma fair_allb_ok ops b : fair_allb ops b = true -> fair_all (dbg c) (big c) U ops b.
  Proof.
    revert b. induction ops as [|o ops IH]; intros b H; cbn [fair_all fair_allb] in *; [done|]. apply andb_true_iff in H as [H1 H2].
    split. { apply lawfulb_ok in H1. destruct o; try exact H1.
      - destruct H1 as (?&?&Hl). split; [done|]. split; [done|]. intros Hv. exact (proj1 (Hl Hv)).
      - destruct H1 as (?&?&Hl). split; [done|]. split; [done|]. intros e He Hn. exact (proj1 (Hl e He Hn)).
      - destruct H1 as (?&Hl). split; [done|]. intros e He Hn. exact (proj1 (Hl e He Hn)). }
    intros _ _. destruct (outcome (dbg c) (big c) U b o); [by apply IH..|done].
  Qed.
End checks.
