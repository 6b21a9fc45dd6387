(** Every call, within the contract or not, does what SpecTotal.v says (C57). *)
From Verif Require Import RegModel Instances SpecTrace SpecEntity EntityProofs EntityTable SearchProofs DescrProofs MonadProofs ArchProofs ArchOps ArchOps2 ArchOps3 AregProofs IterProofs RegProofs RegOps RegOps2 RegOps3 RegIter RegMut RegExact Refine SpecObs SpecClient Observe Sizes Clients Faults Faults2 Ref Events Events2 SpecBase SpecWorld SpecRef SpecEvents SpecTotal.
Local Open Scope nat_scope.

Lemma mapM_const (m : gmap N value) x v (G : group) : (forall C, C ∈ G -> ct_id C = x) -> m !! x = Some v ->
  mapM (fun C => m !! ct_id C) G = Some (map (fun _ => v) G).
Proof.
  intros H E. induction G as [|C G IH]; [done|]. cbn [mapM map]. rewrite (H C (elem_of_list_here _ _)), E. cbn [mbind option_bind].
  rewrite IH; [done|]. intros; apply H. by right.
Qed.
Lemma mapM_tuple (m : gmap N value) (G : group) vs : tuple_of m G vs -> mapM (fun C => m !! ct_id C) G = Some vs.
Proof. intros H. apply mapM_Some. exact H. Qed.
Lemma growths_same caps S : growths caps S S = [].
Proof.
  revert caps. induction S as [|s S IH]; intros [|n caps]; [done..|]. cbn [growths]. rewrite IH, app_nil_r. unfold outgrows.
  destruct (Nat.eqb_spec (length (sh_ents s)) n); [|done]. cbn [andb]. destruct (Nat.ltb_spec n (length (sh_ents s))); [lia|done].
Qed.
Lemma new_caps_same caps S : length caps = length S -> new_caps caps S S = caps.
Proof.
  revert caps. induction S as [|s S IH]; intros [|n caps] Hl; try done. cbn [new_caps]. rewrite IH by (cbn in Hl; lia). f_equal. unfold outgrows.
  destruct (Nat.eqb_spec (length (sh_ents s)) n); [|done]. cbn [andb]. destruct (Nat.ltb_spec n (length (sh_ents s))); [lia|done].
Qed.

Section main.
  Context {Fm : family} (c : cfg) (U : list ctype) (HU : universe (big c) U) (Hnt : NoDup (map ct_ty U)).
  Notation be := (big c).
  Lemma sorted_vmap G vs : length vs = length G -> types U (vmap G vs) = sorted U G.
  Proof.
    intros Hl. unfold types, sorted. apply list_filter_iff. intros C. unfold vmap. rewrite <- elem_of_dom, dom_list_to_map_L, elem_of_list_to_set, fst_zip; [done|].
    change (map ct_id G) with (ct_id <$> G). rewrite fmap_length. lia.
  Qed.
  Lemma valid_iff G : in_U U G -> valid be U G = true <-> gvalid be G.
  Proof.
    intros HG. set (vs := map (fun _ => Value 0 0 false) G).
    rewrite <- (valid_tuple_iff c U HU G vs HG) by (unfold vs; by rewrite map_length).
    unfold valid. cbn [created en_aid]. rewrite sorted_vmap by (unfold vs; by rewrite map_length). done.
  Qed.
  (** *** One call *)
  Definition vlog (b : book) (caps : list nat) (o : op) (v : verdict) : list event * list nat :=
    match v with
    | Returns _ b' =>
        (match o with OpDestroy h => drop_one U (bk_world b) h | _ => [] end ++
         concat (map (obtain 128) (drop (length (bk_sheets b)) (bk_sheets b'))) ++ growths caps (bk_sheets b) (bk_sheets b'),
         new_caps caps (bk_sheets b) (bk_sheets b'))
    | Panics _ => (match o with OpAdd _ _ v => [EvDrop v] | _ => [] end, caps)
    | Undefined => ([], caps)
    end.
  Lemma verdict_vlog b caps o : verdict_log (dbg c) be U b caps o = vlog b caps o (outcome (dbg c) be U b o).
  Proof. done. Qed.
  Definition tracks (r : reg) (b : book) (o : op) (v : verdict) (r' : reg) (b' : book) : Prop :=
    booked c U r' b' /\ r_env r' = emitted (r_env r) (vlog b (map pk (rpf r)) o v).1 /\ map pk (rpf r') = (vlog b (map pk (rpf r)) o v).2.
  Definition good (r : reg) (b : book) (o : op) (v : verdict) : Prop :=
    match v with
    | Returns out b' => exists r', step c o r = Ret out r' /\ tracks r b o v r' b'
    | Panics b' => exists r', step c o r = Panic r' /\ tracks r b o v r' b'
    | Undefined => step c o r = UB
    end.
  Lemma caps_sheets r b : booked c U r b -> length (map pk (rpf r)) = length (bk_sheets b).
  Proof. intros H. destruct (booked_fits c U _ _ H) as (HS&_). rewrite map_length. symmetry. by eapply Forall2_length. Qed.
  Lemma good_usual r b o : booked c U r b -> contract be U (bk_world b) o -> good r b o (answer (ref be U b o)).
  Proof.
    intros Hb Hc. destruct (step_exact c U HU o r b Hb Hc) as (r'&E&Hb'&He&Hk). exists r'. split; [done|]. split; [done|]. split; [exact He|exact Hk].
  Qed.
  Lemma tracks_same r b o out : booked c U r b -> (forall h, o <> OpDestroy h) -> tracks r b o (Returns out b) r b.
  Proof.
    intros Hb Ho. split; [done|]. cbn [vlog fst snd]. rewrite growths_same, new_caps_same by (by apply caps_sheets). split; [|done].
    assert (match o with OpDestroy h => drop_one U (bk_world b) h | _ => [] end = []) as -> by (destruct o; try done; by destruct (Ho h)).
    rewrite list.drop_all. cbn [map concat app]. by rewrite emitted_nil.
  Qed.
  Lemma good_same r b o out : booked c U r b -> (forall h, o <> OpDestroy h) -> step c o r = Ret out r -> good r b o (Returns out b).
  Proof. intros Hb Ho E. exists r. split; [done|]. by apply tracks_same. Qed.
  Lemma good_panic r b o : booked c U r b -> (forall C h v, o <> OpAdd C h v) -> step c o r = Panic r -> good r b o (Panics b).
  Proof.
    intros Hb Ho E. exists r. split; [done|]. split; [done|]. cbn [vlog fst snd]. split; [|done].
    assert (match o with OpAdd _ _ v => [EvDrop v] | _ => [] end = []) as -> by (destruct o; try done; by destruct (Ho C h v)). by rewrite emitted_nil.
  Qed.
  (** Taking an entity out, whatever the tuple type. *)
  Lemma good_leave r b G h vs T' r' : booked c U r b -> is_Some (bk_world b !! h) -> values_of (bk_world b) h G = Some vs ->
    remove_entity c G h r = Ret (Some vs) r' -> reg_ok be U r' T' (delete h (bk_world b)) -> skel T' = take_out h (bk_sheets b) ->
    good r b (OpRemoveEntity G h) (answer (ref be U b (OpRemoveEntity G h))).
  Proof.
    intros Hb [e Ew] Hvs E H' Hsk.
    assert (Es : step c (OpRemoveEntity G h) r = Ret (OutVals (Some vs)) r') by (cbn [step]; by rewrite (bind_Ret _ _ _ _ _ E)).
    destruct (table_step c U r b _ _ _ Hb Es) as (Hinv'&F'&HF'&HV'&->). cbn [ref]. rewrite Ew, Hvs. unfold leave, answer. cbn [fst snd ledger].
    set (b' := Book _ _ _ _). assert (Hb' : booked c U r' b').
    { split; [|done|done|done]. exists T'. done. }
    exists r'. split; [done|]. split; [done|].
    destruct (remove_entity_log c G h r (Some vs) r' E) as (new&K&_&Hg&Ee).
    destruct (booked_fits c U _ _ Hb) as (HS&_). destruct (booked_fits c U _ _ Hb') as (HS'&_).
    destruct (gains_log _ _ _ _ _ _ HS HS' Hg) as (->&E2&E3). cbn [vlog fst snd]. rewrite Ee, E2, E3. done.
  Qed.
  Lemma good_remove_entity r b G h : booked c U r b -> typed U G ->
    good r b (OpRemoveEntity G h) (outcome (dbg c) be U b (OpRemoveEntity G h)).
  Proof.
    intros Hb [HG HGn]. cbn [outcome]. destruct (bk_world b !! h) as [e|] eqn:Ew.
    2: { apply good_usual; [done|]. split; [done|]. intros e. by rewrite Ew. }
    pose proof Hb as [(T&H&HS) _ _ _]. unfold reads. destruct (valid be U G) eqn:Hv.
    - apply (valid_iff G HG) in Hv. destruct (gspec_valid c G Hv) as [s Hg]. unfold sorted. rewrite (tuple_types c U HU G s Hg HG).
      destruct (bool_decide_reflect (s `prefix_of` types U (en_vals e))) as [Hp|Hp].
      + destruct (remove_prefix c U HU r T _ G s h e H Ew HG Hg Hp) as (vs&r'&T'&E&Htup&H'&_&Hsk). rewrite HS in Hsk.
        eapply good_leave; try eassumption; [by eauto|]. unfold values_of. rewrite Ew. cbn [mbind option_bind]. by apply mapM_tuple.
      + cbn [good step]. unfold bind. by rewrite (remove_other_ub c U HU r T _ G s h e H Ew HG Hg Hnt Hp).
    - assert (Hv' : gd_is_valid (group_desc be G) = false).
      { apply not_gvalid. intros Hx. apply (valid_iff G HG) in Hx. congruence. }
      destruct (invalid_remove c U HU r T _ G h e H Ew HG HGn Hv' Hnt) as (C0&v0&Hhd&Hv0&H1&H2). rewrite Hhd.
      destruct (forallb _ G) eqn:Hall.
      + assert (Hall' : forall C, C ∈ G -> C = C0).
        { intros C HC%elem_of_list_In. rewrite forallb_forall in Hall. apply Hall, bool_decide_eq_true in HC. congruence. }
        destruct (H1 Hall') as (r'&T'&E&H'&_&Hsk). rewrite HS in Hsk. eapply good_leave; try eassumption; [by eauto|].
        unfold values_of. rewrite Ew. cbn [mbind option_bind]. eapply mapM_const; [|exact Hv0]. intros C HC. by rewrite (Hall' C HC).
      + cbn [good step]. unfold bind. rewrite H2; [done|].
        assert (~ Forall (fun C => C = C0) G) as Hn.
        { intros HF. rewrite Forall_forall in HF. apply not_true_iff_false in Hall. apply Hall, forallb_forall. intros C HC%elem_of_list_In.
          apply bool_decide_eq_true. by rewrite (HF C HC). }
        apply not_Forall_Exists in Hn; [|intros ?; apply _]. apply Exists_exists in Hn as (C&HC&Hne). by exists C.
  Qed.
  Lemma outcome_step r b o : booked c U r b -> lawful be U (bk_world b) o -> good r b o (outcome (dbg c) be U b o).
  Proof.
    intros Hb Hc. pose proof Hb as [(T&H&HS) _ _ _].
    assert (Hdead : forall h, bk_world b !! h = None -> ~ alive c r h).
    { intros h Ew Ha. rewrite (obs_alive c U _ _ _ _ H), Ew in Ha. by destruct Ha. }
    assert (Hinv : forall G, in_U U G -> valid be U G = false -> gd_is_valid (group_desc be G) = false).
    { intros G HG Hv. apply not_gvalid. intros Hx. apply (valid_iff G HG) in Hx. congruence. }
    assert (Hcol : forall G o, in_U U G -> o ∈ [OpIter G] \/ (exists f, o = OpIterF G f) \/ (exists u, o = OpIterMut G u) \/ (exists f u, o = OpIterFMut G f u) ->
      valid be U G = false -> good r b o (if dbg c then Panics b else Returns (OutCols []) b)).
    { intros G o' HG Ho Hv. destruct (invalid_calls c G r (Hinv G HG Hv)) as (_&Hi&_).
      assert (step c o' r = if dbg c then Panic r else Ret (OutCols []) r) as E.
      { destruct Ho as [->%elem_of_list_singleton|[(f&->)|[(u&->)|(f&u&->)]]];
          [specialize (Hi (fun _ => true) (fun _ v => v))|specialize (Hi f (fun _ v => v))|specialize (Hi (fun _ => true) u)|specialize (Hi f u)];
          repeat setoid_rewrite Forall_cons in Hi; tauto. }
      assert (Hd : forall h, o' <> OpDestroy h) by (destruct Ho as [->%elem_of_list_singleton|[(f&->)|[(u&->)|(f&u&->)]]]; done).
      assert (Ha : forall C h v, o' <> OpAdd C h v) by (destruct Ho as [->%elem_of_list_singleton|[(f&->)|[(u&->)|(f&u&->)]]]; done).
      destruct (dbg c); [by apply good_panic|by apply good_same]. }
    assert (Hecol : forall G o, in_U U G -> o ∈ [OpIterE G] \/ (exists f, o = OpIterEF G f) \/ (exists u, o = OpIterEMut G u) \/ (exists f u, o = OpIterEFMut G f u) ->
      valid be U G = false -> good r b o (if dbg c then Panics b else Returns (OutECols []) b)).
    { intros G o' HG Ho Hv. destruct (invalid_calls c G r (Hinv G HG Hv)) as (_&_&Hi&_).
      assert (step c o' r = if dbg c then Panic r else Ret (OutECols []) r) as E.
      { destruct Ho as [->%elem_of_list_singleton|[(f&->)|[(u&->)|(f&u&->)]]];
          [specialize (Hi (fun _ => true) (fun _ v => v))|specialize (Hi f (fun _ v => v))|specialize (Hi (fun _ => true) u)|specialize (Hi f u)];
          repeat setoid_rewrite Forall_cons in Hi; tauto. }
      assert (Hd : forall h, o' <> OpDestroy h) by (destruct Ho as [->%elem_of_list_singleton|[(f&->)|[(u&->)|(f&u&->)]]]; done).
      assert (Ha : forall C h v, o' <> OpAdd C h v) by (destruct Ho as [->%elem_of_list_singleton|[(f&->)|[(u&->)|(f&u&->)]]]; done).
      destruct (dbg c); [by apply good_panic|by apply good_same]. }
    assert (Hex : forall G o out, in_U U G -> (out = OutCols [map (fun _ => []) G] /\ (o = OpExact G \/ exists u, o = OpExactMut G u)) \/
        (out = OutECols [([], map (fun _ => []) G)] /\ (o = OpExactE G \/ exists u, o = OpExactEMut G u)) ->
      valid be U G = false -> good r b o (Returns out b)).
    { intros G o' out HG Ho Hv. destruct (invalid_calls c G r (Hinv G HG Hv)) as (_&_&_&Hi&Hi'). apply good_same; [done|..].
      - destruct Ho as [[_ [->|(u&->)]]|[_ [->|(u&->)]]]; done.
      - destruct Ho as [[-> [->|(u&->)]]|[-> [->|(u&->)]]];
          [specialize (Hi (fun _ v => v))|specialize (Hi u)|specialize (Hi' (fun _ v => v))|specialize (Hi' u)];
          repeat setoid_rewrite Forall_cons in Hi; repeat setoid_rewrite Forall_cons in Hi'; tauto. }
    destruct o; cbn [lawful] in Hc.
    - destruct Hc as ([HG _]&Hfit&Hroom). cbn [outcome]. apply good_usual; [done|]. split; [done|]. split; [done|]. intros Hv. by apply Hroom, valid_iff.
    - by apply good_usual.
    - by apply good_remove_entity.
    - by apply good_usual.
    - destruct Hc as [HG HGn]. cbn [outcome]. destruct (valid be U G) eqn:Hv; [apply good_usual; [done|]; split; [done|by apply valid_iff]|].
      apply good_same; [done|done|]. cbn [step]. destruct (bk_world b !! h) as [e|] eqn:Ew.
      + rewrite bool_decide_eq_true_2 by eauto. erewrite bind_Ret; [|apply rm_rd_Rd; by eapply (invalid_has c U _ _ _ _ _ _ H Ew), Hinv]. done.
      + rewrite bool_decide_eq_false_2 by (by intros [? ?]). exact (dead_handle c (OpHasAll G h) h r eq_refl (Hdead _ Ew)).
    - by apply good_usual.
    - destruct Hc as [HG HGn]. cbn [outcome]. destruct (bk_world b !! h) as [e|] eqn:Ew.
      + destruct (valid be U G) eqn:Hv; [apply good_usual; [done|]; split; [done|by apply valid_iff]|].
        destruct (invalid_get_live c U r T _ G h e H Ew (Hinv G HG Hv) HGn) as [E _].
        assert (step c (OpGetAll G h) r = if dbg c then Panic r else UB) as E'.
        { cbn [step]. unfold bind, rm_rd, lift_rd. rewrite E. by destruct (dbg c). }
        destruct (dbg c); [by apply good_panic|done].
      + apply good_same; [done|done|]. exact (dead_handle c (OpGetAll G h) h r eq_refl (Hdead _ Ew)).
    - by apply good_usual.
    - destruct Hc as ([HG HGn]&Hfit). cbn [outcome]. destruct (bk_world b !! h) as [e|] eqn:Ew.
      + destruct (valid be U G) eqn:Hv; [apply good_usual; [done|]; split; [done|split; [by apply valid_iff|done]]|].
        destruct (invalid_get_live c U r T _ G h e H Ew (Hinv G HG Hv) HGn) as [_ E].
        assert (step c (OpSetAll G h vs) r = if dbg c then Panic r else UB) as E'.
        { cbn [step]. unfold bind, rm_rd, lift_rd. rewrite E. by destruct (dbg c). }
        destruct (dbg c); [by apply good_panic|done].
      + apply good_same; [done|done|]. exact (dead_handle c (OpSetAll G h vs) h r eq_refl (Hdead _ Ew)).
    - destruct Hc as (HC&Hfit&Hroom). cbn [outcome]. destruct (bk_world b !! h) as [e|] eqn:Ew.
      + destruct ((size (en_vals e) =? 13) && bool_decide (en_vals e !! ct_id C = None)) eqn:E13.
        * apply andb_true_iff in E13 as [Hs%Nat.eqb_eq Hn%bool_decide_eq_true].
          pose proof (add_13_panics c U HU r T _ C h v e H Ew Hs HC Hn) as E. eexists. split; [cbn [step]; unfold bind; rewrite E; done|].
          split; [|done]. destruct Hb as [(T0&H0&HS0) Hi0 HF0 HV0]. split; [|done|done|done]. exists T0. split; [|done].
          destruct H0. split; done.
        * apply good_usual; [done|]. split; [done|]. split; [done|]. intros e' Ew' Hn. rewrite Ew in Ew'. injection Ew' as <-. split; [|by apply Hroom].
          intros Hs. rewrite Hs, bool_decide_eq_true_2 in E13 by done. done.
      + apply good_usual; [done|]. split; [done|]. split; [done|]. intros e' Ew'. by rewrite Ew in Ew'.
    - destruct Hc as (HC&Hroom). cbn [outcome]. destruct (bk_world b !! h) as [e|] eqn:Ew.
      + destruct ((size (en_vals e) =? 14) && bool_decide (is_Some (en_vals e !! ct_id C))) eqn:E14.
        * apply andb_true_iff in E14 as [Hs%Nat.eqb_eq [v Hn]%bool_decide_eq_true].
          pose proof (remove_14_panics c U HU r T _ C h e v H Ew Hs HC Hn) as E. apply good_panic; [done|done|]. cbn [step]. unfold bind. by rewrite E.
        * apply good_usual; [done|]. split; [done|]. intros e' Ew' Hn. rewrite Ew in Ew'. injection Ew' as <-. split; [|by apply Hroom].
          intros Hs. rewrite Hs, bool_decide_eq_true_2 in E14 by done. done.
      + apply good_usual; [done|]. split; [done|]. intros e' Ew'. by rewrite Ew in Ew'.
    - by apply good_usual.
    - destruct Hc as [HG HGn]. cbn [outcome]. destruct (valid be U G) eqn:Hv; [apply good_usual; [done|]; split; [done|by apply valid_iff]|].
      apply (Hcol G); [done|left; by left|done].
    - destruct Hc as [HG HGn]. cbn [outcome]. destruct (valid be U G) eqn:Hv; [apply good_usual; [done|]; split; [done|by apply valid_iff]|].
      apply (Hecol G); [done|left; by left|done].
    - destruct Hc as ([HG HGn]&Hr). cbn [outcome]. destruct (valid be U G) eqn:Hv; [apply good_usual; [done|]; split; [done|split; [by apply valid_iff|done]]|].
      apply (Hcol G); [done|right; left; by eexists|done].
    - destruct Hc as ([HG HGn]&Hr). cbn [outcome]. destruct (valid be U G) eqn:Hv; [apply good_usual; [done|]; split; [done|split; [by apply valid_iff|done]]|].
      apply (Hecol G); [done|right; left; by eexists|done].
    - destruct Hc as ([HG HGn]&Hr). cbn [outcome]. destruct (valid be U G) eqn:Hv; [apply good_usual; [done|]; split; [done|split; [by apply valid_iff|done]]|].
      apply (Hcol G); [done|right; right; left; by eexists|done].
    - destruct Hc as ([HG HGn]&Hr). cbn [outcome]. destruct (valid be U G) eqn:Hv; [apply good_usual; [done|]; split; [done|split; [by apply valid_iff|done]]|].
      apply (Hecol G); [done|right; right; left; by eexists|done].
    - destruct Hc as ([HG HGn]&Hr). cbn [outcome]. destruct (valid be U G) eqn:Hv; [apply good_usual; [done|]; split; [done|split; [by apply valid_iff|done]]|].
      apply (Hcol G); [done|right; right; right; by do 2 eexists|done].
    - destruct Hc as ([HG HGn]&Hr). cbn [outcome]. destruct (valid be U G) eqn:Hv; [apply good_usual; [done|]; split; [done|split; [by apply valid_iff|done]]|].
      apply (Hecol G); [done|right; right; right; by do 2 eexists|done].
    - destruct Hc as ([HG HGn]&Hkn). cbn [outcome]. destruct (valid be U G) eqn:Hv; [apply good_usual; [done|]; split; [done|split; [by apply valid_iff|by apply Hkn]]|].
      apply (Hex G); [done|left; split; [done|by left]|done].
    - destruct Hc as ([HG HGn]&Hkn). cbn [outcome]. destruct (valid be U G) eqn:Hv; [apply good_usual; [done|]; split; [done|split; [by apply valid_iff|by apply Hkn]]|].
      apply (Hex G); [done|right; split; [done|by left]|done].
    - destruct Hc as ([HG HGn]&Hkn&Hr). cbn [outcome]. destruct (valid be U G) eqn:Hv; [apply good_usual; [done|]; split; [done|split; [by apply valid_iff|split; [by apply Hkn|done]]]|].
      apply (Hex G); [done|left; split; [done|right; by eexists]|done].
    - destruct Hc as ([HG HGn]&Hkn&Hr). cbn [outcome]. destruct (valid be U G) eqn:Hv; [apply good_usual; [done|]; split; [done|split; [by apply valid_iff|split; [by apply Hkn|done]]]|].
      apply (Hex G); [done|right; split; [done|right; by eexists]|done].
  Qed.
  (** *** Programs *)
  Definition tracked (r : reg) (ops : list op) (b : book) (x : option reg) (y : option book) : Prop :=
    match x, y with
    | Some r', Some b' => booked c U r' b' /\ r_env r' = emitted (r_env r) (predict_log (dbg c) be U ops b (map pk (rpf r))).1 /\
        map pk (rpf r') = (predict_log (dbg c) be U ops b (map pk (rpf r))).2
    | None, None => True
    | _, _ => False
    end.
  Lemma attempt_from ops r b : booked c U r b -> lawful_all (dbg c) be U ops b ->
    (attempt c ops r).1 = (predict (dbg c) be U ops b).1 /\ tracked r ops b (attempt c ops r).2 (predict (dbg c) be U ops b).2.
  Proof.
    revert r b. induction ops as [|o ops IH]; intros r b Hb Hl.
    { cbn [attempt predict fst snd tracked predict_log]. by rewrite emitted_nil. }
    destruct Hl as [Hl1 Hl]. pose proof (outcome_step r b o Hb Hl1) as Hg. unfold tracked. cbn [attempt predict predict_log]. rewrite verdict_vlog.
    destruct (outcome (dbg c) be U b o) as [out b1|b1|]; cbn [good] in Hg.
    - destruct Hg as (r1&E&Hb1&He1&Hk1). rewrite E. destruct (IH r1 b1 Hb1 Hl) as [Eo Ht].
      destruct (vlog b (map pk (rpf r)) o _) as [evs caps1]. cbn [fst snd] in He1, Hk1. subst caps1.
      destruct (attempt c ops r1) as [l e]. destruct (predict (dbg c) be U ops b1) as [l' e']. cbn [fst snd] in *. subst l'. split; [done|].
      unfold tracked in Ht. destruct (predict_log _ _ _ ops b1 _) as [evs' caps2]. cbn [fst snd] in *.
      destruct e as [r'|], e' as [b'|]; try done. destruct Ht as (?&Ee&?). split; [done|]. split; [|done]. by rewrite Ee, He1, emitted_app.
    - destruct Hg as (r1&E&Hb1&He1&Hk1). rewrite E. destruct (IH r1 b1 Hb1 Hl) as [Eo Ht].
      destruct (vlog b (map pk (rpf r)) o _) as [evs caps1]. cbn [fst snd] in He1, Hk1. subst caps1.
      destruct (attempt c ops r1) as [l e]. destruct (predict (dbg c) be U ops b1) as [l' e']. cbn [fst snd] in *. subst l'. split; [done|].
      unfold tracked in Ht. destruct (predict_log _ _ _ ops b1 _) as [evs' caps2]. cbn [fst snd] in *.
      destruct e as [r'|], e' as [b'|]; try done. destruct Ht as (?&Ee&?). split; [done|]. split; [|done]. by rewrite Ee, He1, emitted_app.
    - rewrite Hg. done.
  Qed.
  Lemma attempt_predicted ops : lawful_all (dbg c) be U ops book_empty ->
    (attempt c ops reg_default).1 = (predict (dbg c) be U ops book_empty).1 /\
    ((attempt c ops reg_default).2 = None <-> (predict (dbg c) be U ops book_empty).2 = None).
  Proof.
    intros Hl. destruct (attempt_from ops _ _ (booked_start c U) Hl) as [E Ht]. split; [done|].
    destruct (attempt c ops reg_default).2, (predict (dbg c) be U ops book_empty).2; done.
  Qed.
  Lemma attempt_requests ops r : lawful_all (dbg c) be U ops book_empty -> (attempt c ops reg_default).2 = Some r ->
    ev_trace (r_env r) = (predict_log (dbg c) be U ops book_empty []).1 /\
    map a_cap (ar_archs (r_ar r)) = (predict_log (dbg c) be U ops book_empty []).2.
  Proof.
    intros Hl E. destruct (attempt_from ops _ _ (booked_start c U) Hl) as [_ Ht]. rewrite E in Ht.
    destruct (predict _ _ _ _ _).2 as [b|]; [|done]. destruct Ht as (_&Ee&Ek). rewrite <- pk_caps. split; [by rewrite Ee|done].
  Qed.
  Lemma attempt_drop ops r b : lawful_all (dbg c) be U ops book_empty -> (attempt c ops reg_default).2 = Some r ->
    (predict (dbg c) be U ops book_empty).2 = Some b -> all_calm (bk_world b) ->
    exists r', drop_registry r = Ret tt r' /\
      ev_trace (r_env r') = (predict_log (dbg c) be U ops book_empty []).1 ++ final_log b (predict_log (dbg c) be U ops book_empty []).2.
  Proof.
    intros Hl E Ep Hcalm. destruct (attempt_from ops _ _ (booked_start c U) Hl) as [_ Ht]. rewrite E, Ep in Ht. destruct Ht as (Hb&Ee&Ek).
    destruct (drop_exact c U r _ Hb Hcalm) as (r'&E'&Ee'). exists r'. split; [done|]. rewrite Ee', Ee. rewrite <- pk_caps, Ek. done.
  Qed.
  (** *** Which calls can be undefined *)
  Lemma undefined_calls ops b : (predict (dbg c) be U ops b).2 = None ->
    exists o, o ∈ ops /\ match o with
      | OpRemoveEntity _ _ => True
      | OpGetAll G _ | OpSetAll G _ _ => valid be U G = false /\ dbg c = false
      | _ => False
      end.
  Proof.
    revert b. induction ops as [|o ops IH]; intros b; [done|]. cbn [predict].
    assert (Hx : match outcome (dbg c) be U b o with Undefined => match o with
      | OpRemoveEntity _ _ => True
      | OpGetAll G _ | OpSetAll G _ _ => valid be U G = false /\ dbg c = false
      | _ => False
      end | _ => True end).
    { destruct o; cbn [outcome]; unfold answer; repeat case_match; done. }
    destruct (outcome (dbg c) be U b o) as [out b1|b1|]; intros E.
    - destruct (predict _ _ _ ops b1) eqn:Ep. cbn in E. destruct (IH b1) as (o'&Ho&H'); [by rewrite Ep|]. exists o'. split; [by right|done].
    - destruct (predict _ _ _ ops b1) eqn:Ep. cbn in E. destruct (IH b1) as (o'&Ho&H'); [by rewrite Ep|]. exists o'. split; [by right|done].
    - exists o. split; [by left|done].
  Qed.
  Lemma attempt_undefined ops : lawful_all (dbg c) be U ops book_empty -> (attempt c ops reg_default).2 = None ->
    exists o, o ∈ ops /\ match o with
      | OpRemoveEntity _ _ => True
      | OpGetAll G _ | OpSetAll G _ _ => valid be U G = false /\ dbg c = false
      | _ => False
      end.
  Proof. intros Hl E. apply (undefined_calls ops book_empty). by apply (attempt_predicted ops Hl). Qed.
End main.

(** ** A boolean test for the examples *)
Section checks.
  Context {Fm : family} {Ck : fam_check Fm} (c : cfg) (U : list ctype).
  Definition typedb (G : group) : bool := in_Ub U G && (1 <=? length G).
  Definition lawfulb (w : gmap N ent) (o : op) : bool :=
    match o with
    | OpCreate G vs => typedb G && fits_allb G vs && roomb w && usesb U (created (big c) U G vs)
    | OpDestroy h => match w !! h with Some e => forallb (fun p : N * value => negb (v_bomb p.2)) (map_to_list (en_vals e)) | None => true end
    | OpHas C h | OpGet C h => bool_decide (C ∈ U)
    | OpSet C h v => bool_decide (C ∈ U) && fitsb C v
    | OpRemoveEntity G h | OpHasAll G h | OpGetAll G h => typedb G
    | OpSetAll G h vs => typedb G && fits_allb G vs
    | OpAdd C h v => bool_decide (C ∈ U) && fitsb C v && roomb w &&
        match w !! h with Some e => usesb U (derived (big c) U (<[ct_id C := v]> (en_vals e))) | None => true end
    | OpRemove C h => bool_decide (C ∈ U) && roomb w &&
        match w !! h with Some e => usesb U (derived (big c) U (delete (ct_id C) (en_vals e))) | None => true end
    | OpIterEntities => true
    | OpIter G | OpIterE G => typedb G
    | OpExact G | OpExactE G => typedb G && knownb c U G
    | _ => false
    end.
  Lemma typedb_ok G : typedb G = true -> typed U G.
  Proof. intros [H1%in_Ub_ok H2%Nat.leb_le]%andb_true_iff. split; [done|]. intros ->. cbn in H2. lia. Qed.
  Lemma lawfulb_ok w o : lawfulb w o = true -> lawful (big c) U w o.
  Proof.
    assert (Hm : forall C, bool_decide (C ∈ U) = true -> C ∈ U) by (intros C; apply bool_decide_eq_true).
    destruct o; cbn [lawfulb lawful]; intros H; try done; rewrite ?andb_true_iff in H; try (by apply typedb_ok); try (by apply Hm).
    - destruct H as [[[H1 H2] H3] H4]. split; [by apply typedb_ok|]. split; [by apply fits_allb_ok|]. intros _.
      apply room_small; [done|]. intros [Hl _]. by apply (usesb_ok U _ H4).
    - intros e He x v Hxv. rewrite He in H. rewrite forallb_forall in H. apply negb_true_iff, (H (x, v)), elem_of_list_In, elem_of_map_to_list, Hxv.
    - destruct H as [H1 H2]. split; [by apply Hm|by apply fitsb_ok].
    - destruct H as [H1 H2]. split; [by apply typedb_ok|by apply fits_allb_ok].
    - destruct H as [[[H1 H2] H3] H4]. split; [by apply Hm|]. split; [by apply fitsb_ok|]. intros e He _. rewrite He in H4.
      apply room_small; [done|]. intros [Hl _]. by apply (usesb_ok U _ H4).
    - destruct H as [[H1 H3] H4]. split; [by apply Hm|]. intros e He _. rewrite He in H4.
      apply room_small; [done|]. intros [Hl _]. by apply (usesb_ok U _ H4).
    - destruct H as [H1 H2]. split; [by apply typedb_ok|]. intros _. by apply knownb_ok.
    - destruct H as [H1 H2]. split; [by apply typedb_ok|]. intros _. by apply knownb_ok.
  Qed.
  Fixpoint lawful_allb (ops : list op) (b : book) : bool :=
    match ops with
    | [] => true
    | o :: ops' => lawfulb (bk_world b) o &&
        match outcome (dbg c) (big c) U b o with Returns _ b1 | Panics b1 => lawful_allb ops' b1 | Undefined => true end
    end.
  Lemma lawful_allb_ok ops b : lawful_allb ops b = true -> lawful_all (dbg c) (big c) U ops b.
  Proof.
    revert b. induction ops as [|o ops IH]; intros b H; cbn [lawful_all lawful_allb] in *; [done|]. apply andb_true_iff in H as [H1 H2].
    split; [by apply lawfulb_ok|]. destruct (outcome (dbg c) (big c) U b o); [by apply IH..|done].
  Qed.
End checks.
