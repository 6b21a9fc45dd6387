(** Proofs for C59: client code that holds mutable references. *)
From Verif Require Import RegModel SpecTrace SpecEntity EntityProofs EntityTable SearchProofs DescrProofs MonadProofs ArchProofs ArchOps ArchOps2 ArchOps3 AregProofs IterProofs
  RegProofs RegOps RegOps2 RegOps3 RegIter RegMut RegExact Refine Ref Sizes Observe SpecBase SpecWorld SpecRef SpecCode.
Local Open Scope nat_scope.

(** ** Worlds *)
Lemma put1_value w x v y : value_of (put1 x v w) y.1 y.2 =
  if decide (y.1 = x.1 /\ ct_id y.2 = ct_id x.2) then (fun _ => v) <$> w !! x.1 else value_of w y.1 y.2.
Proof.
  unfold value_of, put1. destruct (decide (y.1 = x.1)) as [->|Hne].
  - rewrite lookup_alter. destruct (w !! x.1) as [e|]; cbn; [|by destruct (decide _)]. destruct (decide _) as [[_ ->]|Hn]; [by rewrite lookup_insert|].
    apply lookup_insert_ne. naive_solver.
  - rewrite lookup_alter_ne by done. destruct (decide _) as [[? _]|_]; done.
Qed.
Lemma put1_same w x v : value_of w x.1 x.2 = Some v -> put1 x v w = w.
Proof.
  intros E. apply map_eq. intros h. unfold put1, value_of in *. destruct (decide (h = x.1)) as [->|Hne]; [|by rewrite lookup_alter_ne].
  rewrite lookup_alter. destruct (w !! x.1) as [[aid m]|]; [|done]. cbn in *. by rewrite insert_id.
Qed.
Lemma put1_twice w x v v' : put1 x v' (put1 x v w) = put1 x v' w.
Proof.
  apply map_eq. intros h. unfold put1. destruct (decide (h = x.1)) as [->|Hne]; [|by rewrite !lookup_alter_ne].
  rewrite !lookup_alter. destruct (w !! x.1) as [[aid m]|]; [|done]. cbn. by rewrite insert_insert.
Qed.
Definition key (x : N * ctype) : N * N := (x.1, ct_id x.2).
Lemma put1_comm w x v y v' : key x <> key y -> put1 x v (put1 y v' w) = put1 y v' (put1 x v w).
Proof.
  intros Hk. apply map_eq. intros h. unfold put1.
  destruct (decide (h = x.1)) as [Hx|Hx], (decide (h = y.1)) as [Hy|Hy].
  - rewrite <- Hx, <- Hy, !lookup_alter. destruct (w !! h) as [[aid m]|]; [|done]. cbn. rewrite insert_commute; [done|]. intros F. apply Hk. unfold key. by rewrite <- Hx, <- Hy, F.
  - rewrite <- Hx, lookup_alter, !lookup_alter_ne by done. by rewrite lookup_alter.
  - rewrite <- Hy, lookup_alter_ne, !lookup_alter by done. by rewrite lookup_alter_ne.
  - by rewrite !lookup_alter_ne.
Qed.
Lemma put_all_same who vs w : Forall2 (fun x v => value_of w x.1 x.2 = Some v) who vs -> put_all who vs w = w.
Proof. induction 1 as [|x v who vs Hx H IH]; [done|]. cbn [put_all]. by rewrite put1_same. Qed.
Lemma put_all_put1 who : forall vs w x v, (forall y, y ∈ who -> key x <> key y) -> put_all who vs (put1 x v w) = put1 x v (put_all who vs w).
Proof.
  induction who as [|y who IH]; intros [|v' vs] w x v Hx; cbn [put_all]; try done.
  rewrite <- put1_comm by (apply Hx; by left). apply IH. intros z Hz. apply Hx. by right.
Qed.
Lemma put_all_absorb who : forall p vs w x v, NoDup (map key who) -> length vs = length who -> who !! p = Some x ->
  put_all who vs (put1 x v w) = put_all who vs w.
Proof.
  induction who as [|y who IH]; intros p [|v' vs] w x v Hn Hl Hp; try done. cbn [map] in Hn. apply NoDup_cons in Hn as [Hy Hn]. cbn [put_all].
  destruct p as [|p]; cbn in Hp.
  - injection Hp as ->. by rewrite put1_twice.
  - assert (key x <> key y).
    { intros E. apply Hy. rewrite <- E. apply elem_of_list_fmap. exists x. split; [done|]. by eapply elem_of_list_lookup_2. }
    rewrite <- put1_comm by done. apply (IH p); [done|by injection Hl|done].
Qed.
Lemma values_put1 who vs w p x v : NoDup (map key who) -> who !! p = Some x -> is_Some (w !! x.1) ->
  Forall2 (fun x v => value_of w x.1 x.2 = Some v) who vs -> Forall2 (fun y u => value_of (put1 x v w) y.1 y.2 = Some u) who (<[p := v]> vs).
Proof.
  intros Hn Hp [e He] H. apply Forall2_same_length_lookup. split; [rewrite insert_length; by eapply Forall2_length|]. intros q y u Hy Hu.
  rewrite put1_value. destruct (decide _) as [[E1 E2]|Hne].
  - assert (q = p) as ->.
    { eapply (NoDup_lookup _ _ _ (key x) Hn); change (map key who) with (key <$> who); rewrite list_lookup_fmap; [rewrite Hy|by rewrite Hp].
      cbn. unfold key. by rewrite E1, E2. }
    rewrite He. cbn. rewrite list_lookup_insert in Hu; [by simplify_eq|]. rewrite <- (Forall2_length _ _ _ H). by eapply lookup_lt_Some.
  - assert (q <> p) by (intros ->; apply Hne; by simplify_eq). rewrite list_lookup_insert_ne in Hu by done.
    exact (Forall2_lookup_lr _ _ _ _ _ _ H Hy Hu).
Qed.
Lemma on_list_length cd : forall vs, length (on_list vs cd).2 = length vs.
Proof.
  induction cd as [|p k IH|p v k IH]; intros vs; cbn [on_list]; [done|..]; destruct (vs !! p); try done; cbn; [apply IH|]. rewrite IH. apply insert_length.
Qed.

(** ** What a reference points at *)
Definition points (S : list sheet) (l : loc) (x : N * ctype) : Prop :=
  exists i s j, l = (i, id_pos (ct_id x.2) (ids_of (sh_types s)), j) /\ S !! i = Some s /\ sh_ents s !! j = Some x.1 /\ x.2 ∈ sh_types s.

Section codes.
  Context {Fm : family} (c : cfg) (U : list ctype) (HU : universe (big c) U).
  Notation be := (big c).
  Implicit Types (T : list tab) (w : world).

  Lemma point_row r T w l x : reg_ok be U r T w -> points (skel T) l x ->
    exists i t j m a v, l = (i, id_pos (ct_id x.2) (ids_of (t_cs t)), j) /\ T !! i = Some t /\ t_rows t !! j = Some (x.1, m) /\ x.2 ∈ t_cs t /\
      ar_archs (r_ar r) !! i = Some a /\ tab_ok be U a t /\ m !! ct_id x.2 = Some v /\ w !! x.1 = Some (Ent (t_id t) m) /\ x.2 ∈ U /\ fits x.2 v.
  Proof.
    intros H (i&s&j&->&Hi&Hj&HC). unfold skel in Hi. change (map ?f T) with (f <$> T) in Hi. rewrite list_lookup_fmap in Hi.
    destruct (T !! i) as [t|] eqn:Ht; [|done]. injection Hi as <-. cbn [sh_ents sh_types] in *. change (map fst (t_rows t)) with (fst <$> t_rows t) in Hj.
    rewrite list_lookup_fmap in Hj. destruct (t_rows t !! j) as [[h m]|] eqn:Hr; [|done]. injection Hj as Hh. cbn in Hh. subst h.
    destruct (ro_tab _ _ _ _ _ _ _ H Ht) as (a&Ha&Hta). destruct (tab_row _ _ HU _ _ _ _ _ Hta Hr) as (Hf&Hfit&_).
    destruct (proj2 (Hf (ct_id x.2))) as [v Hv]; [apply elem_of_ids; eauto|].
    exists i, t, j, m, a, v. split_and!; try done.
    - apply (ro_repr _ _ _ _ _ H). exists i, t, m. split; [done|]. split; [by eapply elem_of_list_lookup_2|done].
    - destruct Hta as (_&_&Hin&_). by apply (in_U_elem _ _ _ Hin).
    - by apply Hfit.
  Qed.
  Lemma point_mut r T w l x : reg_ok be U r T w -> points (skel T) l x -> get_component_mut c x.2 x.1 r = Rd (Some l).
  Proof.
    intros H Hp. destruct (point_row _ _ _ _ _ H Hp) as (i&t&j&m&a&v&->&Ht&Hj&HC&Ha&Hta&Hv&Hw&HCU&_).
    destruct (live_entry c U _ _ _ _ _ H Hw) as (en&i1&j1&t1&m1&a1&Een&Ei&Ej&_&Ht1&Hj1&_).
    destruct (linked_inj _ _ _ _ _ _ _ _ _ _ _ (ro_loc _ _ _ _ _ H) Ht Hj Ht1 Hj1) as [-> ->].
    destruct (tab_has c U HU _ _ _ _ _ x.2 Hta Hj HCU) as [E1 _]. pose proof Hta as (_&Hok&_).
    destruct (get_component_ok (a_desc a) (t_cs t) (proj1 Hok) a _ _ _ _ _ _ eq_refl Hok Hj HC Hv) as (_&_&Eg&_).
    unfold get_component_mut. rewrite Een, Ei, Ej, (arch_at_step _ _ _ Ha). cbn [rbind]. rewrite (proj2 E1 HC). cbn [negb]. by rewrite Eg.
  Qed.
  Lemma point_look r T w l x v : reg_ok be U r T w -> points (skel T) l x -> value_of w x.1 x.2 = Some v -> look_loc l r = Ret v r /\ fits x.2 v.
  Proof.
    intros H Hp Ev. destruct (point_row _ _ _ _ _ H Hp) as (i&t&j&m&a&v'&->&Ht&Hj&HC&Ha&Hta&Hv&Hw&HCU&Hf).
    unfold value_of in Ev. rewrite Hw in Ev. cbn in Ev. rewrite Hv in Ev. injection Ev as ->. split; [|done].
    pose proof Hta as (_&Hok&_). apply elem_of_list_lookup in HC as [k Hk].
    destruct (typed_cell_ok (a_desc a) (t_cs t) (proj1 Hok) a _ _ _ _ _ _ _ eq_refl Hok Hj Hk Hv) as [_ Er].
    unfold look_loc. cbn [fst snd]. rewrite (bind_Ret _ _ _ _ _ (arch_at_Rd _ _ _ Ha)). rewrite (pos_in_cs (a_desc a) _ (proj1 Hok) _ _ Hk), Er. done.
  Qed.
  Lemma point_set r T w l x v old : reg_ok be U r T w -> points (skel T) l x -> value_of w x.1 x.2 = Some old -> fits x.2 v ->
    exists r' T', replace_loc l v r = Ret old r' /\ step c (OpSet x.2 x.1 v) r = Ret (OutVal (Some old)) r' /\
      reg_ok be U r' T' (put1 x v w) /\ skel T' = skel T.
  Proof.
    intros H Hp Ev Hf. destruct (point_row _ _ _ _ _ H Hp) as (_&_&_&_&_&_&_&_&_&_&_&_&_&_&HCU&_).
    destruct (set_ok c U HU r T w x.2 x.1 v H) as (out&r'&E&Ha&T'&D&H'&_&_&Hs); [done|]. cbn in Ha. rewrite Ev in Ha. subst out.
    exists r', T'. split; [|done]. cbn [step] in E. apply bind_Ret_inv in E as (ol&r1&E1&E).
    unfold rm_rd in E1. rewrite (point_mut _ _ _ _ _ H Hp) in E1. injection E1 as <- <-. apply bind_Ret_inv in E as (o&r2&E2&E). by injection E as -> ->.
  Qed.

  Lemma key_inj who : (forall x, x ∈ who -> x.2 ∈ U) -> NoDup who -> NoDup (map key who).
  Proof.
    intros Hin Hn. induction Hn as [|x who Hx Hn IH]; [constructor|]. cbn [map]. apply NoDup_cons. split.
    - intros Hi. change (map key who) with (key <$> who) in Hi. apply elem_of_list_fmap in Hi as (y&E&Hy). apply Hx. unfold key in E. injection E as E1 E2.
      assert (x = y) as ->; [|done]. destruct x as [h C], y as [h' C']. cbn in *. subst h'. f_equal.
      eapply (ids_inj U); [apply (U_nodup _ _ HU)|apply (Hin (h, C)); by left|apply (Hin (h, C')); by right|done].
    - apply IH. intros y Hy. apply Hin. by right.
  Qed.
  Lemma serve_ok S ls who : Forall2 (points S) ls who -> NoDup who -> forall cd vs r T w I O,
    history c U r w I O -> reg_ok be U r T w -> skel T = S -> Forall2 (fun x v => value_of w x.1 x.2 = Some v) who vs ->
    typed_code (map snd who) cd -> exists r',
      serve ls cd r = Ret (on_list vs cd).1 r' /\ run c (writes who vs cd) r = Ret (map (fun v => OutVal (Some v)) (taken vs cd)) r' /\
      history c U r' (put_all who (on_list vs cd).2 w) (I ++ given vs cd) (O ++ taken vs cd).
  Proof.
    intros Hps Hnd cd. induction cd as [|p k IH|p v k IH]; intros vs r T w I O Hh H HS Hvs Ht.
    { exists r. cbn [serve on_list writes given taken run fst snd map]. rewrite !app_nil_r, put_all_same by done. done. }
    all: cbn [typed_code] in Ht; destruct Ht as (C&HC&Ht); change (map snd who) with (snd <$> who) in HC; rewrite list_lookup_fmap in HC;
      destruct (who !! p) as [x|] eqn:Hx; [|done]; injection HC as <-;
      destruct (Forall2_lookup_r _ _ _ _ _ Hps Hx) as (l&Hl&Hp); destruct (Forall2_lookup_l _ _ _ _ _ Hvs Hx) as (old&Ho&Hold);
      rewrite <- HS in Hp; destruct (point_look _ _ _ _ _ _ H Hp Hold) as [El Hfo].
    - destruct (IH old vs r T w I O Hh H HS Hvs (Ht _ Hfo)) as (r'&E1&E2&E3). exists r'. cbn [serve on_list writes given taken]. rewrite Hl, Ho. cbn [fst snd].
      split; [|done]. rewrite (bind_Ret _ _ _ _ _ El), (bind_Ret _ _ _ _ _ E1). done.
    - destruct Ht as [Hfv Ht]. destruct (point_set _ _ _ _ _ _ _ H Hp Hold Hfv) as (r1&T1&Er&Es&H1&HS1).
      destruct (point_row _ _ _ _ _ H Hp) as (?&?&?&?&?&?&_&_&_&_&_&_&_&Hw&HCU&_).
      assert (Hk : NoDup (map key who)).
      { apply key_inj; [|done]. intros y [q Hq]%elem_of_list_lookup. destruct (Forall2_lookup_r _ _ _ _ _ Hps Hq) as (lq&_&Hpq). rewrite <- HS in Hpq.
        by destruct (point_row _ _ _ _ _ H Hpq) as (_&_&_&_&_&_&_&_&_&_&_&_&_&_&?&_). }
      assert (Hh1 : history c U r1 (put1 x v w) (I ++ [v]) (O ++ [old])).
      { assert (Hc : contract be U w (OpSet x.2 x.1 v)) by done. exact (h_call _ _ _ _ _ _ _ _ _ Hh Hc Es). }
      destruct (IH old (<[p := v]> vs) r1 T1 _ _ _ Hh1 H1 (eq_trans HS1 HS)) as (r'&E1&E2&E3); [by apply values_put1|by apply Ht|].
      exists r'. cbn [serve on_list writes given taken map]. rewrite Hl, Ho, Hx. cbn [fst snd run]. split; [|split].
      + rewrite (bind_Ret _ _ _ _ _ Er), (bind_Ret _ _ _ _ _ E1). done.
      + rewrite (bind_Ret _ _ _ _ _ Es), (bind_Ret _ _ _ _ _ E2). done.
      + rewrite <- !app_assoc in E3. rewrite (put_all_absorb _ p) in E3; [exact E3|done| |done].
        rewrite on_list_length, insert_length. symmetry. by eapply Forall2_length.
  Qed.
  Definition aimed (r : reg) w (ls : list loc) (who : list (N * ctype)) (vs : list value) : Prop :=
    exists T, reg_ok be U r T w /\ Forall2 (points (skel T)) ls who /\ NoDup who /\ Forall2 (fun x v => value_of w x.1 x.2 = Some v) who vs.
  Lemma aimed_like r w I O ls who vs : history c U r w I O -> aimed r w ls who vs -> like_list c U r w I O ls who vs.
  Proof. intros Hh (T&H&Hp&Hn&Hv). split; [done|]. split; [done|]. intros cd Ht. by eapply serve_ok. Qed.
  Lemma points_like r T w ls who vs : reg_ok be U r T w -> Forall2 (points (skel T)) ls who -> NoDup who ->
    Forall2 (fun x v => value_of w x.1 x.2 = Some v) who vs -> aimed r w ls who vs.
  Proof. intros H Hp Hn Hv. by exists T. Qed.

  (** ** The references that are handed out *)
  Lemma points_nodup r T w ls who : reg_ok be U r T w -> NoDup ls -> Forall2 (points (skel T)) ls who -> NoDup who.
  Proof.
    intros H Hn Hp. apply NoDup_alt. intros p q x Hx Hy.
    destruct (Forall2_lookup_r _ _ _ _ _ Hp Hx) as (l&Hl&P1). destruct (Forall2_lookup_r _ _ _ _ _ Hp Hy) as (l'&Hl'&P2).
    destruct (point_row _ _ _ _ _ H P1) as (i&t&j&m&a&v&->&Ht&Hj&_). destruct (point_row _ _ _ _ _ H P2) as (i'&t'&j'&m'&a'&v'&->&Ht'&Hj'&_).
    destruct (linked_inj _ _ _ _ _ _ _ _ _ _ _ (ro_loc _ _ _ _ _ H) Ht Hj Ht' Hj') as [-> ->]. simplify_eq. by eapply NoDup_lookup.
  Qed.
  Lemma visits_values w P G items : visits w P G items ->
    Forall2 (fun x v => value_of w x.1 x.2 = Some v) (concat (map (owners G) (map fst items))) (concat (concat (map snd items))).
  Proof.
    intros (_&_&H). induction H as [|[es cols] items Hit H IH]; cbn [map concat fst snd]; [constructor|]. rewrite concat_app. apply Forall2_app; [|done].
    cbn [fst snd] in Hit. clear -Hit. unfold owners. induction Hit as [|C col G cols Hc H IH]; cbn [map concat]; [constructor|]. apply Forall2_app; [|done].
    clear -Hc. induction Hc; cbn [map]; by constructor.
  Qed.
  Lemma slots_points T G i t : T !! i = Some t -> (forall C, C ∈ G -> C ∈ t_cs t) ->
    Forall2 (points (skel T)) (concat (slots_at T G i)) (owners G (item_at T G i).1).
  Proof.
    intros Ht HG. unfold slots_at, locate, col_cells, owners, item_at, rows_at, cs_at. rewrite Ht. cbn [fst]. rewrite map_map.
    assert (Hi : skel T !! i = Some (Sheet (t_id t) (t_cs t) (map fst (t_rows t)))).
    { unfold skel. change (map ?f T) with (f <$> T). by rewrite list_lookup_fmap, Ht. }
    induction G as [|C G IH]; cbn [map concat]; [constructor|]. apply Forall2_app; [|apply IH; intros; apply HG; by right].
    rewrite (map_map _ _ (seq 0 _)). apply Forall2_same_length_lookup. split; [by rewrite !map_length, seq_length|]. intros j l x Hl Hx.
    change (map ?f (seq ?a ?b)) with (f <$> seq a b) in Hl. rewrite list_lookup_fmap in Hl.
    change (((fun h => (h, C)) <$> (fst <$> t_rows t)) !! j = Some x) in Hx. rewrite !list_lookup_fmap in Hx.
    destruct (t_rows t !! j) as [[h m]|] eqn:Hj; [|done]. injection Hx as <-. destruct (seq 0 _ !! j) as [j'|] eqn:Es; [|done]. injection Hl as <-.
    apply lookup_seq in Es as [-> _]. exists i, (Sheet (t_id t) (t_cs t) (map fst (t_rows t))), (0 + j). cbn [sh_types sh_ents fst snd].
    split; [done|]. split; [done|]. split; [|apply HG; by left]. change (map fst (t_rows t)) with (fst <$> t_rows t). rewrite list_lookup_fmap, Nat.add_0_l, Hj. done.
  Qed.
  Lemma slots_points_all T P G V : covers T P G V ->
    Forall2 (points (skel T)) (concat (concat (map (slots_at T G) V))) (concat (map (owners G) (map fst (map (item_at T G) V)))).
  Proof.
    intros [_ Ht _]. induction V as [|i V IH]; cbn [map concat]; [constructor|]. rewrite concat_app. apply Forall2_app; [|apply IH; intros; apply Ht; by right].
    destruct (Ht i) as (t&Ei&HG); [by left|]. by eapply slots_points.
  Qed.
  Lemma covers_like r T w P G V : reg_ok be U r T w -> in_U U G -> gvalid be G -> covers T P G V ->
    let items := map (item_at T G) V in
    visits w P G items /\ aimed r w (concat (concat (map (slots_at T G) V))) (concat (map (owners G) (map fst items))) (concat (concat (map snd items))).
  Proof.
    intros H HG Hv Hc items. pose proof (covers_visits c U _ _ _ _ _ _ H Hc) as Hvis. split; [exact Hvis|].
    pose proof (slots_points_all _ _ _ _ Hc) as Hp.
    apply (points_like r T); [done|exact Hp| |by eapply visits_values].
    eapply points_nodup; [exact H| |exact Hp]. eapply covers_locs; [apply Hv|exact Hc].
  Qed.

  Section handed.
    Context (r : reg) (w : world) (I O : list value) (Hh : history c U r w I O).
    Lemma matching_aimed G : in_U U G -> gvalid be G ->
      exists refs items, iter_entity_components_matching_mut c G r = Rd (Some refs) /\ iter_components_matching_mut c G r = Rd (Some (map snd refs)) /\
        iter_entity_components_matching c G r = Rd (Some items) /\ map fst refs = map fst items /\ visits w (matching G) G items /\
        aimed r w (concat (concat (map snd refs))) (concat (map (owners G) (map fst items))) (concat (concat (map snd items))).
    Proof.
      intros HG Hv. destruct (history_ok c U HU _ _ _ _ Hh) as (T&D&H&_).
      destruct (collects c U r T w H G Hv _ (matching_accepts c U HU G HG Hv)) as (_&E0&E1&E2).
      pose proof (covers_V c U r T w H G Hv _ (matching_accepts c U HU G HG Hv) _ (matching_P c U HU G HG Hv)) as Hc.
      destruct (covers_like r T w _ G _ H HG Hv Hc) as [Hvis Hl].
      eexists _, _. split; [exact E2|]. split; [rewrite map_map; exact E1|]. split; [exact E0|]. split; [by rewrite !map_map|]. split; [exact Hvis|].
      by rewrite (map_map _ snd).
    Qed.
    Lemma filtered_aimed G f : in_U U G -> gvalid be G -> respects f ->
      exists refs items, iter_filtered_entity_components_matching_mut c G f r = Rd (Some refs) /\ iter_filtered_components_matching_mut c G f r = Rd (Some (map snd refs)) /\
        iter_filtered_entity_components_matching c G f r = Rd (Some items) /\ map fst refs = map fst items /\ visits w (filtered U G f) G items /\
        aimed r w (concat (concat (map snd refs))) (concat (map (owners G) (map fst items))) (concat (concat (map snd items))).
    Proof.
      intros HG Hv Hf. destruct (history_ok c U HU _ _ _ _ Hh) as (T&D&H&_).
      destruct (collects c U r T w H G Hv _ (filtered_accepts c U HU G f HG Hv)) as (_&E0&E1&E2).
      pose proof (covers_V c U r T w H G Hv _ (filtered_accepts c U HU G f HG Hv) _ (filtered_P c U HU G f HG Hv Hf)) as Hc.
      destruct (covers_like r T w _ G _ H HG Hv Hc) as [Hvis Hl].
      eexists _, _. split; [exact E2|]. split; [rewrite map_map; exact E1|]. split; [exact E0|]. split; [by rewrite !map_map|]. split; [exact Hvis|].
      by rewrite (map_map _ snd).
    Qed.
    Lemma exact_aimed G : in_U U G -> gvalid be G -> known be U G ->
      exists refs it, iter_entity_components_exact_mut c G r = Rd refs /\ iter_components_exact_mut c G r = Rd refs.2 /\
        iter_entity_components_exact c G r = Rd it /\ refs.1 = it.1 /\ visits w (is_exactly be U G) G [it] /\
        aimed r w (concat refs.2) (owners G it.1) (concat it.2).
    Proof.
      intros HG Hv Hkn. destruct (history_ok c U HU _ _ _ _ Hh) as (T&D&H&_).
      unfold iter_entity_components_exact, iter_components_exact_mut, iter_entity_components_exact_mut.
      destruct (exact_find c U HU r T w G H HG Hv Hkn) as [(->&Hcov&Hno)|(i&a&t&->&Ha&Ht&Hta&Hg&Hid&Hcov)]; cbn [rbind].
      - exists ([], map (fun _ => []) G), ([], map (fun _ => []) G). do 4 (split; [done|]). split; [apply visits_empty; by apply (covers_visits c U _ _ _ _ _ _ H Hcov)|].
        cbn [fst snd]. rewrite !concat_nils. assert (owners G [] = []) as -> by (apply concat_nils). apply (points_like r T); try done; constructor.
      - destruct (covers_like r T w _ G _ H HG Hv Hcov) as [Hvis Hl]. cbn [map concat] in Hvis, Hl. rewrite !app_nil_r in Hl.
        pose proof Hta as (_&Hok&_).
        destruct (exact_slices_ok (a_desc a) (t_cs t) (proj1 Hok) c G a (t_rows t) (cols_at (t_rows t) G) eq_refl Hok Hg Hid) as [E1 E2].
        { eapply cols_at_ok; [apply Hok|]. intros C HC. by rewrite (gs_perm _ _ _ Hg). }
        exists ((item_at T G i).1, slots_at T G i), (item_at T G i).
        rewrite (ArchOps2.entities_ok (a_desc a) (t_cs t) _ _ eq_refl Hok), E1, E2. cbn [fst snd]. split_and!; [..|exact Hvis|exact Hl].
        all: unfold item_at, slots_at, rows_at, cs_at; by rewrite !Ht.
    Qed.
    Lemma tuple_aimed G h : in_U U G -> gvalid be G ->
      exists res, get_components_mut c G h r = Rd res /\ get_components c G h r = Rd (values_of w h G) /\
        match res, values_of w h G with
        | Some ls, Some vs => aimed r w ls (map (fun C => (h, C)) G) vs
        | None, None => True
        | _, _ => False
        end.
    Proof.
      intros HG Hv. destruct (history_ok c U HU _ _ _ _ Hh) as (T&D&H&_). unfold get_components_mut, get_components, values_of. destruct (w !! h) as [e|] eqn:Ew.
      2: { rewrite (dead_entry _ _ _ _ _ _ H Ew). by exists None. }
      destruct (live_entry c U _ _ _ _ _ H Ew) as (en&i&j&t&m&a&Een&Ei&Ej&Hrow&Ht&Hj&->&Ha&Hta).
      destruct (tab_subset c U HU _ _ _ _ _ G Hta Hj HG Hv) as [E1 E2].
      rewrite Een, Ei, Ej, (arch_at_step _ _ _ Ha). cbn [rbind mbind option_bind en_vals].
      destruct (ad_contains_subset (a_desc a) (gd_arch (group_desc be G))) eqn:Es; cbn [negb].
      2: { exists None. split; [done|]. destruct (mapM (fun C => m !! ct_id C) G) as [vs|] eqn:Em; [|done]. exfalso.
           assert (Hall : has_all G (Ent (t_id t) m) = true); [|by pose proof (proj2 E1 (proj2 E2 Hall))]. apply has_all_spec. intros C [k Hk]%elem_of_list_lookup. cbn.
           apply mapM_Some in Em. destruct (Forall2_lookup_l _ _ _ _ _ Em Hk) as (v&_&Hv'). by exists v. }
      assert (Hsub : forall C, C ∈ G -> C ∈ t_cs t) by tauto.
      destruct (tuple_exists m G) as [vs Hvs]; [apply (has_all_spec G (Ent (t_id t) m)); tauto|].
      pose proof Hta as (Hid&Hok&_).
      destruct (fuzzy_components_ok (a_desc a) (t_cs t) (proj1 Hok) c G a _ _ _ _ vs eq_refl Hok Hj (proj1 (gvalid_iff c G) Hv) Hsub Hvs) as [Ev Eg].
      rewrite Eg, Ev. cbn [rbind]. eexists. split; [done|]. assert (mapM (fun C => m !! ct_id C) G = Some vs) as ->; [by apply mapM_Some|]. split; [done|].
      apply (points_like r T); [done|..].
      - unfold cells_of. rewrite map_map. change (@map ctype (N * ctype)) with (@fmap list _ ctype (N * ctype)). change (@map ctype loc) with (@fmap list _ ctype loc).
        apply Forall2_fmap_2. apply Forall_Forall2_diag, Forall_forall. intros C HC. exists i, (Sheet (t_id t) (t_cs t) (map fst (t_rows t))), j.
        split; [done|]. cbn [sh_ents sh_types fst snd]. split_and!; [| |by apply Hsub].
        + unfold skel. change (map ?f T) with (f <$> T). by rewrite list_lookup_fmap, Ht.
        + change (map fst (t_rows t)) with (fst <$> t_rows t). by rewrite list_lookup_fmap, Hj.
      - change (@map ctype (N * ctype)) with (@fmap list _ ctype (N * ctype)). apply NoDup_fmap_2; [by intros ?? [=]|]. apply NoDup_ids_NoDup, Hv.
      - change (@map ctype (N * ctype)) with (@fmap list _ ctype (N * ctype)). apply Forall2_fmap_l. eapply Forall2_impl; [exact Hvs|]. cbn. intros C v HC. unfold value_of. by rewrite Ew.
    Qed.
    Lemma single_aimed C h : C ∈ U ->
      exists res, get_component_mut c C h r = Rd res /\ get_component c C h r = Rd (value_of w h C) /\
        match res, value_of w h C with
        | Some l, Some v => aimed r w [l] [(h, C)] [v]
        | None, None => True
        | _, _ => False
        end.
    Proof.
      intros HC. destruct (history_ok c U HU _ _ _ _ Hh) as (T&D&H&_).
      assert (Eg : get_component c C h r = Rd (value_of w h C)).
      { destruct (step_total c U HU r T w (OpGet C h) H HC) as (out&r'&E&Ha&_). cbn in Ha. subst out. cbn [step] in E.
        apply bind_Ret_inv in E as (ol&r1&E1&E). unfold rm_rd in E1. destruct (get_component c C h r); [|done..]. injection E1 as -> _. by injection E as ->. }
      destruct (value_of w h C) as [v|] eqn:Ev.
      - unfold value_of in Ev. destruct (w !! h) as [e|] eqn:Ew; [|done]. cbn in Ev.
        destruct (live_entry c U _ _ _ _ _ H Ew) as (en&i&j&t&m&a&Een&Ei&Ej&Hrow&Ht&Hj&->&Ha&Hta). cbn in Ev.
        assert (Hp : points (skel T) (i, id_pos (ct_id C) (ids_of (t_cs t)), j) (h, C)).
        { exists i, (Sheet (t_id t) (t_cs t) (map fst (t_rows t))), j. split; [done|]. cbn [sh_ents sh_types fst snd]. split_and!.
          - unfold skel. change (map ?f T) with (f <$> T). by rewrite list_lookup_fmap, Ht.
          - change (map fst (t_rows t)) with (fst <$> t_rows t). by rewrite list_lookup_fmap, Hj.
          - apply (tab_has c U HU _ _ _ _ _ C Hta Hj HC). by exists v. }
        eexists. split; [exact (point_mut _ _ _ _ _ H Hp)|]. split; [done|]. apply (points_like r T); [done|by repeat constructor|apply NoDup_singleton|].
        repeat constructor. cbn. unfold value_of. rewrite Ew. done.
      - destruct (step_total c U HU r T w (OpSet C h (Value (ct_ty C) 0 false)) H) as (out&r'&E&Ha&_); [done|]. cbn in Ha. rewrite Ev in Ha. subst out. cbn [step] in E.
        apply bind_Ret_inv in E as (ol&r1&E1&E). unfold rm_rd in E1. destruct (get_component_mut c C h r) as [res| |]; [|done..]. injection E1 as -> <-.
        exists ol. split; [done|]. split; [done|]. destruct ol; [|done]. apply bind_Ret_inv in E as (o&r2&_&E). by injection E.
    Qed.
  End handed.
End codes.
