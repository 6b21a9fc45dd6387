(** Proofs for C61, continued: over bytes. *)
From Verif Require Import RegModel SpecTrace SpecEntity EntityProofs EntityTable SearchProofs DescrProofs MonadProofs ArchProofs ArchOps ArchOps2 ArchOps3 AregProofs IterProofs
  RegProofs RegOps RegOps2 RegOps3 RegIter RegMut RegExact Refine Ref Sizes Observe ByteReg Bytes Bytes2 Bytes3 Bytes4 Bytes5 Bytes6 Bytes7 Bytes8 Codes Codes2 Lazy LazyModel
  SpecBytes SpecBase SpecWorld SpecRef SpecCode SpecLazy.
Local Open Scope nat_scope.

Section bytes.
  Context {Fm : family} (c : cfg) (U : list ctype) (HU : universe (big c) U) (Hla : laid_out U).
  Notation be := (big c).
  Notation brel := (@Bytes5.brel U []).
  Notation arel := (@Bytes.arel U).
  Let Hst : strict (ids_of U) := proj1 HU.
  Let Hsm : Forall small U := proj1 (proj2 HU).
  Implicit Types (T : list tab) (w : world).

  Section iterator.
    Context {O : Type} (G : group) (accept : adesc -> bool) (shown : list N -> O) (next : areg -> itst -> rd (option (O * list (list loc)) * itst)).
    Context (bnext : breg -> itst -> rd (option (O * list (list bloc)) * itst)).
    Notation left r st := (filter (acc (r_ar r) accept) (indices (r_ar r) st)).
    Context (Hnext : forall r T w st, reg_ok be U r T w -> it_level st <= 14 ->
      exists o st', next (r_ar r) st = Rd (o, st') /\ it_level st' <= 14 /\
        match left r st with
        | [] => o = None /\ it_level st' = 14
        | i :: l => o = Some (shown (item_at T G i).1, slots_at T G i) /\ l = left r st'
        end).
    Definition same_item ds As (o : option (O * list (list loc))) (o' : option (O * list (list bloc))) : Prop :=
      match o, o' with
      | None, None => True
      | Some (x, cols), Some (x', cols') => x' = x /\ Forall2 (Forall2 (lr ds As)) cols cols'
      | _, _ => False
      end.
    Context (Hbnext : forall r R st o st', brel r R -> next (r_ar r) st = Rd (o, st') ->
      exists o', bnext R st = Rd (o', st') /\ same_item (descs r) (br_archs R) o o').
    Context (T0 : list tab).
    Notation es := (fun i => (item_at T0 G i).1).
    Notation slots V := (concat (concat (map (slots_at T0 G) V))).
    Notation them V := (concat (map (owners G) (map es V))).

    Lemma b_lazy_ok ds As cd : forall st ls bls who vs V rest r T w R,
      reg_ok be U r T w -> skel T = skel T0 -> it_level st <= 14 -> left r st = V -> brel r R -> descs r = ds -> br_archs R = As ->
      Forall2 (points (skel T0)) ls who -> Forall2 (lr ds As) ls bls -> Forall2 (points (skel T0)) (slots V) (them V) -> NoDup (who ++ them V) ->
      (forall i, i ∈ V -> Forall2 (points (skel T0)) (concat (slots_at T0 G i)) (owners G (es i))) ->
      Forall2 (has w) who vs -> Forall2 (fun i it => it.1 = es i /\ Forall2 (has w) (owners G it.1) (concat it.2)) V rest ->
      typed_lcode shown G (map snd who) cd -> exists R', let x := on_items shown vs rest cd in
        b_serve_lazy bnext st bls cd R = Ret x.1 R' /\
        brun c (writes_of shown G who vs rest cd) R = Ret (map (fun v => OutVal (Some v)) (got_out x.1)) R' /\
        forall b, within be U (writes_of shown G who vs rest cd) b.
    Proof using HU Hla Hnext Hbnext.
      induction cd as [|k IH|p k IH|p v k IH]; intros st ls bls who vs V rest r T w R H HS Hsl14 HV Hb Hds HAs Hps Hlr Hpr Hnd Hsl Hvs Hrest Ht.
      - exists R. done.
      - cbn [typed_lcode] in Ht. destruct Ht as [Ht0 Ht1]. destruct (Hnext r T w st H Hsl14) as (o&st'&En&Hst'&Ho). rewrite HV in Ho.
        destruct (Hbnext _ _ _ _ _ Hb En) as (o'&Eb&Hsame). rewrite Hds, HAs in Hsame.
        destruct Hrest as [|i it V rest [Eit Hit] Hrest].
        + destruct Ho as [-> H14]. destruct o' as [[? ?]|]; [done|]. destruct (IH None st' ls bls who vs [] [] r T w R) as (R'&E1&E2&E3); try done.
          { destruct st' as [lv ix]. cbn in H14. subst lv. rewrite indices_end; [done|]. apply H. }
          exists R'. cbn [b_serve_lazy on_items writes_of put_in got_out fst snd omap list_omap]. split; [|done].
          unfold bind at 1, bq_rd. rewrite Eb. cbn [lift_rd]. unfold ret at 1. by rewrite (bind_Ret _ _ _ _ _ E1).
        + destruct Ho as [-> Hl]. destruct o' as [[x' cols']|]; [|done]. destruct Hsame as [-> Hcols]. destruct (skel_item T0 T G i HS) as [Ee Es]. rewrite Es in Hcols.
          cbn [map concat] in Hnd, Hpr.
          destruct (IH (Some (shown it.1)) st' (ls ++ concat (slots_at T0 G i)) (bls ++ concat cols') (who ++ owners G (es i)) (vs ++ concat it.2) V rest r T w R) as (R'&E1&E2&E3); try done.
          { apply Forall2_app; [done|]. apply Hsl. by left. }
          { apply Forall2_app; [done|]. by apply Forall2_concat2. }
          { clear -Hsl. induction V as [|j V IH]; cbn [map concat]; [constructor|]. rewrite concat_app. apply Forall2_app; [apply Hsl; right; by left|].
            apply IH. intros j' [->|Hj]%elem_of_cons; apply Hsl; [by left|right; by right]. }
          { by rewrite <- app_assoc. }
          { intros j Hj. apply Hsl. by right. }
          { apply Forall2_app; [done|]. by rewrite <- Eit. }
          { rewrite map_app, owners_types, Eit. rewrite <- Eit. apply Ht1. }
          exists R'. cbn [b_serve_lazy on_items writes_of put_in got_out fst snd omap list_omap]. rewrite Eit in *. split; [|done].
          unfold bind at 1, bq_rd. rewrite Eb. cbn [lift_rd]. unfold ret at 1. rewrite Ee. by rewrite (bind_Ret _ _ _ _ _ E1).
      - cbn [typed_lcode] in Ht; destruct Ht as (C&HC&Ht); change (map snd who) with (snd <$> who) in HC; rewrite list_lookup_fmap in HC.
        destruct (who !! p) as [x|] eqn:Hx; [|done]. injection HC as <-.
        destruct (Forall2_lookup_r _ _ _ _ _ Hps Hx) as (l&Hl&Hp). destruct (Forall2_lookup_l _ _ _ _ _ Hvs Hx) as (old&Ho&Hold).
        destruct (Forall2_lookup_l _ _ _ _ _ Hlr Hl) as (bl&Hbl&Hlb).
        rewrite <- HS in Hp. destruct (point_look c U HU _ _ _ _ _ _ H Hp Hold) as [El Hfo].
        destruct (IH old st ls bls who vs V rest r T w R) as (R'&E1&E2&E3); try done; [by apply Ht|].
        exists R'. cbn [b_serve_lazy on_items writes_of]. rewrite Hbl, Ho. cbn [put_in got_out fst snd omap list_omap]. split; [|done].
        rewrite <- Hds, <- HAs in Hlb. by rewrite (bind_Ret _ _ _ _ _ (look_sim c U HU _ _ _ _ _ Hb Hlb El)), (bind_Ret _ _ _ _ _ E1).
      - cbn [typed_lcode] in Ht; destruct Ht as (C&HC&Hfv&Ht); change (map snd who) with (snd <$> who) in HC; rewrite list_lookup_fmap in HC.
        destruct (who !! p) as [x|] eqn:Hx; [|done]. injection HC as <-.
        destruct (Forall2_lookup_r _ _ _ _ _ Hps Hx) as (l&Hl&Hp). destruct (Forall2_lookup_l _ _ _ _ _ Hvs Hx) as (old&Ho&Hold).
        destruct (Forall2_lookup_l _ _ _ _ _ Hlr Hl) as (bl&Hbl&Hlb).
        rewrite <- HS in Hp. destruct (point_look c U HU _ _ _ _ _ _ H Hp Hold) as [_ Hfo].
        destruct (point_set c U HU _ _ _ _ _ _ _ H Hp Hold Hfv) as (r1&T1&Er&Es&H1&HS1).
        destruct (point_row c U HU _ _ _ _ _ H Hp) as (?&?&?&?&?&?&_&_&_&_&_&_&_&Hw&HCU&_).
        assert (Hk : NoDup (map key (who ++ them V))).
        { apply (key_inj c U HU); [|done]. pose proof (Forall2_app Hps Hpr) as Hall. intros y [q Hq]%elem_of_list_lookup.
          destruct (Forall2_lookup_r _ _ _ _ _ Hall Hq) as (lq&_&Hpq). rewrite <- HS in Hpq.
          by destruct (point_row c U HU _ _ _ _ _ H Hpq) as (_&_&_&_&_&_&_&_&_&_&_&_&_&_&?&_). }
        destruct (get_mut_sim c U HU Hla _ _ _ _ _ Hb HCU (point_mut c U HU _ _ _ _ _ H Hp)) as (bl'&Eg&Hlb'). rewrite Hds, HAs in Hlb'.
        rewrite (lr_fun _ _ _ _ _ Hlb' Hlb) in Eg. clear bl' Hlb'.
        destruct (wsim_replace Hsm _ _ _ _ v Hlb _ _ _ _ Hb Hds HAs Er) as (R1&ER&Hb1&Hds1&HAs1).
        destruct (IH old st ls bls who (<[p := v]> vs) V rest r1 T1 (put1 x v w) R1) as (R'&E1&E2&E3); try done.
        { by rewrite HS1. }
        { rewrite (keys_filter r r1); [done|]. by eapply replace_keys. }
        { rewrite map_app in Hk. apply NoDup_app in Hk as [Hk _]. by apply values_put1. }
        { rewrite map_app in Hk. apply NoDup_app in Hk as (_&Hk&_). clear -Hrest Hk Hx.
          assert (Hxk : key x ∈ map key who). { change (map key who) with (key <$> who). apply elem_of_list_fmap. exists x. split; [done|]. by eapply elem_of_list_lookup_2. }
          specialize (Hk _ Hxk). clear Hx Hxk. induction Hrest as [|i it V rest [E Hit] Hr IH]; constructor.
          - split; [done|]. cbn [map concat] in Hk. rewrite <- E, map_app in Hk. rewrite elem_of_app in Hk.
            assert (Hk1 : key x ∉ map key (owners G it.1)) by naive_solver. clear -Hk1 Hit. induction Hit as [|y u ys us Hyu Hr IH]; constructor.
            + unfold has. rewrite put1_value. destruct (decide _) as [[E1 E2]|_]; [|exact Hyu]. exfalso. apply Hk1.
              assert (key x = key y) as -> by (unfold key; by rewrite E1, E2). cbn [map]. by left.
            + apply IH. intros F. apply Hk1. cbn [map]. by right.
          - apply IH. intros F. apply Hk. cbn [map concat]. rewrite map_app, elem_of_app. by right. }
        { by apply Ht. }
        exists R'. cbn [b_serve_lazy on_items writes_of]. rewrite Hbl, Ho, Hx. cbn [put_in got_out fst snd omap list_omap map brun]. split; [|split].
        + by rewrite (bind_Ret _ _ _ _ _ ER), (bind_Ret _ _ _ _ _ E1).
        + assert (Eb : bstep c (OpSet x.2 x.1 v) R = Ret (OutVal (Some old)) R1).
          { cbn [bstep]. unfold bind at 1, bq_rd. rewrite Eg. cbn [lift_rd]. unfold ret at 1. by rewrite (bind_Ret _ _ _ _ _ ER). }
          by rewrite (bind_Ret _ _ _ _ _ Eb), (bind_Ret _ _ _ _ _ E2).
        + intros b. cbn [within]. split; [done|]. apply E3.
    Qed.
  End iterator.

  Lemma slices_next_sim {I J} r R G accept (item : nat -> arch -> rd I) (bitem : barch -> mem -> rd J) (Q : I -> J -> Prop) st o st' : brel r R ->
    (forall i a A x, archs r !! i = Some a -> br_archs R !! i = Some A -> arel (m_blocks (br_mem R)) a A -> item i a = Rd x ->
       exists y, bitem A (br_mem R) = Rd y /\ Q x y) ->
    slices_next c G accept item (r_ar r) st = Rd (o, st') ->
    exists o', b_slices_next c G accept bitem R st = Rd (o', st') /\ match o, o' with Some x, Some y => Q x y | None, None => True | _, _ => False end.
  Proof.
    intros H Hitem E. unfold slices_next in E. unfold b_slices_next. rewrite (arch_iter_next_sim (U := U) _ _ _ _ _ _ H).
    destruct (arch_iter_next _ _ _ _ _) as [[[i|] st1]| |]; cbn [rbind] in *; [|injection E as <- <-; by exists None|done|done].
    fold (archs r) in E. destruct (archs r !! i) as [a|] eqn:Ea; cbn [rbind] in E; [|done]. destruct (brel_at _ _ _ _ H Ea) as (A&EA&Hr). rewrite EA.
    destruct (item i a) as [x| |] eqn:Ei; cbn [rbind] in E; [|done..]. injection E as <- <-. destruct (Hitem _ _ _ _ Ea EA Hr Ei) as (y&->&HQ). cbn [rbind]. by exists (Some y).
  Qed.

  Section program.
    Context (place : N -> N) (ops : list op) (out : list output) (R : breg).
    Context (Hw : within be U ops book_empty) (Er : brun c ops (breg_default place) = Ret out R).
    Context (G : group) (HG : in_U U G) (Hv : gvalid be G) (accept : adesc -> bool).
    Context (Hacc : forall a t, tab_ok be U a t -> accept (a_desc a) = true -> forall C, C ∈ G -> C ∈ t_cs t).
    Lemma lazy_bytes P (HP : forall a t h m, tab_ok be U a t -> (h, m) ∈ t_rows t -> (P (Ent (t_id t) m) = true <-> accept (a_desc a) = true)) :
      exists items, b_slices_collect c G accept (b_get_entity_fuzzy_slices c G) R = Rd (Some items) /\
        lazy_like_list_bytes c U place ops out R G (b_slices_next c G accept (b_get_entity_fuzzy_slices_mut c G)) id items /\
        lazy_like_list_bytes c U place ops out R G
          (b_slices_next c G accept (fun a m => letr cols := b_get_fuzzy_slices_mut c G a m in Rd (slice_len cols, cols))) length items.
    Proof using HU Hla Hw Er HG Hv Hacc.
      destruct (brun_history c U HU Hla place ops Hw) as (r&R1&w&Inn&Out&_&Eb&Hh&Hb). rewrite Er in Eb. injection Eb as _ <-. destruct (gspec_valid c G Hv) as [s Hg].
      destruct (lazy_ent c U HU r w Inn Out Hh G HG Hv accept Hacc P HP) as (items&E0&Hvis&_).
      exists items. split.
      { eapply (slices_collect_eq (U := U) (L := [])); [exact Hb| |exact E0]. intros a A x Hr. by apply (entity_fuzzy_slices_sim Hst Hsm Hla _ _ _ Hg HG). }
      destruct (history_ok c U HU _ _ _ _ Hh) as (T&D&H&_). assert (Hgv : gd_is_valid (group_desc be G) = true) by (by apply gvalid_iff).
      destruct (collects c U r T w H G Hv _ Hacc) as (_&E1&_). rewrite E0 in E1. injection E1 as ->. pose proof (covers_V c U r T w H G Hv _ Hacc _ HP) as Hc.
      destruct (covers_like c U HU r T w _ G _ H HG Hv Hc) as [_ (T'&_&_&Hnd&_)]. clear T'.
      destruct (iter_new c G Hv) as [Enew Hlen].
      assert (Hgen : forall (O : Type) (shown : list N -> O) (item : nat -> arch -> rd (O * list (list loc))) (bitem : barch -> mem -> rd (O * list (list bloc))),
        (forall r1 T1 w1 i a, reg_ok be U r1 T1 w1 -> ar_archs (r_ar r1) !! i = Some a -> accept (a_desc a) = true ->
           item i a = Rd (shown (item_at T1 G i).1, slots_at T1 G i)) ->
        (forall r1 R1 i a A x, brel r1 R1 -> archs r1 !! i = Some a -> br_archs R1 !! i = Some A -> arel (m_blocks (br_mem R1)) a A -> item i a = Rd x ->
           exists y, bitem A (br_mem R1) = Rd y /\ y.1 = x.1 /\ Forall2 (Forall2 (lr (descs r1) (br_archs R1))) x.2 y.2) ->
        lazy_like_list_bytes c U place ops out R G (b_slices_next c G accept bitem) shown (map (item_at T G) (visited c G (r_ar r) accept))).
      { intros O shown item bitem Hitem Hbitem cd Ht.
        destruct (b_lazy_ok G accept shown (slices_next c G accept item) (b_slices_next c G accept bitem)) with (T0 := T) (ds := descs r) (As := br_archs R) (cd := cd)
          (st := ItSt (glen c G - 1) 0) (ls := @nil loc) (bls := @nil bloc) (who := @nil (N * ctype)) (vs := @nil value)
          (V := visited c G (r_ar r) accept) (rest := map (item_at T G) (visited c G (r_ar r) accept)) (r := r) (T := T) (w := w) (R := R) as (R'&F1&F2&F3).
        - intros r1 T1 w1 st H1 Hst'. eapply slices_next_spec; [apply H1| |done|done]. intros i a Ha Hx. by eapply Hitem.
        - intros r1 R1 st o st' Hb1 E. destruct (slices_next_sim r1 R1 G accept item bitem
            (fun x y => y.1 = x.1 /\ Forall2 (Forall2 (lr (descs r1) (br_archs R1))) x.2 y.2) st o st' Hb1) as (o'&Eo&Ho); [|exact E|].
          + intros. by eapply Hbitem.
          + exists o'. split; [exact Eo|]. destruct o as [[]|], o' as [[]|]; done.
        - exact H.
        - done.
        - cbn. lia.
        - done.
        - exact Hb.
        - done.
        - done.
        - constructor.
        - constructor.
        - pose proof (slots_points_all _ _ _ _ Hc) as Hp. by rewrite (map_map _ fst) in Hp.
        - cbn [app]. by rewrite (map_map _ fst) in Hnd.
        - intros i Hi. destruct (cv_tab _ _ _ _ Hc i Hi) as (t&Ei&HGt). by eapply slots_points.
        - constructor.
        - change (map (item_at T G) ?l) with (item_at T G <$> l). apply Forall2_fmap_r, Forall_Forall2_diag, Forall_forall. intros i Hi. split; [done|].
          destruct Hvis as (_&_&Hvis). rewrite Forall_forall in Hvis. assert (Hin : item_at T G i ∈ map (item_at T G) (visited c G (r_ar r) accept)).
          { change (map ?f ?l) with (f <$> l). apply elem_of_list_fmap. by exists i. }
          specialize (Hvis _ Hin). clear -Hvis. unfold item_at in *. cbn [fst snd] in *. unfold owners.
          induction Hvis as [|C col G' cols Hcc H IH]; cbn [map concat]; [constructor|]. apply Forall2_app; [|done].
          clear -Hcc. induction Hcc; cbn [map]; by constructor.
        - exact Ht.
        - exists R'. cbn zeta in *. unfold b_lazily. rewrite (bind_Ret _ _ _ _ _ (lift_Rd _ _ _ Enew)). split; [exact F1|].
          split; [by apply within_app|]. rewrite (brun_app _ _ _ _ _ _ Er). by rewrite (bind_Ret _ _ _ _ _ F2). }
      split.
      - apply (Hgen _ id (fun i a => letr x := get_entity_fuzzy_slices_mut c G a in Rd (x.1, locate i x.2))).
        + intros r1 T1 w1 i a H1 Ha Hx. by destruct (slices_are c U r1 T1 w1 H1 G Hv accept Hacc i a Ha Hx) as (_&_&_&E4).
        + intros r1 R1 i a A x Hb1 Ha HA Hr E. destruct (get_entity_fuzzy_slices_mut c G a) as [[es cols]| |] eqn:Ec; cbn [rbind] in E; [|done..]. injection E as <-.
          destruct (entity_fuzzy_slices_mut_sim Hst Hsm Hla _ _ _ Hg HG _ _ _ _ _ eq_refl Hr Ec) as ([es' bcols]&Eb&Hes&Hb'). exists (es', bcols). split; [done|].
          split; [done|]. cbn [fst snd] in *. by eapply locate_lr.
      - apply (Hgen _ length (fun i a => letr cols := get_fuzzy_slices_mut c G a in Rd (slice_len cols, locate i cols))).
        + intros r1 T1 w1 i a H1 Ha Hx. by apply (plain_item c U r1 T1 w1 H1 G Hv accept Hacc).
        + intros r1 R1 i a A x Hb1 Ha HA Hr E. destruct (get_fuzzy_slices_mut c G a) as [cols| |] eqn:Ec; cbn [rbind] in E; [|done..]. injection E as <-.
          destruct (fuzzy_slices_mut_sim Hst Hsm Hla _ _ _ Hg HG _ _ _ _ _ eq_refl Hr Ec) as (bcols&Eb&Hb'). rewrite Eb. cbn [rbind]. eexists. split; [done|]. cbn [fst snd].
          split; [|by eapply locate_lr]. destruct Hb' as [|col bcol cols bcols Hcol _]; [done|]. cbn. symmetry. by eapply Forall2_length.
    Qed.
  End program.

  Lemma matching_lazy_bytes place ops out R G : within be U ops book_empty -> brun c ops (breg_default place) = Ret out R -> in_U U G -> gvalid be G ->
    exists items, b_iter_entity_matching c G R = Rd (Some items) /\
      lazy_like_list_bytes c U place ops out R G (b_next_entity_matching_mut c G) id items /\
      lazy_like_list_bytes c U place ops out R G (b_next_matching_mut c G) length items.
  Proof using HU Hla.
    intros Hw Er HG Hv. exact (lazy_bytes place ops out R Hw Er G HG Hv _ (matching_accepts c U HU G HG Hv) _ (matching_P c U HU G HG Hv)).
  Qed.
  Lemma filtered_lazy_bytes place ops out R G f : within be U ops book_empty -> brun c ops (breg_default place) = Ret out R -> in_U U G -> gvalid be G -> respects f ->
    exists items, b_iter_entity_filtered c G f R = Rd (Some items) /\
      lazy_like_list_bytes c U place ops out R G (b_next_entity_filtered_mut c G f) id items /\
      lazy_like_list_bytes c U place ops out R G (b_next_filtered_mut c G f) length items.
  Proof using HU Hla.
    intros Hw Er HG Hv Hf. exact (lazy_bytes place ops out R Hw Er G HG Hv _ (filtered_accepts c U HU G f HG Hv) _ (filtered_P c U HU G f HG Hv Hf)).
  Qed.
End bytes.
