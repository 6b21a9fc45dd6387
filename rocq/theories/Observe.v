(** What clients observe, derived from the refinement. *)
From Verif Require Import RegModel SpecTrace SpecEntity EntityProofs EntityTable SearchProofs DescrProofs MonadProofs ArchProofs ArchOps ArchOps2 ArchOps3 AregProofs IterProofs RegProofs RegOps RegOps2 RegOps3 RegIter RegMut RegExact Refine SpecObs SpecBase SpecWorld.
Local Open Scope nat_scope.

Lemma ret_after {S A B} (m : M S A) (g : A -> B) s out s' :
  (let! x := m in ret (g x)) s = Ret out s' -> exists x, m s = Ret x s' /\ out = g x.
Proof. unfold bind. destruct (m s) as [x s1| |]; [|done..]. intros [= <- <-]. by exists x. Qed.
Lemma rd_after {A B} (f : reg -> rd A) (g : A -> B) s out s' :
  (let! x := rm_rd f in ret (g x)) s = Ret out s' -> exists x, f s = Rd x /\ out = g x /\ s' = s.
Proof. intros (x&E&->)%ret_after. unfold rm_rd, lift_rd in E. destruct (f s); inversion E; subst. eauto. Qed.
Lemma iter_after {A B} (f : reg -> rd (option A)) (g : A -> B) s out s' :
  (let! x := rm_rd f in let! x := unwrap x in ret (g x)) s = Ret out s' -> exists x, f s = Rd (Some x) /\ out = g x /\ s' = s.
Proof.
  unfold bind at 1, rm_rd, lift_rd. destruct (f s) as [[x|]| |]; try done. intros (y&E&->)%ret_after. inversion E; subst. eauto.
Qed.

Section observe.
  Context {Fm : family} (c : cfg) (U : list ctype) (HU : universe (big c) U).
  Notation be := (big c).

  Lemma obs_shows r T w h C v : reg_ok be U r T w -> C ∈ U -> shows c r h C v <-> v = value_of w h C.
  Proof.
    intros H HC. destruct (get_ok c U HU _ _ _ C h H HC) as (out&r'&E&Ha&_). cbn [step] in E.
    apply rd_after in E as (x&E&->&->). cbn in Ha. injection Ha as ->. unfold shows. rewrite E. split; [by intros [= <-]|by intros ->].
  Qed.
  Lemma obs_alive r T w h : reg_ok be U r T w -> alive c r h <-> is_Some (w !! h).
  Proof.
    intros H. rewrite <- (not_eq_None_Some (w !! h)), <- (loc_world _ _ _ _ _ h H). unfold alive, entry_of, loc_of.
    destruct (er_entity_entry be (r_er r) h) as [e|]; cbn.
    - split; [done|]. by exists e.
    - split; [by intros [? ?]|done].
  Qed.
  Lemma obs_same r T w r' T' w' h : reg_ok be U r T w -> reg_ok be U r' T' w' -> en_vals <$> w' !! h = en_vals <$> w !! h -> same c U r r' h.
  Proof.
    intros H H' E. split.
    - rewrite (obs_alive _ _ _ _ H), (obs_alive _ _ _ _ H'). rewrite <- (fmap_is_Some en_vals (w' !! h)), <- (fmap_is_Some en_vals (w !! h)). by rewrite E.
    - intros C v HC. rewrite (obs_shows _ _ _ _ _ _ H HC), (obs_shows _ _ _ _ _ _ H' HC).
      assert (value_of w' h C = value_of w h C) as ->; [|done]. unfold value_of.
      destruct (w !! h), (w' !! h); cbn in *; congruence.
  Qed.
  Lemma obs_all_same r T w r' T' w' : reg_ok be U r T w -> reg_ok be U r' T' w' -> w' = w -> all_same c U r r'.
  Proof. intros H H' -> h. by eapply obs_same. Qed.
  Lemma elem_U_ids C G : C ∈ U -> in_U U G -> C ∉ G -> ct_id C ∉ ids_of G.
  Proof.
    intros HC HG Hn (C'&HC'&E)%elem_of_ids. apply Hn. assert (C' = C) as <-; [|done].
    eapply (ids_inj U); [apply (U_nodup _ _ HU)|by apply (in_U_elem _ _ _ HG)|done|done].
  Qed.
  Lemma obs_consists r T w h e G vs : reg_ok be U r T w -> in_U U G -> NoDup (ids_of G) -> length vs = length G ->
    w !! h = Some e -> en_vals e = vmap G vs -> consists c U r h G vs.
  Proof.
    intros H HG Hnd Hl Hw Ev. split; [|split].
    - rewrite (obs_alive _ _ _ _ H). by exists e.
    - intros i C v HC Hv. apply (obs_shows _ _ _ _ _ _ H); [apply (in_U_elem _ _ _ HG); by eapply elem_of_list_lookup_2|].
      unfold value_of. rewrite Hw. cbn. rewrite Ev. symmetry. by eapply vmap_lookup.
    - intros C HC HnC. apply (obs_shows _ _ _ _ _ _ H); [done|]. unfold value_of. rewrite Hw. cbn. rewrite Ev. symmetry. apply vmap_none.
      by apply elem_U_ids.
  Qed.
  Lemma obs_has_each r T w h G : reg_ok be U r T w -> in_U U G ->
    has_each c r h G <-> exists e, w !! h = Some e /\ has_all G e = true.
  Proof.
    intros H HG. unfold has_each. rewrite (obs_alive _ _ _ _ H). split.
    - intros ([e He]&HC). exists e. split; [done|]. unfold has_all. apply forallb_forall. intros C HinC%elem_of_list_In.
      apply bool_decide_eq_true. destruct (HC C HinC) as [v Hv]. apply (obs_shows _ _ _ _ _ _ H) in Hv; [|by apply (in_U_elem _ _ _ HG)].
      unfold value_of in Hv. rewrite He in Hv. cbn in Hv. by exists v.
    - intros (e&He&Hall). split; [by exists e|]. intros C HC. unfold has_all in Hall. rewrite forallb_forall in Hall.
      specialize (Hall C (proj1 (elem_of_list_In _ _) HC)). apply bool_decide_eq_true in Hall as [v Hv]. exists v.
      apply (obs_shows _ _ _ _ _ _ H); [by apply (in_U_elem _ _ _ HG)|]. unfold value_of. by rewrite He.
  Qed.
  Lemma obs_iterates r T w P Q G items : reg_ok be U r T w -> in_U U G ->
    (forall h, P h <-> exists e, w !! h = Some e /\ Q e = true) -> visits w Q G items -> iterates c r P G items.
  Proof.
    intros H HG HP (Hnd&Hm&HF). split; [done|]. split; [intros h; by rewrite HP, Hm|]. intros it Hit.
    rewrite Forall_forall in HF. specialize (HF _ Hit). cbn in HF.
    assert (HGG : Forall (fun C => C ∈ U) G) by exact HG.
    revert HGG HF. generalize it.2. induction G as [|C G IH]; intros cols HGG HF; inversion HF; subst; [constructor|].
    apply Forall_cons in HGG as [HC HGG]. constructor; [|by apply IH].
    eapply Forall2_impl; [done|]. intros h v Hv. cbn in Hv. by apply (obs_shows _ _ _ _ _ _ H).
  Qed.

  (** ** The calls, from the refinement *)
  Section calls.
    Context (r : reg) (w : world) (I O : list value) (Hh : history c U r w I O).

    Ltac call := match goal with Hc : contract _ _ _ ?o |- _ =>
      destruct (history_ok c U HU _ _ _ _ Hh) as (T&D&H&_);
      destruct (step_total c U HU _ _ _ _ H Hc) as (out&r'&E&Ha&T'&D'&H'&_&_); cbn [step] in E end.

    Lemma create_observed G vs : contract be U w (OpCreate G vs) ->
      exists res r', create_entity c G vs r = Ret res r' /\
        ((exists h, res = Ok h /\ creatable be U (table_full r) (archetypes_full r) G vs /\
            ~ alive c r h /\ consists c U r' h G vs /\ others_same c U r r' h) \/
         (res = Err vs /\ ~ creatable be U (table_full r) (archetypes_full r) G vs /\ all_same c U r r')).
    Proof.
      intros Hc. call. apply ret_after in E as (res&E&->). exists res, r'. split; [done|]. cbn in Ha.
      destruct Ha as [(Hcr&h&[= ->]&Hw&_)|(Hcr&[= ->])].
      - left. exists h. split; [done|]. split; [done|]. cbn in H'. destruct Hc as (HG&HF&_). split; [|split].
        + rewrite (obs_alive _ _ _ _ H), Hw. by intros [? ?].
        + eapply obs_consists; [exact H'|done|apply Hcr|symmetry; by eapply Forall2_length|by rewrite lookup_insert|done].
        + intros h' Hne. eapply obs_same; [exact H|exact H'|]. by rewrite lookup_insert_ne.
      - right. split; [done|]. split; [done|]. by eapply obs_all_same.
    Qed.
    Lemma calm_shown h : (forall C v, C ∈ U -> shows c r h C (Some v) -> v_bomb v = false) -> contract be U w (OpDestroy h).
    Proof.
      intros Hb e He x v Hv. destruct (history_ok _ _ HU _ _ _ _ Hh) as (T&D&H&_).
      destruct (live_entry c U _ _ _ _ _ H He) as (en&i&j&t&m&a&_&_&_&_&_&Hj&->&_&Hta). cbn [en_vals] in Hv.
      destruct (tab_row _ _ HU _ _ _ _ _ Hta Hj) as (Hfull&_&Htm).
      assert (Hx : x ∈ ids_of (t_cs t)) by (apply Hfull; eauto). apply elem_of_ids in Hx as (C&HC&<-).
      rewrite <- Htm in HC. unfold types in HC. apply elem_of_list_filter in HC as [_ HC].
      apply (Hb C v HC). apply (obs_shows _ _ _ _ _ _ H HC). unfold value_of. by rewrite He.
    Qed.
    Lemma destroy_observed h : (forall C v, C ∈ U -> shows c r h C (Some v) -> v_bomb v = false) ->
      exists b r', destroy_entity c h r = Ret b r' /\ (b = true <-> alive c r h) /\ ~ alive c r' h /\
        others_same c U r r' h /\ (b = false -> all_same c U r r').
    Proof.
      intros Hb0. assert (Hc : contract be U w (OpDestroy h)) by (by apply calm_shown). call. apply ret_after in E as (b&E&->). exists b, r'. split; [done|]. cbn in Ha. injection Ha as Hb.
      destruct b; cbn in H'; rewrite (obs_alive _ _ _ _ H), (obs_alive _ _ _ _ H').
      - symmetry in Hb. apply bool_decide_eq_true in Hb. split; [done|]. rewrite lookup_delete. split; [by intros [? ?]|]. split; [|done].
        intros h' Hne. eapply obs_same; [exact H|exact H'|]. by rewrite lookup_delete_ne.
      - symmetry in Hb. apply bool_decide_eq_false in Hb. split; [done|]. split; [done|].
        assert (all_same c U r r') by (by eapply obs_all_same). split; [intros ? _; auto|done].
    Qed.
    Lemma remove_entity_observed G h : contract be U w (OpRemoveEntity G h) ->
      exists res r', remove_entity c G h r = Ret res r' /\ ~ alive c r' h /\ others_same c U r r' h /\
        ((exists vs, res = Some vs /\ has_exactly c U r h G /\ Forall2 (fun C v => shows c r h C (Some v)) G vs) \/
         (res = None /\ ~ alive c r h /\ all_same c U r r')).
    Proof.
      intros Hc. call. apply ret_after in E as (res&E&->). exists res, r'. split; [done|]. cbn in Ha. injection Ha as ->.
      unfold values_of in *. destruct Hc as (HG&Hm). destruct (w !! h) as [e|] eqn:Ew; cbn in H' |- *.
      - destruct (Hm e eq_refl) as (Hv&Hf).
        assert (exists vs, mapM (fun C => en_vals e !! ct_id C) G = Some vs /\ Forall2 (fun C v => en_vals e !! ct_id C = Some v) G vs) as (vs&Evs&HF).
        { destruct (mapM (fun C => en_vals e !! ct_id C) G) as [vs|] eqn:Evs; [exists vs; split; [done|by apply mapM_Some]|].
          exfalso. apply mapM_None in Evs. apply Exists_exists in Evs as (C&HC&E'). destruct (proj2 (Hf (ct_id C))); [apply elem_of_ids; eauto|]. congruence. }
        rewrite Evs in H' |- *. cbn in H'. rewrite (obs_alive _ _ _ _ H'), lookup_delete. split; [by intros [? ?]|]. split.
        { intros h' Hne. eapply obs_same; [exact H|exact H'|]. by rewrite lookup_delete_ne. }
        left. exists vs. split; [done|].
        assert (HS : Forall2 (fun C v => shows c r h C (Some v)) G vs).
        { apply Forall2_same_length_lookup. split; [by eapply Forall2_length|]. intros i C v HC Hv'.
          pose proof (Forall2_lookup_lr _ _ _ _ _ _ HF HC Hv') as E'. cbn in E'.
          apply (obs_shows _ _ _ _ _ _ H); [apply (in_U_elem _ _ _ HG); by eapply elem_of_list_lookup_2|]. unfold value_of. rewrite Ew. cbn. done. }
        split; [|done]. split; [split|].
        + rewrite (obs_alive _ _ _ _ H), Ew. done.
        + intros C [i HC]%elem_of_list_lookup. destruct (Forall2_lookup_l _ _ _ _ _ HS HC) as (v&_&?). by exists v.
        + intros C HC HnC. apply (obs_shows _ _ _ _ _ _ H); [done|]. unfold value_of. rewrite Ew. cbn. symmetry. apply eq_None_not_Some.
          rewrite (Hf (ct_id C)). by apply elem_U_ids.
      - assert (all_same c U r r') as Hs by (by eapply obs_all_same). rewrite (obs_alive _ _ _ _ H'), (obs_alive _ _ _ _ H), Ew.
        assert (Hn : ~ is_Some (None : option ent)) by (by intros [? ?]). split; [done|]. split; [intros ? _; auto|]. by right.
    Qed.

    Lemma get_observed C h : C ∈ U ->
      exists v, shows c r h C v /\ has_component c C h r = Rd (bool_decide (is_Some v)) /\ (is_Some v -> alive c r h).
    Proof.
      intros HC. destruct (history_ok c U HU _ _ _ _ Hh) as (T&D&H&_). exists (value_of w h C).
      split; [by apply (obs_shows _ _ _ _ _ _ H)|]. split.
      - destruct (has_ok c U HU _ _ _ C h H HC) as (out&r'&E&Ha&_). cbn [step] in E. apply rd_after in E as (x&E&->&->).
        cbn in Ha. by injection Ha as ->.
      - rewrite (obs_alive _ _ _ _ H). unfold value_of. destruct (w !! h); [done|]. by intros [? ?].
    Qed.
    Lemma has_all_observed G h : in_U U G -> gvalid be G ->
      exists b, has_components c G h r = Rd b /\ (b = true <-> has_each c r h G).
    Proof.
      intros HG Hv. destruct (history_ok c U HU _ _ _ _ Hh) as (T&D&H&_). destruct (has_all_ok c U HU _ _ _ G h H (conj HG Hv)) as (out&r'&E&Ha&_).
      cbn [step] in E. apply rd_after in E as (x&E&->&->). exists x. split; [done|]. cbn in Ha. injection Ha as ->.
      rewrite (obs_has_each _ _ _ _ _ H HG). destruct (w !! h) as [e|]; [|naive_solver]. split; [eauto|]. by intros (?&[= ->]&?).
    Qed.
    Lemma get_all_observed G h : in_U U G -> gvalid be G ->
      exists res, get_components c G h r = Rd res /\ (is_Some res <-> has_each c r h G) /\
        forall vs, res = Some vs -> Forall2 (fun C v => shows c r h C (Some v)) G vs.
    Proof.
      intros HG Hv. destruct (history_ok c U HU _ _ _ _ Hh) as (T&D&H&_). destruct (get_all_ok c U HU _ _ _ G h H (conj HG Hv)) as (out&r'&E&Ha&_).
      cbn [step] in E. apply rd_after in E as (x&E&->&->). exists x. split; [done|]. cbn in Ha. injection Ha as ->.
      rewrite (obs_has_each _ _ _ _ _ H HG). unfold values_of. destruct (w !! h) as [e|] eqn:Ew; cbn.
      - assert (Hiff : is_Some (mapM (fun C => en_vals e !! ct_id C) G) <-> has_all G e = true).
        { unfold has_all. rewrite forallb_forall. rewrite mapM_is_Some, Forall_forall. setoid_rewrite elem_of_list_In.
          split; intros Hx C HC; specialize (Hx C HC); [apply bool_decide_eq_true; exact Hx|apply bool_decide_eq_true in Hx; exact Hx]. }
        split; [rewrite Hiff; naive_solver|]. intros vs Evs. apply mapM_Some in Evs. apply Forall2_same_length_lookup. split; [by eapply Forall2_length|].
        intros i C v HC Hv'. pose proof (Forall2_lookup_lr _ _ _ _ _ _ Evs HC Hv') as E'. cbn in E'.
        apply (obs_shows _ _ _ _ _ _ H); [apply (in_U_elem _ _ _ HG); by eapply elem_of_list_lookup_2|]. unfold value_of. by rewrite Ew.
      - split; [|done]. split; [by intros [? ?]|naive_solver].
    Qed.

    (** *** Writing through references *)
    Lemma set_observed C h v : contract be U w (OpSet C h v) ->
      exists res, get_component_mut c C h r = Rd res /\
        match res with
        | None => shows c r h C None
        | Some l => exists old r', replace_loc l v r = Ret old r' /\ shows c r h C (Some old) /\ shows c r' h C (Some v) /\
            (alive c r' h <-> alive c r h) /\ (forall C' v', C' ∈ U -> C' <> C -> shows c r' h C' v' <-> shows c r h C' v') /\
            others_same c U r r' h
        end.
    Proof.
      intros Hc. call. unfold bind at 1, rm_rd, lift_rd in E. destruct (get_component_mut c C h r) as [[l|]| |]; [| |done..].
      - exists (Some l). split; [done|]. apply ret_after in E as (old&E&->). exists old, r'. split; [done|]. cbn in Ha. injection Ha as Ev. destruct Hc as [HC _].
        cbn in H'. unfold value_of in Ev. destruct (w !! h) as [e|] eqn:Ew; [|done]. cbn in Ev.
        assert (Ew' : alter (fun e => Ent (en_aid e) (<[ct_id C := v]> (en_vals e))) h w !! h = Some (Ent (en_aid e) (<[ct_id C := v]> (en_vals e)))).
        { by rewrite lookup_alter, Ew. }
        split; [apply (obs_shows _ _ _ _ _ _ H HC); unfold value_of; by rewrite Ew|].
        split; [apply (obs_shows _ _ _ _ _ _ H' HC); unfold value_of; rewrite Ew'; cbn; by rewrite lookup_insert|].
        split; [rewrite (obs_alive _ _ _ _ H), (obs_alive _ _ _ _ H'), Ew, Ew'; split; eauto|]. split.
        + intros C' v' HC' Hne. rewrite (obs_shows _ _ _ _ _ _ H HC'), (obs_shows _ _ _ _ _ _ H' HC'). unfold value_of. rewrite Ew', Ew. cbn.
          rewrite lookup_insert_ne; [done|]. intros Eid. apply Hne. symmetry. eapply (ids_inj U); [apply (U_nodup _ _ HU)|done..].
        + intros h' Hne. eapply obs_same; [exact H|exact H'|]. by rewrite lookup_alter_ne.
      - exists None. split; [done|]. cbn in E. injection E as <- <-. cbn in Ha. injection Ha as Ev. by apply (obs_shows _ _ _ _ _ _ H (proj1 Hc)).
    Qed.
    Lemma set_all_observed G h vs : contract be U w (OpSetAll G h vs) ->
      exists res, get_components_mut c G h r = Rd res /\
        match res with
        | None => ~ has_each c r h G
        | Some ls => exists olds r', replace_locs ls vs r = Ret olds r' /\
            Forall2 (fun C v => shows c r h C (Some v)) G olds /\ Forall2 (fun C v => shows c r' h C (Some v)) G vs /\
            (alive c r' h <-> alive c r h) /\ (forall C' v', C' ∈ U -> C' ∉ G -> shows c r' h C' v' <-> shows c r h C' v') /\
            others_same c U r r' h
        end.
    Proof.
      intros Hc. call. unfold bind at 1, rm_rd, lift_rd in E. destruct Hc as (HG&Hv&HF). destruct (get_components_mut c G h r) as [[l|]| |]; [| |done..].
      - exists (Some l). split; [done|]. apply ret_after in E as (olds&E&->). exists olds, r'. split; [done|]. cbn in Ha. injection Ha as Ev.
        cbn in H'. unfold values_of in Ev. destruct (w !! h) as [e|] eqn:Ew; [|done]. cbn in Ev. symmetry in Ev. apply mapM_Some in Ev.
        assert (Ew' : alter (fun e => Ent (en_aid e) (vmap G vs ∪ en_vals e)) h w !! h = Some (Ent (en_aid e) (vmap G vs ∪ en_vals e))).
        { by rewrite lookup_alter, Ew. }
        assert (HGC : forall i C, G !! i = Some C -> C ∈ U) by (intros i C Hi; apply (in_U_elem _ _ _ HG); by eapply elem_of_list_lookup_2).
        split; [|split; [|split; [|split]]].
        + apply Forall2_same_length_lookup. split; [by eapply Forall2_length|]. intros i C v HC Hvv.
          pose proof (Forall2_lookup_lr _ _ _ _ _ _ Ev HC Hvv) as E'. cbn in E'. apply (obs_shows _ _ _ _ _ _ H (HGC _ _ HC)). unfold value_of. by rewrite Ew.
        + apply Forall2_same_length_lookup. split; [by eapply Forall2_length|]. intros i C v HC Hvv.
          apply (obs_shows _ _ _ _ _ _ H' (HGC _ _ HC)). unfold value_of. rewrite Ew'. cbn. symmetry. apply lookup_union_Some_l.
          eapply vmap_lookup; [apply Hv|symmetry; by eapply Forall2_length|done|done].
        + rewrite (obs_alive _ _ _ _ H), (obs_alive _ _ _ _ H'), Ew, Ew'; split; eauto.
        + intros C' v' HC' Hne. rewrite (obs_shows _ _ _ _ _ _ H HC'), (obs_shows _ _ _ _ _ _ H' HC'). unfold value_of. rewrite Ew', Ew. cbn.
          rewrite lookup_union_r; [done|]. apply vmap_none. by apply elem_U_ids.
        + intros h' Hne. eapply obs_same; [exact H|exact H'|]. by rewrite lookup_alter_ne.
      - exists None. split; [done|]. cbn in E. injection E as <- <-. cbn in Ha. injection Ha as Ev. rewrite (obs_has_each _ _ _ _ _ H HG).
        intros (e&He&Hall). unfold values_of in Ev. rewrite He in Ev. cbn in Ev. symmetry in Ev. apply mapM_None, Exists_exists in Ev as (C&HC&En).
        unfold has_all in Hall. rewrite forallb_forall in Hall. specialize (Hall C (proj1 (elem_of_list_In _ _) HC)).
        apply bool_decide_eq_true in Hall as [? ?]. congruence.
    Qed.

    (** *** Adding and removing a component *)
    Lemma add_observed C h v : contract be U w (OpAdd C h v) ->
      exists res r', add_component c C h v r = Ret res r' /\
        ((res = Ok tt /\ addable be U (archetypes_full r) w h C v /\ shows c r h C None /\ alive c r h /\ alive c r' h /\ shows c r' h C (Some v) /\
            (forall C' v', C' ∈ U -> C' <> C -> shows c r' h C' v' <-> shows c r h C' v') /\ others_same c U r r' h) \/
         (res = Err v /\ ~ addable be U (archetypes_full r) w h C v /\ all_same c U r r')).
    Proof.
      intros Hc. call. apply ret_after in E as (res&E&->). exists res, r'. split; [done|]. cbn in Ha. destruct Hc as (HC&_).
      destruct Ha as [(Had&[= ->])|(Had&[= ->])].
      - left. split; [done|]. split; [done|]. destruct Had as (e&Ew&En&_). cbn in H'.
        assert (Ew' : alter (fun e => derived be U (<[ct_id C := v]> (en_vals e))) h w !! h = Some (derived be U (<[ct_id C := v]> (en_vals e)))).
        { by rewrite lookup_alter, Ew. }
        split; [apply (obs_shows _ _ _ _ _ _ H HC); unfold value_of; by rewrite Ew|].
        split; [rewrite (obs_alive _ _ _ _ H), Ew; eauto|]. split; [rewrite (obs_alive _ _ _ _ H'), Ew'; eauto|].
        split; [apply (obs_shows _ _ _ _ _ _ H' HC); unfold value_of; rewrite Ew'; cbn; by rewrite lookup_insert|]. split.
        + intros C' v' HC' Hne. rewrite (obs_shows _ _ _ _ _ _ H HC'), (obs_shows _ _ _ _ _ _ H' HC'). unfold value_of. rewrite Ew', Ew. cbn.
          rewrite lookup_insert_ne; [done|]. intros Eid. apply Hne. symmetry. eapply (ids_inj U); [apply (U_nodup _ _ HU)|done..].
        + intros h' Hne. eapply obs_same; [exact H|exact H'|]. by rewrite lookup_alter_ne.
      - right. split; [done|]. split; [done|]. by eapply obs_all_same.
    Qed.
    Lemma remove_observed C h : contract be U w (OpRemove C h) ->
      exists res r', remove_component c C h r = Ret res r' /\
        ((exists v, res = Ok v /\ removable be U (archetypes_full r) w h C v /\ shows c r h C (Some v) /\ alive c r h /\ alive c r' h /\ shows c r' h C None /\
            (forall C' v', C' ∈ U -> C' <> C -> shows c r' h C' v' <-> shows c r h C' v') /\ others_same c U r r' h) \/
         (res = Err tt /\ (forall v, ~ removable be U (archetypes_full r) w h C v) /\ all_same c U r r')).
    Proof.
      intros Hc. call. apply ret_after in E as (res&E&->). exists res, r'. split; [done|]. cbn in Ha. destruct Hc as (HC&_).
      destruct Ha as [(v&Had&[= ->])|(Had&[= ->])].
      - left. exists v. split; [done|]. split; [done|]. destruct Had as (e&Ew&En&_). cbn in H'.
        assert (Ew' : alter (fun e => derived be U (delete (ct_id C) (en_vals e))) h w !! h = Some (derived be U (delete (ct_id C) (en_vals e)))).
        { by rewrite lookup_alter, Ew. }
        split; [apply (obs_shows _ _ _ _ _ _ H HC); unfold value_of; by rewrite Ew|].
        split; [rewrite (obs_alive _ _ _ _ H), Ew; eauto|]. split; [rewrite (obs_alive _ _ _ _ H'), Ew'; eauto|].
        split; [apply (obs_shows _ _ _ _ _ _ H' HC); unfold value_of; rewrite Ew'; cbn; by rewrite lookup_delete|]. split.
        + intros C' v' HC' Hne. rewrite (obs_shows _ _ _ _ _ _ H HC'), (obs_shows _ _ _ _ _ _ H' HC'). unfold value_of. rewrite Ew', Ew. cbn.
          rewrite lookup_delete_ne; [done|]. intros Eid. apply Hne. symmetry. eapply (ids_inj U); [apply (U_nodup _ _ HU)|done..].
        + intros h' Hne. eapply obs_same; [exact H|exact H'|]. by rewrite lookup_alter_ne.
      - right. split; [done|]. split; [done|]. by eapply obs_all_same.
    Qed.

    (** *** Iteration *)
    Lemma iter_observed G : in_U U G -> gvalid be G ->
      exists items, iter_entity_components_matching c G r = Rd (Some items) /\ iter_components_matching c G r = Rd (Some (map snd items)) /\
        iterates c r (fun h => has_each c r h G) G items.
    Proof.
      intros HG Hv. destruct (history_ok c U HU _ _ _ _ Hh) as (T&D&H&_).
      destruct (collects c U r T w H G Hv _ (matching_accepts c U HU G HG Hv)) as (E1&E2&_).
      exists (map (item_at T G) (visited c G (r_ar r) (accept_matching be G))). split; [done|]. split; [by rewrite map_map|].
      eapply obs_iterates; [exact H|done|intros h; by apply obs_has_each with (T := T)|].
      apply (covers_visits c U _ _ _ _ _ _ H (covers_V c U r T w H G Hv _ (matching_accepts c U HU G HG Hv) _ (matching_P c U HU G HG Hv))).
    Qed.
    Lemma filter_observed G f : in_U U G -> gvalid be G -> respects f ->
      exists items, iter_filtered_entity_components_matching c G f r = Rd (Some items) /\
        iter_filtered_components_matching c G f r = Rd (Some (map snd items)) /\
        iterates c r (fun h => has_each c r h G /\ exists e, w !! h = Some e /\ f (desc_of U e) = true) G items.
    Proof.
      intros HG Hv Hf. destruct (history_ok c U HU _ _ _ _ Hh) as (T&D&H&_).
      destruct (collects c U r T w H G Hv _ (filtered_accepts c U HU G f HG Hv)) as (E1&E2&_).
      exists (map (item_at T G) (visited c G (r_ar r) (accept_filtered be G f))). split; [done|]. split; [by rewrite map_map|].
      eapply obs_iterates; [exact H|done| |apply (covers_visits c U _ _ _ _ _ _ H (covers_V c U r T w H G Hv _ (filtered_accepts c U HU G f HG Hv) _ (filtered_P c U HU G f HG Hv Hf)))].
      intros h. rewrite (obs_has_each _ _ _ _ _ H HG). unfold filtered. setoid_rewrite andb_true_iff. naive_solver.
    Qed.

    (** *** Mutable iteration *)
    Lemma obs_rewrites T T' r' (P : N -> Prop) Q G upd : reg_ok be U r T w -> reg_ok be U r' T' (updated_where Q G upd w) ->
      in_U U G -> NoDup (ids_of G) -> (forall h, P h <-> exists e, w !! h = Some e /\ Q e = true) -> rewrites c U r r' P G upd.
    Proof.
      intros H H' HG Hnd HP.
      assert (Hfind : forall i C, G !! i = Some C -> list_find (fun c => ct_id c = ct_id C) G = Some (i, C)).
      { intros i C Hi. apply list_find_Some. split; [done|]. split; [done|]. intros j C' Hj Hlt E.
        assert (i = j); [|lia].
        apply (NoDup_lookup (ct_id <$> G) i j (ct_id C) Hnd); rewrite list_lookup_fmap; [exact (f_equal (fmap ct_id) Hi)|rewrite <- E; exact (f_equal (fmap ct_id) Hj)]. }
      assert (Hval : forall h C, value_of (updated_where Q G upd w) h C =
        match w !! h with
        | Some e => if Q e then (fun v => match list_find (fun c => ct_id c = ct_id C) G with Some (i, _) => upd i v | None => v end) <$> en_vals e !! ct_id C
                    else en_vals e !! ct_id C
        | None => None end).
      { intros h C. unfold value_of, updated_where. rewrite lookup_fmap. destruct (w !! h) as [e|]; [|done]. cbn. destruct (Q e); [|done].
        cbn. unfold updated. rewrite map_lookup_imap. by destruct (en_vals e !! ct_id C). }
      split; [|split].
      - intros h. rewrite (obs_alive _ _ _ _ H), (obs_alive _ _ _ _ H'). unfold updated_where. rewrite lookup_fmap. apply fmap_is_Some.
      - intros h i C v (e&He&Hq)%HP Hi Hs. assert (HC : C ∈ U) by (apply (in_U_elem _ _ _ HG); by eapply elem_of_list_lookup_2).
        apply (obs_shows _ _ _ _ _ _ H HC) in Hs. apply (obs_shows _ _ _ _ _ _ H' HC). rewrite Hval.
        unfold value_of in Hs. rewrite He in *. cbn in Hs. rewrite Hq, <- Hs, (Hfind _ _ Hi). done.
      - intros h C v HC Hor. rewrite (obs_shows _ _ _ _ _ _ H HC), (obs_shows _ _ _ _ _ _ H' HC), Hval. unfold value_of.
        destruct (w !! h) as [e|] eqn:He; [|done]. cbn. destruct (Q e) eqn:Hq; [|done]. destruct Hor as [Hn|Hn]; [|exfalso; apply Hn, HP; eauto].
        assert (list_find (fun c => ct_id c = ct_id C) G = None) as ->.
        { apply list_find_None. apply Forall_forall. intros C' HC' E. assert (C' = C) as ->; [|done].
          eapply (ids_inj U); [apply (U_nodup _ _ HU)|by apply (in_U_elem _ _ _ HG)|done|done]. }
        by destruct (en_vals e !! ct_id C).
    Qed.
    Lemma covers_locs T P G V : NoDup (ids_of G) -> covers T P G V -> NoDup (concat (concat (map (slots_at T G) V))).
    Proof.
      intros Hnd [HV Ht _]. apply slots_nodup_all; [done|done|]. intros i C Hi HC. destruct (Ht i Hi) as (t&Et&Hs). unfold cs_at. rewrite Et. by apply Hs.
    Qed.
    Lemma mut_observed T (P : N -> Prop) Q G upd V : reg_ok be U r T w -> in_U U G -> gvalid be G -> keeps_types G upd -> covers T Q G V ->
      (forall h, P h <-> exists e, w !! h = Some e /\ Q e = true) ->
      let items := map (fun i => ((item_at T G i).1, slots_at T G i)) V in
      NoDup (concat (concat (map snd items))) /\ exists olds r', modify_items upd (map snd items) r = Ret (map snd olds) r' /\
        modify_eitems upd items r = Ret olds r' /\ map fst olds = map fst items /\ iterates c r P G olds /\ rewrites c U r r' P G upd.
    Proof.
      intros H HG Hv Hk Hcov HP items.
      assert (Es : map snd items = map (slots_at T G) V) by (unfold items; by rewrite map_map).
      split; [rewrite Es; eapply covers_locs; [apply Hv|exact Hcov]|].
      destruct (modify_ok c U HU r T w Q G upd V H (proj1 Hv) Hk Hcov) as (r'&E&T'&D'&H'&_).
      exists (map (item_at T G) V), r'. rewrite Es. split; [by rewrite map_map|]. split; [|split; [unfold items; by rewrite !map_map|split]].
      - rewrite <- zip_item. apply (modify_eitems_Ret upd items). by rewrite Es.
      - eapply obs_iterates; [exact H|done|exact HP|]. by eapply covers_visits.
      - eapply obs_rewrites; [exact H|exact H'|done|apply Hv|exact HP].
    Qed.
    Lemma iter_mut_observed G upd : in_U U G -> gvalid be G -> keeps_types G upd ->
      exists items, iter_entity_components_matching_mut c G r = Rd (Some items) /\ iter_components_matching_mut c G r = Rd (Some (map snd items)) /\
        NoDup (concat (concat (map snd items))) /\ exists olds r', modify_items upd (map snd items) r = Ret (map snd olds) r' /\
        modify_eitems upd items r = Ret olds r' /\ map fst olds = map fst items /\
        iterates c r (fun h => has_each c r h G) G olds /\ rewrites c U r r' (fun h => has_each c r h G) G upd.
    Proof.
      intros HG Hv Hk. destruct (history_ok c U HU _ _ _ _ Hh) as (T&D&H&_).
      destruct (collects c U r T w H G Hv _ (matching_accepts c U HU G HG Hv)) as (_&_&E1&E2).
      eexists. split; [exact E2|]. split; [rewrite map_map; exact E1|].
      apply (mut_observed T _ (matching G)); [done..| |intros h; by apply obs_has_each with (T := T)].
      apply (covers_V c U r T w H G Hv _ (matching_accepts c U HU G HG Hv) _ (matching_P c U HU G HG Hv)).
    Qed.
    Lemma filter_mut_observed G f upd : in_U U G -> gvalid be G -> respects f -> keeps_types G upd ->
      let P := fun h => has_each c r h G /\ exists e, w !! h = Some e /\ f (desc_of U e) = true in
      exists items, iter_filtered_entity_components_matching_mut c G f r = Rd (Some items) /\
        iter_filtered_components_matching_mut c G f r = Rd (Some (map snd items)) /\
        NoDup (concat (concat (map snd items))) /\ exists olds r', modify_items upd (map snd items) r = Ret (map snd olds) r' /\
        modify_eitems upd items r = Ret olds r' /\ map fst olds = map fst items /\ iterates c r P G olds /\ rewrites c U r r' P G upd.
    Proof.
      intros HG Hv Hf Hk P. destruct (history_ok c U HU _ _ _ _ Hh) as (T&D&H&_).
      destruct (collects c U r T w H G Hv _ (filtered_accepts c U HU G f HG Hv)) as (_&_&E1&E2).
      eexists. split; [exact E2|]. split; [rewrite map_map; exact E1|].
      apply (mut_observed T _ (filtered U G f)); [done..| |].
      - apply (covers_V c U r T w H G Hv _ (filtered_accepts c U HU G f HG Hv) _ (filtered_P c U HU G f HG Hv Hf)).
      - intros h. unfold P. rewrite (obs_has_each _ _ _ _ _ H HG). unfold filtered. setoid_rewrite andb_true_iff. naive_solver.
    Qed.

    (** *** Exact iteration *)
    Lemma exactly_observed T h G : reg_ok be U r T w -> in_U U G -> gvalid be G ->
      (exists e, w !! h = Some e /\ is_exactly be U G e = true) <->
      has_exactly c U r h G /\ exists e, w !! h = Some e /\ en_aid e = tuple_archetype_id be (ids_of (types U (en_vals e))).
    Proof.
      intros H HG Hv. unfold has_exactly. rewrite (obs_has_each _ _ _ _ _ H HG). unfold is_exactly.
      assert (Hty : forall e, w !! h = Some e -> has_all G e = true ->
        (length (types U (en_vals e)) = length G <-> forall C, C ∈ U -> C ∉ G -> shows c r h C None)).
      { intros e He Ha. assert (HGty : G ⊆+ types U (en_vals e)).
        { apply NoDup_submseteq; [apply NoDup_ids_NoDup, Hv|]. intros C HC. unfold types. apply elem_of_list_filter. split; [|by apply (in_U_elem _ _ _ HG)].
          unfold has_all in Ha. rewrite forallb_forall in Ha. specialize (Ha C (proj1 (elem_of_list_In _ _) HC)). by apply bool_decide_eq_true in Ha. }
        split.
        - intros El C HC HnC. apply (obs_shows _ _ _ _ _ _ H HC). unfold value_of. rewrite He. cbn. symmetry. apply eq_None_not_Some. intros Hs.
          apply HnC. rewrite (submseteq_Permutation_length_le _ _ ltac:(by rewrite El) HGty). unfold types. by apply elem_of_list_filter.
        - intros Hn. apply Nat.le_antisymm; [|by apply submseteq_length]. apply submseteq_length. apply NoDup_submseteq.
          + apply NoDup_filter, NoDup_ids_NoDup, (U_nodup _ _ HU).
          + intros C [Hs HC]%elem_of_list_filter. destruct (decide (C ∈ G)) as [|HnC]; [done|]. specialize (Hn C HC HnC).
            apply (obs_shows _ _ _ _ _ _ H HC) in Hn. unfold value_of in Hn. rewrite He in Hn. cbn in Hn. rewrite <- Hn in Hs. by destruct Hs. }
      split.
      - intros (e&He&Hx). apply andb_true_iff in Hx as [Hx Hl]. apply andb_true_iff in Hx as [Hi Ha]. apply bool_decide_eq_true in Hi.
        apply Nat.eqb_eq in Hl. split; [|eauto]. split; [eauto|]. by apply (Hty e).
      - intros (((e&He&Ha)&Hn)&e'&He'&Hi). simplify_eq. exists e. split; [done|]. rewrite Ha, bool_decide_eq_true_2 by done. cbn.
        apply Nat.eqb_eq. by apply Hty.
    Qed.
    Lemma exact_observed G : in_U U G -> gvalid be G -> known be U G ->
      let P := fun h => has_exactly c U r h G /\ exists e, w !! h = Some e /\ en_aid e = tuple_archetype_id be (ids_of (types U (en_vals e))) in
      exists it, iter_entity_components_exact c G r = Rd it /\ iter_components_exact c G r = Rd it.2 /\ iterates c r P G [it].
    Proof.
      intros HG Hv Hkn P. destruct (history_ok c U HU _ _ _ _ Hh) as (T&D&H&_). destruct (exact_all c U HU r T w G H HG Hv Hkn) as (it&sl&E1&E2&_&_&Hvis&_).
      exists it. split; [done|]. split; [done|]. eapply obs_iterates; [exact H|done| |exact Hvis].
      intros h. unfold P. symmetry. by apply (exactly_observed T).
    Qed.
    Lemma exact_mut_observed G upd : in_U U G -> gvalid be G -> known be U G -> keeps_types G upd ->
      let P := fun h => has_exactly c U r h G /\ exists e, w !! h = Some e /\ en_aid e = tuple_archetype_id be (ids_of (types U (en_vals e))) in
      exists it, iter_entity_components_exact_mut c G r = Rd it /\ iter_components_exact_mut c G r = Rd it.2 /\
        NoDup (concat it.2) /\ exists cols r', modify_items upd [it.2] r = Ret [cols] r' /\ iterates c r P G [(it.1, cols)] /\ rewrites c U r r' P G upd.
    Proof.
      intros HG Hv Hkn Hk P. destruct (history_ok c U HU _ _ _ _ Hh) as (T&D&H&_). destruct (exact_all c U HU r T w G H HG Hv Hkn) as (it&sl&_&_&E1&E2&Hvis&Hnd&Hm&_).
      destruct (Hm upd Hk) as (r'&E&T'&D'&H'&_). assert (HP : forall h, P h <-> exists e, w !! h = Some e /\ is_exactly be U G e = true).
      { intros h. symmetry. by apply (exactly_observed T). }
      exists (it.1, sl). split; [done|]. split; [done|]. split; [done|]. exists it.2, r'. split; [done|]. split.
      - eapply obs_iterates; [exact H|done|exact HP|]. by destruct it.
      - eapply obs_rewrites; [exact H|exact H'|done|apply Hv|exact HP].
    Qed.

    (** *** Distinct references of one tuple access *)
    Lemma get_all_mut_distinct G h : in_U U G -> gvalid be G ->
      exists res, get_components_mut c G h r = Rd res /\ forall ls, res = Some ls -> NoDup ls.
    Proof.
      intros HG Hv. destruct (history_ok c U HU _ _ _ _ Hh) as (T&D&H&_). unfold get_components_mut. destruct (w !! h) as [e|] eqn:Ew.
      2: { rewrite (dead_entry _ _ _ _ _ _ H Ew). by exists None. }
      destruct (live_entry c U _ _ _ _ _ H Ew) as (en&i&j&t&m&a&Een&Ei&Ej&Hrow&Ht&Hj&->&Ha&Hta).
      destruct (tab_subset c U HU _ _ _ _ _ G Hta Hj HG Hv) as [E1 E2].
      rewrite Een, Ei, Ej, (arch_at_step _ _ _ Ha). cbn [rbind].
      destruct (ad_contains_subset (a_desc a) (gd_arch (group_desc be G))) eqn:Es; [|by exists None].
      assert (Hsub : forall C, C ∈ G -> C ∈ t_cs t) by tauto. cbn [negb].
      destruct (tuple_exists m G) as [vs Hvs]; [apply (has_all_spec G (Ent (t_id t) m)); tauto|].
      pose proof Hta as (Hid&Hok&_).
      destruct (fuzzy_components_ok (a_desc a) (t_cs t) (proj1 Hok) c G a _ _ _ _ vs eq_refl Hok Hj (proj1 (gvalid_iff c G) Hv) Hsub Hvs) as [_ Eg].
      rewrite Eg. cbn [rbind]. eexists. split; [done|]. intros ls [= <-]. unfold cells_of. rewrite map_map. cbn.
      unfold group in G. apply NoDup_alt. intros p q x Hp Hq. change (map ?f G) with (f <$> G) in Hp, Hq. rewrite list_lookup_fmap in Hp, Hq.
      destruct (G !! p) as [C1|] eqn:F1; [|done]. destruct (G !! q) as [C2|] eqn:F2; [|done]. injection Hp as <-. injection Hq as E.
      assert (Hin : forall C k, G !! k = Some C -> ids_of (t_cs t) !! id_pos (ct_id C) (ids_of (t_cs t)) = Some (ct_id C)).
      { intros C k Hk. apply id_pos_lookup. apply elem_of_ids. exists C. split; [|done]. apply Hsub. by eapply elem_of_list_lookup_2. }
      pose proof (Hin _ _ F1) as K1. pose proof (Hin _ _ F2) as K2. rewrite E, K1 in K2. injection K2 as K2.
      eapply NoDup_lookup; [apply (proj1 Hv)| |]; change (ids_of G) with (ct_id <$> G); rewrite list_lookup_fmap; [by rewrite F1|rewrite F2; cbn; congruence].
    Qed.

    (** *** Failing calls *)
    Lemma failed_observed o : contract be U w o ->
      exists out r', step c o r = Ret out r' /\ (failed out -> all_same c U r r').
    Proof.
      intros Hc. destruct (history_ok c U HU _ _ _ _ Hh) as (T&D&H&_).
      destruct (step_total c U HU _ _ _ _ H Hc) as (out&r'&E&Ha&T'&D'&H'&_&_). exists out, r'. split; [done|]. intros Hf.
      assert (ledger be U w o out = w) as Ew; [|rewrite Ew in H'; by eapply obs_all_same].
      destruct out as [[]|[]|[]|[]|[]|[]| | |]; try done; destruct o; try done; cbn in Ha; naive_solver.
    Qed.
  End calls.

  (** ** Whole programs *)
  Lemma run_app ops1 ops2 s : run c (ops1 ++ ops2) s =
    (let! a := run c ops1 in let! b := run c ops2 in ret (a ++ b)) s.
  Proof.
    revert s. induction ops1 as [|o ops IH]; intros s; cbn [run app].
    - rewrite bind_ret_l. unfold bind. by destruct (run c ops2 s).
    - unfold bind. destruct (step c o s) as [x s1| |]; [|done..]. rewrite IH. unfold bind. destruct (run c ops s1) as [xs s2| |]; [|done..].
      cbn. by destruct (run c ops2 s2).
  Qed.
  Lemma run_safe ops :
    (forall ops1 o ops2 outs r w I O, ops = ops1 ++ o :: ops2 -> run c ops1 reg_default = Ret outs r -> history c U r w I O -> contract be U w o) ->
    exists outs r w I O, run c ops reg_default = Ret outs r /\ history c U r w I O.
  Proof.
    induction ops as [|o ops IH] using rev_ind; intros Hall.
    - exists [], reg_default, ∅, [], []. split; [done|constructor].
    - destruct IH as (outs&r&w&I&O&E&Hh).
      { intros ops1 o' ops2 outs r w I O -> E Hh. eapply (Hall ops1 o' (ops2 ++ [o])); [by rewrite <- app_assoc|done|done]. }
      pose proof (Hall ops o [] outs r w I O eq_refl E Hh) as Hc.
      destruct (history_step c U HU _ _ _ _ _ Hh Hc) as (out&r'&Es&_&Hh').
      eexists (outs ++ [out]), r', _, _, _. split; [|exact Hh']. rewrite run_app. rewrite (bind_Ret _ _ _ _ _ E). cbn [run].
      unfold bind. rewrite Es. done.
  Qed.
End observe.
