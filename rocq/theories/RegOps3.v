(** Registry operations, continued: adding and removing a component moves the
    entity to another archetype. *)
From Verif Require Import RegModel SpecTrace SpecEntity EntityProofs EntityTable SearchProofs DescrProofs MonadProofs ArchProofs ArchOps ArchOps2 ArchOps3 AregProofs RegProofs RegOps RegOps2 SpecBase SpecWorld SpecRef.
Local Open Scope nat_scope.

(** Two archetypes, the entity table and the environment changed. *)
Definition put2 (r : reg) (i : nat) (sa : arch) (d : nat) (da : arch) (rg : er) (e : env) : reg :=
  Reg rg (set_archs (r_ar r) (<[d := da]> (<[i := sa]> (ar_archs (r_ar r))))) e.
Section put2.
  Context (r : reg) (i d : nat) (sa0 da0 : arch) (Hne : i <> d).
  Context (Hi : ar_archs (r_ar r) !! i = Some sa0) (Hd : ar_archs (r_ar r) !! d = Some da0).
  Lemma put2_dst sa da rg e : ar_archs (r_ar (put2 r i sa d da rg e)) !! d = Some da.
  Proof. cbn. apply list_lookup_insert. rewrite insert_length. by eapply lookup_lt_Some. Qed.
  Lemma put2_src sa da rg e : ar_archs (r_ar (put2 r i sa d da rg e)) !! i = Some sa.
  Proof. cbn. rewrite list_lookup_insert_ne by done. apply list_lookup_insert. by eapply lookup_lt_Some. Qed.
  Lemma put2_put_dst sa da rg e da' e' : put_arch (put2 r i sa d da rg e) d da' e' = put2 r i sa d da' rg e'.
  Proof. unfold put_arch, put2, set_archs. cbn. by rewrite list_insert_insert. Qed.
  Lemma put2_put_src sa da rg e sa' e' : put_arch (put2 r i sa d da rg e) i sa' e' = put2 r i sa' d da rg e'.
  Proof.
    unfold put_arch, put2, set_archs. cbn.
    rewrite (list_insert_commute _ i d) by done. by rewrite list_insert_insert.
  Qed.
  Lemma put2_er sa da rg e rg' : Reg rg' (r_ar (put2 r i sa d da rg e)) (r_env (put2 r i sa d da rg e)) = put2 r i sa d da rg' e.
  Proof. done. Qed.
  Lemma put2_start sa e rg : Reg rg (r_ar (put_arch r i sa e)) e = put2 r i sa d da0 rg e.
  Proof.
    unfold put2, put_arch, set_archs. cbn. rewrite (list_insert_id _ d); [done|]. by rewrite list_lookup_insert_ne.
  Qed.
End put2.

Lemma reg_ok_build {Fm : family} be U r T w r' T' w' :
  reg_ok be U r T w -> ar_maps (r_ar r') = ar_maps (r_ar r) -> map a_desc (ar_archs (r_ar r')) = map a_desc (ar_archs (r_ar r)) ->
  Forall2 (tab_ok be U) (ar_archs (r_ar r')) T' -> (exists F, er_inv be (r_er r') F) ->
  linked (loc_of be (r_er r')) T' -> repr w' T' -> ev_oracle (r_env r') = [] -> reg_ok be U r' T' w'.
Proof. intros H Em Ed HF He Hl Hr Ho. split; try done. eapply areg_inv_same; [apply H|done|done]. Qed.
Lemma map_desc_insert (l : list arch) i a a' : l !! i = Some a -> a_desc a' = a_desc a -> map a_desc (<[i := a']> l) = map a_desc l.
Proof.
  intros Hi E. change (map a_desc) with (fmap a_desc : list arch -> list adesc). rewrite list_fmap_insert, E.
  apply list_insert_id. by rewrite list_lookup_fmap, Hi.
Qed.
Lemma Permutation_map_inv' {A B} (f : A -> B) l l' : l ≡ₚ map f l' -> exists k, l = map f k /\ k ≡ₚ l'.
Proof. intros H. destruct (Permutation_map_inv f l' H) as (k&E&P). exists k. split; [done|]. by symmetry. Qed.

Section ops3.
  Context {Fm : family} (c : cfg) (U : list ctype) (HU : universe (big c) U).
  Notation be := (big c).
  Implicit Types (T : list tab) (w : world).

  (** *** The parts of the move that adding and removing share *)
  Definition move_front {A} (row : nat) (en : entry) (src dst : nat) (k : arch -> nat -> nat -> RM A) : RM A :=
    let! swapped := with_arch src (swap_to_last_unchecked c row) in
    (if (swapped : bool) then
      let! a := rm_rd (arch_at src) in
      let! h' := lift_rd (entity_at a row) in
      update_entry c h' (fun e' => entry_set_index_in_archetype e' (entry_index_in_archetype en))
    else ret tt) ;;!
    let! _ := with_arch dst push_uninitialized_entity in
    let! sa := rm_rd (arch_at src) in
    let! da := rm_rd (arch_at dst) in
    let! srow := lift_rd (last_row c sa) in
    let! drow := lift_rd (last_row c da) in
    with_arch dst (copy_common_components sa srow drow) ;;!
    k sa srow drow.
  Definition move_back {A} (h : N) (src dst : nat) (sa : arch) (srow drow : nat) (x : A) : RM A :=
    let! hs := lift_rd (entity_at sa srow) in
    with_arch dst (write_entity drow hs) ;;!
    with_arch src (decrement_len_unchecked c) ;;!
    update_entry c h (fun e' => entry_set_archetype_index be e' (N.of_nat dst)) ;;!
    let! idx := unwrap (iia_new (N.of_nat drow)) in
    update_entry c h (fun e' => entry_set_index_in_archetype e' idx) ;;!
    ret x.

  Lemma moving_last t j (h : N) (m : gmap N value) : t_rows t !! j = Some (h, m) ->
    swapl j (length (t_rows t) - 1) (t_rows t) !! (length (t_rows t) - 1) = Some (h, m).
  Proof.
    intros Hj. pose proof (lookup_lt_Some _ _ _ Hj). rewrite swapl_lookup by lia. unfold swp.
    destruct (decide (length (t_rows t) - 1 = j)) as [E|E]; [by rewrite E|by rewrite decide_True].
  Qed.
  Section move.
    Context (r : reg) T w (H : reg_ok be U r T w) (i d j : nat) (Hne : i <> d).
    Context (t td : tab) (Ht : T !! i = Some t) (Htd : T !! d = Some td) (a ad : arch).
    Context (Ha : ar_archs (r_ar r) !! i = Some a) (Had : ar_archs (r_ar r) !! d = Some ad).
    Context (Hta : tab_ok be U a t) (Htad : tab_ok be U ad td).
    Context (h : N) (m : gmap N value) (Hj : t_rows t !! j = Some (h, m)) (en : entry).
    Context (Hen : entry_index_in_archetype en = N.of_nat j) (Hroom : (N.of_nat (length (t_rows td)) < 8388608)%N).

    (** Where the entity's row and the destination's new row stand after the
        first part. *)
    Record moving (sa da : arch) (rg : er) (e : env) (P : gmap N value) : Prop := {
      mv_sdesc : a_desc sa = a_desc a;
      mv_scap : a_cap sa = a_cap a;
      mv_sok : arch_ok sa (t_cs t) (swapl j (length (t_rows t) - 1) (t_rows t));
      mv_ddesc : a_desc da = a_desc ad;
      mv_dhalf : arch_half da (t_cs td) (t_rows td) P;
      mv_emit : emits (r_env r) e [] (layouts (t_cs td) (a_cap ad)) (layouts (t_cs td) (a_cap da));
      mv_er : exists F, er_inv be rg F;
      mv_loc : forall h', loc_of be rg h' = if decide (Some h' = moved (t_rows t) j) then Some (i, j) else loc_of be (r_er r) h';
    }.
    Lemma move_front_ok {A} (k : arch -> nat -> nat -> RM A) :
      exists sa da rg e P, moving sa da rg e P /\
        (forall x, x ∈ ids_of (t_cs t) -> x ∈ ids_of (t_cs td) -> P !! x = m !! x) /\
        move_front j en i d k r = k sa (length (t_rows t) - 1) (length (t_rows td)) (put2 r i sa d da rg e).
    Proof.
      pose proof Hta as (_&Hok&Hin&_). pose proof (proj1 Hok) as Hds. pose proof Htad as (_&Hokd&Hind&_). pose proof (proj1 Hokd) as Hdd.
      pose proof (row_cap _ _ _ _ Hta) as Hcap. pose proof (lookup_lt_Some _ _ _ Hj) as Hjlt.
      destruct (swap_to_last_ok (a_desc a) (t_cs t) Hds c a _ j (r_env r) eq_refl Hok Hjlt) as (sa&Es&Esd&Esc&Hsok).
      destruct (ro_er _ _ _ _ _ H) as [F Her].
      set (r1 := put_arch r i sa (r_env r)).
      assert (Ha1 : ar_archs (r_ar r1) !! i = Some sa) by (by eapply put_arch_at).
      destruct (fixup_ok c entity_at r1 T i j h m t sa en F) as (rg&Ef&Hinv1&Hlen1&Hloc1); [apply H|done|done|done|done| |done|lia|].
      { intros hl Hmv. unfold moved in Hmv. destruct (is_last j (length (t_rows t))) eqn:El; [done|].
        destruct (t_rows t !! (length (t_rows t) - 1)) as [[hl' ml]|] eqn:El2; [|done]. cbn in Hmv. injection Hmv as ->.
        assert (Hjs : swapl j (length (t_rows t) - 1) (t_rows t) !! j = Some (hl, ml)).
        { rewrite swapl_lookup by lia. unfold swp. by rewrite decide_True. }
        by eapply entity_at_ok. }
      change (Reg rg (r_ar r1) (r_env r1)) with (Reg rg (r_ar (put_arch r i sa (r_env r))) (r_env r)) in Ef. rewrite (put2_start r i d ad Hne Had) in Ef.
      destruct (push_uninit_ok (a_desc ad) (t_cs td) Hdd ad _ (r_env r) eq_refl Hokd Hroom (ro_oracle _ _ _ _ _ H)) as (da1&e1&Ep&Ed1&Hh1&Hem1).
      assert (Hcomp : forall c0 c', c0 ∈ t_cs t -> c' ∈ t_cs td -> ct_id c0 = ct_id c' -> c0 = c').
      { intros c0 c' H1 H2. apply (ids_inj U); [apply (U_nodup _ _ HU)|by apply (in_U_elem _ _ _ Hin)|by apply (in_U_elem _ _ _ Hind)]. }
      destruct (copy_common_ok (a_desc ad) (t_cs td) Hdd (a_desc a) (t_cs t) sa _ _ h m da1 (t_rows td) e1 Hds Esd Hsok (moving_last _ _ _ _ Hj) Hcomp Ed1 Hh1)
        as (da&Ecp&Edd&Ecd&P&Hh&HP).
      exists sa, da, rg, e1, P. split; [|split; [done|]].
      - split; [done|done|done|done|done| |by exists F|done]. by rewrite Ecd.
      - unfold move_front. rewrite (bind_Ret _ _ _ _ _ (with_arch_Ret _ _ _ _ _ _ _ Ha Es)). fold r1.
        erewrite bind_Ret; [|exact Ef].
        erewrite bind_Ret; [|eapply with_arch_Ret; [by eapply put2_dst|exact Ep]]. rewrite put2_put_dst.
        erewrite bind_Ret; [|apply arch_at_Rd; by eapply put2_src].
        erewrite bind_Ret; [|apply arch_at_Rd; by eapply put2_dst].
        rewrite (last_row_ok _ c _ _ Hsok) by (rewrite swapl_length; lia). rewrite swapl_length.
        erewrite bind_Ret; [|done]. rewrite (half_last _ c _ _ _ Hh1). erewrite bind_Ret; [|done].
        erewrite bind_Ret; [|eapply with_arch_Ret; [by eapply put2_dst|exact Ecp]]. rewrite put2_put_dst. done.
    Qed.

    Lemma move_back_ok {A} sa da rg e P m' (x : A) :
      moving sa da rg e P -> row_ok (t_cs td) (h, m') ->
      (forall C v, C ∈ t_cs td -> m' !! ct_id C = Some v -> P !! ct_id C = Some v) ->
      exists r' T', move_back h i d sa (length (t_rows t) - 1) (length (t_rows td)) x (put2 r i sa d da rg e) = Ret x r' /\
        reg_ok be U r' T' (<[h := Ent (t_id td) m']> w) /\ evolves r T r' T' [] /\ skel T' = put_in h d (take_out h (skel T)).
    Proof.
      intros [Esd Esc Hsok Edd Hh Hem [F Hinv] Hloc] Hrow HP.
      pose proof Hta as (_&Hok&Hin&_). pose proof (proj1 Hok) as Hds. pose proof Htad as (Eidd&Hokd&Hind&Haidd). pose proof (proj1 Hokd) as Hdd.
      pose proof (lookup_lt_Some _ _ _ Hj) as Hjlt. pose proof (ro_small_index _ _ _ _ _ _ _ H Htd) as Hdi.
      destruct (entity_at_ok (a_desc a) (t_cs t) sa _ _ _ _ Esd Hsok (moving_last _ _ _ _ Hj)) as [Ee _].
      destruct (write_entity_half (a_desc ad) (t_cs td) Hdd da _ P h m' e Edd Hh Hrow HP) as (da'&Ewr&Edd'&Ecd'&Hokd').
      destruct (decrement_ok (a_desc a) (t_cs t) Hds c sa (swapl j (length (t_rows t) - 1) (t_rows t)) e Esd Hsok) as (sa'&Edec&Esd'&Esc'&Hsok').
      { rewrite swapl_length. lia. }
      rewrite swapl_length in Hsok'. fold (remove_row j (t_rows t)) in Hsok'.
      assert (Hloch : loc_of be rg h = Some (i, j)).
      { rewrite Hloc. assert (loc_of be (r_er r) h = Some (i, j)) as -> by (apply (ro_loc _ _ _ _ _ H); eauto). by case_decide. }
      destruct (loc_set_arch be rg F h i j (N.of_nat d) Hinv Hloch) as (rg1&Eu1&Hinv1&_&Hloc1); [lia|].
      assert (Hloch1 : loc_of be rg1 h = Some (d, j)) by (rewrite Hloc1, decide_True by done; by rewrite Nat2N.id).
      destruct (loc_set_row be rg1 F h d j (N.of_nat (length (t_rows td))) Hinv1 Hloch1) as (rg2&Eu2&Hinv2&_&Hloc2); [lia|].
      set (T1 := <[i := set_rows t (remove_row j (t_rows t))]> T).
      set (T2 := <[d := set_rows td (t_rows td ++ [(h, m')])]> T1).
      assert (Htd1 : T1 !! d = Some td) by (unfold T1; by rewrite list_lookup_insert_ne).
      exists (put2 r i sa' d da' rg2 e), T2. split; [|split; [|split]].
      - unfold move_back. rewrite Ee. erewrite bind_Ret; [|done].
        erewrite bind_Ret; [|eapply with_arch_Ret; [by eapply put2_dst|exact Ewr]]. rewrite put2_put_dst.
        erewrite bind_Ret; [|eapply with_arch_Ret; [by eapply put2_src|exact Edec]]. rewrite put2_put_src by done.
        erewrite bind_Ret; [|apply update_entry_Ret; exact Eu1]. 
        rewrite iia_new_spec, decide_True by lia. cbn [unwrap]. rewrite bind_ret_l.
        erewrite bind_Ret; [|apply update_entry_Ret; exact Eu2]. done.
      - eapply reg_ok_build; [exact H|done| | |by exists F| | |].
        + cbn. rewrite (map_desc_insert _ d ad) by (try congruence; by rewrite list_lookup_insert_ne). by rewrite (map_desc_insert _ i a).
        + cbn. apply Forall2_insert; [apply Forall2_insert; [apply H|]|].
          * destruct Hta as (Hid&_&?&?). split; [cbn; congruence|]. done.
          * split; [cbn; congruence|]. done.
        + cbn [r_er put2]. eapply linked_ext; [|apply linked_snoc; [exact (linked_remove _ _ _ _ _ _ _ (ro_loc _ _ _ _ _ H) Ht Hj)|exact Htd1|]].
          * intros h'. cbn beta. rewrite Hloc2, Nat2N.id. destruct (decide (h' = h)); [done|]. rewrite Hloc1.
            rewrite (decide_False (P := h' = h)) by done. by rewrite Hloc.
          * cbn beta. by rewrite decide_True.
        + assert (Hrr : repr (delete h w) T1) by (eapply repr_remove; [apply H|apply H|done|done]).
          rewrite <- insert_delete_insert. apply repr_snoc; [done|done|apply lookup_delete].
        + cbn. by eapply emits_oracle.
      - pose proof (ro_len _ _ _ _ _ H) as HlT.
        apply (evolves_trans _ _ (put_arch r i sa' (r_env r)) T1 _ _ [] []).
        + eapply evolves_insert; [exact Ha|exact Ht|done|done|done|]. cbn [t_cs set_rows]. rewrite Esc', Esc. apply emits_refl, H.
        + eapply (evolves_insert _ _ d ad td da'); [cbn; by rewrite list_lookup_insert_ne|exact Htd1| |done|done|].
          * unfold T1. cbn. by rewrite !insert_length.
          * cbn [t_cs set_rows put_arch r_env]. rewrite Ecd'. exact Hem.
      - unfold T2. rewrite (skel_put _ _ _ _ _ Htd1). unfold T1. by rewrite (skel_take _ _ _ _ _ _ _ _ _ _ H Ht Hj).
    Qed.
  End move.

  (** *** Finding the destination archetype *)
  Definition find_dst (src : nat) (nd : adesc) : RM (option (nat * nat)) :=
    let! oi := find_or_create_archetype nd in
    match oi with
    | None => ret None
    | Some dst =>
        let! s := rm_get in
        lift_rd (disjoint_mut (length (ar_archs (r_ar s))) src dst)
    end.
  Lemma find_dst_ok r T w i t nd cs' :
    reg_ok be U r T w -> T !! i = Some t -> ad_wf nd -> ad_components nd = map cdesc_of cs' -> in_U U cs' ->
    1 <= length cs' -> length cs' <> length (t_cs t) -> occurs (ad_id nd) (ids_of cs') -> ad_id nd = derived_archetype_id be (ids_of cs') ->
    (find_dst i nd r = Ret None r /\ (ad_id nd = 4294967295%N \/ archetypes_full r (ad_id nd) (length cs'))) \/
    (ad_id nd <> 4294967295%N /\ ~ archetypes_full r (ad_id nd) (length cs') /\
     exists d r' T' td, find_dst i nd r = Ret (Some (i, d)) r' /\ r_er r' = r_er r /\ reg_ok be U r' T' w /\
       T' !! i = Some t /\ T' !! d = Some td /\ i <> d /\ t_id td = ad_id nd /\ t_cs td = cs' /\ evolves r T r' T' [] /\
       open_sheet (skel T) (ad_id nd) cs' = Some (d, skel T')).
  Proof.
    intros H Ht Hwf Hc Hin Hpos Hlen Hocc Hid. pose proof (ad_components_length _ Hwf) as Hl. rewrite Hc, map_length in Hl.
    assert (H14 : length cs' <= 14) by (destruct Hwf as (_&?&_); lia).
    destruct (decide (ad_is_valid nd = true)) as [Hv|Hv].
    - assert (Hd : desc_ok nd cs') by (split; [done|done|done|by apply (U_small _ _ HU)|done]).
      assert (Hnm : ad_id nd <> 4294967295%N). { intros E. unfold ad_is_valid in Hv. by rewrite E in Hv. }
      destruct (find_or_create_ok be U HU r T w nd cs' H Hd Hin (conj Hocc (or_intror Hid))) as [(E&Hf&_)|(Hnf&d&r'&T'&td&E&Eer&H'&Htd&Htid&Htcs&Hev&Hext&Eop)].
      + left. split; [|by right]. unfold find_dst. by rewrite (bind_Ret _ _ _ _ _ E).
      + right. split; [done|]. split; [done|].
        assert (Hne : i <> d). { intros <-. apply Hext in Ht. congruence. }
        exists d, r', T', td. split; [|by eauto 12].
        unfold find_dst. rewrite (bind_Ret _ _ _ _ _ E). rewrite rm_get_step. rewrite disjoint_mut_spec, decide_True; [done|].
        rewrite (ro_len _ _ _ _ _ H'). split; [done|]. split; eapply lookup_lt_Some; eauto.
    - left. assert (Em : ad_id nd = 4294967295%N).
      { unfold ad_is_valid, aid_is_valid, AID_INVALID in Hv. destruct (N.eqb_spec (ad_id nd) 4294967295); [done|]. exfalso. by apply Hv. }
      split; [|by left]. unfold find_dst.
      pose proof (find_or_create_spec nd r (ro_areg _ _ _ _ _ H)) as Hs.
      unfold find_or_create_archetype. destruct (ad_is_valid nd); [done|]. rewrite orb_true_r. done.
  Qed.

  (** *** add_component *)
  Lemma add_desc a t j h m C v nd : tab_ok be U a t -> t_rows t !! j = Some (h, m) -> C ∈ U ->
    ad_add_component be (a_desc a) (cdesc_of C) = Rd (Some nd) ->
    exists cs', ad_wf nd /\ ad_components nd = map cdesc_of cs' /\ in_U U cs' /\ cs' ≡ₚ C :: t_cs t /\
      types U (<[ct_id C := v]> m) = cs' /\ ad_id nd = derived_archetype_id be (ids_of cs') /\ full cs' (<[ct_id C := v]> m).
  Proof.
    intros Hta Hj HC E. destruct (tab_facts _ _ _ _ Hta) as (Hd&Hs&_). destruct (tab_row _ _ HU _ _ _ _ _ Hta Hj) as (Hf&_&_).
    destruct (wf_add _ _ _ _ (do_wf _ _ Hd) E) as (Hwf&Hid&_&_&Hp&_). rewrite (do_comps _ _ Hd) in Hp.
    change (cdesc_of C :: map cdesc_of (t_cs t)) with (map cdesc_of (C :: t_cs t)) in Hp.
    apply Permutation_map_inv' in Hp as (cs'&Ec&Hp).
    assert (Hin : in_U U cs'). { unfold in_U. rewrite Hp. constructor; [done|apply Hta]. }
    assert (Hst : strict (ids_of cs')). { rewrite <- ids_cdesc_of, <- Ec. apply Hwf. }
    assert (Hf' : full cs' (<[ct_id C := v]> m)).
    { intros x. rewrite Hp. cbn. rewrite elem_of_cons, lookup_insert_is_Some, (Hf x). split.
      - intros [->|[_ ?]]; auto.
      - intros [->|?]; [by left|]. destruct (decide (ct_id C = x)); auto. }
    exists cs'. split; [done|]. split; [done|]. split; [done|]. split; [done|]. split; [|split; [|done]].
    - by eapply types_full.
    - by rewrite Hid, Ec, ids_cdesc_of.
  Qed.
  Lemma add_ok r T w C h v : reg_ok be U r T w -> contract be U w (OpAdd C h v) -> step_ok c U r T w (OpAdd C h v).
  Proof.
    intros H (HC&Hfv&Hcon).
    assert (Hfail : ~ addable be U (archetypes_full r) w h C v -> add_component c C h v r = Ret (Err v) r -> step_ok c U r T w (OpAdd C h v)).
    { intros Hn E. exists (OutAdd (Err v)), r. split; [cbn [step]; by rewrite (bind_Ret _ _ _ _ _ E)|]. split; [by right|]. by apply post_back. }
    destruct (w !! h) as [e|] eqn:Ew.
    2: { apply Hfail; [by intros (?&?&_); congruence|]. unfold add_component. rewrite rm_get_step. by rewrite (dead_entry _ _ _ _ _ _ H Ew). }
    destruct (live_entry c U _ _ _ _ _ H Ew) as (en&i&j&t&m&a&Een&Ei&Ej&Hrow&Ht&Hj&->&Ha&Hta).
    destruct (tab_has c U HU _ _ _ _ _ C Hta Hj HC) as [_ Ehas]. specialize (Hcon _ eq_refl). cbn [en_vals] in Hcon.
    destruct (tab_facts _ _ _ _ Hta) as (Hd&Hst&Hnd&H14&Hlen&_). destruct (tab_row _ _ HU _ _ _ _ _ Hta Hj) as (Hfull&Hfit&Ety).
    pose proof (full_size _ _ Hnd Hfull) as Hsize.
    assert (Hstep : add_component c C h v r =
      (let! o := dropping_on_panic [v] (find_or_create_archetype_adding_component c i (cdesc_of C)) in
       match o with
       | None => ret (Err v)
       | Some (src, dst) =>
          let! (srow, drow) := dropping_on_panic [v] (move_front j en src dst (fun sa srow drow =>
              with_arch dst (write_single_component_unchecked C drow v) ;;! ret (srow, drow))) in
          let! sa := rm_rd (arch_at src) in
          move_back h src dst sa srow drow (Ok tt)
       end) r).
    { unfold add_component. rewrite rm_get_step, Een, Ei, Ej. done. }
    assert (Hfind : find_or_create_archetype_adding_component c i (cdesc_of C) r =
      (let! od := lift_rd (ad_add_component be (a_desc a) (cdesc_of C)) in match od with None => ret None | Some nd => find_dst i nd end) r).
    { unfold find_or_create_archetype_adding_component. rewrite rm_get_step, Ha.
      rewrite (proj2 (Nat.ltb_ge _ _)); [done|]. apply Nat.lt_le_incl. by eapply lookup_lt_Some. }
    rewrite Hstep in Hfail.
    destruct (decide (length (t_cs t) = 14 \/ C ∈ t_cs t)) as [Hno|Hno].
    { apply Hfail.
      - intros (e'&E'&En&Hs&_). rewrite Ew in E'. injection E' as <-. cbn [en_vals] in *. destruct Hno as [?|Hin]; [lia|].
        apply Ehas in Hin as [? ?]. congruence.
      - erewrite bind_Ret; [|apply dop_Ret; rewrite Hfind, add_component_none; [done|apply Hd|]].
        + done.
        + destruct Hno as [E|Hin]; [left; lia|right]. rewrite (do_comps _ _ Hd), ids_cdesc_of. apply elem_of_ids. by exists C. }
    apply Decidable.not_or in Hno as [Hn14 HnC].
    assert (Hnone : m !! ct_id C = None). { apply eq_None_not_Some. by rewrite <- Ehas. }
    destruct (Hcon Hnone) as [Hn13 Hroom].
    assert (HnC' : cd_id (cdesc_of C) ∉ ids (ad_components (a_desc a))).
    { rewrite (do_comps _ _ Hd), ids_cdesc_of. cbn. intros Hx. apply Hfull in Hx as [? ?]. congruence. }
    destruct (add_component_spec be (a_desc a) (cdesc_of C) (do_wf _ _ Hd)) as (nd&k&Eadd&_); [lia|done|].
    destruct (add_desc _ _ _ _ _ _ v _ Hta Hj HC Eadd) as (cs'&Hwf&Hcomp&Hin'&Hp&Ety'&Hid&Hfull').
    pose proof (Permutation_length Hp) as Hlen'. cbn in Hlen'.
    rewrite Eadd in Hfind. cbv zeta in Hroom. unfold derived in Hroom. cbn [en_aid en_vals] in Hroom. rewrite Ety', <- Hid in Hroom.
    destruct Hroom as [Hocc Hroom]. specialize (Hocc ltac:(rewrite map_length; lia)).
    assert (Hsz : size (<[ct_id C := v]> m) = length cs') by (rewrite map_size_insert_None by done; lia).
    assert (Hcan : can_hold be U (archetypes_full r) (<[ct_id C := v]> m) <-> ad_id nd <> 4294967295%N /\ ~ archetypes_full r (ad_id nd) (length cs')).
    { unfold can_hold, derived. cbn [en_aid]. by rewrite Ety', <- Hid, Hsz. }
    destruct (find_dst_ok r T w i t nd cs' H Ht Hwf Hcomp Hin' ltac:(lia) ltac:(lia) Hocc Hid)
      as [[Ef Hc]|(Hv&Hnf&d&r1&T1&td&Ef&Eer&H1&Ht1&Htd&Hne&Htid&Htcs&Hev&Eop)].
    { apply Hfail.
      - intros (e'&E'&En&Hs&Hch). rewrite Ew in E'. injection E' as <-. cbn [en_vals] in *. apply Hcan in Hch. tauto.
      - erewrite bind_Ret; [|apply dop_Ret; rewrite Hfind; exact Ef]. done. }
    destruct (ro_tab _ _ _ _ _ _ _ H1 Htd) as (ad&Had&Htad). destruct (ro_tab _ _ _ _ _ _ _ H1 Ht1) as (a1&Ha1&Hta1).
    rewrite <- Htid, <- Htcs in Hroom. rewrite (crowd_rows _ _ HU _ _ _ _ _ H1 Htd) in Hroom.
    destruct (move_front_ok r1 T1 w H1 i d j Hne t td Ht1 a1 ad Ha1 Had Hta1 Htad h m Hj en Hrow Hroom
      (fun sa srow drow => with_arch d (write_single_component_unchecked C drow v) ;;! ret (srow, drow)))
      as (sa&da&rg&e1&P&Hmv&HP&Efront).
    pose proof Htad as (_&Hokd&_).
    assert (HCd : C ∈ t_cs td) by (rewrite Htcs, Hp; by left).
    destruct (write_single_ok (a_desc ad) (t_cs td) (proj1 Hokd) C da (t_rows td) P v e1 (mv_ddesc _ _ _ _ _ _ _ _ _ _ _ _ Hmv)
       (mv_dhalf _ _ _ _ _ _ _ _ _ _ _ _ Hmv) HCd) as (da'&Ews&Edd&Ecd&Hh').
    assert (Hmv' : moving r1 i j t td a1 ad sa da' rg e1 (<[ct_id C := v]> P)).
    { destruct Hmv as [A1 A2 A3 A4 A5 A6 A7 A8]. split; try done. by rewrite Ecd. }
    destruct (move_back_ok r1 T1 w H1 i d j Hne t td Ht1 Htd a1 ad Ha1 Had Hta1 Htad h m Hj en Hrow Hroom sa da' rg e1 _ (<[ct_id C := v]> m)
       (Ok tt : result unit value) Hmv') as (r2&T2&Eback&H2&Hev2&Esk).
    { split; cbn; [by rewrite Htcs|]. intros C' v' HC' Hv'. rewrite Htcs, Hp in HC'. apply elem_of_cons in HC' as [->|HC'].
      - rewrite lookup_insert in Hv'. by injection Hv' as <-.
      - apply Hfit; [done|]. rewrite lookup_insert_ne in Hv'; [done|]. intros E. apply HnC.
        assert (C = C') as ->; [|done]. eapply (ids_inj U); [apply (U_nodup _ _ HU)|done|by eapply in_U_elem; [apply Hta|]|done]. }
    { intros C' v' HC' Hv'. apply lookup_insert_Some in Hv' as [[E Ev]|[Hne' Hv']].
      - rewrite E. subst v'. by rewrite lookup_insert.
      - rewrite lookup_insert_ne by done. rewrite HP; [done| |apply elem_of_ids; eauto].
        apply Hfull. by exists v'. }
    exists (OutAdd (Ok tt)), r2. split; [|split].
    - cbn [step]. erewrite bind_Ret; [done|]. rewrite Hstep. erewrite bind_Ret; [|apply dop_Ret; rewrite Hfind; exact Ef]. cbn beta iota.
      erewrite bind_Ret.
      2: { apply dop_Ret. rewrite Efront. erewrite bind_Ret; [|eapply with_arch_Ret; [by eapply put2_dst|exact Ews]]. done. }
      cbn beta iota. rewrite put2_put_dst. erewrite bind_Ret; [|apply arch_at_Rd; by eapply put2_src].
      exact Eback.
    - left. split; [|done]. exists (Ent (t_id t) m). split; [done|]. split; [done|]. split; [cbn; lia|]. by apply Hcan.
    - cbn [ins outs ledger]. rewrite (alter_as_insert _ _ _ _ Ew). cbn [en_vals]. unfold derived. rewrite Ety', <- Hid, <- Htid.
      exists T2, []. split; [done|]. split; [by apply (evolves_trans _ _ _ _ _ _ [] [] Hev)|]. cbn [app].
      pose proof (wv_replace w h _ (Ent (t_id td) (<[ct_id C := v]> m)) Ew) as Hpw. cbn [en_vals] in Hpw.
      rewrite map_to_list_insert in Hpw by done. cbn in Hpw. rewrite Permutation_middle in Hpw. split; [by apply Permutation_app_inv_l in Hpw|].
      eexists _, d, (skel T1). split; [exact Ew|]. split; [|exact Esk]. unfold opens, derived. cbn [en_aid en_vals]. by rewrite Ety', <- Hid.
  Qed.

  (** *** remove_component *)
  Lemma remove_desc a t j h m C nd : tab_ok be U a t -> t_rows t !! j = Some (h, m) -> C ∈ U ->
    ad_remove_component be (a_desc a) (ct_id C) = Rd (Some nd) ->
    exists cs', ad_wf nd /\ ad_components nd = map cdesc_of cs' /\ in_U U cs' /\ t_cs t ≡ₚ C :: cs' /\
      types U (delete (ct_id C) m) = cs' /\ ad_id nd = derived_archetype_id be (ids_of cs') /\ full cs' (delete (ct_id C) m).
  Proof.
    intros Hta Hj HC E. destruct (tab_facts _ _ _ _ Hta) as (Hd&Hs&Hnd&H14&Hlen&_). destruct (tab_row _ _ HU _ _ _ _ _ Hta Hj) as (Hf&_&_).
    destruct (wf_remove _ _ _ _ (do_wf _ _ Hd) ltac:(lia) E) as (Hwf&Hid&_&_&c0&Ec0&Hp). rewrite (do_comps _ _ Hd) in Hp.
    symmetry in Hp. apply Permutation_map_inv' in Hp as (cs0&Ec&Hp). destruct cs0 as [|C0 cs']; [done|]. cbn in Ec. injection Ec as E0 Ec.
    assert (Hin0 : in_U U (C0 :: cs')). { unfold in_U. rewrite Hp. apply Hta. }
    assert (C0 = C) as ->. { eapply (ids_inj U); [apply (U_nodup _ _ HU)|by inversion Hin0|done|]. by rewrite <- Ec0, E0. }
    assert (Hin : in_U U cs') by (by inversion Hin0).
    assert (Hst : strict (ids_of cs')). { rewrite <- ids_cdesc_of, <- Ec. apply Hwf. }
    rewrite <- Hp in Hnd. cbn in Hnd. apply NoDup_cons in Hnd as [HnC Hnd'].
    assert (Hf' : full cs' (delete (ct_id C) m)).
    { intros x. rewrite lookup_delete_is_Some, (Hf x), <- Hp. cbn. rewrite elem_of_cons. split.
      - intros [Hne [->|?]]; [done|done].
      - intros Hx. split; [|by right]. intros <-. done. }
    exists cs'. split; [done|]. split; [done|]. split; [done|]. split; [done|]. split; [|split; [|done]].
    - by eapply types_full.
    - by rewrite Hid, Ec, ids_cdesc_of.
  Qed.
  Lemma remove_ok r T w C h : reg_ok be U r T w -> contract be U w (OpRemove C h) -> step_ok c U r T w (OpRemove C h).
  Proof.
    intros H (HC&Hcon).
    assert (Hfail : (forall v, ~ removable be U (archetypes_full r) w h C v) -> remove_component c C h r = Ret (Err tt) r -> step_ok c U r T w (OpRemove C h)).
    { intros Hn E. exists (OutRemove (Err tt)), r. split; [cbn [step]; by rewrite (bind_Ret _ _ _ _ _ E)|]. split; [by right|]. by apply post_same. }
    destruct (w !! h) as [e|] eqn:Ew.
    2: { apply Hfail; [by intros v (?&?&_); congruence|]. unfold remove_component. rewrite rm_get_step. by rewrite (dead_entry _ _ _ _ _ _ H Ew). }
    destruct (live_entry c U _ _ _ _ _ H Ew) as (en&i&j&t&m&a&Een&Ei&Ej&Hrow&Ht&Hj&->&Ha&Hta).
    destruct (tab_has c U HU _ _ _ _ _ C Hta Hj HC) as [_ Ehas]. specialize (Hcon _ eq_refl). cbn [en_vals] in Hcon.
    destruct (tab_facts _ _ _ _ Hta) as (Hd&Hst&Hnd&H14&Hlen&_). destruct (tab_row _ _ HU _ _ _ _ _ Hta Hj) as (Hfull&Hfit&Ety).
    pose proof (full_size _ _ Hnd Hfull) as Hsize.
    assert (Hstep : remove_component c C h r =
      (let! o := find_or_create_archetype_removing_component c i (cdesc_of C) in
       match o with
       | None => ret (Err tt)
       | Some (src, dst) =>
          move_front j en src dst (fun sa srow drow =>
            let! v := lift_rd (read_component_unchecked C srow sa) in
            dropping_on_panic [v] (move_back h src dst sa srow drow (Ok v)))
       end) r).
    { unfold remove_component. rewrite rm_get_step, Een, Ei, Ej. done. }
    assert (Hfind : find_or_create_archetype_removing_component c i (cdesc_of C) r =
      (let! od := lift_rd (ad_remove_component be (a_desc a) (ct_id C)) in match od with None => ret None | Some nd => find_dst i nd end) r).
    { unfold find_or_create_archetype_removing_component. rewrite rm_get_step, Ha.
      rewrite (proj2 (Nat.ltb_ge _ _)); [done|]. apply Nat.lt_le_incl. by eapply lookup_lt_Some. }
    rewrite Hstep in Hfail.
    destruct (decide (length (t_cs t) = 1 \/ C ∉ t_cs t)) as [Hno|Hno].
    { apply Hfail.
      - intros v (e'&E'&En&Hs&_). rewrite Ew in E'. injection E' as <-. cbn [en_vals] in *. destruct Hno as [?|Hin]; [lia|].
        apply Hin, Ehas. by exists v.
      - erewrite bind_Ret; [|rewrite Hfind, remove_component_none; [done|apply Hd|]].
        + done.
        + destruct Hno as [E|Hin]; [left; lia|right]. rewrite (do_comps _ _ Hd), ids_cdesc_of. intros Hx. apply Hin, Ehas. by apply Hfull. }
    apply Decidable.not_or in Hno as [Hn1 HinC]. destruct (decide (C ∈ t_cs t)) as [HCt|]; [clear HinC|done].
    destruct (proj1 Ehas HCt) as [v Hmv0].
    destruct Hcon as [Hn14 Hroom]; [by exists v|].
    assert (HCin : ct_id C ∈ ids (ad_components (a_desc a))).
    { rewrite (do_comps _ _ Hd), ids_cdesc_of. apply elem_of_ids. by exists C. }
    destruct (remove_component_spec be (a_desc a) (ct_id C) (do_wf _ _ Hd)) as (nd&k&Erem&_); [lia|done|].
    destruct (remove_desc _ _ _ _ _ _ _ Hta Hj HC Erem) as (cs'&Hwf&Hcomp&Hin'&Hp&Ety'&Hid&Hfull').
    pose proof (Permutation_length Hp) as Hlen'. cbn in Hlen'.
    rewrite Erem in Hfind. cbv zeta in Hroom. unfold derived in Hroom. cbn [en_aid en_vals] in Hroom. rewrite Ety', <- Hid in Hroom.
    destruct Hroom as [Hocc Hroom]. specialize (Hocc ltac:(rewrite map_length; lia)).
    assert (Hsz : size (delete (ct_id C) m) = length cs').
    { apply full_size; [|done]. rewrite Hp in Hnd. cbn in Hnd. by apply NoDup_cons in Hnd as [_ ?]. }
    assert (Hcan : can_hold be U (archetypes_full r) (delete (ct_id C) m) <-> ad_id nd <> 4294967295%N /\ ~ archetypes_full r (ad_id nd) (length cs')).
    { unfold can_hold, derived. cbn [en_aid]. by rewrite Ety', <- Hid, Hsz. }
    destruct (find_dst_ok r T w i t nd cs' H Ht Hwf Hcomp Hin' ltac:(lia) ltac:(lia) Hocc Hid)
      as [[Ef Hc]|(Hv&Hnf&d&r1&T1&td&Ef&Eer&H1&Ht1&Htd&Hne&Htid&Htcs&Hev&Eop)].
    { apply Hfail.
      - intros v' (e'&E'&En&Hs&Hch). rewrite Ew in E'. injection E' as <-. cbn [en_vals] in *. apply Hcan in Hch. tauto.
      - erewrite bind_Ret; [|rewrite Hfind; exact Ef]. done. }
    destruct (ro_tab _ _ _ _ _ _ _ H1 Htd) as (ad&Had&Htad). destruct (ro_tab _ _ _ _ _ _ _ H1 Ht1) as (a1&Ha1&Hta1).
    rewrite <- Htid, <- Htcs in Hroom. rewrite (crowd_rows _ _ HU _ _ _ _ _ H1 Htd) in Hroom.
    destruct (move_front_ok r1 T1 w H1 i d j Hne t td Ht1 a1 ad Ha1 Had Hta1 Htad h m Hj en Hrow Hroom
      (fun sa srow drow => let! v := lift_rd (read_component_unchecked C srow sa) in
            dropping_on_panic [v] (move_back h i d sa srow drow (Ok v : result value unit))))
      as (sa&da&rg&e1&P&Hmv&HP&Efront).
    destruct (move_back_ok r1 T1 w H1 i d j Hne t td Ht1 Htd a1 ad Ha1 Had Hta1 Htad h m Hj en Hrow Hroom sa da rg e1 _ (delete (ct_id C) m)
       (Ok v : result value unit) Hmv) as (r2&T2&Eback&H2&Hev2&Esk).
    { split; cbn; [by rewrite Htcs|]. intros C' v' HC' Hv'. rewrite Htcs in HC'. apply lookup_delete_Some in Hv' as [_ Hv'].
      apply Hfit; [|done]. rewrite Hp. by right. }
    { intros C' v' HC' Hv'. apply lookup_delete_Some in Hv' as [_ Hv']. rewrite HP; [done| |apply elem_of_ids; eauto].
      apply Hfull. by exists v'. }
    exists (OutRemove (Ok v)), r2. split; [|split].
    - cbn [step]. erewrite bind_Ret; [done|]. rewrite Hstep. erewrite bind_Ret; [|rewrite Hfind; exact Ef]. cbn beta iota.
      rewrite Efront. pose proof Hmv as [A1 A2 A3 A4 A5 A6 A7 A8].
      pose proof (proj1 A3) as Hds1. rewrite A1 in Hds1.
      destruct (get_component_ok (a_desc a1) (t_cs t) Hds1 sa _ _ _ _ C v A1 A3 (moving_last _ _ _ _ Hj) HCt Hmv0) as (_&Erd&_).
      rewrite Erd. erewrite bind_Ret; [|done]. by rewrite (dop_Ret _ _ _ _ _ Eback).
    - left. exists v. split; [|done]. exists (Ent (t_id t) m). split; [done|]. split; [done|]. split; [cbn; lia|]. by apply Hcan.
    - cbn [ins outs ledger]. rewrite (alter_as_insert _ _ _ _ Ew). cbn [en_vals]. unfold derived. rewrite Ety', <- Hid, <- Htid.
      exists T2, []. split; [done|]. split; [by apply (evolves_trans _ _ _ _ _ _ [] [] Hev)|]. cbn [app].
      pose proof (wv_replace w h _ (Ent (t_id td) (delete (ct_id C) m)) Ew) as Hpw. cbn [en_vals] in Hpw.
      rewrite <- (insert_delete m (ct_id C) v Hmv0) in Hpw at 2. rewrite map_to_list_insert in Hpw by apply lookup_delete.
      cbn in Hpw. rewrite Permutation_middle in Hpw. split; [by apply Permutation_app_inv_l in Hpw|].
      eexists _, d, (skel T1). split; [exact Ew|]. split; [|exact Esk]. unfold opens, derived. cbn [en_aid en_vals]. by rewrite Ety', <- Hid.
  Qed.
End ops3.
