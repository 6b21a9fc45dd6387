(** Proofs for C41: the archetype with 2^23 entities cannot take another one,
    and such a registry exists. *)
From Verif Require Import RegModel SpecEntity EntityProofs EntityTable MonadProofs DescrProofs ArchProofs ArchOps ArchOps2 ArchOps3 AregProofs RegProofs RegOps Refine Clients SpecObs Observe SpecClient SpecBase SpecWorld.
Local Open Scope nat_scope.

(** ** One archetype *)
Section full.
  Context {K : caps}.
  Context (d : adesc) (cs : list ctype) (Hd : desc_ok d cs).
  (** Growing to 2^24 or more frees all columns instead. *)
  Lemma full_resize a rows e :
    a_desc a = d -> arch_ok a cs rows -> a_cap a = length rows -> (8388608 <= N.of_nat (length rows))%N -> ev_oracle e = [] ->
    exists ps e', resize_if_necessary (a, e) = Ret tt (Arch d ps None (length rows) 0, e') /\ forall k, k < length cs -> ps !! k = Some None.
  Proof.
    intros Ed Hok Ecap Hn Ho. pose proof Hok as (_&Hcap&Hle&_&C&H&Ea&(HlC&_&_)&_). rewrite Ed in Ea.
    pose proof (capok_pos _ Hcap) as Hpos.
    unfold resize_if_necessary. unfold bind at 1, am_get at 1. cbn [fst]. unfold is_full. rewrite (count_ok cs _ _ Hok), Ecap, Nat.eqb_refl.
    rewrite (proj2 (Nat.eqb_neq _ 0)) by lia. unfold resize_capacity. unfold bind at 1, am_get at 1. cbn [fst]. cbv zeta. rewrite Ecap.
    unfold MAX_ENTITIES_PER_ARCHETYPE, MAX_ENTITY_HANDLE_VALUE.
    rewrite (proj2 (Z.leb_le (Z.of_N 16777215) _)) by lia. rewrite orb_true_r.
    unfold a_dealloc. unfold bind at 1, am_get at 1. cbn [fst].
    rewrite (ok_comps d cs Hd _ _ Ed Hok). unfold enum. rewrite map_length.
    destruct (dealloc_columns_ok d (a_cap a) (length rows) (colbs (a_cap a) cs C) (Some (Block (4 * N.of_nat (a_cap a))%N 4%N H)) cs C e 0)
      as (ps'&e2&E2&_&_&Hnull); [apply Hd|done|done| |].
    { intros j c col Hj Hcol. by apply colbs_lookup. }
    assert (E2' : dealloc_columns (zip (seq 0 (length cs)) (map cdesc_of cs)) (a, e) =
      Ret true (Arch d ps' (Some (Block (4 * N.of_nat (a_cap a))%N 4%N H)) (length rows) (a_cap a), e2)).
    { rewrite <- E2. rewrite Ea at 1. done. }
    rewrite (bind_Ret _ _ _ _ _ E2'). cbn iota. unfold bind at 1, am_get at 1. cbn [fst a_assoc a_cap].
    assert (Edl : mem_dealloc (Some (Block (4 * N.of_nat (a_cap a))%N 4%N H)) (ENTITY_SIZE * N.of_nat (a_cap a)) ENTITY_ALIGN e2 =
                 Ret tt (emitted e2 [EvDealloc (4 * N.of_nat (a_cap a)) 4])%N).
    { unfold mem_dealloc, ENTITY_SIZE, ENTITY_ALIGN. cbn [bl_size bl_align]. rewrite !N.eqb_refl. done. }
    rewrite (bind_Ret _ _ _ _ _ (am_env_Ret _ _ _ _ _ Edl)). unfold am_upd. cbn [fst snd].
    eexists _, _. split; [reflexivity|]. cbn [a_ptrs]. intros k Hk. by apply (Hnull k).
  Qed.
  Lemma full_push c G vs h a rows e :
    a_desc a = d -> arch_ok a cs rows -> a_cap a = length rows -> (8388608 <= N.of_nat (length rows))%N -> ev_oracle e = [] ->
    gspec (big c) G cs -> ad_id d = tuple_archetype_id (big c) (ids_of cs) ->
    if dbg c then exists s', push_entity_unchecked c G h vs (a, e) = Panic s' else push_entity_unchecked c G h vs (a, e) = UB.
  Proof.
    intros Ed Hok Ecap Hn Ho Hg Hid. destruct (full_resize a rows e Ed Hok Ecap Hn Ho) as (ps&e'&Er&Hps%(fun H => H 0 (do_pos _ _ Hd))).
    assert (E : push_entity_unchecked c G h vs (a, e) =
      (write_entity_unchecked c G (length rows) h vs ;;! ret (length rows)) (Arch d ps None (S (length rows)) 0, e')).
    { unfold push_entity_unchecked. unfold bind at 1, am_get at 1. cbn [fst].
      rewrite (bind_Ret _ _ _ _ _ (mdebug_true _ _ _ (gs_valid _ _ _ Hg))).
      erewrite (bind_Ret (mdebug_assert _ _)); [|apply mdebug_true; rewrite Ed, Hid, (gs_id _ _ _ Hg); apply N.eqb_refl].
      rewrite (bind_Ret _ _ _ _ _ Er). done. }
    rewrite E. clear E.
    assert (Ew : if dbg c then exists s', write_entity_unchecked c G (length rows) h vs (Arch d ps None (S (length rows)) 0, e') = Panic s'
                 else write_entity_unchecked c G (length rows) h vs (Arch d ps None (S (length rows)) 0, e') = UB).
    { unfold write_entity_unchecked. unfold bind, am_get. cbn [fst a_cap].
      replace (length rows <? 0) with false by (symmetry; apply Nat.ltb_ge; lia). destruct (dbg c); [eexists; done|]. cbn [mdebug_assert ret]. unfold ret.
      rewrite (gs_comps _ _ _ Hg). pose proof (do_pos _ _ Hd) as Hp. destruct cs as [|c0 cs0]; [cbn in Hp; lia|].
      assert (Eu : forall x st, (st : arch * env).1 = Arch d ps None (S (length rows)) 0 ->
        copy_in (as_sorted_values (big c) G vs) (length rows) (0, x) st = UB).
      { intros x st Est. unfold copy_in, bind, am_get. destruct (as_sorted_values (big c) G vs !! 0) as [[v|]|]; [|done|done].
        destruct (a_comps st.1 !! 0) as [d'|]; [|done]. destruct (_ =? _)%N; [|done]. unfold write_cell. rewrite Est. cbn [a_ptrs].
        destruct ps as [|p ps0]; [discriminate Hps|]. by injection Hps as ->. }
      cbn [map enum length seq zip zip_with mfor]. unfold bind. by rewrite Eu. }
    unfold bind. destruct (dbg c); [|by rewrite Ew]. destruct Ew as [s' ->]. by exists s'.
  Qed.
End full.

(** ** The registry *)
Section over.
  Context {Fm : family} (d be : bool) (U : list ctype) (HU : universe be U).
  Local Notation c := (Cfg d be).
  Lemma crowded_table r T w s : reg_ok be U r T w -> 0 < crowd U w (tuple_archetype_id be (ids_of s)) (ids_of s) ->
    exists a t, a ∈ ar_archs (r_ar r) /\ tab_ok be U a t /\ t_id t = tuple_archetype_id be (ids_of s) /\ ids_of (t_cs t) = ids_of s.
  Proof.
    intros H Hpos.
    assert (Hex : exists h e, w !! h = Some e /\ en_aid e = tuple_archetype_id be (ids_of s) /\ ids_of (types U (en_vals e)) = ids_of s).
    { unfold crowd in Hpos. set (f := filter _ w) in Hpos. destruct (map_to_list f) as [|[h e] l] eqn:E.
      - unfold size, map_size in Hpos. rewrite E in Hpos. cbn in Hpos. lia.
      - assert (Hhe : f !! h = Some e) by (apply elem_of_map_to_list; rewrite E; left).
        apply map_filter_lookup_Some in Hhe as [? [? ?]]. by exists h, e. }
    destruct Hex as (h&e&Hw&Ea&Ei). apply (ro_repr _ _ _ _ _ H) in Hw as (i&t&m&Ht&Hm&->). cbn in Ea, Ei.
    destruct (ro_tab _ _ _ _ _ _ _ H Ht) as (a&Ha&Hta). exists a, t. split; [by eapply elem_of_list_lookup_2|]. split; [done|]. split; [done|].
    assert (Et : types U m = t_cs t).
    { apply elem_of_list_lookup in Hm as [j Hj]. by eapply tab_row. }
    by rewrite <- Et.
  Qed.
  Lemma crowded_not_full r T w G s : reg_ok be U r T w -> gspec be G s -> in_U U G -> 0 < crowd U w (tuple_archetype_id be (ids_of s)) (ids_of s) ->
    ~ archetypes_full r (tuple_archetype_id be (ids_of s)) (length s).
  Proof.
    intros H Hg Hin Hpos [_ Hall]. destruct (crowded_table _ _ _ _ H Hpos) as (a&t&Ha&(Hida&Hok&_)&Ea&Ei).
    rewrite Forall_forall in Hall. apply (Hall _ Ha). split; [congruence|].
    pose proof (desc_len _ _ (proj1 Hok)) as [-> _].
    rewrite <- (map_length ct_id (t_cs t)), <- (map_length ct_id s). by change (map ct_id ?l) with (ids_of l); rewrite Ei.
  Qed.
  Lemma full_ready r T w G vs : reg_ok be U r T w -> gvalid be G -> in_U U G -> Forall2 fits G vs -> ~ table_full r ->
    N.of_nat (crowd U w (en_aid (created be U G vs)) (ids_of (types U (vmap G vs)))) = 8388608%N ->
    exists i r1 a cs rows row ai h rg, gd_is_valid (group_desc be G) = true /\ find_or_create_archetype (gd_arch (group_desc be G)) r = Ret (Some i) r1 /\
      ar_archs (r_ar r1) !! i = Some a /\ iia_new (N.of_nat (a_len a)) = Some row /\ ai_new (N.of_nat i) = Some ai /\
      er_create_entity be row ai (r_er r1) = Ret (Some h) rg /\ arch_ok a cs rows /\ a_cap a = length rows /\ (8388608 <= N.of_nat (length rows))%N /\
      ev_oracle (r_env r1) = [] /\ gspec be G cs /\ ad_id (a_desc a) = tuple_archetype_id be (ids_of cs).
  Proof.
    intros H Hv Hin HF Hnt Hcr. pose proof (Forall2_length _ _ _ HF) as HFl. apply (gvalid_iff c) in Hv.
    destruct (gspec_exists be G Hv) as [s Hg]. destruct (gspec_NoDup _ _ _ Hg) as (HndG&Hnds&_&Hsl).
    destruct (gspec_desc c U HU _ _ Hg Hin) as (Hd&Hins). cbn [big] in Hv, Hd.
    pose proof (gspec_types c U HU _ _ vs Hg Hin (eq_sym HFl)) as Ety.
    unfold created in Hcr. cbn [en_aid] in Hcr. rewrite Ety in Hcr.
    assert (Haid : archetype_id_of be (ids_of s) (ad_id (gd_arch (group_desc be G)))).
    { destruct (crowded_table r T w s H ltac:(lia)) as (a&t&_&(_&_&_&Ho&_)&E1&E2). apply (gspec_id c); [done|].
      change (occurs (tuple_archetype_id be (ids_of s)) (ids_of s)). rewrite <- E1, <- E2. exact Ho. }
    destruct (find_or_create_ok be U HU r T w _ s H Hd Hins Haid) as [(Efc&Hfull&_)|(Hnf&i&r1&T1&t&Efc&Eer&H1&Ht&Hid&Hcs&Hev&Hext&_)].
    { exfalso. rewrite (gs_id _ _ _ Hg) in Hfull. revert Hfull. eapply crowded_not_full; try done. lia. }
    rewrite (gs_id _ _ _ Hg) in Hid.
    destruct (ro_tab _ _ _ _ _ _ _ H1 Ht) as (a&Ha&Hta). pose proof Hta as (Hida&Hok&_).
    rewrite <- Hid, <- Hcs in Hcr. rewrite (crowd_rows _ _ HU _ _ _ _ _ H1 Ht) in Hcr.
    pose proof (ro_small_index c U _ _ _ _ _ H1 Ht) as Hi.
    destruct (ro_er _ _ _ _ _ H1) as [F Her].
    assert (Ecount : a_len a = length (t_rows t)) by (unfold a_len; by eapply count_ok).
    destruct (loc_create be (r_er r1) F (N.of_nat (length (t_rows t))) (N.of_nat i) Her) as [[Hge Ec]|[Hlt (h&rg&F'&Ec&_)]]; [lia|lia| |].
    { exfalso. apply Hnt. unfold table_full. by rewrite <- Eer. }
    assert (Ecap : a_cap a = length (t_rows t)).
    { destruct Hok as (_&Hcap&Hle&_). apply capok_max in Hcap. lia. }
    exists i, r1, a, (t_cs t), (t_rows t), (N.of_nat (length (t_rows t))), (N.of_nat i), h, rg. split; [done|]. split; [done|]. split; [done|].
    split; [rewrite Ecount, iia_new_spec; by rewrite decide_True by lia|]. split; [rewrite ai_new_spec; by rewrite decide_False by lia|].
    split; [done|]. split; [done|]. split; [done|]. split; [by rewrite Hcr|]. split; [apply H1|]. split; [by rewrite Hcs|]. by rewrite Hida, Hid, Hcs.
  Qed.
  Lemma full_create r T w G vs : reg_ok be U r T w -> gvalid be G -> in_U U G -> Forall2 fits G vs -> ~ table_full r ->
    N.of_nat (crowd U w (en_aid (created be U G vs)) (ids_of (types U (vmap G vs)))) = 8388608%N ->
    if d then exists s', create_entity c G vs r = Panic s' else create_entity c G vs r = UB.
  Proof.
    intros H Hv Hin HF Hnt Hcr.
    destruct (full_ready r T w G vs H Hv Hin HF Hnt Hcr) as (i&r1&a&cs&rows&row&ai&h&rg&Hgv&Efc&Ha&Erow&Eai&Ec&Hok&Ecap&Hn&Ho&Hg&Hid).
    assert (Estep : create_entity c G vs r = dropping_on_panic vs
      (let! _ := with_arch i (push_entity_unchecked c G h vs) in ret (Ok h)) (Reg rg (r_ar r1) (r_env r1))).
    { unfold create_entity, dropping_on_panic. cbn [big]. rewrite Hgv. cbn [negb].
      rewrite (bind_Ret _ _ _ _ _ Efc). rewrite (bind_Ret _ _ _ _ _ (arch_at_Rd _ _ _ Ha)).
      rewrite Erow, Eai. cbn [unwrap]. rewrite !bind_ret_l.
      rewrite (bind_Ret _ _ _ _ _ (rm_er_Ret _ _ _ _ Ec)). done. }
    pose proof (full_push (a_desc a) cs (proj1 Hok) c G vs h a rows (r_env r1) eq_refl Hok Ecap Hn Ho Hg Hid) as Hp.
    rewrite Estep. unfold dropping_on_panic, bind, with_arch. cbn [r_ar r_env]. rewrite Ha. cbn [dbg big] in Hp.
    destruct d; [destruct Hp as [s' ->]; by eexists|by rewrite Hp].
  Qed.
  Lemma full_history r w I O G vs : history c U r w I O -> gvalid be G -> in_U U G -> Forall2 fits G vs -> ~ table_full r ->
    N.of_nat (crowd U w (en_aid (created be U G vs)) (ids_of (types U (vmap G vs)))) = 8388608%N ->
    if d then exists s', create_entity c G vs r = Panic s' else create_entity c G vs r = UB.
  Proof. intros Hh. destruct (history_ok c U HU _ _ _ _ Hh) as (T&D&Hok&_). by apply (full_create r T). Qed.

  (** ** Filling an archetype *)
  Lemma er_len_step r l r' F : er_inv be r F -> er_step be r l r' ->
    length (er_ents r') <= length (er_ents r) + (match l with LCreate _ => 1 | _ => 0 end).
  Proof.
    intros Hi Hs. destruct Hs as [r row ai o r' Hrow Hai E|r h b r' E|r h row r' Hrow E|r h ai r' Hai E].
    - destruct (er_create_spec be r F row ai Hi Hrow Hai) as [[_ E']|(_&j&v&r2&F'&e'&E'&_&_&_&_&_&_&_&_&_&Hcase)];
        rewrite E' in E; injection E as <- <-; [lia|]. destruct Hcase as [(_&_&_&_&->)|(_&->&_)]; lia.
    - destruct (er_destroy_spec be r F h Hi) as [[_ E']|(e&e'&r2&_&E'&_&_&_&_&_&Hl)]; rewrite E' in E; injection E as <- <-; lia.
    - pose proof (er_update_spec be r F h _ Hi (er_row_ok be row Hrow)) as H. rewrite E in H.
      destruct H as (e&_&_&_&->). cbn [er_ents]. rewrite insert_length. lia.
    - pose proof (er_update_spec be r F h _ Hi (er_arch_ok be ai Hai)) as H. rewrite E in H.
      destruct H as (e&_&_&_&->). cbn [er_ents]. rewrite insert_length. lia.
  Qed.
  Definition creations (ls : list label) : nat := length (List.filter (fun l => match l with LCreate _ => true | _ => false end) ls).
  Lemma er_len_path r ls r' F : er_inv be r F -> er_path be r ls r' -> length (er_ents r') <= length (er_ents r) + creations ls.
  Proof.
    intros Hi Hp. revert F Hi. induction Hp as [r|r l r1 ls r2 Hs Hp IH]; intros F Hi; [lia|].
    pose proof (er_len_step _ _ _ _ Hi Hs). destruct (er_step_inv _ _ _ _ _ Hi Hs) as [F' Hi']. specialize (IH _ Hi').
    unfold creations in *. cbn. destruct l; cbn in *; lia.
  Qed.
  Lemma moves_creations ls : moves ls -> creations ls = 0.
  Proof. induction 1 as [|l ls [h ->] _ IH]; [done|]. exact IH. Qed.
  Lemma create_len r G vs h r' : inv c r -> create_entity c G vs r = Ret (Ok h) r' ->
    inv c r' /\ length (er_ents (r_er r')) <= S (length (er_ents (r_er r))).
  Proof.
    intros Hi E. pose proof (create_labels c G vs r Hi) as H. rewrite E in H. destruct H as (ls&(Hp&Hi'&_)&(m1&m2&H1&H2&->)).
    split; [done|]. destruct (er_reach_inv _ _ (proj1 Hi)) as [F HF]. pose proof (er_len_path _ _ _ _ HF Hp) as Hl.
    unfold creations in *. rewrite List.filter_app, app_length in Hl. cbn [List.filter length] in Hl.
    pose proof (moves_creations _ H1). pose proof (moves_creations _ H2). unfold creations in *. lia.
  Qed.
  Lemma crowd_created w G vs h : w !! h = None ->
    let e := created be U G vs in
    crowd U (<[h := e]> w) (en_aid e) (ids_of (types U (vmap G vs))) = S (crowd U w (en_aid e) (ids_of (types U (vmap G vs)))).
  Proof.
    intros Hn e. unfold crowd. rewrite map_filter_insert_True by done.
    rewrite map_size_insert_None; [done|]. apply map_filter_lookup_None. by left.
  Qed.
  Lemma fill G vs n : gvalid be G -> in_U U G -> known be U G -> Forall2 fits G vs -> (N.of_nat n <= 8388608)%N ->
    exists r w I O, history c U r w I O /\
      crowd U w (en_aid (created be U G vs)) (ids_of (types U (vmap G vs))) = n /\ length (er_ents (r_er r)) <= n /\ inv c r /\ (n = 0 -> r = reg_default).
  Proof.
    intros Hv Hin Hkn HF. induction n as [|n IH]; intros Hn.
    - exists reg_default, ∅, [], []. split; [constructor|]. split; [|split; [cbn; lia|split; [apply inv_init|done]]].
      unfold crowd. by rewrite map_filter_empty, map_size_empty.
    - destruct IH as (r&w&I&O&Hh&Hcr&Hl&Hi&H0); [lia|].
      assert (Hc : contract be U w (OpCreate G vs)). { split; [done|]. split; [done|]. intros _. split; [|rewrite Hcr; lia]. intros _. apply (created_known c U HU); try done. symmetry. by eapply Forall2_length. }
      destruct (history_step c U HU _ _ _ _ _ Hh Hc) as (out&r'&E&Hal&Hh'). 
      assert (Hnt : ~ table_full r) by (unfold table_full; lia).
      destruct (history_ok c U HU _ _ _ _ Hh) as (T&D&Hok&_).
      assert (Hna : ~ archetypes_full r (en_aid (created be U G vs)) (length G)).
      { pose proof (Forall2_length _ _ _ HF) as HFl. pose proof Hv as Hv'. apply (gvalid_iff c) in Hv'.
        destruct (gspec_exists be G Hv') as [s Hg]. destruct (gspec_NoDup _ _ _ Hg) as (_&_&_&Hsl).
        pose proof (gspec_types c U HU _ _ vs Hg Hin (eq_sym HFl)) as Ety. unfold created in *. cbn [en_aid] in *. rewrite Ety in *.
        destruct n as [|n]; [|rewrite <- Hsl; eapply crowded_not_full; try done; lia].
        rewrite (H0 eq_refl). intros [Hf _]. cbn in Hf. lia. }
      destruct Hal as [[_ (h&->&Hwn&_)]|[Hnc _]]; [|exfalso; by apply Hnc].
      cbn [step] in E. unfold bind in E. destruct (create_entity c G vs r) as [[h'|vs'] r1|r1|] eqn:Ec; try discriminate. injection E as <- <-.
      destruct (create_len _ _ _ _ _ Hi Ec) as [Hi' Hl'].
      exists r1, (ledger be U w (OpCreate G vs) (OutCreate (Ok h'))), (I ++ ins (OpCreate G vs) (OutCreate (Ok h'))), (O ++ outs (OpCreate G vs) (OutCreate (Ok h'))).
      split; [done|]. split; [cbn [ledger]; rewrite crowd_created by done; by rewrite Hcr|]. split; [lia|]. by split.
  Qed.
  Lemma full_has_archetype r w I O G vs : history c U r w I O -> gvalid be G -> in_U U G -> Forall2 fits G vs ->
    (0 < N.of_nat (crowd U w (en_aid (created be U G vs)) (ids_of (types U (vmap G vs)))))%N ->
    ~ archetypes_full r (en_aid (created be U G vs)) (length G).
  Proof.
    intros Hh Hv Hin HF Hn. destruct (history_ok c U HU _ _ _ _ Hh) as (T&D&Hok&_).
    pose proof (Forall2_length _ _ _ HF) as HFl. apply (gvalid_iff c) in Hv.
    destruct (gspec_exists be G Hv) as [s Hg]. destruct (gspec_NoDup _ _ _ Hg) as (_&_&_&Hsl).
    pose proof (gspec_types c U HU _ _ vs Hg Hin (eq_sym HFl)) as Ety. unfold created in *. cbn [en_aid] in *. rewrite Ety in *.
    rewrite <- Hsl. eapply crowded_not_full; try done. lia.
  Qed.
End over.
