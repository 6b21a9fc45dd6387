(** Proofs for C46, continued: the calls that may panic. *)
From Verif Require Import RegModel SpecTrace SpecEntity EntityProofs SearchProofs MonadProofs DescrProofs EntityTable ArchProofs ArchOps ArchOps2 ArchOps3 AregProofs RegProofs RegOps RegOps2 RegOps3 Refine Observe Crash Alloc Torn SpecObs SpecBase SpecWorld SpecCrash SpecAlloc.
Local Open Scope nat_scope.

(** Only fresh memory was obtained. *)
Definition obtains (e e' : env) : Prop :=
  exists evs, ev_trace e' = ev_trace e ++ evs /\ Forall (fun ev => match ev with EvAlloc _ _ => True | _ => False end) evs.
Lemma obtains_refl e : obtains e e.
Proof. exists []. by rewrite app_nil_r. Qed.
Lemma obtains_trans e1 e2 e3 : obtains e1 e2 -> obtains e2 e3 -> obtains e1 e3.
Proof. intros (l&E&H) (l'&E'&H'). exists (l ++ l'). rewrite E', E, app_assoc. split; [done|]. by apply Forall_app. Qed.
Lemma obtains_requests e e' : obtains e e' -> requests e e'.
Proof. intros (l&E&H). exists l. split; [done|]. eapply Forall_impl; [exact H|]. by intros []. Qed.
Lemma obtains_frees e e' : obtains e e' -> frees_of (ev_trace e') = frees_of (ev_trace e).
Proof.
  intros (l&->&H). unfold frees_of. rewrite omap_app. rewrite <- (app_nil_r (omap _ (ev_trace e))) at 2. f_equal.
  induction H as [|[]]; [done..].
Qed.
Lemma untouched_drops r r' vs o : untouched r r' -> untouched r (Reg (r_er r') (r_ar r') (Env (ev_trace (r_env r') ++ map EvDrop vs) o)).
Proof.
  intros (He&Ha&Hf). split; [done|]. split; [done|]. cbn. unfold frees_of in *. rewrite omap_app, Hf. etransitivity; [|apply app_nil_r]. f_equal.
  induction vs as [|v vs IH]; done.
Qed.
Lemma obtains_one e ev o : match ev with EvAlloc _ _ => True | _ => False end -> obtains e (Env (ev_trace e ++ [ev]) o).
Proof. intros H. exists [ev]. split; [done|]. by repeat constructor. Qed.
Lemma obtains_none e o : obtains e (Env (ev_trace e) o).
Proof. exists []. by rewrite app_nil_r. Qed.
Lemma alloc_obtains {A} s a n e : match mem_alloc (A := A) s a n e with Ret _ e' | Panic e' => obtains e e' | UB => True end.
Proof.
  unfold mem_alloc. destruct (_ || _); [done|]. unfold bind, ask_allocator. destruct e as [tr [|[] o]]; cbn.
  - by apply (obtains_one (Env tr [])).
  - by apply (obtains_one (Env tr (true :: o))).
  - apply (obtains_none (Env tr (false :: o))).
Qed.
Lemma columns_obtains ds cap e : match alloc_columns ds cap e with Ret _ e' | Panic e' => obtains e e' | UB => True end.
Proof.
  revert e. induction ds as [|d ds IH]; intros e; cbn [alloc_columns]; [apply obtains_refl|].
  unfold bind at 1. pose proof (alloc_obtains (A := value) (cd_size d * N.of_nat cap)%N (cd_align d) cap e) as Ha.
  destruct (mem_alloc _ _ _ e) as [[b|] e1|e1|]; [|done|done|done]. unfold bind. specialize (IH e1).
  destruct (alloc_columns ds cap e1); [|by eapply obtains_trans|done]. cbn. by eapply obtains_trans.
Qed.
Lemma with_capacity_obtains d cap e : match a_with_capacity d cap e with Ret _ e' | Panic e' => obtains e e' | UB => True end.
Proof.
  unfold a_with_capacity. unfold bind at 1. destruct (ad_is_valid d); cbn [massert]; [|apply obtains_refl]. unfold ret at 1.
  destruct (_ && _); [|apply obtains_refl]. unfold bind at 1.
  pose proof (alloc_obtains (A := N) (ENTITY_SIZE * N.of_nat cap)%N ENTITY_ALIGN cap e) as Ha.
  destruct (mem_alloc _ _ _ e) as [[b|] e1|e1|]; [|done|done|done]. unfold bind. pose proof (columns_obtains (ad_components d) cap e1) as Hc.
  destruct (alloc_columns _ _ e1); [|by eapply obtains_trans|done]. cbn. by eapply obtains_trans.
Qed.
(** Whether or not it panics, looking for an archetype only asks for memory; if
    it panics the registry is as it was. *)
Lemma find_requests d s :
  match find_or_create_archetype d s with
  | Ret _ t => requests (r_env s) (r_env t)
  | Panic t => requests (r_env s) (r_env t) /\ untouched s t
  | UB => True
  end.
Proof.
  assert (Hs : requests (r_env s) (r_env s) /\ untouched s s) by (split; [apply requests_refl|done]).
  unfold find_or_create_archetype. destruct (_ || _); [apply Hs|]. destruct (ad_len d =? 0); [apply Hs|].
  rewrite rm_get_step. destruct (ar_maps (r_ar s) !! (ad_len d - 1)) as [level|]; [|apply Hs].
  destruct (binary_search _ _) as [f|ins].
  - destruct (level !! f) as [k|]; [|apply Hs]. destruct (k_idx k <? _); apply Hs.
  - destruct (_ <=? _)%N; [apply Hs|]. unfold bind at 1. unfold rm_env. pose proof (with_capacity_obtains d DEFAULT_ARCHETYPE_ALLOCATION_SIZE (r_env s)) as Hc.
    destruct (a_with_capacity _ _ _); [by apply obtains_requests|split; [by apply obtains_requests|split; [done|split; [done|by apply obtains_frees]]]|done].
Qed.
Lemma dop_Panic {A} vs (m : RM A) s t : dropping_on_panic vs m s = Panic t -> exists t0, m s = Panic t0 /\
  t = Reg (r_er t0) (r_ar t0) (Env (ev_trace (r_env t0) ++ map EvDrop vs) (ev_oracle (r_env t0))).
Proof. unfold dropping_on_panic. destruct (m s) as [| t0 |]; [done| |done]. intros [= <-]. by exists t0. Qed.
Lemma dop_Ret_inv {A} vs (m : RM A) s x t : dropping_on_panic vs m s = Ret x t -> m s = Ret x t.
Proof. unfold dropping_on_panic. by destruct (m s). Qed.
Lemma bind_ret_inv {S A B} (m : M S A) (f : A -> B) s y u : (let! x := m in ret (f x)) s = Ret y u -> exists x, m s = Ret x u.
Proof. unfold bind. destruct (m s) as [x t| |]; [|done|done]. cbn. intros [= _ <-]. by exists x. Qed.

Lemma step_lift_Rd {S A B} (x : A) (k : A -> M S B) s : (let! y := lift_rd (Rd x) in k y) s = k x s.
Proof. done. Qed.
Lemma debug_inv {S} d b (s : S) x t : mdebug_assert d b s = Ret x t -> t = s.
Proof. destruct d, b; cbn; by intros [= _ <-]. Qed.
Lemma push_refused d cs (Hd : desc_ok d cs) c G vs h a rows e a' e' :
  a_desc a = d -> arch_ok a cs rows -> (N.of_nat (length rows) < 8388608)%N ->
  gspec (big c) G cs -> ad_id d = tuple_archetype_id (big c) (ids_of cs) -> Forall2 fits G vs ->
  push_entity_unchecked c G h vs (a, e) = Panic (a', e') -> resize_if_necessary (a, e) = Panic (a', e').
Proof.
  intros Ed Hok Hlt Hg Hid HF E.
  destruct (push_ok d cs Hd c G vs h a rows (er_env e) Ed Hok Hlt eq_refl Hg Hid HF) as (a1&e1&E1&_).
  change (a, er_env e) with (er_am (a, e)) in E1. unfold push_entity_unchecked in E, E1.
  destruct (panic_later er_am (fun s => ev_oracle s.2) _ _ _ _ _ _ asim_get astill_get E1 E) as (a0&s0&G1&_&F&F1). injection G1 as <- <-.
  destruct (panic_later er_am (fun s => ev_oracle s.2) _ _ _ _ _ _ (osim_debug _ _ _ _) (still_debug _ _ _) F1 F) as ([]&s1&G1&_&K&K1).
  apply debug_inv in G1 as ->.
  destruct (panic_later er_am (fun s => ev_oracle s.2) _ _ _ _ _ _ (osim_debug _ _ _ _) (still_debug _ _ _) K1 K) as ([]&s1&G1&_&L&L1).
  apply debug_inv in G1 as ->.
  eapply (panic_first er_am (fun s => ev_oracle s.2)); [apply asim_resize_if| | |exact L1|exact L].
  - intros ?. unfold write_entity_unchecked, copy_in. os.
  - intros ?. cbv beta. unfold write_entity_unchecked, copy_in. st.
Qed.

Lemma push_uninit_refused a e a' e' : push_uninitialized_entity (a, e) = Panic (a', e') -> resize_if_necessary (a, e) = Panic (a', e').
Proof.
  unfold push_uninitialized_entity. unfold bind at 1. destruct (resize_if_necessary (a, e)) as [[] [a1 e1]| |]; [discriminate 1|congruence|discriminate 1].
Qed.

Section refused.
  Context {Fm : family} (c : cfg) (U : list ctype) (HU : universe (big c) U).
  Notation be := (big c).
  Implicit Types (T : list tab) (w : world).

  Lemma room_torn a t e a' e' : tab_ok be U a t -> (N.of_nat (length (t_rows t)) < 8388608)%N -> resize_if_necessary (a, e) = Panic (a', e') ->
    length (t_rows t) = a_cap a /\ requests e e' /\ exists lost, torn_arch a a' lost.
  Proof.
    intros Hta Hlt E. pose proof Hta as (_&Hok&_). destruct (tab_facts _ _ _ _ Hta) as (Hd&_&_&Hlen&_).
    pose proof (count_ok _ _ _ Hok) as Hcnt. pose proof Hok as (_&Hcap&Hle&_&C&H&Ea&(HlC&_&_)&_).
    assert (Hp : length (a_comps a) <= length (a_ptrs a)).
    { unfold a_comps. rewrite (do_comps _ _ Hd), map_length, Ea. cbn [a_ptrs mk]. rewrite colbs_length; [lia|done|lia]. }
    assert (Hfull : a_count a = a_cap a).
    { unfold resize_if_necessary in E. unfold bind in E at 1. unfold am_get in E at 1. cbn [fst] in E.
      destruct (is_full a) eqn:Ef; [by apply Nat.eqb_eq|done]. }
    destruct (capok_double (a_cap a) Hcap) as [_ Hmax]; [by rewrite <- Hfull, Hcnt|].
    destruct (resize_torn a e a' e' Hp (capok_pos _ Hcap) Hmax E) as (_&Hr&Hl). split; [congruence|done].
  Qed.
  Definition lost_of (t : tab) (lost : option nat) : option ctype := lost ≫= fun k => t_cs t !! k.
  Lemma heal_same r r1 T T1 w : reg_ok be U (heal r) T w -> reg_ok be U (heal r1) T1 w -> all_same c U r r1.
  Proof. intros H H1 h. exact (obs_same c U HU _ _ _ _ _ _ h H H1 eq_refl). Qed.
  Lemma same_trans r1 r2 r3 h : same c U r1 r2 h -> same c U r2 r3 h -> same c U r1 r3 h.
  Proof. intros [A B] [A' B']. split; [by rewrite A', A|]. intros C v HC. by rewrite B', B. Qed.
  Lemma same_torn r1 r2 w r' e lost P : all_same c U r1 r2 -> torn c U w r2 r' e lost P -> torn c U w r1 r' e lost P.
  Proof.
    intros Hs [H1 H2]. split; [done|]. intros h Hh. specialize (H2 h Hh). specialize (Hs h). destruct (w !! h) as [e'|].
    - destruct H2 as [H3 H4]. split; [|intros Hn; by eapply same_trans, H4]. intros Ht. destruct (H3 Ht) as (Ha&[D1 D2]). split; [done|].
      split; [|done]. intros C v HC Hne. rewrite (D1 C v HC Hne). by apply Hs.
    - by eapply same_trans.
  Qed.

  (** Handles after one archetype was torn; in the others rows may have been
      exchanged. *)
  Lemma torn_at r r' T w i t a a' lost e h : reg_ok be U (heal r) T w -> T !! i = Some t -> ar_archs (r_ar r) !! i = Some a -> tab_ok be U a t ->
    length (t_rows t) = a_cap a -> torn_arch a a' lost -> ar_archs (r_ar r') !! i = Some a' ->
    en_aid e = t_id t -> types U (en_vals e) = t_cs t ->
    (forall j, loc_of be (r_er r) h = Some (i, j) -> loc_of be (r_er r') h = Some (i, j)) ->
    (loc_of be (r_er r) h = None -> loc_of be (r_er r') h = None) ->
    (forall i1 j1 t1 m, i1 <> i -> T !! i1 = Some t1 -> t_rows t1 !! j1 = Some (h, m) -> loc_of be (r_er r) h = Some (i1, j1) ->
      exists i2 j2 a2 t2 h2, loc_of be (r_er r') h = Some (i2, j2) /\ ar_archs (r_ar r') !! i2 = Some a2 /\ tab_ok be U a2 t2 /\ t_rows t2 !! j2 = Some (h2, m)) ->
    match w !! h with
    | Some e' => (together U e' e -> alive c r' h /\ damaged c U r r' h (lost_of t lost)) /\ (~ together U e' e -> same c U r r' h)
    | None => same c U r r' h
    end.
  Proof.
    intros H Ht Ha Hta Hf Htorn Ha' Eid Ety Eloc Enone Eoth. destruct (w !! h) as [e'|] eqn:Ew.
    - pose proof Ew as (i1&t1&m1&Ht1&[j Hj]%elem_of_list_lookup&->)%(ro_repr _ _ _ _ _ H).
      assert (El : loc_of be (r_er r) h = Some (i1, j)) by (apply (ro_loc _ _ _ _ _ H); eauto).
      destruct (ro_tab _ _ _ _ _ _ _ H Ht1) as (a1&Ha1&Hta1). cbn [r_ar heal] in Ha1.
      destruct (tab_row _ _ HU _ _ _ _ _ Hta1 Hj) as (_&_&Htm1).
      assert (Hal0 : alive c r h). { pose proof El as (en&En&_)%loc_entry. by exists en. }
      destruct (decide (i1 = i)) as [->|Hi].
      + simplify_eq. assert (together U (Ent (t_id t) m1) e) as Htog. { split; [done|]. rewrite Ety. f_equal. exact Htm1. }
        specialize (Eloc _ El). assert (Hal : alive c r' h). { pose proof Eloc as (en&En&_)%loc_entry. by exists en. }
        split; [|done]. intros _. split; [done|].
        assert (Hx : forall C, C ∈ U -> (C ∉ t_cs t -> get_component c C h r' = Rd None) /\
          (forall k, t_cs t !! k = Some C -> (lost = Some k \/ j = length (t_rows t) -> get_component c C h r' = RdUB) /\
            (lost <> Some k -> forall h' m, t_rows t !! j = Some (h', m) -> get_component c C h r' = Rd (m !! ct_id C)))).
        { intros C HC. eapply loc_torn; [exact HU|exact Eloc|exact Ha'|exact Hta|done|exact Htorn|done]. }
        split.
        * intros C v HC Hne. unfold shows. rewrite (loc_shows c U HU r h _ _ _ _ _ _ C El Ha Hta Hj HC). destruct (Hx C HC) as [H1 H2].
          destruct (decide (C ∈ t_cs t)) as [[k Hk]%elem_of_list_lookup|Hn].
          -- destruct (H2 k Hk) as [_ H3]. rewrite (H3 ltac:(intros ->; apply Hne; cbn; exact Hk) _ _ Hj). done.
          -- rewrite (H1 Hn). destruct (tab_has c U HU _ _ _ _ _ C Hta Hj HC) as [_ E2].
             assert (m1 !! ct_id C = None) as ->; [|done]. apply eq_None_not_Some. tauto.
        * intros C HC. unfold lost_of in HC. destruct lost as [k|]; [|done]. cbn in HC. eapply Hx; [|exact HC|by left].
          eapply in_U_elem; [apply Hta|by eapply elem_of_list_lookup_2].
      + split; [|].
        * intros [E1 E2]. exfalso. apply Hi. eapply (tab_unique be U _ _ _ _ _ _ _ H Ht1 Ht); [by rewrite <- Eid|].
          cbn [en_vals en_aid] in *. rewrite Ety in E2. assert (E3 : ids_of (t_cs t1) = ids_of (t_cs t)) by (etransitivity; [|exact E2]; f_equal; by symmetry).
          apply (f_equal length) in E3. by rewrite !map_length in E3.
        * intros _. destruct (Eoth _ _ _ _ Hi Ht1 Hj El) as (i2&j2&a2&t2&h2&El2&Ha2&Hta2&Hj2). split.
          -- split; [done|]. intros _. apply loc_entry in El2 as (en&En&_). by exists en.
          -- intros C v HC. unfold shows. rewrite (loc_shows c U HU r h _ _ _ _ _ _ C El Ha1 Hta1 Hj HC).
             by rewrite (loc_shows c U HU r' h _ _ _ _ _ _ C El2 Ha2 Hta2 Hj2 HC).
    - assert (El : loc_of be (r_er r) h = None) by (by apply (loc_world _ _ _ _ _ _ H)). specialize (Enone El).
      assert (N1 : entry_of c r h = None). { unfold loc_of in El. unfold entry_of. by destruct (er_entity_entry be (r_er r) h). }
      assert (N2 : entry_of c r' h = None). { unfold loc_of in Enone. unfold entry_of. by destruct (er_entity_entry be (r_er r') h). }
      split; [unfold alive; by rewrite N1, N2|]. intros C v HC. unfold shows, get_component. by rewrite N1, N2.
  Qed.
  Lemma lost_of_elem t lost C : lost_of t lost = Some C -> C ∈ t_cs t.
  Proof. unfold lost_of. destruct lost as [k|]; [|done]. cbn. apply elem_of_list_lookup_2. Qed.

  Lemma torn_drop_reg r T w r' i t a a' lost : reg_ok be U (heal r) T w -> T !! i = Some t -> tab_ok be U a t ->
    length (t_rows t) = a_cap a -> torn_arch a a' lost -> ar_archs (r_ar r') !! i = Some a' ->
    (forall j a0, j <> i -> ar_archs (r_ar r') !! j = Some a0 -> exists t0 rows, T !! j = Some t0 /\ rows ≡ₚ t_rows t0 /\ arch_ok a0 (t_cs t0) rows) ->
    all_calm w -> drop_registry r' = UB /\ ruin r'.
  Proof.
    intros H Ht Hta Hf Htorn Ha' Ho Hc. pose proof (all_calm_rows c U _ _ _ H Hc) as Hcr. split.
    2: { exists i, a'. split; [done|]. split; [eapply torn_ruined; [apply Hta|exact Hf|exact Htorn|exact (Forall_lookup_1 _ _ _ _ Hcr Ht)]|].
      intros j a0 Hj Ha0 e He. destruct (Ho j a0 Hj Ha0) as (t0&rows&Ht0&Hp&Hok).
      destruct (a_drop_ok (a_desc a0) (t_cs t0) (proj1 Hok) a0 rows e eq_refl Hok) as (a1&e1&E&_); [|done|eauto].
      rewrite Hp. exact (Forall_lookup_1 _ _ _ _ Hcr Ht0). }
    eapply drop_dies; [exact Ha'|]. intros e. eapply torn_drop; [apply Hta|exact Hf|exact Htorn|].
    exact (Forall_lookup_1 _ _ _ _ (all_calm_rows c U _ _ _ H Hc) Ht).
  Qed.

  Lemma others_ok r T w j a0 : reg_ok be U (heal r) T w -> ar_archs (r_ar r) !! j = Some a0 ->
    exists t0 rows, T !! j = Some t0 /\ rows ≡ₚ t_rows t0 /\ arch_ok a0 (t_cs t0) rows.
  Proof.
    intros H Ha. destruct (ro_arch _ _ _ _ _ _ _ H Ha) as (t0&Ht0&Hta). exists t0, (t_rows t0). split; [done|]. split; [done|]. apply Hta.
  Qed.

  Lemma create_refused r T w G vs r' : reg_ok be U (heal r) T w -> contract be U w (OpCreate G vs) -> create_entity c G vs r = Panic r' ->
    refused (ev_oracle (r_env r)) (ev_oracle (r_env r')) /\ only_drops r r' vs /\
    (untouched r r' \/ broken c U w r r' (OpCreate G vs) /\ (all_calm w -> drop_registry r' = UB /\ ruin r')).
  Proof.
    intros H Hcon E. pose proof Hcon as (Hin&HF&Hroom). pose proof (Forall2_length _ _ _ HF) as HFl.
    destruct (create_ok c U HU _ _ _ _ _ H Hcon) as (out&u&Eh&_). cbn [step] in Eh. apply bind_ret_inv in Eh as [x Eh].
    split. { pose proof (rsim_create c G vs r) as Hs. rewrite E in Hs. destruct Hs as [[Hs _]|Hs]; [congruence|done]. }
    unfold create_entity in E, Eh. apply dop_Panic in E as (rb&E&->). apply dop_Ret_inv in Eh. cbv zeta in E, Eh.
    destruct (gd_is_valid (group_desc be G)) eqn:Hv; [|done]. cbn [negb] in E, Eh.
    destruct (panic_split heal (fun r => ev_oracle (r_env r)) _ _ _ _ _ _ (rsim_find _) Eh E) as [[Ef _]|(oi&r1&Ef&Efh&E2&Eh2)].
    { pose proof (find_requests (gd_arch (group_desc be G)) r) as Hf. rewrite Ef in Hf. destruct Hf as [(evs&Et&Ha) Hu]. split.
      - exists evs. cbn [r_env ev_trace]. rewrite Et, <- app_assoc. done.
      - left. by apply untouched_drops. }
    assert (Hq1 : requests (r_env r) (r_env r1)). { pose proof (find_requests (gd_arch (group_desc be G)) r) as Hf. by rewrite Ef in Hf. }
    destruct (gspec_exists be G Hv) as [s Hg]. destruct (gspec_NoDup _ _ _ Hg) as (HndG&Hnds&_&Hsl).
    destruct (gspec_desc c U HU _ _ Hg Hin) as (Hd&Hins).
    pose proof (gspec_types c U HU _ _ vs Hg Hin (eq_sym HFl)) as Ety.
    specialize (Hroom (proj2 (gvalid_iff c G) Hv)). rewrite Ety in Hroom. unfold created in Hroom. cbn [en_aid] in Hroom. rewrite Ety in Hroom.
    destruct Hroom as [Hocc Hroom]. pose proof (gspec_id c _ _ Hg (Hocc ltac:(rewrite map_length; apply Hg))) as Haid.
    destruct (find_or_create_ok be U HU _ T w _ s H Hd Hins Haid) as [(Efc&Hfull&_)|(Hnf&i&r1h&T1&t&Efc&Eer&H1&Ht&Hid&Hcs&Hev&Hext&_)].
    { rewrite Efh in Efc. assert (oi = None) as -> by congruence. done. }
    rewrite Efh in Efc. assert (oi = Some i) as -> by congruence. assert (r1h = heal r1) as -> by congruence. clear Efc.
    rewrite (gs_id _ _ _ Hg) in Hid.
    destruct (ro_tab _ _ _ _ _ _ _ H1 Ht) as (a&Ha&Hta). pose proof Hta as (Hida&Hok&_). cbn [r_ar heal] in Ha.
    rewrite <- Hid, <- Hcs in Hroom. rewrite (crowd_rows _ _ HU _ _ _ _ _ H1 Ht) in Hroom.
    pose proof (ro_small_index _ _ _ _ _ _ _ H1 Ht) as Hi.
    destruct (ro_er _ _ _ _ _ H1) as [F Her]. cbn [r_er heal] in Her.
    assert (Ecount : a_len a = length (t_rows t)) by (unfold a_len; by eapply count_ok).
    rewrite (bind_Ret _ _ _ _ _ (arch_at_Rd _ _ _ Ha)) in E2.
    rewrite Ecount, iia_new_spec, decide_True in E2 by lia. cbn [unwrap] in E2. rewrite bind_ret_l in E2.
    rewrite ai_new_spec, decide_False in E2 by lia. cbn [unwrap] in E2. rewrite bind_ret_l in E2.
    destruct (loc_create be (r_er r1) F (N.of_nat (length (t_rows t))) (N.of_nat i) Her) as [[Hge Ec]|[Hlt (h&rg&F'&Ec&Hinv'&Hh&Hnone&Hloc)]]; [lia|lia| |].
    { rewrite (bind_Ret _ _ _ _ _ (rm_er_Ret _ _ _ _ Ec)) in E2. done. }
    rewrite (bind_Ret _ _ _ _ _ (rm_er_Ret _ _ _ _ Ec)) in E2. unfold bind in E2 at 1. unfold with_arch in E2. cbn [r_ar r_env r_er] in E2. rewrite Ha in E2.
    destruct (push_entity_unchecked c G h vs (a, r_env r1)) as [? [a' e']|[a' e']|] eqn:Ep; [done| |done]. injection E2 as <-. cbn [fst snd r_er r_ar r_env].
    apply (push_refused (a_desc a) (t_cs t) (proj1 Hok) c G vs h a (t_rows t)) in Ep; [|done|done|done|by rewrite Hcs|by rewrite Hida, Hid, Hcs|done].
    destruct (room_torn a t (r_env r1) a' e' Hta Hroom Ep) as (Hcap&Hq2&lost&Htorn).
    split.
    { destruct (requests_trans _ _ _ Hq1 Hq2) as (evs&Et&Hasks). exists evs. cbn [r_env ev_trace]. rewrite Et, <- app_assoc. done. }
    right. set (r' := Reg rg _ _).
    assert (Hs1 : all_same c U r r1) by (by eapply heal_same).
    assert (Elh : loc_of be (r_er r') h = Some (i, length (t_rows t))). { cbn [r_er r']. rewrite Hloc, decide_True by done. by rewrite !Nat2N.id. }
    assert (Ha' : ar_archs (r_ar r') !! i = Some a'). { cbn. apply list_lookup_insert. by eapply lookup_lt_Some. }
    split.
    2: { eapply torn_drop_reg; [exact H1|exact Ht|exact Hta|exact Hcap|exact Htorn|exact Ha'|]. intros j a0 Hj Ha0. cbn in Ha0.
      rewrite list_lookup_insert_ne in Ha0 by done. by eapply others_ok. }
    exists h, (lost_of t lost).
    assert (Hmem : forall C, C ∈ G <-> C ∈ t_cs t). { intros C. by rewrite Hcs, (gs_perm _ _ _ Hg). }
    split; [|split; [|split; [|split]]].
    - rewrite <- (proj1 (Hs1 h)). intros [en En]. apply entry_loc in En. congruence.
    - apply loc_entry in Elh as (en&En&_). by exists en.
    - intros C HC. pose proof HC as [k Hk]%Hmem%elem_of_list_lookup.
      assert (HCU : C ∈ U) by exact (in_U_elem _ _ _ Hin HC).
      destruct (loc_torn c U HU r' h _ _ a a' t lost C Elh Ha' Hta Hcap Htorn HCU) as [_ Hx]. apply (Hx k Hk). by right.
    - intros C HC Hn. destruct (loc_torn c U HU r' h _ _ a a' t lost C Elh Ha' Hta Hcap Htorn HC) as [Hx _]. apply Hx. by rewrite <- Hmem.
    - eapply same_torn; [exact Hs1|]. split.
      + intros C HC%lost_of_elem. change (C ∈ types U (vmap G vs)). by rewrite Ety, <- Hcs.
      + intros h' Hne. assert (Eloc : loc_of be (r_er r') h' = loc_of be (r_er r1) h'). { cbn [r_er r']. rewrite Hloc. by rewrite decide_False. }
        eapply torn_at; [exact H1|exact Ht|exact Ha|exact Hta|exact Hcap|exact Htorn|exact Ha'| | | | |].
        * unfold created. cbn [en_aid]. by rewrite Ety, <- Hid.
        * change (types U (vmap G vs) = t_cs t). by rewrite Ety, Hcs.
        * intros j. by rewrite Eloc.
        * by rewrite Eloc.
        * intros i1 j1 t1 m1 Hi1 Ht1 Hj1 El1. destruct (ro_tab _ _ _ _ _ _ _ H1 Ht1) as (a1&Ha1&Hta1).
          exists i1, j1, a1, t1, h'. split; [by rewrite Eloc|]. split; [|done]. cbn. by rewrite list_lookup_insert_ne.
  Qed.
  (** *** Moving an entity *)
  Lemma rsim_find_dst i nd : rsim (find_dst i nd).
  Proof. unfold find_dst. rs. Qed.
  Lemma find_dst_refused i nd r r' y u : find_dst i nd (heal r) = Ret y u -> find_dst i nd r = Panic r' ->
    requests (r_env r) (r_env r') /\ untouched r r'.
  Proof.
    intros E1 E. unfold find_dst in E, E1.
    eapply (panic_first heal (fun r => ev_oracle (r_env r))) in E; [|apply rsim_find| | |exact E1].
    - pose proof (find_requests nd r) as Hf. by rewrite E in Hf.
    - intros x. rs.
    - intros x. st.
  Qed.
  Lemma find_dst_requests i nd r r' y : find_dst i nd r = Ret y r' -> requests (r_env r) (r_env r').
  Proof.
    unfold find_dst, bind. pose proof (find_requests nd r) as Hf. destruct (find_or_create_archetype nd r) as [[d|] t|t|]; [| |done|done].
    - cbn. destruct (disjoint_mut _ _ _); cbn; [|done|done]. by intros [= _ <-].
    - by intros [= _ <-].
  Qed.

  Section front.
    Context (r : reg) T w (H : reg_ok be U (heal r) T w) (i d j : nat) (Hne : i <> d).
    Context (t td : tab) (Ht : T !! i = Some t) (Htd : T !! d = Some td) (a ad : arch).
    Context (Ha : ar_archs (r_ar r) !! i = Some a) (Had : ar_archs (r_ar r) !! d = Some ad).
    Context (Hta : tab_ok be U a t) (Htad : tab_ok be U ad td).
    Context (h : N) (m : gmap N value) (Hj : t_rows t !! j = Some (h, m)) (en : entry).
    Context (Hen : entry_index_in_archetype en = N.of_nat j) (Hroom : (N.of_nat (length (t_rows td)) < 8388608)%N).

    Lemma front_refused {A} (k : arch -> nat -> nat -> RM A) y u r' :
      (forall sa x z, rsim (k sa x z)) -> (forall sa x z, rstill (k sa x z)) ->
      move_front c j en i d k (heal r) = Ret y u -> move_front c j en i d k r = Panic r' ->
      exists sa da rg e lost, r' = put2 r i sa d da rg e /\ a_desc sa = a_desc a /\
        arch_ok sa (t_cs t) (swapl j (length (t_rows t) - 1) (t_rows t)) /\
        (forall h', loc_of be rg h' = if decide (Some h' = moved (t_rows t) j) then Some (i, j) else loc_of be (r_er r) h') /\
        length (t_rows td) = a_cap ad /\ requests (r_env r) e /\ torn_arch ad da lost.
    Proof.
      intros Hk Hks E1 E. unfold move_front in E, E1.
      pose proof Hta as (_&Hok&Hin&_). pose proof (proj1 Hok) as Hds.
      pose proof (row_cap _ _ _ _ Hta) as Hcap. pose proof (lookup_lt_Some _ _ _ Hj) as Hjlt.
      destruct (swap_to_last_ok (a_desc a) (t_cs t) Hds c a _ j (r_env r) eq_refl Hok Hjlt) as (sa&Es&Esd&Esc&Hsok).
      destruct (ro_er _ _ _ _ _ H) as [F Her].
      set (r1 := put_arch r i sa (r_env r)).
      assert (Ha1 : ar_archs (r_ar r1) !! i = Some sa) by (by eapply put_arch_at).
      destruct (fixup_ok c entity_at r1 T i j h m t sa en F) as (rg&Ef&Hinv1&Hlen1&Hloc1); [apply H|done|done|done|done| |done|lia|].
      { intros hl Hmv. unfold moved in Hmv. destruct (is_last j (length (t_rows t))) eqn:El; [done|].
        destruct (t_rows t !! (length (t_rows t) - 1)) as [[hl' ml]|] eqn:El2; [|done]. cbn in Hmv. injection Hmv as ->.
        assert (Hjs : swapl j (length (t_rows t) - 1) (t_rows t) !! j = Some (hl, ml)).
        { rewrite swapl_lookup by lia. unfold swp. by rewrite decide_True. }
        by eapply entity_at_ok. }
      change (Reg rg (r_ar r1) (r_env r1)) with (Reg rg (r_ar (put_arch r i sa (r_env r))) (r_env r)) in Ef. rewrite (put2_start r i d ad Hne Had) in Ef.
      destruct (panic_later heal (fun r => ev_oracle (r_env r)) _ _ _ _ _ _ (rsim_arch _ _ (asim_swap_to_last _ _)) (rstill_arch _ _ (astill_swap_to_last _ _)) E1 E)
        as (b&s1&G1&_&E2&E3).
      rewrite (with_arch_Ret _ _ _ _ _ _ _ Ha Es) in G1. assert (b = negb (is_last j (length (t_rows t)))) as -> by congruence. assert (s1 = r1) as -> by (by injection G1).
      clear G1 E E1.
      assert (exists s2, fixup c entity_at (negb (is_last j (length (t_rows t)))) i j en r1 = Ret tt s2) as [s2 _]; [by eauto|].
      eapply (panic_later heal (fun r => ev_oracle (r_env r))) in E2 as (b&s3&G1&_&E4&E5); [| | |exact E3].
      2: { unfold is_last. rs. }
      2: { st. }
      assert (Eq : Ret b s3 = Ret tt (put2 r i sa d ad rg (r_env r))) by (rewrite <- G1; exact Ef). assert (s3 = put2 r i sa d ad rg (r_env r)) as -> by congruence. clear G1 Eq E3 s2.
      eapply (panic_first heal (fun r => ev_oracle (r_env r))) in E4; [|by apply rsim_arch, asim_push_uninit| | |exact E5].
      2: { intros x. cbv beta. rs. }
      2: { intros x. cbv beta. st. }
      unfold with_arch in E4. rewrite (put2_dst _ _ _ ad) in E4 by done. cbn [r_env put2] in E4.
      destruct (push_uninitialized_entity (ad, r_env r)) as [? [da e]|[da e]|] eqn:Ep; [done| |done].
      apply push_uninit_refused in Ep. destruct (room_torn _ _ _ _ _ Htad Hroom Ep) as (Hf&Hq&lost&Htorn).
      exists sa, da, rg, e, lost. split; [|done]. cbn [fst snd] in E4. injection E4 as <-. unfold put2, set_archs. cbn. by rewrite list_insert_insert.
    Qed.

    Lemma front_others sa da rg e j0 a0 : arch_ok sa (t_cs t) (swapl j (length (t_rows t) - 1) (t_rows t)) -> j0 <> d ->
      ar_archs (r_ar (put2 r i sa d da rg e)) !! j0 = Some a0 ->
      exists t0 rows, T !! j0 = Some t0 /\ rows ≡ₚ t_rows t0 /\ arch_ok a0 (t_cs t0) rows.
    Proof.
      intros Hs Hj0 Ha0. cbn in Ha0. rewrite list_lookup_insert_ne in Ha0 by done. destruct (decide (j0 = i)) as [->|Hji].
      - rewrite list_lookup_insert in Ha0 by (by eapply lookup_lt_Some). injection Ha0 as <-. exists t, (swapl j (length (t_rows t) - 1) (t_rows t)).
        split; [done|]. split; [|done]. apply swapl_last_perm. by eapply lookup_lt_Some.
      - rewrite list_lookup_insert_ne in Ha0 by done. by eapply others_ok.
    Qed.
    Lemma front_misplaced sa da rg e lost mm (r' := put2 r i sa d da rg e) :
      a_desc sa = a_desc a -> arch_ok sa (t_cs t) (swapl j (length (t_rows t) - 1) (t_rows t)) ->
      (forall h', loc_of be rg h' = if decide (Some h' = moved (t_rows t) j) then Some (i, j) else loc_of be (r_er r) h') ->
      length (t_rows td) = a_cap ad -> torn_arch ad da lost -> types U mm = t_cs td ->
      ((forall h', alive c r' h' <-> alive c r h') /\
       exists hl ml, t_rows t !! (length (t_rows t) - 1) = Some (hl, ml) /\ forall C v, C ∈ U -> shows c r' h C v <-> shows c r hl C v) /\
      torn c U w r r' (Ent (t_id td) mm) (lost_of td lost) (eq h).
    Proof.
      intros Esd Hsok Hloc Hf Htorn Ety. pose proof (lookup_lt_Some _ _ _ Hj) as Hjlt.
      destruct (lookup_lt_is_Some_2 (t_rows t) (length (t_rows t) - 1)) as [[hl ml] Hl]; [lia|].
      assert (Hsrc : ar_archs (r_ar r') !! i = Some sa) by (by eapply put2_src).
      assert (Hdst : ar_archs (r_ar r') !! d = Some da) by (by eapply put2_dst).
      pose proof (tab_swapped c U _ _ sa j (length (t_rows t) - 1) Hta Esd Hsok) as Hsta. set (ts := set_rows t _) in *.
      assert (Hll : forall i0 t0 k h0 m0, T !! i0 = Some t0 -> t_rows t0 !! k = Some (h0, m0) -> loc_of be (r_er r) h0 = Some (i0, k)).
      { intros i0 t0 k h0 m0 Ht0 Hk. apply (ro_loc _ _ _ _ _ H). eauto. }
      assert (Hmv : forall h', Some h' = moved (t_rows t) j <-> h' = hl /\ j <> length (t_rows t) - 1).
      { intros h'. unfold moved, is_last. rewrite Hl. cbn. destruct (Nat.eqb_spec j (length (t_rows t) - 1)); [split; [done|lia]|].
        split; [intros [= ->]; split; [done|lia]|by intros [-> _]]. }
      assert (Hlh : loc_of be (r_er r') h = Some (i, j)). { cbn. rewrite Hloc. rewrite (Hll _ _ _ _ _ Ht Hj). by case_decide. }
      assert (Hsj : t_rows ts !! j = Some (hl, ml)). { cbn. rewrite swapl_lookup by lia. unfold swp. rewrite decide_True by done. done. }
      split.
      - split.
        + intros h'. unfold alive. assert (Hx : forall r0, is_Some (entry_of c r0 h') <-> is_Some (loc_of be (r_er r0) h')).
          { intros r0. unfold entry_of, loc_of. by rewrite fmap_is_Some. }
          rewrite !Hx. cbn [r_er r' put2]. rewrite Hloc. case_decide as Hd; [|done]. apply Hmv in Hd as [-> _]. rewrite (Hll _ _ _ _ _ Ht Hl). split; eauto.
        + exists hl, ml. split; [done|]. intros C v HC. unfold shows. rewrite (loc_shows c U HU r' h _ _ _ _ _ _ C Hlh Hsrc Hsta Hsj HC).
          by rewrite (loc_shows c U HU r hl _ _ _ _ _ _ C (Hll _ _ _ _ _ Ht Hl) Ha Hta Hl HC).
      - split.
        + intros C HC%lost_of_elem. cbn [en_vals]. by rewrite Ety.
        + intros h' Hh'. eapply torn_at; [exact H|exact Htd|exact Had|exact Htad|exact Hf|exact Htorn|exact Hdst|done|done| | |].
          * intros k Hk. cbn. rewrite Hloc, decide_False; [done|]. intros [-> _]%Hmv. rewrite (Hll _ _ _ _ _ Ht Hl) in Hk. congruence.
          * intros Hk. cbn. rewrite Hloc, decide_False; [done|]. intros [-> _]%Hmv. rewrite (Hll _ _ _ _ _ Ht Hl) in Hk. congruence.
          * intros i1 j1 t1 m1 Hi1 Ht1 Hj1 El1. destruct (decide (i1 = i)) as [->|Hii].
            -- assert (t1 = t) as -> by congruence. destruct (decide (h' = hl)) as [->|Hhl].
               ++ rewrite (Hll _ _ _ _ _ Ht Hl) in El1. assert (j1 = length (t_rows t) - 1) as -> by congruence.
                  assert (m1 = ml) as -> by congruence. exists i, j, sa, ts, hl. split; [|done]. cbn. rewrite Hloc, decide_True; [done|].
                  apply Hmv. split; [done|]. intros ->. congruence.
               ++ exists i, j1, sa, ts, h'. split; [cbn; rewrite Hloc, decide_False; [done|]; by intros [? _]%Hmv|]. split; [done|]. split; [done|].
                  cbn. rewrite swapl_lookup by lia. unfold swp. rewrite decide_False by congruence. rewrite decide_False by congruence. done.
            -- destruct (ro_tab _ _ _ _ _ _ _ H Ht1) as (a1&Ha1&Hta1). exists i1, j1, a1, t1, h'. split; [|split; [|done]].
               ++ cbn. rewrite Hloc, decide_False; [done|]. intros [-> _]%Hmv. rewrite (Hll _ _ _ _ _ Ht Hl) in El1. congruence.
               ++ cbn. rewrite !list_lookup_insert_ne by done. done.
    Qed.
  End front.
  Lemma add_refused r T w C h v r' : reg_ok be U (heal r) T w -> contract be U w (OpAdd C h v) -> add_component c C h v r = Panic r' ->
    refused (ev_oracle (r_env r)) (ev_oracle (r_env r')) /\ only_drops r r' [v] /\
    (untouched r r' \/ broken c U w r r' (OpAdd C h v) /\ (all_calm w -> drop_registry r' = UB /\ ruin r')).
  Proof.
    intros H Hadd E. destruct (add_ok c U HU _ _ _ _ _ _ H Hadd) as (out&u&Eh&_). cbn [step] in Eh. apply bind_ret_inv in Eh as [y Eh].
    split. { pose proof (rsim_add c C h v r) as Hs. rewrite E in Hs. destruct Hs as [[Hs _]|Hs]; [congruence|done]. }
    destruct Hadd as (HC&Hfv&Hcon).
    destruct (w !! h) as [e|] eqn:Ew.
    2: { unfold add_component in E. rewrite rm_get_step in E. pose proof (dead_entry _ _ _ _ _ _ H Ew) as En. change (entry_of c r h = None) in En. by rewrite En in E. }
    destruct (live_entry c U _ _ _ _ _ H Ew) as (en&i&j&t&m&a&Een&Ei&Ej&Hrow&Ht&Hj&->&Ha&Hta).
    change (entry_of c r h = Some en) in Een. cbn [r_ar heal] in Ha.
    destruct (tab_has c U HU _ _ _ _ _ C Hta Hj HC) as [_ Ehas]. specialize (Hcon _ eq_refl). cbn [en_vals] in Hcon.
    destruct (tab_facts _ _ _ _ Hta) as (Hd&Hst&Hnd&H14&Hlen&_). destruct (tab_row _ _ HU _ _ _ _ _ Hta Hj) as (Hfull&Hfit&Ety).
    pose proof (full_size _ _ Hnd Hfull) as Hsize.
    assert (Hstep : forall r0, entry_of c r0 h = Some en -> add_component c C h v r0 =
      (let! o := dropping_on_panic [v] (find_or_create_archetype_adding_component c i (cdesc_of C)) in
       match o with
       | None => ret (Err v)
       | Some (src, dst) =>
          let! (srow, drow) := dropping_on_panic [v] (move_front c j en src dst (fun sa srow drow =>
              with_arch dst (write_single_component_unchecked C drow v) ;;! ret (srow, drow))) in
          let! sa := rm_rd (arch_at src) in
          move_back c h src dst sa srow drow (Ok tt)
       end) r0).
    { intros r0 E0. unfold add_component. rewrite rm_get_step, E0, Ei, Ej. done. }
    assert (Hfind : forall r0, r_ar r0 = r_ar r -> find_or_create_archetype_adding_component c i (cdesc_of C) r0 =
      (let! od := lift_rd (ad_add_component be (a_desc a) (cdesc_of C)) in match od with None => ret None | Some nd => find_dst i nd end) r0).
    { intros r0 E0. unfold find_or_create_archetype_adding_component. rewrite rm_get_step, E0, Ha.
      rewrite (proj2 (Nat.ltb_ge _ _)); [done|]. apply Nat.lt_le_incl. by eapply lookup_lt_Some. }
    rewrite (Hstep r Een) in E. rewrite (Hstep (heal r) Een) in Eh. clear Hstep.
    (* the search *)
    destruct (panic_split heal (fun r => ev_oracle (r_env r)) _ _ _ _ _ _ (rsim_dop _ _ (rsim_find_add _ _ _)) Eh E) as [[Ef _]|(o&r1&Ef&Efh&E2&Eh2)].
    { apply dop_Panic in Ef as (rb&Ef&->).
      assert (Hq : requests (r_env r) (r_env rb) /\ untouched r rb).
      { unfold bind in Eh. destruct (dropping_on_panic [v] _ (heal r)) as [o r1| |] eqn:Efh; [|done|done]. clear Eh. apply dop_Ret_inv in Efh.
        rewrite (Hfind r eq_refl) in Ef. rewrite (Hfind (heal r) eq_refl) in Efh. destruct (ad_add_component be (a_desc a) (cdesc_of C)) as [[nd|]| |]; [|done..].
        rewrite step_lift_Rd in Ef, Efh. by eapply find_dst_refused. }
      destruct Hq as [(evs&Et&Hasks) Hu]. split; [|left; by apply untouched_drops]. exists evs. cbn. by rewrite Et, <- app_assoc. }
    apply dop_Ret_inv in Ef, Efh. destruct o as [[src dst]|]; [|done].
    rewrite (Hfind r eq_refl) in Ef. rewrite (Hfind (heal r) eq_refl) in Efh. destruct (ad_add_component be (a_desc a) (cdesc_of C)) as [[nd|]| |] eqn:Eadd; [|done..].
    rewrite step_lift_Rd in Ef, Efh.
    pose proof (find_dst_requests _ _ _ _ _ Ef) as Hq1.
    destruct (add_desc c U HU _ _ _ _ _ _ v _ Hta Hj HC Eadd) as (cs'&Hwf&Hcomp&Hin'&Hp&Ety'&Hid&Hfull').
    pose proof (Permutation_length Hp) as Hlen'. cbn in Hlen'.
    assert (Hnone : m !! ct_id C = None).
    { apply eq_None_not_Some. destruct (wf_add _ _ _ _ (do_wf _ _ Hd) Eadd) as (_&_&_&_&_&Hn). rewrite (do_comps _ _ Hd), ids_cdesc_of in Hn. intros Hs. apply Hn, Hfull, Hs. }
    destruct (Hcon Hnone) as [Hn13 Hroom].
    cbv zeta in Hroom. unfold derived in Hroom. cbn [en_aid en_vals] in Hroom. rewrite Ety', <- Hid in Hroom.
    destruct Hroom as [Hocc Hroom]. assert (H14' : length cs' <= 14).
    { pose proof (ad_components_length _ Hwf) as Hl'. rewrite Hcomp, map_length in Hl'. destruct Hwf as (_&?&_). lia. }
    specialize (Hocc ltac:(rewrite map_length; lia)).
    destruct (find_dst_ok c U HU _ T w i t nd cs' H Ht Hwf Hcomp Hin' ltac:(lia) ltac:(lia) Hocc Hid)
      as [[Ef' Hc]|(Hv&Hnf&d&r1h&T1&td&Ef'&Eer&H1&Ht1&Htd&Hne&Htid&Htcs&Hev&_)]; [congruence|].
    rewrite Efh in Ef'. assert (src = i) as -> by congruence. assert (dst = d) as -> by congruence. assert (r1h = heal r1) as -> by congruence. clear Ef'.
    destruct (ro_tab _ _ _ _ _ _ _ H1 Htd) as (ad&Had&Htad). destruct (ro_tab _ _ _ _ _ _ _ H1 Ht1) as (a1&Ha1&Hta1). cbn [r_ar heal] in Had, Ha1.
    rewrite <- Htid, <- Htcs in Hroom. rewrite (crowd_rows _ _ HU _ _ _ _ _ H1 Htd) in Hroom.
    assert (Hs1 : all_same c U r r1) by (by eapply heal_same).
    (* the move *)
    cbn beta iota in E2, Eh2.
    eapply (panic_first heal (fun r => ev_oracle (r_env r))) in E2; [| | | |exact Eh2].
    2: { apply rsim_dop. unfold move_front. rs. }
    2: { intros [srow drow]. unfold move_back. rs. }
    2: { intros [srow drow]. unfold move_back. st. }
    apply dop_Panic in E2 as (rb&E2&->). unfold bind in Eh2.
    destruct (dropping_on_panic [v] _ (heal r1)) as [y1 u1| |] eqn:Eh3; [|done|done]. apply dop_Ret_inv in Eh3. clear Eh2.
    eapply (front_refused r1 T1 w H1 i d j Hne t td Ht1 a1 ad Ha1 Had Hta1 Htad h m Hj en Hrow Hroom) in E2 as (sa&da&rg&e&lost&->&Esd&Hsok&Hloc&Hfl&Hq2&Htorn);
      [| | |exact Eh3]; [|intros ???; rs|intros ???; st].
    assert (Etd : types U (<[ct_id C := v]> m) = t_cs td) by congruence.
    destruct (front_misplaced r1 T1 w H1 i d j Hne t td Ht1 Htd a1 ad Ha1 Had Hta1 Htad h m Hj en Hrow Hroom sa da rg e lost _ Esd Hsok Hloc Hfl Htorn Etd) as [Hm Htn].
    split. { destruct (requests_trans _ _ _ Hq1 Hq2) as (evs&Et&Hasks). exists evs. cbn. rewrite Et, <- app_assoc. done. }
    right. split; [|eapply torn_drop_reg; [exact H1|exact Htd|exact Htad|exact Hfl|exact Htorn|by eapply put2_dst|]].
    2: { intros j0 a0 Hj0 Ha0. exact (front_others r1 T1 w H1 i d j t Ht1 a1 Ha1 h m Hj _ _ _ _ _ _ Hsok Hj0 Ha0). }
    exists (Ent (t_id t) m), (lost_of td lost). split; [done|]. split; [|].
    - destruct Hm as (Hal&hl&ml&Hl&Hsh). split; [intros h'; rewrite <- (proj1 (Hs1 h')); apply Hal|]. exists hl. split.
      + exact (last_mate_tab c U HU (heal r) T w h m a i t j hl ml H Ha Ht Hta Hj Hl).
      + intros C' v' HC'. rewrite <- (proj2 (Hs1 hl) C' v' HC'). by apply Hsh.
    - cbn [en_vals]. unfold derived. rewrite Ety', <- Hid, <- Htid. by eapply same_torn.
  Qed.

  Lemma remove_refused r T w C h r' : reg_ok be U (heal r) T w -> contract be U w (OpRemove C h) -> remove_component c C h r = Panic r' ->
    refused (ev_oracle (r_env r)) (ev_oracle (r_env r')) /\ only_drops r r' [] /\
    (untouched r r' \/ broken c U w r r' (OpRemove C h) /\ (all_calm w -> drop_registry r' = UB /\ ruin r')).
  Proof.
    intros H Hadd E. destruct (remove_ok c U HU _ _ _ _ _ H Hadd) as (out&u&Eh&_). cbn [step] in Eh. apply bind_ret_inv in Eh as [y Eh].
    split. { pose proof (rsim_remove c C h r) as Hs. rewrite E in Hs. destruct Hs as [[Hs _]|Hs]; [congruence|done]. }
    destruct Hadd as (HC&Hcon).
    destruct (w !! h) as [e|] eqn:Ew.
    2: { unfold remove_component in E. rewrite rm_get_step in E. pose proof (dead_entry _ _ _ _ _ _ H Ew) as En. change (entry_of c r h = None) in En. by rewrite En in E. }
    destruct (live_entry c U _ _ _ _ _ H Ew) as (en&i&j&t&m&a&Een&Ei&Ej&Hrow&Ht&Hj&->&Ha&Hta).
    change (entry_of c r h = Some en) in Een. cbn [r_ar heal] in Ha.
    destruct (tab_has c U HU _ _ _ _ _ C Hta Hj HC) as [_ Ehas]. specialize (Hcon _ eq_refl). cbn [en_vals] in Hcon.
    destruct (tab_facts _ _ _ _ Hta) as (Hd&Hst&Hnd&H14&Hlen&_). destruct (tab_row _ _ HU _ _ _ _ _ Hta Hj) as (Hfull&Hfit&Ety).
    pose proof (full_size _ _ Hnd Hfull) as Hsize.
    assert (Hstep : forall r0, entry_of c r0 h = Some en -> remove_component c C h r0 =
      (let! o := find_or_create_archetype_removing_component c i (cdesc_of C) in
       match o with
       | None => ret (Err tt)
       | Some (src, dst) =>
          move_front c j en src dst (fun sa srow drow =>
            let! v := lift_rd (read_component_unchecked C srow sa) in
            dropping_on_panic [v] (move_back c h src dst sa srow drow (Ok v)))
       end) r0).
    { intros r0 E0. unfold remove_component. rewrite rm_get_step, E0, Ei, Ej. done. }
    assert (Hfind : forall r0, r_ar r0 = r_ar r -> find_or_create_archetype_removing_component c i (cdesc_of C) r0 =
      (let! od := lift_rd (ad_remove_component be (a_desc a) (ct_id C)) in match od with None => ret None | Some nd => find_dst i nd end) r0).
    { intros r0 E0. unfold find_or_create_archetype_removing_component. rewrite rm_get_step, E0, Ha.
      rewrite (proj2 (Nat.ltb_ge _ _)); [done|]. apply Nat.lt_le_incl. by eapply lookup_lt_Some. }
    rewrite (Hstep r Een) in E. rewrite (Hstep (heal r) Een) in Eh. clear Hstep.
    (* the search *)
    destruct (panic_split heal (fun r => ev_oracle (r_env r)) _ _ _ _ _ _ (rsim_find_del _ _ _) Eh E) as [[Ef _]|(o&r1&Ef&Efh&E2&Eh2)].
    { assert (Hq : requests (r_env r) (r_env r') /\ untouched r r').
      { unfold bind in Eh. destruct (find_or_create_archetype_removing_component _ _ _ (heal r)) as [o r1| |] eqn:Efh; [|done|done]. clear Eh.
        rewrite (Hfind r eq_refl) in Ef. rewrite (Hfind (heal r) eq_refl) in Efh. destruct (ad_remove_component be (a_desc a) (ct_id C)) as [[nd|]| |]; [|done..].
        rewrite step_lift_Rd in Ef, Efh. by eapply find_dst_refused. }
      destruct Hq as [(evs&Et&Hasks) Hu]. split; [|by left]. exists evs. by rewrite app_nil_r. }
    destruct o as [[src dst]|]; [|done].
    rewrite (Hfind r eq_refl) in Ef. rewrite (Hfind (heal r) eq_refl) in Efh. destruct (ad_remove_component be (a_desc a) (ct_id C)) as [[nd|]| |] eqn:Erem; [|done..].
    rewrite step_lift_Rd in Ef, Efh.
    pose proof (find_dst_requests _ _ _ _ _ Ef) as Hq1.
    destruct (remove_desc c U HU _ _ _ _ _ _ _ Hta Hj HC Erem) as (cs'&Hwf&Hcomp&Hin'&Hp&Ety'&Hid&Hfull').
    pose proof (Permutation_length Hp) as Hlen'. cbn in Hlen'.
    assert (Hsome : is_Some (m !! ct_id C)). { apply Ehas. rewrite Hp. by left. }
    destruct (Hcon Hsome) as [Hn14 Hroom].
    assert (Hn1 : 1 <= length cs').
    { destruct (decide (length (t_cs t) = 1)) as [E1|]; [|lia]. rewrite remove_component_none in Erem; [done|apply Hd|left; lia]. }
    cbv zeta in Hroom. unfold derived in Hroom. cbn [en_aid en_vals] in Hroom. rewrite Ety', <- Hid in Hroom.
    destruct Hroom as [Hocc Hroom]. assert (H14' : length cs' <= 14).
    { pose proof (ad_components_length _ Hwf) as Hl'. rewrite Hcomp, map_length in Hl'. destruct Hwf as (_&?&_). lia. }
    specialize (Hocc ltac:(rewrite map_length; lia)).
    destruct (find_dst_ok c U HU _ T w i t nd cs' H Ht Hwf Hcomp Hin' ltac:(lia) ltac:(lia) Hocc Hid)
      as [[Ef' Hc]|(Hv&Hnf&d&r1h&T1&td&Ef'&Eer&H1&Ht1&Htd&Hne&Htid&Htcs&Hev&_)]; [congruence|].
    rewrite Efh in Ef'. assert (src = i) as -> by congruence. assert (dst = d) as -> by congruence. assert (r1h = heal r1) as -> by congruence. clear Ef'.
    destruct (ro_tab _ _ _ _ _ _ _ H1 Htd) as (ad&Had&Htad). destruct (ro_tab _ _ _ _ _ _ _ H1 Ht1) as (a1&Ha1&Hta1). cbn [r_ar heal] in Had, Ha1.
    rewrite <- Htid, <- Htcs in Hroom. rewrite (crowd_rows _ _ HU _ _ _ _ _ H1 Htd) in Hroom.
    assert (Hs1 : all_same c U r r1) by (by eapply heal_same).
    (* the move *)
    cbn beta iota in E2, Eh2.
    eapply (front_refused r1 T1 w H1 i d j Hne t td Ht1 a1 ad Ha1 Had Hta1 Htad h m Hj en Hrow Hroom) in E2 as (sa&da&rg&e&lost&->&Esd&Hsok&Hloc&Hfl&Hq2&Htorn);
      [| | |exact Eh2]; [|intros ???; unfold move_back; rs|intros ???; unfold move_back; st].
    assert (Etd : types U (delete (ct_id C) m) = t_cs td) by congruence.
    destruct (front_misplaced r1 T1 w H1 i d j Hne t td Ht1 Htd a1 ad Ha1 Had Hta1 Htad h m Hj en Hrow Hroom sa da rg e lost _ Esd Hsok Hloc Hfl Htorn Etd) as [Hm Htn].
    split. { destruct (requests_trans _ _ _ Hq1 Hq2) as (evs&Et&Hasks). exists evs. cbn. rewrite Et, app_nil_r. done. }
    right. split; [|eapply torn_drop_reg; [exact H1|exact Htd|exact Htad|exact Hfl|exact Htorn|by eapply put2_dst|]].
    2: { intros j0 a0 Hj0 Ha0. exact (front_others r1 T1 w H1 i d j t Ht1 a1 Ha1 h m Hj _ _ _ _ _ _ Hsok Hj0 Ha0). }
    exists (Ent (t_id t) m), (lost_of td lost). split; [done|]. split; [|].
    - destruct Hm as (Hal&hl&ml&Hl&Hsh). split; [intros h'; rewrite <- (proj1 (Hs1 h')); apply Hal|]. exists hl. split.
      + exact (last_mate_tab c U HU (heal r) T w h m a i t j hl ml H Ha Ht Hta Hj Hl).
      + intros C' v' HC'. rewrite <- (proj2 (Hs1 hl) C' v' HC'). by apply Hsh.
    - cbn [en_vals]. unfold derived. rewrite Ety', <- Hid, <- Htid. by eapply same_torn.
  Qed.
End refused.
