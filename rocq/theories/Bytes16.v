(** Proofs for C73: whole programs, destroying and dropping with panicking
    destructors at the level of bytes. *)
From Verif Require Import ByteReg Sizes SearchProofs MonadProofs DescrProofs ArchProofs ArchOps ArchOps2 ArchOps3 RegProofs RegOps RegOps2 RegExact IterProofs RegMut RegIter RegOps3 AregProofs EntityTable Refine Ref Observe Crash
  Bytes Bytes2 Bytes3 Bytes4 Bytes5 Bytes6 Bytes7 Bytes15 Events Events2 SpecFail SpecBytes SpecBase SpecTrace SpecWorld SpecRef SpecBomb.
Local Open Scope nat_scope.

(** ** Tables *)
Definition tvals (t : tab) : list value := concat (map (col_values (t_rows t)) (t_cs t)).
Definition tab_bombed (t : tab) : bool := existsb v_bomb (tvals t).
Definition abandon_tab (t : tab) (n : nat) : list event :=
  if tab_bombed t then map EvDrop (until_bomb (tvals t))
  else map EvDrop (tvals t) ++ cfree n (t_cs t) ++ [EvDealloc (4 * N.of_nat n) 4].
Definition lost_tab (t : tab) (n : nat) : list (N * N) := if tab_bombed t then layouts (t_cs t) n else [].
Lemma cols_values rows cs cols : Forall2 (col_of rows) cs cols -> cols = map (col_values rows) cs.
Proof.
  induction 1 as [|c col cs cols H HF IH]; [done|]. cbn [map]. rewrite <- IH. f_equal. unfold col_values. clear IH HF.
  induction H as [|x v rows col Hx H IH]; [done|]. cbn [omap list_omap]. by rewrite Hx, IH.
Qed.
Lemma value_drops_map rows cs : value_drops rows cs = map EvDrop (concat (map (col_values rows) cs)).
Proof. unfold value_drops. rewrite concat_map, map_map. done. Qed.

(** ** The layouts of the live blocks *)
Definition lay (H : gmap N hblk) (id : N) : option (N * N) := layout_of <$> H !! id.
Lemma heap_layouts H n L : heap_ok H n L -> map layout_of (map_to_list H).*2 ≡ₚ omap (lay H) L.
Proof.
  intros Hh. assert (Hp : (map_to_list H).*1 ≡ₚ L).
  { apply NoDup_Permutation; [apply NoDup_fst_map_to_list|apply Hh|]. intros id. rewrite <- (ho_dom _ _ _ Hh). split.
    - intros ([i b]&->&Hib)%elem_of_list_fmap. apply elem_of_map_to_list in Hib. eauto.
    - intros [b Hb]. apply elem_of_list_fmap. exists (id, b). split; [done|]. by apply elem_of_map_to_list. }
  rewrite <- Hp. assert (Hin : Forall (fun x => H !! x.1 = Some x.2) (map_to_list H)).
  { apply Forall_forall. intros [i b] Hib. by apply elem_of_map_to_list in Hib. }
  clear Hp. induction Hin as [|[i b] l Hb _ IH]; [done|]. cbn [fmap list_fmap map fst snd omap list_omap] in *. unfold lay at 1. rewrite Hb. cbn. by rewrite IH.
Qed.
Lemma prel_lay {A} (f : A -> list mbyte) n al H (b : ArchModel.block A) (q : bptr) : (forall x, length (f x) = n) ->
  prel f n al H (Some b) q -> exists id off, q = Some (id, off) /\ lay H id = Some (bl_size b, bl_align b).
Proof.
  intros Hf Hp. destruct q as [[id off]|]; cbn [prel] in Hp; [|done]. destruct Hp as (->&Hal&Hsz&base&Hb&_). exists id, 0. split; [done|].
  unfold lay. rewrite Hb. cbn. unfold layout_of. cbn [hb_bytes hb_align]. by rewrite (col_bytes_length f n Hf), Hsz, Hal.
Qed.
Lemma cols_lay H cap (cs : list ctype) : forall (C : list column) (qs : list bptr),
  length C = length cs -> length cs <= length qs ->
  (forall i c col q, cs !! i = Some c -> C !! i = Some col -> qs !! i = Some q -> exists id off, q = Some (id, off) /\ lay H id = Some (ct_size c * N.of_nat cap, ct_align c)%N) ->
  (forall i q, length cs <= i -> qs !! i = Some q -> q = None) ->
  omap (lay H) (omap ptr_id qs) = map (fun c => (ct_size c * N.of_nat cap, ct_align c)%N) cs.
Proof.
  induction cs as [|c cs IH]; intros C qs HlC Hlq Hcol Hrest.
  - assert (omap ptr_id qs = []) as ->; [|done]. clear -Hrest. induction qs as [|q qs IH]; [done|]. rewrite (Hrest 0 q ltac:(cbn; lia) eq_refl). cbn.
    apply IH. intros i q' _ Hq. apply (Hrest (S i)); [cbn; lia|done].
  - destruct C as [|col C]; [done|]. destruct qs as [|q qs]; [cbn in Hlq; lia|].
    destruct (Hcol 0 c col q eq_refl eq_refl eq_refl) as (id&off&->&Hl). cbn [omap list_omap ptr_id fmap option_fmap option_map fst map].
    rewrite Hl. f_equal. apply (IH C); [cbn in HlC; lia|cbn in Hlq; lia| |].
    + intros i c' col' q' H1 H2 H3. exact (Hcol (S i) c' col' q' H1 H2 H3).
    + intros i q' Hi Hq. apply (Hrest (S i)); [cbn; lia|done].
Qed.

Section runs.
Context {Fm : family} (c : cfg) (U : list ctype) (HU : universe (big c) U) (Hla : laid_out U).
Notation be := (big c).
Notation arel := (@Bytes.arel U).
Implicit Types (T : list tab) (w : world).
Let Hst : strict (ids_of U) := proj1 HU.
Let Hsm : Forall small U := proj1 (proj2 HU).

Lemma own_layouts H a A cs rows : in_U U cs -> arel H a A -> arch_ok a cs rows -> omap (lay H) (own A) = layouts cs (a_cap a).
Proof using HU.
  intros Hin Hr Hok. pose proof Hok as (Hd&_&_&_&C&Hh&Ea&(HlC&_&_)&_).
  assert (Hco : a_comps a = map cdesc_of cs) by (by apply (ok_comps _ _ Hd _ rows)).
  assert (Hps : a_ptrs a = colbs (a_cap a) cs C) by (by rewrite Ea).
  assert (Has : a_assoc a = Some (Block (4 * N.of_nat (a_cap a))%N 4%N Hh)) by (by rewrite Ea).
  pose proof (ar_assoc _ _ _ Hr) as Hp. rewrite Has in Hp. destruct (prel_lay handle_bytes 4 4%N _ _ _ ltac:(done) Hp) as (id&off&Eq&El).
  unfold own, layouts. rewrite Eq. cbn [omap list_omap ptr_id fmap option_fmap option_map fst]. rewrite El. f_equal.
  pose proof (ar_len _ _ _ Hr) as Hlq. rewrite Hps in Hlq.
  assert (Hlen : length (zip_with (colb (a_cap a)) cs C) = length cs) by (rewrite zip_with_length; lia).
  unfold colbs in Hlq. rewrite app_length, Hlen in Hlq.
  apply (cols_lay H (a_cap a) cs C); [done|lia| |].
  - intros i x col q Hx Hcol Hq. assert (HxU : x ∈ U) by exact (Forall_lookup_1 _ _ _ _ Hin Hx).
    assert (Hci : a_comps a !! i = Some (cdesc_of x)). { rewrite Hco. change (map ?f ?l) with (f <$> l). rewrite list_lookup_fmap. by rewrite Hx. }
    assert (Hpi : a_ptrs a !! i = Some (colb (a_cap a) x col)) by (rewrite Hps; by apply colbs_lookup).
    pose proof (ar_col _ _ _ Hr _ _ _ _ Hci Hpi Hq) as Hpr. unfold colb in Hpr.
    exact (prel_lay _ _ _ _ _ _ ltac:(apply val_bytes_length) Hpr).
  - intros i q Hi Hq. assert (Hci : a_comps a !! i = None) by (rewrite Hco; apply lookup_ge_None; by rewrite map_length).
    destruct (lookup_lt_is_Some_2 (a_ptrs a) i) as [p Hpi]. { rewrite <- (ar_len _ _ _ Hr). by eapply lookup_lt_Some. }
    by destruct (ar_rest _ _ _ Hr _ _ _ Hci Hpi Hq).
Qed.

(** ** Dropping every archetype *)
Lemma a_drop_tab a t e : tab_ok be U a t -> tab_bombed t = false -> ev_oracle e = [] ->
  exists a', a_drop (a, e) = Ret tt (a', emitted e (abandon_tab t (a_cap a))) /\ gone a'.
Proof using HU.
  intros Ht Hb Ho. pose proof (proj1 (proj2 Ht)) as Hok. destruct (tab_facts be U _ _ Ht) as (Hd&_).
  destruct (tab_cols c U _ _ Ht) as (cols&Hcols&Hp). rewrite (cols_values _ _ _ Hcols) in Hp. fold (tvals t) in Hp.
  assert (Hcalm : Forall (fun x : row => calm x.2) (t_rows t)).
  { apply Forall_lookup. intros j [h m] Hj x v Hv. cbn [snd] in Hv. destruct (v_bomb v) eqn:Evb; [|done]. exfalso.
    assert (tab_bombed t = true); [|congruence]. apply existsb_exists. exists v. split; [|done].
    apply elem_of_list_In. rewrite Hp. unfold rows_values. change (map ?f ?l) with (f <$> l). apply elem_of_concat. eexists. split; [|apply elem_of_list_fmap; exists (h, m); split; [done|by eapply elem_of_list_lookup_2]].
    cbn [snd]. unfold mvals. apply elem_of_list_fmap. exists (x, v). split; [done|]. by apply elem_of_map_to_list. }
  destruct (a_drop_gone _ _ Hd a (t_rows t) e eq_refl Hok Hcalm Ho) as (a'&e'&E&Hg&_).
  destruct (a_drop_exact _ _ Hd a (t_rows t) e eq_refl Hok Hcalm) as (a2&E2). rewrite E in E2. injection E2 as <- Ee. exists a'. split; [|done].
  rewrite E. do 2 f_equal. rewrite Ee. unfold abandon_tab. rewrite Hb, value_drops_map. done.
Qed.
Lemma b_drop_archs_any {L} n : forall k r R T p,
  @Bytes5.brel U L r R -> ev_oracle (r_env r) = [] -> n = length (archs r) - k ->
  Forall2 (tab_ok be U) (drop k (archs r)) T ->
  exists r' R', b_drop_archs k n p R = (if p || existsb tab_bombed T then Panic R' else Ret tt R') /\ @Bytes5.brel U L r' R' /\
    r_env r' = emitted (r_env r) (concat (zip_with abandon_tab T (map a_cap (drop k (archs r))))) /\
    length (archs r') = length (archs r) /\ take k (archs r') = take k (archs r) /\
    forall i a t, archs r !! (k + i) = Some a -> T !! i = Some t -> exists a', archs r' !! (k + i) = Some a' /\ if tab_bombed t then a' = a else gone a'.
Proof using HU Hla.
  induction n as [|n IH]; intros k r R T p H Ho Hn HT; cbn [b_drop_archs].
  - rewrite drop_ge in * by lia. inversion HT; subst. exists r, R. cbn [existsb map zip_with concat]. rewrite emitted_nil, orb_false_r. done.
  - destruct (lookup_lt_is_Some_2 (archs r) k) as [a Ha]; [lia|]. destruct (brel_at _ _ _ _ H Ha) as (A&HA&Hr).
    rewrite (drop_S _ _ _ Ha) in HT. inversion HT as [|? t ? T' Ht HT' E1 E2]; subst.
    destruct (tab_facts be U _ _ Ht) as (Hd&_). pose proof (proj1 (proj2 Ht)) as Hok. pose proof (brel_ast _ _ _ _ _ H Ha HA) as Hast.
    assert (Hstep : exists a' A' m', @Bytes.ast U (rest_own k (br_archs R) ++ map fst L) (a', emitted (r_env r) (abandon_tab t (a_cap a))) (A', m') /\
      kept (rest_own k (br_archs R) ++ map fst L) (br_mem R) m' /\ (if tab_bombed t then a' = a else gone a') /\
      b_drop (A, br_mem R) = if tab_bombed t then Panic (A', m') else Ret tt (A', m')).
    { destruct (tab_bombed t) eqn:Eb.
      - destruct (tab_cols c U _ _ Ht) as (cols&Hcols&Hp). pose proof (cols_values _ _ _ Hcols) as Hcv.
        assert (Hv : concat cols = tvals t) by (by rewrite Hcv). unfold tab_bombed in Eb. rewrite <- Hv in Eb.
        eexists a, A, _. split; [|split; [|split; [done|]]].
        3: { exact (b_drop_bomb Hsm Hla _ _ Hd a (t_rows t) A (br_mem R) cols (proj1 (proj2 (proj2 Ht))) Hr eq_refl Hok Hcols Eb). }
        + unfold abandon_tab, tab_bombed. rewrite <- Hv, Eb. pose proof (as_env _ _ _ Hast) as He. cbn [fst snd] in He. rewrite He. by apply (ast_env _ _ _ _ Hast).
        + done.
      - destruct (a_drop_tab _ _ _ Ht Eb Ho) as (a'&E&Hg). destruct (sim_drop Hsm Hla _ _ _ Hast _ _ E) as ([A' m']&EB&Ha'&Hk). by exists a', A', m'. }
    destruct Hstep as (a'&A'&m'&Has&Hk&Hga&EB).
    pose proof (brel_put _ _ _ _ _ _ _ _ H HA Has Hk) as H'.
    set (r1 := Reg _ _ _) in H'. set (R1 := BReg _ _ _ _) in H'.
    assert (Ha1 : archs r1 = <[k := a']> (archs r)) by done.
    assert (Hk1 : k < length (archs r)) by (by eapply lookup_lt_Some).
    assert (HIH := fun q => IH (S k) r1 R1 T' q H' Ho). rewrite Ha1, insert_length, drop_insert_gt in HIH by lia.
    assert (Hgo : forall q, (exists r' R', b_drop_archs (S k) n q R1 = (if q || existsb tab_bombed T' then Panic R' else Ret tt R') /\ @Bytes5.brel U L r' R' /\
        r_env r' = emitted (r_env r1) (concat (zip_with abandon_tab T' (map a_cap (drop (S k) (archs r))))) /\
        length (archs r') = length (archs r) /\ take (S k) (archs r') = take (S k) (<[k := a']> (archs r)) /\
        forall i a0 t0, <[k := a']> (archs r) !! (S k + i) = Some a0 -> T' !! i = Some t0 -> exists a1, archs r' !! (S k + i) = Some a1 /\ if tab_bombed t0 then a1 = a0 else gone a1)).
    { intros q. apply HIH; [lia|done]. }
    clear HIH. assert (Ew : b_with_arch k b_drop R = if tab_bombed t then Panic R1 else Ret tt R1).
    { unfold b_with_arch. rewrite HA, EB. by destruct (tab_bombed t). }
    rewrite Ew. cbn [existsb].
    destruct (Hgo (p || tab_bombed t)) as (r'&R'&E&H2&Ee&Hl&Htk&Hat). exists r', R'. split; [|split; [done|split; [|split; [done|split]]]].
    + rewrite orb_assoc. destruct (tab_bombed t); [by rewrite orb_true_r in *|by rewrite orb_false_r in *].
    + rewrite Ee. rewrite (drop_S _ _ _ Ha). cbn [map zip_with concat r1 r_env]. by rewrite emitted_app.
    + apply (f_equal (take k)) in Htk. rewrite !take_take in Htk. rewrite !Nat.min_l in Htk by lia. rewrite Htk. by rewrite take_insert.
    + intros [|i] a0 t0 Ha0 Ht0.
      * rewrite Nat.add_0_r in *. cbn in Ht0. rewrite Ha in Ha0. injection Ha0 as <-. injection Ht0 as <-. exists a'. split; [|done].
        rewrite <- (lookup_take (archs r') (S k)) by lia. rewrite Htk. rewrite lookup_take by lia. by apply list_lookup_insert.
      * replace (k + S i) with (S k + i) in * by lia. apply (Hat i a0 t0); [|exact Ht0]. rewrite list_lookup_insert_ne by lia. exact Ha0.
Qed.
Lemma b_drop_left {L} r R T : @Bytes5.brel U L r R -> ev_oracle (r_env r) = [] -> Forall2 (tab_ok be U) (archs r) T ->
  exists r' R', b_drop_registry R = (if existsb tab_bombed T then Panic R' else Ret tt R') /\ @Bytes5.brel U L r' R' /\
    r_env r' = emitted (r_env r) (concat (zip_with abandon_tab T (map a_cap (archs r)))) /\
    omap (lay (m_blocks (br_mem R'))) (concat (map own (br_archs R'))) = concat (zip_with lost_tab T (map a_cap (archs r))).
Proof using HU Hla.
  intros H Ho HT. destruct (b_drop_archs_any (length (archs r)) 0 r R T false H Ho) as (r'&R'&E&H'&Ee&Hl&_&Hat); [lia|by rewrite drop_0|].
  rewrite drop_0 in Ee. exists r', R'. split; [|split; [done|split; [done|]]].
  - change (b_drop_archs 0 (length (br_archs R)) false R = if existsb tab_bombed T then Panic R' else Ret tt R'). rewrite (bl_len _ _ H). exact E.
  - assert (Hc : forall (f : N -> option (N * N)) (l : list (list N)), omap f (concat l) = concat (map (omap f) l)).
    { intros f l. induction l as [|x l IH]; [done|]. cbn [concat map]. by rewrite omap_app, IH. }
    rewrite Hc, map_map. f_equal.
    pose proof (Forall2_length _ _ _ HT) as HlT. pose proof (bl_len _ _ H') as HlR.
    apply list_eq_same_length with (n := length (archs r)); [rewrite zip_with_length, map_length; lia|rewrite map_length; lia|].
    intros i x y Hi Hx Hy. change (map ?f ?l) with (f <$> l) in Hx. apply list_lookup_fmap_inv in Hx as (B&->&HB).
    apply lookup_zip_with_Some in Hy as (t&n&->&Ht&Hn). change (map ?f ?l) with (f <$> l) in Hn. apply list_lookup_fmap_inv in Hn as (a&->&Ha).
    destruct (Hat i a t Ha Ht) as (a'&Ha'&Hb). pose proof (bl_archs _ _ H' _ _ _ Ha' HB) as Hr. unfold lost_tab. destruct (tab_bombed t).
    + subst a'. destruct (Forall2_lookup_lr _ _ _ _ _ _ HT Ha Ht) as (_&Hok&Hin&_). by eapply own_layouts.
    + rewrite (gone_own U _ _ _ Hr Hb). done.
Qed.
Lemma b_drop_any r R T : @Bytes5.brel U [] r R -> ev_oracle (r_env r) = [] -> Forall2 (tab_ok be U) (archs r) T ->
  exists R', b_drop_registry R = (if existsb tab_bombed T then Panic R' else Ret tt R') /\
    m_env (br_mem R') = emitted (r_env r) (concat (zip_with abandon_tab T (map a_cap (archs r)))) /\
    map layout_of (map_to_list (m_blocks (br_mem R'))).*2 ≡ₚ concat (zip_with lost_tab T (map a_cap (archs r))).
Proof using HU Hla.
  intros H Ho HT. destruct (b_drop_left r R T H Ho HT) as (r'&R'&E&H'&Ee&Hl). exists R'. split; [done|]. split; [by rewrite (bl_env _ _ H')|].
  etrans; [apply (heap_layouts _ _ _ (bl_heap _ _ H'))|]. cbn [map]. by rewrite app_nil_r, Hl.
Qed.
End runs.
