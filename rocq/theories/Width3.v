(** Proofs for C68: programs within the contract, and programs that do not fit
    into 32 bits. *)
From Verif Require Import WidthModel Instances SpecTrace SpecEntity EntityProofs EntityTable SearchProofs DescrProofs MonadProofs ArchProofs ArchOps ArchOps2 ArchOps3 AregProofs IterProofs RegProofs RegOps RegOps2 RegOps3 RegIter RegMut RegExact Refine SpecObs SpecClient Sizes Clients Ref Width Width2 Events Events2 Total Brim SpecBase SpecWorld SpecRef SpecEvents SpecTotal SpecBrim SpecWidth.
Local Open Scope nat_scope.

(** ** From an empty registry *)
Lemma okr_start w o : okr w (Reg er_default areg_default (Env [] o)).
Proof. split; by apply Forall_nil. Qed.
Lemma okr_calls w c r tr r' : (64 <= w)%N -> calls c r tr r' -> okr w r -> okr w r'.
Proof.
  intros Hw. assert (Hf : (w < 64)%N -> False) by lia. assert (Hw' : (32 <= w)%N) by lia.
  induction 1 as [|r o out r1 tr r2 E _ IH|r o r1 tr r2 E _ IH]; [done|..]; intros H; apply IH;
    destruct (rrel_step w Hw' c False Hf o) as [_ Hs]; destruct (Hs r H) as [[[] _]|[_ Hp]]; by rewrite E in Hp.
Qed.
Lemma reachable_okr w c r : (64 <= w)%N -> reachable c r -> okr w r.
Proof. intros Hw (o&tr&H). eapply okr_calls; [done|exact H|apply okr_start]. Qed.
Lemma step_64 w c o r : (64 <= w)%N -> reachable c r -> w_step w c o r = step c o r.
Proof.
  intros Hw Hr. assert (Hf : (w < 64)%N -> False) by lia. assert (Hw' : (32 <= w)%N) by lia.
  destruct (rrel_step w Hw' c False Hf o) as [_ Hs]. by destruct (Hs r (reachable_okr w c r Hw Hr)) as [[[] _]|[-> _]].
Qed.
Lemma run_64 w c ops o : (64 <= w)%N -> w_run w c ops (Reg er_default areg_default (Env [] o)) = run c ops (Reg er_default areg_default (Env [] o)).
Proof.
  intros Hw. assert (Hf : (w < 64)%N -> False) by lia. assert (Hw' : (32 <= w)%N) by lia.
  destruct (rrel_run w Hw' c False Hf ops) as [_ Hs]. by destruct (Hs _ (okr_start w o)) as [[[] _]|[-> _]].
Qed.
Lemma drop_64 w c r : (64 <= w)%N -> reachable c r -> w_drop_registry w c r = drop_registry r.
Proof. intros Hw Hr. apply drop_registry_eq; [lia|by apply (reachable_okr w c)]. Qed.
(** Any width of at least 32. *)
Lemma run_any w c ops o : (32 <= w)%N ->
  let r := Reg er_default areg_default (Env [] o) in
  w_run w c ops r = UB \/
  (w_run w c ops r = run c ops r /\ match run c ops r with Ret _ r' => okr w r' | _ => True end).
Proof.
  intros Hw r. destruct (rrel_run w Hw c True (fun _ => Logic.I) ops) as [_ Hs]. destruct (Hs r (okr_start w o)) as [(_&H&_)|[H Hp]]; [by left|].
  right. split; [done|]. by destruct (run c ops r).
Qed.
Lemma run_exactly w c ops o out r' : (32 <= w)%N -> run c ops (Reg er_default areg_default (Env [] o)) = Ret out r' ->
  (Forall (meets w) (ev_trace (r_env r')) /\ okr w r' /\ w_run w c ops (Reg er_default areg_default (Env [] o)) = Ret out r') \/
  (~ Forall (meets w) (ev_trace (r_env r')) /\ w_run w c ops (Reg er_default areg_default (Env [] o)) = UB).
Proof.
  intros Hw E. destruct (rrel_run w Hw c True (fun _ => Logic.I) ops) as [_ Hs]. destruct (Hs _ (okr_start w o)) as [(_&H&Hno)|[H Hp]].
  - right. split; [by eapply Hno|done].
  - left. rewrite E in H, Hp. split; [apply Hp|]. done.
Qed.

(** ** Programs within the contract *)
Section contract.
  Context {Fm : family} (c : cfg) (U : list ctype) (HU : universe (big c) U) (w : N) (Hw : (32 <= w)%N).
  Notation be := (big c).
  Definition reachp (p : prof) : Prop := in_reach w (4 * N.of_nat (pk p)) 4 /\
    Forall (fun d => in_reach w (cd_size d * N.of_nat (pk p)) (cd_align d)) (ad_components (pd p)).
  Lemma reach_mono a b al : (a <= b)%N -> in_reach w b al -> in_reach w a al.
  Proof. unfold in_reach. lia. Qed.
  Lemma reachp_mono p q : pd q = pd p -> pk p <= pk q -> reachp q -> reachp p.
  Proof.
    intros Ed Hk [H1 H2]. rewrite Ed in H2. split; [eapply reach_mono; [|exact H1]; lia|]. eapply Forall_impl; [exact H2|]. intros d. apply reach_mono.
    apply N.mul_le_mono_l. lia.
  Qed.
  Lemma next_cap_le p q : pk p <= next_cap p q.
  Proof. unfold next_cap. destruct (full_up p q); lia. Qed.
  Lemma buy_meets n p : reachp p -> pk p = n -> Forall (meets w) (buy n (ad_components (pd p))).
  Proof. intros [H1 H2] <-. constructor; [done|]. unfold cbuy. by apply Forall_map. Qed.
  Lemma grow_meets p q : pd q = pd p -> pk q = next_cap p q -> reachp q -> Forall (meets w) (grow_ev p q).
  Proof.
    intros Ed Hk Hq. pose proof (reachp_mono p q Ed) as Hp. rewrite Hk in Hp. specialize (Hp (next_cap_le p q) Hq). destruct Hp as [H3 H4]. destruct Hq as [H1 H2].
    unfold grow_ev. unfold next_cap in Hk. destruct (full_up p q); [|constructor]. rewrite Hk in H1, H2. rewrite Ed in H2.
    constructor; [done|]. unfold cgrow. apply Forall_map. apply Forall_forall. intros d Hd. cbn.
    split; [by apply (proj1 (Forall_forall _ _) H4)|by apply (proj1 (Forall_forall _ _) H2)].
  Qed.
  Lemma gains_meets P Q G : gains P Q G -> Forall reachp Q -> Forall reachp P /\ Forall (meets w) G.
  Proof.
    intros [HF ->]. induction HF as [|p q P Q [Hd Hk] HF IH]; [split; by apply Forall_nil|]. intros [Hq HQ]%Forall_cons. destruct (IH HQ) as [H1 H2]. cbn [zip_with concat]. split.
    - constructor; [|done]. apply (reachp_mono p q Hd); [|done]. rewrite Hk. apply next_cap_le.
    - apply Forall_app. split; [by apply grow_meets|done].
  Qed.
  Lemma logged_meets r r' D : logged r r' D -> Forall (meets w) D -> Forall reachp (rpf r') ->
    Forall reachp (rpf r) /\ (okt w (r_env r) -> okt w (r_env r')).
  Proof.
    intros (new&G&_&Hg&Ee) HD Hr. destruct (gains_meets _ _ _ Hg Hr) as [[H1 H2]%Forall_app HG]. split; [done|]. intros Ht.
    rewrite Ee. apply Forall_app. split; [done|]. apply Forall_app. split; [done|]. apply Forall_app. split; [|done].
    apply Forall_concat, Forall_map. unfold fresh_of in H2. rewrite Forall_map in H2. eapply Forall_impl; [exact H2|]. intros d Hd. by apply (buy_meets 128 (d, 0, 128)).
  Qed.
  Lemma drops_meet wd o : Forall (meets w) (drops_in U wd o).
  Proof. destruct o; try constructor. cbn [drops_in]. unfold drop_one. by apply Forall_map, Forall_forall. Qed.
  Lemma run_meets ops r b out r' : booked c U r b -> within be U ops b -> run c ops r = Ret out r' -> Forall reachp (rpf r') ->
    Forall reachp (rpf r) /\ (okt w (r_env r) -> okt w (r_env r')).
  Proof.
    revert r b out. induction ops as [|o ops IH]; intros r b out Hb Hwi E Hr.
    { injection E as _ <-. done. }
    destruct Hwi as [Hc Hwi]. destruct (step_exact c U HU o r b Hb Hc) as (r1&E1&H1&_&_). cbn [run] in E. rewrite (bind_Ret _ _ _ _ _ E1) in E.
    apply bind_Ret_inv in E as (outs&r2&E2&[= _ <-]). destruct (IH r1 _ _ H1 Hwi E2 Hr) as [Hr1 Ht1].
    pose proof (step_log c U HU _ _ _ _ _ _ Hb Hc E1 H1) as Hl. destruct (logged_meets _ _ _ Hl (drops_meet _ _) Hr1) as [Hr0 Ht0]. auto.
  Qed.
  Lemma sheet_reachp s p : fits_sheet s p -> reachp p <-> sheet_in_reach w s (pk p).
  Proof.
    intros (E&Hs&_). unfold reachp, sheet_in_reach, elements. rewrite Forall_cons, E, !Forall_map. cbn [fst snd]. unfold bytes.
    assert (Heq : Forall (fun x => in_reach w (cd_size (cdesc_of x) * N.of_nat (pk p)) (cd_align (cdesc_of x))) (sh_types s) <->
                  Forall (fun x => in_reach w (ct_size x * N.of_nat (pk p)) (ct_align x)) (sh_types s)).
    { clear E. induction Hs as [|C l HC _ IH]; [by rewrite !Forall_nil|]. rewrite !Forall_cons, IH, small_size, small_align by done. tauto. }
    unfold compose. by rewrite Heq.
  Qed.
  Lemma sheets_reachp S P : Forall2 fits_sheet S P -> Forall reachp P <-> Forall2 (sheet_in_reach w) S (map pk P).
  Proof.
    induction 1 as [|s p S P Hsp HS IH]; cbn [map]; [split; [constructor|by rewrite Forall_nil]|].
    rewrite Forall_cons, Forall2_cons, IH, (sheet_reachp s p Hsp). done.
  Qed.
  Lemma run_contract ops : within be U ops book_empty ->
    (Forall2 (sheet_in_reach w) (bk_sheets (ref_run be U ops book_empty).2) (run_log be U ops book_empty []).2 /\
     exists r, run c ops reg_default = Ret (ref_run be U ops book_empty).1 r /\ w_run w c ops reg_default = Ret (ref_run be U ops book_empty).1 r /\ okr w r) \/
    (~ Forall2 (sheet_in_reach w) (bk_sheets (ref_run be U ops book_empty).2) (run_log be U ops book_empty []).2 /\
     w_run w c ops reg_default = UB).
  Proof.
    intros Hwi. destruct (run_exact c U HU ops _ _ (booked_start c U) Hwi) as (r&E&Hb&_&Ek).
    assert (Hs : Forall reachp (rpf r) <-> Forall2 (sheet_in_reach w) (bk_sheets (ref_run be U ops book_empty).2) (run_log be U ops book_empty []).2).
    { change (run_log be U ops book_empty []) with (run_log be U ops book_empty (map pk (rpf reg_default))). rewrite <- Ek. apply sheets_reachp. by apply (booked_fits c U). }
    destruct (run_exactly w c ops [] _ _ Hw E) as [(Ht&Hok&E')|[Hno E']].
    - left. split; [|by exists r]. apply Hs. unfold rpf. apply Forall_map. eapply Forall_impl; [apply Hok|]. intros a (_&_&H4&Hcs). by split.
    - right. split; [|done]. intros Hx%Hs. apply Hno. destruct (run_meets ops _ _ _ _ (booked_start c U) Hwi E Hx) as [_ Ht]. apply Ht; by apply Forall_nil.
  Qed.
End contract.

(** ** Archetypes with at most 32768 entities fit into 32 bits *)
Lemma fitting_32768 p n : fitting p n -> p <= N.to_nat 32768 -> (N.of_nat n <= 32768)%N.
Proof.
  intros (k&Hn&_&Hk) Hp. destruct Hk as [->|Hlt]; [change (128 * 2 ^ 0)%N with 128%N in Hn; lia|].
  destruct (N.le_gt_cases k 8) as [Hle|Hgt].
  - rewrite Hn. assert (2 ^ k <= 2 ^ 8)%N by (apply N.pow_le_mono_r; lia). change (2 ^ 8)%N with 256%N in *. lia.
  - exfalso. assert (2 ^ 9 <= 2 ^ k)%N by (apply N.pow_le_mono_r; lia). change (2 ^ 9)%N with 512%N in *. lia.
Qed.
Lemma small_reach w C n : (32 <= w)%N -> small C -> (N.of_nat n <= 32768)%N -> in_reach w (ct_size C * N.of_nat n) (ct_align C).
Proof.
  intros Hw ((_&Hs)&Ha&k&Hk) Hn. unfold in_reach. pose proof (pow_31 w Hw).
  assert (ct_align C <= 32768)%N.
  { rewrite Hk in *. destruct (N.le_gt_cases k 15) as [Hle|Hgt].
    - assert (2 ^ k <= 2 ^ 15)%N by (apply N.pow_le_mono_r; lia). change (2 ^ 15)%N with 32768%N in *. lia.
    - exfalso. assert (2 ^ 16 <= 2 ^ k)%N by (apply N.pow_le_mono_r; lia). change (2 ^ 16)%N with 65536%N in *. lia. }
  assert (ct_size C * N.of_nat n <= 65535 * 32768)%N by (apply N.mul_le_mono; lia). lia.
Qed.
Lemma handles_reach w n : (32 <= w)%N -> (N.of_nat n <= 16777216)%N -> in_reach w (4 * N.of_nat n) 4.
Proof. intros Hw Hn. unfold in_reach. pose proof (pow_31 w Hw). lia. Qed.
Lemma run_roomy {Fm : family} w c U ops : (32 <= w)%N -> universe (big c) U -> within (big c) U ops book_empty ->
  Forall (fun p => p <= N.to_nat 32768) (run_peaks (big c) U ops book_empty []) ->
  exists r, run c ops reg_default = Ret (ref_run (big c) U ops book_empty).1 r /\
    w_run w c ops reg_default = Ret (ref_run (big c) U ops book_empty).1 r /\ w_drop_registry w c r = drop_registry r.
Proof.
  intros Hw HU Hwi Hp. destruct (run_contract c U HU w Hw ops Hwi) as [(_&r&E1&E2&Hok)|[Hno _]].
  - exists r. split; [done|]. split; [done|]. by apply drop_registry_eq.
  - exfalso. apply Hno. destruct (run_exact c U HU ops _ _ (booked_start c U) Hwi) as (r&_&Hb&_&Ek).
    pose proof (run_capacities c U HU ops Hwi) as Hf. change (run_log (big c) U ops book_empty []) with (run_log (big c) U ops book_empty (map pk (rpf reg_default))) in Hf |- *.
    rewrite <- Ek in Hf |- *. destruct (booked_fits c U _ _ Hb) as (HS&_). clear -HS Hf Hp Hw.
    revert Hp Hf. generalize (run_peaks (big c) U ops book_empty []) as ps. induction HS as [|s p S P (_&Hs&_) HS IH]; intros ps Hp Hf; cbn [map] in *; [constructor|].
    inversion Hf as [|q n ps' ? Hq Hf']; subst. apply Forall_cons in Hp as [Hq' Hp]. constructor; [|by eapply IH].
    pose proof (fitting_32768 _ _ Hq Hq') as Hn. unfold sheet_in_reach, elements. constructor; [apply handles_reach; [done|lia]|].
    apply Forall_map. eapply Forall_impl; [exact Hs|]. intros C HC. by apply small_reach.
Qed.

(** ** Too many large components for 32 bits *)
Section flood32.
  Context {Fm : family} (c : cfg) (U : list ctype) (HU : universe (big c) U).
  Context (G : group) (vs : list value) (HG : in_U U G) (HF : Forall2 fits G vs) (Hv : valid (big c) U G = true) (Hk : known (big c) U G).
  Notation be := (big c).
  Lemma flood_contract n b : flooded be U G vs n b -> (N.of_nat n < 8388608)%N -> contract be U (bk_world b) (OpCreate G vs).
  Proof.
    intros Hb Hn. split; [done|]. split; [done|]. intros Hgv. split.
    - intros _. apply (created_known c U HU); try done. symmetry. by eapply Forall2_length.
    - pose proof (fl_crowd _ _ _ _ _ _ Hb) as Hc. change (vmap G vs) with (en_vals (created be U G vs)). by rewrite Hc.
  Qed.
  Lemma flood_log n m b : flooded be U G vs m b -> (N.of_nat (m + n) <= 8388608)%N ->
    within be U (repeat (OpCreate G vs) n) b /\ flooded be U G vs (m + n) (ref_run be U (repeat (OpCreate G vs) n) b).2 /\
    (ref_run be U (repeat (OpCreate G vs) n) b).1 = map (fun k => OutCreate (Ok (256 * N.of_nat k)%N)) (seq m n) /\
    run_peaks be U (repeat (OpCreate G vs) n) b (match m with O => [] | _ => [m] end) = match m + n with O => [] | _ => [m + n] end.
  Proof.
    revert m b. induction n as [|n IH]; intros m b Hb Hn; cbn [repeat]; [rewrite Nat.add_0_r; done|].
    destruct (flood_step (dbg c) be U HU G vs HG HF Hv m b Hb) as (_&b'&Er&Hb'); [lia|].
    specialize (IH (S m) b' Hb'). rewrite Nat.add_succ_comm in IH. specialize (IH Hn). destruct IH as (H1&H2&H3&H4).
    cbn [within ref_run run_peaks seq map]. rewrite Er. cbn [fst snd]. destruct (ref_run be U (repeat (OpCreate G vs) n) b') as [outs b2]. cbn [fst snd] in *.
    split; [split; [apply (flood_contract m); [done|lia]|done]|]. split; [done|]. split; [by rewrite H3|].
    rewrite <- H4. f_equal. rewrite (fl_sheets _ _ _ _ _ _ Hb'). cbn [map]. destruct m as [|m]; cbn [raise map sh_ents]; unfold handles; rewrite map_length, seq_length; [done|].
    f_equal. lia.
  Qed.
  Lemma flood_width w n cap C : (32 <= w)%N -> 0 < n -> (N.of_nat n <= 8388608)%N -> fitting n cap -> C ∈ G ->
    ~ in_reach w (ct_size C * N.of_nat cap) (ct_align C) ->
    within be U (repeat (OpCreate G vs) n) book_empty /\
    (exists r, run c (repeat (OpCreate G vs) n) reg_default = Ret (map (fun k => OutCreate (Ok (256 * N.of_nat k)%N)) (seq 0 n)) r) /\
    w_run w c (repeat (OpCreate G vs) n) reg_default = UB.
  Proof.
    intros Hw H0 Hn Hfit HC Hno. destruct (flood_log n 0 book_empty) as (Hwi&Hfl&Ho&Hpk); [|done|].
    { destruct (flood (dbg c) be U HU G vs HG HF Hv Hk 0) as (_&b&[= <-]&Hb); [done|]. exact Hb. }
    cbn [Nat.add] in *. split; [done|]. split.
    - destruct (run_exact c U HU _ _ _ (booked_start c U) Hwi) as (r&E&_). exists r. by rewrite E, Ho.
    - destruct (run_contract c U HU w Hw _ Hwi) as [(Hs&_)|[_ E]]; [|done]. exfalso. apply Hno.
      pose proof (run_capacities c U HU _ Hwi) as Hcap. rewrite Hpk in Hcap. rewrite (fl_sheets _ _ _ _ _ _ Hfl) in Hs. revert Hs Hcap.
      generalize (run_log be U (repeat (OpCreate G vs) n) book_empty []).2 as caps. intros caps Hs Hcap. clear Hwi Hfl Ho Hpk. destruct n as [|n']; [lia|].
      revert Hs Hcap Hfit Hn. generalize (S n') as n. intros n Hs Hcap Hfit Hn.
      inversion Hs as [|s cap' ? ? Hs1 Hs2 Es Ec]; subst. inversion Hcap as [|? ? ? ? Hf1 _]; subst.
      assert (cap' = cap) as ->.
      { destruct Hf1 as (k1&E1&L1&M1), Hfit as (k2&E2&L2&M2). destruct (N.lt_trichotomy k1 k2) as [Hlt|[->|Hlt]]; [|lia|]; exfalso.
        - assert (2 ^ (k1 + 1) <= 2 ^ k2)%N by (apply N.pow_le_mono_r; lia). rewrite N.pow_add_r in *. change (2 ^ 1)%N with 2%N in *. destruct M2; lia.
        - assert (2 ^ (k2 + 1) <= 2 ^ k1)%N by (apply N.pow_le_mono_r; lia). rewrite N.pow_add_r in *. change (2 ^ 1)%N with 2%N in *. destruct M1; lia. }
      unfold sheet_in_reach, elements in Hs1. apply Forall_cons in Hs1 as [_ Hs1]. rewrite Forall_map in Hs1. apply (proj1 (Forall_forall _ _) Hs1 C).
      cbn [sh_types created en_vals]. apply elem_of_list_filter. split; [|by apply (in_U_elem _ _ _ HG)].
      apply (vmap_full G vs); [|symmetry; by eapply Forall2_length|apply elem_of_ids; eauto].
      pose proof Hv as Hx%(valid_iff c U HU G HG). apply Hx.
  Qed.
End flood32.
