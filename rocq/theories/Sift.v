(** Proofs for C63: filter closures with a state that may panic. *)
From Verif Require Import RegModel SpecTrace SpecEntity EntityProofs EntityTable SearchProofs DescrProofs MonadProofs ArchProofs ArchOps ArchOps2 ArchOps3 AregProofs IterProofs
  RegProofs RegOps RegOps2 RegOps3 RegIter RegMut RegExact Refine Ref Sizes Observe Bytes3 Codes Lazy SiftModel SpecBase SpecWorld SpecRef SpecCode SpecLazy SpecSift.
Local Open Scope nat_scope.

(** ** [sift] *)
Lemma sift_app {St X} (f : closure St) l2 : forall (l1 : list (adesc * X)) s,
  sift f s (l1 ++ l2) = match (sift f s l1).1.1 with
    | Done => sift f (sift f s l1).2 l2
    | t => (t, (sift f s l1).1.2 ++ l2, (sift f s l1).2)
    end.
Proof. induction l1 as [|x l1 IH]; intros s; cbn [app sift fst snd]; [done|]. destruct (f x.1 s) as [[] s'|s']; [done|apply IH|done]. Qed.
Definition turn_map {X Y} (g : X -> Y) (t : turn X) : turn Y := match t with Item x => Item (g x) | Done => Done | Crashed => Crashed end.
Lemma sift_map {St X Y} (f : closure St) (g : X -> Y) : forall (l : list (adesc * X)) s,
  let x := sift f s l in sift f s (map (fun y => (y.1, g y.2)) l) = (turn_map g x.1.1, map (fun y => (y.1, g y.2)) x.1.2, x.2).
Proof. induction l as [|x l IH]; intros s; cbn [map sift fst snd]; [done|]. destruct (f x.1 s) as [[] s'|s']; [done|apply IH|done]. Qed.
(** What is left is a suffix; what is handed out stood just before it. *)
Lemma sift_split {St X} (f : closure St) : forall (l : list (adesc * X)) s,
  match sift f s l with
  | (Item x, rest, _) => exists pre d, l = pre ++ (d, x) :: rest
  | (Done, rest, _) => rest = []
  | (Crashed, rest, _) => exists pre, l = pre ++ rest
  end.
Proof.
  induction l as [|y l IH]; intros s; cbn [sift]; [done|]. destruct (f y.1 s) as [[] s'|s'].
  - exists [], y.1. by destruct y.
  - specialize (IH s'). destruct (sift f s' l) as [[[x| |] rest] s2]; [|done|].
    + destruct IH as (pre&d&->). by exists (y :: pre), d.
    + destruct IH as (pre&->). by exists (y :: pre).
  - by exists [y].
Qed.

(** ** One call of [next] *)
Definition desc_at (ar : areg) (i : nat) : adesc := match ar_archs ar !! i with Some a => a_desc a | None => ad_INVALID end.
Definition offered (ar : areg) (V : list nat) : list (adesc * nat) := map (fun i => (desc_at ar i, i)) V.
Section next.
  Context {St : Type} (c : cfg) (G : group) (f : closure St) (ar : areg) (Hinv : areg_inv ar).
  Notation accept := (accept_matching (big c) G).
  Notation left st := (filter (acc ar accept) (indices ar st)).
  Lemma f_scan_level_spec keys : forall idx s, (forall k, k ∈ keys -> is_Some (ar_archs ar !! k_idx k)) ->
    exists t n s', f_scan_level c G f (ar_archs ar) keys idx s = Rd (t, idx + n, s') /\
      sift f s (offered ar (filter (acc ar accept) (map k_idx keys))) =
        (t, match t with Done => [] | _ => offered ar (filter (acc ar accept) (map k_idx (drop n keys))) end, s') /\
      match t with Item i => acc ar accept i | _ => True end.
  Proof.
    induction keys as [|k keys IH]; intros idx s Hk.
    - exists Done, 0, s. by rewrite Nat.add_0_r.
    - cbn [f_scan_level map]. destruct (Hk k (elem_of_list_here _ _)) as [a Ha]. rewrite Ha, filter_cons.
      assert (Hk' : forall k', k' ∈ keys -> is_Some (ar_archs ar !! k_idx k')) by (intros; apply Hk; by right).
      destruct (ad_contains_subset _ _) eqn:Ea.
      + assert (Hac : acc ar accept (k_idx k)) by (by exists a). rewrite decide_True by done. cbn [offered map sift fst snd].
        assert (desc_at ar (k_idx k) = a_desc a) as -> by (unfold desc_at; by rewrite Ha). destruct (f (a_desc a) s) as [[] s'|s'].
        * exists (Item (k_idx k)), 1, s'. by rewrite Nat.add_1_r.
        * destruct (IH (S idx) s' Hk') as (t&n&s2&E&H1&H2). exists t, (S n), s2. rewrite E, Nat.add_succ_r. done.
        * exists Crashed, 1, s'. by rewrite Nat.add_1_r.
      + destruct (IH (S idx) s Hk') as (t&n&s'&E&H1&H2). exists t, (S n), s'. rewrite E, Nat.add_succ_r. split; [done|].
        rewrite decide_False; [done|]. intros (b&Hb&Hx). unfold accept_matching in Hx. rewrite Ha in Hb. injection Hb as <-. by rewrite Hx in Ea.
  Qed.
  Lemma f_scan_levels_spec fuel : forall st s, it_level st + fuel = 14 ->
    exists t st' s', f_scan_levels c G f ar fuel st s = Rd (t, st', s') /\ it_level st' <= 14 /\
      sift f s (offered ar (left st)) = (t, offered ar (left st'), s') /\ match t with Item i => acc ar accept i | Done => it_level st' = 14 | Crashed => True end.
  Proof.
    induction fuel as [|fuel IH]; intros st s Hf.
    - exists Done, st, s. cbn. split; [done|]. split; [lia|]. destruct st as [lvl idx]. cbn in Hf. replace lvl with 14 by lia. by rewrite indices_end.
    - cbn [f_scan_levels]. destruct (lookup_lt_is_Some_2 (ar_maps ar) (it_level st)) as [keys Hk]. { rewrite (ai_levels _ Hinv). lia. }
      rewrite Hk. destruct (f_scan_level_spec (drop (it_idx st) keys) (it_idx st) s) as (t&n&s'&E&H1&H2).
      { intros k Hin. eapply level_keys; [exact Hinv|exact Hk|]. rewrite <- (take_drop (it_idx st) keys). apply elem_of_app. by right. }
      rewrite E. cbn [rbind fst snd].
      assert (Hi : indices ar st = map k_idx (drop (it_idx st) keys) ++ map k_idx (concat (drop (S (it_level st)) (ar_maps ar)))).
      { unfold indices. by rewrite Hk, map_app. }
      assert (Ho : offered ar (left st) = offered ar (filter (acc ar accept) (map k_idx (drop (it_idx st) keys))) ++
        offered ar (filter (acc ar accept) (indices ar (ItSt (S (it_level st)) 0)))).
      { rewrite Hi, filter_app. unfold offered. rewrite map_app. by rewrite indices_next. }
      assert (Hrest : offered ar (filter (acc ar accept) (map k_idx (drop n (drop (it_idx st) keys)))) ++ offered ar (filter (acc ar accept) (indices ar (ItSt (S (it_level st)) 0)))
        = offered ar (left (ItSt (it_level st) (it_idx st + n)))).
      { unfold offered. rewrite <- map_app, <- filter_app, indices_next, <- map_app, drop_drop. unfold indices. cbn [it_level it_idx]. by rewrite Hk. }
      rewrite Ho, sift_app, H1. cbn [fst snd]. destruct t as [i| |].
      + exists (Item i), (ItSt (it_level st) (it_idx st + n)), s'. split; [done|]. split; [cbn; lia|]. by rewrite Hrest.
      + destruct (IH (ItSt (S (it_level st)) 0) s') as (t&st'&s2&E'&Hl&H'&H3); [cbn; lia|]. by exists t, st', s2.
      + exists Crashed, (ItSt (it_level st) (it_idx st + n)), s'. split; [done|]. split; [cbn; lia|]. by rewrite Hrest.
  Qed.
  Lemma f_next_spec {X} (item : nat -> arch -> rd X) (g : nat -> X) st s : gd_is_valid (group_desc (big c) G) = true -> it_level st <= 14 ->
    (forall i a, ar_archs ar !! i = Some a -> accept (a_desc a) = true -> item i a = Rd (g i)) ->
    exists t st' s', f_next c G f item ar st s = Rd (turn_map g t, st', s') /\ it_level st' <= 14 /\
      sift f s (offered ar (left st)) = (t, offered ar (left st'), s').
  Proof.
    intros Hv Hl Hitem. destruct (f_scan_levels_spec (14 - it_level st) st s) as (t&st'&s'&E&Hl'&H1&H2); [lia|].
    exists t, st', s'. split; [|done]. unfold f_next, f_arch_next. rewrite Hv. cbn [negb]. unfold MAX_COMPONENTS_PER_ENTITY. rewrite E. cbn [rbind fst snd].
    destruct t as [i| |]; cbn [turn_map]; [|done|done]. destruct H2 as (a&Ha&Hx). by rewrite Ha, (Hitem _ _ Ha Hx).
  Qed.
  Lemma pull_spec {X} (item : nat -> arch -> rd X) (g : nat -> X) n : gd_is_valid (group_desc (big c) G) = true ->
    (forall i a, ar_archs ar !! i = Some a -> accept (a_desc a) = true -> item i a = Rd (g i)) ->
    forall st s, it_level st <= 14 -> pull (f_next c G f item ar) n st s = Rd (sifts f n s (map (fun y => (y.1, g y.2)) (offered ar (left st)))).
  Proof.
    intros Hv Hitem. induction n as [|n IH]; intros st s Hl; [done|]. cbn [pull sifts].
    destruct (f_next_spec item g st s Hv Hl Hitem) as (t&st'&s'&E&Hl'&H). rewrite E. cbn [rbind fst snd]. rewrite (IH _ _ Hl'). cbn [rbind].
    rewrite sift_map. cbn zeta. rewrite H. cbn [fst snd]. by destruct (sifts _ _ _ _).
  Qed.
End next.

(** ** Clients *)
Lemma sublist_elem {A} (l k : list A) x : sublist l k -> x ∈ l -> x ∈ k.
Proof. induction 1; rewrite ?elem_of_cons; naive_solver. Qed.
Lemma sublist_NoDup {A} (l k : list A) : NoDup k -> sublist l k -> NoDup l.
Proof.
  intros Hn H. induction H as [|x l k H IH|x l k H IH]; [done|..]; apply NoDup_cons in Hn as [Hx Hn]; [|by apply IH].
  apply NoDup_cons. split; [|by apply IH]. intros Hi. apply Hx. by eapply sublist_elem.
Qed.
Definition turn_rel {X Y} (R : X -> Y -> Prop) (t : turn X) (u : turn Y) : Prop :=
  match t, u with Item x, Item y => R x y | Done, Done => True | Crashed, Crashed => True | _, _ => False end.
Lemma sift_rel {St X Y} (f : closure St) (R : X -> Y -> Prop) : forall (l : list (adesc * X)) (l' : list (adesc * Y)) s,
  Forall2 (fun x y => x.1 = y.1 /\ R x.2 y.2) l l' -> let x := sift f s l in let y := sift f s l' in
  x.2 = y.2 /\ turn_rel R x.1.1 y.1.1 /\ Forall2 (fun x y => x.1 = y.1 /\ R x.2 y.2) x.1.2 y.1.2.
Proof.
  intros l l' s H. revert s. induction H as [|x y l l' [E Hr] H IH]; intros s; cbn [sift fst snd].
  - split; [done|]. split; [done|constructor].
  - rewrite <- E. destruct (f x.1 s) as [[] s'|s']; [by cbn|apply IH|by cbn].
Qed.
Lemma offered_snd ar V : map snd (offered ar V) = V.
Proof. unfold offered. rewrite map_map. cbn. apply map_id. Qed.
Lemma keys_offered r r' V : same_keys r r' -> offered (r_ar r') V = offered (r_ar r) V.
Proof.
  intros [_ E]. unfold offered. apply map_ext. intros i. f_equal. unfold desc_at. specialize (E i).
  destruct (ar_archs (r_ar r') !! i), (ar_archs (r_ar r) !! i); try done. by injection E.
Qed.

Section sift.
  Context {Fm : family} (c : cfg) (U : list ctype) (HU : universe (big c) U).
  Notation be := (big c).
  Implicit Types (T : list tab) (w : world).

  Section iterator.
    Context {St O : Type} (G : group) (f : closure St) (shown : list N -> O) (next : areg -> itst -> St -> rd (turn (O * list (list loc)) * itst * St)).
    Notation accept := (accept_matching be G).
    Notation left r st := (filter (acc (r_ar r) accept) (indices (r_ar r) st)).
    Context (Hnext : forall r T w st s, reg_ok be U r T w -> it_level st <= 14 ->
      exists t st' s', next (r_ar r) st s = Rd (turn_map (fun i => (shown (item_at T G i).1, slots_at T G i)) t, st', s') /\ it_level st' <= 14 /\
        sift f s (offered (r_ar r) (left r st)) = (t, offered (r_ar r) (left r st'), s')).
    Context (T0 : list tab).
    Notation es := (fun i => (item_at T0 G i).1).
    Notation them V := (concat (map (owners G) (map es V))).
    Definition known_item w (i : nat) (it : list N * list (list value)) : Prop := it.1 = es i /\ Forall2 (has w) (owners G it.1) (concat it.2).

    Lemma sift_ok cd : forall st s ls who vs V offers r T w Inn Out,
      history c U r w Inn Out -> reg_ok be U r T w -> skel T = skel T0 -> it_level st <= 14 -> left r st = V ->
      Forall2 (points (skel T0)) ls who -> NoDup (who ++ them V) ->
      (forall i, i ∈ V -> Forall2 (points (skel T0)) (concat (slots_at T0 G i)) (owners G (es i))) ->
      Forall2 (has w) who vs -> Forall2 (fun x y => x.1 = y.1 /\ known_item w x.2 y.2) (offered (r_ar r) V) offers ->
      typed_fcode shown G (map snd who) cd -> exists r', let x := on_offers f shown G s who vs offers cd in
        serve_sift next st s ls cd r = Ret (af_seen x, af_state x) r' /\
        (exists more, af_who x = who ++ more /\ sublist more (them V) /\ length (af_vals x) = length (af_who x)) /\
        run c (af_ops x) r = Ret (map (fun v => OutVal (Some v)) (f_got_out (af_seen x))) r' /\
        history c U r' (put_all (af_who x) (af_vals x) w) (Inn ++ f_put_in (af_seen x)) (Out ++ f_got_out (af_seen x)).
    Proof.
      induction cd as [|k IH|p k IH|p v k IH]; intros st s ls who vs V offers r T w Inn Out Hh H HS Hst HV Hps Hnd Hsl Hvs Hoff Ht.
      - exists r. cbn [serve_sift on_offers af_seen af_ops af_who af_vals af_state f_put_in f_got_out omap list_omap map run]. split; [done|]. split.
        { exists []. rewrite app_nil_r. split; [done|]. split; [apply sublist_nil_l|]. symmetry. by eapply Forall2_length. }
        split; [done|]. rewrite !app_nil_r. by rewrite put_all_same.
      - cbn [typed_fcode] in Ht. destruct Ht as (Ht0&Ht1&Ht2). destruct (Hnext r T w st s H Hst) as (t&st'&s'&En&Hst'&Es). rewrite HV in Es.
        destruct (sift_rel f (known_item w) _ _ s Hoff) as (E1&E2&E3). pose proof (sift_split f (offered (r_ar r) V) s) as Hsp.
        rewrite Es in E1, E2, E3, Hsp. cbn [fst snd] in E1, E2, E3. cbn [serve_sift on_offers].
        destruct (sift f s offers) as [[u offers'] s2] eqn:Eo. cbn [fst snd] in E1, E2, E3 |- *. subst s2.
        rewrite (bind_Ret _ _ _ _ _ (rm_rd_Rd (fun s0 => next (r_ar s0) st s) r _ En)). cbn beta iota.
        assert (Hsub : sublist (left r st') V).
        { rewrite <- (offered_snd (r_ar r) V). destruct t as [i| |].
          - destruct Hsp as (pre&d&->). rewrite map_app. cbn [map]. rewrite offered_snd. apply sublist_inserts_l. by constructor.
          - apply (f_equal (map snd)) in Hsp. rewrite offered_snd in Hsp. rewrite Hsp. apply sublist_nil_l.
          - destruct Hsp as (pre&->). rewrite map_app, offered_snd. by apply sublist_inserts_l. }
        assert (Hthem : sublist (them (left r st')) (them V)).
        { clear -Hsub. induction Hsub; cbn [map concat]; [constructor|by apply sublist_app|by apply sublist_inserts_l]. }
        assert (Hsl' : forall i, i ∈ left r st' -> Forall2 (points (skel T0)) (concat (slots_at T0 G i)) (owners G (es i))).
        { intros i Hi. apply Hsl. by eapply sublist_elem. }
        destruct t as [i| |], u as [it| |]; try done; cbn [turn_map fst snd].
        + destruct E2 as [Eit Hit]. destruct Hsp as (pre&d&Ep).
          assert (EV : V = map snd pre ++ i :: left r st'). { apply (f_equal (map snd)) in Ep. by rewrite map_app in Ep; cbn [map] in Ep; rewrite !offered_snd in Ep. }
          destruct (skel_item T0 T G i HS) as [Ee Esl].
          assert (Hi : i ∈ V). { rewrite EV, elem_of_app. right. by left. }
          assert (Hown : sublist (owners G (es i) ++ them (left r st')) (them V)).
          { rewrite EV, map_app, map_app, concat_app. cbn [map concat]. by apply sublist_inserts_l. }
          destruct (IH (Item (shown it.1)) st' s' (ls ++ concat (slots_at T0 G i)) (who ++ owners G it.1) (vs ++ concat it.2) (left r st') offers' r T w Inn Out)
            as (r'&F1&(more&M1&M2&M3)&F3&F2); try done.
          { apply Forall2_app; [done|]. rewrite Eit. by apply Hsl. }
          { rewrite Eit, <- app_assoc. eapply sublist_NoDup; [exact Hnd|]. by apply sublist_app. }
          { by apply Forall2_app. }
          { rewrite map_app, owners_types. apply Ht2. }
          exists r'. cbn [saw af_seen af_ops af_who af_vals af_state f_put_in f_got_out omap list_omap app]. split; [|split; [|split; [exact F3|exact F2]]].
          * rewrite Ee, Esl, <- Eit. by rewrite (bind_Ret _ _ _ _ _ F1).
          * exists (owners G it.1 ++ more). rewrite M1, app_assoc. split; [done|]. split; [|by rewrite <- M1].
            etrans; [|exact Hown]. rewrite Eit. by apply sublist_app.
        + destruct (IH Done st' s' ls who vs (left r st') offers' r T w Inn Out) as (r'&F1&(more&M1&M2&M3)&F3&F2); try done.
          { eapply sublist_NoDup; [exact Hnd|]. by apply sublist_app. }
          exists r'. cbn [saw af_seen af_ops af_who af_vals af_state f_put_in f_got_out omap list_omap app]. split; [by rewrite (bind_Ret _ _ _ _ _ F1)|split; [|split; [exact F3|exact F2]]].
          exists more. split; [done|]. split; [|done]. by etrans.
        + destruct (IH Crashed st' s' ls who vs (left r st') offers' r T w Inn Out) as (r'&F1&(more&M1&M2&M3)&F3&F2); try done.
          { eapply sublist_NoDup; [exact Hnd|]. by apply sublist_app. }
          exists r'. cbn [saw af_seen af_ops af_who af_vals af_state f_put_in f_got_out omap list_omap app]. split; [by rewrite (bind_Ret _ _ _ _ _ F1)|split; [|split; [exact F3|exact F2]]].
          exists more. split; [done|]. split; [|done]. by etrans.
      - cbn [typed_fcode] in Ht; destruct Ht as (C&HC&Ht); change (map snd who) with (snd <$> who) in HC; rewrite list_lookup_fmap in HC.
        destruct (who !! p) as [x|] eqn:Hx; [|done]. injection HC as <-.
        destruct (Forall2_lookup_r _ _ _ _ _ Hps Hx) as (l&Hl&Hp). destruct (Forall2_lookup_l _ _ _ _ _ Hvs Hx) as (old&Ho&Hold).
        rewrite <- HS in Hp. destruct (point_look c U HU _ _ _ _ _ _ H Hp Hold) as [El Hfo].
        destruct (IH old st s ls who vs V offers r T w Inn Out) as (r'&F1&F4&F3&F2); try done; [by apply Ht|].
        exists r'. cbn [serve_sift on_offers]. rewrite Hl, Ho. cbn [saw af_seen af_ops af_who af_vals af_state f_put_in f_got_out omap list_omap app].
        split; [|split; [exact F4|split; [exact F3|exact F2]]]. by rewrite (bind_Ret _ _ _ _ _ El), (bind_Ret _ _ _ _ _ F1).
      - cbn [typed_fcode] in Ht; destruct Ht as (C&HC&Hfv&Ht); change (map snd who) with (snd <$> who) in HC; rewrite list_lookup_fmap in HC.
        destruct (who !! p) as [x|] eqn:Hx; [|done]. injection HC as <-.
        destruct (Forall2_lookup_r _ _ _ _ _ Hps Hx) as (l&Hl&Hp). destruct (Forall2_lookup_l _ _ _ _ _ Hvs Hx) as (old&Ho&Hold).
        rewrite <- HS in Hp. destruct (point_look c U HU _ _ _ _ _ _ H Hp Hold) as [_ Hfo].
        destruct (point_set c U HU _ _ _ _ _ _ _ H Hp Hold Hfv) as (r1&T1&Er&Es&H1&HS1).
        destruct (point_row c U HU _ _ _ _ _ H Hp) as (?&?&?&?&?&?&_&_&_&_&_&_&_&Hw&_).
        assert (Hk : NoDup (map key (who ++ them V))).
        { assert (Hpr : Forall2 (points (skel T0)) (concat (concat (map (slots_at T0 G) V))) (them V)).
          { clear -Hsl. induction V as [|j V IH]; cbn [map concat]; [constructor|]. rewrite concat_app. apply Forall2_app; [apply Hsl; by left|].
            apply IH. intros j' Hj. apply Hsl. by right. }
          apply (key_inj c U HU); [|done]. pose proof (Forall2_app Hps Hpr) as Hall. intros y [q Hq]%elem_of_list_lookup.
          destruct (Forall2_lookup_r _ _ _ _ _ Hall Hq) as (lq&_&Hpq). rewrite <- HS in Hpq.
          by destruct (point_row c U HU _ _ _ _ _ H Hpq) as (_&_&_&_&_&_&_&_&_&_&_&_&_&_&?&_). }
        assert (Hh1 : history c U r1 (put1 x v w) (Inn ++ [v]) (Out ++ [old])).
        { assert (Hc : contract be U w (OpSet x.2 x.1 v)).
          { split; [|done]. by destruct (point_row c U HU _ _ _ _ _ H Hp) as (_&_&_&_&_&_&_&_&_&_&_&_&_&_&?&_). }
          exact (h_call _ _ _ _ _ _ _ _ _ Hh Hc Es). }
        assert (Hsk : same_keys r r1) by (by eapply replace_keys).
        destruct (IH old st s ls who (<[p := v]> vs) V offers r1 T1 (put1 x v w) (Inn ++ [v]) (Out ++ [old])) as (r'&F1&(more&M1&M2&M3)&F3&F2); try done.
        { by rewrite HS1. }
        { by rewrite (keys_filter r r1). }
        { rewrite map_app in Hk. apply NoDup_app in Hk as [Hk _]. by apply values_put1. }
        { rewrite (keys_offered r r1) by done. rewrite map_app in Hk. apply NoDup_app in Hk as (_&Hk&_). clear -Hoff Hk Hx.
          assert (Hxk : key x ∈ map key who). { change (map key who) with (key <$> who). apply elem_of_list_fmap. exists x. split; [done|]. by eapply elem_of_list_lookup_2. }
          specialize (Hk _ Hxk). clear Hx Hxk. revert offers Hoff. induction V as [|i V IH]; intros offers Hoff; inversion Hoff as [|? y ? offers1 (E0&E&Hit) Hr]; subst; [constructor|].
          cbn [map concat] in Hk. cbn [fst snd] in *. constructor.
          - split; [done|]. split; [done|]. cbn [snd]. rewrite <- E, map_app in Hk. rewrite elem_of_app in Hk.
            assert (Hk1 : key x ∉ map key (owners G y.2.1)) by naive_solver. clear -Hk1 Hit. induction Hit as [|y' u ys us Hyu Hr IH]; constructor.
            + unfold has. rewrite put1_value. destruct (decide _) as [[E1 E2]|_]; [|exact Hyu]. exfalso. apply Hk1. assert (key x = key y') as -> by (unfold key; by rewrite E1, E2). cbn [map]. by left.
            + apply IH. intros F. apply Hk1. cbn [map]. by right.
          - apply IH; [|done]. intros F. apply Hk. rewrite map_app, elem_of_app. by right. }
        { by apply Ht. }
        exists r'. cbn [serve_sift on_offers]. rewrite Hl, Ho, Hx. cbn [saw af_seen af_ops af_who af_vals af_state f_put_in f_got_out omap list_omap app map run]. split; [|split; [|split]].
        + by rewrite (bind_Ret _ _ _ _ _ Er), (bind_Ret _ _ _ _ _ F1).
        + by exists more.
        + by rewrite (bind_Ret _ _ _ _ _ Es), (bind_Ret _ _ _ _ _ F3).
        + rewrite <- !app_assoc in F2. rewrite (put_all_absorb _ p) in F2; [exact F2| |done|].
          * rewrite M1. eapply sublist_NoDup; [exact Hk|]. change (map key ?l) with (key <$> l). apply fmap_sublist. by apply sublist_app.
          * rewrite M1, lookup_app_l; [done|]. by eapply lookup_lt_Some.
    Qed.
  End iterator.

  Lemma sift_all r w Inn Out G : history c U r w Inn Out -> in_U U G -> gvalid be G ->
    exists offers, iter_entity_components_matching c G r = Rd (Some (map snd offers)) /\ visits w (matching G) G (map snd offers) /\
      Forall (described U w G) offers /\ NoDup (map (fun x : adesc * (list N * list (list value)) => (ad_id x.1, ad_len x.1)) offers) /\
      (forall p, iter_filtered_entity_components_matching c G p r = Rd (Some (map snd (filter (fun x => p x.1 = true) offers)))) /\
      forall (St : Type) (f : closure St),
        sift_like_list c U r w Inn Out G (f_next_entity_matching_mut c G f) f id offers /\
        sift_like_list c U r w Inn Out G (f_next_matching_mut c G f) f length offers /\
        forall n s, pulls c G (f_next_entity_matching c G f) n s r = Rd (sifts f n s offers) /\
          pulls c G (f_next_matching c G f) n s r = Rd (sifts f n s (map (fun x => (x.1, x.2.2)) offers)).
  Proof.
    intros Hh HG Hv. pose proof (matching_accepts c U HU G HG Hv) as Hacc.
    destruct (history_ok c U HU _ _ _ _ Hh) as (T&D&H&_). assert (Hgv : gd_is_valid (group_desc be G) = true) by (by apply gvalid_iff).
    destruct (collects c U r T w H G Hv _ Hacc) as (_&E0&_). pose proof (covers_V c U r T w H G Hv _ Hacc _ (matching_P c U HU G HG Hv)) as Hc.
    destruct (covers_like c U HU r T w _ G _ H HG Hv Hc) as [Hvis (T'&_&_&Hnd&_)]. clear T'.
    destruct (iter_new c G Hv) as [Enew Hlen]. set (V := visited c G (r_ar r) (accept_matching be G)) in *.
    set (offers := map (fun y => (y.1, item_at T G y.2)) (offered (r_ar r) V)).
    assert (Es : map snd offers = map (item_at T G) V). { unfold offers, offered. rewrite !map_map. done. }
    pose proof (ro_areg _ _ _ _ _ H) as Hinv.
    assert (HV : forall i, i ∈ V -> exists a t, ar_archs (r_ar r) !! i = Some a /\ T !! i = Some t /\ tab_ok be U a t /\ forall C, C ∈ G -> C ∈ t_cs t).
    { intros i Hi. pose proof (elem_V c U r T w H G Hv _ Hacc i) as [He _]. destruct (He Hi) as (a&Ha&Hx). destruct (ro_arch _ _ _ _ _ _ _ H Ha) as (t&Ht&Hta).
      exists a, t. split; [done|]. split; [done|]. split; [done|]. by eapply Hacc. }
    exists offers. rewrite Es. split; [exact E0|]. split; [exact Hvis|]. split; [|split; [|split]].
    { unfold offers, offered. rewrite map_map. cbn [fst snd]. apply Forall_map, Forall_forall. intros i Hi. destruct (HV i Hi) as (a&t&Ha&Ht&Hta&HGt).
      destruct (tab_facts _ _ _ _ Hta) as (Hd&_&_&_&Hl&_). pose proof Hta as (Hid&_). unfold described, desc_at. cbn [fst snd]. rewrite Ha. split.
      - intros C HC. rewrite (do_comps _ _ Hd). change (map cdesc_of ?l) with (cdesc_of <$> l). apply elem_of_list_fmap. exists C. split; [done|]. by apply HGt.
      - intros h Hh1. unfold item_at, rows_at in Hh1. cbn [fst] in Hh1. rewrite Ht in Hh1. change (map fst ?l) with (fst <$> l) in Hh1.
        apply elem_of_list_fmap in Hh1 as ([h' m]&->&Hm). cbn [fst]. exists (Ent (t_id t) m). split.
        { apply (ro_repr _ _ _ _ _ H). by exists i, t, m. }
        apply elem_of_list_lookup in Hm as [j Hj]. destruct (tab_row _ _ HU _ _ _ _ _ Hta Hj) as (_&_&Ety).
        unfold desc_of; cbn [en_vals en_aid]; rewrite Ety; cbn. split; [done|]. split; [done|].
        rewrite (do_comps _ _ Hd). unfold ad_components. cbn. rewrite take_app_alt; [done|]. by rewrite map_length. }
    { unfold offers, offered. rewrite !map_map. cbn [fst snd]. assert (Hn : NoDup V) by (by apply visited_NoDup).
      change (map ?g V) with (g <$> V). apply NoDup_alt. intros p q y Hp Hq. rewrite list_lookup_fmap in Hp, Hq.
      destruct (V !! p) as [i|] eqn:Ei; [|done]. destruct (V !! q) as [j|] eqn:Ej; [|done]. cbn in Hp, Hq. rewrite <- Hq in Hp.
      destruct (HV i (elem_of_list_lookup_2 _ _ _ Ei)) as (a&_&Ha&_). destruct (HV j (elem_of_list_lookup_2 _ _ _ Ej)) as (b&_&Hb&_).
      unfold desc_at in Hp. rewrite Ha, Hb in Hp. injection Hp as Hid Hln. assert (i = j) as ->; [|by eapply NoDup_lookup].
      eapply (is_arch_unique _ i j (a_desc b) Hinv); [by exists a|by exists b]. }
    { intros p. destruct (collects c U r T w H G Hv _ (filtered_accepts c U HU G p HG Hv)) as (_&Ef&_).
        unfold iter_filtered_entity_components_matching. rewrite Ef. do 2 f_equal. unfold offers, offered. rewrite map_map. cbn [fst snd]. unfold V, visited.
        generalize (indices (r_ar r) (ItSt (glen c G - 1) 0)). intros l. induction l as [|i l IH]; [done|]. rewrite !filter_cons.
        destruct (decide (acc (r_ar r) (accept_filtered be G p) i)) as [(a&Ha&Hx)|Hna].
        * apply andb_true_iff in Hx as [Hx1 Hx2]. rewrite decide_True by (by exists a). cbn [map]. rewrite filter_cons. cbn [fst snd].
          rewrite decide_True by (unfold desc_at; by rewrite Ha). cbn [map snd]. by f_equal.
        * destruct (decide (acc (r_ar r) (accept_matching be G) i)) as [(a&Ha&Hx)|_]; [|done]. cbn [map]. rewrite filter_cons. cbn [fst snd].
          rewrite decide_False; [done|]. unfold desc_at. rewrite Ha. intros Hp. apply Hna. exists a. split; [done|]. apply andb_true_iff. by split. }
    intros St f.
    assert (Hitems : forall r1 T1 w1 i a, reg_ok be U r1 T1 w1 -> ar_archs (r_ar r1) !! i = Some a -> accept_matching be G (a_desc a) = true ->
      get_fuzzy_slices c G a = Rd (item_at T1 G i).2 /\ get_entity_fuzzy_slices c G a = Rd (item_at T1 G i) /\
      (letr cols := get_fuzzy_slices_mut c G a in Rd (slice_len cols, locate i cols)) = Rd (length (item_at T1 G i).1, slots_at T1 G i) /\
      (letr x := get_entity_fuzzy_slices_mut c G a in Rd (x.1, locate i x.2)) = Rd ((item_at T1 G i).1, slots_at T1 G i)).
    { intros r1 T1 w1 i a H1 Ha Hx. destruct (slices_are c U r1 T1 w1 H1 G Hv _ Hacc i a Ha Hx) as (E1&E2&E3&E4).
      split; [done|]. split; [done|]. split; [|done]. by apply (plain_item c U r1 T1 w1 H1 G Hv _ Hacc). }
    assert (Hgen : forall (O : Type) (shown : list N -> O) (item : nat -> arch -> rd (O * list (list loc))),
      (forall r1 T1 w1 i a, reg_ok be U r1 T1 w1 -> ar_archs (r_ar r1) !! i = Some a -> accept_matching be G (a_desc a) = true ->
         item i a = Rd (shown (item_at T1 G i).1, slots_at T1 G i)) ->
      sift_like_list c U r w Inn Out G (f_next c G f item) f shown offers).
    { intros O shown item Hitem s cd Ht.
      destruct (sift_ok G f shown (f_next c G f item)) with (T0 := T) (cd := cd) (st := ItSt (glen c G - 1) 0) (s := s) (ls := @nil loc) (who := @nil (N * ctype)) (vs := @nil value)
        (V := V) (offers := offers) (r := r) (T := T) (w := w) (Inn := Inn) (Out := Out) as (r'&E1&(more&M1&M2&M3)&E3&E2); try done.
      - intros r1 T1 w1 st s1 H1 Hst. eapply (f_next_spec c G f (r_ar r1) (ro_areg _ _ _ _ _ H1) item); [done|done|]. intros i a Ha Hx. by eapply Hitem.
      - cbn. lia.
      - cbn [app]. by rewrite (map_map _ fst) in Hnd.
      - intros i Hi. destruct (cv_tab _ _ _ _ Hc i Hi) as (t&Ei&HGt). by eapply slots_points.
      - unfold offers. change (map ?g (offered (r_ar r) V)) with (g <$> offered (r_ar r) V). apply Forall2_fmap_r, Forall_Forall2_diag, Forall_forall. intros [d i] Hi. split; [done|]. cbn [fst snd].
        split; [done|]. assert (HiV : i ∈ V). { rewrite <- (offered_snd (r_ar r) V). change (map snd ?l) with (snd <$> l). apply elem_of_list_fmap. by exists (d, i). }
        destruct Hvis as (_&_&Hvis). rewrite Forall_forall in Hvis. assert (Hin : item_at T G i ∈ map (item_at T G) V).
        { change (map ?f ?l) with (f <$> l). apply elem_of_list_fmap. by exists i. }
        specialize (Hvis _ Hin). clear -Hvis. unfold item_at in Hvis |- *. cbn [fst snd] in Hvis |- *. unfold owners.
        induction Hvis as [|C col G' cols Hcc H IH]; cbn [map concat]; [constructor|]. apply Forall2_app; [|done].
        clear -Hcc. induction Hcc; cbn [map]; by constructor.
      - exists r'. cbn zeta in *. unfold sifting. rewrite (bind_Ret _ _ _ _ _ (lift_Rd _ _ _ Enew)). split; [exact E1|]. split; [|split; [exact E3|exact E2]].
        rewrite M1. cbn [app]. eapply sublist_NoDup; [|exact M2]. by rewrite (map_map _ fst) in Hnd. }
    split; [|split].
    - apply Hgen. intros r1 T1 w1 i a H1 Ha Hx. by destruct (Hitems _ _ _ _ _ H1 Ha Hx) as (_&_&_&?).
    - apply Hgen. intros r1 T1 w1 i a H1 Ha Hx. by destruct (Hitems _ _ _ _ _ H1 Ha Hx) as (_&_&?&_).
    - intros n s. unfold pulls. rewrite Enew. cbn [rbind]. split.
      + apply (pull_spec c G f (r_ar r) Hinv _ (item_at T G)); [done| |cbn; lia]. intros i a Ha Hx. by destruct (Hitems _ _ _ _ _ H Ha Hx) as (_&?&_).
      + unfold offers. rewrite map_map. cbn [fst snd]. apply (pull_spec c G f (r_ar r) Hinv _ (fun i => (item_at T G i).2)); [done| |cbn; lia].
        intros i a Ha Hx. by destruct (Hitems _ _ _ _ _ H Ha Hx) as (?&_).
  Qed.
End sift.
