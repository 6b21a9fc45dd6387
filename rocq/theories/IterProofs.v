(** Proofs about the archetype iterators: which archetypes they yield, and in
    which order; that they terminate and stay exhausted. *)
From Verif Require Import RegModel SearchProofs DescrProofs MonadProofs AregProofs SpecBase.
Local Open Scope nat_scope.

Lemma elem_of_concat {A} (x : A) ls : x ∈ concat ls <-> exists l, x ∈ l /\ l ∈ ls.
Proof.
  rewrite elem_of_list_In, in_concat. split; intros (l&H1&H2); exists l; [|rewrite <- !elem_of_list_In; done].
  by rewrite !elem_of_list_In.
Qed.
Section iter.
  Context (ar : areg) (Hinv : areg_inv ar) (accept : adesc -> bool).
  Definition acc (i : nat) : Prop := exists a, ar_archs ar !! i = Some a /\ accept (a_desc a) = true.
  Global Instance acc_dec i : Decision (acc i).
  Proof.
    destruct (ar_archs ar !! i) as [a|] eqn:E; [|right; intros (?&?&_); congruence].
    destruct (accept (a_desc a)) eqn:Ea; [left; by exists a|right; intros (?&?&?); congruence].
  Defined.
  (** The archetypes an iterator in state [st] has still to look at. *)
  Definition indices (st : itst) : list nat :=
    map k_idx (drop (it_idx st) (default [] (ar_maps ar !! it_level st)) ++ concat (drop (S (it_level st)) (ar_maps ar))).

  Lemma scan_level_spec keys idx : (forall k, k ∈ keys -> is_Some (ar_archs ar !! k_idx k)) ->
    exists o n, scan_level (ar_archs ar) accept keys idx = Rd (o, idx + n) /\
      match o with
      | Some i => filter acc (map k_idx keys) = i :: filter acc (map k_idx (drop n keys)) /\ acc i
      | None => filter acc (map k_idx keys) = []
      end.
  Proof.
    revert idx. induction keys as [|k keys IH]; intros idx Hk.
    - exists None, 0. rewrite Nat.add_0_r. done.
    - cbn [scan_level map]. destruct (Hk k (elem_of_list_here _ _)) as [a Ha]. rewrite Ha. rewrite filter_cons.
      destruct (accept (a_desc a)) eqn:Ea.
      + exists (Some (k_idx k)), 1. rewrite Nat.add_1_r. split; [done|].
        assert (acc (k_idx k)) by (by exists a). rewrite decide_True by done. done.
      + destruct (IH (S idx)) as (o&n&E&H); [intros; apply Hk; by right|]. exists o, (S n).
        rewrite E, Nat.add_succ_r. split; [done|]. rewrite decide_False; [done|]. intros (?&?&?). congruence.
  Qed.
  Lemma level_keys lvl keys k : ar_maps ar !! lvl = Some keys -> k ∈ keys -> is_Some (ar_archs ar !! k_idx k).
  Proof. intros Hl Hk. destruct (ai_keys _ Hinv _ _ _ Hl Hk) as (a&Ha&_). by exists a. Qed.
  Lemma indices_next lvl : indices (ItSt (S lvl) 0) = map k_idx (concat (drop (S lvl) (ar_maps ar))).
  Proof.
    unfold indices. cbn [it_idx it_level]. rewrite drop_0. destruct (ar_maps ar !! S lvl) as [keys|] eqn:E.
    - by rewrite (drop_S _ _ _ E).
    - rewrite (drop_ge (ar_maps ar) (S lvl)) by (by apply lookup_ge_None in E). rewrite drop_ge; [done|]. apply lookup_ge_None in E. lia.
  Qed.
  Lemma indices_start lvl : indices (ItSt lvl 0) = map k_idx (concat (drop lvl (ar_maps ar))).
  Proof.
    unfold indices. cbn [it_idx it_level]. rewrite drop_0. destruct (ar_maps ar !! lvl) as [keys|] eqn:E.
    - by rewrite (drop_S _ _ _ E).
    - rewrite (drop_ge (ar_maps ar) lvl) by (by apply lookup_ge_None in E). rewrite drop_ge; [done|]. apply lookup_ge_None in E. lia.
  Qed.
  Lemma indices_end idx : indices (ItSt 14 idx) = [].
  Proof.
    unfold indices. cbn [it_idx it_level]. pose proof (ai_levels _ Hinv) as Hn. rewrite (lookup_ge_None_2 (ar_maps ar) 14) by lia.
    rewrite (drop_ge (ar_maps ar)) by lia. cbn [default]. by rewrite drop_nil.
  Qed.
  Lemma scan_levels_spec fuel st : it_level st + fuel = 14 ->
    exists o st', scan_levels ar accept fuel st = Rd (o, st') /\ it_level st' <= 14 /\
      match o with
      | Some i => filter acc (indices st) = i :: filter acc (indices st') /\ acc i
      | None => filter acc (indices st) = [] /\ it_level st' = 14
      end.
  Proof.
    revert st. induction fuel as [|fuel IH]; intros st Hf.
    - exists None, st. cbn. split; [done|]. split; [lia|]. destruct st as [lvl idx]. cbn in Hf. replace lvl with 14 by lia.
      by rewrite indices_end.
    - cbn [scan_levels]. destruct (lookup_lt_is_Some_2 (ar_maps ar) (it_level st)) as [keys Hk]. { rewrite (ai_levels _ Hinv). lia. }
      rewrite Hk. destruct (scan_level_spec (drop (it_idx st) keys) (it_idx st)) as (o&n&E&H).
      { intros k Hin. eapply level_keys; [exact Hk|]. rewrite <- (take_drop (it_idx st) keys). apply elem_of_app. by right. }
      rewrite E. cbn [rbind].
      assert (Hi : indices st = map k_idx (drop (it_idx st) keys) ++ map k_idx (concat (drop (S (it_level st)) (ar_maps ar)))).
      { unfold indices. by rewrite Hk, map_app. }
      destruct o as [i|].
      + exists (Some i), (ItSt (it_level st) (it_idx st + n)). split; [done|]. split; [cbn; lia|]. destruct H as [H Hacc]. split; [|done].
        rewrite Hi, filter_app, H. unfold indices. cbn [it_level it_idx]. rewrite Hk. cbn [default]. rewrite map_app, filter_app.
        by rewrite drop_drop.
      + destruct (IH (ItSt (S (it_level st)) 0)) as (o&st'&E'&Hl&H'); [cbn; lia|].
        exists o, st'. split; [done|]. split; [done|]. rewrite Hi, filter_app, H. cbn [app]. by rewrite <- indices_next.
  Qed.

  (** Every archetype with at least [S n] components is looked at once. *)
  Lemma indices_from n : NoDup (indices (ItSt n 0)) /\
    forall i, i ∈ indices (ItSt n 0) <-> exists a, ar_archs ar !! i = Some a /\ n < ad_len (a_desc a).
  Proof.
    rewrite indices_start.
    assert (Hmem : forall n i, i ∈ map k_idx (concat (drop n (ar_maps ar))) <-> exists a, ar_archs ar !! i = Some a /\ n < ad_len (a_desc a)).
    { clear n. intros n i. change (map k_idx ?l) with (k_idx <$> l). rewrite elem_of_list_fmap. split.
      - intros (k&->&Hk). apply elem_of_concat in Hk as (level&Hk&[lvl Hl]%elem_of_list_lookup).
        rewrite lookup_drop in Hl. destruct (ai_keys _ Hinv _ _ _ Hl Hk) as (a&Ha&_&Hlen). exists a. split; [done|lia].
      - intros (a&Ha&Hn). destruct (ai_arch _ Hinv _ _ Ha) as (Hlen&_&level&Hl&Hk). exists (AKey (ad_id (a_desc a)) i). split; [done|].
        apply elem_of_concat. exists level. split; [done|]. apply (elem_of_list_lookup_2 _ (ad_len (a_desc a) - 1 - n)).
        rewrite lookup_drop. by replace (n + (ad_len (a_desc a) - 1 - n)) with (ad_len (a_desc a) - 1) by lia. }
    split; [|apply Hmem].
    remember (14 - n) as f eqn:Ef. revert n Ef. induction f as [|f IH]; intros n Ef.
    - rewrite drop_ge by (rewrite (ai_levels _ Hinv); lia). constructor.
    - destruct (lookup_lt_is_Some_2 (ar_maps ar) n) as [keys Hk]; [rewrite (ai_levels _ Hinv); lia|].
      rewrite (drop_S _ _ _ Hk). cbn [concat]. rewrite map_app. apply NoDup_app. split; [|split; [|apply IH; lia]].
      + apply NoDup_alt. intros i j x Hi Hj. change (map k_idx keys) with (k_idx <$> keys) in *. rewrite list_lookup_fmap in Hi, Hj.
        destruct (keys !! i) as [k1|] eqn:E1; [|done]. destruct (keys !! j) as [k2|] eqn:E2; [|done]. cbn in Hi, Hj. injection Hi as Hi. injection Hj as Hj.
        destruct (ai_keys _ Hinv _ _ k1 Hk) as (a1&Ha1&Hid1&_); [by eapply elem_of_list_lookup_2|].
        destruct (ai_keys _ Hinv _ _ k2 Hk) as (a2&Ha2&Hid2&_); [by eapply elem_of_list_lookup_2|].
        rewrite Hj, <- Hi, Ha1 in Ha2. injection Ha2 as <-. pose proof (ai_strict _ Hinv _ _ Hk) as Hs.
        eapply (strict_lookup_inj _ _ _ _ Hs); [by apply key_of_level|]. rewrite <- Hid1, Hid2. by apply key_of_level.
      + intros i Hi Hi2. apply Hmem in Hi2 as (a&Ha&Hl). change (map k_idx keys) with (k_idx <$> keys) in Hi.
        apply elem_of_list_fmap in Hi as (k&->&Hki). destruct (ai_keys _ Hinv _ _ _ Hk Hki) as (a'&Ha'&_&Hl'). simplify_eq. lia.
  Qed.
End iter.

(** ** The component iterators *)
Section collect.
  Context (c : cfg) (G : group) (ar : areg) (Hinv : areg_inv ar) (accept : adesc -> bool).
  Definition glen : nat := gd_len (group_desc (big c) G).
  (** The archetypes visited, in order. *)
  Definition visited : list nat := filter (acc ar accept) (indices ar (ItSt (glen - 1) 0)).

  Lemma arch_iter_next_spec st : gd_is_valid (group_desc (big c) G) = true -> it_level st <= 14 ->
    exists o st', arch_iter_next c G accept ar st = Rd (o, st') /\ it_level st' <= 14 /\
      match o with
      | Some i => filter (acc ar accept) (indices ar st) = i :: filter (acc ar accept) (indices ar st') /\ acc ar accept i
      | None => filter (acc ar accept) (indices ar st) = [] /\ it_level st' = 14
      end.
  Proof.
    intros Hv Hl. unfold arch_iter_next. rewrite Hv. cbn [negb]. apply scan_levels_spec; [done|].
    unfold MAX_COMPONENTS_PER_ENTITY. lia.
  Qed.
  (** An exhausted iterator stays exhausted (C39). *)
  Lemma arch_iter_fused st st' : gd_is_valid (group_desc (big c) G) = true -> it_level st <= 14 ->
    arch_iter_next c G accept ar st = Rd (None, st') -> arch_iter_next c G accept ar st' = Rd (None, st').
  Proof.
    intros Hv Hl E. destruct (arch_iter_next_spec st Hv Hl) as (o&st1&E1&Hl1&H). rewrite E1 in E. injection E as -> ->.
    destruct H as [_ H14]. unfold arch_iter_next. rewrite Hv. cbn [negb]. rewrite H14. done.
  Qed.

  Lemma visited_NoDup : NoDup visited.
  Proof. apply NoDup_filter, indices_from, Hinv. Qed.
  Lemma elem_of_visited i : (forall i a, ar_archs ar !! i = Some a -> accept (a_desc a) = true -> glen <= ad_len (a_desc a)) ->
    i ∈ visited <-> exists a, ar_archs ar !! i = Some a /\ accept (a_desc a) = true.
  Proof.
    intros Hacc. unfold visited. rewrite elem_of_list_filter. rewrite (proj2 (indices_from ar Hinv _) i). split; [by intros [? _]|].
    intros (a&Ha&Hx). split; [by exists a|]. exists a. split; [done|].
    specialize (Hacc _ _ Ha Hx). destruct (ai_arch _ Hinv _ _ Ha) as (?&_). lia.
  Qed.

  Context {I : Type} (item : nat -> arch -> rd I) (g : nat -> I).
  Context (Hitem : forall i a, ar_archs ar !! i = Some a -> accept (a_desc a) = true -> item i a = Rd (g i)).
  Lemma slices_next_spec st : gd_is_valid (group_desc (big c) G) = true -> it_level st <= 14 ->
    exists o st', slices_next c G accept item ar st = Rd (o, st') /\ it_level st' <= 14 /\
      match filter (acc ar accept) (indices ar st) with
      | [] => o = None /\ it_level st' = 14
      | i :: l => o = Some (g i) /\ l = filter (acc ar accept) (indices ar st')
      end.
  Proof.
    intros Hv Hl. destruct (arch_iter_next_spec st Hv Hl) as (o&st'&E&Hl'&H). unfold slices_next. rewrite E. cbn [rbind].
    destruct o as [i|].
    - destruct H as [-> (a&Ha&Hacc)]. exists (Some (g i)), st'. rewrite Ha, (Hitem _ _ Ha Hacc). done.
    - destruct H as [-> ?]. exists None, st'. done.
  Qed.
  Lemma collect_spec fuel st : gd_is_valid (group_desc (big c) G) = true -> it_level st <= 14 ->
    length (filter (acc ar accept) (indices ar st)) < fuel ->
    collect (slices_next c G accept item ar) fuel st = Rd (Some (map g (filter (acc ar accept) (indices ar st)))).
  Proof.
    intros Hv. revert st. induction fuel as [|fuel IH]; intros st Hl Hf; [lia|].
    cbn [collect]. destruct (slices_next_spec st Hv Hl) as (o&st'&E&Hl'&H). rewrite E. cbn [rbind].
    destruct (filter (acc ar accept) (indices ar st)) as [|i l].
    - destruct H as [-> _]. done.
    - destruct H as [-> ->]. cbn in Hf. rewrite IH by (done || lia). done.
  Qed.
  Lemma slices_collect_spec : gd_is_valid (group_desc (big c) G) = true ->
    slices_collect c G accept item ar = Rd (Some (map g visited)).
  Proof.
    intros Hv. unfold slices_collect, arch_iter_new, visited, glen.
    pose proof (group_validity (big c) G) as ([H1 _]&_&Eg). destruct (H1 Hv) as (Hlen&_). specialize (Eg Hv).
    rewrite Eg. destruct (length G) as [|n] eqn:En; [lia|]. cbn [rbind Nat.sub]. rewrite Nat.sub_0_r.
    apply collect_spec; [done|cbn; lia|].
    rewrite indices_start. unfold total_keys. eapply Nat.le_lt_trans; [apply filter_length|].
    rewrite map_length. rewrite <- (take_drop n (ar_maps ar)) at 2. rewrite concat_app, app_length. lia.
  Qed.
End collect.

(** ** Fused, for every state, registry and closure *)
Lemma scan_levels_end r accept fuel st st' : scan_levels r accept fuel st = Rd (None, st') -> it_level st' = it_level st + fuel.
Proof.
  revert st. induction fuel as [|fuel IH]; intros st; cbn [scan_levels]; [intros [= <-]; lia|].
  destruct (ar_maps r !! it_level st) as [keys|]; [|done]. unfold rbind.
  destruct (scan_level _ _ _ _) as [[[i|] idx]| |]; try done. intros H%IH. cbn in H. lia.
Qed.
Lemma arch_next_fused c G accept r st st' r2 accept2 :
  arch_iter_next c G accept r st = Rd (None, st') -> arch_iter_next c G accept2 r2 st' = Rd (None, st').
Proof.
  unfold arch_iter_next. destruct (negb _); [by intros [= <-]|]. intros H%scan_levels_end. unfold MAX_COMPONENTS_PER_ENTITY in *.
  replace (14 - it_level st') with 0 by lia. done.
Qed.
Lemma slices_next_fused {I} c G accept (item : nat -> arch -> rd I) r st st' r2 accept2 :
  slices_next c G accept item r st = Rd (None, st') -> slices_next c G accept2 item r2 st' = Rd (None, st').
Proof.
  unfold slices_next, rbind. destruct (arch_iter_next c G accept r st) as [[[i|] st1]| |] eqn:E; try done.
  - destruct (ar_archs r !! i); [|done]. by destruct (item _ _).
  - intros [= <-]. by rewrite (arch_next_fused _ _ _ _ _ _ _ _ E).
Qed.
