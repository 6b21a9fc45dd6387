(** Proofs for C75: growing costs a constant number of bytes per call. *)
From Verif Require Import ByteReg RegProofs Ref Events Events2 Events3 Bytes7 Bytes8 SpecBytes SpecEvents SpecCost SpecBase SpecWorld SpecRef.
Local Open Scope nat_scope.

Lemma summed_app l l' : summed (l ++ l') = (summed l + summed l')%N.
Proof. induction l as [|x l IH]; [done|]. change (x + summed (l ++ l') = x + summed l + summed l')%N. rewrite IH. lia. Qed.
Lemma copied_app l l' : copied (l ++ l') = (copied l + copied l')%N.
Proof. unfold copied. by rewrite map_app, summed_app. Qed.
Lemma bought_app l l' : bought (l ++ l') = (bought l + bought l')%N.
Proof. unfold bought. by rewrite map_app, summed_app. Qed.
Lemma summed_scale (l : list (N * N)) n : summed (map (fun x => bytes x.1 n) l) = (summed (map fst l) * N.of_nat n)%N.
Proof. induction l as [|x l IH]; [done|]. change (bytes x.1 n + summed (map (fun x => bytes x.1 n) l) = (x.1 + summed (map fst l)) * N.of_nat n)%N. rewrite IH. unfold bytes. lia. Qed.
Lemma summed_zero {X} (f : X -> N) l : (forall x, f x = 0%N) -> summed (map f l) = 0%N.
Proof. intros H. induction l as [|x l IH]; [done|]. change (f x + summed (map f l) = 0)%N. by rewrite H, IH. Qed.
Lemma obtain_cost n s : copied (obtain n s) = 0%N /\ bought (obtain n s) = (row_bytes s * N.of_nat n)%N.
Proof. unfold copied, bought, obtain. rewrite !map_map. split; [by apply summed_zero|apply summed_scale]. Qed.
Lemma grow_cost n m s : copied (grow_to n m s) = (row_bytes s * N.of_nat n)%N /\ bought (grow_to n m s) = 0%N.
Proof. unfold copied, bought, grow_to. rewrite !map_map. split; [apply summed_scale|by apply summed_zero]. Qed.
Lemma drops_cost vs : copied (map EvDrop vs) = 0%N /\ bought (map EvDrop vs) = 0%N.
Proof. unfold copied, bought. rewrite !map_map. split; by apply summed_zero. Qed.

(** ** How the archetypes change *)
Definition same_types (s s' : sheet) : Prop := sh_types s' = sh_types s.
(** The archetypes of before come first; at most one has one entity more. *)
Definition evolves (U : list ctype) (S S' : list sheet) : Prop :=
  exists new i, Forall (fun s => sh_types s `sublist_of` U /\ sh_ents s = []) new /\ Forall2 same_types (S ++ new) S' /\
    forall j s s', (S ++ new) !! j = Some s -> S' !! j = Some s' -> length (sh_ents s') <= length (sh_ents s) + (if decide (j = i) then 1 else 0).
Lemma filter_sublist {X} (P : X -> Prop) `{!forall x, Decision (P x)} (l : list X) : filter P l `sublist_of` l.
Proof. induction l as [|x l IH]; [constructor|]. rewrite filter_cons. case_decide; by constructor. Qed.
Lemma types_refl S : Forall2 same_types S S.
Proof. by apply Forall2_same_length_lookup; split; [|intros; simplify_eq]. Qed.
Lemma evolves_refl U S : evolves U S S.
Proof. exists [], 0. split; [constructor|]. rewrite app_nil_r. split; [apply types_refl|]. intros j s s' H H'. simplify_eq. lia. Qed.
Lemma take_out_types h S : Forall2 same_types S (take_out h S).
Proof. unfold take_out. apply Forall2_fmap_r. apply Forall2_same_length_lookup. split; [done|]. intros i s s' H H'. simplify_eq. unfold same_types, compose. by case_decide. Qed.
Lemma take_out_less h S j s s' : S !! j = Some s -> take_out h S !! j = Some s' -> length (sh_ents s') <= length (sh_ents s).
Proof.
  unfold take_out. change (map ?f S) with (f <$> S). rewrite list_lookup_fmap. intros -> [= <-]. case_decide; [|done]. cbn [sh_ents]. unfold swap_out.
  destruct (last (sh_ents s)); [|cbn; lia]. rewrite take_length, map_length. lia.
Qed.
Lemma put_in_types h i S : Forall2 same_types S (put_in h i S).
Proof.
  unfold put_in. apply Forall2_same_length_lookup. split; [by rewrite alter_length|]. intros j s s' H H'.
  destruct (decide (i = j)) as [->|Hne]; [rewrite list_lookup_alter, H in H'|rewrite list_lookup_alter_ne, H in H' by done]; by injection H' as <-.
Qed.
Lemma put_in_more h i S j s s' : S !! j = Some s -> put_in h i S !! j = Some s' -> length (sh_ents s') <= length (sh_ents s) + (if decide (j = i) then 1 else 0).
Proof.
  unfold put_in. intros H H'. destruct (decide (i = j)) as [->|Hne]; [rewrite list_lookup_alter, H in H'|rewrite list_lookup_alter_ne, H in H' by done]; injection H' as <-.
  - cbn [sh_ents]. rewrite app_length, decide_True by done. done.
  - lia.
Qed.
Lemma types_trans S1 S2 S3 : Forall2 same_types S1 S2 -> Forall2 same_types S2 S3 -> Forall2 same_types S1 S3.
Proof. apply Forall2_transitive. intros x y z H1 H2. unfold same_types in *. congruence. Qed.
Lemma open_sheet_inv U S aid m i S1 : open_sheet S aid (types U m) = Some (i, S1) ->
  exists new, S1 = S ++ new /\ Forall (fun s => sh_types s `sublist_of` U /\ sh_ents s = []) new.
Proof.
  unfold open_sheet. destruct (find_sheet _ _ _); [intros [= <- <-]; exists []; by rewrite app_nil_r|]. destruct (_ <=? _)%N; [done|]. intros [= <- <-].
  eexists. split; [done|]. repeat constructor. cbn [sh_types]. unfold types. apply filter_sublist.
Qed.
Lemma evolves_open U S aid m i S1 : open_sheet S aid (types U m) = Some (i, S1) -> evolves U S S1.
Proof.
  intros (new&->&Hnew)%open_sheet_inv. exists new, 0. split; [done|]. split; [apply types_refl|]. intros j s s' H H'. simplify_eq. lia.
Qed.
Lemma evolves_put U S aid m i S1 h : open_sheet S aid (types U m) = Some (i, S1) -> evolves U S (put_in h i S1).
Proof.
  intros (new&->&Hnew)%open_sheet_inv. exists new, i. split; [done|]. split; [apply put_in_types|]. intros j s s'. apply put_in_more.
Qed.
Lemma evolves_out U S h : evolves U S (take_out h S).
Proof.
  exists [], 0. split; [constructor|]. rewrite app_nil_r. split; [apply take_out_types|]. intros j s s' H H'. pose proof (take_out_less _ _ _ _ _ H H'). lia.
Qed.
Lemma evolves_move U S aid m i S1 h : open_sheet S aid (types U m) = Some (i, S1) -> evolves U S (put_in h i (take_out h S1)).
Proof.
  intros (new&->&Hnew)%open_sheet_inv. exists new, i. split; [done|]. split; [eapply types_trans; [apply take_out_types|apply put_in_types]|].
  intros j s s' H H'. destruct (lookup_lt_is_Some_2 (take_out h (S ++ new)) j) as [s1 H1].
  { unfold take_out. rewrite map_length. by eapply lookup_lt_Some. }
  pose proof (take_out_less _ _ _ _ _ H H1). pose proof (put_in_more _ _ _ _ _ _ H1 H'). lia.
Qed.
Lemma ref_evolves {Fm : family} be U b o : evolves U (bk_sheets b) (bk_sheets (ref be U b o).2).
Proof.
  assert (Hmove : forall h e o good bad, (exists m, en_vals e = m) -> evolves U (bk_sheets b) (bk_sheets (move_to be U b h e o good bad).2)).
  { intros h e o' good bad _. unfold move_to. destruct (_ =? _)%N; [apply evolves_refl|].
    destruct (open_sheet _ _ _) as [[i S1]|] eqn:E; [|apply evolves_refl]. cbn [snd bk_sheets]. by eapply evolves_move. }
  destruct o; cbn [ref]; try apply evolves_refl.
  - destruct (valid_tuple _ _); [|apply evolves_refl]. destruct (open_sheet _ _ _) as [[i S1]|] eqn:E; [|apply evolves_refl].
    destruct (next_handle b); cbn [snd bk_sheets]; [by eapply evolves_put|by eapply evolves_open].
  - destruct (bk_world b !! h); [apply evolves_out|apply evolves_refl].
  - destruct (bk_world b !! h); [apply evolves_out|apply evolves_refl].
  - destruct (bk_world b !! h) as [e|]; [|apply evolves_refl]. destruct (en_vals e !! _); [apply evolves_refl|].
    destruct (_ <? _); [|apply evolves_refl]. apply Hmove. eauto.
  - destruct (bk_world b !! h) as [e|]; [|apply evolves_refl]. destruct (en_vals e !! _); [|apply evolves_refl].
    destruct (_ <=? _); [|apply evolves_refl]. apply Hmove. eauto.
Qed.

(** ** Bytes *)
Lemma same_row s s' : same_types s s' -> row_bytes s' = row_bytes s.
Proof. unfold same_types, row_bytes, SpecEvents.elements. by intros ->. Qed.
Lemma fresh_cost S : copied (concat (map (obtain 128) S)) = 0%N /\ bought (concat (map (obtain 128) S)) = held S (map (fun _ => 128) S).
Proof.
  induction S as [|s S [IH1 IH2]]; [done|]. cbn [map concat]. rewrite copied_app, bought_app, IH1, IH2. destruct (obtain_cost 128 s) as [-> ->]. split; [done|].
  unfold held. cbn [zip_with]. done.
Qed.
Lemma held_cons s S n caps : held (s :: S) (n :: caps) = (row_bytes s * N.of_nat n + held S caps)%N.
Proof. done. Qed.
Lemma step_cost caps S new S' : length caps = length S -> Forall2 same_types (S ++ new) S' ->
  (copied (concat (map (obtain 128) (drop (length S) S')) ++ growths caps S S') + bought (concat (map (obtain 128) (drop (length S) S')) ++ growths caps S S') + held S caps)%N
    = held S' (new_caps caps S S') /\ length (new_caps caps S S') = length S'.
Proof.
  revert S S'. induction caps as [|n caps IH]; intros [|s S] S' Hl HS; try done.
  - cbn [length skipn growths new_caps]. rewrite app_nil_r, map_length, drop_0. destruct (fresh_cost S') as [-> ->]. change (held [] []) with 0%N. split; [lia|done].
  - cbn [app] in HS. apply Forall2_cons_inv_l in HS as (s'&S2&Hs&HS&->). destruct (IH S S2) as [E El]; [by injection Hl|done|].
    cbn [length growths new_caps]. rewrite skipn_cons, El. split; [|done]. rewrite !held_cons, (same_row _ _ Hs). rewrite !copied_app, !bought_app in E |- *.
    destruct (outgrows n s s').
    + rewrite copied_app, bought_app. destruct (grow_cost n (2 * n) s) as [-> ->]. rewrite <- E. lia.
    + cbn [app]. rewrite <- E. lia.
Qed.

(** ** Peaks *)
Lemma sum_raise U peaks S S' : Forall2 (fun s p => length (sh_ents s) <= p) S peaks -> evolves U S S' ->
  Forall2 (fun s p => length (sh_ents s) <= p) S' (raise peaks S') /\ (list_sum (raise peaks S') <= list_sum peaks + 1).
Proof.
  intros HP (new&i&Hnew&HS&Hlen). revert i S' HS Hlen. induction HP as [|s p S peaks Hp HP IH]; intros i S' HS Hlen.
  - cbn [app raise] in *. assert (Hb : Forall2 (fun s p => length (sh_ents s) <= p) S' (map (fun s => length (sh_ents s)) S') ). 
    { apply Forall2_fmap_r, Forall2_same_length_lookup. split; [done|]. intros j x y Hx Hy. simplify_eq. apply Nat.le_refl. }
    destruct S'; (split; [exact Hb|]); [cbn; lia|]. clear Hb. revert i s S' HS Hlen. induction Hnew as [|x new [_ Hx] Hnew IH]; intros i s S' HS Hlen; [by inversion HS|].
    apply Forall2_cons in HS as [_ HS]. cbn [map list_sum foldr]. pose proof (Hlen 0 _ _ eq_refl eq_refl) as H0. rewrite Hx in H0. cbn [length] in H0.
    destruct S' as [|s' S']; [cbn; destruct (decide _); lia|].
    specialize (IH (pred i) s' S' HS). destruct (decide (0 = i)) as [<-|Hne].
    + assert (Hz : forall l l', Forall (fun s => sh_types s `sublist_of` U /\ sh_ents s = []) l -> length l = length l' ->
        (forall j s s0, l !! j = Some s -> l' !! j = Some s0 -> length (sh_ents s0) <= length (sh_ents s)) -> list_sum (map (fun s => length (sh_ents s)) l') = 0).
      { clear. induction l as [|x l IHl]; intros [|y l'] Hf Hl Hle; try done. apply Forall_cons in Hf as [[_ Hx] Hf]. cbn [map].
        change (length (sh_ents y) + list_sum (map (fun s => length (sh_ents s)) l') = 0). rewrite (IHl l' Hf); [|by injection Hl|intros j; apply (Hle (S j))].
        pose proof (Hle 0 _ _ eq_refl eq_refl) as H0. rewrite Hx in H0. cbn in H0. lia. }
      assert (E : list_sum (map (fun s => length (sh_ents s)) (s' :: S')) = 0).
      { apply (Hz new); [done|by eapply Forall2_length|]. intros j y y' Hy Hy'. pose proof (Hlen (S j) _ _ Hy Hy') as H. rewrite decide_False in H by done. lia. }
      change (length (sh_ents s) + list_sum (map (fun s => length (sh_ents s)) (s' :: S')) <= 0 + 1). lia.
    + change (length (sh_ents s) + list_sum (map (fun s => length (sh_ents s)) (s' :: S')) <= 0 + 1).
      assert (list_sum (map (fun s => length (sh_ents s)) (s' :: S')) <= 0 + 1); [|lia]. apply IH. intros j y y' Hy Hy'. pose proof (Hlen (S j) _ _ Hy Hy') as H.
      destruct (decide (S j = i)); [|lia]. rewrite decide_True by lia. done.
  - cbn [app] in HS. apply Forall2_cons_inv_l in HS as (s'&S2&Hs&HS&->). cbn [raise].
    pose proof (Hlen 0 _ _ eq_refl eq_refl) as H0. destruct (decide (0 = i)) as [<-|Hne].
    + assert (Hno : forall peaks S S2, Forall2 (fun s p => length (sh_ents s) <= p) S peaks -> Forall2 same_types (S ++ new) S2 ->
        (forall j s s', (S ++ new) !! j = Some s -> S2 !! j = Some s' -> length (sh_ents s') <= length (sh_ents s)) ->
        Forall2 (fun s p => length (sh_ents s) <= p) S2 (raise peaks S2) /\ list_sum (raise peaks S2) <= list_sum peaks).
      { clear -Hnew. intros peaks S S2 HP. revert S2. induction HP as [|s p S peaks Hp HP IH]; intros S2 HS Hle; cbn [app] in *.
        - cbn [raise]. split.
          + destruct S2; [constructor|]. apply Forall2_fmap_r, Forall2_same_length_lookup. split; [done|]. intros j x y Hx Hy. simplify_eq. apply Nat.le_refl.
          + assert (E : list_sum (map (fun s => length (sh_ents s)) S2) = 0); [|by destruct S2; cbn [list_sum foldr] in *; lia].
            revert S2 HS Hle. induction Hnew as [|x new [_ Hx] Hnew IH]; intros S2 HS Hle; [by inversion HS|].
            apply Forall2_cons_inv_l in HS as (y&S3&_&HS&->). change (length (sh_ents y) + list_sum (map (fun s => length (sh_ents s)) S3) = 0).
            rewrite (IH S3 HS) by (intros j; apply (Hle (Datatypes.S j))). pose proof (Hle 0 _ _ eq_refl eq_refl) as H0. rewrite Hx in H0. cbn in H0. lia.
        - apply Forall2_cons_inv_l in HS as (s'&S3&_&HS&->). destruct (IH S3 HS) as [H1 H2]; [intros j; apply (Hle (Datatypes.S j))|].
          pose proof (Hle 0 _ _ eq_refl eq_refl) as H0. cbn [raise]. split; [constructor; [lia|done]|].
          change (p `max` length (sh_ents s') + list_sum (raise peaks S3) <= p + list_sum peaks). lia. }
      destruct (Hno peaks S S2 HP HS) as [H1 H2].
      { intros j y y' Hy Hy'. pose proof (Hlen (Datatypes.S j) _ _ Hy Hy') as H. rewrite decide_False in H by done. lia. }
      split; [constructor; [lia|done]|]. change (p `max` length (sh_ents s') + list_sum (raise peaks S2) <= p + list_sum peaks + 1). lia.
    + destruct (IH (pred i) S2 HS) as [H1 H2].
      { intros j y y' Hy Hy'. pose proof (Hlen (Datatypes.S j) _ _ Hy Hy') as H. destruct (decide (Datatypes.S j = i)); [|lia]. by rewrite decide_True by lia. }
      split; [constructor; [lia|done]|]. change (p `max` length (sh_ents s') + list_sum (raise peaks S2) <= p + list_sum peaks + 1). lia.
Qed.

(** ** Programs *)
Lemma growths_bought caps S S' : bought (growths caps S S') = 0%N.
Proof.
  revert S S'. induction caps as [|n caps IH]; intros [|s S] [|s' S']; try done. cbn [growths]. rewrite bought_app, IH.
  destruct (outgrows n s s'); [by destruct (grow_cost n (2 * n) s) as [_ ->]|done].
Qed.
Definition starts (S : list sheet) : N := held S (map (fun _ => 128) S).
Lemma step_bought S new S' caps : Forall2 same_types (S ++ new) S' ->
  (bought (concat (map (obtain 128) (drop (length S) S')) ++ growths caps S S') + starts S)%N = starts S'.
Proof.
  rewrite bought_app, growths_bought, N.add_0_r. revert S'. induction S as [|s S IH]; intros S' HS.
  - cbn [length]. rewrite drop_0. destruct (fresh_cost S') as [_ ->]. change (starts []) with 0%N. unfold starts. lia.
  - cbn [app] in HS. apply Forall2_cons_inv_l in HS as (s'&S2&Hs&HS&->). cbn [length]. rewrite skipn_cons. unfold starts in *. cbn [map].
    rewrite !held_cons, (same_row _ _ Hs), <- (IH S2 HS). lia.
Qed.
Lemma call_cost {Fm : family} be U b caps o : length caps = length (bk_sheets b) ->
  (copied (call_log be U b caps o).1 + bought (call_log be U b caps o).1 + held (bk_sheets b) caps)%N = held (bk_sheets (ref be U b o).2) (call_log be U b caps o).2 /\
  (bought (call_log be U b caps o).1 + starts (bk_sheets b))%N = starts (bk_sheets (ref be U b o).2) /\
  length (call_log be U b caps o).2 = length (bk_sheets (ref be U b o).2).
Proof.
  intros Hl. destruct (ref_evolves be U b o) as (new&i&_&HS&_). destruct (step_cost caps _ new _ Hl HS) as [E El]. pose proof (step_bought _ new _ caps HS) as Eb.
  unfold call_log. cbv zeta. cbn [fst snd]. set (D := match o with OpDestroy h => _ | _ => _ end).
  assert (HD : copied D = 0%N /\ bought D = 0%N) by (subst D; destruct o; try done; apply drops_cost). destruct HD as [D1 D2].
  rewrite copied_app, bought_app, D1, D2, !N.add_0_l. done.
Qed.
Lemma run_cost {Fm : family} be U ops : forall b caps, length caps = length (bk_sheets b) ->
  (copied (run_log be U ops b caps).1 + bought (run_log be U ops b caps).1 + held (bk_sheets b) caps)%N = held (bk_sheets (ref_run be U ops b).2) (run_log be U ops b caps).2 /\
  (bought (run_log be U ops b caps).1 + starts (bk_sheets b))%N = starts (bk_sheets (ref_run be U ops b).2) /\
  length (run_log be U ops b caps).2 = length (bk_sheets (ref_run be U ops b).2).
Proof.
  induction ops as [|o ops IH]; intros b caps Hl; cbn [run_log ref_run].
  { cbn [fst snd]. change (copied []) with 0%N. change (bought []) with 0%N. split; [lia|]. split; [lia|done]. }
  destruct (call_cost be U b caps o Hl) as (E1&E2&E3). destruct (call_log be U b caps o) as [evs caps1]. destruct (ref be U b o) as [out b1]. cbn [fst snd] in *.
  destruct (IH b1 caps1 E3) as (F1&F2&F3). destruct (run_log be U ops b1 caps1) as [evs' caps2]. destruct (ref_run be U ops b1) as [outs b2]. cbn [fst snd] in *.
  rewrite copied_app, bought_app, <- F1, <- F2, <- E1, <- E2. split; [lia|]. split; [lia|done].
Qed.
Lemma run_peaks_sum {Fm : family} be U ops : forall b peaks, Forall2 (fun s p => length (sh_ents s) <= p) (bk_sheets b) peaks ->
  list_sum (run_peaks be U ops b peaks) <= list_sum peaks + length ops.
Proof.
  induction ops as [|o ops IH]; intros b peaks HP; cbn [run_peaks length]; [lia|].
  destruct (sum_raise U peaks _ _ HP (ref_evolves be U b o)) as [H1 H2]. pose proof (IH _ _ H1). lia.
Qed.
Definition narrow (U : list ctype) (s : sheet) : Prop := sh_types s `sublist_of` U.
Lemma run_narrow {Fm : family} be U ops : forall b, Forall (narrow U) (bk_sheets b) -> Forall (narrow U) (bk_sheets (ref_run be U ops b).2).
Proof.
  induction ops as [|o ops IH]; intros b Hb; cbn [ref_run]; [done|]. destruct (ref_evolves be U b o) as (new&i&Hnew&HS&_).
  assert (H1 : Forall (narrow U) (bk_sheets (ref be U b o).2)).
  { assert (H0 : Forall (narrow U) (bk_sheets b ++ new)) by (apply Forall_app; split; [done|]; eapply Forall_impl; [exact Hnew|]; by intros s [? _]).
    clear -H0 HS. induction HS as [|s s' S S' Hs HS IH]; [constructor|]. apply Forall_cons in H0 as [H0 H1]. constructor; [|by apply IH].
    unfold narrow. by rewrite Hs. }
  destruct (ref be U b o) as [out b1]. cbn [snd] in *. specialize (IH _ H1). by destruct (ref_run be U ops b1).
Qed.
Lemma narrow_row U s : narrow U s -> (row_bytes s <= widest U)%N.
Proof.
  unfold narrow, row_bytes, widest, SpecEvents.elements. cbn [map]. rewrite map_map. intros Hs.
  change (4 + summed (map ct_size (sh_types s)) <= 4 + summed (map ct_size U))%N. apply N.add_le_mono_l.
  induction Hs as [|x l1 l2 _ IH|x l1 l2 _ IH]; [done|..]; cbn [map];
    [change (ct_size x + summed (map ct_size l1) <= ct_size x + summed (map ct_size l2))%N|change (summed (map ct_size l1) <= ct_size x + summed (map ct_size l2))%N]; lia.
Qed.
Lemma held_bound W S peaks caps : Forall2 fitting peaks caps -> length caps = length S -> Forall (fun s => row_bytes s <= W)%N S ->
  (held S caps <= starts S + 2 * W * N.of_nat (list_sum peaks))%N.
Proof.
  intros Hf. revert S. induction Hf as [|p n peaks caps Hpn Hf IH]; intros [|s S] Hl HW; try done; [by change (held [] []) with 0%N; lia|].
  apply Forall_cons in HW as [Hs HW]. unfold starts in *. cbn [map]. rewrite !held_cons. change (list_sum (p :: peaks)) with (p + list_sum peaks).
  specialize (IH S ltac:(by injection Hl) HW). destruct Hpn as (k&Hk&Hp&Hmin).
  assert (row_bytes s * N.of_nat n <= row_bytes s * N.of_nat 128 + 2 * W * N.of_nat p)%N; [|nia].
  destruct Hmin as [->|Hlt]; [cbn in Hk; rewrite Hk; change (N.of_nat 128) with 128%N; nia|]. nia.
Qed.

Section runs.
  Context {Fm : family} (c : cfg) (U : list ctype) (HU : universe (big c) U).
  Notation be := (big c).
  Lemma log_exact ops : (copied (run_log be U ops book_empty []).1 + bought (run_log be U ops book_empty []).1)%N =
    held (bk_sheets (ref_run be U ops book_empty).2) (run_log be U ops book_empty []).2.
  Proof. destruct (run_cost be U ops book_empty [] eq_refl) as (<-&_). change (held (bk_sheets book_empty) []) with 0%N. lia. Qed.
  Lemma log_bound ops : within be U ops book_empty ->
    (copied (run_log be U ops book_empty []).1 <= 2 * widest U * N.of_nat (length ops))%N.
  Proof using HU.
    intros Hw. destruct (run_cost be U ops book_empty [] eq_refl) as (E1&E2&E3). change (held (bk_sheets book_empty) []) with 0%N in E1. change (starts (bk_sheets book_empty)) with 0%N in E2.
    pose proof (run_capacities c U HU ops Hw) as Hf. pose proof (run_peaks_sum be U ops book_empty [] ltac:(constructor)) as Hs. cbn [list_sum foldr] in Hs.
    assert (HW : Forall (fun s => row_bytes s <= widest U)%N (bk_sheets (ref_run be U ops book_empty).2)).
    { eapply Forall_impl; [apply (run_narrow be U ops book_empty); constructor|]. apply narrow_row. }
    pose proof (held_bound _ _ _ _ Hf E3 HW) as Hb. nia.
  Qed.
  Context (Hla : laid_out U).
  Lemma bytes_cost place ops out R : within be U ops book_empty -> brun c ops (breg_default place) = Ret out R ->
    let evs := ev_trace (m_env (br_mem R)) in
    (copied evs <= 2 * widest U * N.of_nat (length ops))%N /\
    (copied evs + bought evs)%N = held (bk_sheets (ref_run be U ops book_empty).2) (run_log be U ops book_empty []).2.
  Proof using HU Hla.
    intros Hw E. cbv zeta. rewrite (bytes_requests c U HU Hla place ops out R Hw E). split; [by apply log_bound|apply log_exact].
  Qed.
End runs.

Lemma registry_cost {Fm : family} c U (HU : universe (big c) U) ops : within (big c) U ops book_empty ->
  exists r, run c ops reg_default = Ret (ref_run (big c) U ops book_empty).1 r /\
    (copied (ev_trace (r_env r)) + bought (ev_trace (r_env r)))%N = held (bk_sheets (ref_run (big c) U ops book_empty).2) (map a_cap (ar_archs (r_ar r))) /\
    bought (ev_trace (r_env r)) = held (bk_sheets (ref_run (big c) U ops book_empty).2) (map (fun _ => 128) (bk_sheets (ref_run (big c) U ops book_empty).2)) /\
    (copied (ev_trace (r_env r)) <= 2 * widest U * N.of_nat (length ops))%N.
Proof.
  intros Hw. destruct (run_requests c U HU ops Hw) as (r&E&Et&Ec). exists r. split; [done|]. rewrite Et, Ec. split; [apply log_exact|].
  split; [|by apply log_bound]. destruct (run_cost (big c) U ops book_empty [] eq_refl) as (_&E2&_). change (starts (bk_sheets book_empty)) with 0%N in E2.
  change (held _ (map _ _)) with (starts (bk_sheets (ref_run (big c) U ops book_empty).2)). lia.
Qed.

Lemma held_peaks S peaks caps : Forall2 fitting peaks caps -> length caps = length S -> (held S caps <= starts S + 2 * held S peaks)%N.
Proof.
  intros Hf. revert S. induction Hf as [|p n peaks caps Hpn Hf IH]; intros [|s S] Hl; try done.
  unfold starts in *. cbn [map]. rewrite !held_cons.
  specialize (IH S ltac:(by injection Hl)). destruct Hpn as (k&Hk&Hp&Hmin).
  assert (row_bytes s * N.of_nat n <= row_bytes s * N.of_nat 128 + 2 * (row_bytes s * N.of_nat p))%N; [|lia].
  destruct Hmin as [->|Hlt]; [cbn in Hk; rewrite Hk; change (N.of_nat 128) with 128%N; lia|]. nia.
Qed.
Lemma registry_memory {Fm : family} c U (HU : universe (big c) U) ops : within (big c) U ops book_empty ->
  exists r, run c ops reg_default = Ret (ref_run (big c) U ops book_empty).1 r /\
    let S := bk_sheets (ref_run (big c) U ops book_empty).2 in
    (held S (map a_cap (ar_archs (r_ar r))) <= held S (map (fun _ => 128%nat) S) + 2 * held S (run_peaks (big c) U ops book_empty []))%N /\
    list_sum (run_peaks (big c) U ops book_empty []) <= length ops.
Proof.
  intros Hw. destruct (run_requests c U HU ops Hw) as (r&E&_&Ec). exists r. split; [done|]. cbv zeta. rewrite Ec.
  destruct (run_cost (big c) U ops book_empty [] eq_refl) as (_&_&E3).
  split; [exact (held_peaks _ _ _ (run_capacities c U HU ops Hw) E3)|].
  exact (run_peaks_sum (big c) U ops book_empty [] ltac:(constructor)).
Qed.
