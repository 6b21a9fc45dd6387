(** Proofs for C72: each registry behaves as if it were alone. *)
From Verif Require Import MultiModel MonadProofs RegProofs Ref Bytes7 Multi SpecMulti SpecBytes SpecEvents SpecBase SpecWorld SpecRef.
Local Open Scope nat_scope.

Section alone.
  Context {Fm : family} (c : cfg) (U : list ctype) (HU : universe (big c) U) (Hla : laid_out U).
  Notation be := (big c).
  Lemma those_on_map {X Y} (f : X -> Y) k ops xs : those_on k ops (map f xs) = map f (those_on k ops xs).
  Proof.
    revert xs. induction ops as [|o ops IH]; intros [|x xs]; cbn [those_on map]; [done..|]. rewrite IH, map_app. by destruct (on k o).
  Qed.
  (** After the registry was dropped. *)
  Lemma gone ops : forall (s : list cell) k, mwithin be U ops s -> Forall (fun o => swaps o = false) ops -> s !! k = Some None ->
    calls_on k ops = [] /\ those_on k ops (mref_run be U ops s).1 = [] /\ (mref_run be U ops s).2 !! k = Some None.
  Proof.
    induction ops as [|o ops IH]; intros s k Hw Hns Hk; cbn [mwithin mref_run] in *; [done|].
    destruct Hw as [Ha Hw]. apply Forall_cons in Hns as [Hn Hns].
    assert (Hstep : (mref be U s o).2 !! k = Some None /\ on k o = false /\ calls_on k (o :: ops) = calls_on k ops).
    { destruct o as [|i o|i|]; [| | |done]; cbn [mref mallowed on] in *.
      - split; [|done]. cbn [snd]. by apply lookup_app_l_Some.
      - destruct Ha as (b&caps&Hi&_). rewrite Hi. cbn [snd]. assert (i <> k) by (intros ->; congruence).
        rewrite list_lookup_insert_ne by done. split; [done|]. rewrite bool_decide_eq_false_2 by done. split; [done|].
        unfold calls_on. cbn [omap list_omap]. by rewrite decide_False.
      - destruct Ha as (b&caps&Hi&_). rewrite Hi. cbn [snd]. assert (i <> k) by (intros ->; congruence).
        rewrite list_lookup_insert_ne by done. split; [done|]. by rewrite bool_decide_eq_false_2. }
    destruct Hstep as (Hk'&Hon&Hcalls). destruct (mref be U s o) as [x s1]. cbn [snd] in *. destruct (IH _ _ Hw Hns Hk') as (E1&E2&E3).
    destruct (mref_run be U ops s1) as [xs s2]. cbn [fst snd those_on] in *. rewrite Hcalls, Hon, E1, E2. done.
  Qed.
  (** What registry [k] has seen so far; before it exists, nothing. *)
  Definition so_far (s : list cell) (k : nat) (b : book) (caps : list nat) : Prop :=
    s !! k = Some (Some (b, caps)) \/ s !! k = None /\ b = book_empty /\ caps = [].
  Lemma alone_gen ops : forall (s : list cell) k b caps, mwithin be U ops s -> Forall (fun o => swaps o = false) ops -> so_far s k b caps ->
    within be U (calls_on k ops) b /\
    omap fst (those_on k ops (mref_run be U ops s).1) = (ref_run be U (calls_on k ops) b).1 /\
    ((mref_run be U ops s).2 !! k = Some None ->
       concat (map snd (those_on k ops (mref_run be U ops s).1)) =
         (run_log be U (calls_on k ops) b caps).1 ++ final_log (ref_run be U (calls_on k ops) b).2 (run_log be U (calls_on k ops) b caps).2) /\
    (forall y, (mref_run be U ops s).2 !! k = Some (Some y) ->
       y = ((ref_run be U (calls_on k ops) b).2, (run_log be U (calls_on k ops) b caps).2) /\
       concat (map snd (those_on k ops (mref_run be U ops s).1)) = (run_log be U (calls_on k ops) b caps).1).
  Proof.
    induction ops as [|o ops IH]; intros s k b caps Hw Hns Hs; cbn [mwithin mref_run] in *.
    { split; [done|]. split; [done|]. cbn. destruct Hs as [Hs|(Hs&->&->)]; rewrite Hs; split; [done| |done|done]. intros y [= <-]. done. }
    destruct Hw as [Ha Hw]. apply Forall_cons in Hns as [Hn Hns].
    destruct (on k o) eqn:Hon.
    - destruct o as [|i o|i|]; try done; cbn [on mallowed mref] in *; apply bool_decide_eq_true in Hon as ->;
        destruct Ha as (b'&caps'&Hk&Hc); destruct Hs as [Hs|(Hs&_)]; rewrite Hk in Hs; try done; injection Hs as -> ->; rewrite Hk in Hw |- *; cbn [snd] in Hw.
      + assert (Hs1 : so_far (<[k := Some ((ref be U b o).2, (call_log be U b caps o).2)]> s) k (ref be U b o).2 (call_log be U b caps o).2).
        { left. apply list_lookup_insert. by eapply lookup_lt_Some. }
        destruct (IH _ _ _ _ Hw Hns Hs1) as (H1&H2&H3&H4).
        assert (Hcalls : calls_on k (MCall k o :: ops) = o :: calls_on k ops) by (unfold calls_on; cbn [omap list_omap]; by rewrite decide_True).
        rewrite Hcalls. set (s1 := <[k := _]> s) in *. destruct (mref_run be U ops s1) as [xs s2]. cbn [fst snd] in *.
        cbn [those_on on within ref_run run_log]. rewrite bool_decide_eq_true_2 by done. cbn [app map concat fst snd omap list_omap].
        destruct (call_log be U b caps o) as [evs caps1]. cbn [fst snd] in *. destruct (ref be U b o) as [out b1]. cbn [fst snd] in *.
        destruct (ref_run be U (calls_on k ops) b1) as [outs b2]. destruct (run_log be U (calls_on k ops) b1 caps1) as [evs' caps2]. cbn [fst snd] in *.
        split; [done|]. split; [by f_equal|]. split; [intros E; by rewrite (H3 E), app_assoc|].
        intros y Hy. destruct (H4 _ Hy) as [-> ->]. done.
      + assert (Hs1 : <[k := None]> s !! k = Some None) by (apply list_lookup_insert; by eapply lookup_lt_Some).
        destruct (gone ops _ _ Hw Hns Hs1) as (H1&H2&H3). change (calls_on k (MDrop k :: ops)) with (calls_on k ops). rewrite H1.
        set (s1 := <[k := _]> s) in *. destruct (mref_run be U ops s1) as [xs s2]. cbn [fst snd] in *.
        cbn [those_on on within ref_run run_log]. rewrite bool_decide_eq_true_2 by done. rewrite H2, H3. cbn [app map concat fst snd omap list_omap].
        split; [done|]. split; [done|]. split; [intros _; by rewrite app_nil_r|done].
    - assert (Hs1 : so_far (mref be U s o).2 k b caps /\ calls_on k (o :: ops) = calls_on k ops).
      { destruct o as [|i o|i|]; [| | |done]; cbn [mref mallowed on] in *.
        - split; [|done]. cbn [snd]. destruct Hs as [Hs|(Hs&->&->)]; [left; by apply lookup_app_l_Some|].
          apply lookup_ge_None in Hs. destruct (decide (k = length s)) as [->|Hne]; [left; by rewrite lookup_app_r, Nat.sub_diag by lia|].
          right. split; [|done]. apply lookup_ge_None. rewrite app_length. cbn. lia.
        - apply bool_decide_eq_false in Hon. destruct Ha as (b'&caps'&Hi&_). rewrite Hi. cbn [snd]. unfold so_far. rewrite list_lookup_insert_ne by done. split; [done|].
          unfold calls_on. cbn [omap list_omap]. by rewrite decide_False.
        - apply bool_decide_eq_false in Hon. destruct Ha as (b'&caps'&Hi&_). rewrite Hi. cbn [snd]. unfold so_far. by rewrite list_lookup_insert_ne. }
      destruct Hs1 as [Hs1 Hcalls]. rewrite Hcalls. destruct (mref be U s o) as [x s1]. cbn [snd] in *.
      pose proof (IH _ _ _ _ Hw Hns Hs1) as Hrec. destruct (mref_run be U ops s1) as [xs s2]. cbn [fst snd those_on] in *. rewrite Hon. exact Hrec.
  Qed.
  Lemma alone place place' ops k : mwithin be U ops [] -> Forall (fun o => swaps o = false) ops ->
    exists outs s R, mrun c ops (multi_default place) = Ret outs s /\
      within be U (calls_on k ops) book_empty /\
      brun c (calls_on k ops) (breg_default place') = Ret (omap id (those_on k ops outs)) R.
  Proof using HU Hla.
    intros Hw Hns. destruct (together c U HU Hla place ops Hw) as (s&E&_). destruct (alone_gen ops [] k book_empty [] Hw Hns) as (H1&H2&_); [by right|].
    destruct (bytes_program c U HU Hla place' _ H1) as (R&r&ER&_). exists (map fst (mref_run be U ops []).1), s, R. split; [done|]. split; [done|].
    rewrite ER, <- H2. f_equal. rewrite those_on_map. generalize (those_on k ops (mref_run be U ops []).1) as X. clear.
    induction X as [|[[x|] e] X IH]; cbn [omap list_omap map fst]; [done| |done]. cbn. by f_equal.
  Qed.
  Lemma alone_log ops k : mwithin be U ops [] -> Forall (fun o => swaps o = false) ops ->
    let mine := concat (map snd (those_on k ops (mref_run be U ops []).1)) in
    let b := (ref_run be U (calls_on k ops) book_empty).2 in
    let log := run_log be U (calls_on k ops) book_empty [] in
    match (mref_run be U ops []).2 !! k with
    | Some (Some y) => y = (b, log.2) /\ mine = log.1
    | Some None => mine = log.1 ++ final_log b log.2
    | None => True
    end.
  Proof.
    intros Hw Hns. destruct (alone_gen ops [] k book_empty [] Hw Hns) as (_&_&H3&H4); [by right|]. cbv zeta.
    destruct (_ !! k) as [[y|]|]; [by apply H4|by apply H3|done].
  Qed.
End alone.
