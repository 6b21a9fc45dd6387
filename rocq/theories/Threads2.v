(** Proofs for C71, continued: any schedule *)
From Verif Require Import MonadProofs ByteReg Bytes Codes2 Bytes8 Threads SpecBytes SpecBase SpecWorld SpecRef SpecCode SpecThreads.
Local Open Scope nat_scope.

Lemma val_bytes_length n v : length (val_bytes n v) = n.
Proof. unfold val_bytes. by rewrite map_length, seq_length. Qed.

Section weave.
  Context (ls : list bloc) (Cs : list ctype) (share : nat -> option nat) (vs0 : list value) (cds : list code) (m0 : mem).
  Context (Hex : exclusive ls) (Hfit : Forall2 fits Cs vs0) (Hlen : length ls = length vs0) (Hpos : forall (p : nat) (l : bloc), ls !! p = Some l -> 0 < l.2).

  (** The bytes of reference [p], whose value was [v] before the access under way. *)
  Definition bytes_of (o : option thread) (p n : nat) (v : value) : list mbyte :=
    match o with
    | Some th =>
        match th_code th with
        | Replace q v' _ => if q =? p then take (th_put th) (val_bytes n v') ++ drop (th_put th) (val_bytes n v) else val_bytes n v
        | _ => val_bytes n v
        end
    | None => val_bytes n v
    end.
  Definition access_ok (vt : list value) (th : thread) : Prop :=
    match th_code th with
    | Stop => th_read th = [] /\ th_put th = 0
    | Look p _ => forall (l : bloc) (v : value), ls !! p = Some l -> vt !! p = Some v ->
        length (th_read th) <= l.2 /\ th_put th = 0 /\ th_read th = take (length (th_read th)) (val_bytes l.2 v)
    | Replace p _ _ => forall (l : bloc) (v : value), ls !! p = Some l -> vt !! p = Some v ->
        length (th_read th) <= l.2 /\ th_put th <= l.2 /\ (length (th_read th) < l.2 -> th_put th = 0) /\ th_read th = take (length (th_read th)) (val_bytes l.2 v)
    end.
  Record tinv (t : nat) (th : thread) (cd : code) (vt : list value) : Prop := Tinv {
    ti_fit : Forall2 fits Cs vt;
    ti_frame : forall q, share q <> Some t -> vt !! q = vs0 !! q;
    ti_run : on_list vs0 cd = (th_seen th ++ (on_list vt (th_code th)).1, (on_list vt (th_code th)).2);
    ti_typed : threaded Cs share t (th_code th);
    ti_access : access_ok vt th }.
  Fixpoint todo (vt : list value) (cd : code) : nat :=
    match cd with
    | Stop => 0
    | Look p k => match ref_at ls p, vt !! p with Some l, Some v => S (l.2 + todo vt (k v)) | _, _ => 0 end
    | Replace p v' k => match ref_at ls p, vt !! p with Some l, Some v => S (l.2 + l.2 + todo (<[p := v']> vt) (k v)) | _, _ => 0 end
    end.
  Definition left (th : thread) (vt : list value) : nat := todo vt (th_code th) - length (th_read th) - th_put th.

  Lemma bytes_of_idle th p n v : th_put th = 0 -> bytes_of (Some th) p n v = val_bytes n v.
  Proof. intros H. unfold bytes_of. destruct (th_code th); [done..|]. destruct (_ =? _); [|done]. by rewrite H. Qed.
  Lemma fresh_access vt s cd : access_ok vt (Thr s cd [] 0).
  Proof. unfold access_ok. destruct cd as [|p k|p v' k]; cbn [th_code th_read th_put length]; [done|..]; intros l v _ _.
    - split; [lia|]. done.
    - split; [lia|]. split; [lia|]. done. Qed.
  Lemma refs_at p C vt : Cs !! p = Some C -> Forall2 fits Cs vt -> exists (l : bloc) (v : value), ls !! p = Some l /\ vt !! p = Some v /\ fits C v.
  Proof using Hlen Hfit.
    intros HC Hv. destruct (Forall2_lookup_l _ _ _ _ _ Hv HC) as (v&Hp&Hf). destruct (lookup_lt_is_Some_2 ls p) as [l Hl].
    { rewrite Hlen, <- (Forall2_length _ _ _ Hfit). by eapply lookup_lt_Some. }
    by exists l, v.
  Qed.
  Lemma write_next n (new old : value) k b : val_bytes n new !! k = Some b ->
    <[k := b]> (take k (val_bytes n new) ++ drop k (val_bytes n old)) = take (S k) (val_bytes n new) ++ drop (S k) (val_bytes n old).
  Proof.
    intros Hb. pose proof (lookup_lt_Some _ _ _ Hb) as Hk. pose proof (val_bytes_length n old) as Hl. rewrite val_bytes_length in Hk.
    rewrite insert_app_r_alt by (rewrite take_length, val_bytes_length; lia). rewrite take_length, val_bytes_length, Nat.min_l by lia. rewrite Nat.sub_diag.
    destruct (drop k (val_bytes n old)) as [|x xs] eqn:Ed. { apply (f_equal length) in Ed. rewrite drop_length, Hl in Ed. cbn in Ed. lia. }
    cbn. rewrite (take_S_r _ _ _ Hb), <- app_assoc. cbn. f_equal. f_equal. replace (S k) with (k + 1) by lia. rewrite <- drop_drop, Ed. done.
  Qed.

  (** One step of one thread. *)
  Lemma local_step t th cd vt m : tinv t th cd vt ->
    (forall p l v, ls !! p = Some l -> share p = Some t -> vt !! p = Some v -> holds m l (bytes_of (Some th) p l.2 v)) ->
    (forall p l v, ls !! p = Some l -> share p = None -> vt !! p = Some v -> holds m l (val_bytes l.2 v)) ->
    exists th' vt' m', th_step ls th m = Ret th' m' /\ tinv t th' cd vt' /\ left th' vt' = pred (left th vt) /\
      (forall p l v, ls !! p = Some l -> share p = Some t -> vt' !! p = Some v -> holds m' l (bytes_of (Some th') p l.2 v)) /\
      (m' = m \/ exists p l, share p = Some t /\ ls !! p = Some l /\ only_at l m m').
  Proof using Hex Hlen Hfit Hpos.
    destruct th as [seen cdr rd put]. intros [Hf Hfr Hrun Hty Hac] Hown Hsh. unfold th_step, left. cbn [th_code th_seen th_read th_put] in *.
    destruct cdr as [|p k|p v' k].
    - destruct Hac as [E1 E2]. cbn [th_read th_put] in E1, E2. subst. exists (Thr seen Stop [] 0), vt, m. cbn [todo]. split; [done|]. split; [by constructor|]. split; [done|]. split; [exact Hown|by left].
    - destruct Hty as (C&HC&Hs&Hk). destruct (refs_at _ _ _ HC Hf) as (l&v&Hl&Hv&Hfv). destruct (Hac l v Hl Hv) as (H1&H2&H3). cbn [th_read th_put] in H1, H2, H3. subst put.
      assert (Hh : holds m l (val_bytes l.2 v)) by (destruct Hs; [by apply (Hown p)|by apply (Hsh p)]).
      cbn beta match. unfold ref_at. rewrite Hl. cbn [todo]. unfold ref_at. rewrite Hl, Hv. destruct (length rd <? l.2) eqn:El.
      + apply Nat.ltb_lt in El. destruct (lookup_lt_is_Some_2 (val_bytes l.2 v) (length rd)) as [b Hb]; [by rewrite val_bytes_length|].
        exists (Thr seen (Look p k) (rd ++ [b]) 0), vt, m. split.
        { unfold read_byte. cbn [th_seen th_code th_read th_put]. unfold bind at 1, get_st. unfold bind at 1. by rewrite (read_one _ _ _ _ _ Hh Hb). }
        split; [|split; [|split; [|by left]]].
        * constructor; [done..| |]; cbn [th_code]; [by exists C|]. intros l' w' Hl' Hw'. cbn [th_read th_put]. rewrite Hl in Hl'. rewrite Hv in Hw'. injection Hl' as <-. injection Hw' as <-.
          rewrite app_length. cbn [length]. split; [lia|]. split; [done|]. replace (length rd + 1) with (S (length rd)) by lia. rewrite (take_S_r _ _ _ Hb). by rewrite <- H3.
        * cbn [th_code th_read th_put]. rewrite app_length. cbn [length todo]. unfold ref_at. rewrite Hl, Hv. lia.
        * intros q lq vq Hq Hsq Hvq. exact (Hown q lq vq Hq Hsq Hvq).
      + apply Nat.ltb_ge in El. rewrite take_ge in H3 by (rewrite val_bytes_length; lia). unfold access_done. cbn [th_read th_seen]. rewrite H3, (bytes_val_ok _ _ (Hpos _ _ Hl)).
        exists (Thr (seen ++ [v]) (k v) [] 0), vt, m. split; [done|]. split; [|split; [|split; [|by left]]].
        * constructor; [done..| | |]; cbn [th_code th_seen]; [|by apply Hk|apply fresh_access]. rewrite Hrun. cbn [on_list]. rewrite Hv. cbn [fst snd]. by rewrite <- app_assoc.
        * cbn [th_code th_read th_put length]. rewrite val_bytes_length. lia.
        * intros q lq vq Hq Hsq Hvq. rewrite bytes_of_idle by done. pose proof (Hown q lq vq Hq Hsq Hvq) as Hx. exact Hx.
    - destruct Hty as (C&HC&Hs&Hfv'&Hk). destruct (refs_at _ _ _ HC Hf) as (l&v&Hl&Hv&Hfv). destruct (Hac l v Hl Hv) as (H1&H2&H4&H3). cbn [th_read th_put] in H1, H2, H3, H4.
      pose proof (Hown p l v Hl Hs Hv) as Hh. unfold bytes_of in Hh. cbn [th_code th_put] in Hh. rewrite Nat.eqb_refl in Hh.
      cbn beta match. unfold ref_at. rewrite Hl. cbn [todo]. unfold ref_at. rewrite Hl, Hv. destruct (length rd <? l.2) eqn:El.
      + apply Nat.ltb_lt in El. pose proof (H4 El) as ->. cbn [take drop app] in Hh. rewrite drop_0 in Hh. destruct (lookup_lt_is_Some_2 (val_bytes l.2 v) (length rd)) as [b Hb]; [by rewrite val_bytes_length|].
        exists (Thr seen (Replace p v' k) (rd ++ [b]) 0), vt, m. split.
        { unfold read_byte. cbn [th_seen th_code th_read th_put]. unfold bind at 1, get_st. unfold bind at 1. by rewrite (read_one _ _ _ _ _ Hh Hb). }
        split; [|split; [|split; [|by left]]].
        * constructor; [done..| |]; cbn [th_code]; [by exists C|]. intros l' w' Hl' Hw'. cbn [th_read th_put]. rewrite Hl in Hl'. rewrite Hv in Hw'. injection Hl' as <-. injection Hw' as <-.
          rewrite app_length. cbn [length]. split; [lia|]. split; [lia|]. split; [done|]. replace (length rd + 1) with (S (length rd)) by lia. rewrite (take_S_r _ _ _ Hb). by rewrite <- H3.
        * cbn [th_code th_read th_put]. rewrite app_length. cbn [length todo]. unfold ref_at. rewrite Hl, Hv. lia.
        * intros q lq vq Hq Hsq Hvq. exact (Hown q lq vq Hq Hsq Hvq).
      + apply Nat.ltb_ge in El. assert (Elen : length rd = l.2) by lia. rewrite take_ge in H3 by (rewrite val_bytes_length; lia). destruct (put <? l.2) eqn:Ep.
        * apply Nat.ltb_lt in Ep. destruct (lookup_lt_is_Some_2 (val_bytes l.2 v') put) as [b Hb]; [by rewrite val_bytes_length|].
          destruct (write_one _ _ _ put b Hh) as (m'&Es&Hh'&Ho). { rewrite app_length, take_length, drop_length, !val_bytes_length. lia. }
          rewrite (write_next _ _ _ _ _ Hb) in Hh'. exists (Thr seen (Replace p v' k) rd (S put)), vt, m'. split.
          { unfold write_byte. cbn [th_seen th_code th_read th_put]. rewrite Hb. by rewrite (bind_Ret _ _ _ _ _ Es). }
          split; [|split; [|split]].
          -- constructor; [done..| |]; cbn [th_code]; [by exists C|]. intros l' w' Hl' Hw'. cbn [th_read th_put]. rewrite Hl in Hl'. rewrite Hv in Hw'. injection Hl' as <-. injection Hw' as <-.
             split; [lia|]. split; [lia|]. split; [lia|]. rewrite take_ge by (rewrite val_bytes_length; lia). done.
          -- cbn [th_code th_read th_put todo]. unfold ref_at. rewrite Hl, Hv. lia.
          -- intros q lq vq Hq Hsq Hvq. unfold bytes_of. cbn [th_code th_put]. destruct (Nat.eqb_spec p q) as [<-|Hne].
             { rewrite Hl in Hq. rewrite Hv in Hvq. injection Hq as <-. injection Hvq as <-. exact Hh'. }
             pose proof (Hown q lq vq Hq Hsq Hvq) as Hx. unfold bytes_of in Hx. cbn [th_code th_put] in Hx. rewrite (proj2 (Nat.eqb_neq _ _) Hne) in Hx.
             eapply only_at_holds; [exact Ho| |exact Hx]. intros id j Hc1 Hc2. apply Hne. by eapply Hex.
          -- right. exists p, l. done.
        * apply Nat.ltb_ge in Ep. assert (put = l.2) as -> by lia. rewrite take_ge, drop_ge, app_nil_r in Hh by (rewrite val_bytes_length; lia).
          unfold access_done. cbn [th_read th_seen]. rewrite H3, (bytes_val_ok _ _ (Hpos _ _ Hl)).
          exists (Thr (seen ++ [v]) (k v) [] 0), (<[p := v']> vt), m. split; [done|]. split; [|split; [|split; [|by left]]].
          -- constructor; cbn [th_code th_seen].
             ++ rewrite <- (list_insert_id Cs p C HC). by apply Forall2_insert.
             ++ intros q Hq. rewrite list_lookup_insert_ne; [by apply Hfr|]. by intros ->.
             ++ rewrite Hrun. cbn [on_list]. rewrite Hv. cbn [fst snd]. by rewrite <- app_assoc.
             ++ by apply Hk.
             ++ apply fresh_access.
          -- cbn [th_code th_read th_put length]. rewrite val_bytes_length. lia.
          -- intros q lq vq Hq Hsq Hvq. rewrite bytes_of_idle by done. destruct (decide (p = q)) as [<-|Hne].
             { rewrite Hl in Hq. injection Hq as <-. rewrite list_lookup_insert in Hvq by (by eapply lookup_lt_Some). injection Hvq as <-. exact Hh. }
             rewrite list_lookup_insert_ne in Hvq by done. pose proof (Hown q lq vq Hq Hsq Hvq) as Hx. unfold bytes_of in Hx. cbn [th_code th_put] in Hx.
             rewrite (proj2 (Nat.eqb_neq _ _) Hne) in Hx. exact Hx.
  Qed.

  (** All threads. *)
  Definition cur (vss : nat -> list value) (p : nat) : option value := match share p with Some t => vss t !! p | None => vs0 !! p end.
  Definition owner (ths : list thread) (p : nat) : option thread := match share p with Some t => ths !! t | None => None end.
  Record winv (ths : list thread) (vss : nat -> list value) (m : mem) : Prop := Winv {
    wi_threads : forall t, match ths !! t, cds !! t with Some th, Some cd => tinv t th cd (vss t) | None, None => vss t = vs0 | _, _ => False end;
    wi_holds : forall p l v, ls !! p = Some l -> cur vss p = Some v -> holds m l (bytes_of (owner ths p) p l.2 v);
    wi_frame : only_in ls m0 m }.
  Lemma weave_step ths vss m t th : winv ths vss m -> ths !! t = Some th ->
    exists th' vss' m', th_step ls th m = Ret th' m' /\ winv (<[t := th']> ths) vss' m' /\ left th' (vss' t) = pred (left th (vss t)) /\ forall t', t' <> t -> vss' t' = vss t'.
  Proof using Hex Hlen Hfit Hpos.
    intros [Hw Hh Hfr] Ht. pose proof (Hw t) as Hi. rewrite Ht in Hi. destruct (cds !! t) as [cd|] eqn:Ec; [|done].
    destruct (local_step t th cd (vss t) m Hi) as (th'&vt'&m'&E&Hi'&Hle&Hown&Hm).
    - intros p l v Hl Hs Hv. specialize (Hh p l v Hl). unfold cur, owner in Hh. rewrite Hs, Ht in Hh. by apply Hh.
    - intros p l v Hl Hs Hv. specialize (Hh p l v Hl). unfold cur, owner in Hh. rewrite Hs in Hh. apply Hh. rewrite <- (ti_frame _ _ _ _ Hi); [done|]. by rewrite Hs.
    - exists th', (fun t' => if t' =? t then vt' else vss t'), m'. split; [done|]. rewrite Nat.eqb_refl. split; [|split; [done|]].
      2: { intros t' Hne. by rewrite (proj2 (Nat.eqb_neq _ _) Hne). }
      pose proof (lookup_lt_Some _ _ _ Ht) as Hlt. constructor.
      + intros t'. destruct (Nat.eqb_spec t' t) as [->|Hne]; [by rewrite list_lookup_insert, Ec by done|]. rewrite list_lookup_insert_ne by done. apply Hw.
      + intros p l v Hl Hv. unfold cur, owner in *. destruct (decide (share p = Some t)) as [Hs|Hs].
        * rewrite Hs in *. rewrite Nat.eqb_refl in Hv. rewrite list_lookup_insert by done. by apply Hown.
        * assert (Hx : holds m l (bytes_of (owner ths p) p l.2 v)).
          { apply (Hh p l v Hl). unfold cur. destruct (share p) as [t'|]; [|done]. rewrite (proj2 (Nat.eqb_neq t' t)) in Hv; [done|congruence]. }
          assert (Eo : match share p with Some t0 => <[t:=th']> ths !! t0 | None => None end = owner ths p).
          { unfold owner. destruct (share p) as [t'|]; [|done]. apply list_lookup_insert_ne. congruence. }
          rewrite Eo. destruct Hm as [->|(q&lq&Hq&Hlq&Ho)]; [done|]. eapply only_at_holds; [exact Ho| |exact Hx].
          intros id j Hc1 Hc2. apply Hs. rewrite <- Hq. f_equal. by eapply Hex.
      + destruct Hm as [->|(q&lq&Hq&Hlq&Ho)]; [done|]. by eapply only_at_in.
  Qed.
  Lemma weave_ok sched : forall ths vss m, winv ths vss m -> exists ths' vss' m', weave ls sched ths m = Ret ths' m' /\ winv ths' vss' m' /\
    forall t th th', ths !! t = Some th -> ths' !! t = Some th' -> left th' (vss' t) <= left th (vss t) - turns t sched.
  Proof using Hex Hlen Hfit Hpos.
    induction sched as [|t sched IH]; intros ths vss m H; cbn [weave turns].
    { exists ths, vss, m. split; [done|]. split; [done|]. intros t th th' H1 H2. rewrite H1 in H2. injection H2 as <-. lia. }
    destruct (ths !! t) as [th|] eqn:Et.
    - destruct (weave_step _ _ _ _ _ H Et) as (th1&vss1&m1&E1&H1&Hl1&Ho1). destruct (IH _ _ _ H1) as (ths'&vss'&m'&E2&H2&Hl2). exists ths', vss', m'.
      split; [by rewrite (bind_Ret _ _ _ _ _ E1)|]. split; [done|]. intros t' tha thb Ha Hb. destruct (Nat.eqb_spec t t') as [<-|Hne].
      + rewrite Et in Ha. injection Ha as <-. specialize (Hl2 t th1 thb). rewrite list_lookup_insert in Hl2 by (by eapply lookup_lt_Some). specialize (Hl2 eq_refl Hb). lia.
      + specialize (Hl2 t' tha thb). rewrite list_lookup_insert_ne in Hl2 by done. rewrite (Ho1 t') in Hl2 by done. specialize (Hl2 Ha Hb). lia.
    - destruct (IH _ _ _ H) as (ths'&vss'&m'&E2&H2&Hl2). exists ths', vss', m'. split; [done|]. split; [done|]. intros t' tha thb Ha Hb.
      destruct (Nat.eqb_spec t t') as [<-|Hne]; [by rewrite Et in Ha|]. by apply (Hl2 t' tha thb).
  Qed.
  Lemma left_0 t th cd vt : tinv t th cd vt -> left th vt = 0 -> finished th.
  Proof using Hlen Hfit Hpos.
    intros [Hf _ _ Hty Hac] H. destruct th as [seen cdr rd put]. unfold finished, left in *. cbn [th_code th_read th_put] in *. destruct cdr as [|p k|p v' k]; [done|..]; exfalso; cbn [threaded todo] in *.
    - destruct Hty as (C&HC&_). destruct (refs_at _ _ _ HC Hf) as (l&v&Hl&Hv&_). destruct (Hac l v Hl Hv) as (H1&H2&_). cbn [th_read th_put] in *. unfold ref_at in H. rewrite Hl, Hv in H. lia.
    - destruct Hty as (C&HC&_). destruct (refs_at _ _ _ HC Hf) as (l&v&Hl&Hv&_). destruct (Hac l v Hl Hv) as (H1&H2&_). cbn [th_read th_put] in *. unfold ref_at in H. rewrite Hl, Hv in H. lia.
  Qed.
  Lemma weave_start : (forall t cd, cds !! t = Some cd -> threaded Cs share t cd) ->
    (forall p l v, ls !! p = Some l -> vs0 !! p = Some v -> holds m0 l (val_bytes l.2 v)) -> winv (spawn cds) (fun _ => vs0) m0.
  Proof using Hfit Hlen Hpos.
    intros Ht Hh. constructor.
    - intros t. unfold spawn. change (map ?f cds) with (f <$> cds). rewrite list_lookup_fmap. destruct (cds !! t) as [cd|] eqn:E; [|done]. cbn. constructor; cbn [th_code th_seen]; [done..| |by apply Ht|apply fresh_access].
      by destruct (on_list vs0 cd).
    - intros p l v Hl Hv. assert (Hv' : vs0 !! p = Some v) by (unfold cur in Hv; by destruct (share p)). specialize (Hh p l v Hl Hv').
      unfold owner. destruct (share p) as [t|]; [|done]. unfold spawn. change (map ?f cds) with (f <$> cds). rewrite list_lookup_fmap. destruct (cds !! t); [|done]. cbn [fmap option_fmap option_map]. by rewrite bytes_of_idle.
    - split; [apply same_shape_refl|]. done.
  Qed.
End weave.
