(** Proofs for C71, continued: the threads one after the other, and the theorem *)
From Verif Require Import RegModel SpecTrace SpecEntity EntityProofs EntityTable SearchProofs DescrProofs MonadProofs ArchProofs ArchOps ArchOps2 ArchOps3 AregProofs IterProofs
  RegProofs RegOps RegOps2 RegOps3 RegIter RegMut RegExact Refine Ref Sizes Observe ByteReg Bytes Bytes2 Bytes3 Bytes4 Bytes5 Bytes6 Bytes7 Bytes8 Codes Codes2 Threads Threads2
  SpecBytes SpecBase SpecWorld SpecRef SpecCode SpecThreads.
Local Open Scope nat_scope.

Section lists.
  Context (Cs : list ctype) (share : nat -> option nat).
  Definition agree (t : nat) (a b : list value) : Prop := forall q, share q = Some t \/ share q = None -> a !! q = b !! q.
  Lemma fit_insert vs p C v : Forall2 fits Cs vs -> Cs !! p = Some C -> fits C v -> Forall2 fits Cs (<[p := v]> vs).
  Proof. intros H HC Hv. rewrite <- (list_insert_id Cs p C HC). by apply Forall2_insert. Qed.
  Lemma on_list_fits t cd : forall vs, threaded Cs share t cd -> Forall2 fits Cs vs -> Forall2 fits Cs (on_list vs cd).2.
  Proof.
    induction cd as [|p k IH|p v k IH]; intros vs Ht Hf; cbn [threaded on_list] in *; [done|..].
    - destruct Ht as (C&HC&_&Ht). destruct (Forall2_lookup_l _ _ _ _ _ Hf HC) as (x&Hx&Hfx). rewrite Hx. cbn [fst snd]. by apply IH; [apply Ht|].
    - destruct Ht as (C&HC&_&Hfv&Ht). destruct (Forall2_lookup_l _ _ _ _ _ Hf HC) as (x&Hx&Hfx). rewrite Hx. cbn [fst snd]. apply IH; [by apply Ht|]. by eapply fit_insert.
  Qed.
  Lemma on_list_frame t cd q : share q <> Some t -> forall vs, threaded Cs share t cd -> Forall2 fits Cs vs -> (on_list vs cd).2 !! q = vs !! q.
  Proof.
    intros Hq. induction cd as [|p k IH|p v k IH]; intros vs Ht Hf; cbn [threaded on_list] in *; [done|..].
    - destruct Ht as (C&HC&_&Ht). destruct (Forall2_lookup_l _ _ _ _ _ Hf HC) as (x&Hx&Hfx). rewrite Hx. cbn [fst snd]. by apply IH; [apply Ht|].
    - destruct Ht as (C&HC&Hs&Hfv&Ht). destruct (Forall2_lookup_l _ _ _ _ _ Hf HC) as (x&Hx&Hfx). rewrite Hx. cbn [fst snd]. rewrite IH; [|by apply Ht|by eapply fit_insert].
      apply list_lookup_insert_ne. by intros ->.
  Qed.
  Lemma on_list_local t cd : forall a b, threaded Cs share t cd -> Forall2 fits Cs a -> Forall2 fits Cs b -> agree t a b ->
    (on_list a cd).1 = (on_list b cd).1 /\ agree t (on_list a cd).2 (on_list b cd).2.
  Proof.
    induction cd as [|p k IH|p v k IH]; intros a b Ht Ha Hb Hag; cbn [threaded on_list] in *; [done|..].
    - destruct Ht as (C&HC&Hs&Ht). destruct (Forall2_lookup_l _ _ _ _ _ Ha HC) as (x&Hx&Hfx). assert (Hx' : b !! p = Some x) by (by rewrite <- (Hag p Hs)). rewrite Hx, Hx'. cbn [fst snd].
      destruct (IH x a b) as [E1 E2]; [by apply Ht|done..|]. split; [by rewrite E1|done].
    - destruct Ht as (C&HC&Hs&Hfv&Ht). destruct (Forall2_lookup_l _ _ _ _ _ Ha HC) as (x&Hx&Hfx). assert (Hx' : b !! p = Some x) by (rewrite <- (Hag p); [done|by left]). rewrite Hx, Hx'. cbn [fst snd].
      destruct (IH x (<[p := v]> a) (<[p := v]> b)) as [E1 E2]; [by apply Ht|by eapply fit_insert..| |split; [by rewrite E1|done]].
      intros q Hq. destruct (decide (p = q)) as [<-|Hne]; [|rewrite !list_lookup_insert_ne by done; by apply Hag].
      rewrite !list_lookup_insert by (by eapply lookup_lt_Some). done.
  Qed.
  Lemma on_list_then t cd b : forall vs, threaded Cs share t cd -> Forall2 fits Cs vs ->
    on_list vs (and_then cd b) = ((on_list vs cd).1 ++ (on_list (on_list vs cd).2 b).1, (on_list (on_list vs cd).2 b).2).
  Proof.
    induction cd as [|p k IH|p v k IH]; intros vs Ht Hf; cbn [threaded on_list and_then fst snd app] in *; [by destruct (on_list vs b)|..].
    - destruct Ht as (C&HC&_&Ht). destruct (Forall2_lookup_l _ _ _ _ _ Hf HC) as (x&Hx&Hfx). rewrite Hx. cbn [fst snd]. rewrite (IH x vs) by (by try apply Ht). done.
    - destruct Ht as (C&HC&_&Hfv&Ht). destruct (Forall2_lookup_l _ _ _ _ _ Hf HC) as (x&Hx&Hfx). rewrite Hx. cbn [fst snd]. rewrite (IH x _); [done|by apply Ht|by eapply fit_insert].
  Qed.
  Lemma typed_then a b : typed_code Cs a -> typed_code Cs b -> typed_code Cs (and_then a b).
  Proof.
    intros Ha Hb. induction a as [|p k IH|p v k IH]; cbn [typed_code and_then] in *; [done|..].
    - destruct Ha as (C&HC&Ha). exists C. split; [done|]. intros x Hx. by apply IH, Ha.
    - destruct Ha as (C&HC&Hv&Ha). exists C. split; [done|]. split; [done|]. intros x Hx. by apply IH, Ha.
  Qed.
  Lemma threaded_typed t cd : threaded Cs share t cd -> typed_code Cs cd.
  Proof.
    induction cd as [|p k IH|p v k IH]; cbn [threaded typed_code]; [done|..].
    - intros (C&HC&_&H). exists C. split; [done|]. intros x Hx. by apply IH, H.
    - intros (C&HC&_&Hv&H). exists C. split; [done|]. split; [done|]. intros x Hx. by apply IH, H.
  Qed.
  Lemma typed_in_turn cds : (forall t cd, cds !! t = Some cd -> threaded Cs share t cd) -> typed_code Cs (in_turn cds).
  Proof.
    intros H. assert (Ht : Forall (typed_code Cs) cds).
    { apply Forall_lookup. intros t cd Hc. by eapply threaded_typed, H. }
    clear H. unfold in_turn. induction Ht as [|cd cds Hc _ IH]; cbn [foldr]; [done|]. by apply typed_then.
  Qed.
  Lemma in_turn_list vs cds : Forall2 fits Cs vs -> forall t0 a, (forall t cd, cds !! t = Some cd -> threaded Cs share (t0 + t) cd) ->
    Forall2 fits Cs a -> (forall t, t0 <= t -> agree t a vs) ->
    (on_list a (in_turn cds)).1 = concat (map (fun cd => (on_list vs cd).1) cds) /\
    forall p, (on_list a (in_turn cds)).2 !! p =
      match share p with
      | Some t => if t0 <=? t then match cds !! (t - t0) with Some cd => (on_list vs cd).2 !! p | None => a !! p end else a !! p
      | None => a !! p
      end.
  Proof.
    intros Hvs. induction cds as [|cd cds IH]; intros t0 a Ht Ha Hag.
    { split; [done|]. intros p. cbn. destruct (share p); [|done]. by destruct (_ <=? _). }
    pose proof (Ht 0 cd eq_refl) as H0. rewrite Nat.add_0_r in H0. change (in_turn (cd :: cds)) with (and_then cd (in_turn cds)). rewrite (on_list_then t0) by done. cbn [fst snd map concat].
    destruct (on_list_local t0 cd a vs H0 Ha Hvs (Hag t0 (le_n _))) as [E1 E2].
    destruct (IH (S t0) (on_list a cd).2) as [F1 F2].
    - intros t cd' Hc. replace (S t0 + t) with (t0 + S t) by lia. by apply (Ht (S t)).
    - by eapply on_list_fits.
    - intros t Hle q Hq. rewrite (on_list_frame t0) by (done || (destruct Hq as [->| ->]; [intros [= ->]; lia|done])). apply (Hag t); [lia|done].
    - split; [by rewrite E1, F1|]. intros p. rewrite F2. destruct (share p) as [t|] eqn:Es.
      2: { by rewrite (on_list_frame t0) by (done || by rewrite Es). }
      destruct (Nat.leb_spec (S t0) t).
      + rewrite (proj2 (Nat.leb_le t0 t)) by lia. replace (t - t0) with (S (t - S t0)) by lia. cbn [lookup list_lookup].
        change ((fix go (i : nat) (l : list code) {struct l} := _) ) with (fun i (l : list code) => l !! i). 
        destruct (cds !! (t - S t0)); [done|]. rewrite (on_list_frame t0) by (done || (rewrite Es; intros [= ->]; lia)). done.
      + destruct (Nat.leb_spec t0 t).
        * assert (t = t0) as -> by lia. rewrite Nat.sub_diag. cbn. apply E2. by left.
        * by rewrite (on_list_frame t0) by (done || (rewrite Es; intros [= ->]; lia)).
  Qed.
End lists.

(** What one thread does to memory. *)
Section serve.
  Context (ls : list bloc) (Hex : exclusive ls) (m0 : mem).
  Definition reads (m : mem) (vs : list value) : Prop := forall (p : nat) (l : bloc) v, ls !! p = Some l -> vs !! p = Some v -> holds m l (val_bytes l.2 v).
  Lemma bytes_val_len bs v : bytes_val bs = Some v -> bs = val_bytes (length bs) v /\ 0 < length bs.
  Proof. unfold bytes_val. destruct bs as [|[|w i|] bs]; [done..| |done]. destruct (decide _) as [E|]; [|done]. intros [= <-]. split; [done|cbn; lia]. Qed.
  Lemma b_serve_reads cd : forall vs R out R', reads (br_mem R) vs -> only_in ls m0 (br_mem R) -> length ls = length vs ->
    b_serve ls cd R = Ret out R' -> reads (br_mem R') (on_list vs cd).2 /\ only_in ls m0 (br_mem R').
  Proof using Hex.
    induction cd as [|p k IH|p v k IH]; intros vs R out R' Hr Ho Hl E; cbn [b_serve on_list] in *; [by injection E as _ <-|..].
    - destruct (ls !! p) as [l|] eqn:Ep; [|done]. destruct (lookup_lt_is_Some_2 vs p) as [x Hx]; [rewrite <- Hl; by eapply lookup_lt_Some|]. rewrite Hx. cbn [fst snd].
      apply bind_Ret_inv in E as (y&R1&E1&E). apply bind_Ret_inv in E as (seen&R2&E2&E). injection E as _ <-.
      unfold b_look in E1. apply bind_Ret_inv in E1 as (bs&R3&E3&E1). unfold bq_mrd in E3. pose proof (Hr p l x Ep Hx) as Hh. unfold holds in Hh. rewrite Hh in E3. injection E3 as <- <-.
      destruct (bytes_val _) as [y'|] eqn:Eb; [|done]. injection E1 as <- <-. destruct (bytes_val_len _ _ Eb) as [Eq Hlt]. rewrite bytes_val_ok in Eb by (by rewrite val_bytes_length in Hlt). injection Eb as <-.
      by eapply IH.
    - destruct (ls !! p) as [l|] eqn:Ep; [|done]. destruct (lookup_lt_is_Some_2 vs p) as [x Hx]; [rewrite <- Hl; by eapply lookup_lt_Some|]. rewrite Hx. cbn [fst snd].
      apply bind_Ret_inv in E as (y&R1&E1&E). apply bind_Ret_inv in E as (seen&R2&E2&E). injection E as _ <-.
      unfold b_replace in E1. apply bind_Ret_inv in E1 as (bs&R3&E3&E1). unfold bq_mrd in E3. pose proof (Hr p l x Ep Hx) as Hh. unfold holds in Hh. rewrite Hh in E3. injection E3 as <- <-.
      destruct (bytes_val _) as [y'|] eqn:Eb; [|done]. destruct (bytes_val_len _ _ Eb) as [Eq Hlt]. rewrite bytes_val_ok in Eb by (by rewrite val_bytes_length in Hlt). injection Eb as <-.
      destruct (write_all _ _ _ (val_bytes l.2 v) Hh) as (m'&Es&Hh'&Hat); [by rewrite !val_bytes_length|].
      apply bind_Ret_inv in E1 as ([]&R4&E4&E1). injection E1 as <- <-. unfold bq_mem in E4. rewrite Es in E4. injection E4 as <-.
      eapply IH; [| | |exact E2]; cbn [br_mem].
      + intros q lq vq Hq Hvq. destruct (decide (p = q)) as [<-|Hne].
        * rewrite Ep in Hq. injection Hq as <-. rewrite list_lookup_insert in Hvq by (by eapply lookup_lt_Some). by injection Hvq as <-.
        * rewrite list_lookup_insert_ne in Hvq by done. eapply only_at_holds; [exact Hat| |by apply (Hr q)]. intros id j Hc1 Hc2. apply Hne. by eapply Hex.
      + by eapply only_at_in.
      + by rewrite insert_length.
  Qed.
End serve.

Section theorem.
  Context {Fm : family} (c : cfg) (U : list ctype) (place : N -> N) (ops : list op) (out : list output) (R : breg).
  Context (ls : list bloc) (who : list (N * ctype)) (vs : list value).
  Notation Cs := (map snd who).
  Lemma like_alone_ok : length ls = length who -> length vs = length who -> exclusive ls -> like_list_bytes c U place ops out R ls who vs -> like_alone c U place ops out R ls who vs.
  Proof.
    intros Hl1 Hl2 Hex Hlike.
    (* the values have the types of the references *)
    assert (Hview : forall (p : nat) (l : bloc) v, ls !! p = Some l -> vs !! p = Some v -> holds (br_mem R) l (val_bytes l.2 v) /\ 0 < l.2 /\ forall C, Cs !! p = Some C -> fits C v).
    { intros p l v Hp Hv. destruct (lookup_lt_is_Some_2 who p) as [x Hx]; [rewrite <- Hl1; by eapply lookup_lt_Some|].
      assert (HC : Cs !! p = Some x.2) by (change Cs with (snd <$> who); by rewrite list_lookup_fmap, Hx).
      destruct (Hlike (Look p (fun v => if (v_ty v =? ct_ty x.2)%N then Stop else Look (length ls) (fun _ => Stop)))) as (R'&E&_).
      { exists x.2. split; [done|]. intros y Hy. unfold fits in Hy. rewrite (proj2 (N.eqb_eq _ _) Hy). done. }
      cbn [b_serve on_list] in E. rewrite Hp, Hv in E. cbn [fst snd] in E.
      apply bind_Ret_inv in E as (y&R1&E1&E). apply bind_Ret_inv in E as (seen&R2&E2&E). injection E as E _ _.
      unfold b_look in E1. apply bind_Ret_inv in E1 as (bs&R3&E3&E1). unfold bq_mrd in E3. destruct (load _ _ _) as [bs'| |] eqn:Eld; [|done..]. injection E3 as -> <-.
      destruct (bytes_val bs) as [y'|] eqn:Eb; [|done]. injection E1 as <- <-. subst y'. destruct (bytes_val_len _ _ Eb) as [Eq Hlt].
      assert (Elen : length bs = l.2). { destruct l as [[[id off]|] n]; [|done]. cbn [fst snd] in *. by apply load_spec in Eld as (_&?&_). }
      split; [unfold holds; by rewrite Eld, Eq, Elen at 1|]. split; [lia|]. intros C HC'. rewrite HC in HC'. injection HC' as <-.
      unfold fits. destruct (N.eqb_spec (v_ty v) (ct_ty x.2)); [done|]. cbn [b_serve] in E2. rewrite lookup_ge_None_2 in E2 by lia. done. }
    assert (Hfit : Forall2 fits Cs vs).
    { apply Forall2_same_length_lookup_2; [by rewrite map_length|]. intros p C v HC Hv. destruct (lookup_lt_is_Some_2 ls p) as [l Hp]; [rewrite Hl1, <- Hl2; by eapply lookup_lt_Some|].
      by apply (Hview p l v). }
    assert (Hlen : length ls = length vs) by congruence.
    assert (Hpos : forall (p : nat) (l : bloc), ls !! p = Some l -> 0 < l.2).
    { intros p l Hp. destruct (lookup_lt_is_Some_2 vs p) as [v Hv]; [rewrite <- Hlen; by eapply lookup_lt_Some|]. by apply (Hview p l v). }
    intros share cds Ht. destruct (in_turn_list Cs share vs cds Hfit 0 vs Ht Hfit ltac:(done)) as [Hseen Hfin].
    assert (Hfin' : forall p, (on_list vs (in_turn cds)).2 !! p = match share p with Some t => match cds !! t with Some cd => (on_list vs cd).2 !! p | None => vs !! p end | None => vs !! p end).
    { intros p. rewrite Hfin. destruct (share p) as [t|]; [|done]. cbn [Nat.leb]. by rewrite Nat.sub_0_r. }
    pose proof (weave_start ls Cs share vs cds (br_mem R) Hfit Hlen Hpos Ht) as Hstart. specialize (Hstart ltac:(intros p l v Hp Hv; by apply (Hview p l v))).
    split; [|split; [|done]].
    - intros sched. destruct (weave_ok ls Cs share vs cds (br_mem R) Hex Hfit Hlen Hpos sched _ _ _ Hstart) as (ths&vss&m&E&Hw&_). exists ths, m. split; [done|].
      assert (Hths : Forall2 (fun th cd => exists t, tinv ls Cs share vs t th cd (vss t) /\ ths !! t = Some th /\ cds !! t = Some cd) ths cds).
      { apply Forall2_same_length_lookup_2.
        - apply Nat.le_antisymm; apply Nat.nlt_ge; intros Hlt; apply lookup_lt_is_Some_2 in Hlt as Hs; destruct Hs as [y Hy]; pose proof (wi_threads _ _ _ _ _ _ _ _ _ Hw) as Hq.
          + specialize (Hq (length cds)). rewrite Hy, (lookup_ge_None_2 cds) in Hq by lia. done.
          + specialize (Hq (length ths)). rewrite Hy, (lookup_ge_None_2 ths) in Hq by lia. done.
        - intros t th cd H1 H2. exists t. pose proof (wi_threads _ _ _ _ _ _ _ _ _ Hw t) as Hq. rewrite H1, H2 in Hq. done. }
      split. { eapply Forall2_impl; [exact Hths|]. intros th cd (t&[_ _ Hrun _ _]&_). rewrite Hrun. by eexists. }
      intros Hdone. assert (Hstop : forall t th cd, ths !! t = Some th -> cds !! t = Some cd -> on_list vs cd = (th_seen th, vss t)).
      { intros t th cd H1 H2. pose proof (wi_threads _ _ _ _ _ _ _ _ _ Hw t) as Hq. rewrite H1, H2 in Hq. destruct Hq as [_ _ Hrun _ _]. rewrite Hrun.
        rewrite (Forall_lookup_1 _ _ _ _ Hdone H1). cbn [on_list fst snd]. by rewrite app_nil_r. }
      split.
      { clear -Hths Hstop. apply list_eq. intros t. change (map th_seen ths) with (th_seen <$> ths). change (map ?f cds) with (f <$> cds). rewrite !list_lookup_fmap.
        destruct (ths !! t) as [th|] eqn:E1, (cds !! t) as [cd|] eqn:E2; cbn; [by rewrite (Hstop _ _ _ E1 E2)|..|done].
        - destruct (Forall2_lookup_l _ _ _ _ _ Hths E1) as (?&?&_). congruence.
        - destruct (Forall2_lookup_r _ _ _ _ _ Hths E2) as (?&?&_). congruence. }
      destruct (Hlike (in_turn cds) (typed_in_turn Cs share cds Ht)) as (R'&E1&E2&E3). exists R'. split; [|done].
      destruct (b_serve_reads ls Hex (br_mem R) (in_turn cds) vs R (on_list vs (in_turn cds)).1 R') as [Hr Ho]; [|split; [apply same_shape_refl|done]|done|exact E1|].
      { intros p l v Hp Hv. by apply (Hview p l v). }
      symmetry. eapply only_in_eq; [exact Ho|exact (wi_frame _ _ _ _ _ _ _ _ _ Hw)|]. intros p l Hp.
      assert (Hc : exists v, cur share vs vss p = Some v /\ (on_list vs (in_turn cds)).2 !! p = Some v /\ bytes_of (owner share ths p) p l.2 v = val_bytes l.2 v).
      { rewrite Hfin'. unfold cur, owner. destruct (lookup_lt_is_Some_2 vs p) as [v Hv]; [rewrite <- Hlen; by eapply lookup_lt_Some|].
        destruct (share p) as [t|] eqn:Es; [|by exists v]. pose proof (wi_threads _ _ _ _ _ _ _ _ _ Hw t) as Hq.
        destruct (ths !! t) as [th|] eqn:E4, (cds !! t) as [cd|] eqn:E5; [|done..|rewrite Hq; by exists v].
        rewrite (Hstop _ _ _ E4 E5). cbn [snd]. destruct Hq as [Hf _ _ _ _].
        destruct (lookup_lt_is_Some_2 (vss t) p) as [v' Hv']; [rewrite <- (Forall2_length _ _ _ Hf), (Forall2_length _ _ _ Hfit); by eapply lookup_lt_Some|].
        exists v'. split; [done|]. split; [done|]. unfold bytes_of. by rewrite (Forall_lookup_1 _ _ _ _ Hdone E4). }
      destruct Hc as (v&Hc1&Hc2&Hc3). exists (val_bytes l.2 v). split; [by apply (Hr p)|]. rewrite <- Hc3. by apply (wi_holds _ _ _ _ _ _ _ _ _ Hw).
    - intros t cd Hc. exists (todo ls vs cd). intros sched ths m E Hn.
      destruct (weave_ok ls Cs share vs cds (br_mem R) Hex Hfit Hlen Hpos sched _ _ _ Hstart) as (ths'&vss&m'&E'&Hw&Hleft). rewrite E in E'. injection E' as <- <-.
      pose proof (wi_threads _ _ _ _ _ _ _ _ _ Hw t) as Hq. rewrite Hc in Hq. destruct (ths !! t) as [th|] eqn:Eth; [|done]. exists th. split; [done|].
      eapply left_0; [exact Hfit|exact Hlen|exact Hpos|exact Hq|]. specialize (Hleft t (Thr [] cd [] 0) th). unfold spawn in Hleft. change (map ?f cds) with (f <$> cds) in Hleft.
      rewrite list_lookup_fmap, Hc in Hleft. specialize (Hleft eq_refl Eth). unfold left at 2 in Hleft. cbn [th_code th_read th_put length] in Hleft. lia.
  Qed.
End theorem.

Section elements.
  Context {Fm : family} (c : cfg) (U : list ctype) (HU : universe (big c) U) (Hla : laid_out U).
  Notation be := (big c).
  Notation brel := (@Bytes5.brel U []).
  Let Hst : strict (ids_of U) := proj1 HU.
  Let Hsm : Forall small U := proj1 (proj2 HU).
  Lemma aimed_alone place ops out r w R ls bls who vs : within be U ops book_empty -> brun c ops (breg_default place) = Ret out R -> brel r R ->
    aimed c U r w ls who vs -> Forall2 (lr (descs r) (br_archs R)) ls bls -> exclusive bls -> like_alone c U place ops out R bls who vs.
  Proof using HU Hla.
    intros Hw Er Hb Ha Hl Hex. pose proof (aimed_bytes c U HU Hla place ops out r w R ls bls who vs Hw Er Hb Ha Hl) as Hlike. destruct Ha as (T&H&Hp&Hn&Hv).
    apply like_alone_ok; [|by symmetry; eapply Forall2_length|done..]. rewrite <- (Forall2_length _ _ _ Hl). by eapply Forall2_length.
  Qed.
  Section program.
    Context (place : N -> N) (ops : list op) (out : list output) (R : breg).
    Context (Hw : within be U ops book_empty) (Er : brun c ops (breg_default place) = Ret out R).
    Lemma matching_threads G : in_U U G -> gvalid be G ->
      exists refs items, b_iter_entity_matching_mut c G R = Rd (Some refs) /\ b_iter_matching_mut c G R = Rd (Some (map snd refs)) /\
        b_iter_entity_matching c G R = Rd (Some items) /\ map fst refs = map fst items /\
        like_alone c U place ops out R (concat (concat (map snd refs))) (concat (map (owners G) (map fst items))) (concat (concat (map snd items))).
    Proof using HU Hla Hw Er.
      intros HG Hv. destruct (brun_history c U HU Hla place ops Hw) as (r&R1&w&I&O&_&Eb&Hh&H). rewrite Er in Eb. injection Eb as _ <-.
      destruct (gspec_valid c G Hv) as [s Hg]. destruct (matching_aimed c U HU r w I O Hh G HG Hv) as (refs&items&E1&E2&E3&E4&_&Ha).
      destruct (iter_emut_sim c U HU Hla _ _ _ _ _ _ Hg HG H E1) as ([brefs|]&F1&Q1); [|done]. destruct (iter_mut_sim c U HU Hla _ _ _ _ _ _ Hg HG H E2) as ([brefs2|]&F2&Q2); [|done].
      cbn [oorel] in Q1, Q2. pose proof (map_snd_eq _ _ _ _ _ Q1 Q2) as ->. destruct (elr_refs _ _ _ _ Q1) as [Ef Hl]. exists brefs, items. split; [exact F1|]. split; [exact F2|]. split; [|split].
      - eapply (slices_collect_eq (U := U) (L := [])); [exact H| |exact E3]. intros a A x Hr. by apply (entity_fuzzy_slices_sim Hst Hsm Hla _ _ _ Hg HG).
      - congruence.
      - destruct (matching_refs c U HU Hla place ops out R G Hw Er HG Hv) as (its&eits&_&_&_&Ee&_&Hex). pose proof (eq_trans (eq_sym F1) Ee) as Ex. injection Ex as <-. by eapply aimed_alone.
    Qed.
    Lemma filtered_threads G f : in_U U G -> gvalid be G -> respects f ->
      exists refs items, b_iter_entity_filtered_mut c G f R = Rd (Some refs) /\ b_iter_filtered_mut c G f R = Rd (Some (map snd refs)) /\
        b_iter_entity_filtered c G f R = Rd (Some items) /\ map fst refs = map fst items /\
        like_alone c U place ops out R (concat (concat (map snd refs))) (concat (map (owners G) (map fst items))) (concat (concat (map snd items))).
    Proof using HU Hla Hw Er.
      intros HG Hv Hf. destruct (brun_history c U HU Hla place ops Hw) as (r&R1&w&I&O&_&Eb&Hh&H). rewrite Er in Eb. injection Eb as _ <-.
      destruct (gspec_valid c G Hv) as [s Hg]. destruct (filtered_aimed c U HU r w I O Hh G f HG Hv Hf) as (refs&items&E1&E2&E3&E4&_&Ha).
      destruct (iter_emut_sim c U HU Hla _ _ _ _ _ _ Hg HG H E1) as ([brefs|]&F1&Q1); [|done]. destruct (iter_mut_sim c U HU Hla _ _ _ _ _ _ Hg HG H E2) as ([brefs2|]&F2&Q2); [|done].
      cbn [oorel] in Q1, Q2. pose proof (map_snd_eq _ _ _ _ _ Q1 Q2) as ->. destruct (elr_refs _ _ _ _ Q1) as [Ef Hl]. exists brefs, items. split; [exact F1|]. split; [exact F2|]. split; [|split].
      - eapply (slices_collect_eq (U := U) (L := [])); [exact H| |exact E3]. intros a A x Hr. by apply (entity_fuzzy_slices_sim Hst Hsm Hla _ _ _ Hg HG).
      - congruence.
      - destruct (filtered_refs c U HU Hla place ops out R G f Hw Er HG Hv Hf) as (its&eits&_&_&_&Ee&_&Hex). pose proof (eq_trans (eq_sym F1) Ee) as Ex. injection Ex as <-. by eapply aimed_alone.
    Qed.
    Lemma exact_threads_pre G : in_U U G -> gvalid be G -> known be U G ->
      exists refs it, b_entity_exact_mut c G R = Rd refs /\ b_exact_mut c G R = Rd refs.2 /\ b_entity_exact c G R = Rd it /\ refs.1 = it.1 /\
        (exclusive (concat refs.2) -> like_alone c U place ops out R (concat refs.2) (owners G it.1) (concat it.2)).
    Proof using HU Hla Hw Er.
      intros HG Hv Hkn. destruct (brun_history c U HU Hla place ops Hw) as (r&R1&w&I&O&_&Eb&Hh&H). rewrite Er in Eb. injection Eb as _ <-.
      destruct (exact_aimed c U HU r w I O Hh G HG Hv Hkn) as (refs&it&E1&E2&E3&E4&_&Ha). destruct (history_ok c U HU _ _ _ _ Hh) as (T&D&Hok&_).
      unfold iter_entity_components_exact_mut in E1. unfold iter_entity_components_exact in E3. unfold b_exact_mut, b_entity_exact_mut, b_entity_exact.
      destruct (exact_sim c U HU _ _ _ _ _ Hok HG Hv Hkn H) as [(Ef&->)|(i&a&A&s&Ef&->&Hi&HA&Hr&Hg&Hcs)]; rewrite Ef in E1, E3; cbn [rbind] in *.
      - injection E1 as <-. injection E3 as <-. exists ([], empty_slices G), ([], empty_slices G). do 4 (split; [done|]). intros Hex. eapply aimed_alone; [done..|exact Ha| |exact Hex].
        apply Forall2_concat2, empty_lr.
      - destruct (entities a) as [es| |] eqn:Ee; cbn [rbind] in *; [|done..].
        destruct (get_slices_exact_mut c G a) as [cols| |] eqn:Ec; cbn [rbind] in *; [|done..]. destruct (get_slices_exact c G a) as [vcols| |] eqn:Ev; cbn [rbind] in *; [|done..].
        injection E1 as <-. injection E3 as <-. rewrite (entities_sim _ _ _ _ Hr Ee). cbn [rbind].
        destruct (slices_exact_mut_sim Hsm Hla _ _ _ Hg HG _ _ _ _ _ eq_refl Hcs Hr Ec) as (bcols&->&Hb). rewrite (slices_exact_sim Hsm Hla _ _ _ Hg HG _ _ _ _ _ eq_refl Hcs Hr Ev). cbn [rbind].
        exists (es, bcols), (es, vcols). do 4 (split; [done|]). intros Hex. eapply aimed_alone; [done..|exact Ha| |exact Hex]. cbn [snd]. apply Forall2_concat2. by eapply locate_lr.
    Qed.
    Lemma tuple_threads_pre G h : in_U U G -> gvalid be G ->
      exists res vals, b_get_all_mut c G h R = Rd res /\ b_get_all c G h R = Rd vals /\
        match res, vals with
        | Some ls, Some vs => exclusive ls -> like_alone c U place ops out R ls (map (fun C => (h, C)) G) vs
        | None, None => True
        | _, _ => False
        end.
    Proof using HU Hla Hw Er.
      intros HG Hv. destruct (brun_history c U HU Hla place ops Hw) as (r&R1&w&I&O&_&Eb&Hh&H). rewrite Er in Eb. injection Eb as _ <-.
      destruct (tuple_aimed c U HU r w I O Hh G h HG Hv) as (res&E1&E2&Ha). destruct (gspec_valid c G Hv) as [s Hg].
      unfold get_components_mut in E1. unfold get_components in E2. unfold b_get_all_mut, b_get_all. rewrite (entry_same _ _ _ _ H). destruct (entry_of c r h) as [e|].
      2: { exists None, None. done. }
      unfold arch_at in E1, E2. unfold b_arch_at. fold (archs r) in E1, E2. destruct (archs r !! e_arch c e) as [a|] eqn:Ea; [|done]. destruct (brel_at _ _ _ _ H Ea) as (A&EA&Hr). rewrite EA. cbn [rbind] in *.
      rewrite (ar_desc _ _ _ Hr). destruct (negb _); [by exists None, None|].
      destruct (get_fuzzy_components_mut c G (e_row e) a) as [ls| |] eqn:Eg; cbn [rbind] in E1; [|done..]. injection E1 as <-.
      destruct (get_fuzzy_components c G (e_row e) a) as [vs| |] eqn:Ev; cbn [rbind] in E2; [|done..]. injection E2 as E2. rewrite <- E2 in Ha.
      destruct (fuzzy_components_mut_sim Hst Hsm Hla _ _ _ Hg HG _ _ _ _ _ _ eq_refl Hr Eg) as (bls&->&Hl).
      rewrite (fuzzy_components_sim Hst Hsm Hla _ _ _ Hg HG _ _ _ _ _ _ eq_refl Hr Ev). cbn [rbind]. exists (Some bls), (Some vs). do 2 (split; [done|]).
      intros Hex. eapply aimed_alone; [done..|exact Ha| |exact Hex]. apply Forall2_fmap_l. eapply Forall2_impl; [exact Hl|]. intros [idx row] bl Hb. by eapply lrel_lr.
    Qed.
    Lemma exact_threads G : in_U U G -> gvalid be G -> known be U G ->
      exists refs it, b_entity_exact_mut c G R = Rd refs /\ b_exact_mut c G R = Rd refs.2 /\ b_entity_exact c G R = Rd it /\ refs.1 = it.1 /\
        like_alone c U place ops out R (concat refs.2) (owners G it.1) (concat it.2).
    Proof using HU Hla Hw Er.
      intros HG Hv Hkn. destruct (exact_threads_pre G HG Hv Hkn) as (refs&it&E1&E2&E3&E4&H). exists refs, it. do 4 (split; [done|]). apply H.
      destruct (exact_refs c U HU Hla place ops out R G Hw Er HG Hv Hkn) as (es&cols&_&Ee&_&Hex). rewrite E1 in Ee. injection Ee as ->. exact Hex.
    Qed.
    Lemma tuple_threads G h : in_U U G -> gvalid be G ->
      exists res vals, b_get_all_mut c G h R = Rd res /\ b_get_all c G h R = Rd vals /\
        match res, vals with
        | Some ls, Some vs => like_alone c U place ops out R ls (map (fun C => (h, C)) G) vs
        | None, None => True
        | _, _ => False
        end.
    Proof using HU Hla Hw Er.
      intros HG Hv. destruct (tuple_threads_pre G h HG Hv) as (res&vals&E1&E2&H). exists res, vals. do 2 (split; [done|]). destruct res as [ls|], vals as [vs|]; [|done..].
      destruct (tuple_refs c U HU Hla place ops out R G h Hw Er HG Hv) as (res&Ee&Hex). rewrite E1 in Ee. injection Ee as <-. apply H, (Hex _ eq_refl).
    Qed.
  End program.
End elements.
