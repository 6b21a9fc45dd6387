(** Proofs for C71 *)
From Verif Require Import MonadProofs ByteReg Bytes Codes2 Bytes8 SpecBytes SpecBase SpecWorld SpecRef SpecCode SpecThreads.
Local Open Scope nat_scope.

(** ** Memory, byte by byte *)
Definition bytes_in (m : mem) (id : N) : option (list mbyte) := hb_bytes <$> m_blocks m !! id.
Definition byte (m : mem) (id : N) (k : nat) : option mbyte := bytes_in m id ≫= fun bs => bs !! k.
Definition shape (b : hblk) : N * N * nat := (hb_base b, hb_align b, length (hb_bytes b)).
Definition same_shape (m m' : mem) : Prop :=
  m_next m' = m_next m /\ m_place m' = m_place m /\ m_env m' = m_env m /\ forall id, shape <$> m_blocks m' !! id = shape <$> m_blocks m !! id.
Lemma same_shape_refl m : same_shape m m.
Proof. by repeat split. Qed.
Lemma same_shape_trans m1 m2 m3 : same_shape m1 m2 -> same_shape m2 m3 -> same_shape m1 m3.
Proof. intros (A1&A2&A3&A4) (B1&B2&B3&B4). split; [congruence|]. split; [congruence|]. split; [congruence|]. intros id. by rewrite B4, A4. Qed.
Lemma mem_ext m m' : same_shape m m' -> (forall id k, byte m' id k = byte m id k) -> m' = m.
Proof.
  destruct m as [bl nx pl en], m' as [bl' nx' pl' en']. intros (H1&H2&H3&H4) Hb. cbn in H1, H2, H3. subst. f_equal. apply map_eq. intros id.
  specialize (H4 id). specialize (Hb id). unfold byte, bytes_in in Hb. cbn [m_blocks] in *.
  destruct (bl' !! id) as [[b1 a1 l1]|], (bl !! id) as [[b2 a2 l2]|]; cbn in H4; try done. injection H4 as -> -> Hl. f_equal. f_equal.
  apply list_eq. exact Hb.
Qed.
Definition in_range (m : mem) (id : N) (n : nat) : Prop := exists bs, bytes_in m id = Some bs /\ n <= length bs.
Lemma in_range_shape m m' id n : same_shape m m' -> in_range m id n -> in_range m' id n.
Proof.
  intros (_&_&_&H) (bs&E&Hn). specialize (H id). unfold in_range, bytes_in in *. destruct (m_blocks m !! id) as [b|]; [|done]. injection E as <-.
  destruct (m_blocks m' !! id) as [b'|]; [|done]. injection H as _ _ Hl. exists (hb_bytes b'). split; [done|]. lia.
Qed.
Lemma load_spec m id off n bs : load m (Some (id, off)) n = Rd bs <->
  in_range m id (off + n) /\ length bs = n /\ forall j, j < n -> byte m id (off + j) = bs !! j.
Proof.
  unfold load, in_range, byte, bytes_in. destruct (m_blocks m !! id) as [b|]; cbn.
  2: { split; [done|]. intros ((?&?&_)&_). done. }
  destruct (off + n <=? length (hb_bytes b)) eqn:E.
  - apply Nat.leb_le in E. split.
    + intros [= <-]. split; [by eexists|]. split; [rewrite take_length, drop_length; lia|]. intros j Hj. by rewrite lookup_take, lookup_drop by done.
    + intros (_&Hl&Hj). f_equal. apply list_eq. intros j. destruct (decide (j < n)).
      * rewrite lookup_take, lookup_drop by done. by apply Hj.
      * rewrite lookup_take_ge by lia. symmetry. apply lookup_ge_None_2. lia.
  - apply Nat.leb_gt in E. split; [done|]. intros ((bs'&[= <-]&?)&_). lia.
Qed.
Lemma store_spec m id off bs : in_range m id (off + length bs) -> exists m', store (Some (id, off)) bs m = Ret tt m' /\ same_shape m m' /\
  (forall j, j < length bs -> byte m' id (off + j) = bs !! j) /\
  (forall id' k, ~ (id' = id /\ off <= k < off + length bs) -> byte m' id' k = byte m id' k).
Proof.
  intros (bs0&E&Hn). unfold bytes_in in E. destruct (m_blocks m !! id) as [b|] eqn:Eb; [|done]. injection E as <-.
  unfold store. rewrite Eb. assert (E : off + length bs <=? length (hb_bytes b) = true) by (by apply Nat.leb_le). rewrite E. eexists. split; [done|]. split; [|split].
  - split; [done|]. split; [done|]. split; [done|]. intros id'. cbn [m_blocks]. destruct (decide (id' = id)) as [->|].
    + rewrite lookup_insert, Eb. cbn. unfold shape. cbn. rewrite !app_length, take_length, drop_length. do 2 f_equal. lia.
    + by rewrite lookup_insert_ne.
  - intros j Hj. unfold byte, bytes_in. cbn [m_blocks]. rewrite lookup_insert. cbn. rewrite lookup_app_r by (rewrite take_length; lia).
    rewrite take_length, Nat.min_l by lia. rewrite lookup_app_l by lia. f_equal. lia.
  - intros id' k Hk. unfold byte, bytes_in. cbn [m_blocks]. destruct (decide (id' = id)) as [->|]; [|by rewrite lookup_insert_ne].
    rewrite lookup_insert, Eb. cbn. destruct (decide (k < off)).
    + rewrite lookup_app_l by (rewrite take_length; lia). by rewrite lookup_take.
    + rewrite lookup_app_r by (rewrite take_length; lia). rewrite take_length, Nat.min_l by lia.
      rewrite lookup_app_r by lia. rewrite lookup_drop. f_equal. lia.
Qed.

(** ** References *)
Definition apart (l l' : bloc) : Prop := forall id k, covers_byte l id k -> ~ covers_byte l' id k.
Definition holds (m : mem) (l : bloc) (bs : list mbyte) : Prop := load m l.1 l.2 = Rd bs.
(** The memories differ at most in the bytes of [l]. *)
Definition only_at (l : bloc) (m m' : mem) : Prop := same_shape m m' /\ forall id k, ~ covers_byte l id k -> byte m' id k = byte m id k.
Definition only_in (ls : list bloc) (m m' : mem) : Prop := same_shape m m' /\ forall id k, (forall p l, ls !! p = Some l -> ~ covers_byte l id k) -> byte m' id k = byte m id k.
Lemma holds_ptr m l bs : holds m l bs -> exists id off, l = (Some (id, off), length bs).
Proof. destruct l as [[[id off]|] n]; unfold holds; cbn [fst snd]; [|done]. intros H. exists id, off. by destruct (proj1 (load_spec _ _ _ _ _) H) as (_&->&_). Qed.
Lemma only_at_holds l l' m m' bs : only_at l m m' -> apart l' l -> holds m l' bs -> holds m' l' bs.
Proof.
  intros (Hs&Hb) Ha H. destruct (holds_ptr _ _ _ H) as (id&off&->). unfold holds in *. cbn [fst snd] in *. apply load_spec in H as (Hr&Hl&Hj). apply load_spec.
  split; [by eapply in_range_shape|]. split; [done|]. intros j Hj'. rewrite Hb; [by apply Hj|]. apply Ha. exists off. split; [done|]. cbn [snd]. lia.
Qed.
Lemma only_at_in ls p l m0 m m' : ls !! p = Some l -> only_in ls m0 m -> only_at l m m' -> only_in ls m0 m'.
Proof.
  intros Hp (Hs&Hb) (Hs'&Hb'). split; [by eapply same_shape_trans|]. intros id k Hk. rewrite Hb'; [by apply Hb|by eapply Hk].
Qed.
(** Two memories that differ from [m0] at most in the references and hold the same there. *)
Lemma only_in_eq ls m0 m m' : only_in ls m0 m -> only_in ls m0 m' ->
  (forall p l, ls !! p = Some l -> exists bs, holds m l bs /\ holds m' l bs) -> m' = m.
Proof.
  intros (Hs&Hb) (Hs'&Hb') Hv. apply mem_ext.
  - destruct Hs as (A1&A2&A3&A4), Hs' as (B1&B2&B3&B4). split; [congruence|]. split; [congruence|]. split; [congruence|]. intros id. by rewrite A4, B4.
  - intros id k.
    set (cov := fun l : bloc => match l.1 with Some (id', off) => (id' =? id)%N && (off <=? k) && (k <? off + l.2) | None => false end).
    assert (Hcov : forall l, cov l = true <-> covers_byte l id k).
    { intros [[[id' off]|] n]; unfold cov, covers_byte; cbn [fst snd]; [|split; [done|by intros (?&?&_)]].
      rewrite !andb_true_iff, N.eqb_eq, Nat.leb_le, Nat.ltb_lt. split; [intros [[-> ?] ?]; by exists off|]. intros (o&[= -> ->]&?). lia. }
    destruct (existsb cov ls) eqn:He.
    + apply existsb_exists in He as (l&Hin%elem_of_list_In&Hc%Hcov). apply elem_of_list_lookup in Hin as [p Hp]. destruct Hc as (off&El&Hk). destruct (Hv _ _ Hp) as (bs&H1&H2).
      unfold holds in *. rewrite El in H1, H2. apply load_spec in H1 as (_&_&H1). apply load_spec in H2 as (_&_&H2).
      replace k with (off + (k - off)) by lia. rewrite H1, H2 by lia. done.
    + rewrite Hb, Hb'; [done|..]; intros p l Hp Hc%Hcov; apply not_true_iff_false in He; apply He, existsb_exists; exists l; (split; [by eapply elem_of_list_In, elem_of_list_lookup_2|exact Hc]).
Qed.
Lemma read_one m l bs i b : holds m l bs -> bs !! i = Some b -> load m (byte_ptr l i) 1 = Rd [b].
Proof.
  intros H Hi. destruct (holds_ptr _ _ _ H) as (id&off&->). unfold holds in H. cbn [fst snd] in H. apply load_spec in H as ((bs0&E0&Hr)&_&Hj).
  pose proof (lookup_lt_Some _ _ _ Hi). unfold byte_ptr. cbn [fst]. apply load_spec. split; [exists bs0; split; [done|lia]|]. split; [done|].
  intros j Hj'. replace j with 0 by lia. rewrite Nat.add_0_r. cbn. rewrite <- Hi. by apply Hj.
Qed.
Lemma write_one m l bs i b : holds m l bs -> i < length bs -> exists m', store (byte_ptr l i) [b] m = Ret tt m' /\ holds m' l (<[i := b]> bs) /\ only_at l m m'.
Proof.
  intros H Hi. destruct (holds_ptr _ _ _ H) as (id&off&->). unfold holds in *. cbn [fst snd] in *. apply load_spec in H as ((bs0&E0&Hr)&_&Hj).
  destruct (store_spec m id (off + i) [b]) as (m'&Es&Hs&H1&H2); [exists bs0; split; [done|cbn; lia]|]. exists m'. unfold byte_ptr. cbn [fst]. split; [done|]. cbn [length] in *. split.
  - apply load_spec. split; [eapply in_range_shape; [done|]; by exists bs0|]. split; [by rewrite insert_length|]. intros j Hj'.
    destruct (decide (j = i)) as [->|].
    + specialize (H1 0). rewrite Nat.add_0_r in H1. rewrite H1 by lia. by rewrite list_lookup_insert.
    + rewrite H2 by lia. rewrite list_lookup_insert_ne by done. by apply Hj.
  - split; [done|]. intros id' k Hk. apply H2. intros [-> ?]. apply Hk. exists off. cbn [fst snd]. split; [done|]. lia.
Qed.
Lemma write_all m l bs bs' : holds m l bs -> length bs' = length bs -> exists m', store l.1 bs' m = Ret tt m' /\ holds m' l bs' /\ only_at l m m'.
Proof.
  intros H Hl. destruct (holds_ptr _ _ _ H) as (id&off&->). unfold holds in *. cbn [fst snd] in *. apply load_spec in H as (Hr&_&Hj).
  destruct (store_spec m id off bs') as (m'&Es&Hs&H1&H2); [by rewrite Hl|]. exists m'. split; [done|]. split.
  - apply load_spec. split; [by eapply in_range_shape|]. split; [done|]. intros j Hj'. apply H1. lia.
  - split; [done|]. intros id' k Hk. apply H2. intros [-> ?]. apply Hk. exists off. cbn [fst snd]. split; [done|]. lia.
Qed.
