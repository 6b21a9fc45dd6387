(** Small facts about the outcome monad and loops. *)
From Verif Require Import ArchModel.
Local Open Scope nat_scope.

Lemma bind_Ret {S A B} (m : M S A) (k : A -> M S B) s a s' : m s = Ret a s' -> bind m k s = k a s'.
Proof. intros E. unfold bind. by rewrite E. Qed.
Lemma bind_Panic {S A B} (m : M S A) (k : A -> M S B) s s' : m s = Panic s' -> bind m k s = Panic s'.
Proof. intros E. unfold bind. by rewrite E. Qed.
Lemma bind_UB {S A B} (m : M S A) (k : A -> M S B) s : m s = UB -> bind m k s = UB.
Proof. intros E. unfold bind. by rewrite E. Qed.
Lemma bind_bind {S A B D} (m : M S A) (k : A -> M S B) (k' : B -> M S D) s :
  bind (bind m k) k' s = bind m (fun a => bind (k a) k') s.
Proof. unfold bind. by destruct (m s). Qed.
Lemma bind_ret_l {S A B} (a : A) (k : A -> M S B) s : bind (ret a) k s = k a s.
Proof. done. Qed.
Lemma massert_true {S} (b : bool) (s : S) : b = true -> massert b s = Ret tt s.
Proof. by intros ->. Qed.
Lemma mdebug_true {S} (d b : bool) (s : S) : b = true -> mdebug_assert d b s = Ret tt s.
Proof. intros ->. by destruct d. Qed.
Lemma rdebug_true (d b : bool) : b = true -> rdebug_assert d b = Rd tt.
Proof. intros ->. by destruct d. Qed.
Lemma rbind_Rd {A B} (m : rd A) (k : A -> rd B) a : m = Rd a -> rbind m k = k a.
Proof. by intros ->. Qed.
Lemma lift_Rd {S A} (m : rd A) (a : A) (s : S) : m = Rd a -> lift_rd m s = Ret a s.
Proof. by intros ->. Qed.
Lemma am_rd_Rd {A} (f : arch -> rd A) a e x : f a = Rd x -> am_rd f (a, e) = Ret x (a, e).
Proof. intros E. unfold am_rd. cbn [fst]. by apply lift_Rd. Qed.
Lemma am_env_Ret {A} (m : M env A) a e x e' : m e = Ret x e' -> am_env m (a, e) = Ret x (a, e').
Proof. intros E. unfold am_env. cbn [fst snd]. by rewrite E. Qed.

(** Peel one bind whose first part is known to return. *)
Ltac step_with H := erewrite bind_Ret; [|H].

Lemma enum_lookup {A} (l : list A) i x : l !! i = Some x -> enum l !! i = Some (i, x).
Proof.
  intros H. unfold enum. apply lookup_zip_with_Some. exists i, x. split; [done|]. split; [|done].
  apply lookup_seq. split; [done|]. by eapply lookup_lt_Some.
Qed.
Lemma enum_lookup_inv {A} (l : list A) i y : enum l !! i = Some y -> exists x, y = (i, x) /\ l !! i = Some x.
Proof.
  unfold enum. intros H. apply lookup_zip_with_Some in H as (a&b&->&Ha&Hb).
  apply lookup_seq in Ha as [-> _]. by exists b.
Qed.
Lemma enum_length {A} (l : list A) : length (enum l) = length l.
Proof. unfold enum. rewrite zip_with_length, seq_length. lia. Qed.
Lemma enum_app {A} (l : list A) x : enum (l ++ [x]) = enum l ++ [(length l, x)].
Proof.
  unfold enum. rewrite app_length. cbn [length]. rewrite Nat.add_1_r, seq_S. cbn [Nat.add].
  rewrite zip_with_app by (by rewrite seq_length). done.
Qed.

Lemma mfor_app {S A} (l1 l2 : list A) (f : A -> M S unit) s s' :
  mfor l1 f s = Ret tt s' -> mfor (l1 ++ l2) f s = mfor l2 f s'.
Proof.
  revert s. induction l1 as [|x l1 IH]; intros s; cbn [mfor app].
  { intros [= ->]. done. }
  unfold bind. destruct (f x s); try done. apply IH.
Qed.
(** A loop with an invariant indexed by the number of rounds done. *)
Lemma mfor_inv {S A} (I : nat -> S -> Prop) (l : list A) (f : A -> M S unit) s :
  I 0 s ->
  (forall i x s, l !! i = Some x -> I i s -> exists s', f x s = Ret tt s' /\ I (Datatypes.S i) s') ->
  exists s', mfor l f s = Ret tt s' /\ I (length l) s'.
Proof.
  revert s I. induction l as [|x l IH]; intros s I H0 HS; cbn [mfor]; [exists s; done|].
  destruct (HS 0 x s eq_refl H0) as (s1&E1&H1).
  destruct (IH s1 (fun i => I (Datatypes.S i)) H1) as (s2&E2&H2).
  { intros i y s' Hi HI. by apply HS. }
  exists s2. split; [|done]. rewrite (bind_Ret _ _ _ _ _ E1). done.
Qed.
Lemma mfor_enum_inv {S A} (I : nat -> S -> Prop) (l : list A) (f : nat * A -> M S unit) s :
  I 0 s ->
  (forall i x s, l !! i = Some x -> I i s -> exists s', f (i, x) s = Ret tt s' /\ I (Datatypes.S i) s') ->
  exists s', mfor (enum l) f s = Ret tt s' /\ I (length l) s'.
Proof.
  intros H0 HS. destruct (mfor_inv I (enum l) f s H0) as (s'&E&H).
  - intros i y s1 Hi HI. apply enum_lookup_inv in Hi as (x&->&Hx). by apply HS.
  - exists s'. rewrite enum_length in H. done.
Qed.
Lemma mfor_enum_inv_rel {S A} (I : nat -> S -> Prop) (l : list A) (f : nat * A -> M S unit) s s' :
  I 0 s ->
  (forall i x s, l !! i = Some x -> I i s -> exists s', f (i, x) s = Ret tt s' /\ I (Datatypes.S i) s') ->
  (forall s1, I (length l) s1 -> s1 = s') -> mfor (enum l) f s = Ret tt s'.
Proof. intros H0 HS Hf. destruct (mfor_enum_inv I l f s H0 HS) as (s1&->&H). by rewrite (Hf _ H). Qed.

Lemma rmap_Forall2 {A B} (f : A -> rd B) l k :
  Forall2 (fun x y => f x = Rd y) l k -> rmap f l = Rd k.
Proof. induction 1 as [|x y l k E H IH]; [done|]. cbn [rmap]. rewrite E. cbn [rbind]. by rewrite IH. Qed.
Lemma rmap_enum {A B} (f : nat * A -> rd B) l k :
  length l = length k -> (forall i x y, l !! i = Some x -> k !! i = Some y -> f (i, x) = Rd y) -> rmap f (enum l) = Rd k.
Proof.
  intros Hl H. apply rmap_Forall2. apply Forall2_same_length_lookup. split; [by rewrite enum_length|].
  intros i p y Hp Hy. apply enum_lookup_inv in Hp as (x&->&Hx). eauto.
Qed.
