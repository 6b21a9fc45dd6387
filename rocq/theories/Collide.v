(** Hash collisions between component sets cannot be avoided: among 39 component
    types there are always two sets of 14 that share a usable archetype id. *)
From Verif Require Import RegModel FnvProofs DescrProofs Faults2 SpecBase.
Local Open Scope N_scope.

(** ** Pigeonhole *)
Lemma pigeon {A} (f : A -> N) (n : N) (l : list A) : NoDup l -> (forall x, x ∈ l -> f x < n) -> n < N.of_nat (length l) ->
  exists x y, x ∈ l /\ y ∈ l /\ x <> y /\ f x = f y.
Proof.
  intros Hnd Hf Hlen.
  assert (Hdec : (exists i j x y, i <> j /\ l !! i = Some x /\ l !! j = Some y /\ f x = f y) \/ NoDup (map f l)).
  { clear Hnd Hf Hlen. induction l as [|x l IH]; [right; constructor|]. destruct IH as [(i&j&y&z&Hne&Hi&Hj&E)|IH].
    - left. exists (S i), (S j), y, z. split; [congruence|done].
    - cbn [map]. destruct (decide (f x ∈ map f l)) as [Hin|Hin]; [|right; by constructor].
      left. change (map f l) with (f <$> l) in Hin. apply elem_of_list_fmap in Hin as (y&E&[j Hj]%elem_of_list_lookup). exists 0%nat, (S j), x, y. done. }
  destruct Hdec as [(i&j&x&y&Hne&Hi&Hj&E)|Hm].
  - exists x, y. split; [by eapply elem_of_list_lookup_2|]. split; [by eapply elem_of_list_lookup_2|]. split; [|done].
    intros <-. apply Hne. by eapply NoDup_lookup.
  - exfalso. pose proof (NoDup_below n _ Hm) as Hb. rewrite map_length in Hb.
    assert (N.of_nat (length l) <= n)%N; [|lia]. apply Hb. intros z Hz. change (map f l) with (f <$> l) in Hz.
    apply elem_of_list_fmap in Hz as (x&->&Hx). by apply Hf.
Qed.

(** ** The sets of [k] elements of a list *)
Fixpoint sets (k : nat) (l : list N) {struct l} : list (list N) :=
  match k, l with
  | O, _ => [[]]
  | S _, [] => []
  | S k', x :: l' => map (cons x) (sets k' l') ++ sets k l'
  end.
Lemma sets_sound k l m : m ∈ sets k l -> m `sublist_of` l /\ length m = k.
Proof.
  revert k m. induction l as [|x l IH]; intros [|k] m; cbn [sets].
  - rewrite elem_of_list_singleton. intros ->. split; [constructor|done].
  - by intros ?%elem_of_nil.
  - rewrite elem_of_list_singleton. intros ->. split; [apply sublist_nil_l|done].
  - rewrite elem_of_app. change (map (cons x) ?t) with (cons x <$> t). rewrite elem_of_list_fmap. intros [(m'&->&Hm)|Hm].
    + apply IH in Hm as [Hs <-]. split; [by constructor|done].
    + apply IH in Hm as [Hs Hl]. split; [by constructor|done].
Qed.
Lemma sets_complete m l : m `sublist_of` l -> m ∈ sets (length m) l.
Proof.
  intros H. induction H as [|x m l H IH|x m l H IH].
  - left.
  - cbn [length sets]. apply elem_of_app. left. change (map (cons x) ?t) with (cons x <$> t). apply elem_of_list_fmap. by exists m.
  - destruct (length m) as [|k] eqn:E; cbn [sets].
    + destruct m; [left|done].
    + apply elem_of_app. by right.
Qed.
Lemma sets_NoDup k l : NoDup l -> NoDup (sets k l).
Proof.
  intros Hnd. revert k. induction Hnd as [|x l Hx Hnd IH]; intros [|k]; cbn [sets]; [apply NoDup_singleton|constructor|apply NoDup_singleton|].
  apply NoDup_app. split; [|split; [|apply IH]].
  - change (map (cons x) ?t) with (cons x <$> t). apply NoDup_fmap_2; [|apply IH]. by intros a b [= E].
  - intros m Hm Hm'. change (map (cons x) ?t) with (cons x <$> t) in Hm. apply elem_of_list_fmap in Hm as (m1&->&_).
    apply sets_sound in Hm' as [Hs _]. apply Hx. eapply elem_of_submseteq; [|by apply sublist_submseteq]. left.
Qed.
(** Their number, by rows of Pascal's triangle. *)
Definition next (l : list N) : list N := zip_with N.add l (0 :: l).
Fixpoint row (n : nat) : list N :=
  match n with O => [1; 0; 0; 0; 0; 0; 0; 0; 0; 0; 0; 0; 0; 0; 0] | S n' => next (row n') end.
Lemma row_length n : length (row n) = 15%nat.
Proof. induction n as [|n IH]; [done|]. cbn [row]; unfold next. rewrite zip_with_length. cbn [length]. lia. Qed.
Lemma sets_count k l : (k <= 14)%nat -> row (length l) !! k = Some (N.of_nat (length (sets k l))).
Proof.
  revert k. induction l as [|x l IH]; intros k Hk.
  - cbn [length row]; unfold next. do 15 (destruct k as [|k]; [done|]). lia.
  - cbn [length row]; unfold next. rewrite lookup_zip_with, (IH k Hk). destruct k as [|k]; cbn [sets].
    + cbn. f_equal. destruct l; cbn; lia.
    + change ((0 :: row (length l)) !! S k) with (row (length l) !! k). rewrite (IH k) by lia. cbn. f_equal. rewrite app_length, map_length. lia.
Qed.

Lemma row_grows k n m : (n <= m)%nat -> (row n !!! k <= row m !!! k)%N.
Proof.
  intros H. induction H as [|m H IH]; [lia|]. etrans; [exact IH|]. clear IH. rewrite !list_lookup_total_alt. cbn [row]; unfold next.
  rewrite lookup_zip_with. destruct (row m !! k) as [x|] eqn:E; cbn; [|lia].
  destruct ((0 :: row m) !! k) as [y|] eqn:E'; cbn; [lia|]. apply lookup_ge_None in E'. cbn in E'. apply lookup_lt_Some in E. lia.
Qed.

(** ** The last component id can be read off the hash of the others *)
Lemma prime_odd a b : a < 4294967296 -> b < 4294967296 ->
  (a * 16777619) mod 4294967296 = (b * 16777619) mod 4294967296 -> a = b.
Proof.
  intros Ha Hb E. assert (Hq : forall x, x < 4294967296 -> ((x * 16777619) mod 4294967296 * 899433627) mod 4294967296 = x).
  { intros x Hx. rewrite N.mul_mod_idemp_l by done. replace (x * 16777619 * 899433627) with (x + (x * 3513497) * 4294967296) by lia.
    rewrite N.mod_add by done. by apply N.mod_small. }
  rewrite <- (Hq a Ha), <- (Hq b Hb). by rewrite E.
Qed.
Lemma lxor_high a b x y : x < 256 -> y < 256 -> N.lxor a x = N.lxor b y -> a / 256 = b / 256.
Proof.
  intros Hx Hy E. change 256 with (2 ^ 8). rewrite <- !N.shiftr_div_pow2.
  assert (Hs : forall u, u < 256 -> N.shiftr u 8 = 0). { intros u Hu. rewrite N.shiftr_div_pow2. by apply N.div_small. }
  apply (f_equal (fun u => N.shiftr u 8)) in E. rewrite !N.shiftr_lxor, (Hs _ Hx), (Hs _ Hy), !N.lxor_0_r in E. exact E.
Qed.
Lemma lxor_below a x : a < 4294967296 -> x < 256 -> N.lxor a x < 4294967296.
Proof.
  intros Ha Hx. destruct (decide (N.lxor a x = 0)) as [->|Hn]; [done|]. change 4294967296 with (2 ^ 32).
  apply N.log2_lt_pow2; [lia|]. eapply N.le_lt_trans; [apply N.log2_lxor|].
  apply N.max_lub_lt.
  - destruct (decide (a = 0)) as [->|]; [done|]. apply N.log2_lt_pow2; [lia|done].
  - destruct (decide (x = 0)) as [->|]; [done|]. apply N.log2_lt_pow2; [lia|]. change (2 ^ 32) with 4294967296. lia.
Qed.
Lemma near (D K e : Z) : (-256 < D < 256 -> -256 < e < 256 -> D * 16777619 = K * 4294967296 + e -> D = 0)%Z.
Proof.
  intros HD He E. assert (H : (16777216 * (256 * K - D) = 403 * D - e)%Z) by lia.
  assert ((256 * K - D) = 0)%Z by lia. lia.
Qed.
Notation mix h b := ((N.lxor h b * 16777619) mod 4294967296).
Lemma mix_below h b : mix h b < 4294967296.
Proof. by apply N.mod_lt. Qed.
Lemma mix_two h x y x' y' : h < 4294967296 -> x < 256 -> y < 256 -> x' < 256 -> y' < 256 ->
  mix (mix h x) y = mix (mix h x') y' -> x = x' /\ y = y'.
Proof.
  intros Hh Hx Hy Hx' Hy' E. apply prime_odd in E; [|apply lxor_below; [apply mix_below|done]..].
  pose proof (lxor_high _ _ _ _ Hy Hy' E) as Hd.
  assert (Hxx : N.lxor h x = N.lxor h x').
  { set (A := N.lxor h x) in *. set (B := N.lxor h x') in *.
    assert (HA : A / 256 = h / 256). { apply (lxor_high _ _ 0 x); [done|done|]. by rewrite N.lxor_0_r. }
    assert (HB : B / 256 = h / 256). { apply (lxor_high _ _ 0 x'); [done|done|]. by rewrite N.lxor_0_r. }
    clear E Hh Hx Hx'. pose proof (N.div_mod' A 256) as DA. pose proof (N.div_mod' B 256) as DB.
    pose proof (N.mod_lt A 256 ltac:(done)) as MA. pose proof (N.mod_lt B 256 ltac:(done)) as MB.
    pose proof (N.div_mod' (A * 16777619) 4294967296) as PA. pose proof (N.div_mod' (B * 16777619) 4294967296) as PB.
    rewrite HA in DA. rewrite HB in DB. clear HA HB. set (u := (A * 16777619) mod 4294967296) in *. set (v := (B * 16777619) mod 4294967296) in *.
    pose proof (N.div_mod' u 256) as DU. pose proof (N.div_mod' v 256) as DV. rewrite Hd in DU. clear Hd.
    pose proof (N.mod_lt u 256 ltac:(done)) as MU. pose proof (N.mod_lt v 256 ltac:(done)) as MV.
    clearbody A B u v. generalize dependent (A mod 256). generalize dependent (B mod 256). generalize dependent (u mod 256). generalize dependent (v mod 256).
    generalize dependent (A * 16777619 / 4294967296). generalize dependent (B * 16777619 / 4294967296). generalize dependent (v / 256). generalize dependent (h / 256).
    intros s q kb PB ka PA rv DV MV ru DU MU rb DB MB ra DA MA.
    pose proof (near (Z.of_N ra - Z.of_N rb) (Z.of_N ka - Z.of_N kb) (Z.of_N ru - Z.of_N rv)). lia. }
  assert (x = x').
  { apply (f_equal (N.lxor h)) in Hxx. by rewrite <- !N.lxor_assoc, !N.lxor_nilpotent, !N.lxor_0_l in Hxx. }
  subst x'. split; [done|]. apply (f_equal (N.lxor (mix h x))) in E. by rewrite <- !N.lxor_assoc, !N.lxor_nilpotent, !N.lxor_0_l in E.
Qed.

Lemma tuple_id_snoc be p x : length p = 13%nat -> tuple_archetype_id be (p ++ [x]) =
  mix (mix (fnv1a_reference_32 (concat (map (two_bytes be) p))) (if be then x / 256 mod 256 else x mod 256)) (if be then x mod 256 else x / 256 mod 256).
Proof.
  intros Hl. unfold tuple_archetype_id. rewrite app_length, Hl. cbn [length Nat.add Nat.sub replicate]. rewrite app_nil_r, map_app, concat_app.
  cbn [map concat]. rewrite app_nil_r. unfold fnv1a_reference_32, fnv1a_reference. rewrite fold_left_app. by destruct be.
Qed.
Lemma last_id be p x y : length p = 13%nat -> x < 65536 -> y < 65536 ->
  tuple_archetype_id be (p ++ [x]) = tuple_archetype_id be (p ++ [y]) -> x = y.
Proof.
  intros Hl Hx Hy E. rewrite !tuple_id_snoc in E by done.
  assert (Hb : forall z, z mod 256 < 256) by (intros z; by apply N.mod_lt).
  assert (Hh : fnv1a_reference_32 (concat (map (two_bytes be) p)) < 4294967296) by (by apply (reference_bound _ _ 32)).
  assert (x / 256 mod 256 = y / 256 mod 256 /\ x mod 256 = y mod 256) as [E1 E2].
  { destruct be; apply mix_two in E; try done; try apply Hb. destruct E as [E1 E2]. done. }
  rewrite !(N.mod_small (_ / 256)) in E1 by (apply N.div_lt_upper_bound; lia).
  rewrite (N.div_mod' x 256), (N.div_mod' y 256). by rewrite E1, E2.
Qed.
Lemma tuple_id_below be l : tuple_archetype_id be l < 4294967296.
Proof. by apply (reference_bound _ _ 32). Qed.

Lemma partition_length {A} (P : A -> Prop) `{!forall x, Decision (P x)} (l : list A) :
  length l = (length (filter P l) + length (filter (fun x => ~ P x) l))%nat.
Proof. induction l as [|x l IH]; [done|]. rewrite !filter_cons. destruct (decide (P x)); destruct (decide (~ P x)); try tauto; cbn [length]; lia. Qed.
(** At most one set with given first 13 elements has the reserved id. *)
Lemma reserved_few be l : NoDup l -> Forall (fun x => x < 65536) l ->
  (length (filter (fun m => (tuple_archetype_id be m = 4294967295)%N) (sets 14 l)) <= length (sets 13 l))%nat.
Proof.
  intros Hnd Hl. set (R := filter _ _).
  assert (HR : forall m, m ∈ R -> exists p x, m = p ++ [x] /\ length p = 13%nat /\ x < 65536 /\ p `sublist_of` l /\ tuple_archetype_id be m = 4294967295).
  { intros m [Hm Hs]%elem_of_list_filter. apply sets_sound in Hs as [Hs Hlen].
    destruct m as [|x p _] using rev_ind; [done|]. rewrite app_length in Hlen. cbn in Hlen. exists p, x. split; [done|]. split; [lia|].
    split. { rewrite Forall_forall in Hl. apply Hl. eapply elem_of_submseteq; [|by apply sublist_submseteq]. apply elem_of_app. right. left. }
    split; [|done]. etrans; [|exact Hs]. by apply sublist_inserts_r. }
  transitivity (length (map (take 13) R)); [by rewrite map_length|]. apply submseteq_length, NoDup_submseteq.
  - assert (HndR : NoDup R) by (apply NoDup_filter, sets_NoDup, Hnd). clearbody R.
    induction HndR as [|m R Hm HndR IH]; [constructor|]. cbn [map]. constructor; [|apply IH; intros; apply HR; by right].
    intros Hin. change (map (take 13) R) with (take 13 <$> R) in Hin. apply elem_of_list_fmap in Hin as (m'&Et&Hm').
    destruct (HR m) as (p&x&->&Hp&Hx&_&E); [left|]. destruct (HR m') as (p'&x'&->&Hp'&Hx'&_&E'); [by right|].
    rewrite (take_app_alt p _ 13), (take_app_alt p' _ 13) in Et by done. subst p'.
    assert (x = x') as -> by (apply (last_id be p); [exact Hp|done|done|congruence]). done.
  - intros p Hp. change (map (take 13) R) with (take 13 <$> R) in Hp. apply elem_of_list_fmap in Hp as (m&->&Hm).
    destruct (HR m Hm) as (p&x&->&Hp&_&Hs&_). rewrite (take_app_alt p _ 13) by done. rewrite <- Hp. by apply sets_complete.
Qed.
Lemma sets_collide be l : NoDup l -> Forall (fun x => x < 65536) l -> (39 <= length l)%nat ->
  exists l1 l2, l1 `sublist_of` l /\ l2 `sublist_of` l /\ length l1 = 14%nat /\ length l2 = 14%nat /\ l1 <> l2 /\
    tuple_archetype_id be l1 = tuple_archetype_id be l2 /\ tuple_archetype_id be l1 <> 4294967295.
Proof.
  intros Hnd0 Hl0 Hlen0.
  assert (Hl : exists k, k `sublist_of` l /\ NoDup k /\ Forall (fun x => x < 65536) k /\ length k = 39%nat).
  { exists (take 39 l). split; [apply sublist_take|]. split; [by apply (NoDup_app (take 39 l) (drop 39 l)); rewrite take_drop|]. split; [by apply Forall_take|].
    rewrite take_length. lia. }
  destruct Hl as (k&Hk&Hnd&Hb&Hlen). clear Hnd0 Hl0 Hlen0.
  pose proof (sets_count 14 k ltac:(lia)) as C14. pose proof (sets_count 13 k ltac:(lia)) as C13. rewrite Hlen in C14, C13.
  assert (R14 : row 39 !! 14%nat = Some 15084504396) by (vm_compute; reflexivity).
  assert (R13 : row 39 !! 13%nat = Some 8122425444) by (vm_compute; reflexivity).
  rewrite R14 in C14. rewrite R13 in C13. injection C14 as C14. injection C13 as C13.
  pose proof (reserved_few be k Hnd Hb) as Hr. pose proof (partition_length (fun m => tuple_archetype_id be m = 4294967295) (sets 14 k)) as Hp.
  destruct (pigeon (tuple_archetype_id be) 4294967296 (filter (fun m => ~ tuple_archetype_id be m = 4294967295) (sets 14 k))) as (l1&l2&H1&H2&Hne&E).
  - apply NoDup_filter, sets_NoDup, Hnd.
  - intros m _. apply tuple_id_below.
  - lia.
  - apply elem_of_list_filter in H1 as [N1 [S1 L1]%sets_sound]. apply elem_of_list_filter in H2 as [_ [S2 L2]%sets_sound].
    exists l1, l2. split; [by etrans|]. split; [by etrans|]. by repeat split.
Qed.
