(** Binary search on strictly sorted keys. *)
From Verif Require Import DescrModel SpecBase.
Local Open Scope nat_scope.

Lemma strict_lookup_lt keys i j x y :
  strict keys -> i < j -> keys !! i = Some x -> keys !! j = Some y -> (x < y)%N.
Proof.
  intros Hs. revert i j. induction Hs as [|k keys Hs IH Hk]; intros i j Hij Hi Hj; [done|].
  destruct j as [|j]; [lia|]. destruct i as [|i]; cbn in *.
  - injection Hi as ->. rewrite Forall_lookup in Hk. eauto.
  - eapply IH; [|eassumption..]. lia.
Qed.
Lemma strict_lookup_inj keys i j x :
  strict keys -> keys !! i = Some x -> keys !! j = Some x -> i = j.
Proof.
  intros Hs Hi Hj. destruct (Nat.lt_trichotomy i j) as [H|[H|H]]; auto.
  - pose proof (strict_lookup_lt _ _ _ _ _ Hs H Hi Hj). lia.
  - pose proof (strict_lookup_lt _ _ _ _ _ Hs H Hj Hi). lia.
Qed.
Lemma strict_NoDup keys : strict keys -> NoDup keys.
Proof.
  intros Hs. apply NoDup_alt. intros i j x. by apply strict_lookup_inj.
Qed.
Lemma strict_of_lookup keys :
  (forall i j x y, i < j -> keys !! i = Some x -> keys !! j = Some y -> (x < y)%N) -> strict keys.
Proof.
  induction keys as [|k keys IH]; intros H; [constructor|].
  constructor.
  - apply IH. intros i j x y Hij Hi Hj. apply (H (S i) (S j)); [lia|done..].
  - apply Forall_lookup. intros i x Hi. apply (H 0 (S i)); [lia|done..].
Qed.
Lemma strict_perm_unique l1 l2 : strict l1 -> strict l2 -> l1 ≡ₚ l2 -> l1 = l2.
Proof.
  intros Hs1. revert l2. induction Hs1 as [|x l1 Hs1 IH Hx]; intros l2 Hs2 Hp.
  { symmetry. by apply Permutation_nil. }
  destruct l2 as [|y l2]; [by apply Permutation_nil_r in Hp|].
  inversion Hs2 as [|?? Hs2' Hy]; subst.
  assert (x = y) as ->.
  { rewrite Forall_forall in Hx, Hy.
    assert (Hxin : x ∈ y :: l2) by (rewrite <- Hp; left).
    assert (Hyin : y ∈ x :: l1) by (rewrite Hp; left).
    apply elem_of_cons in Hxin as [->|Hxin]; [done|].
    apply elem_of_cons in Hyin as [->|Hyin]; [done|].
    pose proof (Hy _ Hxin). pose proof (Hx _ Hyin). lia. }
  f_equal. apply IH; [done|]. by apply Permutation_cons_inv in Hp.
Qed.

Lemma bsearch_loop_spec keys key fuel left right :
  strict keys -> right <= length keys -> left <= right -> right - left < fuel ->
  (forall j x, j < left -> keys !! j = Some x -> (x < key)%N) ->
  (forall j x, right <= j -> keys !! j = Some x -> (key < x)%N) ->
  match bsearch_loop fuel keys key left right with
  | inl i => keys !! i = Some key
  | inr i => i <= length keys /\
             (forall j x, j < i -> keys !! j = Some x -> (x < key)%N) /\
             (forall j x, i <= j -> keys !! j = Some x -> (key < x)%N)
  end.
Proof.
  intros Hs. revert left right.
  induction fuel as [|fuel IH]; intros left right Hr Hlr Hf Hlo Hhi; [lia|].
  cbn [bsearch_loop]. destruct (Nat.ltb_spec left right) as [Hlt|Hge].
  2:{ assert (left = right) as <- by lia. split; [lia|done]. }
  set (mid := left + (right - left) / 2).
  assert (Hmid : left <= mid < right).
  { unfold mid. pose proof (Nat.div_lt (right - left) 2 ltac:(lia) ltac:(lia)). lia. }
  destruct (lookup_lt_is_Some_2 keys mid) as [k Hk]; [lia|]. rewrite Hk.
  destruct (N.compare_spec k key) as [->|Hc|Hc]; [done|..].
  - apply IH; [lia|lia|lia| |done].
    intros j x Hj Hx. destruct (decide (j = mid)) as [->|]; [congruence|].
    assert (j < mid) by lia. pose proof (strict_lookup_lt _ _ _ _ _ Hs H Hx Hk). lia.
  - apply IH; [lia|lia|lia|done|].
    intros j x Hj Hx. destruct (decide (j = mid)) as [->|]; [congruence|].
    assert (mid < j) by lia. pose proof (strict_lookup_lt _ _ _ _ _ Hs H Hk Hx). lia.
Qed.

Lemma binary_search_spec keys key :
  strict keys ->
  match binary_search keys key with
  | inl i => keys !! i = Some key
  | inr i => i <= length keys /\
             (forall j x, j < i -> keys !! j = Some x -> (x < key)%N) /\
             (forall j x, i <= j -> keys !! j = Some x -> (key < x)%N)
  end.
Proof.
  intros Hs. apply bsearch_loop_spec; [done|lia..| |].
  - intros; lia.
  - intros j x Hj Hx. apply lookup_lt_Some in Hx. lia.
Qed.

Lemma binary_search_found keys key i :
  strict keys -> keys !! i = Some key -> binary_search keys key = inl i.
Proof.
  intros Hs Hi. pose proof (binary_search_spec keys key Hs) as H.
  destruct (binary_search keys key) as [j|j].
  - f_equal. by eapply strict_lookup_inj.
  - destruct H as (_&H1&H2). destruct (decide (i < j)) as [Hd|Hd].
    + pose proof (H1 _ _ Hd Hi). lia.
    + pose proof (H2 i _ ltac:(lia) Hi). lia.
Qed.
Lemma binary_search_inl keys key i : strict keys -> binary_search keys key = inl i -> keys !! i = Some key.
Proof. intros Hs E. pose proof (binary_search_spec keys key Hs) as H. by rewrite E in H. Qed.
Lemma binary_search_inr keys key i : strict keys -> binary_search keys key = inr i -> key ∉ keys.
Proof.
  intros Hs E [j Hj]%elem_of_list_lookup. by rewrite (binary_search_found _ _ _ Hs Hj) in E.
Qed.
Lemma binary_search_absent keys key : strict keys -> key ∉ keys -> exists i, binary_search keys key = inr i.
Proof.
  intros Hs Hn. destruct (binary_search keys key) as [j|j] eqn:E; [|eauto].
  apply binary_search_inl in E; [|done]. by apply elem_of_list_lookup_2 in E.
Qed.
(** Inserting at the reported position keeps the keys strictly sorted. *)
Lemma binary_search_insert keys key i :
  strict keys -> binary_search keys key = inr i -> strict (take i keys ++ key :: drop i keys).
Proof.
  intros Hs E. pose proof (binary_search_spec keys key Hs) as H. rewrite E in H.
  destruct H as (Hi&Hlo&Hhi). clear E.
  revert i Hi Hlo Hhi. induction Hs as [|k keys Hs IH Hk]; intros i Hi Hlo Hhi.
  { destruct i; cbn; repeat constructor. }
  destruct i as [|i]; cbn.
  - constructor; [by constructor|].
    apply Forall_lookup. intros j x Hx. apply (Hhi j); [lia|done].
  - constructor.
    + apply IH; [cbn in Hi; lia| |].
      * intros j x Hj Hx. apply (Hlo (S j)); [lia|done].
      * intros j x Hj Hx. apply (Hhi (S j)); [lia|done].
    + apply Forall_app. split; [by apply Forall_take|].
      constructor; [apply (Hlo 0); [lia|done]|by apply Forall_drop].
Qed.
Lemma binary_search_correct : forall keys key,
  strict keys ->
  match binary_search keys key with
  | inl i => keys !! i = Some key
  | inr i => i <= length keys /\ key ∉ keys /\ strict (take i keys ++ key :: drop i keys)
  end /\
  (key ∈ keys <-> exists i, binary_search keys key = inl i).
Proof.
  intros keys key Hs. split.
  - pose proof (binary_search_spec keys key Hs) as H. destruct (binary_search keys key) as [i|i] eqn:E; [done|].
    split; [apply H|]. split; [by eapply binary_search_inr|by eapply binary_search_insert].
  - split.
    + intros [i Hi]%elem_of_list_lookup. exists i. by apply binary_search_found.
    + intros [i Hi]. apply binary_search_inl in Hi; [|done]. by apply elem_of_list_lookup_2 in Hi.
Qed.
