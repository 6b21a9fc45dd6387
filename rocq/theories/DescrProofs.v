(** Proofs about src/descriptors/: the exchange sort, the sort mappings, group
    descriptors, and adding/removing a component. *)
From Verif Require Import DescrModel SpecBase SearchProofs FnvProofs.
Local Open Scope nat_scope.


Lemma cnth_lookup l i d : l !! i = Some d -> cnth l i = d.
Proof. unfold cnth. by intros ->. Qed.
Lemma cnth_app_r l k i : cnth (l ++ k) (length l + i) = cnth k i.
Proof. unfold cnth. by rewrite lookup_app_r, Nat.add_comm, Nat.add_sub by lia. Qed.

Lemma lookup_cons_S {A} (x : A) l n : (x :: l) !! S n = l !! n.
Proof. reflexivity. Qed.

(** ** Exchange sort *)
Lemma sort_step_spec A x B1 b B2 tail :
  sort_step (length A) (A ++ x :: B1 ++ b :: B2 ++ tail) (length A + S (length B1))
  = if (cd_id b <? cd_id x)%N then A ++ b :: B1 ++ x :: B2 ++ tail
    else A ++ x :: B1 ++ b :: B2 ++ tail.
Proof.
  unfold sort_step.
  assert (Hj : cnth (A ++ x :: B1 ++ b :: B2 ++ tail) (length A + S (length B1)) = b).
  { apply cnth_lookup. rewrite lookup_app_r by lia.
    replace (length A + S (length B1) - length A) with (S (length B1)) by lia. cbn.
    by apply list_lookup_middle. }
  assert (Hi : cnth (A ++ x :: B1 ++ b :: B2 ++ tail) (length A) = x).
  { apply cnth_lookup. by apply list_lookup_middle. }
  rewrite Hj, Hi. destruct (cd_id b <? cd_id x)%N; [|done].
  assert (E1 : <[length A := b]> (A ++ x :: B1 ++ b :: B2 ++ tail) = A ++ b :: B1 ++ b :: B2 ++ tail).
  { pose proof (insert_app_r A (x :: B1 ++ b :: B2 ++ tail) 0 b) as H. by rewrite Nat.add_0_r in H. }
  rewrite E1, insert_app_r. cbn. f_equal. f_equal.
  pose proof (insert_app_r B1 (b :: B2 ++ tail) 0 x) as H. by rewrite Nat.add_0_r in H.
Qed.

Lemma sort_inner_fold B2 : forall A x B1 tail,
  Forall (fun b => cd_id x <= cd_id b)%N B1 ->
  exists x' B',
    fold_left (sort_step (length A)) (seq (length A + S (length B1)) (length B2)) (A ++ x :: B1 ++ B2 ++ tail)
    = A ++ x' :: B' ++ tail
    /\ x' :: B' ≡ₚ x :: B1 ++ B2
    /\ Forall (fun b => cd_id x' <= cd_id b)%N B'.
Proof.
  induction B2 as [|b B2 IH]; intros A x B1 tail HB1.
  { exists x, B1. cbn. by rewrite app_nil_r. }
  cbn [length seq fold_left]. cbn [app]. rewrite sort_step_spec.
  destruct (N.ltb_spec (cd_id b) (cd_id x)) as [Hlt|Hge].
  - destruct (IH A b (B1 ++ [x]) tail) as (x'&B'&E&Hp&Hf).
    { apply Forall_app; split; [eapply Forall_impl; [exact HB1|]; cbn; intros; lia|].
      repeat constructor. lia. }
    exists x', B'. split; [|split; [|done]].
    + rewrite <- E. rewrite app_length. cbn [length].
      replace (length A + S (length B1 + 1)) with (S (length A + S (length B1))) by lia.
      by rewrite <- !app_assoc.
    + rewrite Hp. rewrite <- !app_assoc. cbn. solve_Permutation.
  - destruct (IH A x (B1 ++ [b]) tail) as (x'&B'&E&Hp&Hf).
    { apply Forall_app; split; [done|]. repeat constructor. lia. }
    exists x', B'. split; [|split; [|done]].
    + rewrite <- E. rewrite app_length. cbn [length].
      replace (length A + S (length B1 + 1)) with (S (length A + S (length B1))) by lia.
      by rewrite <- !app_assoc.
    + rewrite Hp. rewrite <- !app_assoc. cbn. solve_Permutation.
Qed.

Lemma sort_outer_fold m : forall A B tail,
  length B = m ->
  exists B',
    fold_left (sort_inner (length A + m)) (seq (length A) m) (A ++ B ++ tail) = A ++ B' ++ tail
    /\ B' ≡ₚ B
    /\ StronglySorted (fun a b => cd_id a <= cd_id b)%N B'.
Proof.
  induction m as [|m IH]; intros A B tail Hm.
  { destruct B; [|done]. exists []. cbn. repeat split; auto. constructor. }
  destruct B as [|x B]; [done|]. cbn in Hm.
  cbn [seq fold_left]. unfold sort_inner at 2.
  replace (length A + S m - S (length A)) with (length B) by lia.
  destruct (sort_inner_fold B A x [] tail) as (x'&B1&E&Hp&Hf); [constructor|].
  cbn [length app] in E. rewrite Nat.add_1_r in E. cbn [app]. rewrite E.
  assert (HB1 : length B1 = m).
  { apply Permutation_length in Hp. cbn in Hp. lia. }
  destruct (IH (A ++ [x']) B1 tail HB1) as (B'&E'&Hp'&Hs').
  exists (x' :: B'). split; [|split].
  - rewrite app_length in E'. cbn [length] in E'.
    replace (length A + 1 + m) with (length A + S m) in E' by lia.
    replace (length A + 1) with (S (length A)) in E' by lia.
    rewrite <- !app_assoc in E'. exact E'.
  - rewrite Hp'. exact Hp.
  - constructor; [done|]. by rewrite Hp'.
Qed.

(** The sorted array: the tuple's descriptors, sorted, then padding. *)
Lemma compute_sorted_spec ds :
  exists s, compute_sorted_descriptors ds = s ++ replicate (MAX_COMPONENTS_PER_ENTITY - length ds) cd_INVALID
    /\ s ≡ₚ ds /\ StronglySorted (fun a b => cd_id a <= cd_id b)%N s.
Proof.
  destruct (sort_outer_fold (length ds) [] ds (replicate (MAX_COMPONENTS_PER_ENTITY - length ds) cd_INVALID) eq_refl)
    as (s&E&Hp&Hs).
  exists s. split; [|done]. exact E.
Qed.

Lemma le_sorted_strict ds :
  StronglySorted (fun a b => cd_id a <= cd_id b)%N ds -> NoDup (ids ds) -> strict (ids ds).
Proof.
  induction 1 as [|d ds Hs IH Hf]; cbn; intros Hnd; [constructor|].
  apply NoDup_cons in Hnd as [Hnin Hnd]. constructor; [by apply IH|].
  rewrite Forall_forall in Hf. apply Forall_forall. intros x Hx.
  apply elem_of_list_In, in_map_iff in Hx as (e&<-&He%elem_of_list_In).
  pose proof (Hf _ He). assert (cd_id d <> cd_id e).
  { intros E. apply Hnin. rewrite E. by apply elem_of_list_fmap_1. }
  lia.
Qed.

(** ** Validation *)
Lemma no_dup_ids_spec ds : has_no_duplicate_ids ds = true <-> NoDup (ids ds).
Proof.
  induction ds as [|d ds IH]; cbn; [split; constructor|].
  rewrite andb_true_iff, IH, forallb_forall, NoDup_cons. apply and_iff_compat_r. split.
  - intros H Hin. apply elem_of_list_In, in_map_iff in Hin as (e&Ee&He).
    specialize (H e He). rewrite Ee, N.eqb_refl in H. done.
  - intros H e He. destruct (N.eqb_spec (cd_id d) (cd_id e)) as [E|]; [|done].
    exfalso. apply H. rewrite E. apply elem_of_list_In, in_map. done.
Qed.
Lemma validate_spec ds :
  validate_component_descriptors ds = true <-> 1 <= length ds <= 14 /\ NoDup (ids ds).
Proof.
  unfold validate_component_descriptors, MAX_COMPONENTS_PER_ENTITY.
  destruct (Nat.eqb_spec (length ds) 0), (Nat.ltb_spec 14 (length ds)); cbn;
    rewrite ?no_dup_ids_spec; split; try done; try (intros [? ?]; lia); try (intros [? ?]; done).
  intros; split; [lia|done].
Qed.

(** ** Archetype ids as functions of the id list *)

Lemma id_bytes_spec be l : id_bytes be l = concat (map (two_bytes be) l).
Proof. unfold id_bytes. f_equal. apply map_ext. intros x. by destruct be. Qed.
Lemma id_bytes_length be l : length (id_bytes be l) = 2 * length l.
Proof. unfold id_bytes. induction l; cbn in *; lia. Qed.
Lemma hash_limit_full bs : fnv1a_hash_32 bs (Some (length bs)) = fnv1a_reference_32 bs.
Proof.
  rewrite !hash_32_reference. unfold fnv1a_reference_32. f_equal. cbn. case_decide; [|done]. by rewrite firstn_all.
Qed.
Lemma buffer_length be l : length l <= 14 -> length (archetype_id_buffer be l) = 28.
Proof. intros. unfold archetype_id_buffer. rewrite app_length, id_bytes_length, replicate_length. lia. Qed.

Lemma compute_id_derived be ds :
  length ds <= 14 -> compute_archetype_id be ds = Some (derived_archetype_id be (ids ds)).
Proof.
  intros Hl. destruct ds as [|a [|b ds]]; [done..|].
  cbn -[Nat.leb fnv1a_hash_32 archetype_id_buffer id_bytes].
  cbn in Hl. unfold MAX_COMPONENTS_PER_ENTITY.
  rewrite (proj2 (Nat.leb_le _ _)) by (cbn; lia). f_equal.
  rewrite <- (buffer_length be (cd_id a :: cd_id b :: ids ds)) at 1 by (cbn; rewrite map_length; lia).
  rewrite hash_limit_full. unfold derived_archetype_id, archetype_id_buffer. by rewrite id_bytes_spec.
Qed.
Lemma compute_id_tuple be s n :
  length s = n -> n <= 14 ->
  compute_archetype_id be (s ++ replicate (14 - n) cd_INVALID)
  = Some (tuple_archetype_id be (ids s)).
Proof.
  intros <- Hn.
  assert (Hl : length (s ++ replicate (14 - length s) cd_INVALID) = 14).
  { rewrite app_length, replicate_length. lia. }
  rewrite compute_id_derived by lia. f_equal.
  unfold tuple_archetype_id. rewrite map_length.
  assert (Em : ids (s ++ replicate (14 - length s) cd_INVALID) = ids s ++ replicate (14 - length s) 65535%N).
  { rewrite map_app. f_equal. exact (fmap_replicate cd_id _ cd_INVALID). }
  rewrite Em. set (l := ids s ++ replicate (14 - length s) 65535%N).
  assert (Hll : length l = 14).
  { unfold l. rewrite <- Em, map_length. done. }
  clearbody l. destruct l as [|a [|b l]]; [done..|]. unfold derived_archetype_id.
  rewrite Hll. change (28 - 2 * 14) with 0. cbn [replicate]. by rewrite app_nil_r.
Qed.

(** ** Group descriptors *)

(** The mapping loops. *)
Lemma fold_pair {A} (f g : list nat -> A -> list nat) (h : list nat * list nat -> A -> list nat * list nat) l m :
  (forall m x, h m x = (f m.1 x, g m.2 x)) ->
  fold_left h l m = (fold_left f l m.1, fold_left g l m.2).
Proof.
  intros H. revert m. induction l as [|x l IH]; intros [m1 m2]; cbn; [done|].
  rewrite IH, H. done.
Qed.
Lemma fold_insert_none (P : nat -> bool) i js m :
  (forall j, j ∈ js -> P j = false) ->
  fold_left (fun (m : list nat) j => if P j then <[i := j]> m else m) js m = m.
Proof.
  revert m. induction js as [|j js IH]; intros m H; cbn; [done|].
  rewrite H by left. apply IH. intros. apply H. by right.
Qed.
Lemma fold_insert_unique (P : nat -> bool) i js m j0 :
  j0 ∈ js -> P j0 = true -> (forall j, j ∈ js -> P j = true -> j = j0) ->
  fold_left (fun (m : list nat) j => if P j then <[i := j]> m else m) js m = <[i := j0]> m.
Proof.
  revert m. induction js as [|j js IH]; intros m Hin HP Hu; [by apply elem_of_nil in Hin|]. cbn.
  destruct (decide (j0 ∈ js)) as [Hin'|Hnin].
  - destruct (P j) eqn:E.
    + rewrite (Hu j) by (auto; left). rewrite IH; auto; [|intros; apply Hu; auto; by right].
      by rewrite list_insert_insert.
    + apply IH; auto. intros. apply Hu; auto. by right.
  - apply elem_of_cons in Hin as [<-|]; [|done]. rewrite HP.
    apply fold_insert_none. intros j Hj. destruct (P j) eqn:E; [|done].
    apply Hu in E; [by subst|by right].
Qed.
Lemma fold_insert_all (f : nat -> nat) n (m : list nat) :
  forall i, i < n -> n <= length m ->
  fold_left (fun m i => <[i := f i]> m) (seq 0 n) m !! i = Some (f i).
Proof.
  induction n as [|n IH]; intros i Hi Hn; [lia|].
  rewrite seq_S, fold_left_app. cbn.
  assert (HL : forall k m', length (fold_left (fun (m : list nat) i => <[i := f i]> m) (seq 0 k) m') = length m').
  { intros k. induction k as [|k IHk]; intros m'; [done|].
    rewrite seq_S, fold_left_app. cbn. by rewrite insert_length. }
  destruct (decide (i = n)) as [->|].
  - apply list_lookup_insert. rewrite HL. lia.
  - rewrite list_lookup_insert_ne by done. apply IH; lia.
Qed.
Lemma fold_ext {A B} (f g : A -> B -> A) l a :
  (forall a x, x ∈ l -> f a x = g a x) -> fold_left f l a = fold_left g l a.
Proof.
  revert a. induction l as [|x l IH]; intros a H; cbn; [done|].
  rewrite H by left. apply IH. intros. apply H. by right.
Qed.

(** Position of an id in a list, as a spec-level function. *)
Fixpoint id_pos (x : N) (l : list N) : nat :=
  match l with [] => 0 | y :: l' => if (y =? x)%N then 0 else S (id_pos x l') end.
Lemma id_pos_lookup x l : x ∈ l -> l !! id_pos x l = Some x.
Proof.
  induction l as [|y l IH]; intros H; [by apply elem_of_nil in H|]. cbn.
  destruct (N.eqb_spec y x) as [->|]; [done|]. cbn.
  apply elem_of_cons in H as [->|]; [done|]. auto.
Qed.

Lemma sort_mappings_spec us s pad :
  us ≡ₚ s -> NoDup (ids us) -> length us <= 14 ->
  forall i, i < length us ->
    (compute_sort_mappings us (s ++ pad)).1 !! i = Some (id_pos (cd_id (cnth us i)) (ids s)) /\
    (compute_sort_mappings us (s ++ pad)).2 !! i = Some (id_pos (cd_id (cnth s i)) (ids us)).
Proof.
  intros Hp Hnd Hlen.
  assert (Hsl : length s = length us) by (symmetry; by apply Permutation_length).
  assert (Hnds : NoDup (ids s)) by (by rewrite <- Hp).
  unfold compute_sort_mappings.
  set (n := length us) in *.
  assert (Hin : forall i, i < n -> cd_id (cnth us i) ∈ ids s).
  { intros i Hi. destruct (lookup_lt_is_Some_2 us i Hi) as [d Hd].
    rewrite (cnth_lookup _ _ _ Hd), <- Hp. by apply elem_of_list_fmap_1, elem_of_list_lookup_2 with i. }
  assert (Hin' : forall i, i < n -> cd_id (cnth s i) ∈ ids us).
  { intros i Hi. destruct (lookup_lt_is_Some_2 s i) as [d Hd]; [lia|].
    rewrite (cnth_lookup _ _ _ Hd), Hp. by apply elem_of_list_fmap_1, elem_of_list_lookup_2 with i. }
  assert (Hcn : forall i, i < n -> cnth (s ++ pad) i = cnth s i).
  { intros i Hi. unfold cnth. by rewrite lookup_app_l by lia. }
  assert (Hlook : forall l i, i < length l -> ids l !! i = Some (cd_id (cnth l i))).
  { intros l i Hi. destruct (lookup_lt_is_Some_2 l i Hi) as [d Hd].
    change (ids l) with (cd_id <$> l). by rewrite list_lookup_fmap, Hd, (cnth_lookup _ _ _ Hd). }
  erewrite (fold_ext _ (fun m i => (<[i := id_pos (cd_id (cnth us i)) (ids s)]> m.1,
                                    <[i := id_pos (cd_id (cnth s i)) (ids us)]> m.2))).
  2:{ intros m i Hi%elem_of_seq.
      rewrite (fold_pair
        (fun m j => if (cd_id (cnth (s ++ pad) j) =? cd_id (cnth us i))%N then <[i := j]> m else m)
        (fun m j => if (cd_id (cnth us j) =? cd_id (cnth (s ++ pad) i))%N then <[i := j]> m else m)) by done.
      f_equal.
      - pose proof (id_pos_lookup _ _ (Hin i ltac:(lia))) as Hpos.
        pose proof (lookup_lt_Some _ _ _ Hpos) as Hplt. rewrite map_length in Hplt.
        apply fold_insert_unique with (P := fun j => (cd_id (cnth (s ++ pad) j) =? cd_id (cnth us i))%N).
        + apply elem_of_seq. lia.
        + rewrite Hcn by lia. rewrite Hlook in Hpos by lia. apply N.eqb_eq. congruence.
        + intros j Hj%elem_of_seq Ej%N.eqb_eq. rewrite Hcn in Ej by lia.
          eapply NoDup_lookup; [exact Hnds| |exact Hpos].
          rewrite Hlook by lia. congruence.
      - pose proof (id_pos_lookup _ _ (Hin' i ltac:(lia))) as Hpos.
        pose proof (lookup_lt_Some _ _ _ Hpos) as Hplt. rewrite map_length in Hplt.
        rewrite Hcn by lia.
        apply fold_insert_unique with (P := fun j => (cd_id (cnth us j) =? cd_id (cnth s i))%N).
        + apply elem_of_seq. lia.
        + rewrite Hlook in Hpos by lia. apply N.eqb_eq. congruence.
        + intros j Hj%elem_of_seq Ej%N.eqb_eq.
          eapply NoDup_lookup; [exact Hnd| |exact Hpos].
          rewrite Hlook by lia. congruence. }
  rewrite (fold_pair (fun m i => <[i := id_pos (cd_id (cnth us i)) (ids s)]> m)
                     (fun m i => <[i := id_pos (cd_id (cnth s i)) (ids us)]> m)) by done.
  intros i Hi. cbn [fst snd].
  split; apply (fold_insert_all (fun i => _)); rewrite ?replicate_length; try done; unfold MAX_COMPONENTS_PER_ENTITY; lia.
Qed.

(** What a valid group descriptor looks like. *)
Lemma gd_new_spec be ds :
  NoDup (ids ds) -> 1 <= length ds <= 14 ->
  exists s, s ≡ₚ ds /\ strict (ids s) /\
    let id := tuple_archetype_id be (ids s) in
    (id = 4294967295%N -> gd_new be ds = gd_INVALID) /\
    (id <> 4294967295%N ->
       exists s2u u2s,
         gd_new be ds = GDesc (ADesc id (s ++ replicate (14 - length ds) cd_INVALID) (length ds)) s2u u2s /\
         (forall i, i < length ds -> u2s !! i = Some (id_pos (cd_id (cnth ds i)) (ids s))) /\
         (forall i, i < length ds -> s2u !! i = Some (id_pos (cd_id (cnth s i)) (ids ds)))).
Proof.
  intros Hnd Hl. destruct (compute_sorted_spec ds) as (s&Es&Hp&Hs).
  assert (Hsl : length s = length ds) by (by apply Permutation_length).
  exists s. split; [done|]. split; [apply le_sorted_strict; [done|by rewrite Hp]|]. cbn zeta.
  unfold gd_new. rewrite (proj2 (validate_spec ds)) by done. cbn [negb].
  rewrite Es. unfold MAX_COMPONENTS_PER_ENTITY.
  rewrite (compute_id_tuple be s (length ds)) by lia.
  split.
  - intros E. rewrite E. done.
  - intros Hne. unfold aid_is_valid, AID_INVALID.
    rewrite (proj2 (N.eqb_neq _ _) Hne). cbn [negb].
    pose proof (sort_mappings_spec ds s (replicate (14 - length ds) cd_INVALID) (symmetry Hp) Hnd ltac:(lia)) as Hm.
    destruct (compute_sort_mappings ds (s ++ replicate (14 - length ds) cd_INVALID)) as [u2s s2u].
    cbn [fst snd] in *.
    unfold ad_new, aid_is_valid, AID_INVALID. rewrite (proj2 (N.eqb_neq _ _) Hne). cbn [negb].
    rewrite (proj2 (Nat.eqb_neq _ _)) by lia. cbn [orb gd_arch ad_id].
    rewrite (proj2 (N.eqb_neq _ _) Hne). cbn [negb].
    exists s2u, u2s. split; [done|]. split; intros i Hi; by apply Hm.
Qed.
Lemma gd_new_invalid be ds :
  ~ (NoDup (ids ds) /\ 1 <= length ds <= 14) -> gd_new be ds = gd_INVALID.
Proof.
  intros H. unfold gd_new.
  destruct (validate_component_descriptors ds) eqn:E; [|done].
  apply validate_spec in E. tauto.
Qed.

(** ** Subset tests *)
Lemma existsb_id x (l : list cdesc) :
  existsb (fun s => (cd_id s =? x)%N) l = true <-> x ∈ ids l.
Proof.
  rewrite existsb_exists. split.
  - intros (d&Hd&E%N.eqb_eq). subst. apply elem_of_list_In, in_map. done.
  - intros H. apply elem_of_list_In, in_map_iff in H as (d&<-&Hd). exists d. split; [done|]. apply N.eqb_refl.
Qed.
Lemma contains_subset_spec a d :
  length (ad_components a) = ad_len a -> length (ad_components d) = ad_len d ->
  NoDup (ids (ad_components d)) ->
  ad_contains_subset a d = true <-> ids (ad_components d) ⊆ ids (ad_components a).
Proof.
  intros Hla Hld Hnd. unfold ad_contains_subset.
  assert (Hf : forallb (fun di => existsb (fun sj => (cd_id sj =? cd_id di)%N) (ad_components a)) (ad_components d) = true
            <-> ids (ad_components d) ⊆ ids (ad_components a)).
  { rewrite forallb_forall. setoid_rewrite existsb_id. split.
    - intros H x Hx. apply elem_of_list_In, in_map_iff in Hx as (e&<-&He). by apply H.
    - intros H e He. apply H. apply elem_of_list_In, in_map. done. }
  destruct (Nat.ltb_spec (ad_len a) (ad_len d)) as [Hlt|Hge]; [|done].
  split; [done|]. intros Hsub. exfalso.
  assert (ids (ad_components d) ⊆+ ids (ad_components a)) as Hle%submseteq_length.
  { apply NoDup_submseteq; done. }
  rewrite !map_length in Hle. lia.
Qed.
Lemma excludes_subset_spec a d :
  ad_excludes_subset a d = true <-> forall x, x ∈ ids (ad_components d) -> x ∉ ids (ad_components a).
Proof.
  unfold ad_excludes_subset. rewrite forallb_forall. setoid_rewrite forallb_forall. split.
  - intros H x Hx Hx'. apply elem_of_list_In, in_map_iff in Hx as (e&<-&He).
    apply elem_of_list_In, in_map_iff in Hx' as (e'&E&He').
    specialize (H e He e' He'). rewrite E, N.eqb_refl in H. done.
  - intros H e He e' He'. destruct (N.eqb_spec (cd_id e') (cd_id e)) as [E|]; [|done].
    exfalso. apply (H (cd_id e)); [by apply elem_of_list_In, in_map|].
    rewrite <- E. by apply elem_of_list_In, in_map.
Qed.
Lemma has_component_spec a c :
  strict (ids (ad_components a)) ->
  ad_has_component a c = true <-> ct_id c ∈ ids (ad_components a).
Proof.
  intros Hs. unfold ad_has_component.
  destruct (binary_search (ids (ad_components a)) (ct_id c)) eqn:E; split; try done.
  - intros _. apply binary_search_inl in E; [|done]. by apply elem_of_list_lookup_2 in E.
  - intros H. by apply binary_search_inr in E.
Qed.

(** ** Adding and removing a component *)
Lemma shift_right_spec comps v from count :
  length v = length comps ->
  (from + count < length comps \/ count = 0 ->
     exists v', shift_right_loop comps from count v = Some v' /\ length v' = length v /\
       forall j, v' !! j = if decide (from < j <= from + count) then comps !! (j - 1) else v !! j) /\
  (length comps <= from + count -> 0 < count -> shift_right_loop comps from count v = None).
Proof.
  intros Hl. unfold shift_right_loop. induction count as [|count [IH1 IH2]].
  { split; [|lia]. intros _. exists v. cbn. repeat split; auto. intros j. case_decide; [lia|done]. }
  rewrite seq_S, fold_left_app. cbn [fold_left].
  split.
  - intros Hc. destruct IH1 as (v'&->&Hl'&Hv'); [lia|].
    destruct (lookup_lt_is_Some_2 comps (from + count)) as [d Hd]; [lia|]. rewrite Hd.
    rewrite (proj2 (Nat.ltb_lt _ _)) by lia.
    exists (<[S (from + count) := d]> v'). split; [done|]. rewrite insert_length. split; [done|].
    intros j. destruct (decide (j = S (from + count))) as [->|Hne].
    + rewrite list_lookup_insert by lia. case_decide; [|lia]. rewrite <- Hd. f_equal. lia.
    + rewrite list_lookup_insert_ne, Hv' by done. case_decide; case_decide; auto; lia.
  - intros Hc _. destruct (decide (length comps <= from + count /\ 0 < count)) as [[Hd1 Hd2]|Hd].
    + by rewrite IH2.
    + destruct IH1 as (v'&->&Hl'&Hv').
      { destruct (decide (count = 0)); [by right|]. left. lia. }
      destruct (comps !! (from + count)) as [d|]; [|done].
      rewrite (proj2 (Nat.ltb_ge _ _)) by lia. done.
Qed.
Lemma shift_left_spec comps v from count :
  length v = length comps ->
  (from + count < length comps \/ count = 0 ->
     exists v', shift_left_loop comps from count v = Some v' /\ length v' = length v /\
       forall j, v' !! j = if decide (from <= j < from + count) then comps !! S j else v !! j) /\
  (length comps <= from + count -> 0 < count -> shift_left_loop comps from count v = None).
Proof.
  intros Hl. unfold shift_left_loop. induction count as [|count [IH1 IH2]].
  { split; [|lia]. intros _. exists v. cbn. repeat split; auto. intros j. case_decide; [lia|done]. }
  rewrite seq_S, fold_left_app. cbn [fold_left].
  split.
  - intros Hc. destruct IH1 as (v'&->&Hl'&Hv'); [lia|].
    destruct (lookup_lt_is_Some_2 comps (S (from + count))) as [d Hd]; [lia|]. rewrite Hd.
    exists (<[from + count := d]> v'). split; [done|]. rewrite insert_length. split; [done|].
    intros j. destruct (decide (j = from + count)) as [->|Hne].
    + rewrite list_lookup_insert by lia. case_decide; [|lia]. done.
    + rewrite list_lookup_insert_ne, Hv' by done. case_decide; case_decide; auto; lia.
  - intros Hc _. destruct (decide (length comps <= from + count /\ 0 < count)) as [[Hd1 Hd2]|Hd].
    + by rewrite IH2.
    + destruct IH1 as (v'&->&Hl'&Hv').
      { destruct (decide (count = 0)); [by right|]. left. lia. }
      rewrite (lookup_ge_None_2 comps) by lia. done.
Qed.

Lemma ad_components_length d : ad_wf d -> length (ad_components d) = ad_len d.
Proof. intros (H&H'&_). unfold ad_components. rewrite take_length. lia. Qed.

Lemma ids_take n l : ids (take n l) = take n (ids l).
Proof. change (ids (take n l)) with (cd_id <$> take n l). by rewrite fmap_take. Qed.

(** Position at which a new id goes. *)
Lemma add_component_spec be d c :
  ad_wf d -> ad_len d <= 12 -> cd_id c ∉ ids (ad_components d) ->
  exists d' k, ad_add_component be d c = Rd (Some d') /\ ad_wf d' /\
    k <= ad_len d /\ ad_len d' = S (ad_len d) /\
    ad_components d' = take k (ad_components d) ++ c :: drop k (ad_components d) /\
    ad_id d' = derived_archetype_id be (ids (ad_components d')).
Proof.
  intros Hwf Hlen Hnin. pose proof Hwf as (H14&_&Hs). unfold ad_add_component, MAX_COMPONENTS_PER_ENTITY.
  rewrite (proj2 (Nat.eqb_neq _ _)) by lia.
  destruct (binary_search_absent _ _ Hs Hnin) as [k Ek]. rewrite Ek.
  pose proof (binary_search_spec _ (cd_id c) Hs) as Hk. rewrite Ek in Hk. destruct Hk as (Hk&_).
  rewrite map_length, ad_components_length in Hk by done.
  destruct (shift_right_spec (ad_comps d) (ad_comps d) k (ad_len d + 1 - k) eq_refl) as [H1 _].
  destruct H1 as (v'&->&Hl'&Hv'); [lia|].
  assert (Et : take (S (ad_len d)) (<[k := c]> v') = take k (ad_components d) ++ c :: drop k (ad_components d)).
  { apply list_eq. intros j. unfold ad_components.
    destruct (decide (j < S (ad_len d))) as [Hj|Hj].
    - rewrite lookup_take by done.
      destruct (Nat.lt_trichotomy j k) as [Hjk|[->|Hjk]].
      + rewrite list_lookup_insert_ne by lia. rewrite Hv'. case_decide; [lia|].
        rewrite lookup_app_l by (rewrite !take_length; lia).
        rewrite !lookup_take by lia. done.
      + rewrite list_lookup_insert by lia. symmetry.
        rewrite lookup_app_r by (rewrite !take_length; lia).
        rewrite !take_length. replace (k - k `min` (ad_len d `min` length (ad_comps d))) with 0 by lia. done.
      + rewrite list_lookup_insert_ne by lia. rewrite Hv'. case_decide; [|lia].
        rewrite lookup_app_r by (rewrite !take_length; lia). rewrite !take_length.
        replace (j - k `min` (ad_len d `min` length (ad_comps d))) with (S (j - 1 - k)) by lia. rewrite lookup_cons_S.
        rewrite lookup_drop, lookup_take by lia. f_equal. lia.
    - rewrite lookup_ge_None_2 by (rewrite take_length, insert_length; lia).
      symmetry. apply lookup_ge_None_2. rewrite app_length. cbn. rewrite drop_length, !take_length. lia. }
  rewrite Et.
  assert (Hcl : length (take k (ad_components d) ++ c :: drop k (ad_components d)) = S (ad_len d)).
  { rewrite app_length. cbn. rewrite take_length, drop_length, ad_components_length by done. lia. }
  rewrite compute_id_derived by lia.
  eexists _, k. split; [done|].
  assert (Ec : ad_components (ADesc (derived_archetype_id be (ids (take k (ad_components d) ++ c :: drop k (ad_components d)))) (<[k:=c]> v') (S (ad_len d)))
           = take k (ad_components d) ++ c :: drop k (ad_components d)) by exact Et.
  split; [|split; [done|split; [done|split; [done|by rewrite Ec]]]].
  split; [cbn; rewrite insert_length; lia|]. split; [cbn; lia|]. rewrite Ec.
  rewrite map_app. cbn [map]. rewrite ids_take.
  change (ids (drop k (ad_components d))) with (cd_id <$> drop k (ad_components d)). rewrite fmap_drop.
  by apply binary_search_insert.
Qed.
Lemma add_component_none be d c :
  ad_wf d -> ad_len d = 14 \/ cd_id c ∈ ids (ad_components d) -> ad_add_component be d c = Rd None.
Proof.
  intros (H14&_&Hs) H. unfold ad_add_component, MAX_COMPONENTS_PER_ENTITY.
  destruct (Nat.eqb_spec (ad_len d) 14); [done|]. destruct H as [|[i Hi]%elem_of_list_lookup]; [done|].
  by rewrite (binary_search_found _ _ _ Hs Hi).
Qed.
Lemma add_component_13_panics be d c :
  ad_wf d -> ad_len d = 13 -> cd_id c ∉ ids (ad_components d) -> ad_add_component be d c = RdPanic.
Proof.
  intros Hwf Hlen Hnin. pose proof Hwf as (H14&_&Hs). unfold ad_add_component, MAX_COMPONENTS_PER_ENTITY.
  rewrite (proj2 (Nat.eqb_neq _ _)) by lia.
  destruct (binary_search_absent _ _ Hs Hnin) as [k Ek]. rewrite Ek.
  pose proof (binary_search_spec _ (cd_id c) Hs) as Hk. rewrite Ek in Hk. destruct Hk as (Hk&_).
  rewrite map_length, ad_components_length in Hk by done.
  destruct (shift_right_spec (ad_comps d) (ad_comps d) k (ad_len d + 1 - k) eq_refl) as [_ H2].
  by rewrite H2 by lia.
Qed.

Lemma remove_component_spec be d id :
  ad_wf d -> 2 <= ad_len d <= 13 -> id ∈ ids (ad_components d) ->
  exists d' k, ad_remove_component be d id = Rd (Some d') /\ ad_wf d' /\
    ids (ad_components d) !! k = Some id /\ ad_len d' = pred (ad_len d) /\
    ad_components d' = take k (ad_components d) ++ drop (S k) (ad_components d) /\
    ad_id d' = derived_archetype_id be (ids (ad_components d')).
Proof.
  intros Hwf Hlen [k Hk]%elem_of_list_lookup. pose proof Hwf as (H14&_&Hs).
  unfold ad_remove_component.
  rewrite (proj2 (Nat.eqb_neq _ _)) by lia.
  rewrite (binary_search_found _ _ _ Hs Hk).
  pose proof (lookup_lt_Some _ _ _ Hk) as Hklt. rewrite map_length, ad_components_length in Hklt by done.
  destruct (shift_left_spec (ad_comps d) (ad_comps d) k (ad_len d - k) eq_refl) as [H1 _].
  destruct H1 as (v'&->&Hl'&Hv'); [lia|].
  assert (Et : take (pred (ad_len d)) v' = take k (ad_components d) ++ drop (S k) (ad_components d)).
  { apply list_eq. intros j. unfold ad_components.
    destruct (decide (j < pred (ad_len d))) as [Hj|Hj].
    - rewrite lookup_take, Hv' by done. case_decide.
      + rewrite lookup_app_r by (rewrite !take_length; lia). rewrite !take_length, lookup_drop, lookup_take by lia.
        f_equal. lia.
      + rewrite lookup_app_l by (rewrite !take_length; lia). rewrite !lookup_take by lia. done.
    - rewrite lookup_ge_None_2 by (rewrite take_length; lia).
      symmetry. apply lookup_ge_None_2. rewrite app_length, drop_length, !take_length. lia. }
  rewrite Et.
  assert (Hcl : length (take k (ad_components d) ++ drop (S k) (ad_components d)) = pred (ad_len d)).
  { rewrite app_length, take_length, drop_length, ad_components_length by done. lia. }
  rewrite compute_id_derived by lia.
  eexists _, k. split; [done|].
  assert (Ec : ad_components (ADesc (derived_archetype_id be (ids (take k (ad_components d) ++ drop (S k) (ad_components d)))) v' (pred (ad_len d)))
           = take k (ad_components d) ++ drop (S k) (ad_components d)) by exact Et.
  split; [|split; [done|split; [done|split; [done|by rewrite Ec]]]].
  split; [cbn; lia|]. split; [cbn; lia|]. rewrite Ec, map_app, ids_take.
  change (ids (drop (S k) (ad_components d))) with (cd_id <$> drop (S k) (ad_components d)). rewrite fmap_drop.
  apply strict_of_lookup. intros i j x y Hij Hi Hj.
  assert (HL : forall i x, (take k (ids (ad_components d)) ++ drop (S k) (ids (ad_components d))) !! i = Some x ->
            ids (ad_components d) !! (if decide (i < k) then i else S i) = Some x).
  { intros i' x' Hx. case_decide.
    - rewrite lookup_app_l in Hx by (rewrite take_length, map_length, ad_components_length by done; lia).
      by rewrite lookup_take in Hx.
    - rewrite lookup_app_r in Hx by (rewrite take_length; lia).
      rewrite lookup_drop, take_length, map_length, ad_components_length in Hx by done.
      rewrite <- Hx. f_equal. lia. }
  apply HL in Hi. apply HL in Hj.
  eapply (strict_lookup_lt _ _ _ _ _ Hs); [|exact Hi|exact Hj].
  case_decide; case_decide; lia.
Qed.
Lemma remove_component_none be d id :
  ad_wf d -> ad_len d = 1 \/ id ∉ ids (ad_components d) -> ad_remove_component be d id = Rd None.
Proof.
  intros (H14&_&Hs) H. unfold ad_remove_component.
  destruct (Nat.eqb_spec (ad_len d) 1); [done|]. destruct H as [|Hn]; [done|].
  destruct (binary_search_absent _ _ Hs Hn) as [k ->]. done.
Qed.
Lemma remove_component_14_panics be d id :
  ad_wf d -> ad_len d = 14 -> id ∈ ids (ad_components d) -> ad_remove_component be d id = RdPanic.
Proof.
  intros Hwf Hlen [k Hk]%elem_of_list_lookup. pose proof Hwf as (H14&_&Hs).
  unfold ad_remove_component. rewrite (proj2 (Nat.eqb_neq _ _)) by lia.
  rewrite (binary_search_found _ _ _ Hs Hk).
  pose proof (lookup_lt_Some _ _ _ Hk) as Hklt. rewrite map_length, ad_components_length in Hklt by done.
  destruct (shift_left_spec (ad_comps d) (ad_comps d) k (ad_len d - k) eq_refl) as [_ H2].
  by rewrite H2 by lia.
Qed.

(** ** The claims about tuple types *)
Lemma ids_cdesc_of G : ids (map cdesc_of G) = ids_of G.
Proof. rewrite map_map. done. Qed.

Lemma group_desc_valid be G :
  gd_is_valid (group_desc be G) = true <->
  1 <= length G <= 14 /\ NoDup (ids_of G) /\
  exists s, s ≡ₚ ids_of G /\ strict s /\ tuple_archetype_id be s <> 4294967295%N.
Proof.
  unfold group_desc. rewrite <- ids_cdesc_of, <- (map_length cdesc_of G).
  set (ds := map cdesc_of G).
  destruct (decide (NoDup (ids ds) /\ 1 <= length ds <= 14)) as [[Hnd Hl]|Hn].
  - destruct (gd_new_spec be ds Hnd Hl) as (s&Hp&Hs&H1&H2). cbn zeta in *.
    destruct (decide (tuple_archetype_id be (ids s) = 4294967295%N)) as [E|E].
    + rewrite H1 by done. split; [done|]. intros (_&_&s'&Hp'&Hs'&Hne).
      exfalso. apply Hne. rewrite <- E. f_equal. apply strict_perm_unique; auto.
      rewrite Hp'. symmetry. by rewrite Hp.
    + destruct H2 as (x&y&->&_); [done|]. unfold gd_is_valid, ad_is_valid, aid_is_valid. cbn [gd_arch ad_id].
      split; [|intros _; by apply negb_true_iff, N.eqb_neq].
      intros _. split; [done|]. split; [done|]. exists (ids s). split; [by rewrite Hp|done].
  - rewrite gd_new_invalid by done. split; [done|]. intros (?&?&_). tauto.
Qed.
Lemma group_desc_invalid be G :
  gd_is_valid (group_desc be G) = false -> group_desc be G = gd_INVALID.
Proof.
  unfold group_desc. set (ds := map cdesc_of G). intros H.
  destruct (decide (NoDup (ids ds) /\ 1 <= length ds <= 14)) as [[Hnd Hl]|Hn]; [|by apply gd_new_invalid].
  destruct (gd_new_spec be ds Hnd Hl) as (s&Hp&Hs&H1&H2). cbn zeta in *.
  destruct (decide (tuple_archetype_id be (ids s) = 4294967295%N)) as [E|E]; [by apply H1|].
  destruct H2 as (x&y&E'&_); [done|]. rewrite E' in H.
  unfold gd_is_valid, ad_is_valid, aid_is_valid in H. cbn [gd_arch ad_id] in H.
  apply negb_false_iff, N.eqb_eq in H. done.
Qed.

(** A valid group's descriptor, in full. *)
Lemma group_desc_spec be G :
  gd_is_valid (group_desc be G) = true ->
  let g := group_desc be G in
  exists s, s ≡ₚ G /\ strict (ids_of s) /\
    gd_arch g = ADesc (tuple_archetype_id be (ids_of s))
                      (map cdesc_of s ++ replicate (14 - length G) cd_INVALID) (length G) /\
    ad_components (gd_arch g) = map cdesc_of s /\
    tuple_archetype_id be (ids_of s) <> 4294967295%N /\
    (forall i c, G !! i = Some c ->
       gd_u2s g !! i = Some (id_pos (ct_id c) (ids_of s)) /\ s !! id_pos (ct_id c) (ids_of s) = Some c) /\
    (forall i c, s !! i = Some c ->
       gd_s2u g !! i = Some (id_pos (ct_id c) (ids_of G)) /\ G !! id_pos (ct_id c) (ids_of G) = Some c).
Proof.
  intros Hv g. pose proof Hv as Hv'. apply group_desc_valid in Hv' as (Hl&Hnd&_).
  subst g. unfold group_desc in *. set (ds := map cdesc_of G) in *.
  assert (Hnd' : NoDup (ids ds)) by (unfold ds; by rewrite ids_cdesc_of).
  assert (Hl' : length ds = length G) by apply map_length.
  destruct (gd_new_spec be ds Hnd' ltac:(lia)) as (sd&Hp&Hs&H1&H2). cbn zeta in *.
  destruct (decide (tuple_archetype_id be (ids sd) = 4294967295%N)) as [E|E].
  { rewrite H1 in Hv by done. done. }
  destruct H2 as (s2u&u2s&Eg&Hu&Hs2); [done|].
  assert (Hsl : length sd = length G) by (rewrite <- Hl'; by apply Permutation_length).
  (* recover the sorted types *)
  assert (exists s, s ≡ₚ G /\ sd = map cdesc_of s) as (s&HsG&->).
  { unfold ds in Hp.
    apply Permutation_map_inv in Hp as (s&Es&Hps). exists s. split; [by symmetry|done]. }
  rewrite ids_cdesc_of in *.
  exists s. split; [done|]. split; [done|]. rewrite Eg. cbn [gd_arch gd_u2s gd_s2u].
  split; [by rewrite Hl'|]. split.
  { unfold ad_components. cbn [ad_len ad_comps]. rewrite Hl', <- Hsl. apply take_app. }
  split; [done|].
  assert (Hpos : forall (l : list ctype) c, c ∈ l -> NoDup (ids_of l) -> l !! id_pos (ct_id c) (ids_of l) = Some c).
  { intros l c Hc Hndl. pose proof Hc as [k Hk]%elem_of_list_lookup.
    assert (Hik : ids_of l !! k = Some (ct_id c)).
    { change (ids_of l) with (ct_id <$> l). by rewrite list_lookup_fmap, Hk. }
    pose proof (id_pos_lookup (ct_id c) (ids_of l) (elem_of_list_lookup_2 _ _ _ Hik)) as Hj.
    by rewrite (NoDup_lookup _ _ _ _ Hndl Hj Hik). }
  assert (Hcn : forall (l : list ctype) i c, l !! i = Some c -> cd_id (cnth (map cdesc_of l) i) = ct_id c).
  { intros l i c Hi. rewrite (cnth_lookup _ _ (cdesc_of c)); [done|].
    change (map cdesc_of l) with (cdesc_of <$> l). by rewrite list_lookup_fmap, Hi. }
  split.
  - intros i c Hi. pose proof (lookup_lt_Some _ _ _ Hi).
    specialize (Hu i ltac:(lia)). rewrite Hu. unfold ds. rewrite (Hcn _ _ _ Hi).
    split; [done|]. apply Hpos; [rewrite HsG; by apply elem_of_list_lookup_2 with i|].
    by rewrite HsG.
  - intros i c Hi. pose proof (lookup_lt_Some _ _ _ Hi). rewrite map_length in Hsl.
    specialize (Hs2 i ltac:(lia)). rewrite Hs2. rewrite (Hcn _ _ _ Hi). unfold ds. rewrite ids_cdesc_of.
    split; [done|]. apply Hpos; [rewrite <- HsG; by apply elem_of_list_lookup_2 with i|done].
Qed.

Lemma group_desc_perm be G G' : G ≡ₚ G' -> gd_arch (group_desc be G) = gd_arch (group_desc be G').
Proof.
  intros Hp. destruct (gd_is_valid (group_desc be G)) eqn:E1, (gd_is_valid (group_desc be G')) eqn:E2.
  - destruct (group_desc_spec _ _ E1) as (s&Hs&Hst&->&_). destruct (group_desc_spec _ _ E2) as (s'&Hs'&Hst'&->&_).
    assert (Hids : ids_of s = ids_of s').
    { apply strict_perm_unique; auto. by rewrite Hs, Hs', Hp. }
    assert (s = s') as ->.
    { (* same ids in the same places, and both permutations of the same list *)
      assert (Hnd : NoDup (ids_of s')) by (by apply strict_NoDup).
      apply list_eq. intros i. destruct (s !! i) as [c|] eqn:Ei.
      - assert (Hc : c ∈ s') by (rewrite Hs', <- Hp, <- Hs; by apply elem_of_list_lookup_2 with i).
        apply elem_of_list_lookup in Hc as [j Hj].
        assert (Hi' : ids_of s !! i = Some (ct_id c)) by (change (ids_of s) with (ct_id <$> s); by rewrite list_lookup_fmap, Ei).
        assert (Hj' : ids_of s' !! j = Some (ct_id c)) by (change (ids_of s') with (ct_id <$> s'); by rewrite list_lookup_fmap, Hj).
        rewrite Hids in Hi'. by rewrite (NoDup_lookup _ _ _ _ Hnd Hi' Hj'), Hj.
      - symmetry. apply lookup_ge_None. apply lookup_ge_None in Ei.
        rewrite <- (map_length ct_id s'), <- Hids, map_length. done. }
    rewrite (Permutation_length Hp). done.
  - exfalso. apply group_desc_valid in E1 as (?&?&s&Hs&?).
    assert (gd_is_valid (group_desc be G') = true); [|congruence].
    apply group_desc_valid. rewrite <- Hp. split; [done|]. split; [done|]. exists s. by rewrite <- Hp.
  - exfalso. apply group_desc_valid in E2 as (?&?&s&Hs&?).
    assert (gd_is_valid (group_desc be G) = true); [|congruence].
    apply group_desc_valid. rewrite Hp. split; [done|]. split; [done|]. exists s. by rewrite Hp.
  - by rewrite (group_desc_invalid _ _ E1), (group_desc_invalid _ _ E2).
Qed.

Lemma group_arch_wf be G : ad_wf (gd_arch (group_desc be G)).
Proof.
  destruct (gd_is_valid (group_desc be G)) eqn:E.
  - destruct (group_desc_spec _ _ E) as (s&Hs&Hst&Ea&Ec&_). unfold ad_wf. rewrite Ec, Ea. cbn [ad_comps ad_len].
    apply group_desc_valid in E as (Hl&_). pose proof (Permutation_length Hs).
    rewrite app_length, map_length, replicate_length, ids_cdesc_of. split; [lia|]. split; [lia|done].
  - rewrite (group_desc_invalid _ _ E). split; [done|]. split; [cbn; lia|]. constructor.
Qed.

(** ** The claims *)
Lemma group_validity : forall be G,
  (gd_is_valid (group_desc be G) = true <->
     1 <= length G <= 14 /\ NoDup (ids_of G) /\
     exists s, s ≡ₚ ids_of G /\ strict s /\ tuple_archetype_id be s <> 4294967295%N) /\
  (gd_is_valid (group_desc be G) = false -> gd_len (group_desc be G) = 0) /\
  (gd_is_valid (group_desc be G) = true -> gd_len (group_desc be G) = length G).
Proof.
  intros be G. split; [apply group_desc_valid|]. split.
  - intros H. by rewrite group_desc_invalid.
  - intros H. destruct (group_desc_spec _ _ H) as (s&_&_&E&_). unfold gd_len. by rewrite E.
Qed.
Lemma tuple_order : forall be G G',
  G ≡ₚ G' ->
  gd_arch (group_desc be G) = gd_arch (group_desc be G') /\
  (gd_is_valid (group_desc be G) = true ->
     ad_components (gd_arch (group_desc be G)) ≡ₚ map cdesc_of G /\
     strict (ids (ad_components (gd_arch (group_desc be G)))) /\
     ad_len (gd_arch (group_desc be G)) = length G /\
     ad_id (gd_arch (group_desc be G)) = tuple_archetype_id be (ids (ad_components (gd_arch (group_desc be G))))).
Proof.
  intros be G G' Hp. split; [by apply group_desc_perm|]. intros Hv.
  destruct (group_desc_spec _ _ Hv) as (s&Hs&Hst&E&Ec&_). rewrite Ec, ids_cdesc_of, E. cbn. split; [by rewrite Hs|done].
Qed.
Lemma sort_mappings : forall be G,
  let g := group_desc be G in
  gd_is_valid g = true ->
  (forall i, i < length G ->
     gd_unsorted_to_sorted g i < length G /\ gd_sorted_to_unsorted g i < length G /\
     gd_sorted_to_unsorted g (gd_unsorted_to_sorted g i) = i /\
     gd_unsorted_to_sorted g (gd_sorted_to_unsorted g i) = i) /\
  (forall i c, G !! i = Some c ->
     ad_components (gd_arch g) !! gd_unsorted_to_sorted g i = Some (cdesc_of c)).
Proof.
  intros be G g Hv. destruct (group_desc_spec _ _ Hv) as (s&Hs&Hst&E&Ec&_&Hu&Hsu).
  pose proof (Permutation_length Hs) as Hlen.
  subst g. apply group_desc_valid in Hv as (_&Hnd&_).
  assert (HndG : NoDup G) by (by apply (NoDup_fmap_1 ct_id)).
  assert (Hnds : NoDup s) by (by rewrite Hs).
  unfold gd_unsorted_to_sorted, gd_sorted_to_unsorted. split.
  - intros i Hi.
    destruct (lookup_lt_is_Some_2 G i Hi) as [c Hc]. destruct (Hu _ _ Hc) as [E1 L1]. rewrite E1. cbn [default from_option id].
    destruct (lookup_lt_is_Some_2 s i) as [c' Hc']; [lia|]. destruct (Hsu _ _ Hc') as [E2 L2]. rewrite E2. cbn [default from_option id].
    pose proof (lookup_lt_Some _ _ _ L1). pose proof (lookup_lt_Some _ _ _ L2).
    split; [lia|]. split; [lia|].
    destruct (Hsu _ _ L1) as [E3 L3]. destruct (Hu _ _ L2) as [E4 L4].
    rewrite E3, E4. cbn. split; [by eapply (NoDup_lookup G)|by eapply (NoDup_lookup s)].
  - intros i c Hc. destruct (Hu _ _ Hc) as [E1 L1]. rewrite E1, Ec. cbn [default from_option id].
    change (map cdesc_of s) with (cdesc_of <$> s). by rewrite list_lookup_fmap, L1.
Qed.
Lemma subset_tests : forall self d,
  ad_wf self -> ad_wf d ->
  (ad_contains_subset self d = true <->
     forall x, x ∈ ids (ad_components d) -> x ∈ ids (ad_components self)) /\
  (ad_excludes_subset self d = true <->
     forall x, x ∈ ids (ad_components d) -> x ∉ ids (ad_components self)) /\
  (forall c, ad_has_component self c = true <-> ct_id c ∈ ids (ad_components self)).
Proof.
  intros self d Hs Hd. split; [|split].
  - apply contains_subset_spec; [by apply ad_components_length..|]. apply strict_NoDup, Hd.
  - apply excludes_subset_spec.
  - intros c. apply has_component_spec, Hs.
Qed.
Lemma wf_invalid : ad_wf ad_INVALID.
Proof. split; [done|]. split; [cbn; lia|]. constructor. Qed.
Lemma wf_add be d c d' : ad_wf d -> ad_add_component be d c = Rd (Some d') ->
  ad_wf d' /\ ad_id d' = derived_archetype_id be (ids (ad_components d')) /\ ad_len d' = S (ad_len d) /\ ad_len d <= 12 /\
  ad_components d' ≡ₚ c :: ad_components d /\ cd_id c ∉ ids (ad_components d).
Proof.
  intros Hwf E. destruct (decide (ad_len d = 14 \/ cd_id c ∈ ids (ad_components d))) as [H|H].
  { rewrite add_component_none in E by done. done. }
  apply Decidable.not_or in H as [H1 H2]. pose proof Hwf as (_&Hle&_).
  destruct (decide (ad_len d = 13)) as [H13|H13].
  { rewrite add_component_13_panics in E by done. done. }
  destruct (add_component_spec be d c Hwf ltac:(lia) H2) as (d2&k&E2&Hw&Hk&Hl&Hc&Hid).
  rewrite E2 in E. injection E as <-. split; [done|]. split; [done|]. split; [done|]. split; [lia|]. split; [|done].
  rewrite Hc. rewrite <- Permutation_middle, take_drop. done.
Qed.
Lemma wf_remove be d id d' : ad_wf d -> 1 <= ad_len d -> ad_remove_component be d id = Rd (Some d') ->
  ad_wf d' /\ ad_id d' = derived_archetype_id be (ids (ad_components d')) /\ S (ad_len d') = ad_len d /\ 2 <= ad_len d <= 13 /\
  exists c, cd_id c = id /\ ad_components d ≡ₚ c :: ad_components d'.
Proof.
  intros Hwf H1 E. destruct (decide (ad_len d = 1 \/ id ∉ ids (ad_components d))) as [H|H].
  { rewrite remove_component_none in E by done. done. }
  apply Decidable.not_or in H as [Hn1 H2]. pose proof Hwf as (_&Hle&_).
  destruct (decide (id ∈ ids (ad_components d))) as [Hin|]; [|done].
  destruct (decide (ad_len d = 14)) as [H14|H14].
  { rewrite remove_component_14_panics in E by done. done. }
  destruct (remove_component_spec be d id Hwf ltac:(lia) Hin) as (d2&k&E2&Hw&Hk&Hl&Hc&Hid).
  rewrite E2 in E. injection E as <-. split; [done|]. split; [done|]. split; [lia|]. split; [lia|].
  change (ids (ad_components d)) with (cd_id <$> ad_components d) in Hk.
  rewrite list_lookup_fmap in Hk. destruct (ad_components d !! k) as [c|] eqn:Ek; [|done].
  injection Hk as Hk. exists c. split; [done|]. rewrite Hc.
  rewrite <- (take_drop_middle _ _ _ Ek) at 1. by rewrite Permutation_middle.
Qed.
Lemma wf_closed :
  (forall be G, ad_wf (gd_arch (group_desc be G))) /\
  (forall c, ad_wf (ad_of_cdesc c)) /\ ad_wf ad_INVALID /\
  (forall be d c d', ad_wf d -> ad_add_component be d c = Rd (Some d') -> ad_wf d') /\
  (forall be d id d', ad_wf d -> 1 <= ad_len d -> ad_remove_component be d id = Rd (Some d') -> ad_wf d').
Proof.
  split; [apply group_arch_wf|]. split; [|split; [apply wf_invalid|split]].
  - intros c. unfold ad_of_cdesc, ad_new. destruct (_ || _); [apply wf_invalid|].
    split; [done|]. split; [cbn; lia|]. cbn. repeat constructor.
  - intros be d c d' H E. by eapply wf_add.
  - intros be d c d' H H1 E. by eapply wf_remove.
Qed.
Lemma descr_add_component : forall be d c,
  ad_wf d ->
  (ad_len d = 14 \/ cd_id c ∈ ids (ad_components d) -> ad_add_component be d c = Rd None) /\
  (ad_len d <= 12 -> cd_id c ∉ ids (ad_components d) ->
     exists d', ad_add_component be d c = Rd (Some d') /\
       ad_len d' = S (ad_len d) /\
       ad_components d' ≡ₚ c :: ad_components d /\ strict (ids (ad_components d')) /\
       ad_id d' = derived_archetype_id be (ids (ad_components d'))) /\
  (ad_len d = 13 -> cd_id c ∉ ids (ad_components d) -> ad_add_component be d c = RdPanic).
Proof.
  intros be d c Hwf. split; [by apply add_component_none|]. split; [|by apply add_component_13_panics].
  intros H1 H2. destruct (add_component_spec be d c Hwf H1 H2) as (d2&k&E2&_).
  destruct (wf_add _ _ _ _ Hwf E2) as ((_&_&?)&?&?&?&?&?). eauto 10.
Qed.
Lemma descr_remove_component : forall be d id,
  ad_wf d -> 1 <= ad_len d ->
  (ad_len d = 1 \/ id ∉ ids (ad_components d) -> ad_remove_component be d id = Rd None) /\
  (2 <= ad_len d <= 13 -> id ∈ ids (ad_components d) ->
     exists d' c, ad_remove_component be d id = Rd (Some d') /\
       S (ad_len d') = ad_len d /\ cd_id c = id /\
       ad_components d ≡ₚ c :: ad_components d' /\ strict (ids (ad_components d')) /\
       ad_id d' = derived_archetype_id be (ids (ad_components d'))) /\
  (ad_len d = 14 -> id ∈ ids (ad_components d) -> ad_remove_component be d id = RdPanic).
Proof.
  intros be d id Hwf Hpos. split; [by apply remove_component_none|]. split; [|by apply remove_component_14_panics].
  intros H1 H2. destruct (remove_component_spec be d id Hwf H1 H2) as (d2&k&E2&_).
  destruct (wf_remove _ _ _ _ Hwf Hpos E2) as ((_&_&?)&?&?&?&c&?&?). exists d2, c. auto 10.
Qed.

(** Witnesses. *)
Definition wt (i : N) : ctype := CType i i 4 4.
Lemma descr_add_refuted :
  exists be d c, ad_wf d /\ ad_is_valid d = true /\ ad_len d < 14 /\ cd_id c ∉ ids (ad_components d) /\
    ad_add_component be d c = RdPanic.
Proof.
  exists false, (gd_arch (group_desc false (map wt [1; 2; 3; 4; 5; 6; 7; 8; 9; 10; 11; 12; 13]%N))), (cdesc_of (wt 100)).
  split; [apply group_arch_wf|]. split; [by vm_compute|]. split; [by apply Nat.ltb_lt|].
  split; [|by vm_compute].
  intros H. apply existsb_id in H. revert H. by vm_compute.
Qed.
Lemma descr_remove_refuted :
  exists be d id, ad_wf d /\ ad_is_valid d = true /\ 1 < ad_len d /\ id ∈ ids (ad_components d) /\
    ad_remove_component be d id = RdPanic.
Proof.
  exists false, (gd_arch (group_desc false (map wt [1; 2; 3; 4; 5; 6; 7; 8; 9; 10; 11; 12; 13; 14]%N))), 14%N.
  split; [apply group_arch_wf|]. split; [by vm_compute|]. split; [by apply Nat.ltb_lt|].
  split; [|by vm_compute]. apply existsb_id. by vm_compute.
Qed.
Lemma one_identity_refuted :
  exists be A B d, gd_is_valid (group_desc be [A; B]) = true /\
    ad_add_component be (gd_arch (group_desc be [A])) (cdesc_of B) = Rd (Some d) /\
    ad_components d = ad_components (gd_arch (group_desc be [A; B])) /\
    ad_id d <> ad_id (gd_arch (group_desc be [A; B])).
Proof.
  exists false, (wt 1), (wt 2). eexists. split; [by vm_compute|]. split; [by vm_compute|].
  split; [by vm_compute|]. vm_compute. discriminate.
Qed.
Lemma strict_set_unique l1 l2 : strict l1 -> strict l2 -> (forall x, x ∈ l1 <-> x ∈ l2) -> l1 = l2.
Proof.
  intros H1 H2 H. apply strict_perm_unique; auto. apply NoDup_Permutation; auto; by apply strict_NoDup.
Qed.
Lemma one_identity_partial :
  (forall be G G', gd_is_valid (group_desc be G) = true -> gd_is_valid (group_desc be G') = true ->
     (forall x, x ∈ ids_of G <-> x ∈ ids_of G') ->
     ad_id (gd_arch (group_desc be G)) = ad_id (gd_arch (group_desc be G'))) /\
  (forall be d1 c1 r1 d2 c2 r2, ad_wf d1 -> ad_wf d2 ->
     ad_add_component be d1 c1 = Rd (Some r1) -> ad_add_component be d2 c2 = Rd (Some r2) ->
     (forall x, x ∈ ids (ad_components r1) <-> x ∈ ids (ad_components r2)) -> ad_id r1 = ad_id r2) /\
  (forall be d1 c1 r1 d2 i2 r2, ad_wf d1 -> ad_wf d2 -> 1 <= ad_len d2 ->
     ad_add_component be d1 c1 = Rd (Some r1) -> ad_remove_component be d2 i2 = Rd (Some r2) ->
     (forall x, x ∈ ids (ad_components r1) <-> x ∈ ids (ad_components r2)) -> ad_id r1 = ad_id r2).
Proof.
  split; [|split].
  - intros be G G' Hv Hv' H. destruct (group_desc_spec _ _ Hv) as (s&Hs&Hst&->&_).
    destruct (group_desc_spec _ _ Hv') as (s'&Hs'&Hst'&->&_). cbn. f_equal.
    apply strict_set_unique; auto. intros x. by rewrite Hs, Hs'.
  - intros be d1 c1 r1 d2 c2 r2 H1 H2 E1 E2 H.
    apply wf_add in E1 as ((_&_&Hs1)&->&_); [|done]. apply wf_add in E2 as ((_&_&Hs2)&->&_); [|done].
    f_equal. by apply strict_set_unique.
  - intros be d1 c1 r1 d2 c2 r2 H1 H2 Hp E1 E2 H.
    apply wf_add in E1 as ((_&_&Hs1)&->&_); [|done]. apply wf_remove in E2 as ((_&_&Hs2)&->&_); [|done..].
    f_equal. by apply strict_set_unique.
Qed.
