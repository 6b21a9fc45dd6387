(** * Descriptors are finite sets of components *)
From Verif Require Import SearchProofs DescrProofs SpecDescr.
Local Open Scope nat_scope.

(** ** Maps and sorted lists *)
Lemma map_of_cons c l : map_of (c :: l) = <[cd_id c := c]> (map_of l).
Proof. done. Qed.
Lemma keys_ids (l : list cdesc) : (map (fun c => (cd_id c, c)) l).*1 = ids l.
Proof. induction l; cbn; [done|]. by f_equal. Qed.
Lemma map_of_lookup l i : NoDup (ids l) -> forall c, map_of l !! i = Some c <-> c ∈ l /\ cd_id c = i.
Proof.
  intros Hnd c. unfold map_of. rewrite <- elem_of_list_to_map by (by rewrite keys_ids).
  rewrite elem_of_list_In, in_map_iff. split.
  - intros (d&E&Hd). injection E as <- <-. split; [by apply elem_of_list_In|done].
  - intros [Hc <-]. exists c. split; [done|]. by apply elem_of_list_In.
Qed.
Lemma map_of_is_Some l i : is_Some (map_of l !! i) <-> i ∈ ids l.
Proof.
  unfold map_of. rewrite <- (elem_of_dom (D := gset N)), dom_list_to_map, keys_ids. apply elem_of_list_to_set.
Qed.
Lemma map_of_None l i : map_of l !! i = None <-> i ∉ ids l.
Proof. rewrite <- map_of_is_Some. by rewrite eq_None_not_Some. Qed.
Lemma map_of_size l : NoDup (ids l) -> size (map_of l) = length l.
Proof.
  induction l as [|c l IH]; intros Hnd; [done|]. cbn in Hnd. apply NoDup_cons in Hnd as [Hn Hnd].
  rewrite map_of_cons, map_size_insert_None by (by apply map_of_None). cbn. by rewrite IH.
Qed.
Lemma map_of_perm l l' : NoDup (ids l) -> l ≡ₚ l' -> map_of l = map_of l'.
Proof.
  intros Hnd Hp. assert (Hnd' : NoDup (ids l')) by (by rewrite <- Hp).
  apply map_eq. intros i. apply option_eq. intros c. rewrite !map_of_lookup by done. by rewrite Hp.
Qed.
Lemma sorted_strict (l : list N) : Sorted N.le l -> NoDup l -> strict l.
Proof.
  intros Hs Hnd. apply Sorted_StronglySorted in Hs; [|intros x y z; apply N.le_trans].
  induction Hs as [|x l Hs IH Hf]; [constructor|].
  apply NoDup_cons in Hnd as [Hn Hnd]. constructor; [by apply IH|].
  rewrite Forall_forall in Hf |- *. intros y Hy. specialize (Hf y Hy).
  assert (x <> y) by (intros ->; done). lia.
Qed.
Lemma in_order_strict m : strict (in_order m).
Proof.
  unfold in_order. apply sorted_strict.
  - apply Sorted_merge_sort. intros x y. lia.
  - rewrite merge_sort_Permutation. apply NoDup_elements.
Qed.
Lemma in_order_map_of l : strict (ids l) -> in_order (map_of l) = ids l.
Proof.
  intros Hs. apply strict_perm_unique; [apply in_order_strict|done|].
  unfold in_order. rewrite merge_sort_Permutation. apply NoDup_Permutation.
  - apply NoDup_elements.
  - by apply strict_NoDup.
  - intros i. rewrite elem_of_elements, elem_of_dom. apply map_of_is_Some.
Qed.
Lemma omap_self (m : gmap N cdesc) l : (forall c, c ∈ l -> m !! cd_id c = Some c) -> omap (fun i => m !! i) (ids l) = l.
Proof.
  induction l as [|c l IH]; intros H; [done|]. cbn. rewrite H by left. f_equal. apply IH. intros. apply H. by right.
Qed.
Lemma listing_map_of l : strict (ids l) -> listing (map_of l) = l.
Proof.
  intros Hs. unfold listing. rewrite in_order_map_of by done. apply omap_self. intros c Hc.
  apply map_of_lookup; [by apply strict_NoDup|done].
Qed.

(** ** The relation between descriptors and sets *)
Definition R (d : adesc) (s : cset) : Prop :=
  ad_wf d /\ s_map s = map_of (ad_components d) /\ s_id s = ad_id d.

Lemma R_nothing : R ad_INVALID nothing.
Proof. split; [apply wf_invalid|]. done. Qed.
Lemma R_nodup d s : R d s -> NoDup (ids (ad_components d)).
Proof. intros ((_&_&Hs)&_). by apply strict_NoDup. Qed.
Lemma R_size d s : R d s -> size (s_map s) = ad_len d.
Proof.
  intros H. pose proof (R_nodup _ _ H) as Hnd. destruct H as (Hw&->&_).
  rewrite map_of_size by done. by apply ad_components_length.
Qed.
Lemma R_add be d s c : R d s ->
  match ad_add_component be d c with
  | Rd (Some d') => exists s', set_add be s c = Some (Some s') /\ R d' s'
  | Rd None => set_add be s c = Some None
  | RdPanic => set_add be s c = None
  | RdUB => False
  end.
Proof.
  intros H. pose proof (R_size _ _ H) as Hsz. pose proof (R_nodup _ _ H) as Hnd. destruct H as (Hw&Em&Ei).
  unfold set_add. rewrite Hsz. pose proof Hw as (_&Hle&_).
  assert (Hin : is_Some (s_map s !! cd_id c) <-> cd_id c ∈ ids (ad_components d)) by (rewrite Em; apply map_of_is_Some).
  case_decide as Hd.
  { rewrite add_component_none; [done|done|]. destruct Hd; [right; by apply Hin|by left]. }
  apply Decidable.not_or in Hd as [Hn H14]. rewrite Hin in Hn.
  case_decide as H13; [by rewrite add_component_13_panics|].
  destruct (add_component_spec be d c Hw ltac:(lia) Hn) as (d'&k&E&Hw'&_&_&Ec&Eid). rewrite E.
  eexists. split; [done|].
  assert (Hp : ad_components d' ≡ₚ c :: ad_components d).
  { rewrite Ec, <- Permutation_middle. by rewrite take_drop. }
  assert (Em' : <[cd_id c:=c]> (s_map s) = map_of (ad_components d')).
  { rewrite Em, <- map_of_cons. symmetry. apply map_of_perm; [|done]. apply strict_NoDup, Hw'. }
  split; [done|]. cbn [s_map s_id]. split; [done|]. rewrite Em', in_order_map_of; [done|]. apply Hw'.
Qed.
Lemma R_remove be d s id : R d s ->
  match ad_remove_component be d id with
  | Rd (Some d') => exists s', set_remove be s id = Some (Some s') /\ R d' s'
  | Rd None => set_remove be s id = Some None
  | RdPanic => set_remove be s id = None
  | RdUB => False
  end.
Proof.
  intros H. pose proof (R_size _ _ H) as Hsz. pose proof (R_nodup _ _ H) as Hnd. destruct H as (Hw&Em&Ei).
  unfold set_remove. rewrite Hsz. pose proof Hw as (_&Hle&_).
  assert (Hin : s_map s !! id = None <-> id ∉ ids (ad_components d)) by (rewrite Em; apply map_of_None).
  case_decide as Hd.
  { rewrite remove_component_none; [done|done|]. destruct Hd; [right; by apply Hin|by left]. }
  apply Decidable.not_or in Hd as [Hn H1]. rewrite Hin in Hn. apply dec_stable in Hn.
  case_decide as H14; [by rewrite remove_component_14_panics|].
  assert (H0 : ad_len d <> 0).
  { intros E0. unfold ad_components in Hn. rewrite E0 in Hn. cbn in Hn. by apply elem_of_nil in Hn. }
  destruct (remove_component_spec be d id Hw ltac:(lia) Hn) as (d'&k&E&Hw'&Hk&_&Ec&Eid). rewrite E.
  eexists. split; [done|].
  change (ids (ad_components d)) with (cd_id <$> ad_components d) in Hk.
  rewrite list_lookup_fmap in Hk. destruct (ad_components d !! k) as [x|] eqn:Ex; [|done]. cbn in Hk. injection Hk as <-.
  assert (Hp : ad_components d ≡ₚ x :: ad_components d').
  { rewrite Ec, <- delete_take_drop. by apply delete_Permutation. }
  assert (Hn' : cd_id x ∉ ids (ad_components d')).
  { rewrite Hp in Hnd. cbn in Hnd. by apply NoDup_cons in Hnd as [? _]. }
  assert (Em' : delete (cd_id x) (s_map s) = map_of (ad_components d')).
  { rewrite Em, (map_of_perm _ _ Hnd Hp), map_of_cons, delete_insert; [done|]. by apply map_of_None. }
  split; [done|]. cbn [s_map s_id]. split; [done|]. rewrite Em', in_order_map_of; [done|]. apply Hw'.
Qed.
Lemma R_group be l : R (gd_arch (gd_new be l)) (set_group be l).
Proof.
  unfold set_group. destruct (decide (NoDup (ids l) /\ 1 <= length l <= 14)) as [[Hnd Hl]|Hno].
  - destruct (gd_new_spec be l Hnd Hl) as (s&Hp&Hs&H1&H2). cbn zeta in H1, H2.
    assert (Eo : in_order (map_of l) = ids s).
    { rewrite (map_of_perm l s) by done. by apply in_order_map_of. }
    rewrite Eo. pose proof (Permutation_length Hp) as Hlen. case_decide as Hd.
    + destruct Hd as (_&_&Hne). destruct (H2 Hne) as (s2u&u2s&->&_&_). cbn [gd_arch].
      assert (Ec : ad_components (ADesc (tuple_archetype_id be (ids s)) (s ++ replicate (14 - length l) cd_INVALID) (length l)) = s).
      { unfold ad_components. cbn [ad_len ad_comps]. rewrite <- Hlen. apply take_app. }
      split; [|split; [|done]].
      * split; [|split; [cbn; lia|by rewrite Ec]]. cbn [ad_comps]. rewrite app_length, replicate_length. lia.
      * rewrite Ec. cbn [s_map]. by apply map_of_perm.
    + destruct (decide (tuple_archetype_id be (ids s) = reserved)) as [E|E]; [|tauto].
      rewrite H1 by done. apply R_nothing.
  - rewrite decide_False by tauto. rewrite gd_new_invalid by done. apply R_nothing.
Qed.
Lemma R_new id len comps : length comps = 14 -> len <= 14 -> strict (ids (take len comps)) ->
  R (ad_new id len comps) (set_new id (take len comps)).
Proof.
  intros H14 Hle Hs. unfold ad_new, set_new.
  assert (Hnil : take len comps = [] <-> len = 0).
  { destruct len; [done|]. destruct comps; [done|]. done. }
  destruct (Nat.eqb_spec len 0) as [E0|E0]; cbn [orb].
  { rewrite decide_True by (left; by apply Hnil). apply R_nothing. }
  unfold aid_is_valid. destruct (N.eqb_spec id AID_INVALID) as [E|E]; cbn [negb].
  { rewrite decide_True by (by right). apply R_nothing. }
  rewrite decide_False by (rewrite Hnil; intros [?|?]; done).
  split; [|done]. split; [done|]. done.
Qed.
Lemma R_into c : (cd_id c < 65536)%N -> R (ad_of_cdesc c) (CSet {[cd_id c := c]} (cd_id c)).
Proof.
  intros Hc. unfold ad_of_cdesc, ad_new, aid_is_valid, AID_INVALID. cbn [Nat.eqb orb].
  rewrite (proj2 (N.eqb_neq _ _)) by lia. cbn [negb].
  split; [|done]. split; [done|]. split; [cbn; lia|]. cbn. repeat constructor.
Qed.

(** ** Programs *)
Lemma step_R be ds ss o : call_ok o -> Forall2 R ds ss ->
  Forall2 R (dstep be ds o).1 (set_step be ss o).1 /\ (dstep be ds o).2 = (set_step be ss o).2.
Proof.
  intros Ho HR.
  assert (Hask : forall i f g, (forall d s, R d s -> Forall2 R (f d).1 (g s).1 /\ (f d).2 = (g s).2) ->
    Forall2 R (ask ds i f).1 (set_ask ss i g).1 /\ (ask ds i f).2 = (set_ask ss i g).2).
  { intros i f g H. unfold ask, set_ask. destruct (ds !! i) as [d|] eqn:E.
    - destruct (Forall2_lookup_l _ _ _ _ _ HR E) as (s&->&Hs). by apply H.
    - apply lookup_ge_None in E. rewrite (lookup_ge_None_2 ss i); [done|]. by rewrite <- (Forall2_length _ _ _ HR). }
  assert (Hmade : forall r q, match r with
      | Rd (Some d') => exists s', q = Some (Some s') /\ R d' s'
      | Rd None => q = Some None | RdPanic => q = None | RdUB => False end ->
    Forall2 R (made ds r).1 (set_made ss q).1 /\ (made ds r).2 = (set_made ss q).2).
  { intros [[d|]| |] q H; [|subst; done|subst; done|done].
    destruct H as (s&->&Hs). cbn. split; [|done]. apply Forall2_app; [done|]. by constructor. }
  assert (Hsnoc : forall d s, R d s -> Forall2 R (ds ++ [d]) (ss ++ [s])).
  { intros. apply Forall2_app; [done|]. by constructor. }
  destruct o; cbn [dstep set_step fst snd].
  - split; [|done]. apply Hsnoc, R_nothing.
  - split; [|done]. destruct Ho as (?&?&?). apply Hsnoc. by apply R_new.
  - split; [|done]. apply Hsnoc. by apply R_into.
  - split; [|done]. apply Hsnoc, R_group.
  - apply Hask. intros d s Hd. apply Hmade. by apply R_add.
  - apply Hask. intros d s Hd. apply Hmade. by apply (R_add be d s (cdesc_of c)).
  - apply Hask. intros d s Hd. apply Hmade. by apply R_remove.
  - apply Hask. intros d s Hd. split; [done|]. cbn. f_equal. apply eq_bool_prop_intro.
    rewrite bool_decide_spec. destruct Hd as ((_&_&Hs)&->&_).
    rewrite map_of_is_Some, Is_true_true. by apply has_component_spec.
  - apply Hask. intros d s Hd. apply Hask. intros e t He. split; [done|]. cbn. f_equal.
    apply eq_bool_prop_intro. rewrite bool_decide_spec, Is_true_true.
    destruct Hd as (Hwd&->&_), He as (Hwe&->&_).
    rewrite (proj1 (subset_tests d e Hwd Hwe)). split; intros H x.
    + rewrite !elem_of_dom, !map_of_is_Some. apply H.
    + specialize (H x). rewrite !elem_of_dom, !map_of_is_Some in H. apply H.
  - apply Hask. intros d s Hd. apply Hask. intros e t He. split; [done|]. cbn. f_equal.
    apply eq_bool_prop_intro. rewrite bool_decide_spec, Is_true_true.
    destruct Hd as (Hwd&->&_), He as (Hwe&->&_).
    rewrite (proj1 (proj2 (subset_tests d e Hwd Hwe))). split; intros H x.
    + rewrite !elem_of_dom, !map_of_is_Some. apply H.
    + specialize (H x). rewrite !elem_of_dom, !map_of_is_Some in H. intros Hx Hx'. by apply H.
  - apply Hask. intros d s Hd. split; [done|]. cbn. f_equal. apply eq_bool_prop_intro.
    rewrite bool_decide_spec, Is_true_true. destruct Hd as (_&_&->). unfold ad_is_valid, aid_is_valid, AID_INVALID, reserved.
    rewrite negb_true_iff. apply N.eqb_neq.
  - apply Hask. intros d s Hd. split; [done|]. cbn. f_equal. by destruct Hd as (_&_&->).
  - apply Hask. intros d s Hd. split; [done|]. cbn. f_equal. symmetry. by apply R_size.
  - apply Hask. intros d s Hd. split; [done|]. cbn. f_equal. destruct Hd as ((_&_&Hs)&->&_). symmetry. by apply listing_map_of.
Qed.
Lemma run_R be os : forall ds ss, Forall call_ok os -> Forall2 R ds ss -> drun be ds os = set_run be ss os.
Proof.
  induction os as [|o os IH]; intros ds ss Ho HR; [done|]. apply Forall_cons in Ho as [Ho Hos].
  cbn [drun set_run]. destruct (step_R be ds ss o Ho HR) as [HR' E]. rewrite E. f_equal. by apply IH.
Qed.
Lemma descr_programs : forall be os, Forall call_ok os -> drun be [] os = set_run be [] os.
Proof. intros be os H. by apply run_R. Qed.

(** ** The mappings of a group *)
Lemma mappings_length us s : length (compute_sort_mappings us s).1 = 14 /\ length (compute_sort_mappings us s).2 = 14.
Proof.
  assert (Hin : forall i js m, length (fold_left (sort_mappings_step us s i) js m).1 = length m.1 /\
                               length (fold_left (sort_mappings_step us s i) js m).2 = length m.2).
  { intros i js. induction js as [|j js IH]; intros m; [done|]. cbn [fold_left]. destruct (IH (sort_mappings_step us s i m j)) as [-> ->].
    unfold sort_mappings_step. cbn [fst snd]. split; case_match; by rewrite ?insert_length. }
  unfold compute_sort_mappings. generalize (seq 0 (length us)) at 2 4 as is. intros is.
  assert (H : forall m, length m.1 = 14 -> length m.2 = 14 ->
    let r := fold_left (fun m i => fold_left (sort_mappings_step us s i) (seq 0 (length us)) m) is m in
    length r.1 = 14 /\ length r.2 = 14).
  { induction is as [|i is IH]; intros m H1 H2; cbn [fold_left]; [done|].
    apply IH; [by rewrite (proj1 (Hin i _ m))|by rewrite (proj2 (Hin i _ m))]. }
  by apply H.
Qed.
Lemma group_maps_length be ds : length (gd_s2u (gd_new be ds)) = 14 /\ length (gd_u2s (gd_new be ds)) = 14.
Proof.
  unfold gd_new. destruct (negb _); [done|]. destruct (compute_archetype_id _ _); [|done].
  destruct (negb _); [done|]. cbn zeta. destruct (negb _); [done|]. cbn [gd_s2u gd_u2s].
  destruct (mappings_length ds (compute_sorted_descriptors ds)). done.
Qed.

(** Entries past the group's length are left at 0. *)
Lemma mappings_rest us s k : length us <= k < 14 -> (compute_sort_mappings us s).2 !! k = Some 0.
Proof.
  intros Hk.
  assert (Hin : forall i js m, i <> k -> (fold_left (sort_mappings_step us s i) js m).2 !! k = m.2 !! k).
  { intros i js. induction js as [|j js IH]; intros m Hi; [done|]. cbn [fold_left]. rewrite IH by done.
    unfold sort_mappings_step. cbn [fst snd]. case_match; [|done]. by rewrite list_lookup_insert_ne. }
  unfold compute_sort_mappings.
  assert (H : forall is m, k ∉ is -> m.2 !! k = Some 0 ->
    (fold_left (fun m i => fold_left (sort_mappings_step us s i) (seq 0 (length us)) m) is m).2 !! k = Some 0).
  { induction is as [|i is IH]; intros m Hn Hm; cbn [fold_left]; [done|].
    apply not_elem_of_cons in Hn as [Hne Hn]. apply IH; [done|]. by rewrite Hin. }
  apply H.
  - rewrite elem_of_seq. lia.
  - cbn [snd]. apply lookup_replicate. unfold MAX_COMPONENTS_PER_ENTITY. split; [done|lia].
Qed.
Lemma group_s2u_rest be G k : gd_is_valid (group_desc be G) = true -> length G <= k < 14 ->
  gd_s2u (group_desc be G) !! k = Some 0.
Proof.
  intros Hv Hk. pose proof Hv as Hv'. unfold group_desc, gd_new in *.
  destruct (negb _); [done|]. destruct (compute_archetype_id _ _); [|done].
  destruct (negb _); [done|]. cbn zeta in *. destruct (negb _); [done|]. cbn [gd_s2u].
  apply mappings_rest. by rewrite map_length.
Qed.

(** [as_unsorted] goes through the mapping twice. *)
Lemma as_unsorted_spec : forall be (G : list ctype), let g := group_desc be G in
  gd_is_valid g = true ->
  (forall k, k < length G -> exists c,
     G !! gd_sorted_to_unsorted g (gd_sorted_to_unsorted g k) = Some c /\ gd_as_unsorted g k = Rd (cdesc_of c)) /\
  (forall k, length G <= k < 14 -> exists c,
     G !! gd_sorted_to_unsorted g 0 = Some c /\ gd_as_unsorted g k = Rd (cdesc_of c)) /\
  (forall k, 14 <= k -> gd_as_unsorted g k = RdPanic).
Proof.
  intros be G g Hv. destruct (group_desc_spec _ _ Hv) as (s&Hs&Hst&Ea&_&_&_&Hsu).
  pose proof (Permutation_length Hs) as Hlen. pose proof Hv as Hv'. apply group_desc_valid in Hv' as (Hl&_).
  assert (Hat : forall i, i < length G -> exists c, G !! gd_sorted_to_unsorted g i = Some c /\
    gd_sorted_to_unsorted g i < length G /\ ad_comps (gd_arch g) !! i = Some (cdesc_of c)).
  { intros i Hi. destruct (lookup_lt_is_Some_2 s i) as [c Hc]; [lia|]. destruct (Hsu _ _ Hc) as [E L].
    exists c. unfold gd_sorted_to_unsorted. fold g in E, Ea. rewrite E. cbn [default from_option id]. split; [done|].
    split; [by apply lookup_lt_Some in L|]. rewrite Ea. cbn [ad_comps]. rewrite lookup_app_l by (rewrite map_length; lia).
    change (map cdesc_of s) with (cdesc_of <$> s). by rewrite list_lookup_fmap, Hc. }
  assert (Hs2u : forall i, i < 14 -> gd_s2u g !! i = Some (gd_sorted_to_unsorted g i)).
  { intros i Hi. unfold gd_sorted_to_unsorted. destruct (lookup_lt_is_Some_2 (gd_s2u g) i) as [x ->]; [|done].
    unfold g, group_desc. rewrite (proj1 (group_maps_length be (map cdesc_of G))). done. }
  split; [|split].
  - intros k Hk. destruct (Hat k Hk) as (_&_&Hk'&_). destruct (Hat _ Hk') as (c&Hc&_&Hd).
    exists c. split; [done|]. unfold gd_as_unsorted. rewrite Hs2u by lia. by rewrite Hd.
  - intros k Hk. destruct (Hat 0 ltac:(lia)) as (c&Hc&_&Hd).
    exists c. split; [done|]. unfold gd_as_unsorted. unfold g in *. rewrite group_s2u_rest by done. by rewrite Hd.
  - intros k Hk. unfold gd_as_unsorted. rewrite lookup_ge_None_2; [done|].
    unfold g, group_desc. by rewrite (proj1 (group_maps_length be (map cdesc_of G))).
Qed.
Lemma ids_at (G : list ctype) i c : G !! i = Some c -> ids_of G !! i = Some (ct_id c).
Proof. intros H. change (ids_of G) with (ct_id <$> G). by rewrite list_lookup_fmap, H. Qed.
Lemma same_id_at (G : list ctype) i j c d : NoDup (ids_of G) -> G !! i = Some c -> G !! j = Some d -> ct_id c = ct_id d -> i = j.
Proof.
  intros Hnd Hi%ids_at Hj%ids_at E. rewrite E in Hi. by apply (NoDup_lookup _ _ _ _ Hnd Hi Hj).
Qed.
(** It gives the tuple's own components exactly when sorting twice is no
    reordering, and the sorted ones exactly when the tuple is sorted. *)
Lemma as_unsorted_exact : forall be (G : list ctype), let g := group_desc be G in
  gd_is_valid g = true ->
  ((forall k c, G !! k = Some c -> gd_as_unsorted g k = Rd (cdesc_of c)) <->
   (forall i, i < length G -> gd_unsorted_to_sorted g (gd_unsorted_to_sorted g i) = i)) /\
  ((forall k d, ad_components (gd_arch g) !! k = Some d -> gd_as_unsorted g k = Rd d) <->
   strict (ids_of G)).
Proof.
  intros be G g Hv. destruct (as_unsorted_spec be G Hv) as (H1&_&_). fold g in H1.
  destruct (sort_mappings be G Hv) as (Hinv&Hcomp). fold g in Hinv, Hcomp.
  pose proof Hv as Hv'. apply group_desc_valid in Hv' as (Hl&Hnd&_).
  split; split.
  - intros H i Hi. destruct (Hinv i Hi) as (Ha&Hb&Hc&Hd).
    set (k := gd_unsorted_to_sorted g (gd_unsorted_to_sorted g i)).
    destruct (Hinv _ Ha) as (Ha2&_&Hc2&_). fold k in Ha2, Hc2.
    destruct (H1 k Ha2) as (c&Hc'&E). rewrite Hc2, Hc in Hc'.
    destruct (lookup_lt_is_Some_2 G k Ha2) as [e He]. rewrite (H k e He) in E. injection E as E1 E2 E3 E4.
    symmetry. by apply (same_id_at G _ _ c e Hnd Hc' He).
  - intros H k c Hk. assert (Hlt := lookup_lt_Some _ _ _ Hk). destruct (H1 k Hlt) as (e&He&->).
    destruct (Hinv k Hlt) as (_&Hb&_&Hd). destruct (Hinv _ Hb) as (_&Hb2&_&Hd2).
    specialize (H _ Hb2). rewrite Hd2, Hd in H. rewrite <- H in He. congruence.
  - intros H.
    assert (Hid : forall k, k < length G -> gd_sorted_to_unsorted g k = k).
    { intros k Hk. destruct (H1 k Hk) as (c&Hc&E).
      destruct (Hinv k Hk) as (_&Hb&_&Hd). destruct (lookup_lt_is_Some_2 G _ Hb) as [e He].
      pose proof (Hcomp _ _ He) as Hk'. rewrite Hd in Hk'. rewrite (H _ _ Hk') in E. injection E as E1 E2 E3 E4.
      destruct (Hinv _ Hb) as (_&_&_&Hd2).
      assert (Eq : gd_sorted_to_unsorted g k = gd_sorted_to_unsorted g (gd_sorted_to_unsorted g k)).
      { by apply (same_id_at G _ _ e c Hnd He Hc). }
      rewrite <- Eq, Hd in Hd2. done. }
    destruct (group_desc_spec _ _ Hv) as (s&Hs&Hst&_&Ec&_&_&Hsu). fold g in Ec, Hsu.
    assert (G = s) as ->; [|done].
    apply list_eq_same_length with (length G); [by apply Permutation_length|done|].
    intros i x y Hi Hx Hy. destruct (Hsu _ _ Hy) as [E L].
    specialize (Hid i Hi). unfold gd_sorted_to_unsorted in Hid. rewrite E in Hid. cbn in Hid.
    apply (inj Some). rewrite <- L, Hid. symmetry. exact Hx.
  - intros Hst k d Hk.
    destruct (group_desc_spec _ _ Hv) as (s&Hs&Hsts&_&Ec&_&_&Hsu). fold g in Ec, Hsu.
    assert (s = G) as ->.
    { assert (Ei : ids_of s = ids_of G) by (apply strict_perm_unique; [done|done|by rewrite Hs]).
      apply list_eq_same_length with (length G); [done|by apply Permutation_length|].
      intros i x y Hi Hx Hy.
      assert (ids_of s !! i = Some (ct_id x)) as A by (change (ids_of s) with (ct_id <$> s); by rewrite list_lookup_fmap, Hx).
      assert (x ∈ G) as Hin by (rewrite <- Hs; by eapply elem_of_list_lookup_2).
      apply elem_of_list_lookup in Hin as [j Hj].
      assert (ids_of G !! j = Some (ct_id x)) as B by (change (ids_of G) with (ct_id <$> G); by rewrite list_lookup_fmap, Hj).
      rewrite Ei in A. rewrite (NoDup_lookup _ _ _ _ Hnd A B) in Hy. congruence. }
    rewrite Ec in Hk. change (map cdesc_of G) with (cdesc_of <$> G) in Hk.
    rewrite list_lookup_fmap in Hk. destruct (G !! k) as [c|] eqn:Ek; [|done]. cbn in Hk. injection Hk as <-.
    pose proof (lookup_lt_Some _ _ _ Ek) as Hlt.
    assert (Hid : gd_sorted_to_unsorted g k = k).
    { destruct (Hsu _ _ Ek) as [E L]. unfold gd_sorted_to_unsorted. rewrite E. cbn.
      assert (HndG : NoDup G) by (by apply (NoDup_fmap_1 ct_id)). by eapply (NoDup_lookup G). }
    destruct (H1 k Hlt) as (e&He&->). rewrite Hid, Hid in He. congruence.
Qed.
Lemma as_unsorted_refuted : exists be G k c, gd_is_valid (group_desc be G) = true /\ G !! k = Some c /\
  gd_as_unsorted (group_desc be G) k <> Rd (cdesc_of c) /\
  (forall d, ad_components (gd_arch (group_desc be G)) !! k = Some d -> gd_as_unsorted (group_desc be G) k <> Rd d).
Proof.
  exists false, [CType 2 2 4 4; CType 3 3 4 4; CType 1 1 4 4], 0, (CType 2 2 4 4).
  split; [by vm_compute|]. split; [done|].
  assert (E : gd_as_unsorted (group_desc false [CType 2 2 4 4; CType 3 3 4 4; CType 1 1 4 4]) 0 = Rd (cdesc_of (CType 3 3 4 4))) by by vm_compute.
  rewrite E. split; [done|]. intros d Hd. vm_compute in Hd. injection Hd as <-. done.
Qed.

(** [is_valid] and [new] take anything. *)
Lemma new_refuted :
  (exists id len comps, length comps = 14 /\ ad_is_valid (ad_new id len comps) = true /\
     ~ NoDup (ids (ad_components (ad_new id len comps)))) /\
  (exists id len comps c, length comps = 14 /\ ad_is_valid (ad_new id len comps) = true /\
     NoDup (ids (ad_components (ad_new id len comps))) /\
     cdesc_of c ∈ ad_components (ad_new id len comps) /\ ad_has_component (ad_new id len comps) c = false) /\
  (exists id len comps, length comps = 14 /\ ad_is_valid (ad_new id len comps) = true /\ 14 < ad_len (ad_new id len comps)).
Proof.
  split; [|split].
  - exists 7%N, 2, (CDesc 5 4 4 None :: CDesc 5 4 4 None :: replicate 12 cd_INVALID).
    split; [done|]. split; [done|]. cbn. intros H. apply NoDup_cons in H as [H _]. apply H. by left.
  - exists 7%N, 2, (cdesc_of (CType 5 5 4 4) :: cdesc_of (CType 3 3 4 4) :: replicate 12 cd_INVALID), (CType 5 5 4 4).
    split; [done|]. split; [done|]. split; [|split; [left|by vm_compute]].
    cbn. repeat constructor; [|by intros ?%elem_of_nil]. by intros ?%elem_of_list_singleton.
  - exists 7%N, 15, (replicate 14 cd_INVALID). split; [done|]. split; [done|]. cbn. lia.
Qed.
