(** Proofs for C60: an archetype registry on its own is a list of tables with keys. *)
From Verif Require Import AregClient Instances SpecTrace RegOps2 SearchProofs DescrProofs MonadProofs ArchProofs ArchOps ArchOps2 ArchOps3 AregProofs IterProofs RegProofs RegOps RegOps3 RegIter Sizes Events Events2 Overflow Ref Faults Rows SpecBase SpecWorld SpecEvents SpecRows SpecAreg.
Local Open Scope nat_scope.
Local Existing Instance any_caps.

(** ** Sorting component types *)
Global Instance id_le_trans : Transitive id_le.
Proof. intros x y z. unfold id_le. lia. Qed.
Global Instance id_le_total : Total id_le.
Proof. intros x y. unfold id_le. lia. Qed.
Lemma by_id_perm G : by_id G ≡ₚ G. Proof. apply merge_sort_Permutation. Qed.
Lemma by_id_length G : length (by_id G) = length G. Proof. by rewrite (by_id_perm G). Qed.
Lemma sorted_strict cs : StronglySorted id_le cs -> NoDup (ids_of cs) -> strict (ids_of cs).
Proof.
  induction 1 as [|C cs Hs IH HF]; intros Hnd; [constructor|]. apply NoDup_cons in Hnd as [Hni Hnd]. cbn [map]. constructor; [by apply IH|].
  apply Forall_forall. intros x Hx. pose proof Hx as (C'&HC'&<-)%elem_of_ids. rewrite Forall_forall in HF. specialize (HF _ HC'). unfold id_le in HF.
  assert (ct_id C <> ct_id C') by (intros E; rewrite E in Hni; done). lia.
Qed.
Lemma by_id_strict G : NoDup (ids_of G) -> strict (ids_of (by_id G)).
Proof.
  intros Hnd. apply sorted_strict; [apply StronglySorted_merge_sort; apply _|]. by rewrite (by_id_perm G).
Qed.
(** Sorted component types are determined by their elements. *)
Lemma strict_types_unique cs cs' : strict (ids_of cs) -> strict (ids_of cs') -> cs ≡ₚ cs' -> cs = cs'.
Proof.
  intros H1 H2 Hp. assert (E : ids_of cs = ids_of cs') by (apply strict_perm_unique; [done|done|by rewrite Hp]).
  apply list_eq_same_length with (length cs); [by symmetry; apply Permutation_length|done|].
  intros i x y Hi Hx Hy. pose proof (ids_of_lookup _ _ _ Hx) as A. pose proof (ids_of_lookup _ _ _ Hy) as B. rewrite E in A.
  eapply ids_inj with (G := cs'); [by apply strict_NoDup| |by eapply elem_of_list_lookup_2|congruence].
  rewrite <- Hp. by eapply elem_of_list_lookup_2.
Qed.
Lemma accepted_iff be G : accepted be G = true <-> gvalid be G.
Proof.
  unfold accepted, valid_tuple. rewrite !andb_true_iff, bool_decide_eq_true, !Nat.leb_le, negb_true_iff, N.eqb_neq. unfold gvalid, tuple_id. split.
  - intros [[[Hnd H1] H2] Hn]. split; [done|]. split; [lia|]. exists (ids_of (by_id G)). split; [by rewrite (by_id_perm G)|].
    split; [by apply by_id_strict|done].
  - intros (Hnd&Hl&l&Hp&Hs&Hn). split; [split; [split|]|]; [done|lia|lia|].
    assert (ids_of (by_id G) = l) as ->; [|done]. apply strict_perm_unique; [by apply by_id_strict|done|]. by rewrite (by_id_perm G), Hp.
Qed.
Lemma accepted_desc c G : accepted (big c) G = true -> Forall small G ->
  desc_ok (desc_of_tuple c G) (by_id G) /\ ad_id (desc_of_tuple c G) = tuple_id (big c) G.
Proof.
  intros Hv%accepted_iff Hsm. apply Rows.tuple_desc; [|by rewrite (by_id_perm G)]. split; [apply by_id_strict, Hv|].
  split; [by rewrite (by_id_perm G)|]. eapply gvalid_perm; [|exact Hv]. by rewrite (by_id_perm G).
Qed.
Lemma accepted_key c G : accepted (big c) G = true ->
  ad_id (desc_of_tuple c G) = tuple_id (big c) G /\ ad_len (desc_of_tuple c G) = length G /\ ad_is_valid (desc_of_tuple c G) = true /\ 1 <= length G <= 14.
Proof.
  intros Hv%accepted_iff. pose proof Hv as (Hnd&Hl&_).
  assert (Hg : gspec (big c) G (by_id G)).
  { apply gspec_sorted; [by apply by_id_strict| |by rewrite (by_id_perm G)]. eapply gvalid_perm; [|exact Hv]. by rewrite (by_id_perm G). }
  unfold desc_of_tuple. split; [apply Hg|]. split; [|split; [apply Hg|done]]. rewrite (gs_len _ _ _ Hg). apply by_id_length.
Qed.
Lemma not_accepted c G : accepted (big c) G = false -> gd_is_valid (group_desc (big c) G) = false.
Proof.
  intros Hn. destruct (gd_is_valid _) eqn:E; [|done]. apply (gvalid_iff c), accepted_iff in E. congruence.
Qed.

(** ** The invariant *)
Definition holds (a : arch) (s : shelf) : Prop :=
  desc_ok (a_desc a) (sf_types s) /\ ad_id (a_desc a) = sf_id s /\ held (sf_types s) (a_desc a) a (sf_table s).
Definition ginv (r : reg) (l : list shelf) : Prop :=
  areg_inv (r_ar r) /\ Forall2 holds (ar_archs (r_ar r)) l /\ ev_oracle (r_env r) = [] /\ r_er r = er_default.

Lemma holds_len a s : holds a s -> ad_len (a_desc a) = length (sf_types s).
Proof. intros (Hd&_). by apply desc_len. Qed.
Lemma ginv_len r l : ginv r l -> length (ar_archs (r_ar r)) = length l.
Proof. intros (_&H&_). by eapply Forall2_length. Qed.
Lemma ginv_shelf r l i s : ginv r l -> l !! i = Some s -> exists a, ar_archs (r_ar r) !! i = Some a /\ holds a s.
Proof. intros (_&H&_) Hs. eapply Forall2_lookup_r in H as (a&?&?); [|done]. eauto. Qed.
Lemma ginv_arch r l i a : ginv r l -> ar_archs (r_ar r) !! i = Some a -> exists s, l !! i = Some s /\ holds a s.
Proof. intros (_&H&_) Ha. eapply Forall2_lookup_l in H as (s&?&?); [|done]. eauto. Qed.
Lemma ginv_default : ginv reg_default [].
Proof. split; [apply areg_inv_default|]. split; [constructor|done]. Qed.

Lemma seek_spec r l d : ginv r l ->
  match seek l (ad_id d) (ad_len d) with
  | Some i => is_arch (r_ar r) i d
  | None => forall i, ~ is_arch (r_ar r) i d
  end.
Proof.
  intros H. unfold seek. destruct (list_find _ l) as [[i s]|] eqn:E; cbn [fmap option_fmap option_map fst].
  - apply list_find_Some in E as (Hi&[E1 E2]&_). destruct (ginv_shelf _ _ _ _ H Hi) as (a&Ha&Hh). exists a. split; [done|].
    rewrite (holds_len _ _ Hh), E2. by destruct Hh as (_&->&_).
  - apply list_find_None in E. intros i (a&Ha&Hid&Hlen). destruct (ginv_arch _ _ _ _ H Ha) as (s&Hs&Hh).
    rewrite Forall_forall in E. apply (E s); [by eapply elem_of_list_lookup_2|]. rewrite <- (holds_len _ _ Hh). by destruct Hh as (_&<-&_).
Qed.

(** ** Methods of archetypes *)
Lemma ginv_put r l i a a' s' e : ginv r l -> ar_archs (r_ar r) !! i = Some a -> holds a' s' -> a_desc a' = a_desc a -> ev_oracle e = [] ->
  ginv (put_arch r i a' e) (<[i := s']> l).
Proof.
  intros (Hinv&HF&Ho&Her) Ha Hh Ed Ho'. split; [|split; [|done]].
  - eapply areg_inv_same; [exact Hinv|done|]. cbn [put_arch r_ar set_archs ar_archs]. by apply (map_desc_insert _ i a).
  - cbn [put_arch r_ar set_archs ar_archs]. by apply Forall2_insert.
Qed.
Lemma on_archs_ok c ops r l : ginv r l -> work_ok (big c) ops l ->
  exists r', on_archs c ops r = Ret (work ops l).1.1 r' /\ ginv r' (work ops l).1.2 /\ r_env r' = emitted (r_env r) (work ops l).2.
Proof.
  revert r l. induction ops as [|[i o] ops IH]; intros r l H Hw; cbn [on_archs work work_ok] in *.
  { exists r. cbn [fst snd]. by rewrite emitted_nil. }
  destruct Hw as (s&Hs&Hp&Hwh&Hw). rewrite Hs. destruct (ginv_shelf _ _ _ _ H Hs) as (a&Ha&Hh). pose proof Hh as (Hd&Hid&Hheld).
  pose proof H as (_&_&Ho&_). rewrite <- Hid in Hwh.
  destruct (astep_ok c (sf_types s) (a_desc a) Hd o a (r_env r) (sf_table s) Hheld Ho Hp Hwh) as (a'&E&Hheld').
  rewrite (bind_Ret _ _ _ _ _ (with_arch_Ret _ _ _ _ _ _ _ Ha E)).
  destruct (acall (sf_types s) (sf_table s) o) as [[x t] evs] eqn:Ec. cbn [fst snd] in *.
  destruct (IH (put_arch r i a' (emitted (r_env r) evs)) (<[i := Shelf (sf_id s) (sf_types s) t]> l)) as (r'&E'&H'&Ee'); [|done|].
  { pose proof Hheld' as (Ed'&_). eapply ginv_put; [exact H|exact Ha| |done|done]. rewrite <- Ed' in Hd, Hid, Hheld'. split; [done|]. split; [done|]. done. }
  rewrite (bind_Ret _ _ _ _ _ E'). destruct (work ops _) as [[xs l2] evs'] in *. cbn [fst snd] in *. exists r'. split; [done|]. split; [done|].
  rewrite Ee'. cbn [put_arch r_env]. by rewrite emitted_app.
Qed.

(** ** Finding and making archetypes *)
Lemma open_ok r l d cs : ginv r l -> desc_ok d cs ->
  match open_shelf l (ad_id d) cs with
  | None => find_or_create_archetype d r = Ret None r
  | Some (i, l', evs) => exists r', find_or_create_archetype d r = Ret (Some i) r' /\ ginv r' l' /\ r_env r' = emitted (r_env r) evs /\
      (forall j s, l !! j = Some s -> l' !! j = Some s) /\ exists s, l' !! i = Some s /\ length (sf_types s) = length cs
  end.
Proof.
  intros H Hd. destruct (desc_len _ _ Hd) as [Hl H14]. pose proof (do_pos _ _ Hd) as Hpos. pose proof H as (Hinv&HF&Ho&Her).
  pose proof (find_or_create_spec d r Hinv ltac:(intros _; lia)) as Hs. pose proof (seek_spec r l d H) as Hk. rewrite Hl in Hk. unfold open_shelf.
  destruct (start_ok cs d Hd 128 (r_env r) Ho) as (a0&Ea0&Hh0); [lia|done|].
  destruct (seek l (ad_id d) (length cs)) as [i|] eqn:Ek.
  - destruct (find_or_create_archetype d r) as [[j|] r'|r'|] eqn:E.
    + destruct Hs as (_&_&Hj&_&Hcase). destruct Hcase as [->|(Hno&_)]; [|by destruct (Hno i)].
      assert (j = i) as -> by (by eapply is_arch_unique). exists r. split; [done|]. split; [done|]. split; [by rewrite emitted_nil|]. split; [done|].
      destruct Hj as (a&Ha&_&Hlen). destruct (ginv_arch _ _ _ _ H Ha) as (s&Hs&Hh). exists s. split; [done|]. rewrite <- (holds_len _ _ Hh). lia.
    + destruct Hs as [_ [Hv|[Hno _]]]; [by rewrite (do_valid _ _ Hd) in Hv|by destruct (Hno i)].
    + destruct Hs as (_&_&e'&Ex). change DEFAULT_ARCHETYPE_ALLOCATION_SIZE with 128 in Ex. congruence.
    + change DEFAULT_ARCHETYPE_ALLOCATION_SIZE with 128 in Hs. rewrite Ea0 in Hs. exfalso. by discriminate Hs.
  - rewrite <- (ginv_len _ _ H). destruct (N.leb_spec 65534 (N.of_nat (length (ar_archs (r_ar r))))) as [Hge|Hlt];
      destruct (find_or_create_archetype d r) as [[j|] r'|r'|] eqn:E.
    + destruct Hs as (_&_&Hj&_&Hcase). destruct Hcase as [->|(_&Hc&_)]; [by destruct (Hk j)|lia].
    + destruct Hs as [-> _]; done.
    + destruct Hs as (_&_&e'&Ex). change DEFAULT_ARCHETYPE_ALLOCATION_SIZE with 128 in Ex. congruence.
    + change DEFAULT_ARCHETYPE_ALLOCATION_SIZE with 128 in Hs. rewrite Ea0 in Hs. exfalso. by discriminate Hs.
    + destruct Hs as (_&Hinv'&Hj&Eer&Hcase). destruct Hcase as [->|(_&_&->&a&Ear&Ed&Ea)]; [by destruct (Hk j)|].
      change DEFAULT_ARCHETYPE_ALLOCATION_SIZE with 128 in Ea. rewrite Ea0 in Ea. injection Ea as <- Ee. exists r'. split; [done|]. split; [|split; [done|]].
      * split; [done|]. split; [|by rewrite <- Ee, Eer]. rewrite Ear. apply Forall2_app; [done|]. constructor; [|constructor].
        rewrite <- Ed in Hd, Hh0 |- *. by split.
      * split; [intros k s Hks; by apply lookup_app_l_Some|]. exists (Shelf (ad_id d) cs (Table 128 [])). split; [|done].
        rewrite (ginv_len _ _ H). by apply list_lookup_middle.
    + destruct Hs as [_ [Hv|[_ Hc]]]; [by rewrite (do_valid _ _ Hd) in Hv|lia].
    + destruct Hs as (_&_&e'&Ex). change DEFAULT_ARCHETYPE_ALLOCATION_SIZE with 128 in Ex. congruence.
    + change DEFAULT_ARCHETYPE_ALLOCATION_SIZE with 128 in Hs. rewrite Ea0 in Hs. exfalso. by discriminate Hs.
Qed.

(** *** Deriving an archetype *)
Lemma find_dst_shelf r l src s nd cs : ginv r l -> l !! src = Some s -> ad_wf nd -> ad_components nd = map cdesc_of cs ->
  Forall small cs -> 1 <= length cs -> length cs <> length (sf_types s) ->
  match (if (ad_id nd =? 4294967295)%N then None else open_shelf l (ad_id nd) cs) with
  | None => find_dst src nd r = Ret None r
  | Some (dst, l', evs) => exists r', find_dst src nd r = Ret (Some (src, dst)) r' /\ ginv r' l' /\ r_env r' = emitted (r_env r) evs
  end.
Proof.
  intros H Hs Hwf Hc Hsm Hpos Hlen. unfold find_dst. destruct (N.eqb_spec (ad_id nd) 4294967295) as [E|Hn].
  - unfold find_or_create_archetype. assert (ad_is_valid nd = false) as ->. { unfold ad_is_valid. by rewrite E. }
    by rewrite orb_true_r.
  - assert (Hv : ad_is_valid nd = true). { unfold ad_is_valid, aid_is_valid, AID_INVALID. by apply negb_true_iff, N.eqb_neq. }
    assert (Hd : desc_ok nd cs) by (by split). pose proof (open_ok r l nd cs H Hd) as Ho.
    destruct (open_shelf l (ad_id nd) cs) as [[[dst l'] evs]|].
    + destruct Ho as (r'&E&H'&Ee&Hold&sd&Hsd&Hld). exists r'. rewrite (bind_Ret _ _ _ _ _ E), rm_get_step. split; [|done].
      pose proof (Hold _ _ Hs) as Hs'. rewrite (ginv_len _ _ H'), disjoint_mut_spec, decide_True; [done|].
      split; [|by split; eapply lookup_lt_Some]. intros <-. rewrite Hs' in Hsd. injection Hsd as <-. done.
    + by rewrite (bind_Ret _ _ _ _ _ Ho).
Qed.
Lemma filter_others (x : N) (cs : list ctype) : x ∉ ids_of cs -> filter (fun C' => ct_id C' <> x) cs = cs.
Proof.
  induction cs as [|C cs IH]; [done|]. cbn [map]. intros [Hne Hni]%not_elem_of_cons. rewrite filter_cons, decide_True by congruence. f_equal. auto.
Qed.
Lemma filter_remove (x : N) k (cs : list ctype) : NoDup (ids_of cs) -> ids_of cs !! k = Some x ->
  filter (fun C' => ct_id C' <> x) cs = take k cs ++ drop (S k) cs.
Proof.
  revert k. induction cs as [|C cs IH]; intros k; [done|]. cbn [map]. intros [Hni Hnd]%NoDup_cons. rewrite filter_cons. destruct k as [|k]; cbn [lookup list_lookup take drop app].
  - intros [= <-]. rewrite decide_False by (by intros []). by apply filter_others.
  - intros Hk. rewrite decide_True. 2:{ intros E. rewrite E in Hni. by apply Hni, (elem_of_list_lookup_2 _ k). }
    f_equal. by apply IH.
Qed.
(** The result of a lookup: what the source and destination are. *)
Definition found (be : bool) (l : list shelf) (src : nat) (d : derivation) (r : reg) (res : Base.res reg (option (nat * nat))) : Prop :=
  match d with
  | Nothing => res = Ret None r
  | Crash => res = Panic r
  | To cs =>
      let aid := derived_archetype_id be (ids_of cs) in
      match (if (aid =? 4294967295)%N then None else open_shelf l aid cs) with
      | None => res = Ret None r
      | Some (dst, l', evs) => exists r', res = Ret (Some (src, dst)) r' /\ ginv r' l' /\ r_env r' = emitted (r_env r) evs
      end
  end.
Lemma adding_ok c r l src C : ginv r l -> small C ->
  found (big c) l src (adding l src C) r (find_or_create_archetype_adding_component c src (cdesc_of C) r).
Proof.
  intros H HC. unfold adding, find_or_create_archetype_adding_component. rewrite rm_get_step.
  pose proof (ginv_len _ _ H) as Hn. destruct (l !! src) as [s|] eqn:Es.
  2:{ rewrite Hn. apply lookup_ge_None in Es. destruct (Nat.eqb_spec src (length l)) as [->|Hne].
      - rewrite (proj2 (Nat.ltb_ge _ _)) by lia. cbn [found]. rewrite (lookup_ge_None_2 (ar_archs (r_ar r))) by lia. done.
      - rewrite (proj2 (Nat.ltb_lt _ _)) by lia. done. }
  destruct (ginv_shelf _ _ _ _ H Es) as (a&Ha&Hh). pose proof Hh as (Hd&_). pose proof (holds_len _ _ Hh) as Hlen.
  pose proof (do_wf _ _ Hd) as Hwf. pose proof (cs_strict _ _ Hd) as Hst. rewrite (proj2 (Nat.ltb_ge _ _)) by (apply lookup_lt_Some in Ha; lia). rewrite Ha.
  assert (Hids : ids (ad_components (a_desc a)) = ids_of (sf_types s)) by (by rewrite (do_comps _ _ Hd), ids_cdesc_of).
  cbv zeta. destruct (_ || _) eqn:Eor.
  { apply orb_true_iff in Eor. rewrite add_component_none; [done|done|]. rewrite Hids, Hlen. destruct Eor as [E|E]; [left; by apply Nat.eqb_eq|right; by apply bool_decide_eq_true in E]. }
  apply orb_false_iff in Eor as [E14 Hni]. apply Nat.eqb_neq in E14. apply bool_decide_eq_false in Hni.
  destruct (desc_len _ _ Hd) as [_ H14].
  destruct (Nat.eqb_spec (length (sf_types s)) 13) as [E13|Hn13].
  { rewrite add_component_13_panics; [done|done|lia|by rewrite Hids]. }
  destruct (add_component_spec (big c) (a_desc a) (cdesc_of C) Hwf) as (nd&k&E&Hwf'&_&Hlen'&Hc&Hid); [lia|by rewrite Hids|].
  rewrite E. unfold bind at 1. cbn [lift_rd].
  assert (Ecs : ad_components nd = map cdesc_of (by_id (C :: sf_types s))).
  { rewrite (do_comps _ _ Hd) in Hc. set (cs := take k (sf_types s) ++ C :: drop k (sf_types s)).
    assert (ad_components nd = map cdesc_of cs) as Ec. { rewrite Hc. unfold cs. change (map cdesc_of) with (fmap cdesc_of : list ctype -> list cdesc). by rewrite fmap_app, fmap_cons, fmap_take, fmap_drop. }
    rewrite Ec. f_equal. apply strict_types_unique.
    - rewrite <- ids_cdesc_of, <- Ec. apply Hwf'.
    - apply by_id_strict. cbn [map]. apply NoDup_cons. split; [done|by apply strict_NoDup].
    - rewrite (by_id_perm (C :: sf_types s)). unfold cs. rewrite <- Permutation_middle. by rewrite take_drop. }
  rewrite Ecs, ids_cdesc_of in Hid. cbn [found]. rewrite <- Hid.
  apply (find_dst_shelf r l src s nd _ H Es Hwf' Ecs).
  - rewrite (by_id_perm (C :: sf_types s)). constructor; [done|apply Hd].
  - rewrite by_id_length. cbn [length]. lia.
  - rewrite by_id_length. cbn [length]. lia.
Qed.
Lemma removing_ok c r l src C : ginv r l ->
  found (big c) l src (removing l src C) r (find_or_create_archetype_removing_component c src (cdesc_of C) r).
Proof.
  intros H. unfold removing, find_or_create_archetype_removing_component. rewrite rm_get_step.
  pose proof (ginv_len _ _ H) as Hn. destruct (l !! src) as [s|] eqn:Es.
  2:{ rewrite Hn. apply lookup_ge_None in Es. destruct (Nat.eqb_spec src (length l)) as [->|Hne].
      - rewrite (proj2 (Nat.ltb_ge _ _)) by lia. cbn [found]. rewrite (lookup_ge_None_2 (ar_archs (r_ar r))) by lia. done.
      - rewrite (proj2 (Nat.ltb_lt _ _)) by lia. done. }
  destruct (ginv_shelf _ _ _ _ H Es) as (a&Ha&Hh). pose proof Hh as (Hd&_). pose proof (holds_len _ _ Hh) as Hlen.
  pose proof (do_wf _ _ Hd) as Hwf. pose proof (cs_strict _ _ Hd) as Hst. rewrite (proj2 (Nat.ltb_ge _ _)) by (apply lookup_lt_Some in Ha; lia). rewrite Ha.
  assert (Hids : ids (ad_components (a_desc a)) = ids_of (sf_types s)) by (by rewrite (do_comps _ _ Hd), ids_cdesc_of).
  change (cd_id (cdesc_of C)) with (ct_id C). cbv zeta. destruct (_ || _) eqn:Eor.
  { apply orb_true_iff in Eor. rewrite remove_component_none; [done|done|]. rewrite Hids, Hlen.
    destruct Eor as [E|E]; [left; by apply Nat.eqb_eq|right; by apply negb_true_iff, bool_decide_eq_false in E]. }
  apply orb_false_iff in Eor as [E1 Hin]. apply Nat.eqb_neq in E1. apply negb_false_iff, bool_decide_eq_true in Hin.
  destruct (desc_len _ _ Hd) as [_ H14]. pose proof (do_pos _ _ Hd) as Hpos.
  destruct (Nat.eqb_spec (length (sf_types s)) 14) as [Ee|Hn14].
  { rewrite remove_component_14_panics; [done|done|lia|by rewrite Hids]. }
  destruct (remove_component_spec (big c) (a_desc a) (ct_id C) Hwf) as (nd&k&E&Hwf'&Hk&Hlen'&Hc&Hid); [lia|by rewrite Hids|].
  rewrite E. unfold bind at 1. cbn [lift_rd]. rewrite Hids in Hk.
  assert (Ecs : ad_components nd = map cdesc_of (filter (fun C' => ct_id C' <> ct_id C) (sf_types s))).
  { rewrite (do_comps _ _ Hd) in Hc. rewrite (filter_remove _ k) by (done || by apply strict_NoDup). rewrite Hc.
    change (map cdesc_of) with (fmap cdesc_of : list ctype -> list cdesc). by rewrite fmap_app, fmap_take, fmap_drop. }
  assert (Hl : length (filter (fun C' => ct_id C' <> ct_id C) (sf_types s)) = length (sf_types s) - 1).
  { rewrite <- (map_length cdesc_of), <- Ecs, (ad_components_length _ Hwf'). lia. }
  rewrite Ecs, ids_cdesc_of in Hid. cbn [found]. rewrite <- Hid.
  apply (find_dst_shelf r l src s nd _ H Es Hwf' Ecs).
  - apply Forall_forall. intros C' HC'. apply elem_of_list_filter in HC' as [_ HC']. pose proof (do_small _ _ Hd) as Hsm. rewrite Forall_forall in Hsm. auto.
  - lia.
  - lia.
Qed.

(** ** Iteration *)
Definition shelf_at (l : list shelf) (i : nat) : shelf := default (Shelf 0 [] (Table 0 [])) (l !! i).
Definition accept_of (c : cfg) (G : group) (f : option (adesc -> bool)) : adesc -> bool :=
  match f with None => accept_matching (big c) G | Some f => accept_filtered (big c) G f end.
Global Instance key_le_trans : Transitive key_le.
Proof. intros x y z. unfold key_le. lia. Qed.
Global Instance key_le_total : Total key_le.
Proof. intros x y. unfold key_le. destruct (N.le_ge_cases (sf_id x.2) (sf_id y.2)); lia. Qed.
Section iterate.
  Context (c : cfg) (r : reg) (l : list shelf) (H : ginv r l) (G : group) (HG : accepted (big c) G = true).
  Context (f : option (adesc -> bool)) (Hf : match f with Some f => respects f | None => True end) (Hwt : well_typed l G).
  Notation be := (big c).
  Notation V := (visited c G (r_ar r) (accept_of c G f)).

  Lemma has_ok a s : holds a s -> ad_contains_subset (a_desc a) (gd_arch (group_desc be G)) = shelf_has G s.
  Proof.
    intros (Hd&_). pose proof (proj1 (accepted_iff _ _) HG) as Hv. destruct (gspec_valid c G Hv) as [s0 Hg].
    apply eq_iff_eq_true. rewrite contains_subset_spec.
    2: by apply ad_components_length, Hd. 2: by rewrite (gs_comps _ _ _ Hg), map_length, (gs_len _ _ _ Hg).
    2: rewrite (gs_comps _ _ _ Hg), ids_cdesc_of; apply strict_NoDup; by apply (gs_strict _ _ _ Hg).
    rewrite (gs_comps _ _ _ Hg), (do_comps _ _ Hd), !ids_cdesc_of. unfold shelf_has. rewrite forallb_forall. split.
    - intros Hx C HC. apply bool_decide_eq_true, Hx, elem_of_ids. exists C. split; [|done]. rewrite (gs_perm _ _ _ Hg). by apply elem_of_list_In.
    - intros Hx x (C&HC&<-)%elem_of_ids. rewrite (gs_perm _ _ _ Hg) in HC. apply elem_of_list_In in HC. by apply Hx, bool_decide_eq_true in HC.
  Qed.
  Lemma wanted_ok a s : holds a s -> accept_of c G f (a_desc a) = wanted G f s.
  Proof.
    intros Hh. unfold wanted. rewrite <- (has_ok _ _ Hh). unfold accept_of. destruct f as [g|]; [|by rewrite andb_true_r].
    unfold accept_filtered. f_equal. pose proof Hh as (Hd&Hid&_). pose proof (holds_len _ _ Hh) as Hl.
    apply Hf; unfold shelf_desc; cbn [ad_id ad_len]; [done|done|].
    rewrite (do_comps _ _ Hd). unfold ad_components. cbn. rewrite take_app_alt; [done|]. by rewrite map_length.
  Qed.
  Lemma wanted_types a s i : l !! i = Some s -> holds a s -> accept_of c G f (a_desc a) = true -> some_types be (sf_types s) G.
  Proof.
    intros Hi Hh Hx. split; [by apply accepted_iff|]. apply (Hwt s); [by eapply elem_of_list_lookup_2|].
    rewrite (wanted_ok _ _ Hh) in Hx. by apply andb_true_iff in Hx as [-> _].
  Qed.
  Lemma elem_tour_V i : i ∈ V <-> exists a s, ar_archs (r_ar r) !! i = Some a /\ l !! i = Some s /\ holds a s /\ accept_of c G f (a_desc a) = true.
  Proof.
    rewrite elem_of_visited; [|apply H|].
    - split.
      + intros (a&Ha&Hx). destruct (ginv_arch _ _ _ _ H Ha) as (s&Hs&Hh). by exists a, s.
      + intros (a&s&Ha&_&_&Hx). by exists a.
    - intros j a Ha Hx. destruct (ginv_arch _ _ _ _ H Ha) as (s&Hs&Hh). pose proof Hh as (Hd&_). rewrite (holds_len _ _ Hh). unfold glen.
      pose proof (group_validity be G) as (_&_&Eg). rewrite Eg by (by apply gvalid_iff, accepted_iff).
      destruct (wanted_types _ _ _ Hs Hh Hx) as [Hv Hsub]. apply (subset_length G); [apply Hv|done].
  Qed.
  Lemma elem_tour i s : (i, s) ∈ tour l G f <-> l !! i = Some s /\ wanted G f s = true.
  Proof.
    unfold tour. rewrite merge_sort_Permutation, elem_of_list_filter. cbn [snd]. rewrite elem_of_lookup_imap. split.
    - intros [Hw (k&x&[= <- <-]&Hk)]. done.
    - intros [Hk Hw]. split; [done|]. by exists i, s.
  Qed.
  Lemma tour_nodup : NoDup (map fst (tour l G f)).
  Proof.
    change (map fst ?x) with (fst <$> x). unfold tour. rewrite merge_sort_Permutation.
    assert (Hnd : NoDup (fst <$> imap pair l)).
    { replace (fst <$> imap pair l) with (seq 0 (length l)); [apply NoDup_seq|]. apply list_eq. intros i. rewrite list_lookup_fmap, list_lookup_imap.
      destruct (l !! i) as [s|] eqn:E; cbn.
      - apply lookup_seq. split; [done|]. by eapply lookup_lt_Some.
      - apply lookup_seq_ge. by apply lookup_ge_None. }
    revert Hnd. generalize (imap pair l). intros xs. induction xs as [|x xs IH]; [done|]. rewrite fmap_cons, filter_cons. intros [Hni Hnd]%NoDup_cons.
    destruct (decide _); [|by apply IH]. rewrite fmap_cons. apply NoDup_cons. split; [|by apply IH]. intros (y&E&Hy)%elem_of_list_fmap.
    apply elem_of_list_filter in Hy as [_ Hy]. apply Hni. rewrite E. by apply elem_of_list_fmap_1.
  Qed.
  Lemma tour_visited : map (fun i => (i, shelf_at l i)) V = tour l G f.
  Proof.
    assert (Hat : forall i s, l !! i = Some s -> shelf_at l i = s). { intros i s Hi. unfold shelf_at. by rewrite Hi. }
    assert (Hlt : StronglySorted (fun x y => key_le x y /\ ~ key_le y x) (map (fun i => (i, shelf_at l i)) V)).
    { eapply sorted_map; [eapply sorted_filter, indices_sorted, H|]. intros i j Hi Hj (a&b&Ha&Hb&Hab).
      apply elem_tour_V in Hi as (a'&s&Ha'&Hs&Hh&_). apply elem_tour_V in Hj as (b'&s'&Hb'&Hs'&Hh'&_). simplify_eq.
      unfold key_le. cbn [snd]. rewrite (Hat _ _ Hs), (Hat _ _ Hs'), <- (holds_len _ _ Hh), <- (holds_len _ _ Hh').
      destruct Hh as (_&<-&_). destruct Hh' as (_&<-&_). lia. }
    apply (sorted_same key_le).
    - clear -Hlt. induction Hlt as [|x xs Hl IH Hs].
      + intros x y Hx. by apply elem_of_nil in Hx.
      + rewrite Forall_forall in Hs. intros y z [->|Hy]%elem_of_cons [->|Hz]%elem_of_cons L1 L2; [done|by destruct (Hs z Hz)|by destruct (Hs y Hy)|by apply IH].
    - clear -Hlt. induction Hlt as [|x xs Hl IH Hs]; constructor; [done|]. eapply Forall_impl; [exact Hs|]. by intros y [? _].
    - apply StronglySorted_merge_sort; apply _.
    - apply NoDup_Permutation.
      + clear -Hlt. induction Hlt as [|x xs Hl IH Hs]; constructor; [|done]. intros Hin. rewrite Forall_forall in Hs. by destruct (Hs x Hin).
      + eapply NoDup_fmap_1, tour_nodup.
      + intros [i s]. change (map ?g V) with (g <$> V). rewrite elem_of_list_fmap, elem_tour. split.
        * intros (j&[= -> ->]&Hj). apply elem_tour_V in Hj as (a&s&Ha&Hs&Hh&Hx). rewrite (Hat _ _ Hs). split; [done|]. by rewrite <- (wanted_ok _ _ Hh).
        * intros [Hs Hw]. exists i. rewrite (Hat _ _ Hs). split; [done|]. destruct (ginv_shelf _ _ _ _ H Hs) as (a&Ha&Hh).
          apply elem_tour_V. exists a, s. split; [done|]. split; [done|]. split; [done|]. by rewrite (wanted_ok _ _ Hh).
  Qed.
  Definition shelf_slots (h : bool) (x : nat * shelf) : list N * list (list loc) :=
    (if h then map fst (tb_rows (sf_table x.2)) else [], locate x.1 (col_cells (sf_types x.2) (length (tb_rows (sf_table x.2))) G)).
  Lemma collected {I} (item : nat -> arch -> rd I) (g : nat * shelf -> I) :
    (forall i a s, l !! i = Some s -> ar_archs (r_ar r) !! i = Some a -> holds a s -> some_types be (sf_types s) G -> item i a = Rd (g (i, s))) ->
    slices_collect c G (accept_of c G f) item (r_ar r) = Rd (Some (map g (tour l G f))).
  Proof.
    intros Hitem. rewrite <- tour_visited, map_map. apply slices_collect_spec; [apply H| |by apply gvalid_iff, accepted_iff].
    intros i a Ha Hx. destruct (ginv_arch _ _ _ _ H Ha) as (s&Hs&Hh). rewrite (Hitem i a s Hs Ha Hh); [|by eapply wanted_types].
    unfold shelf_at. by rewrite Hs.
  Qed.
  Lemma pieces i a s : l !! i = Some s -> ar_archs (r_ar r) !! i = Some a -> holds a s -> some_types be (sf_types s) G ->
    get_fuzzy_slices c G a = Rd (columns (tb_rows (sf_table s)) G) /\
    get_entity_fuzzy_slices c G a = Rd (shelf_item true G s) /\
    get_fuzzy_slices_mut c G a = Rd (col_cells (sf_types s) (length (tb_rows (sf_table s))) G) /\
    get_entity_fuzzy_slices_mut c G a = Rd (map fst (tb_rows (sf_table s)), col_cells (sf_types s) (length (tb_rows (sf_table s))) G).
  Proof.
    intros Hs Ha (Hd&Hid&Hh) [Hv Hsub]. destruct Hh as (_&Hok&_). pose proof Hok as (_&_&_&HFr&_).
    destruct (fuzzy_slices_ok (a_desc a) (sf_types s) Hd c G a _ _ eq_refl Hok ltac:(by apply gvalid_iff) Hsub (columns_of (sf_types s) G _ HFr Hsub)) as (E1&E2&E3&E4).
    done.
  Qed.
  Lemma iter_items_ok h : iter_items c h f G r = Rd (Some (map (fun x => shelf_item h G x.2) (tour l G f))).
  Proof.
    destruct h.
    - assert (E : slices_collect c G (accept_of c G f) (fun _ a => get_entity_fuzzy_slices c G a) (r_ar r) = Rd (Some (map (fun x => shelf_item true G x.2) (tour l G f)))).
      { apply (collected (fun _ a => get_entity_fuzzy_slices c G a)). intros i a s Hs Ha Hh Hw. apply (pieces i a s Hs Ha Hh Hw). }
      unfold iter_items. destruct f; exact E.
    - assert (E : slices_collect c G (accept_of c G f) (fun _ a => get_fuzzy_slices c G a) (r_ar r) = Rd (Some (map (fun x => columns (tb_rows (sf_table x.2)) G) (tour l G f)))).
      { apply (collected (fun _ a => get_fuzzy_slices c G a)). intros i a s Hs Ha Hh Hw. apply (pieces i a s Hs Ha Hh Hw). }
      assert (E2 : (letr o := slices_collect c G (accept_of c G f) (fun _ a => get_fuzzy_slices c G a) (r_ar r) in Rd (map (pair (@nil N)) <$> o)) =
        Rd (Some (map (fun x => shelf_item false G x.2) (tour l G f)))).
      { rewrite E. cbn [rbind fmap option_fmap option_map]. by rewrite map_map. }
      unfold iter_items. destruct f; exact E2.
  Qed.
  Lemma iter_slots_ok h : iter_slots c h f G r = Rd (Some (map (shelf_slots h) (tour l G f))).
  Proof.
    destruct h.
    - assert (E : slices_collect c G (accept_of c G f) (fun i a => letr x := get_entity_fuzzy_slices_mut c G a in Rd (x.1, locate i x.2)) (r_ar r) =
        Rd (Some (map (shelf_slots true) (tour l G f)))).
      { apply (collected (fun i a => letr x := get_entity_fuzzy_slices_mut c G a in Rd (x.1, locate i x.2))). intros i a s Hs Ha Hh Hw.
        destruct (pieces i a s Hs Ha Hh Hw) as (_&_&_&E). by rewrite E. }
      unfold iter_slots. destruct f; exact E.
    - assert (E : slices_collect c G (accept_of c G f) (fun i a => letr cols := get_fuzzy_slices_mut c G a in Rd (locate i cols)) (r_ar r) =
        Rd (Some (map (fun x => (shelf_slots false x).2) (tour l G f)))).
      { apply (collected (fun i a => letr cols := get_fuzzy_slices_mut c G a in Rd (locate i cols))). intros i a s Hs Ha Hh Hw.
        destruct (pieces i a s Hs Ha Hh Hw) as (_&_&E&_). by rewrite E. }
      assert (E2 : (letr o := slices_collect c G (accept_of c G f) (fun i a => letr cols := get_fuzzy_slices_mut c G a in Rd (locate i cols)) (r_ar r) in Rd (map (pair (@nil N)) <$> o)) =
        Rd (Some (map (shelf_slots false) (tour l G f)))).
      { rewrite E. cbn [rbind fmap option_fmap option_map]. by rewrite map_map. }
      unfold iter_slots. destruct f; exact E2.
  Qed.
End iterate.

(** *** Writing to every element *)
Lemma replace_loc_cell i k row v r a x a' e' : ar_archs (r_ar r) !! i = Some a -> replace_cell (k, row) v (a, r_env r) = Ret x (a', e') ->
  replace_loc (i, k, row) v r = Ret x (put_arch r i a' e').
Proof.
  intros Ha E. unfold replace_cell in E. apply bind_Ret_inv in E as (old&t&E1&E). cbn [fst snd] in *.
  unfold replace_loc. cbn [fst snd]. rewrite (bind_Ret _ _ _ _ _ (rm_rd_Rd (arch_at i) r a ltac:(unfold arch_at; by rewrite Ha))).
  unfold am_rd in E1. cbn [fst] in E1. destruct (raw_cell a k row) as [o| |] eqn:Er; [|done..]. injection E1 as <- <-.
  unfold bind at 1. cbn [lift_rd ret]. destruct o as [ov|]; [|done]. apply bind_Ret_inv in E as ([]&[a1 e1]&E1&[= <- <- <-]).
  by rewrite (bind_Ret _ _ _ _ _ (with_arch_Ret _ _ _ _ _ _ _ Ha E1)).
Qed.
Lemma replace_locs_cells i xs vs r a olds a' e' : ar_archs (r_ar r) !! i = Some a -> replace_cells xs vs (a, r_env r) = Ret olds (a', e') ->
  replace_locs (map (fun '(k, row) => (i, k, row)) xs) vs r = Ret olds (put_arch r i a' e').
Proof.
  revert vs r a olds. induction xs as [|[k row] xs IH]; intros vs r a olds Ha E.
  { cbn in E. injection E as <- <- <-. by rewrite (put_arch_id _ _ _ Ha). }
  destruct vs as [|v vs]. { cbn in E. injection E as <- <- <-. by rewrite (put_arch_id _ _ _ Ha). }
  cbn [replace_cells] in E. apply bind_Ret_inv in E as (ov&[a1 e1]&E1&E). apply bind_Ret_inv in E as (ovs&[a2 e2]&E2&[= <- <- <-]).
  cbn [map replace_locs]. rewrite (bind_Ret _ _ _ _ _ (replace_loc_cell _ _ _ _ _ _ _ _ _ Ha E1)).
  rewrite (bind_Ret _ _ _ _ _ (IH vs (put_arch r i a1 e1) a1 ovs ltac:(by eapply put_arch_at) E2)). by rewrite put_arch_twice.
Qed.
Lemma store_item_columns i xss vss r a olds a' e' : ar_archs (r_ar r) !! i = Some a -> replace_columns xss vss (a, r_env r) = Ret olds (a', e') ->
  store_item (locate i xss) vss r = Ret olds (put_arch r i a' e').
Proof.
  unfold locate. revert vss r a olds. induction xss as [|xs xss IH]; intros vss r a olds Ha E.
  { cbn in E. injection E as <- <- <-. by rewrite (put_arch_id _ _ _ Ha). }
  destruct vss as [|vs vss]. { cbn in E. injection E as <- <- <-. by rewrite (put_arch_id _ _ _ Ha). }
  cbn [replace_columns] in E. apply bind_Ret_inv in E as (ov&[a1 e1]&E1&E). apply bind_Ret_inv in E as (ovs&[a2 e2]&E2&[= <- <- <-]).
  cbn [map store_item]. rewrite (bind_Ret _ _ _ _ _ (replace_locs_cells _ _ _ _ _ _ _ _ Ha E1)).
  rewrite (bind_Ret _ _ _ _ _ (IH vss (put_arch r i a1 e1) a1 ovs ltac:(by eapply put_arch_at) E2)). by rewrite put_arch_twice.
Qed.
Definition store_ops (h : bool) (G : group) (xs : list (nat * shelf)) (new : list (list (list value))) : list (nat * aop) :=
  zip_with (fun x cols => (x.1, AStore (if h then With_handles else Some_of) G cols)) xs new.
Lemma store_items_ok c h G xs new r l : ginv r l -> NoDup (map fst xs) -> (forall i s, (i, s) ∈ xs -> l !! i = Some s) -> length new = length xs ->
  work_ok (big c) (store_ops h G xs new) l ->
  exists r', store_items (map (shelf_slots G h) xs) new r = Ret (map (fun x => shelf_item h G x.2) xs) r' /\
    ginv r' (work (store_ops h G xs new) l).1.2 /\ r_env r' = emitted (r_env r) (work (store_ops h G xs new) l).2.
Proof.
  unfold store_ops. revert new r l. induction xs as [|[i s] xs IH]; intros new r l H Hnd Hin Hlen Hw.
  { exists r. cbn. by rewrite emitted_nil. }
  destruct new as [|cols new]; [done|]. cbn [zip_with work_ok fst] in Hw. destruct Hw as (s'&Hs&Hp&_&Hw).
  assert (s' = s) as ->. { pose proof (Hin i s ltac:(by left)). congruence. }
  cbn [map fst] in Hnd. apply NoDup_cons in Hnd as [Hni Hnd]. cbn [zip_with work fst]. rewrite Hs.
  destruct (ginv_shelf _ _ _ _ H Hs) as (a&Ha&Hd&Hid&Hheld). pose proof Hheld as (_&Hok&Ec). pose proof H as (_&_&Ho&_).
  destruct Hp as [Hst HF]. assert (Hst' : some_types (big c) (sf_types s) G) by (by destruct h). clear Hst. destruct Hst' as [Hv Hsub].
  destruct (replace_columns_ok (sf_types s) _ Hd G cols a (r_env r) _ _ eq_refl Hok Ec (proj1 Hv) Hsub HF) as (a'&E&Ed'&Hok'&Ec').
  cbn [acall fst snd] in Hw |- *. cbn [map store_items shelf_slots fst snd].
  rewrite (bind_Ret _ _ _ _ _ (store_item_columns _ _ _ _ _ _ _ _ Ha E)).
  set (t := with_rows (sf_table s) _) in *.
  destruct (IH new (put_arch r i a' (r_env r)) (<[i := Shelf (sf_id s) (sf_types s) t]> l)) as (r'&E'&H'&Ee'); [|done| |by injection Hlen|done|].
  { eapply ginv_put; [exact H|exact Ha| |done|done]. rewrite <- Ed' in Hd, Hid. split; [done|]. split; [done|]. by split. }
  { intros j s0 Hj. rewrite list_lookup_insert_ne; [apply Hin; by right|]. intros ->. apply Hni. change (map fst xs) with (xs.*1).
    apply (elem_of_list_fmap_1 fst _ (j, s0)). done. }
  rewrite (bind_Ret _ _ _ _ _ E'). destruct (work _ _) as [[xs' l2] evs'] in *. cbn [fst snd app] in *. exists r'. split; [done|]. split; [done|]. by rewrite Ee'.
Qed.

(** ** One call *)
Definition gstep_spec (c : cfg) (o : gop) (r : reg) (l : list shelf) : Prop :=
  let '(x, l', evs) := gcall (dbg c) (big c) l o in
  exists r', ginv r' l' /\ r_env r' = emitted (r_env r) evs /\
    gstep c o r = match x with Some x => Ret x r' | None => Panic r' end.
Lemma derive_ok c r l src ops d (find : RM (option (nat * nat))) : ginv r l -> found (big c) l src d r (find r) ->
  match derive (big c) l src ops d with Doing _ l1 _ ops => work_ok (big c) ops l1 | _ => True end ->
  match derive (big c) l src ops d with
  | Panicking => derived_call c src ops find r = Panic r
  | Giving x => derived_call c src ops find r = Ret x r
  | Doing result l1 evs ops' => let '(xs, l2, evs') := work ops' l1 in
      exists r', ginv r' l2 /\ r_env r' = emitted (r_env r) (evs ++ evs') /\ derived_call c src ops find r = Ret (result xs) r'
  end.
Proof.
  intros H Hf Hw. unfold derived_call. destruct d as [| |cs]; cbn [derive found] in *.
  - by rewrite (bind_Ret _ _ _ _ _ Hf).
  - unfold bind. by rewrite Hf.
  - cbv zeta in *. destruct (_ =? _)%N; [by rewrite (bind_Ret _ _ _ _ _ Hf)|].
    destruct (open_shelf l _ cs) as [[[dst l'] evs]|]; [|by rewrite (bind_Ret _ _ _ _ _ Hf)].
    destruct Hf as (r1&E1&H1&Ee1). destruct (on_archs_ok c _ r1 l' H1 Hw) as (r2&E2&H2&Ee2). destruct (work _ l') as [[xs l2] evs']. cbn [fst snd] in *.
    exists r2. split; [done|]. split; [by rewrite Ee2, Ee1, emitted_app|]. rewrite (bind_Ret _ _ _ _ _ E1). by rewrite (bind_Ret _ _ _ _ _ E2).
Qed.
Lemma gstep_ok c o r l : ginv r l -> gproper (dbg c) (big c) l o -> gstep_spec c o r l.
Proof.
  intros H [Harg Hw]. unfold gstep_spec, gcall.
  assert (Hrun : forall ops (result : list aout -> gout) l1 r1 evs, ginv r1 l1 -> work_ok (big c) ops l1 -> r_env r1 = emitted (r_env r) evs ->
    let '(x, l', evs) := let '(xs, l2, evs') := work ops l1 in (Some (result xs), l2, evs ++ evs') in
    exists r', ginv r' l' /\ r_env r' = emitted (r_env r) evs /\
      (let! outs := on_archs c ops in ret (result outs)) r1 = match x with Some x => Ret x r' | None => Panic r' end).
  { intros ops result l1 r1 evs H1 Hw1 Ee1. destruct (on_archs_ok c ops r1 l1 H1 Hw1) as (r2&E2&H2&Ee2). destruct (work ops l1) as [[xs l2] evs']. cbn [fst snd] in *.
    exists r2. split; [done|]. split; [by rewrite Ee2, Ee1, emitted_app|]. by rewrite (bind_Ret _ _ _ _ _ E2). }
  assert (Hsame : forall (x : option gout) (m : RM gout), m r = match x with Some x => Ret x r | None => Panic r end ->
    exists r', ginv r' l /\ r_env r' = emitted (r_env r) [] /\ m r = match x with Some x => Ret x r' | None => Panic r' end).
  { intros x m E. exists r. split; [done|]. by rewrite emitted_nil. }
  destruct o as [G ops|G ops|src C ops|src C ops|i ops|i ops|h f G|h f G new]; cbn [gstep plan_of arguments] in *.
  - destruct (accepted (big c) G) eqn:EG.
    + destruct (accepted_key c G EG) as (Eid&El&Hv&Hl). pose proof (seek_spec r l (desc_of_tuple c G) H) as Hk. rewrite Eid, El in Hk. pose proof H as (Hinv&_).
      destruct (seek l (tuple_id (big c) G) (length G)) as [i|].
      * rewrite (bind_Ret _ _ _ _ _ (rm_rd_Rd _ r _ (find_archetype_found _ _ _ Hinv Hv Hk))). apply Hrun; [done|done|by rewrite emitted_nil].
      * apply (Hsame (Some GoNone)). assert (E : find_archetype (desc_of_tuple c G) (r_ar r) = Rd None).
        { apply find_archetype_absent; [done|intros _; lia|by left]. }
        by rewrite (bind_Ret _ _ _ _ _ (rm_rd_Rd (fun s => find_archetype (desc_of_tuple c G) (r_ar s)) r _ E)).
    + apply (Hsame (Some GoNone)). assert (E : find_archetype (desc_of_tuple c G) (r_ar r) = Rd None).
      { unfold desc_of_tuple. by rewrite (invalid_desc c G (not_accepted c G EG)). }
      by rewrite (bind_Ret _ _ _ _ _ (rm_rd_Rd (fun s => find_archetype (desc_of_tuple c G) (r_ar s)) r _ E)).
  - destruct (accepted (big c) G) eqn:EG.
    + destruct (accepted_desc c G EG Harg) as [Hd Eid]. pose proof (open_ok r l _ _ H Hd) as Hop. rewrite Eid in Hop.
      destruct (open_shelf l (tuple_id (big c) G) (by_id G)) as [[[i l'] evs]|].
      * destruct Hop as (r1&E1&H1&Ee1&_). rewrite (bind_Ret _ _ _ _ _ E1). by apply Hrun.
      * apply (Hsame (Some GoNone)). by rewrite (bind_Ret _ _ _ _ _ Hop).
    + apply (Hsame (Some GoNone)). assert (E : find_or_create_archetype (desc_of_tuple c G) r = Ret None r).
      { unfold desc_of_tuple. by rewrite (invalid_desc c G (not_accepted c G EG)). }
      by rewrite (bind_Ret _ _ _ _ _ E).
  - pose proof (derive_ok c r l src ops _ _ H (adding_ok c r l src C H Harg) Hw) as Hd.
    destruct (derive (big c) l src ops (adding l src C)) as [|x|result l1 evs ops']; [by apply (Hsame None)|by apply (Hsame (Some x))|].
    destruct (work ops' l1) as [[xs l2] evs']. exact Hd.
  - pose proof (derive_ok c r l src ops _ _ H (removing_ok c r l src C H) Hw) as Hd.
    destruct (derive (big c) l src ops (removing l src C)) as [|x|result l1 evs ops']; [by apply (Hsame None)|by apply (Hsame (Some x))|].
    destruct (work ops' l1) as [[xs l2] evs']. exact Hd.
  - rewrite rm_get_step, (ginv_len _ _ H). destruct (i <? length l); [|by apply (Hsame None)]. apply Hrun; [done|done|by rewrite emitted_nil].
  - destruct (lookup_lt_is_Some_2 l i Harg) as [s Hs]. destruct (ginv_shelf _ _ _ _ H Hs) as (a&Ha&_).
    rewrite (bind_Ret _ _ _ _ _ (rm_rd_Rd (arch_at i) r a ltac:(unfold arch_at; by rewrite Ha))). apply Hrun; [done|done|by rewrite emitted_nil].
  - destruct Harg as [Hwt Hf]. destruct (accepted (big c) G) eqn:EG.
    + apply (Hsame (Some _)). by rewrite (bind_Ret _ _ _ _ _ (rm_rd_Rd _ r _ (iter_items_ok c r l H G EG f Hf Hwt h))).
    + assert (E : iter_items c h f G r = if dbg c then RdPanic else Rd (Some [])).
      { destruct h, f; cbn [iter_items]; unfold iter_components_matching, iter_entity_components_matching, iter_filtered_components_matching, iter_filtered_entity_components_matching;
          rewrite (invalid_collect c G (not_accepted c G EG)); by destruct (dbg c). }
      destruct (dbg c).
      * apply (Hsame None). unfold bind, rm_rd. by rewrite E.
      * apply (Hsame (Some _)). by rewrite (bind_Ret _ _ _ _ _ (rm_rd_Rd _ r _ E)).
  - destruct Harg as (Hwt&Hf&Hlen). destruct (accepted (big c) G) eqn:EG.
    + rewrite (bind_Ret _ _ _ _ _ (rm_rd_Rd _ r _ (iter_slots_ok c r l H G EG f Hf Hwt h))).
      destruct (store_items_ok c h G (tour l G f) new r l H (tour_nodup l G f)) as (r'&E&H'&Ee'); [|by apply Hlen|exact Hw|].
      { intros i s Hi. by apply elem_tour in Hi as [? _]. }
      unfold store_ops in *. destruct (work _ l) as [[xs l2] evs']. cbn [fst snd app] in *.
      exists r'. split; [done|]. split; [done|]. by rewrite (bind_Ret _ _ _ _ _ E).
    + assert (E : iter_slots c h f G r = if dbg c then RdPanic else Rd (Some [])).
      { destruct h, f; cbn [iter_slots]; unfold iter_components_matching_mut, iter_entity_components_matching_mut, iter_filtered_components_matching_mut, iter_filtered_entity_components_matching_mut;
          rewrite (invalid_collect c G (not_accepted c G EG)); by destruct (dbg c). }
      destruct (dbg c).
      * apply (Hsame None). unfold bind, rm_rd. by rewrite E.
      * apply (Hsame (Some _)). by rewrite (bind_Ret _ _ _ _ _ (rm_rd_Rd _ r _ E)).
Qed.

(** ** Programs *)
Lemma grun_ok c ops r l : ginv r l -> all_gproper (dbg c) (big c) ops l ->
  let '(xs, l', evs) := gcalls (dbg c) (big c) ops l in
  exists r', grun c ops r = Some (xs, r') /\ ginv r' l' /\ r_env r' = emitted (r_env r) evs.
Proof.
  revert r l. induction ops as [|o ops IH]; intros r l H Hp; cbn [gcalls grun all_gproper] in *.
  { exists r. by rewrite emitted_nil. }
  destruct Hp as [Hp Hps]. pose proof (gstep_ok c o r l H Hp) as Hs. unfold gstep_spec in Hs.
  destruct (gcall (dbg c) (big c) l o) as [[x l1] evs]. cbn [fst snd] in *. destruct Hs as (r1&H1&Ee1&E1).
  specialize (IH r1 l1 H1 Hps). destruct (gcalls (dbg c) (big c) ops l1) as [[xs l2] evs']. destruct IH as (r2&E2&H2&Ee2).
  exists r2. split; [|split; [done|by rewrite Ee2, Ee1, emitted_app]]. rewrite E1. destruct x; by rewrite E2.
Qed.
Lemma drop_shelves_ok n k r l : n = length (ar_archs (r_ar r)) - k -> Forall2 holds (drop k (ar_archs (r_ar r))) l -> ev_oracle (r_env r) = [] ->
  Forall (fun s => Forall (fun x : row => calm x.2) (tb_rows (sf_table s))) l ->
  exists r', drop_archs k n false r = Ret tt r' /\ r_env r' = emitted (r_env r) (drop_shelves l).
Proof.
  revert k r l. induction n as [|n IH]; intros k r l Hn HT Ho Hcalm; cbn [drop_archs].
  - rewrite drop_ge in HT by lia. inversion HT; subst. exists r. cbn. by rewrite emitted_nil.
  - destruct (lookup_lt_is_Some_2 (ar_archs (r_ar r)) k) as [a Ha]; [lia|].
    rewrite (drop_S _ _ _ Ha) in HT. inversion HT as [|? s ? l' (Hd&Hid&Hh) HT' E1 E2]; subst. apply Forall_cons in Hcalm as [Hcs Hcalm].
    destruct (adrop_ok _ _ Hd a (r_env r) _ Hh Hcs Ho) as (a'&E).
    rewrite (with_arch_Ret _ _ _ _ _ _ _ Ha E).
    destruct (IH (S k) (put_arch r k a' (emitted (r_env r) (drop_table (sf_types s) (sf_table s)))) l') as (r'&Er&Ee).
    + cbn. rewrite insert_length. lia.
    + cbn. rewrite drop_insert_gt by lia. done.
    + done.
    + done.
    + exists r'. split; [done|]. rewrite Ee. cbn [put_arch r_env]. unfold drop_shelves. cbn [map concat]. by rewrite emitted_app.
Qed.
Definition same_shelf (a : arch) (s : shelf) : Prop :=
  ad_id (a_desc a) = sf_id s /\ ad_components (a_desc a) = map cdesc_of (sf_types s) /\ a_len a = length (tb_rows (sf_table s)) /\ a_cap a = tb_cap (sf_table s).
Lemma holds_same a s : holds a s -> same_shelf a s.
Proof.
  intros (Hd&Hid&_&Hok&Ec). split; [done|]. split; [apply Hd|]. split; [|done]. by apply count_ok in Hok.
Qed.
Lemma shelves_apart r l : ginv r l -> NoDup (map (fun s => (sf_id s, length (sf_types s))) l).
Proof.
  intros H. change (map ?f l) with (f <$> l). apply NoDup_alt. intros i j x Hi Hj. rewrite list_lookup_fmap in Hi, Hj.
  destruct (l !! i) as [s|] eqn:Es; [|done]. destruct (l !! j) as [s'|] eqn:Es'; [|done]. cbn in Hi, Hj. rewrite <- Hj in Hi. injection Hi as E1 E2.
  destruct (ginv_shelf _ _ _ _ H Es) as (a&Ha&Hh). destruct (ginv_shelf _ _ _ _ H Es') as (b&Hb&Hh'). pose proof H as (Hinv&_).
  apply (is_arch_unique (r_ar r) i j (a_desc b) Hinv); [|by exists b]. exists a. split; [done|].
  rewrite (holds_len _ _ Hh), (holds_len _ _ Hh'). destruct Hh as (_&->&_). destruct Hh' as (_&->&_). done.
Qed.
Lemma registry_of_archetypes c ops : all_gproper (dbg c) (big c) ops [] ->
  let '(outs, l, evs) := gcalls (dbg c) (big c) ops [] in
  exists r, grun c ops reg_default = Some (outs, r) /\ ev_trace (r_env r) = evs /\ r_er r = er_default /\
    Forall2 same_shelf (ar_archs (r_ar r)) l /\ NoDup (map (fun s => (sf_id s, length (sf_types s))) l) /\
    (Forall (fun s => Forall (fun x : N * gmap N value => calm x.2) (tb_rows (sf_table s))) l ->
     exists r', drop_registry r = Ret tt r' /\ ev_trace (r_env r') = evs ++ drop_shelves l).
Proof.
  intros Hp. pose proof (grun_ok c ops reg_default [] ginv_default Hp) as H. destruct (gcalls (dbg c) (big c) ops []) as [[outs l] evs].
  destruct H as (r&E&H&Ee). exists r. split; [done|]. split; [by rewrite Ee|]. pose proof H as (_&HF&Ho&Her). split; [done|].
  split; [eapply Forall2_impl; [exact HF|apply holds_same]|]. split; [by eapply shelves_apart|]. intros Hc.
  destruct (drop_shelves_ok (length (ar_archs (r_ar r))) 0 r l) as (r'&E'&Ee'); [lia|by rewrite drop_0|done|done|].
  exists r'. split; [unfold drop_registry; by rewrite rm_get_step|]. rewrite Ee', Ee. done.
Qed.

(** ** Deciding whether a concrete program is proper *)
Section check.
  Context (be : bool).
  Definition fits_allb (G : group) (vs : list value) : bool := (length G =? length vs) && forallb (fun p => fitsb p.1 p.2) (zip G vs).
  Definition all_typesb (cs : list ctype) (G : group) : bool := bool_decide (G ≡ₚ cs).
  Definition insideb (cs : list ctype) (G : group) : bool := forallb (fun C => bool_decide (C ∈ cs)) G.
  Definition some_typesb (cs : list ctype) (G : group) : bool := accepted be G && insideb cs G.
  Definition rowb (t : table) (i : nat) : bool := i <? length (tb_rows t).
  Definition can_appendb (t : table) : bool := (length (tb_rows t) <? tb_cap t) || (2 * N.of_nat (tb_cap t) <? 16777215)%N.
  Definition calmb (t : table) (i : nat) : bool :=
    match tb_rows t !! i with Some x => forallb (fun y => negb (v_bomb y.2)) (map_to_list x.2) | None => false end.
  Definition colsb (n : nat) (G : group) (cols : list (list value)) : bool :=
    (length G =? length cols) && forallb (fun p => (length p.2 =? n) && forallb (fitsb p.1) p.2) (zip G cols).
  Definition kindb (cs : list ctype) (k : access) (G : group) : bool := match k with Exact => all_typesb cs G | _ => some_typesb cs G end.
  Definition properb (cs : list ctype) (t : table) (o : aop) : bool :=
    match o with
    | APush G h vs | AReserve G h vs => all_typesb cs G && fits_allb G vs && can_appendb t
    | AOverwrite G i h vs => all_typesb cs G && fits_allb G vs && rowb t i
    | AWrite C i v | AReplace C i v => bool_decide (C ∈ cs) && fitsb C v && rowb t i
    | ASetHandle i h => rowb t i
    | AReplaceAll G i vs => some_typesb cs G && fits_allb G vs && rowb t i
    | AStore k G cols => kindb cs k G && colsb (length (tb_rows t)) G cols
    | ASwap i j => rowb t i && rowb t j && negb (i =? j)
    | AToLast i => rowb t i
    | ASwapDrop i => calmb t i
    | ASwapRemove G i | AReadAll G i => all_typesb cs G && rowb t i
    | AForget => 0 <? length (tb_rows t)
    | AGet C i | ARead C i => bool_decide (C ∈ cs) && rowb t i
    | AGetAll G i => some_typesb cs G && rowb t i
    | ASlices k G => kindb cs k G
    | AEntities | ALen | ACapacity | AFull => true
    end.
  Definition wholeb (cs : list ctype) (aid : N) (o : aop) : bool :=
    match o with
    | APush _ _ _ | AReserve _ _ _ | AOverwrite _ _ _ _ | AStore Exact _ _ | ASlices Exact _ =>
        accepted be cs && (aid =? tuple_archetype_id be (ids_of cs))%N
    | ASwapRemove _ _ | AReadAll _ _ => accepted be cs
    | _ => true
    end.
  Lemma Forall2_zip {A B} (P : A -> B -> bool) l k : (length l =? length k) && forallb (fun p => P p.1 p.2) (zip l k) = true -> Forall2 (fun x y => P x y = true) l k.
  Proof.
    intros [Hl%Nat.eqb_eq Hf]%andb_true_iff. revert k Hl Hf. induction l as [|x l IH]; intros [|y k]; [constructor|done..|].
    cbn [length zip zip_with forallb fst snd]. intros [= Hl] [Hx Hf]%andb_true_iff. constructor; [done|]. by apply IH.
  Qed.
  Lemma fitsb_ok C v : fitsb C v = true -> fits C v.
  Proof. apply N.eqb_eq. Qed.
  Lemma fits_allb_ok G vs : fits_allb G vs = true -> Forall2 fits G vs.
  Proof. intros H%(Forall2_zip fitsb). eapply Forall2_impl; [exact H|]. intros; by apply fitsb_ok. Qed.
  Lemma some_typesb_ok cs G : some_typesb cs G = true -> some_types be cs G.
  Proof.
    intros [H1%accepted_iff H2]%andb_true_iff. split; [done|]. intros C HC. unfold insideb in H2. rewrite forallb_forall in H2.
    specialize (H2 C (proj1 (elem_of_list_In _ _) HC)). by apply bool_decide_eq_true in H2.
  Qed.
  Lemma kindb_ok cs k G : kindb cs k G = true -> match k with Exact => all_types cs G | _ => some_types be cs G end.
  Proof. destruct k; cbn [kindb]; [apply bool_decide_eq_true|apply some_typesb_ok..]. Qed.
  Lemma colsb_ok n G cols : colsb n G cols = true -> Forall2 (fun C col => length col = n /\ Forall (fits C) col) G cols.
  Proof.
    intros H%(Forall2_zip (fun C col => (length col =? n) && forallb (fitsb C) col)). eapply Forall2_impl; [exact H|].
    intros C col [H1%Nat.eqb_eq H2]%andb_true_iff. split; [done|]. rewrite forallb_forall in H2. apply Forall_forall. intros v Hv. apply fitsb_ok, H2. by apply elem_of_list_In.
  Qed.
  Lemma can_appendb_ok t : can_appendb t = true -> can_append t.
  Proof. intros [H%Nat.ltb_lt|H%N.ltb_lt]%orb_true_iff; [by left|by right]. Qed.
  Lemma properb_ok cs t o : properb cs t o = true -> proper be cs t o.
  Proof.
    assert (Hr : forall i, rowb t i = true -> row_of t i) by (intros i; apply Nat.ltb_lt).
    assert (Ha : forall G, all_typesb cs G = true -> all_types cs G) by (intros G; apply bool_decide_eq_true).
    assert (Hi : forall C, bool_decide (C ∈ cs) = true -> C ∈ cs) by (intros C; apply bool_decide_eq_true).
    destruct o; cbn [properb proper]; rewrite ?andb_true_iff; intros H;
      repeat match goal with H : _ /\ _ |- _ => destruct H end;
      repeat match goal with |- _ /\ _ => split end;
      auto using fits_allb_ok, some_typesb_ok, can_appendb_ok, colsb_ok, fitsb_ok, droppable.
    - by apply kindb_ok in H.
    - by apply negb_true_iff, Nat.eqb_neq in H0.
    - by apply Nat.ltb_lt.
    - by apply kindb_ok in H.
  Qed.
  Lemma wholeb_ok cs aid o : wholeb cs aid o = true -> whole be cs aid o.
  Proof.
    destruct o as [| | | | | | |[]| | | | | | | | | |[]| | | |]; cbn [wholeb whole]; rewrite ?andb_true_iff, ?N.eqb_eq, ?accepted_iff; done.
  Qed.
  Fixpoint work_okb (ops : list (nat * aop)) (l : list shelf) : bool :=
    match ops with
    | [] => true
    | (i, o) :: ops' =>
        match l !! i with
        | None => false
        | Some s => properb (sf_types s) (sf_table s) o && wholeb (sf_types s) (sf_id s) o &&
            work_okb ops' (<[i := Shelf (sf_id s) (sf_types s) (acall (sf_types s) (sf_table s) o).1.2]> l)
        end
    end.
  Lemma work_okb_ok ops l : work_okb ops l = true -> work_ok be ops l.
  Proof.
    revert l. induction ops as [|[i o] ops IH]; intros l; cbn [work_okb work_ok]; [done|]. destruct (l !! i) as [s|] eqn:E; [|done].
    rewrite !andb_true_iff. intros [[H1 H2] H3]. exists s. split; [done|]. auto using properb_ok, wholeb_ok.
  Qed.
  Definition well_typedb (l : list shelf) (G : group) : bool := forallb (fun s => negb (shelf_has G s) || insideb (sf_types s) G) l.
  Lemma well_typedb_ok l G : well_typedb l G = true -> well_typed l G.
  Proof.
    unfold well_typedb. rewrite forallb_forall. intros H s Hs Hh C HC. specialize (H s (proj1 (elem_of_list_In _ _) Hs)). rewrite Hh in H. cbn [negb orb] in H.
    unfold insideb in H. rewrite forallb_forall in H. specialize (H C (proj1 (elem_of_list_In _ _) HC)). by apply bool_decide_eq_true in H.
  Qed.
  Definition argumentsb (l : list shelf) (o : gop) : bool :=
    match o with
    | GMake G _ => forallb smallb G
    | GAdding _ C _ => smallb C
    | GUnchecked i _ => i <? length l
    | GIter _ _ G => well_typedb l G
    | GStore _ f G new => well_typedb l G && (negb (accepted be G) || (length new =? length (tour l G f)))
    | _ => true
    end.
  Definition closure_ok (o : gop) : Prop := match o with GIter _ (Some f) _ | GStore _ (Some f) _ _ => respects f | _ => True end.
  Lemma argumentsb_ok l o : closure_ok o -> argumentsb l o = true -> arguments be l o.
  Proof.
    destruct o as [| | | | | |h f G|h f G new]; cbn [closure_ok argumentsb arguments]; intros Hc; try done.
    - rewrite forallb_forall. intros H. apply Forall_forall. intros C HC. apply smallb_ok, H. by apply elem_of_list_In.
    - apply smallb_ok.
    - apply Nat.ltb_lt.
    - intros H%well_typedb_ok. by destruct f.
    - rewrite andb_true_iff. intros [H%well_typedb_ok Hl]. split; [done|]. split; [by destruct f|]. intros Ea. rewrite Ea in Hl. by apply Nat.eqb_eq.
  Qed.
  Fixpoint all_gproperb (dbg : bool) (ops : list gop) (l : list shelf) : bool :=
    match ops with
    | [] => true
    | o :: ops' => argumentsb l o && match plan_of dbg be l o with Doing _ l1 _ ops => work_okb ops l1 | _ => true end && all_gproperb dbg ops' (gcall dbg be l o).1.2
    end.
  Lemma all_gproperb_ok dbg ops l : Forall closure_ok ops -> all_gproperb dbg ops l = true -> all_gproper dbg be ops l.
  Proof.
    revert l. induction ops as [|o ops IH]; intros l Hc; cbn [all_gproperb all_gproper]; [done|]. apply Forall_cons in Hc as [Hc Hcs].
    rewrite !andb_true_iff. intros [[H1 H2] H3]. split; [|by apply IH]. split; [by apply argumentsb_ok|].
    destruct (plan_of dbg be l o); [done..|by apply work_okb_ok].
  Qed.
End check.
