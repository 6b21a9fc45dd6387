(** Proofs about the archetype table: lookup and creation of archetypes. *)
From Verif Require Import RegModel SearchProofs DescrProofs MonadProofs SpecBase.
Local Open Scope nat_scope.

(** Archetype [i] has the id and length of [d]. *)
Definition is_arch (ar : areg) (i : nat) (d : adesc) : Prop :=
  exists a, ar_archs ar !! i = Some a /\ ad_id (a_desc a) = ad_id d /\ ad_len (a_desc a) = ad_len d.
Record areg_inv (ar : areg) : Prop := {
  ai_levels : length (ar_maps ar) = 14;
  ai_strict : forall lvl level, ar_maps ar !! lvl = Some level -> strict (map k_id level);
  ai_keys : forall lvl level k, ar_maps ar !! lvl = Some level -> k ∈ level ->
    exists a, ar_archs ar !! k_idx k = Some a /\ ad_id (a_desc a) = k_id k /\ ad_len (a_desc a) = S lvl;
  ai_arch : forall i a, ar_archs ar !! i = Some a ->
    1 <= ad_len (a_desc a) <= 14 /\ ad_is_valid (a_desc a) = true /\
    exists level, ar_maps ar !! (ad_len (a_desc a) - 1) = Some level /\ AKey (ad_id (a_desc a)) i ∈ level;
  ai_count : (N.of_nat (length (ar_archs ar)) <= 65534)%N;
}.
Lemma areg_inv_default : areg_inv areg_default.
Proof.
  assert (Hl : forall lvl level, ar_maps areg_default !! lvl = Some level -> level = []).
  { intros lvl level H. by apply lookup_replicate in H as [-> _]. }
  split; cbn [ar_archs areg_default].
  - done.
  - intros lvl level ->%Hl. constructor.
  - intros lvl level k ->%Hl Hk. by apply elem_of_nil in Hk.
  - intros i a H. by rewrite lookup_nil in H.
  - cbn. lia.
Qed.
Lemma key_of_level (level : list akey) f k : level !! f = Some k -> map k_id level !! f = Some (k_id k).
Proof. intros E. change (map k_id level) with (k_id <$> level). by rewrite list_lookup_fmap, E. Qed.
Lemma is_arch_key ar i d : areg_inv ar -> is_arch ar i d ->
  exists level f, ar_maps ar !! (ad_len d - 1) = Some level /\ level !! f = Some (AKey (ad_id d) i).
Proof.
  intros Hinv (a&Ha&Hid&Hl). destruct (ai_arch _ Hinv _ _ Ha) as (_&_&level&Hlv&[f Hf]%elem_of_list_lookup).
  exists level, f. by rewrite <- Hl, <- Hid.
Qed.
Lemma is_arch_unique ar i j d : areg_inv ar -> is_arch ar i d -> is_arch ar j d -> i = j.
Proof.
  intros Hinv Hi Hj. destruct (is_arch_key _ _ _ Hinv Hi) as (l1&f1&H1&K1).
  destruct (is_arch_key _ _ _ Hinv Hj) as (l2&f2&H2&K2). rewrite H1 in H2. injection H2 as <-.
  pose proof (ai_strict _ Hinv _ _ H1) as Hs.
  pose proof (strict_lookup_inj _ _ _ _ Hs (key_of_level _ _ _ K1) (key_of_level _ _ _ K2)) as ->. congruence.
Qed.
Lemma areg_search ar d : areg_inv ar -> 1 <= ad_len d <= 14 ->
  exists level, ar_maps ar !! (ad_len d - 1) = Some level /\ strict (map k_id level) /\
    match binary_search (map k_id level) (ad_id d) with
    | inl f => exists k, level !! f = Some k /\ is_arch ar (k_idx k) d
    | inr _ => forall i, ~ is_arch ar i d
    end.
Proof.
  intros Hinv Hlen. destruct (lookup_lt_is_Some_2 (ar_maps ar) (ad_len d - 1)) as [level Hlv].
  { rewrite (ai_levels _ Hinv). lia. }
  pose proof (ai_strict _ Hinv _ _ Hlv) as Hs. exists level. split; [done|]. split; [done|].
  destruct (binary_search (map k_id level) (ad_id d)) as [f|f] eqn:E.
  - apply binary_search_inl in E; [|done]. change (map k_id level) with (k_id <$> level) in E.
    rewrite list_lookup_fmap in E. destruct (level !! f) as [k|] eqn:Ek; [|done]. injection E as E.
    exists k. split; [done|]. destruct (ai_keys _ Hinv _ _ k Hlv) as (a&Ha&Hid&Hl). { by eapply elem_of_list_lookup_2. }
    exists a. split; [done|]. split; [congruence|lia].
  - intros i Hi. destruct (is_arch_key _ _ _ Hinv Hi) as (l2&f2&H2&K2). rewrite Hlv in H2. injection H2 as <-.
    apply binary_search_inr in E; [|done]. apply E. eapply elem_of_list_lookup_2. by rewrite (key_of_level _ _ _ K2).
Qed.
Lemma is_arch_lt ar i d : is_arch ar i d -> i < length (ar_archs ar).
Proof. intros (a&Ha&_). by eapply lookup_lt_Some. Qed.

Definition findable (d : adesc) : Prop := ad_is_valid d = true /\ ad_len d <= 14.

Lemma find_archetype_found ar d i : areg_inv ar -> ad_is_valid d = true -> is_arch ar i d -> find_archetype d ar = Rd (Some i).
Proof.
  intros Hinv Hv Hi. pose proof Hi as (a&Ha&_&Hl). destruct (ai_arch _ Hinv _ _ Ha) as (Hl1&_). rewrite Hl in Hl1.
  unfold find_archetype, MAX_COMPONENTS_PER_ENTITY. rewrite (proj2 (Nat.ltb_ge _ _)), Hv by lia. cbn [orb negb].
  rewrite (proj2 (Nat.eqb_neq _ _)) by lia.
  destruct (areg_search ar d Hinv Hl1) as (level&->&Hs&H).
  destruct (binary_search _ _) as [f|f]; [|by destruct (H i)]. destruct H as (k&->&Hk).
  pose proof (is_arch_unique _ _ _ _ Hinv Hi Hk) as <-.
  by rewrite (proj2 (Nat.ltb_lt _ _)) by (by eapply is_arch_lt).
Qed.
Lemma find_archetype_absent ar d : areg_inv ar -> regular d -> (forall i, ~ is_arch ar i d) \/ ad_is_valid d = false -> find_archetype d ar = Rd None.
Proof.
  intros Hinv Hr Hn. unfold find_archetype, MAX_COMPONENTS_PER_ENTITY.
  destruct (ad_is_valid d) eqn:Hv; [|by rewrite orb_true_r]. destruct Hn as [Hn|]; [|done].
  specialize (Hr Hv). rewrite (proj2 (Nat.ltb_ge _ _)) by lia. cbn [orb negb].
  rewrite (proj2 (Nat.eqb_neq _ _)) by lia.
  destruct (areg_search ar d Hinv Hr) as (level&->&Hs&H).
  destruct (binary_search _ _) as [f|f]; [|done]. destruct H as (k&_&Hk). by destruct (Hn _ Hk).
Qed.

(** Keeping the descriptors keeps the invariant. *)
Lemma areg_inv_same ar ar' : areg_inv ar -> ar_maps ar' = ar_maps ar -> map a_desc (ar_archs ar') = map a_desc (ar_archs ar) -> areg_inv ar'.
Proof.
  intros [H1 H2 H3 H4 H5] Em Ed. rewrite <- Em in *.
  assert (HL : forall i a', ar_archs ar' !! i = Some a' -> exists a, ar_archs ar !! i = Some a /\ a_desc a = a_desc a').
  { intros i a' Ha. pose proof (f_equal (fun l => l !! i) Ed) as E. cbn in E.
    change (map a_desc) with (fmap a_desc : list arch -> list adesc) in E. rewrite !list_lookup_fmap, Ha in E.
    destruct (ar_archs ar !! i) as [a|]; [|done]. exists a. cbn in E. by injection E as E. }
  assert (HR : forall i a, ar_archs ar !! i = Some a -> exists a', ar_archs ar' !! i = Some a' /\ a_desc a' = a_desc a).
  { intros i a' Ha. pose proof (f_equal (fun l => l !! i) Ed) as E. cbn in E.
    change (map a_desc) with (fmap a_desc : list arch -> list adesc) in E. rewrite !list_lookup_fmap, Ha in E.
    destruct (ar_archs ar' !! i) as [a|]; [|done]. exists a. cbn in E. by injection E as E. }
  split.
  - done.
  - done.
  - intros lvl level k Hl Hk. destruct (H3 _ _ _ Hl Hk) as (a&Ha&Hid&Hlen). destruct (HR _ _ Ha) as (a'&Ha'&E).
    exists a'. rewrite E. done.
  - intros i a' Ha'. destruct (HL _ _ Ha') as (a&Ha&E). rewrite <- E. by apply H4.
  - rewrite <- (map_length a_desc), Ed, map_length. done.
Qed.
(** Adding an archetype for a new id keeps the invariant. *)
Lemma areg_inv_snoc ar a level ins :
  areg_inv ar -> 1 <= ad_len (a_desc a) <= 14 -> ad_is_valid (a_desc a) = true ->
  (N.of_nat (length (ar_archs ar)) < 65534)%N ->
  ar_maps ar !! (ad_len (a_desc a) - 1) = Some level ->
  binary_search (map k_id level) (ad_id (a_desc a)) = inr ins ->
  areg_inv (AReg (<[ad_len (a_desc a) - 1 := vec_insert level ins (AKey (ad_id (a_desc a)) (length (ar_archs ar)))]> (ar_maps ar))
                 (ar_archs ar ++ [a])).
Proof.
  intros Hinv Hlen Hv Hc Hlv Hbs. pose proof (ai_strict _ Hinv _ _ Hlv) as Hs.
  set (lv := ad_len (a_desc a) - 1) in *. set (key := AKey _ _).
  pose proof (lookup_lt_Some _ _ _ Hlv) as Hlvlt.
  assert (Hmem : forall k, k ∈ vec_insert level ins key <-> k = key \/ k ∈ level).
  { intros k. unfold vec_insert. rewrite elem_of_app, elem_of_cons.
    rewrite <- (take_drop ins level) at 3. rewrite elem_of_app. tauto. }
  assert (Hlook : forall lvl l, <[lv:=vec_insert level ins key]> (ar_maps ar) !! lvl = Some l ->
            (lvl = lv /\ l = vec_insert level ins key) \/ (lvl <> lv /\ ar_maps ar !! lvl = Some l)).
  { intros lvl l H. apply list_lookup_insert_Some in H as [(->&->&_)|[? ?]]; [by left|by right]. }
  split; cbn [ar_maps ar_archs].
  - rewrite insert_length. apply Hinv.
  - intros lvl l [[-> ->]|[_ Hl]]%Hlook; [|by eapply ai_strict].
    unfold vec_insert. rewrite map_app. cbn [map].
    assert (Et : map k_id (take ins level) = take ins (map k_id level)).
    { change (map k_id) with (fmap k_id : list akey -> list N). apply fmap_take. }
    assert (Ed : map k_id (drop ins level) = drop ins (map k_id level)).
    { change (map k_id) with (fmap k_id : list akey -> list N). apply fmap_drop. }
    rewrite Et, Ed. cbn [key k_id]. by apply binary_search_insert.
  - intros lvl l k [[-> ->]|[_ Hl]]%Hlook Hk.
    + apply Hmem in Hk as [->|Hk].
      * exists a. cbn [key k_idx k_id]. split; [by apply list_lookup_middle|]. split; [done|]. unfold lv. lia.
      * destruct (ai_keys _ Hinv _ _ _ Hlv Hk) as (a0&Ha0&?). exists a0. split; [by apply lookup_app_l_Some|done].
    + destruct (ai_keys _ Hinv _ _ _ Hl Hk) as (a0&Ha0&?). exists a0. split; [by apply lookup_app_l_Some|done].
  - intros i a0 Hi. apply lookup_app_Some in Hi as [Hi|[Hge Hi]].
    + destruct (ai_arch _ Hinv _ _ Hi) as (?&?&l&Hl&Hk). split; [done|]. split; [done|].
      destruct (decide (ad_len (a_desc a0) - 1 = lv)) as [E|E].
      * rewrite E in Hl |- *. assert (l = level) as -> by congruence. exists (vec_insert level ins key).
        split; [by apply list_lookup_insert|]. apply Hmem. by right.
      * exists l. by rewrite list_lookup_insert_ne by done.
    + apply list_lookup_singleton_Some in Hi as [Hz <-]. split; [done|]. split; [done|].
      exists (vec_insert level ins key). split; [by apply list_lookup_insert|]. apply Hmem. left.
      unfold key. f_equal. lia.
  - rewrite app_length. cbn [length]. lia.
Qed.

(** ** The creating lookup *)
Lemma a_with_capacity_desc d n e a e' : a_with_capacity d n e = Ret a e' -> a_desc a = d.
Proof.
  unfold a_with_capacity, massert. intros E. destruct (ad_is_valid d); [|done]. cbn [bind ret] in E. unfold bind in E at 1.
  destruct (_ && _).
  - cbn in E. unfold bind in E at 1. destruct (mem_alloc _ _ _ _) as [o e1|e1|]; try done. destruct o as [b|]; [|done].
    unfold bind in E. destruct (alloc_columns _ _ e1); try done. by injection E as <- <-.
  - cbn in E. by injection E as <- <-.
Qed.
Lemma find_or_create_spec d s :
  areg_inv (r_ar s) -> regular d ->
  match find_or_create_archetype d s with
  | Ret (Some i) s' => ad_is_valid d = true /\ areg_inv (r_ar s') /\ is_arch (r_ar s') i d /\ r_er s' = r_er s /\
      (s' = s \/
       (forall j, ~ is_arch (r_ar s) j d) /\ (N.of_nat (length (ar_archs (r_ar s))) < 65534)%N /\
       i = length (ar_archs (r_ar s)) /\
       exists a, ar_archs (r_ar s') = ar_archs (r_ar s) ++ [a] /\ a_desc a = d /\
         a_with_capacity d DEFAULT_ARCHETYPE_ALLOCATION_SIZE (r_env s) = Ret a (r_env s'))
  | Ret None s' => s' = s /\
      (ad_is_valid d = false \/
       (forall j, ~ is_arch (r_ar s) j d) /\ (65534 <= N.of_nat (length (ar_archs (r_ar s))))%N)
  | Panic s' => r_er s' = r_er s /\ r_ar s' = r_ar s /\ exists e', a_with_capacity d DEFAULT_ARCHETYPE_ALLOCATION_SIZE (r_env s) = Panic e'
  | UB => a_with_capacity d DEFAULT_ARCHETYPE_ALLOCATION_SIZE (r_env s) = UB
  end.
Proof.
  intros Hinv Hr. unfold find_or_create_archetype, MAX_COMPONENTS_PER_ENTITY.
  destruct (ad_is_valid d) eqn:Hv.
  2: { rewrite orb_true_r. cbn. auto. }
  specialize (Hr Hv). rewrite (proj2 (Nat.ltb_ge _ _)) by lia. cbn [orb negb].
  rewrite (proj2 (Nat.eqb_neq _ _)) by lia.
  unfold bind at 1, rm_get at 1, get_st at 1.
  destruct (areg_search _ d Hinv Hr) as (level&Hlv&Hs&H). rewrite Hlv.
  destruct (binary_search _ _) as [f|ins] eqn:Eb.
  - destruct H as (k&->&Hk). rewrite (proj2 (Nat.ltb_lt _ _)) by (by eapply is_arch_lt). cbn. auto 10.
  - destruct (N.leb_spec MAX_ARCHETYPE_COUNT (N.of_nat (length (ar_archs (r_ar s))))) as [Hfull|Hroom]; unfold MAX_ARCHETYPE_COUNT in *.
    { cbn. auto. }
    unfold bind at 1, rm_env at 1.
    destruct (a_with_capacity d DEFAULT_ARCHETYPE_ALLOCATION_SIZE (r_env s)) as [a e'|e'|] eqn:Ea; [|by cbn; eauto|done].
    cbn [bind rm_get get_st put_st ret r_ar r_er r_env ar_maps ar_archs].
    unfold bind, rm_get, get_st, put_st, ret. cbn [r_ar r_er r_env ar_maps ar_archs].
    pose proof (a_with_capacity_desc _ _ _ _ _ Ea) as Ed.
    split; [done|]. split; [rewrite <- Ed; apply areg_inv_snoc; by rewrite ?Ed|].
    split. { exists a. cbn [ar_archs]. split; [by apply list_lookup_middle|]. by rewrite Ed. }
    split; [done|]. right. split; [done|]. split; [done|]. split; [done|]. exists a. done.
Qed.

(** ** Two archetypes at once *)
Lemma disjoint_mut_spec len i j :
  disjoint_mut len i j = Rd (if decide (i <> j /\ i < len /\ j < len) then Some (i, j) else None).
Proof.
  unfold disjoint_mut. case_decide as H.
  - destruct H as (Hne&Hi&Hj). rewrite (proj2 (Nat.eqb_neq _ _) Hne), !(proj2 (Nat.leb_gt _ _)) by lia. cbn [orb].
    destruct (Nat.ltb_spec i j).
    + rewrite (proj2 (Nat.leb_le _ _)), !(proj2 (Nat.ltb_lt _ _)) by lia. cbn [andb]. do 3 f_equal. lia.
    + rewrite (proj2 (Nat.leb_le _ _)), !(proj2 (Nat.ltb_lt _ _)) by lia. cbn [andb]. do 3 f_equal. lia.
  - destruct (Nat.eqb_spec i j); [done|]. destruct (Nat.leb_spec len i); [done|]. destruct (Nat.leb_spec len j); [done|]. lia.
Qed.
