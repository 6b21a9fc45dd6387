(** How the calls outside the contract go wrong: for every history (not only
    for a witness), what happens when the contract is broken, and how much of
    the registry survives a call that panics half-way. *)
From Verif Require Import RegProofs RegOps RegOps2 RegOps3 Refine Observe Clients.
From Verif Require Import MonadProofs DescrProofs SearchProofs ArchProofs ArchOps ArchOps2 ArchOps3 AregProofs EntityProofs EntityTable.
From Verif Require Import SpecEntity SpecObs SpecClient SpecBase SpecWorld SpecRef.
Local Open Scope nat_scope.

(** ** Thirteen and fourteen components (C29, C30) *)
Section wide.
  Context {Fm : family} (c : cfg) (U : list ctype) (HU : universe (big c) U).
  Notation be := (big c).
  Lemma add_13_panics r T w C h v e : reg_ok be U r T w -> w !! h = Some e -> size (en_vals e) = 13 -> C ∈ U ->
    en_vals e !! ct_id C = None ->
    add_component c C h v r = Panic (Reg (r_er r) (r_ar r) (Env (ev_trace (r_env r) ++ [EvDrop v]) (ev_oracle (r_env r)))).
  Proof.
    intros H Ew Hsz HC Hn. destruct (live_entry c U _ _ _ _ _ H Ew) as (en&i&j&t&m&a&Een&Ei&Ej&Hrow&Ht&Hj&->&Ha&Hta).
    destruct (tab_facts _ _ _ _ Hta) as (Hd&Hst&Hnd&H14&Hlen&_). destruct (tab_row _ _ HU _ _ _ _ _ Hta Hj) as (Hfull&Hfit&Ety).
    pose proof (full_size _ _ Hnd Hfull) as Hsize. cbn [en_vals] in *.
    assert (Ep : ad_add_component be (a_desc a) (cdesc_of C) = RdPanic).
    { apply add_component_13_panics; [apply Hd|lia|]. rewrite (do_comps _ _ Hd), ids_cdesc_of. cbn.
      intros Hx. apply Hfull in Hx as [? ?]. congruence. }
    unfold add_component. rewrite rm_get_step, Een, Ei.
    unfold bind at 1, dropping_on_panic at 1. unfold find_or_create_archetype_adding_component. rewrite rm_get_step, Ha.
    rewrite (proj2 (Nat.ltb_ge _ _)); [|apply Nat.lt_le_incl; by eapply lookup_lt_Some].
    rewrite Ep. done.
  Qed.
  Lemma remove_14_panics r T w C h e v : reg_ok be U r T w -> w !! h = Some e -> size (en_vals e) = 14 -> C ∈ U ->
    en_vals e !! ct_id C = Some v -> remove_component c C h r = Panic r.
  Proof.
    intros H Ew Hsz HC Hn. destruct (live_entry c U _ _ _ _ _ H Ew) as (en&i&j&t&m&a&Een&Ei&Ej&Hrow&Ht&Hj&->&Ha&Hta).
    destruct (tab_facts _ _ _ _ Hta) as (Hd&Hst&Hnd&H14&Hlen&_). destruct (tab_row _ _ HU _ _ _ _ _ Hta Hj) as (Hfull&Hfit&Ety).
    pose proof (full_size _ _ Hnd Hfull) as Hsize. cbn [en_vals] in *.
    assert (Ep : ad_remove_component be (a_desc a) (ct_id C) = RdPanic).
    { apply remove_component_14_panics; [apply Hd|lia|]. rewrite (do_comps _ _ Hd), ids_cdesc_of. apply Hfull. eauto. }
    unfold remove_component. rewrite rm_get_step, Een, Ei.
    unfold bind at 1. unfold find_or_create_archetype_removing_component. rewrite rm_get_step, Ha.
    rewrite (proj2 (Nat.ltb_ge _ _)); [|apply Nat.lt_le_incl; by eapply lookup_lt_Some].
    cbn [cdesc_of cd_id]. rewrite Ep. done.
  Qed.
End wide.

(** ** Taking an entity out with a tuple type that is not its own (C25) *)
Lemma rmap_ub {A B} (f : A -> rd B) l : (forall x, x ∈ l -> f x <> RdPanic) -> (exists x, x ∈ l /\ f x = RdUB) -> rmap f l = RdUB.
Proof.
  induction l as [|y l IH]; intros Hn (x&Hx&E); [by apply elem_of_nil in Hx|]. cbn [rmap].
  destruct (f y) as [v| |] eqn:Ey; cbn [rbind]; [|by destruct (Hn y (elem_of_list_here _ _))|done].
  rewrite IH; [done|intros z Hz; apply Hn; by right|]. apply elem_of_cons in Hx as [->|Hx]; [congruence|eauto].
Qed.
(** Where a list stops being a prefix of another. *)
Lemma prefix_dec_at {A} (eqd : forall x y : A, {x = y} + {x <> y}) (s l : list A) :
  s `prefix_of` l \/ exists k x, s !! k = Some x /\ l !! k <> Some x.
Proof.
  revert l. induction s as [|x s IH]; intros l; [left; apply prefix_nil|].
  destruct l as [|y l]; [right; by exists 0, x|].
  destruct (eqd x y) as [->|Hne]; [|right; exists 0, x; cbn; split; [done|congruence]].
  destruct (IH l) as [H|(k&z&H1&H2)]; [left; by apply prefix_cons|right; by exists (S k), z].
Qed.
Lemma elem_of_enum {A} (l : list A) i x : (i, x) ∈ enum l <-> l !! i = Some x.
Proof.
  split.
  - intros [j Hj]%elem_of_list_lookup. by apply enum_lookup_inv in Hj as (y&[= -> ->]&?).
  - intros H. eapply elem_of_list_lookup_2, enum_lookup, H.
Qed.
Lemma ctype_eq_dec (x y : ctype) : {x = y} + {x <> y}.
Proof. decide equality; apply N.eq_dec. Qed.

Section row.
  Context (d : adesc) (cs : list ctype) (Hd : desc_ok d cs).
  (** The read itself, for a tuple type whose sorted components start the archetype's. *)
  Lemma read_prefix_ok be G s a rows r h m vs : a_desc a = d -> arch_ok a cs rows -> rows !! r = Some (h, m) ->
    gspec be G s -> s `prefix_of` cs -> tuple_of m G vs -> read_components_exact_unchecked be G r a = Rd vs.
  Proof.
    intros Ed Hok Hr Hg [k Hpre] Ht. unfold read_components_exact_unchecked, read_from_sorted_pointers.
    apply rmap_enum; [by eapply Forall2_length|]. intros i c v Hi Hv.
    pose proof (gs_slot _ _ _ Hg _ _ Hi) as Hk.
    assert (Hk' : cs !! group_slot be G i = Some c) by (rewrite Hpre; by apply lookup_app_l_Some).
    unfold deref. rewrite (offset_ptr_ok d cs Hd _ _ _ _ _ Ed Hok Hk').
    assert (Hm : m !! ct_id c = Some v) by (by eapply Forall2_lookup_lr in Ht).
    destruct (typed_cell_ok d cs Hd _ _ _ _ _ _ _ _ Ed Hok Hr Hk' Hm) as [-> _]. done.
  Qed.
  (** For any other one it is undefined. *)
  Lemma read_other_ub be G s a rows r h m : a_desc a = d -> arch_ok a cs rows -> rows !! r = Some (h, m) ->
    gspec be G s -> ~ s `prefix_of` cs -> (forall C C', C ∈ G -> C' ∈ cs -> ct_ty C = ct_ty C' -> C = C') ->
    read_components_exact_unchecked be G r a = RdUB.
  Proof.
    intros Ed Hok Hr Hg Hpre Hinj. pose proof Hok as (_&_&_&HF&_). pose proof (Forall_lookup_1 _ _ _ _ HF Hr) as [Hfull Hfit].
    pose proof (desc_len _ _ Hd) as [Hdl Hl14].
    assert (Hcell : forall i C, G !! i = Some C ->
      (cs !! group_slot be G i = Some C -> deref C a (offset_sorted_pointers r a) (group_slot be G i) <> RdPanic) /\
      (cs !! group_slot be G i <> Some C -> deref C a (offset_sorted_pointers r a) (group_slot be G i) = RdUB)).
    { intros i C Hi. pose proof (gs_slot _ _ _ Hg _ _ Hi) as Hk. set (k := group_slot be G i) in *. unfold deref.
      destruct (cs !! k) as [C'|] eqn:Hc.
      - rewrite (offset_ptr_ok d cs Hd _ _ _ _ _ Ed Hok Hc).
        destruct (proj2 (Hfull (ct_id C'))) as [v Hv]. { apply elem_of_ids. exists C'. split; [by eapply elem_of_list_lookup_2|done]. }
        destruct (typed_cell_ok d cs Hd _ _ _ _ _ _ _ _ Ed Hok Hr Hc Hv) as [Et Er].
        split; [intros [= ->]; by rewrite Et|]. intros Hne. unfold typed_cell. rewrite Er. cbn [rbind].
        assert (Hty : (v_ty v =? ct_ty C)%N = false).
        { apply N.eqb_neq. intros E. assert (E' : fits C' v); [apply Hfit; [by eapply elem_of_list_lookup_2|done]|]. unfold fits in E'.
          assert (C = C') as ->; [|done]. apply Hinj; [by eapply elem_of_list_lookup_2|by eapply elem_of_list_lookup_2|congruence]. }
        rewrite Hty. cbn [andb]. by destruct (a_comps a !! k).
      - split; [done|]. intros _.
        assert (Ecs : a_comps a = map cdesc_of cs) by (unfold a_comps; rewrite Ed; apply Hd).
        assert (offset_sorted_pointers r a !! k = Some None) as ->; [|done].
        unfold offset_sorted_pointers. apply lookup_ge_None in Hc. pose proof (lookup_lt_Some _ _ _ Hk) as Hks. pose proof (gs_pos _ _ _ Hg) as Hsl.
        rewrite lookup_app_r by (rewrite map_length, enum_length, Ecs, map_length; lia).
        apply lookup_replicate. rewrite map_length, enum_length, Ecs, map_length. unfold MAX_COMPONENTS_PER_ENTITY. split; [done|lia]. }
    unfold read_components_exact_unchecked, read_from_sorted_pointers. apply rmap_ub.
    - intros [i C] Hx. apply elem_of_enum in Hx. destruct (Hcell i C Hx) as [H1 H2].
      destruct (decide (cs !! group_slot be G i = Some C)) as [E|E].
      + specialize (H1 E). by destruct (deref C a _ _).
      + by rewrite (H2 E).
    - destruct (prefix_dec_at ctype_eq_dec s cs) as [?|(k&C&Hk&Hc)]; [done|].
      assert (HCG : C ∈ G). { rewrite <- (gs_perm _ _ _ Hg). by eapply elem_of_list_lookup_2. }
      apply elem_of_list_lookup in HCG as [i Hi]. pose proof (gs_slot _ _ _ Hg _ _ Hi) as Hk'.
      assert (group_slot be G i = k) as Ek. { destruct (gspec_NoDup _ _ _ Hg) as (_&_&Hnd&_). by eapply NoDup_lookup. }
      exists (i, C). split; [by apply elem_of_enum|]. destruct (Hcell i C Hi) as [_ ->]; [done|]. by rewrite Ek.
  Qed.
  (** Everything [swap_remove_unchecked] does besides reading. *)
  Lemma swap_remove_read c G a rows r h m e : a_desc a = d -> arch_ok a cs rows -> rows !! r = Some (h, m) ->
    exists a1 a2 q, a_desc a1 = d /\ arch_ok a1 cs (swapl r (length rows - 1) rows) /\
      swapl r (length rows - 1) rows !! q = Some (h, m) /\
      a_desc a2 = d /\ a_cap a2 = a_cap a /\ arch_ok a2 cs (remove_row r rows) /\
      swap_remove_unchecked c G r (a, e) =
        match read_components_exact_unchecked (big c) G q a1 with
        | Rd vs => Ret (vs, negb (is_last r (length rows))) (a2, e)
        | RdPanic => Panic (a1, e)
        | RdUB => UB
        end.
  Proof.
    intros Ed Hok Hr. pose proof (lookup_lt_Some _ _ _ Hr) as Hlt.
    unfold swap_remove_unchecked. unfold bind at 1, am_get at 1. cbn [fst].
    erewrite (bind_Ret (mdebug_assert _ _)); [|apply mdebug_true; unfold a_len; rewrite (count_ok cs _ _ Hok); by apply Nat.ltb_lt].
    erewrite bind_Ret; [|apply lift_Rd; apply (last_row_ok cs); [done|lia]].
    unfold is_last. destruct (r =? length rows - 1) eqn:El.
    - apply Nat.eqb_eq in El. destruct (decrement_ok d cs Hd c a rows e Ed Hok ltac:(lia)) as (a'&Ea'&Hd'&Hc'&Hok').
      exists a, a', r. rewrite El, !swapl_id in *. split; [done|]. split; [done|]. split; [done|]. split; [done|]. split; [done|].
      split; [unfold remove_row; by rewrite swapl_id|].
      unfold bind at 1, am_rd, lift_rd. cbn [fst]. destruct (read_components_exact_unchecked _ _ _ _); [|done..]. by rewrite (bind_Ret _ _ _ _ _ Ea').
    - apply Nat.eqb_neq in El.
      destruct (swap_ok d cs Hd a rows r (length rows - 1) e Ed Hok Hlt ltac:(lia) El) as (a1&E1&Ed1&Ec1&Hok1).
      rewrite (bind_Ret _ _ _ _ _ E1).
      assert (Hr1 : swapl r (length rows - 1) rows !! (length rows - 1) = Some (h, m)).
      { rewrite swapl_lookup by lia. unfold swp. rewrite decide_False by lia. by rewrite decide_True. }
      destruct (decrement_ok d cs Hd c a1 _ e Ed1 Hok1 ltac:(rewrite swapl_length; lia)) as (a'&Ea'&Hd'&Hc'&Hok').
      exists a1, a', (length rows - 1). split; [done|]. split; [done|]. split; [done|]. split; [done|]. split; [congruence|].
      rewrite swapl_length in Hok'. split; [done|].
      unfold bind at 1, am_rd, lift_rd. cbn [fst]. destruct (read_components_exact_unchecked _ _ _ _); [|done..]. by rewrite (bind_Ret _ _ _ _ _ Ea').
  Qed.
End row.

Section take_out.
  Context {Fm : family} (c : cfg) (U : list ctype) (HU : universe (big c) U).
  Notation be := (big c).
  Lemma remove_prefix r T w G s h e : reg_ok be U r T w -> w !! h = Some e -> in_U U G -> gspec be G s ->
    s `prefix_of` types U (en_vals e) ->
    exists vs r' T', remove_entity c G h r = Ret (Some vs) r' /\ tuple_of (en_vals e) G vs /\ reg_ok be U r' T' (delete h w) /\
      r_env r' = r_env r /\ skel T' = take_out h (skel T).
  Proof.
    intros H Ew HG Hg Hpre.
    destruct (live_entry c U _ _ _ _ _ H Ew) as (en&i&j&t&m&a&Een&<-&<-&Hrow&Ht&Hj&->&Ha&Hta).
    set (i := e_arch c en) in *. set (j := e_row en) in *. cbn [en_vals] in *.
    pose proof Hta as (_&Hok&_). pose proof (proj1 Hok) as Hd. pose proof (row_cap _ _ _ _ Hta) as Hcap.
    pose proof (lookup_lt_Some _ _ _ Hj) as Hjlt. destruct (tab_row _ _ HU _ _ _ _ _ Hta Hj) as (Hfull&_&Ety). rewrite Ety in Hpre.
    destruct (tuple_exists m G) as [vs Htup].
    { intros C HC. apply Hfull. apply elem_of_ids. exists C. split; [|done]. destruct Hpre as [k ->]. apply elem_of_app. left. by rewrite (gs_perm _ _ _ Hg). }
    destruct (swap_remove_read (a_desc a) (t_cs t) Hd c G a (t_rows t) j h m (r_env r) eq_refl Hok Hj) as (a1&a'&q&Ed1&Hok1&Hq&Ed'&Hcap'&Hok'&Es).
    rewrite (read_prefix_ok (a_desc a) (t_cs t) Hd be G s a1 _ q h m vs Ed1 Hok1 Hq Hg Hpre Htup) in Es.
    destruct (ro_er _ _ _ _ _ H) as [F Her].
    set (r1 := put_arch r i a' (r_env r)).
    assert (Ha1 : ar_archs (r_ar r1) !! i = Some a') by (by eapply put_arch_at).
    destruct (fixup_ok c entity_at r1 T i j h m t a' en F) as (rg&Ef&Hinv1&Hlen1&Hloc1); [apply H|done|done|done|done| |done|lia|].
    { intros hl Hmv. unfold moved in Hmv. destruct (is_last j (length (t_rows t))) eqn:El; [done|].
      pose proof (removed_row_at _ _ _ Hj El) as Hr. destruct (t_rows t !! (length (t_rows t) - 1)) as [[hl' ml]|]; [|done].
      cbn in Hmv. injection Hmv as ->. by eapply entity_at_ok. }
    assert (Hloch : loc_of be rg h = Some (i, j)).
    { rewrite Hloc1. assert (loc_of be (r_er r) h = Some (i, j)) as E by (apply (ro_loc _ _ _ _ _ H); eauto). cbn. rewrite E. by case_decide. }
    destruct (loc_destroy be rg F h _ Hinv1 Hloch) as (rg'&F'&Edes&Hinv2&_&Hloc2).
    exists vs, (Reg rg' (r_ar r1) (r_env r)), (<[i := set_rows t (remove_row j (t_rows t))]> T). split; [|split; [done|split; [|split; [done|by eapply skel_take]]]].
    - unfold remove_entity. rewrite rm_get_step, Een. fold i j.
      rewrite (bind_Ret _ _ _ _ _ (with_arch_Ret _ _ _ _ _ _ _ Ha Es)). cbn beta iota. apply dop_Ret.
      erewrite bind_Ret; [|exact Ef]. erewrite bind_Ret; [|apply rm_er_Ret; exact Edes].
      rewrite (bind_Ret _ _ _ _ _ (mdebug_true _ _ _ eq_refl)). done.
    - eapply (reg_ok_change _ _ _ _ _ _ _ _ a'); [exact H|exact Ha|exact Ht|exact Ed'|exact Hok'|done|done|by exists F'| | |].
      + eapply linked_ext; [|exact (linked_remove _ _ _ _ _ _ _ (ro_loc _ _ _ _ _ H) Ht Hj)]. intros h'. cbn [r_er]. rewrite Hloc2.
        destruct (decide (h' = h)); [done|]. by rewrite Hloc1.
      + eapply repr_remove; [apply H|apply H|done|done].
      + cbn. apply H.
  Qed.
  Lemma remove_other_ub r T w G s h e : reg_ok be U r T w -> w !! h = Some e -> in_U U G -> gspec be G s ->
    NoDup (map ct_ty U) -> ~ s `prefix_of` types U (en_vals e) -> remove_entity c G h r = UB.
  Proof.
    intros H Ew HG Hg Hnt Hpre.
    destruct (live_entry c U _ _ _ _ _ H Ew) as (en&i&j&t&m&a&Een&<-&<-&Hrow&Ht&Hj&->&Ha&Hta). cbn [en_vals] in *.
    pose proof Hta as (_&Hok&Hin&_). pose proof (proj1 Hok) as Hd. destruct (tab_row _ _ HU _ _ _ _ _ Hta Hj) as (Hfull&_&Ety). rewrite Ety in Hpre.
    destruct (swap_remove_read (a_desc a) (t_cs t) Hd c G a (t_rows t) (e_row en) h m (r_env r) eq_refl Hok Hj) as (a1&a'&q&Ed1&Hok1&Hq&Ed'&Hcap'&Hok'&Es).
    rewrite (read_other_ub (a_desc a) (t_cs t) Hd be G s a1 _ q h m Ed1 Hok1 Hq Hg Hpre) in Es.
    - unfold remove_entity. rewrite rm_get_step, Een. unfold bind at 1, with_arch. by rewrite Ha, Es.
    - intros C C' HC HC' E. pose proof (in_U_elem _ _ _ HG HC) as [k1 H1]%elem_of_list_lookup.
      pose proof (in_U_elem _ _ _ Hin HC') as [k2 H2]%elem_of_list_lookup.
      assert (k1 = k2) as ->; [|congruence]. eapply NoDup_lookup; [exact Hnt|..]; change (map ct_ty U) with (ct_ty <$> U); rewrite list_lookup_fmap.
      + rewrite H1. done.
      + rewrite H2. cbn. by rewrite E.
  Qed.
End take_out.

(** ** Tuple types that are not valid (C50): a repeated component, or a set of
    components that hashes to the reserved id *)
Section invalid.
  Context (c : cfg) (G : group) (Hv : gd_is_valid (group_desc (big c) G) = false).
  Notation be := (big c).
  Lemma invalid_desc : group_desc be G = gd_INVALID.
  Proof. by apply group_desc_invalid. Qed.
  Lemma invalid_slot i : group_slot be G i = 0.
  Proof.
    unfold group_slot. rewrite invalid_desc. destruct G as [|C [|C' G']]; try done; unfold gd_unsorted_to_sorted; cbn [gd_u2s gd_INVALID];
      destruct (replicate _ 0 !! i) as [x|] eqn:E; try done; apply lookup_replicate in E as [-> _]; done.
  Qed.
  Lemma invalid_create vs r : create_entity c G vs r = Ret (Err vs) r.
  Proof. unfold create_entity, dropping_on_panic. by rewrite Hv. Qed.
  Lemma invalid_fuzzy row a : get_fuzzy_pointers (group_desc be G) row a = replicate 14 None.
  Proof. by rewrite invalid_desc. Qed.
  Lemma invalid_get row a : G <> [] ->
    get_fuzzy_components c G row a = (if dbg c then RdPanic else RdUB) /\ get_fuzzy_components_mut c G row a = (if dbg c then RdPanic else RdUB).
  Proof.
    intros HG. unfold get_fuzzy_components, get_fuzzy_components_mut, rdebug_assert. rewrite Hv. destruct (dbg c); [done|]. cbn [rbind].
    rewrite invalid_fuzzy. unfold pointers_as_ref_tuple, pointers_as_mut_ref_tuple. 
    assert (exists C, G !! 0 = Some C) as [C HC]. { destruct (G !! 0) eqn:E; [eauto|]. destruct HG. by destruct G. }
    assert (Hs : forall i C, deref C a (replicate 14 None) (group_slot be G i) = RdUB).
    { intros i C0. rewrite invalid_slot. done. }
    split; apply rmap_ub; try (intros [i C0] _; by rewrite Hs); exists (0, C); (split; [by apply elem_of_enum|by rewrite Hs]).
  Qed.
  Lemma invalid_next acc r st : arch_iter_next c G acc r st = Rd (None, st).
  Proof. unfold arch_iter_next. by rewrite Hv. Qed.
  Lemma invalid_collect {I} acc (item : nat -> arch -> rd I) r :
    slices_collect c G acc item r = if dbg c then RdPanic else Rd (Some []).
  Proof.
    unfold slices_collect, arch_iter_new. rewrite invalid_desc. cbn [gd_len gd_INVALID gd_arch ad_len ad_INVALID].
    destruct (dbg c); [done|]. cbn [rbind collect]. unfold slices_next. by rewrite invalid_next.
  Qed.
  Lemma invalid_exact r : find_exact c G r = Rd None.
  Proof. unfold find_exact, find_archetype. rewrite invalid_desc. done. Qed.
  (** The tuple is read as if every element were the archetype's first component. *)
  Lemma invalid_read row a : read_components_exact_unchecked be G row a = rmap (fun C => letr x := deref C a (offset_sorted_pointers row a) 0 in Rd x.2) G.
  Proof.
    unfold read_components_exact_unchecked, read_from_sorted_pointers.
    assert (H : forall l, rmap (fun '(i, c0) => letr x := deref c0 a (offset_sorted_pointers row a) (group_slot be G i) in Rd x.2) l =
      rmap (fun C => letr x := deref C a (offset_sorted_pointers row a) 0 in Rd x.2) (l.*2)).
    { intros l. induction l as [|[i C] l IH]; [done|]. cbn. rewrite invalid_slot, IH. done. }
    rewrite H. f_equal. unfold enum. change (?l.*2) with (snd <$> l). rewrite snd_zip; [done|]. by rewrite seq_length.
  Qed.
End invalid.
Section invalid_live.
  Context {Fm : family} (c : cfg) (U : list ctype) (HU : universe (big c) U).
  Notation be := (big c).
  Lemma invalid_has r T w G h e : reg_ok be U r T w -> w !! h = Some e -> gd_is_valid (group_desc be G) = false ->
    has_components c G h r = Rd true.
  Proof.
    intros H Ew Hv. destruct (live_entry c U _ _ _ _ _ H Ew) as (en&i&j&t&m&a&Een&<-&<-&Hrow&Ht&Hj&->&Ha&Hta).
    unfold has_components. rewrite Een, (arch_at_step _ _ _ Ha). cbn [rbind]. rewrite (invalid_desc c G Hv). done.
  Qed.
  Lemma invalid_get_live r T w G h e : reg_ok be U r T w -> w !! h = Some e -> gd_is_valid (group_desc be G) = false -> G <> [] ->
    get_components c G h r = (if dbg c then RdPanic else RdUB) /\ get_components_mut c G h r = (if dbg c then RdPanic else RdUB).
  Proof.
    intros H Ew Hv HG. destruct (live_entry c U _ _ _ _ _ H Ew) as (en&i&j&t&m&a&Een&<-&<-&Hrow&Ht&Hj&->&Ha&Hta).
    unfold get_components, get_components_mut. rewrite Een, (arch_at_step _ _ _ Ha). cbn [rbind].
    rewrite (invalid_desc c G Hv). cbn [ad_contains_subset gd_arch gd_INVALID ad_len ad_INVALID].
    destruct (invalid_get c G Hv (e_row en) a HG) as [-> ->]. by destruct (dbg c).
  Qed.
  Lemma invalid_remove r T w G h e : reg_ok be U r T w -> w !! h = Some e -> in_U U G -> G <> [] -> gd_is_valid (group_desc be G) = false ->
    NoDup (map ct_ty U) ->
    exists C0 v0, head (types U (en_vals e)) = Some C0 /\ en_vals e !! ct_id C0 = Some v0 /\
      ((forall C, C ∈ G -> C = C0) -> exists r' T', remove_entity c G h r = Ret (Some (map (fun _ => v0) G)) r' /\ reg_ok be U r' T' (delete h w) /\ r_env r' = r_env r /\
         skel T' = take_out h (skel T)) /\
      ((exists C, C ∈ G /\ C <> C0) -> remove_entity c G h r = UB).
  Proof.
    intros H Ew HG Hne Hv Hnt.
    destruct (live_entry c U _ _ _ _ _ H Ew) as (en&i&j&t&m&a&Een&<-&<-&Hrow&Ht&Hj&->&Ha&Hta).
    set (i := e_arch c en) in *. set (j := e_row en) in *. cbn [en_vals] in *.
    pose proof Hta as (_&Hok&Hin&_). pose proof (proj1 Hok) as Hd. pose proof (row_cap _ _ _ _ Hta) as Hcap.
    pose proof (lookup_lt_Some _ _ _ Hj) as Hjlt. destruct (tab_row _ _ HU _ _ _ _ _ Hta Hj) as (Hfull&Hfit&Ety). rewrite Ety.
    destruct (tab_facts _ _ _ _ Hta) as (_&_&_&Hl14&_).
    destruct (t_cs t) as [|C0 cs'] eqn:Ecs; [cbn in Hl14; lia|]. rewrite <- Ecs in Hd, Hok, Hin, Hfull, Hfit.
    assert (H0 : t_cs t !! 0 = Some C0) by (by rewrite Ecs).
    destruct (proj2 (Hfull (ct_id C0))) as [v0 Hv0]. { apply elem_of_ids. exists C0. split; [by eapply elem_of_list_lookup_2|done]. }
    exists C0, v0. split; [done|]. split; [done|].
    destruct (swap_remove_read (a_desc a) (t_cs t) Hd c G a (t_rows t) j h m (r_env r) eq_refl Hok Hj) as (a1&a'&q&Ed1&Hok1&Hq&Ed'&Hcap'&Hok'&Es).
    rewrite (invalid_read c G Hv) in Es.
    destruct (typed_cell_ok (a_desc a) (t_cs t) Hd _ _ _ _ _ _ _ _ Ed1 Hok1 Hq H0 Hv0) as [Et0 Er0].
    assert (Hptr := offset_ptr_ok (a_desc a) (t_cs t) Hd a1 _ q _ _ Ed1 Hok1 H0).
    assert (Hvt : v_ty v0 = ct_ty C0); [apply Hfit; [by eapply elem_of_list_lookup_2|done]|].
    split.
    - intros Hall.
      assert (rmap (fun C => letr x := deref C a1 (offset_sorted_pointers q a1) 0 in Rd x.2) G = Rd (map (fun _ => v0) G)) as Er.
      { clear - Hall Hptr Et0. induction G as [|C G' IH]; [done|]. cbn [rmap map].
        assert (C = C0) as -> by (apply Hall; by left).
        unfold deref at 1. rewrite Hptr, Et0. cbn [rbind snd]. rewrite IH; [done|]. intros; apply Hall; by right. }
      rewrite Er in Es.
      destruct (ro_er _ _ _ _ _ H) as [F Her].
      set (r1 := put_arch r i a' (r_env r)).
      assert (Ha1 : ar_archs (r_ar r1) !! i = Some a') by (by eapply put_arch_at).
      destruct (fixup_ok c entity_at r1 T i j h m t a' en F) as (rg&Ef&Hinv1&Hlen1&Hloc1); [apply H|done|done|done|done| |done|lia|].
      { intros hl Hmv. unfold moved in Hmv. destruct (is_last j (length (t_rows t))) eqn:El; [done|].
        pose proof (removed_row_at _ _ _ Hj El) as Hr. destruct (t_rows t !! (length (t_rows t) - 1)) as [[hl' ml]|]; [|done].
        cbn in Hmv. injection Hmv as ->. by eapply entity_at_ok. }
      assert (Hloch : loc_of be rg h = Some (i, j)).
      { rewrite Hloc1. assert (loc_of be (r_er r) h = Some (i, j)) as E by (apply (ro_loc _ _ _ _ _ H); eauto). cbn. rewrite E. by case_decide. }
      destruct (loc_destroy be rg F h _ Hinv1 Hloch) as (rg'&F'&Edes&Hinv2&_&Hloc2).
      exists (Reg rg' (r_ar r1) (r_env r)), (<[i := set_rows t (remove_row j (t_rows t))]> T). split; [|split; [|split; [done|by eapply skel_take]]].
      + unfold remove_entity. rewrite rm_get_step, Een. fold i j.
        rewrite (bind_Ret _ _ _ _ _ (with_arch_Ret _ _ _ _ _ _ _ Ha Es)). cbn beta iota. apply dop_Ret.
        erewrite bind_Ret; [|exact Ef]. erewrite bind_Ret; [|apply rm_er_Ret; exact Edes].
        rewrite (bind_Ret _ _ _ _ _ (mdebug_true _ _ _ eq_refl)). done.
      + eapply (reg_ok_change _ _ _ _ _ _ _ _ a'); [exact H|exact Ha|exact Ht|exact Ed'|exact Hok'|done|done|by exists F'| | |].
        * eapply linked_ext; [|exact (linked_remove _ _ _ _ _ _ _ (ro_loc _ _ _ _ _ H) Ht Hj)]. intros h'. cbn [r_er]. rewrite Hloc2.
          destruct (decide (h' = h)); [done|]. by rewrite Hloc1.
        * eapply repr_remove; [apply H|apply H|done|done].
        * cbn. apply H.
    - intros (C&HC&HneC).
      assert (Hcell : forall C', C' ∈ G -> deref C' a1 (offset_sorted_pointers q a1) 0 <> RdPanic /\ (C' <> C0 -> deref C' a1 (offset_sorted_pointers q a1) 0 = RdUB)).
      { intros C' HC'. unfold deref. rewrite Hptr. unfold typed_cell. rewrite Er0. cbn [rbind]. split.
        - destruct (a_comps a1 !! 0); [|done]. by destruct (_ && _).
        - intros Hne'. assert (Hty : (v_ty v0 =? ct_ty C')%N = false).
          { apply N.eqb_neq. intros E. apply Hne'. rewrite Hvt in E.
            pose proof (in_U_elem _ _ _ HG HC') as [k1 H1]%elem_of_list_lookup.
            pose proof (in_U_elem _ _ _ Hin (elem_of_list_lookup_2 _ _ _ H0)) as [k2 H2]%elem_of_list_lookup.
            assert (k1 = k2) as ->; [|congruence]. eapply NoDup_lookup; [exact Hnt|..]; change (map ct_ty U) with (ct_ty <$> U); rewrite list_lookup_fmap.
            + rewrite H1. done.
            + rewrite H2. cbn. by rewrite E. }
          rewrite Hty. cbn [andb]. by destruct (a_comps a1 !! 0). }
      assert (rmap (fun C => letr x := deref C a1 (offset_sorted_pointers q a1) 0 in Rd x.2) G = RdUB) as Er.
      { apply rmap_ub.
        - intros C' HC'. destruct (Hcell C' HC') as [Hn _]. by destruct (deref C' a1 _ 0).
        - exists C. split; [done|]. destruct (Hcell C HC) as [_ ->]; done. }
      rewrite Er in Es. unfold remove_entity. rewrite rm_get_step, Een. unfold bind at 1, with_arch. fold i j. by rewrite Ha, Es.
  Qed.
End invalid_live.
