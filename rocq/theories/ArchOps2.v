(** Proofs about archetype rows, continued: swapping, removing, moving between
    archetypes, reading. *)
From Verif Require Import ArchModel SpecTrace SearchProofs DescrProofs MonadProofs ArchProofs ArchOps SpecBase SpecWorld.
Local Open Scope nat_scope.

(** Rewrite with a fact about [a_ptrs a !! i], whose type may be displayed either way. *)
Ltac rewrite_ptr H :=
  try change (@lookup nat (option (ArchModel.block value)) (list (ptr value)) (@list_lookup (ptr value)))
    with (@lookup nat (ptr value) (list (ptr value)) (@list_lookup (ptr value))); rewrite H.
(** ** Swapping two elements *)
Definition swp (f s r : nat) : nat := if decide (r = f) then s else if decide (r = s) then f else r.
Definition swapl {A} (f s : nat) (l : list A) : list A :=
  match l !! f, l !! s with Some x, Some y => <[s := x]> (<[f := y]> l) | _, _ => l end.
Lemma swapl_length {A} f s (l : list A) : length (swapl f s l) = length l.
Proof. unfold swapl. destruct (l !! f), (l !! s); by rewrite ?insert_length. Qed.
Lemma swapl_lookup {A} f s (l : list A) r : f < length l -> s < length l -> swapl f s l !! r = l !! swp f s r.
Proof.
  intros Hf Hs. unfold swapl, swp.
  destruct (lookup_lt_is_Some_2 l f Hf) as [x Hx]. destruct (lookup_lt_is_Some_2 l s Hs) as [y Hy]. rewrite Hx, Hy.
  destruct (decide (r = f)) as [->|Hrf].
  - destruct (decide (f = s)) as [->|Hfs].
    + rewrite list_lookup_insert by (by rewrite insert_length). congruence.
    + rewrite list_lookup_insert_ne by done. by rewrite list_lookup_insert.
  - destruct (decide (r = s)) as [->|Hrs].
    + rewrite list_lookup_insert by (by rewrite insert_length). done.
    + by rewrite !list_lookup_insert_ne by done.
Qed.
Lemma swapl_Forall {A} (P : A -> Prop) f s l : f < length l -> s < length l -> Forall P l -> Forall P (swapl f s l).
Proof.
  intros Hf Hs HF. apply Forall_lookup. intros r x Hr. rewrite swapl_lookup in Hr by done.
  exact (Forall_lookup_1 _ _ _ _ HF Hr).
Qed.
Lemma swapl_id {A} f (l : list A) : swapl f f l = l.
Proof.
  unfold swapl. destruct (l !! f) as [x|] eqn:E; [|done].
  rewrite list_insert_insert. by apply list_insert_id.
Qed.
Lemma swapl_Some {A} f s (l : list A) x y : l !! f = Some x -> l !! s = Some y -> swapl f s l = <[s := x]> (<[f := y]> l).
Proof. intros Hf Hs. unfold swapl. by rewrite Hf, Hs. Qed.
(** Removing a row by moving the last one into its place. *)
Definition remove_row {A} (r : nat) (l : list A) : list A := take (length l - 1) (swapl r (length l - 1) l).
Lemma remove_row_length {A} r (l : list A) : length (remove_row r l) = length l - 1.
Proof. unfold remove_row. rewrite take_length, swapl_length. lia. Qed.
Lemma remove_row_lookup {A} r (l : list A) j : r < length l ->
  remove_row r l !! j = if decide (j < length l - 1) then l !! (if decide (j = r) then length l - 1 else j) else None.
Proof.
  intros Hr. unfold remove_row. destruct (decide (j < length l - 1)) as [Hj|Hj].
  - rewrite lookup_take by done. rewrite swapl_lookup by lia. unfold swp.
    destruct (decide (j = r)); [done|]. by rewrite decide_False by lia.
  - apply lookup_take_ge. lia.
Qed.
Lemma remove_row_last {A} (l : list A) x : remove_row (length l) (l ++ [x]) = l.
Proof.
  unfold remove_row. rewrite app_length. cbn [length]. replace (length l + 1 - 1) with (length l) by lia.
  rewrite swapl_id. apply take_app.
Qed.
Lemma remove_row_mid {A} (l1 l2 : list A) x y : remove_row (length l1) (l1 ++ x :: l2 ++ [y]) = l1 ++ y :: l2.
Proof.
  unfold remove_row. rewrite !app_length. cbn [length]. rewrite app_length. cbn [length].
  set (n := length l1 + S (length l2 + 1) - 1).
  assert (Hn : n = length l1 + S (length l2)) by (unfold n; lia).
  assert (Hx : (l1 ++ x :: l2 ++ [y]) !! length l1 = Some x) by (by apply list_lookup_middle).
  assert (Hy : (l1 ++ x :: l2 ++ [y]) !! n = Some y).
  { rewrite lookup_app_r by lia. replace (n - length l1) with (S (length l2)) by lia. cbn. by apply list_lookup_middle. }
  rewrite (swapl_Some _ _ _ _ _ Hx Hy). rewrite take_insert by lia.
  rewrite (insert_app_r_alt l1) by lia. rewrite Nat.sub_diag. cbn [insert list_insert].
  rewrite take_app_ge by lia. f_equal. replace (n - length l1) with (S (length l2)) by lia. cbn [firstn].
  f_equal. apply take_app.
Qed.
Lemma remove_row_perm {A} r (l : list A) x : l !! r = Some x -> l ≡ₚ x :: remove_row r l.
Proof.
  intros Hx. pose proof (lookup_lt_Some _ _ _ Hx) as Hr.
  rewrite <- (take_drop_middle l r x Hx). set (l1 := take r l).
  assert (El : r = length l1) by (unfold l1; rewrite take_length; lia). rewrite El.
  generalize (drop (S (length l1)) l). intros l2. clear.
  destruct l2 as [|y l2 _] using rev_ind.
  - rewrite remove_row_last. by rewrite Permutation_app_comm.
  - rewrite remove_row_mid. rewrite <- Permutation_middle. constructor.
    by rewrite <- Permutation_middle, (Permutation_app_comm l2).
Qed.

Section ops.
  Context {K : caps}.
  Context (d : adesc) (cs : list ctype) (Hd : desc_ok d cs).

  Lemma swapl_shape cap C H f s : shape cs cap C H -> shape cs cap (map (swapl f s) C) (swapl f s H).
  Proof.
    intros (Hl&HF&HH). split; [by rewrite map_length|]. split; [|by rewrite swapl_length].
    apply Forall_map. eapply Forall_impl; [exact HF|]. intros col E. by rewrite swapl_length.
  Qed.
  Lemma swapl_stored cap C H rows f s : shape cs cap C H -> f < length rows -> s < length rows -> length rows <= cap ->
    stored cs C H rows -> stored cs (map (swapl f s) C) (swapl f s H) (swapl f s rows).
  Proof.
    intros Hs Hf Hsl Hle HS r h m Hr. rewrite swapl_lookup in Hr by done. destruct (HS _ _ _ Hr) as [HH HR].
    pose proof Hs as (_&_&HHl). split; [rewrite swapl_lookup by lia; done|].
    intros k c Hc. destruct (HR k c Hc) as (col&Hk&Hrr). exists (swapl f s col). split.
    - change (map (swapl f s) C) with (swapl f s <$> C). by rewrite list_lookup_fmap, Hk.
    - pose proof (shape_col _ _ _ _ _ _ Hs Hk). rewrite swapl_lookup by lia. done.
  Qed.
  Lemma swap_entities_mk cap n C H f s e :
    shape cs cap C H -> f < n -> s < n -> n <= cap -> f <> s ->
    swap_entities f s (mk d cs cap n C H, e) = Ret tt (mk d cs cap n (map (swapl f s) C) (swapl f s H), e).
  Proof.
    intros Hs Hf Hsl Hn Hne. pose proof Hs as (HlC&HFC&HHl).
    unfold swap_entities. unfold bind at 1, am_get at 1. cbn [fst]. rewrite (mk_comps d cs Hd).
    erewrite bind_Ret; [|apply (mfor_columns d cs) with (C' := map (swapl f s) C)].
    - unfold swap_assoc. cbn [fst snd]. rewrite entity_cells_mk by lia.
      destruct (lookup_lt_is_Some_2 H f) as [x Hx]; [lia|]. destruct (lookup_lt_is_Some_2 H s) as [y Hy]; [lia|].
      rewrite !lookup_take by done. rewrite Hx, Hy. rewrite (swapl_Some _ _ _ _ _ Hx Hy). done.
    - by rewrite map_length.
    - done.
    - by rewrite map_length.
    - intros k x col col' D Hx Hk Hk' HD HDk.
      change (map (swapl f s) C) with (swapl f s <$> C) in Hk'. rewrite list_lookup_fmap, Hk in Hk'. injection Hk' as <-.
      pose proof (shape_col _ _ _ _ _ _ Hs Hk) as Hcl.
      destruct (lookup_lt_is_Some_2 col f) as [u Hu]; [lia|]. destruct (lookup_lt_is_Some_2 col s) as [w Hw]; [lia|].
      unfold swap_cells. rewrite (proj2 (Nat.eqb_neq _ _) Hne).
      erewrite bind_Ret; [|apply am_rd_Rd; by eapply raw_cell_mk].
      erewrite bind_Ret; [|apply am_rd_Rd; by eapply raw_cell_mk].
      erewrite bind_Ret; [|apply (write_cell_mk d cs); [done|exact HDk|lia]].
      rewrite (write_cell_mk d cs cap n (<[k := <[f := w]> col]> D) H k s (<[f := w]> col)).
      + rewrite list_insert_insert. by rewrite (swapl_Some _ _ _ _ _ Hu Hw).
      + by rewrite insert_length.
      + apply list_lookup_insert. rewrite HD, <- HlC. by eapply lookup_lt_Some.
      + rewrite insert_length. lia.
  Qed.
  Lemma swap_ok a rows f s e :
    a_desc a = d -> arch_ok a cs rows -> f < length rows -> s < length rows -> f <> s ->
    exists a', swap_entities f s (a, e) = Ret tt (a', e) /\ a_desc a' = d /\ a_cap a' = a_cap a /\ arch_ok a' cs (swapl f s rows).
  Proof.
    intros Ed (_&Hcap&Hle&HFr&C&H&Ea&Hs&HS) Hf Hsl Hne. rewrite Ed in Ea.
    exists (mk d cs (a_cap a) (length rows) (map (swapl f s) C) (swapl f s H)). split; [rewrite Ea at 1; by apply swap_entities_mk|].
    split; [done|]. split; [done|]. rewrite <- (swapl_length f s rows) at 1.
    apply arch_ok_intro; [done|done|by rewrite swapl_length|by apply swapl_Forall|by apply swapl_shape|by eapply swapl_stored].
  Qed.

  (** *** Dropping one row *)
  Lemma drop_entity_ok a rows r h m e L :
    a_desc a = d -> arch_ok a cs rows -> rows !! r = Some (h, m) -> calm m -> ev_oracle e = [] ->
    exists e', drop_entity r (a, e) = Ret tt (a, e') /\ emits e e' (row_values cs m) L L.
  Proof.
    intros Ed (_&Hcap&Hle&HFr&C&H&Ea&Hs&HS) Hr Hcalm Ho. rewrite Ed in Ea.
    destruct (HS _ _ _ Hr) as [_ HR]. pose proof (Forall_lookup_1 _ _ _ _ HFr Hr) as Hrow. pose proof Hs as (HlC&_&_).
    unfold drop_entity. unfold bind at 1, am_get at 1. cbn [fst].
    destruct (mfor_enum_inv (fun i s => exists e', s = (a, e') /\ emits e e' (row_values (take i cs) m) L L)
       (a_comps a) (fun '(i, d) => run_drop_handler d i r 1) (a, e)) as (s'&E&e'&->&Hem).
    - exists e. split; [done|]. by apply emits_refl.
    - intros i x s Hx (e1&->&Hem). rewrite Ea, (mk_comps d cs Hd) in Hx.
      change (map cdesc_of cs) with (cdesc_of <$> cs) in Hx. rewrite list_lookup_fmap in Hx.
      destruct (cs !! i) as [c|] eqn:Hc; [|done]. injection Hx as <-.
      destruct (row_ok_get _ _ _ _ Hrow Hc) as (v&Hv&Hty). cbn [snd] in Hv. pose proof (Hcalm _ _ Hv) as Hb.
      destruct (HR i c Hc) as (col&Hk&Hcell). rewrite Hv in Hcell.
      exists (a, emitted e1 [EvDrop v]). split.
      + unfold run_drop_handler. cbn [cd_drop cdesc_of]. unfold bind at 1, am_get at 1. cbn [fst].
        assert (Ep : a_ptrs a !! i = Some (colb (a_cap a) c col)) by (rewrite Ea; by apply colbs_lookup).
        rewrite_ptr Ep. cbn [colb seq mfor].
        unfold bind at 1. unfold drop_cell.
        erewrite bind_Ret; [|apply am_rd_Rd; rewrite Ea; eapply typed_cell_mk; eauto].
        unfold bind at 1. cbn. rewrite Hb. done.
      + exists (emitted e1 [EvDrop v]). split; [done|]. rewrite (take_S_r _ _ _ Hc).
        unfold row_values. rewrite omap_app. cbn [omap list_omap]. rewrite Hv.
        eapply emits_trans; [exact Hem|]. apply emits_drop. by eapply emits_oracle.
    - exists e'. split; [exact E|]. rewrite Ea, (mk_comps d cs Hd), map_length, take_ge in Hem by lia. done.
  Qed.

  (** *** Shortening *)
  Lemma shorten_ok a rows n : a_desc a = d -> arch_ok a cs rows -> n <= length rows -> arch_ok (set_count a n) cs (take n rows).
  Proof.
    intros Ed (_&Hcap&Hle&HFr&C&H&Ea&Hs&HS) Hn. rewrite Ed in Ea. rewrite Ea.
    assert (En : n = length (take n rows)) by (rewrite take_length; lia).
    change (set_count (mk d cs (a_cap a) (length rows) C H) n) with (mk d cs (a_cap a) n C H).
    rewrite En at 1. apply arch_ok_intro; [done|done|lia|by apply Forall_take|done|].
    intros r h m Hr. apply HS. by eapply lookup_take_Some in Hr as [? _].
  Qed.
  Lemma decrement_ok c a rows e : a_desc a = d -> arch_ok a cs rows -> 0 < length rows ->
    exists a', decrement_len_unchecked c (a, e) = Ret tt (a', e) /\ a_desc a' = d /\ a_cap a' = a_cap a /\
      arch_ok a' cs (take (length rows - 1) rows).
  Proof.
    intros Ed Hok Hn. pose proof Hok as (_&_&_&_&C&H&Ea&_).
    exists (set_count a (length rows - 1)). split; [|split; [done|split; [done|]]].
    - unfold decrement_len_unchecked. unfold bind, am_get. cbn [fst].
      assert (a_count a = length rows) as -> by (by rewrite Ea).
      destruct (length rows); [lia|]. unfold am_upd. cbn [fst snd]. by rewrite Nat.sub_succ, Nat.sub_0_r.
    - apply shorten_ok; [done|done|lia].
  Qed.
  Lemma count_ok a rows : arch_ok a cs rows -> a_count a = length rows.
  Proof. intros (_&_&_&_&C&H&Ea&_). by rewrite Ea. Qed.
  Lemma last_row_ok c a rows : arch_ok a cs rows -> 0 < length rows -> last_row c a = Rd (length rows - 1).
  Proof.
    intros Hok Hn. unfold last_row. rewrite (count_ok _ _ Hok). destruct (length rows); [lia|].
    by rewrite Nat.sub_succ, Nat.sub_0_r.
  Qed.

  Definition is_last (r n : nat) : bool := r =? n - 1.
  Lemma swap_drop_ok c a rows r h m e :
    a_desc a = d -> arch_ok a cs rows -> rows !! r = Some (h, m) -> calm m -> ev_oracle e = [] ->
    exists a' e', swap_drop_unchecked c r (a, e) = Ret (negb (is_last r (length rows))) (a', e') /\
      a_desc a' = d /\ a_cap a' = a_cap a /\ arch_ok a' cs (remove_row r rows) /\
      forall L, emits e e' (row_values cs m) L L.
  Proof.
    intros Ed Hok Hr Hcalm Ho. pose proof (lookup_lt_Some _ _ _ Hr) as Hlt.
    unfold swap_drop_unchecked. unfold bind at 1, am_get at 1. cbn [fst].
    erewrite (bind_Ret (mdebug_assert _ _)); [|apply mdebug_true; unfold a_len; rewrite (count_ok _ _ Hok); by apply Nat.ltb_lt].
    erewrite bind_Ret; [|apply lift_Rd; apply last_row_ok; [done|lia]].
    unfold is_last. destruct (r =? length rows - 1) eqn:El.
    - apply Nat.eqb_eq in El. destruct (drop_entity_ok a rows r h m e [] Ed Hok Hr Hcalm Ho) as (e'&E'&Hem).
      rewrite (bind_Ret _ _ _ _ _ E').
      destruct (decrement_ok c a rows e' Ed Hok ltac:(lia)) as (a'&Ea'&Hd'&Hc'&Hok').
      rewrite (bind_Ret _ _ _ _ _ Ea'). exists a', e'. split; [done|]. split; [done|]. split; [done|]. split.
      + unfold remove_row. rewrite El, swapl_id. done.
      + intros L. apply (emits_frame _ _ _ _ _ L) in Hem. by rewrite app_nil_r in Hem.
    - apply Nat.eqb_neq in El.
      destruct (swap_ok a rows r (length rows - 1) e Ed Hok Hlt ltac:(lia) El) as (a1&E1&Ed1&Ec1&Hok1).
      rewrite (bind_Ret _ _ _ _ _ E1).
      assert (Hr1 : swapl r (length rows - 1) rows !! (length rows - 1) = Some (h, m)).
      { rewrite swapl_lookup by lia. unfold swp. rewrite decide_False by lia. by rewrite decide_True. }
      destruct (drop_entity_ok a1 _ _ h m e [] Ed1 Hok1 Hr1 Hcalm Ho) as (e'&E'&Hem).
      rewrite (bind_Ret _ _ _ _ _ E').
      destruct (decrement_ok c a1 _ e' Ed1 Hok1 ltac:(rewrite swapl_length; lia)) as (a'&Ea'&Hd'&Hc'&Hok').
      rewrite (bind_Ret _ _ _ _ _ Ea'). exists a', e'. split; [done|]. split; [done|]. split; [congruence|].
      rewrite swapl_length in Hok'. split; [done|].
      intros L. apply (emits_frame _ _ _ _ _ L) in Hem. by rewrite app_nil_r in Hem.
  Qed.
  Lemma swap_to_last_ok c a rows r e :
    a_desc a = d -> arch_ok a cs rows -> r < length rows ->
    exists a', swap_to_last_unchecked c r (a, e) = Ret (negb (is_last r (length rows))) (a', e) /\
      a_desc a' = d /\ a_cap a' = a_cap a /\ arch_ok a' cs (swapl r (length rows - 1) rows).
  Proof.
    intros Ed Hok Hlt.
    unfold swap_to_last_unchecked. unfold bind at 1, am_get at 1. cbn [fst].
    erewrite (bind_Ret (mdebug_assert _ _)); [|apply mdebug_true; unfold a_len; rewrite (count_ok _ _ Hok); by apply Nat.ltb_lt].
    erewrite bind_Ret; [|apply lift_Rd; apply last_row_ok; [done|lia]].
    unfold is_last. destruct (r =? length rows - 1) eqn:El.
    - apply Nat.eqb_eq in El. exists a. split; [done|]. split; [done|]. split; [done|].
      by rewrite El, swapl_id.
    - apply Nat.eqb_neq in El.
      destruct (swap_ok a rows r (length rows - 1) e Ed Hok Hlt ltac:(lia) El) as (a1&E1&Ed1&Ec1&Hok1).
      rewrite (bind_Ret _ _ _ _ _ E1). by exists a1.
  Qed.

  (** *** Reading *)
  Lemma entity_at_ok a rows r h m : a_desc a = d -> arch_ok a cs rows -> rows !! r = Some (h, m) ->
    entity_at a r = Rd h /\ entity_at_unchecked a r = Rd h.
  Proof.
    intros Ed (_&Hcap&Hle&HFr&C&H&Ea&Hs&HS) Hr. rewrite Ed in Ea. rewrite Ea. destruct (HS _ _ _ Hr) as [HH _].
    pose proof Hs as (_&_&HHl). apply entity_at_mk; [lia|by eapply lookup_lt_Some|done].
  Qed.
  Lemma entities_ok a rows : a_desc a = d -> arch_ok a cs rows -> entities a = Rd (map fst rows).
  Proof.
    intros Ed (_&Hcap&Hle&HFr&C&H&Ea&Hs&HS). rewrite Ed in Ea. rewrite Ea. pose proof Hs as (_&_&HHl).
    apply entities_mk; [lia|by rewrite map_length|]. intros r h Hr.
    change (map fst rows) with (fst <$> rows) in Hr. rewrite list_lookup_fmap in Hr.
    destruct (rows !! r) as [[h' m]|] eqn:E; [|done]. injection Hr as <-. by apply (HS _ _ _ E).
  Qed.
  Lemma typed_cell_ok a rows r h m k c v : a_desc a = d -> arch_ok a cs rows -> rows !! r = Some (h, m) ->
    cs !! k = Some c -> m !! ct_id c = Some v -> typed_cell c a k r = Rd v /\ raw_cell a k r = Rd (Some v).
  Proof.
    intros Ed (_&Hcap&Hle&HFr&C&H&Ea&Hs&HS) Hr Hc Hv. rewrite Ed in Ea. rewrite Ea. destruct (HS _ _ _ Hr) as [_ HR].
    pose proof (Forall_lookup_1 _ _ _ _ HFr Hr) as [Hfull Hfit]. pose proof Hs as (HlC&_&_).
    destruct (HR k c Hc) as (col&Hk&Hcell). rewrite Hv in Hcell. split; [|by eapply raw_cell_mk].
    eapply typed_cell_mk; eauto. apply Hfit; [by eapply elem_of_list_lookup_2|done].
  Qed.
  Lemma get_component_ok a rows r h m c v : a_desc a = d -> arch_ok a cs rows -> rows !! r = Some (h, m) ->
    c ∈ cs -> m !! ct_id c = Some v ->
    get_component_unchecked c r a = Rd v /\ read_component_unchecked c r a = Rd v /\
    get_component_unchecked_mut c r a = Rd (id_pos (ct_id c) (ids_of cs), r) /\ cs !! id_pos (ct_id c) (ids_of cs) = Some c.
  Proof.
    intros Ed Hok Hr [k Hc]%elem_of_list_lookup Hv.
    destruct (typed_cell_ok _ _ _ _ _ _ _ _ Ed Hok Hr Hc Hv) as [Ht _].
    assert (Hpos : id_pos (ct_id c) (ids_of cs) = k).
    { pose proof (desc_strict _ _ Hd) as Hst. pose proof (ids_of_lookup _ _ _ Hc) as Hi.
      eapply NoDup_lookup; [by apply strict_NoDup|apply id_pos_lookup; by eapply elem_of_list_lookup_2|done]. }
    destruct Hok as (_&_&_&_&C&H&Ea&_). rewrite Ed in Ea.
    assert (Hb : binary_search (ids (a_comps a)) (ct_id c) = inl k) by (rewrite Ea; by apply search_col).
    unfold get_component_unchecked, read_component_unchecked, get_component_unchecked_mut.
    rewrite Hb, Ht. cbn [rbind]. by rewrite Hpos.
  Qed.
  Lemma pos_in_cs c k : cs !! k = Some c -> id_pos (ct_id c) (ids_of cs) = k.
  Proof.
    intros Hc. pose proof (desc_strict _ _ Hd) as Hst. pose proof (ids_of_lookup _ _ _ Hc) as Hi.
    eapply NoDup_lookup; [by apply strict_NoDup|apply id_pos_lookup; by eapply elem_of_list_lookup_2|done].
  Qed.

  (** *** Reading a whole row as a tuple *)
  Lemma offset_ptr_ok a rows r k c : a_desc a = d -> arch_ok a cs rows -> cs !! k = Some c ->
    offset_sorted_pointers r a !! k = Some (Some (k, r)).
  Proof.
    intros Ed (_&Hcap&Hle&HFr&C&H&Ea&Hs&HS) Hc. rewrite Ed in Ea. rewrite Ea. pose proof Hs as (HlC&_&_).
    unfold offset_sorted_pointers. apply lookup_app_l_Some. change (map ?f (enum ?l)) with (f <$> enum l).
    rewrite list_lookup_fmap. erewrite enum_lookup; [|by apply (mk_comps_lookup d cs Hd)]. cbn [fmap option_fmap option_map].
    cbn [a_ptrs mk]. destruct (lookup_lt_is_Some_2 C k) as [col Hcol]. { rewrite HlC. by eapply lookup_lt_Some. }
    by rewrite (colbs_lookup _ _ _ _ _ _ Hc Hcol).
  Qed.
  Lemma read_exact_ok be G a rows r h m vs : a_desc a = d -> arch_ok a cs rows -> rows !! r = Some (h, m) ->
    gspec be G cs -> tuple_of m G vs -> read_components_exact_unchecked be G r a = Rd vs.
  Proof.
    intros Ed Hok Hr Hg Ht. unfold read_components_exact_unchecked, read_from_sorted_pointers.
    apply rmap_enum; [by eapply Forall2_length|]. intros i c v Hi Hv.
    pose proof (gs_slot _ _ _ Hg _ _ Hi) as Hk. unfold deref. rewrite (offset_ptr_ok _ _ _ _ _ Ed Hok Hk).
    assert (Hm : m !! ct_id c = Some v) by (by eapply Forall2_lookup_lr in Ht).
    destruct (typed_cell_ok _ _ _ _ _ _ _ _ Ed Hok Hr Hk Hm) as [-> _]. done.
  Qed.
  Lemma swap_remove_ok c G a rows r h m vs e :
    a_desc a = d -> arch_ok a cs rows -> rows !! r = Some (h, m) -> gspec (big c) G cs -> tuple_of m G vs ->
    exists a', swap_remove_unchecked c G r (a, e) = Ret (vs, negb (is_last r (length rows))) (a', e) /\
      a_desc a' = d /\ a_cap a' = a_cap a /\ arch_ok a' cs (remove_row r rows).
  Proof.
    intros Ed Hok Hr Hg Ht. pose proof (lookup_lt_Some _ _ _ Hr) as Hlt.
    unfold swap_remove_unchecked. unfold bind at 1, am_get at 1. cbn [fst].
    erewrite (bind_Ret (mdebug_assert _ _)); [|apply mdebug_true; unfold a_len; rewrite (count_ok _ _ Hok); by apply Nat.ltb_lt].
    erewrite bind_Ret; [|apply lift_Rd; apply last_row_ok; [done|lia]].
    unfold is_last. destruct (r =? length rows - 1) eqn:El.
    - apply Nat.eqb_eq in El.
      erewrite bind_Ret; [|apply am_rd_Rd; by eapply read_exact_ok].
      destruct (decrement_ok c a rows e Ed Hok ltac:(lia)) as (a'&Ea'&Hd'&Hc'&Hok').
      rewrite (bind_Ret _ _ _ _ _ Ea'). exists a'. split; [done|]. split; [done|]. split; [done|].
      unfold remove_row. rewrite El, swapl_id. done.
    - apply Nat.eqb_neq in El.
      destruct (swap_ok a rows r (length rows - 1) e Ed Hok Hlt ltac:(lia) El) as (a1&E1&Ed1&Ec1&Hok1).
      rewrite (bind_Ret _ _ _ _ _ E1).
      assert (Hr1 : swapl r (length rows - 1) rows !! (length rows - 1) = Some (h, m)).
      { rewrite swapl_lookup by lia. unfold swp. rewrite decide_False by lia. by rewrite decide_True. }
      erewrite bind_Ret; [|apply am_rd_Rd; by eapply read_exact_ok].
      destruct (decrement_ok c a1 _ e Ed1 Hok1 ltac:(rewrite swapl_length; lia)) as (a'&Ea'&Hd'&Hc'&Hok').
      rewrite (bind_Ret _ _ _ _ _ Ea'). exists a'. split; [done|]. split; [done|]. split; [congruence|].
      rewrite swapl_length in Hok'. done.
  Qed.
End ops.
