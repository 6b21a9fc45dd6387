(** Proofs for C53: reading through the pointers of one archetype. *)
From Verif Require Import RegModel ByteModel SearchProofs MonadProofs DescrProofs ArchProofs ArchOps Bytes SpecBytes SpecBase SpecWorld.
Local Open Scope nat_scope.

Lemma rmap_inv {A B} (f : A -> rd B) l ys : rmap f l = Rd ys -> Forall2 (fun x y => f x = Rd y) l ys.
Proof.
  revert ys. induction l as [|x l IH]; intros ys E; cbn [rmap] in E; [by injection E as <-|].
  destruct (f x) as [y| |] eqn:Ey; cbn [rbind] in E; [|done..]. destruct (rmap f l) as [ys'| |]; cbn [rbind] in E; [|done..].
  injection E as <-. constructor; [done|by apply IH].
Qed.
Lemma rmap_enum_inv {A B} (f : nat * A -> rd B) l ys : rmap f (enum l) = Rd ys ->
  length ys = length l /\ forall i x, l !! i = Some x -> exists y, ys !! i = Some y /\ f (i, x) = Rd y.
Proof.
  intros E%rmap_inv. split; [by rewrite <- (Forall2_length _ _ _ E), enum_length|].
  intros i x Hi. apply enum_lookup in Hi. destruct (Forall2_lookup_l _ _ _ _ _ E Hi) as (y&?&?). by exists y.
Qed.
Lemma rmap_ex {A B} (f : A -> rd B) (P : A -> B -> Prop) l :
  (forall x, x ∈ l -> exists y, f x = Rd y /\ P x y) -> exists ys, rmap f l = Rd ys /\ Forall2 P l ys.
Proof.
  induction l as [|x l IH]; intros H; [by exists []|]. destruct (H x) as (y&Ey&Py); [apply elem_of_list_here|].
  destruct IH as (ys&E&HF); [intros z Hz; apply H; by apply elem_of_list_further|]. exists (y :: ys). cbn [rmap].
  rewrite Ey. cbn [rbind]. rewrite E. split; [done|by constructor].
Qed.
Lemma rmap_enum_ex {A B} (f : nat * A -> rd B) (P : nat -> A -> B -> Prop) l :
  (forall i x, l !! i = Some x -> exists y, f (i, x) = Rd y /\ P i x y) ->
  exists ys, rmap f (enum l) = Rd ys /\ length ys = length l /\ forall i x, l !! i = Some x -> exists y, ys !! i = Some y /\ P i x y.
Proof.
  intros H. destruct (rmap_ex f (fun z y => P z.1 z.2 y) (enum l)) as (ys&E&HF).
  - intros z Hz. apply elem_of_list_lookup in Hz as (i&Hi). apply enum_lookup_inv in Hi as (x&->&Hi). by apply H.
  - exists ys. split; [done|]. split; [by rewrite <- (Forall2_length _ _ _ HF), enum_length|].
    intros i x Hi. apply enum_lookup in Hi. destruct (Forall2_lookup_l _ _ _ _ _ HF Hi) as (y&?&?). by exists y.
Qed.
Lemma slot_onto be G s j C : gspec be G s -> s !! j = Some C -> exists i, G !! i = Some C /\ group_slot be G i = j.
Proof.
  intros Hg Hj. assert (HC : C ∈ G) by (rewrite <- (gs_perm _ _ _ Hg); by eapply elem_of_list_lookup_2).
  apply elem_of_list_lookup in HC as (i&Hi). exists i. split; [done|]. pose proof (gs_slot _ _ _ Hg _ _ Hi) as Hs.
  apply (strict_lookup_inj _ _ _ (ct_id C) (gs_strict _ _ _ Hg)).
  - change (map ct_id s) with (ct_id <$> s). by rewrite list_lookup_fmap, Hs.
  - change (map ct_id s) with (ct_id <$> s). by rewrite list_lookup_fmap, Hj.
Qed.
Lemma find_from_found ds pos id k : find_from ds pos id = Some k -> exists d, pos <= k /\ ds !! (k - pos) = Some d /\ cd_id d = id.
Proof.
  revert pos. induction ds as [|d ds IH]; intros pos E; cbn [find_from] in E; [done|].
  destruct (N.eqb_spec (cd_id d) id) as [Hd|Hd].
  - injection E as <-. exists d. rewrite Nat.sub_diag. auto.
  - destruct (IH _ E) as (d'&Hle&Hl&Hi). exists d'. split; [lia|]. split; [|done].
    replace (k - pos) with (S (k - S pos)) by lia. done.
Qed.

Lemma map_lookup_inv {A B} (f : A -> B) l i y : map f l !! i = Some y -> exists x, l !! i = Some x /\ y = f x.
Proof. intros H. apply list_lookup_fmap_inv in H as (x&->&Hx). by exists x. Qed.

(** The bytes a reference covers, for a cell of the archetype. *)
Definition lrel (a : arch) (A : barch) (l : nat * nat) (bl : bloc) : Prop :=
  exists d id, a_comps a !! l.1 = Some d /\ b_ptrs A !! l.1 = Some (Some (id, 0)) /\ bl = (Some (id, dsize d * l.2), dsize d).

Section read.
Context {U : list ctype} (Hst : strict (ids_of U)) (Hsm : Forall small U) (Hla : laid_out U).
Notation arel := (@Bytes.arel U).
Lemma U_inj C C' : C ∈ U -> C' ∈ U -> ct_id C = ct_id C' -> C = C'.
Proof using Hst.
  intros (i&Hi)%elem_of_list_lookup (j&Hj)%elem_of_list_lookup E.
  assert (i = j) as <-.
  { apply (strict_lookup_inj _ _ _ (ct_id C) Hst).
    - change (map ct_id U) with (ct_id <$> U). by rewrite list_lookup_fmap, Hi.
    - change (map ct_id U) with (ct_id <$> U). by rewrite list_lookup_fmap, Hj, E. }
  rewrite Hi in Hj. by injection Hj.
Qed.
Lemma U_small C : C ∈ U -> small C.
Proof using Hsm. intros HC. by apply (proj1 (Forall_forall _ _) Hsm). Qed.
Lemma dsize_of C : C ∈ U -> dsize (cdesc_of C) = size_of C.
Proof using Hsm. intros HC. unfold dsize, size_of. by rewrite small_size by by apply U_small. Qed.
Lemma knows_id d idx d' C : knows U d -> ad_components d !! idx = Some d' -> cd_id d' = ct_id C -> C ∈ U -> d' = cdesc_of C.
Proof using Hst.
  intros (cs&Ec&Hin&_) Hd Hid HC. rewrite Ec in Hd. change (map cdesc_of cs) with (cdesc_of <$> cs) in Hd.
  rewrite list_lookup_fmap in Hd. destruct (cs !! idx) as [C'|] eqn:E; [|done]. injection Hd as <-. f_equal.
  apply U_inj; [|done|done]. apply (proj1 (Forall_forall _ _) Hin). by eapply elem_of_list_lookup_2.
Qed.
Lemma knows_at d idx d' : knows U d -> ad_components d !! idx = Some d' -> exists C, C ∈ U /\ d' = cdesc_of C.
Proof.
  intros (cs&Ec&Hin&_) Hd. rewrite Ec in Hd. change (map cdesc_of cs) with (cdesc_of <$> cs) in Hd.
  rewrite list_lookup_fmap in Hd. destruct (cs !! idx) as [C'|] eqn:E; [|done]. injection Hd as <-. exists C'. split; [|done].
  apply (proj1 (Forall_forall _ _) Hin). by eapply elem_of_list_lookup_2.
Qed.
Lemma search_id d idx C : knows U d -> C ∈ U -> binary_search (map cd_id (ad_components d)) (ct_id C) = inl idx ->
  ad_components d !! idx = Some (cdesc_of C).
Proof using Hst.
  intros Hk HC E. assert (Hs : strict (map cd_id (ad_components d))).
  { destruct Hk as (cs&Ec&_&Hs). rewrite Ec. change (strict (ids (map cdesc_of cs))). by rewrite ids_cdesc_of. }
  pose proof (binary_search_inl _ _ _ Hs E) as Hl. change (map cd_id ?l) with (cd_id <$> l) in Hl.
  rewrite list_lookup_fmap in Hl. destruct (ad_components d !! idx) as [d'|] eqn:Ed; [|done]. injection Hl as Hl. f_equal.
  by eapply knows_id.
Qed.

(** The column of a component type, for alignment and bounds. *)
Lemma column_here m a A C idx b : arel (m_blocks m) a A -> C ∈ U -> a_comps a !! idx = Some (cdesc_of C) -> a_ptrs a !! idx = Some (Some b) ->
  exists id base, b_ptrs A !! idx = Some (Some (id, 0)) /\
    m_blocks m !! id = Some (HBlk base (ct_align C) (vcol (size_of C) (bl_cells b))) /\ (ct_align C | base)%N.
Proof using Hsm.
  intros Ha HC Hd Hp. destruct (lookup_lt_is_Some_2 (b_ptrs A) idx) as [q Eq].
  { rewrite (ar_len _ _ _ Ha). by eapply lookup_lt_Some. }
  pose proof (ar_col _ _ _ Ha _ _ _ _ Hd Hp Eq) as Hpr. destruct q as [[id o]|]; cbn [prel] in Hpr; [|done].
  destruct Hpr as (->&_&_&base&Hb&Hdiv). rewrite dsize_of in Hb by done.
  rewrite small_align in Hb, Hdiv by by apply U_small. by exists id, base.
Qed.
Lemma col_len (n : nat) (cells : list (option value)) : length (vcol n cells) = length cells * n.
Proof. apply col_bytes_length, val_bytes_length. Qed.
Lemma size_align C k : C ∈ U -> (ct_align C | N.of_nat (size_of C * k))%N.
Proof using Hla.
  intros HC. pose proof (proj1 (Forall_forall _ _) Hla _ HC) as H. cbn in H. unfold size_of. rewrite Nat2N.inj_mul, N2Nat.id. by apply N.divide_mul_l.
Qed.
Lemma align_pos C : C ∈ U -> ct_align C <> 0%N.
Proof using Hsm. intros HC. destruct (U_small _ HC) as (_&_&k&->). by apply N.pow_nonzero. Qed.
Lemma typed_read m a A C idx row v :
  arel (m_blocks m) a A -> C ∈ U -> a_comps a !! idx = Some (cdesc_of C) -> typed_cell C a idx row = Rd v ->
  exists id, b_ptrs A !! idx = Some (Some (id, 0)) /\ column_at A m idx (size_of C * row) = Rd (Some (id, size_of C * row)) /\
    read_as m C (Some (id, size_of C * row)) = Rd v.
Proof using Hsm Hla.
  intros Ha HC Hd E. unfold typed_cell in E. destruct (raw_cell a idx row) as [[w|]| |] eqn:Er; cbn [rbind] in E; [|done..].
  rewrite Hd in E. destruct (N.eqb_spec (v_ty w) (ct_ty C)) as [Ht|]; [|done]. destruct (_ =? _)%N; [|done]. injection E as ->.
  unfold raw_cell in Er. destruct (a_ptrs a !! idx) as [[b|]|] eqn:Ep; [|done|done].
  destruct (bl_cells b !! row) as [c|] eqn:Ec; [|done]. injection Er as ->.
  destruct (column_here _ _ _ _ _ _ Ha HC Hd Ep) as (id&base&Hq&Hb&Hdiv). exists id. split; [done|].
  pose proof (col_bound (val_bytes (size_of C)) (size_of C) (val_bytes_length _) _ _ (lookup_lt_Some _ _ _ Ec)) as Hl. rewrite Nat.mul_comm. split.
  - unfold column_at. rewrite Hq. eapply offset_ok; [done|]. lia.
  - unfold read_as. erewrite aligned_ok; [|done|done|rewrite Nat.mul_comm; by apply size_align|by apply align_pos]. cbn [negb].
    erewrite load_ok; [|done|exact Hb|lia]. cbn [rbind]. rewrite (col_read _ _ (val_bytes_length _) _ _ _ Ec). cbn [cell_bytes].
    assert (0 < size_of C) by (destruct (U_small _ HC) as (?&_); unfold size_of; lia).
    rewrite bytes_val_ok by done. by rewrite Ht, N.eqb_refl.
Qed.
Lemma ar_comps H a A : arel H a A -> b_comps A = a_comps a.
Proof. intros Ha. unfold b_comps, a_comps. by rewrite (ar_desc _ _ _ Ha). Qed.

(** ** One component *)
Lemma get_component_sim m a A C row v : arel (m_blocks m) a A -> C ∈ U ->
  get_component_unchecked C row a = Rd v -> b_get_component C row A m = Rd v.
Proof using Hst Hsm Hla.
  intros Ha HC E. unfold get_component_unchecked in E. unfold b_get_component, b_component_ptr. rewrite (ar_comps _ _ _ Ha).
  destruct (binary_search _ _) as [idx|] eqn:Eb; [|done]. pose proof (search_id _ _ _ (ar_knows _ _ _ Ha) HC Eb) as Hd.
  destruct (typed_read _ _ _ _ _ _ _ Ha HC Hd E) as (id&_&->&Hr). exact Hr.
Qed.
Lemma get_component_mut_sim m a A C row l : arel (m_blocks m) a A -> C ∈ U ->
  get_component_unchecked_mut C row a = Rd l -> exists bl, b_get_component_mut C row A m = Rd bl /\ lrel a A l bl.
Proof using Hst Hsm Hla.
  intros Ha HC E. unfold get_component_unchecked_mut in E. unfold b_get_component_mut, b_component_ptr. rewrite (ar_comps _ _ _ Ha).
  destruct (binary_search _ _) as [idx|] eqn:Eb; [|done]. pose proof (search_id _ _ _ (ar_knows _ _ _ Ha) HC Eb) as Hd.
  destruct (typed_cell C a idx row) as [v| |] eqn:Et; cbn [rbind] in E; [|done..]. injection E as <-.
  destruct (typed_read _ _ _ _ _ _ _ Ha HC Hd Et) as (id&Hp&->&Hr). cbn [rbind]. rewrite Hr. cbn [rbind].
  eexists. split; [done|]. exists (cdesc_of C), id. cbn. by rewrite dsize_of.
Qed.

(** ** Tuples *)
Section tuple.
Context (be : bool) (G : group) (s : list ctype) (Hg : gspec be G s) (Hin : in_U U G).
Lemma G_in i C : G !! i = Some C -> C ∈ U.
Proof using Hin. intros Hi. apply (proj1 (Forall_forall _ _) Hin). by eapply elem_of_list_lookup_2. Qed.
(** Pairs of pointer lists that agree in the slots of the tuple. *)
Definition psim (a : arch) (A : barch) (m : mem) (row : nat) (ps : list cellptr) (bps : list bptr) : Prop :=
  forall i C, G !! i = Some C -> exists idx id, ps !! group_slot be G i = Some (Some (idx, row)) /\
    a_comps a !! idx = Some (cdesc_of C) /\ b_ptrs A !! idx = Some (Some (id, 0)) /\
    bps !! group_slot be G i = Some (Some (id, size_of C * row)).
(** What a successful access to all slots says about the pointers. *)
Definition plive (a : arch) (row : nat) (ps : list cellptr) : Prop :=
  forall i C, G !! i = Some C -> exists idx b, ps !! group_slot be G i = Some (Some (idx, row)) /\
    a_ptrs a !! idx = Some (Some b) /\ row <= length (bl_cells b).
Lemma fuzzy_slot a row j C : s !! j = Some C -> 
  get_fuzzy_pointers (group_desc be G) row a !! j = Some (fuzzy_pointer a row j (cdesc_of C)).
Proof using Hg.
  intros Hj. unfold get_fuzzy_pointers. rewrite (gs_comps _ _ _ Hg).
  assert (E : map (fun '(i, d) => fuzzy_pointer a row i d) (enum (map cdesc_of s)) !! j = Some (fuzzy_pointer a row j (cdesc_of C))).
  { change (map ?f ?l) with (f <$> l) at 1. rewrite list_lookup_fmap. rewrite (enum_lookup _ j (cdesc_of C)); [done|].
    change (map cdesc_of s) with (cdesc_of <$> s). by rewrite list_lookup_fmap, Hj. }
  rewrite lookup_app_l; [done|]. by eapply lookup_lt_Some.
Qed.
Lemma fuzzy_sim m a A row : arel (m_blocks m) a A -> plive a row (get_fuzzy_pointers (group_desc be G) row a) ->
  exists bps, b_get_fuzzy_pointers (group_desc be G) row A m = Rd bps /\
    psim a A m row (get_fuzzy_pointers (group_desc be G) row a) bps.
Proof using Hst Hsm Hg Hin.
  intros Ha Hl. unfold b_get_fuzzy_pointers. rewrite (gs_comps _ _ _ Hg).
  destruct (rmap_enum_ex (fun '(i, d) => b_fuzzy_pointer A m row i d)
    (fun j d q => exists C idx id, s !! j = Some C /\ fuzzy_pointer a row j d = Some (idx, row) /\
       a_comps a !! idx = Some (cdesc_of C) /\ b_ptrs A !! idx = Some (Some (id, 0)) /\ q = Some (id, size_of C * row))
    (map cdesc_of s)) as (qs&Eq&Hlen&Hqs).
  { intros j d Hj. change (map cdesc_of s) with (cdesc_of <$> s) in Hj. rewrite list_lookup_fmap in Hj.
    destruct (s !! j) as [C|] eqn:Es; [|done]. injection Hj as <-.
    destruct (slot_onto _ _ _ _ _ Hg Es) as (i&Hi&Hslot). destruct (Hl _ _ Hi) as (idx&b&Hps&Hb&Hr). rewrite Hslot in Hps.
    rewrite (fuzzy_slot _ _ _ _ Es) in Hps. injection Hps as Hps. pose proof Hps as Hf. unfold fuzzy_pointer in Hf.
    unfold b_fuzzy_pointer. rewrite (ar_comps _ _ _ Ha). destruct (find_from _ _ _) as [k|] eqn:Ek; [|done].
    destruct (_ =? _)%N; [|done]. injection Hf as ->. destruct (find_from_found _ _ _ _ Ek) as (d'&Hle&Hd'&Hid).
    rewrite lookup_drop in Hd'. replace (j + (idx - j)) with idx in Hd' by lia.
    pose proof (G_in _ _ Hi) as HC. pose proof (knows_id _ _ _ _ (ar_knows _ _ _ Ha) Hd' Hid HC) as ->.
    destruct (column_here _ _ _ _ _ _ Ha HC Hd' Hb) as (id&base&Hq&HH&Hdiv).
    exists (Some (id, size_of C * row)). split.
    - rewrite dsize_of by done. unfold column_at. rewrite Hq. eapply offset_ok; [done|]. rewrite col_len. nia.
    - exists C, idx, id. done. }
  rewrite Eq. cbn [rbind]. eexists. split; [done|]. intros i C Hi. pose proof (gs_slot _ _ _ Hg _ _ Hi) as Hs.
  destruct (Hqs (group_slot be G i) (cdesc_of C)) as (q&Hq&C'&idx&id&Hs'&Hf&Hc&Hp&->).
  { change (map cdesc_of s) with (cdesc_of <$> s). by rewrite list_lookup_fmap, Hs. }
  rewrite Hs in Hs'. injection Hs' as <-. exists idx, id. rewrite (fuzzy_slot _ _ _ _ Hs). split; [by rewrite Hf|]. split; [done|]. split; [done|].
  rewrite lookup_app_l; [done|]. by eapply lookup_lt_Some.
Qed.
(** Dereferencing. *)
Lemma deref_live C a ps slot x : deref C a ps slot = Rd x -> exists idx row b v, x = (idx, row, v) /\ ps !! slot = Some (Some (idx, row)) /\
  typed_cell C a idx row = Rd v /\ a_ptrs a !! idx = Some (Some b) /\ row < length (bl_cells b).
Proof.
  unfold deref. destruct (ps !! slot) as [[[idx row]|]|]; [|done|done]. destruct (typed_cell C a idx row) as [v| |] eqn:Et; cbn [rbind]; [|done..].
  intros [= <-]. unfold typed_cell in Et. destruct (raw_cell a idx row) as [c| |] eqn:Er; cbn [rbind] in Et; [|done..].
  unfold raw_cell in Er. destruct (a_ptrs a !! idx) as [[b|]|] eqn:Ep; [|done|done].
  destruct (bl_cells b !! row) eqn:Ec; [|done]. exists idx, row, b, v. split_and!; try done.
  - unfold typed_cell, raw_cell. rewrite Ep, Ec. cbn [rbind]. injection Er as ->. done.
  - by eapply lookup_lt_Some.
Qed.
Lemma deref_sim m a A row ps bps i C x :
  arel (m_blocks m) a A -> psim a A m row ps bps -> G !! i = Some C -> deref C a ps (group_slot be G i) = Rd x ->
  exists l, b_deref C m bps (group_slot be G i) = Rd (l, x.2) /\ lrel a A x.1 l.
Proof using Hsm Hla Hin.
  intros Ha Hp Hi E. destruct (Hp _ _ Hi) as (idx&id&Hps&Hd&Hq&Hb).
  destruct (deref_live _ _ _ _ _ E) as (idx'&row'&b&v&->&Hps'&Ht&_). rewrite Hps in Hps'. injection Hps' as <- <-.
  pose proof (G_in _ _ Hi) as HC. destruct (typed_read _ _ _ _ _ _ _ Ha HC Hd Ht) as (id'&Hq'&_&Hr).
  rewrite Hq in Hq'. injection Hq' as <-. exists (Some (id, size_of C * row), size_of C). split.
  - unfold b_deref. rewrite Hb, Hr. done.
  - exists (cdesc_of C), id. cbn. by rewrite dsize_of.
Qed.
Lemma ref_tuple_sim m a A row ps bps vs :
  arel (m_blocks m) a A -> psim a A m row ps bps -> pointers_as_ref_tuple be G ps a = Rd vs -> b_ref_tuple be G bps m = Rd vs.
Proof using Hsm Hla Hin.
  intros Ha Hp E. unfold pointers_as_ref_tuple in E. apply rmap_enum_inv in E as [Hl Hv]. apply rmap_enum; [done|].
  intros i C v Hi Hvi. destruct (Hv _ _ Hi) as (v'&Hv'&E). rewrite Hvi in Hv'. injection Hv' as <-.
  destruct (deref _ _ _ _) as [x| |] eqn:Ed; cbn [rbind] in E; [|done..]. injection E as <-.
  destruct (deref_sim _ _ _ _ _ _ _ _ _ Ha Hp Hi Ed) as (l&->&_). done.
Qed.
Lemma mut_ref_tuple_sim m a A row ps bps ls :
  arel (m_blocks m) a A -> psim a A m row ps bps -> pointers_as_mut_ref_tuple be G ps a = Rd ls ->
  exists bls, b_mut_ref_tuple be G bps m = Rd bls /\ Forall2 (lrel a A) ls bls.
Proof using Hsm Hla Hin.
  intros Ha Hp E. unfold pointers_as_mut_ref_tuple in E. apply rmap_enum_inv in E as [Hl Hv].
  destruct (rmap_enum_ex (fun '(i, C) => letr x := b_deref C m bps (group_slot be G i) in Rd x.1)
    (fun i C bl => exists l, ls !! i = Some l /\ lrel a A l bl) G) as (bls&Eb&Hbl&Hb).
  - intros i C Hi. destruct (Hv _ _ Hi) as (l&Hli&E). destruct (deref _ _ _ _) as [x| |] eqn:Ed; cbn [rbind] in E; [|done..]. injection E as <-.
    destruct (deref_sim _ _ _ _ _ _ _ _ _ Ha Hp Hi Ed) as (bl&->&Hr). exists bl. split; [done|]. by exists x.1.
  - exists bls. split; [done|]. apply Forall2_same_length_lookup. split; [lia|]. intros i l bl Hli Hbli.
    destruct (lookup_lt_is_Some_2 G i) as [C Hi]; [rewrite <- Hbl; by eapply lookup_lt_Some|].
    destruct (Hb _ _ Hi) as (bl'&Hb'&l'&Hl'&Hr). congruence.
Qed.
(** A successful tuple access means the pointers were usable. *)
Lemma derefs_live {X} (f : nat * nat * value -> X) a row ps ys :
  (forall i idx row', ps !! i = Some (Some (idx, row')) -> row' = row) ->
  rmap (fun '(i, C) => letr x := deref C a ps (group_slot be G i) in Rd (f x)) (enum G) = Rd ys -> plive a row ps.
Proof.
  intros Hrow E i C Hi. apply rmap_enum_inv in E as [_ Hv]. destruct (Hv _ _ Hi) as (y&_&E).
  destruct (deref _ _ _ _) as [x| |] eqn:Ed; cbn [rbind] in E; [|done..].
  destruct (deref_live _ _ _ _ _ Ed) as (idx&row'&b&v&->&Hps&_&Hb&Hr). pose proof (Hrow _ _ _ Hps) as ->.
  exists idx, b. split; [done|]. split; [done|lia].
Qed.
Lemma fuzzy_row a row g i idx row' : get_fuzzy_pointers g row a !! i = Some (Some (idx, row')) -> row' = row.
Proof.
  unfold get_fuzzy_pointers. intros [H|[_ H]]%lookup_app_Some.
  - change (map ?f ?l) with (f <$> l) in H at 1. rewrite list_lookup_fmap in H. destruct (enum _ !! i) as [[j d]|]; [|done]. injection H as H.
    unfold fuzzy_pointer in H. destruct (find_from _ _ _); [|done]. destruct (_ =? _)%N; [|done]. by injection H.
  - apply lookup_replicate in H as [H _]. done.
Qed.
Lemma fuzzy_components_sim c m a A row vs : big c = be ->
  arel (m_blocks m) a A -> get_fuzzy_components c G row a = Rd vs -> b_get_fuzzy_components c G row A m = Rd vs.
Proof using Hst Hsm Hla Hin Hg.
  intros Hbe Ha E. unfold get_fuzzy_components, b_get_fuzzy_components in *. rewrite Hbe in *.
  destruct (rdebug_assert _ _); cbn [rbind] in *; [|done..].
  destruct (fuzzy_sim _ _ _ row Ha) as (bps&->&Hp).
  - eapply derefs_live; [|exact E]. intros *. apply fuzzy_row.
  - cbn [rbind]. by eapply ref_tuple_sim.
Qed.
Lemma fuzzy_components_mut_sim c m a A row ls : big c = be ->
  arel (m_blocks m) a A -> get_fuzzy_components_mut c G row a = Rd ls ->
  exists bls, b_get_fuzzy_components_mut c G row A m = Rd bls /\ Forall2 (lrel a A) ls bls.
Proof using Hst Hsm Hla Hin Hg.
  intros Hbe Ha E. unfold get_fuzzy_components_mut, b_get_fuzzy_components_mut in *. rewrite Hbe in *.
  destruct (rdebug_assert _ _); cbn [rbind] in *; [|done..].
  destruct (fuzzy_sim _ _ _ row Ha) as (bps&->&Hp).
  - eapply derefs_live; [|exact E]. intros *. apply fuzzy_row.
  - cbn [rbind]. by eapply mut_ref_tuple_sim.
Qed.

(** ** Slices *)
Lemma slice_sim m a A ps bps i C len l :
  arel (m_blocks m) a A -> psim a A m 0 ps bps -> G !! i = Some C -> slice_cells C a ps (group_slot be G i) len = Rd l ->
  exists bl, b_slice C m bps (group_slot be G i) len = Rd bl /\ map snd bl = map snd l /\ Forall2 (lrel a A) (map fst l) (map fst bl).
Proof using Hsm Hla Hin.
  intros Ha Hp Hi E. destruct (Hp _ _ Hi) as (idx&id&Hps&Hd&Hq&Hb). rewrite Nat.mul_0_r in Hb.
  unfold slice_cells in E. rewrite Hps in E. destruct (a_ptrs a !! idx) as [[b|]|] eqn:Ep; [|done|done].
  pose proof (G_in _ _ Hi) as HC. destruct (column_here _ _ _ _ _ _ Ha HC Hd Ep) as (id'&base&Hq'&HH&Hdiv).
  rewrite Hq in Hq'. injection Hq' as <-. apply rmap_inv in E.
  assert (Hcell : forall r x, seq 0 len !! r = Some r -> l !! r = Some x -> exists v, x = (idx, r, v) /\ typed_cell C a idx r = Rd v).
  { intros r x Hr Hx. pose proof (Forall2_lookup_lr _ _ _ _ _ _ E Hr Hx) as Hc. cbn beta in Hc.
    destruct (typed_cell C a idx r) as [v| |]; cbn [rbind] in Hc; [|done..]. injection Hc as <-. by exists v. }
  assert (Hll : length l = len) by (rewrite <- (Forall2_length _ _ _ E); apply seq_length).
  unfold b_slice. rewrite Hb.
  assert (Hok : slice_ok m (Some (id, 0)) (ct_align C) (size_of C) len = true).
  { unfold slice_ok. apply andb_true_iff. split.
    - eapply aligned_ok; [done|done|apply N.divide_0_r|by apply align_pos].
    - erewrite load_ok; [done|done|done|]. rewrite col_len. destruct len as [|n]; [lia|].
      destruct (lookup_lt_is_Some_2 l n) as [x Hx]; [lia|]. destruct (Hcell n x) as (v&_&Ht); [by apply lookup_seq; lia|done|].
      unfold typed_cell, raw_cell in Ht. rewrite Ep in Ht. destruct (bl_cells b !! n) eqn:Ec; cbn [rbind] in Ht; [|done].
      apply lookup_lt_Some in Ec. nia. }
  rewrite Hok. cbn [negb].
  destruct (rmap_ex (fun r => letr v := read_as m C (elem (Some (id, 0)) C r) in Rd (elem (Some (id, 0)) C r, size_of C, v))
    (fun r y => exists v, l !! r = Some (idx, r, v) /\ y = (Some (id, size_of C * r), size_of C, v)) (seq 0 len)) as (bl&Ebl&HF).
  { intros r Hr%elem_of_seq. destruct (lookup_lt_is_Some_2 l r) as [x Hx]; [lia|].
    destruct (Hcell r x) as (v&->&Ht); [by apply lookup_seq; lia|done|].
    destruct (typed_read _ _ _ _ _ _ _ Ha HC Hd Ht) as (id'&Hq'&_&Hr'). rewrite Hq in Hq'. injection Hq' as <-.
    unfold elem. cbn [Nat.add]. rewrite Nat.mul_comm, Hr'. cbn [rbind]. eexists. split; [done|]. by exists v. }
  exists bl. split; [done|]. rewrite Forall2_same_length_lookup in HF. destruct HF as [Hlen HF]. rewrite seq_length in Hlen. split.
  - apply list_eq. intros r. change ((snd <$> bl) !! r = (snd <$> l) !! r). rewrite !list_lookup_fmap.
    destruct (decide (r < len)) as [Hr|Hr].
    + destruct (lookup_lt_is_Some_2 bl r) as [y Hy]; [lia|]. destruct (HF r r y) as (v&Hv&->); [by apply lookup_seq; lia|done|].
      by rewrite Hy, Hv.
    + rewrite (lookup_ge_None_2 bl), (lookup_ge_None_2 l) by lia. done.
  - apply Forall2_same_length_lookup. split; [rewrite (map_length _ l), (map_length _ bl); lia|]. intros r x y Hx Hy.
    apply map_lookup_inv in Hx as (x'&El&->). apply map_lookup_inv in Hy as (y'&Eb&->).
    pose proof (lookup_lt_Some _ _ _ El). destruct (HF r r y') as (v&Hv&->); [by apply lookup_seq; lia|done|].
    rewrite El in Hv. injection Hv as ->. exists (cdesc_of C), id. cbn. by rewrite dsize_of.
Qed.
Lemma slices_sim m a A ps bps len cols :
  arel (m_blocks m) a A -> psim a A m 0 ps bps -> slice_unchecked be G ps len a = Rd cols -> b_slices be G bps len m = Rd cols.
Proof using Hsm Hla Hin.
  intros Ha Hp E. unfold slice_unchecked in E. apply rmap_enum_inv in E as [Hl Hv]. apply rmap_enum; [done|].
  intros i C v Hi Hvi. destruct (Hv _ _ Hi) as (v'&Hv'&E). rewrite Hvi in Hv'. injection Hv' as <-.
  destruct (slice_cells _ _ _ _ _) as [x| |] eqn:Ed; cbn [rbind] in E; [|done..]. injection E as <-.
  destruct (slice_sim _ _ _ _ _ _ _ _ _ Ha Hp Hi Ed) as (l&->&He&_). cbn [rbind]. by rewrite He.
Qed.
Lemma slices_mut_sim m a A ps bps len cols :
  arel (m_blocks m) a A -> psim a A m 0 ps bps -> slice_unchecked_mut be G ps len a = Rd cols ->
  exists bcols, b_slices_mut be G bps len m = Rd bcols /\ Forall2 (Forall2 (lrel a A)) cols bcols.
Proof using Hsm Hla Hin.
  intros Ha Hp E. unfold slice_unchecked_mut in E. apply rmap_enum_inv in E as [Hl Hv].
  destruct (rmap_enum_ex (fun '(i, C) => letr l := b_slice C m bps (group_slot be G i) len in Rd (map fst l))
    (fun i C bl => exists l, cols !! i = Some l /\ Forall2 (lrel a A) l bl) G) as (bls&Eb&Hbl&Hb).
  - intros i C Hi. destruct (Hv _ _ Hi) as (l&Hli&E). destruct (slice_cells _ _ _ _ _) as [x| |] eqn:Ed; cbn [rbind] in E; [|done..]. injection E as <-.
    destruct (slice_sim _ _ _ _ _ _ _ _ _ Ha Hp Hi Ed) as (bl&->&_&Hr). eexists. split; [done|]. eexists. done.
  - exists bls. split; [done|]. apply Forall2_same_length_lookup. split; [lia|]. intros i l bl Hli Hbli.
    destruct (lookup_lt_is_Some_2 G i) as [C Hi]; [rewrite <- Hbl; by eapply lookup_lt_Some|].
    destruct (Hb _ _ Hi) as (bl'&Hb'&l'&Hl'&Hr). congruence.
Qed.
Lemma slices_live {X} (f : list (nat * nat * value) -> X) a ps len ys :
  (forall i idx row', ps !! i = Some (Some (idx, row')) -> row' = 0) ->
  rmap (fun '(i, C) => letr l := slice_cells C a ps (group_slot be G i) len in Rd (f l)) (enum G) = Rd ys -> plive a 0 ps.
Proof.
  intros Hrow E i C Hi. apply rmap_enum_inv in E as [_ Hv]. destruct (Hv _ _ Hi) as (y&_&E).
  destruct (slice_cells _ _ _ _ _) as [x| |] eqn:Ed; cbn [rbind] in E; [|done..]. unfold slice_cells in Ed.
  destruct (ps !! group_slot be G i) as [[[idx row']|]|] eqn:Eps; [|done|done]. pose proof (Hrow _ _ _ Eps) as ->.
  destruct (a_ptrs a !! idx) as [[b|]|] eqn:Ep; [|done|done]. exists idx, b. split; [done|]. split; [done|lia].
Qed.
Lemma fuzzy_slices_sim c m a A cols : big c = be ->
  arel (m_blocks m) a A -> get_fuzzy_slices c G a = Rd cols -> b_get_fuzzy_slices c G A m = Rd cols.
Proof using Hst Hsm Hla Hin Hg.
  intros Hbe Ha E. unfold get_fuzzy_slices, b_get_fuzzy_slices in *. rewrite Hbe in *.
  destruct (rdebug_assert _ _); cbn [rbind] in *; [|done..].
  destruct (fuzzy_sim _ _ _ 0 Ha) as (bps&->&Hp).
  - eapply slices_live; [|exact E]. intros *. apply fuzzy_row.
  - cbn [rbind]. rewrite (ar_count _ _ _ Ha). by eapply slices_sim.
Qed.
Lemma fuzzy_slices_mut_sim c m a A cols : big c = be ->
  arel (m_blocks m) a A -> get_fuzzy_slices_mut c G a = Rd cols ->
  exists bcols, b_get_fuzzy_slices_mut c G A m = Rd bcols /\ Forall2 (Forall2 (lrel a A)) cols bcols.
Proof using Hst Hsm Hla Hin Hg.
  intros Hbe Ha E. unfold get_fuzzy_slices_mut, b_get_fuzzy_slices_mut in *. rewrite Hbe in *.
  destruct (rdebug_assert _ _); cbn [rbind] in *; [|done..].
  destruct (fuzzy_sim _ _ _ 0 Ha) as (bps&->&Hp).
  - eapply slices_live; [|exact E]. intros *. apply fuzzy_row.
  - cbn [rbind]. rewrite (ar_count _ _ _ Ha). by eapply slices_mut_sim.
Qed.
Lemma entity_fuzzy_slices_sim c m a A x : big c = be ->
  arel (m_blocks m) a A -> get_entity_fuzzy_slices c G a = Rd x -> b_get_entity_fuzzy_slices c G A m = Rd x.
Proof using Hst Hsm Hla Hin Hg.
  intros Hbe Ha E. unfold get_entity_fuzzy_slices, b_get_entity_fuzzy_slices in *. rewrite Hbe in *.
  destruct (rdebug_assert _ _); cbn [rbind] in *; [|done..].
  destruct (entities a) as [es| |] eqn:Ee; cbn [rbind] in E; [|done..].
  destruct (slice_unchecked be G _ _ a) as [cols| |] eqn:Es; cbn [rbind] in E; [|done..]. injection E as <-.
  destruct (fuzzy_sim _ _ _ 0 Ha) as (bps&->&Hp).
  - eapply slices_live; [|exact Es]. intros *. apply fuzzy_row.
  - cbn [rbind]. rewrite (entities_sim _ _ _ _ Ha Ee). cbn [rbind]. rewrite (ar_count _ _ _ Ha). change (a_count a) with (a_len a).
    by rewrite (slices_sim _ _ _ _ _ _ _ Ha Hp Es).
Qed.
(** An item of a mutable iterator with entities. *)
Definition erel (a : arch) (A : barch) (x : list N * list (list (nat * nat))) (y : list N * list (list bloc)) : Prop :=
  x.1 = y.1 /\ Forall2 (Forall2 (lrel a A)) x.2 y.2.
Lemma entity_fuzzy_slices_mut_sim c m a A x : big c = be ->
  arel (m_blocks m) a A -> get_entity_fuzzy_slices_mut c G a = Rd x ->
  exists y, b_get_entity_fuzzy_slices_mut c G A m = Rd y /\ erel a A x y.
Proof using Hst Hsm Hla Hin Hg.
  intros Hbe Ha E. unfold get_entity_fuzzy_slices_mut, b_get_entity_fuzzy_slices_mut in *. rewrite Hbe in *.
  destruct (rdebug_assert _ _); cbn [rbind] in *; [|done..].
  destruct (entities a) as [es| |] eqn:Ee; cbn [rbind] in E; [|done..].
  destruct (slice_unchecked_mut be G _ _ a) as [cols| |] eqn:Es; cbn [rbind] in E; [|done..]. injection E as <-.
  destruct (fuzzy_sim _ _ _ 0 Ha) as (bps&->&Hp).
  - eapply slices_live; [|exact Es]. intros *. apply fuzzy_row.
  - cbn [rbind]. rewrite (entities_sim _ _ _ _ Ha Ee). cbn [rbind]. rewrite (ar_count _ _ _ Ha). change (a_count a) with (a_len a).
    destruct (slices_mut_sim _ _ _ _ _ _ _ Ha Hp Es) as (bcols&->&Hr). cbn [rbind]. eexists. split; [done|]. done.
Qed.

(** ** The archetype of exactly these components *)
Lemma own_pointers_lookup a j p : own_pointers a !! j = Some p ->
  match p with None => True | Some (idx, row) => idx = j /\ row = 0 /\ exists b, a_ptrs a !! j = Some (Some b) end.
Proof.
  intros ([k q]&Hx&->)%map_lookup_inv. apply enum_lookup_inv in Hx as (q'&E&Hq). injection E as -> ->.
  destruct q' as [b|]; [|done]. split; [done|]. split; [done|]. by exists b.
Qed.
Lemma own_sim m a A : arel (m_blocks m) a A -> a_comps a = map cdesc_of s -> plive a 0 (own_pointers a) ->
  psim a A m 0 (own_pointers a) (b_ptrs A).
Proof using Hsm Hg Hin.
  intros Ha Hc Hl i C Hi. destruct (Hl _ _ Hi) as (idx&b&Hps&Hb&_). pose proof (own_pointers_lookup _ _ _ Hps) as (->&_&_).
  pose proof (gs_slot _ _ _ Hg _ _ Hi) as Hs. assert (Hd : a_comps a !! group_slot be G i = Some (cdesc_of C)).
  { rewrite Hc. change (map cdesc_of s) with (cdesc_of <$> s). by rewrite list_lookup_fmap, Hs. }
  destruct (column_here _ _ _ _ _ _ Ha (G_in _ _ Hi) Hd Hb) as (id&base&Hq&_). exists (group_slot be G i), id. by rewrite Nat.mul_0_r.
Qed.
Lemma own_row a i idx row' : own_pointers a !! i = Some (Some (idx, row')) -> row' = 0.
Proof. intros H. by apply own_pointers_lookup in H as (_&?&_). Qed.
Lemma slices_exact_sim c m a A cols : big c = be -> a_comps a = map cdesc_of s ->
  arel (m_blocks m) a A -> get_slices_exact c G a = Rd cols -> b_get_slices_exact c G A m = Rd cols.
Proof using Hsm Hla Hin Hg.
  intros Hbe Hc Ha E. unfold get_slices_exact, b_get_slices_exact in *. rewrite Hbe in *. rewrite (ar_desc _ _ _ Ha).
  destruct (rdebug_assert _ _); cbn [rbind] in *; [|done..]. rewrite (ar_count _ _ _ Ha).
  eapply slices_sim; [done| |exact E]. apply own_sim; [done|done|]. eapply slices_live; [|exact E]. intros *. apply own_row.
Qed.
Lemma slices_exact_mut_sim c m a A cols : big c = be -> a_comps a = map cdesc_of s ->
  arel (m_blocks m) a A -> get_slices_exact_mut c G a = Rd cols ->
  exists bcols, b_get_slices_exact_mut c G A m = Rd bcols /\ Forall2 (Forall2 (lrel a A)) cols bcols.
Proof using Hsm Hla Hin Hg.
  intros Hbe Hc Ha E. unfold get_slices_exact_mut, b_get_slices_exact_mut in *. rewrite Hbe in *. rewrite (ar_desc _ _ _ Ha).
  destruct (rdebug_assert _ _); cbn [rbind] in *; [|done..]. rewrite (ar_count _ _ _ Ha).
  eapply slices_mut_sim; [done| |exact E]. apply own_sim; [done|done|]. eapply slices_live; [|exact E]. intros *. apply own_row.
Qed.
(** Reading a whole row out of it. *)
Lemma sorted_slot a row j C : a_comps a = map cdesc_of s -> s !! j = Some C ->
  offset_sorted_pointers row a !! j = Some (match a_ptrs a !! j with Some (Some _) => Some (j, row) | _ => None end).
Proof.
  intros Hc Hj. unfold offset_sorted_pointers. rewrite Hc.
  assert (E : map (fun '(i, _) => match a_ptrs a !! i with Some (Some _) => Some (i, row) | _ => None end) (enum (map cdesc_of s)) !! j =
    Some (match a_ptrs a !! j with Some (Some _) => Some (j, row) | _ => None end)).
  { change (map ?f ?l) with (f <$> l) at 1. rewrite list_lookup_fmap. rewrite (enum_lookup _ j (cdesc_of C)); [done|].
    change (map cdesc_of s) with (cdesc_of <$> s). by rewrite list_lookup_fmap, Hj. }
  rewrite lookup_app_l; [done|]. by eapply lookup_lt_Some.
Qed.
Lemma sorted_row a row i idx row' : offset_sorted_pointers row a !! i = Some (Some (idx, row')) -> row' = row.
Proof.
  unfold offset_sorted_pointers. intros [H|[_ H]]%lookup_app_Some.
  - change (map ?f ?l) with (f <$> l) in H at 1. rewrite list_lookup_fmap in H. destruct (enum _ !! i) as [[j d]|]; [|done]. injection H as H.
    destruct (a_ptrs a !! j) as [[]|]; [|done|done]. by injection H.
  - apply lookup_replicate in H as [H _]. done.
Qed.
Lemma read_exact_sim m a A row vs : a_comps a = map cdesc_of s ->
  arel (m_blocks m) a A -> read_components_exact_unchecked be G row a = Rd vs -> b_read_components_exact be G row A m = Rd vs.
Proof using Hsm Hla Hin Hg.
  intros Hc Ha E. unfold read_components_exact_unchecked, read_from_sorted_pointers in E.
  assert (Hl : plive a row (offset_sorted_pointers row a)).
  { eapply derefs_live; [|exact E]. intros *. apply sorted_row. }
  unfold b_read_components_exact, b_offset_sorted_pointers. rewrite (ar_comps _ _ _ Ha), Hc.
  destruct (rmap_enum_ex (fun '(i, d) => column_at A m i (dsize d * row))
    (fun j d q => exists C id, s !! j = Some C /\ b_ptrs A !! j = Some (Some (id, 0)) /\ q = Some (id, size_of C * row))
    (map cdesc_of s)) as (qs&Eq&Hlen&Hqs).
  { intros j d Hj. change (map cdesc_of s) with (cdesc_of <$> s) in Hj. rewrite list_lookup_fmap in Hj.
    destruct (s !! j) as [C|] eqn:Es; [|done]. injection Hj as <-.
    destruct (slot_onto _ _ _ _ _ Hg Es) as (i&Hi&Hslot). destruct (Hl _ _ Hi) as (idx&b&Hps&Hb&Hr). rewrite Hslot in Hps.
    rewrite (sorted_slot _ _ _ _ Hc Es) in Hps. assert (idx = j) as ->.
    { destruct (a_ptrs a !! j) as [[]|]; [|done|done]. by injection Hps. }
    assert (Hd : a_comps a !! j = Some (cdesc_of C)).
    { rewrite Hc. change (map cdesc_of s) with (cdesc_of <$> s). by rewrite list_lookup_fmap, Es. }
    pose proof (G_in _ _ Hi) as HC. destruct (column_here _ _ _ _ _ _ Ha HC Hd Hb) as (id&base&Hq&HH&Hdiv).
    exists (Some (id, size_of C * row)). split.
    - rewrite dsize_of by done. unfold column_at. rewrite Hq. eapply offset_ok; [done|]. rewrite col_len. nia.
    - exists C, id. done. }
  rewrite Eq. cbn [rbind]. apply (ref_tuple_sim m a A row (offset_sorted_pointers row a)); [done| |done].
  intros i C Hi. pose proof (gs_slot _ _ _ Hg _ _ Hi) as Hs.
  destruct (Hqs (group_slot be G i) (cdesc_of C)) as (q&Hq&C'&id&Hs'&Hp&->).
  { change (map cdesc_of s) with (cdesc_of <$> s). by rewrite list_lookup_fmap, Hs. }
  rewrite Hs in Hs'. injection Hs' as <-. destruct (Hl _ _ Hi) as (idx&b&Hps&Hb&Hr).
  rewrite (sorted_slot _ _ _ _ Hc Hs) in Hps. assert (idx = group_slot be G i) as ->.
  { destruct (a_ptrs a !! group_slot be G i) as [[]|]; [|done|done]. by injection Hps. }
  exists (group_slot be G i), id. rewrite (sorted_slot _ _ _ _ Hc Hs). split; [by rewrite Hb|]. split.
  - rewrite Hc. change (map cdesc_of s) with (cdesc_of <$> s). by rewrite list_lookup_fmap, Hs.
  - split; [done|]. rewrite lookup_app_l; [done|]. by eapply lookup_lt_Some.
Qed.
End tuple.
End read.
