(** Proofs for C54: the mutable references the registry hands out. *)
From Verif Require Import Instances ByteReg Sizes SearchProofs MonadProofs DescrProofs ArchProofs ArchOps ArchOps2 ArchOps3 RegProofs RegOps RegOps2 RegExact Refine SpecObs Observe Ref
  Bytes Bytes2 Bytes3 Bytes4 Bytes5 Bytes6 Bytes7 SpecBytes SpecBase SpecTrace SpecWorld SpecRef.
Local Open Scope nat_scope.

(** ** One reference *)
Lemma load_lookup m id off n bs b : load m (Some (id, off)) n = Rd bs -> m_blocks m !! id = Some b ->
  off + n <= length (hb_bytes b) /\ length bs = n /\ forall k, k < n -> hb_bytes b !! (off + k) = bs !! k.
Proof.
  intros E Hb. cbn in E. rewrite Hb in E. destruct (Nat.leb_spec (off + n) (length (hb_bytes b))) as [Hl|]; [|done]. injection E as <-.
  split; [done|]. split; [rewrite take_length, drop_length; lia|]. intros k Hk. by rewrite lookup_take, lookup_drop by done.
Qed.
Lemma read_as_sound m C p v : (0 < ct_align C)%N -> read_as m C p = Rd v -> sound_ref m C (p, size_of C).
Proof.
  intros Hal E. unfold read_as in E. destruct (aligned m p (ct_align C)) eqn:Ea; cbn [negb] in E; [|done].
  destruct p as [[id off]|]; [|done]. cbn [aligned] in Ea. destruct (m_blocks m !! id) as [b|] eqn:Eb; [|done].
  destruct (load m (Some (id, off)) (size_of C)) as [bs| |] eqn:El; cbn [rbind] in E; [|done..].
  destruct (load_lookup _ _ _ _ _ _ El Eb) as (Hin&Hl&Hk). destruct (bytes_val bs) as [v'|] eqn:Ev; [|done].
  destruct (v_ty v' =? ct_ty C)%N eqn:Et; [|done]. apply N.eqb_eq in Et, Ea.
  exists id, off, b, v'. split; [done|]. split; [done|]. split; [exact Hin|]. split; [by apply N.mod_divide; [lia|]|]. split; [done|].
  intros k Hkn. rewrite (Hk k Hkn). unfold bytes_val in Ev. destruct bs as [|[|w n|] bs]; try done. case_decide as Hd; [|done]. injection Ev as ->.
  rewrite Hd. unfold val_bytes. rewrite Hl. change (map ?f ?l) with (f <$> l). rewrite list_lookup_fmap, lookup_seq_lt by exact Hkn. done.
Qed.
Lemma Forall2_rmap_enum {X} (f : nat * ctype -> rd X) (P : ctype -> X -> Prop) (G : group) ys :
  (forall i C x, G !! i = Some C -> f (i, C) = Rd x -> P C x) -> rmap f (enum G) = Rd ys -> Forall2 P G ys.
Proof.
  intros Hf E. apply rmap_enum_inv in E as [Hl Hv]. apply Forall2_same_length_lookup_2; [done|]. intros i C x HC Hx.
  destruct (Hv _ _ HC) as (y&Hy&Ef). rewrite Hx in Hy. injection Hy as <-. by eapply Hf.
Qed.
Definition positive (G : group) : Prop := Forall (fun C => (0 < ct_align C)%N) G.
Lemma positive_at G i C : positive G -> G !! i = Some C -> (0 < ct_align C)%N.
Proof. intros H Hi. exact (proj1 (Forall_lookup _ _) H i C Hi). Qed.
Lemma slices_mut_sound be m G ps n cols : positive G -> b_slices_mut be G ps n m = Rd cols -> sound_columns m G n cols.
Proof.
  intros HG. apply Forall2_rmap_enum. intros i C x HC E. unfold b_slice in E. destruct (ps !! _) as [p|]; cbn [rbind] in E; [|done].
  destruct (negb _); cbn [rbind] in E; [done|]. destruct (rmap _ _) as [l| |] eqn:El; cbn [rbind] in E; [|done..]. injection E as <-.
  apply rmap_inv in El. split; [etransitivity; [apply map_length|]; etransitivity; [symmetry; exact (Forall2_length _ _ _ El)|apply seq_length]|].
  change (map fst l) with (fst <$> l). apply Forall_fmap. apply Forall_lookup. intros k y Hy. destruct (Forall2_lookup_r _ _ _ _ _ El Hy) as (r&_&Er).
  destruct (read_as m C (elem p C r)) as [v| |] eqn:Ed; cbn [rbind] in Er; [|done..]. injection Er as <-. cbn [compose fst].
  eapply read_as_sound; [by eapply positive_at|exact Ed].
Qed.
Lemma tuple_mut_sound be m G ps ls : positive G -> b_mut_ref_tuple be G ps m = Rd ls -> Forall2 (sound_ref m) G ls.
Proof.
  intros HG. apply Forall2_rmap_enum. intros i C x HC E. unfold b_deref in E. destruct (ps !! _) as [p|]; cbn [rbind] in E; [|done].
  destruct (read_as m C p) as [v| |] eqn:Ed; cbn [rbind] in E; [|done..]. injection E as <-. eapply read_as_sound; [by eapply positive_at|exact Ed].
Qed.

(** ** Different cells share no byte *)
Lemma lr_exclusive ds As H next ls bls : heap_ok H next (concat (map own As)) -> NoDup ls -> Forall2 (lr ds As) ls bls -> exclusive bls.
Proof.
  intros Hh Hnd Hl i j l l' id k Hi Hj (o&Ho&Hk) (o'&Ho'&Hk').
  destruct (Forall2_lookup_r _ _ _ _ _ Hl Hi) as (x&Hx&d&A&D&id1&Hd&HA&HD&Hp&->). destruct (Forall2_lookup_r _ _ _ _ _ Hl Hj) as (y&Hy&d'&A'&D'&id2&Hd'&HA'&HD'&Hp'&->).
  cbn [fst snd] in *. injection Ho as -> <-. injection Ho' as -> <-.
  assert (Hown : forall (A : barch) n, b_ptrs A !! n = Some (Some (id, 0)) -> own A !! n = own A !! n -> id ∈ own A).
  { intros B n Hn _. unfold own. apply elem_of_list_omap. exists (Some (id, 0)). split; [|done]. right. by eapply elem_of_list_lookup_2. }
  (* the same archetype *)
  assert (Ea : x.1.1 = y.1.1).
  { destruct (decide (x.1.1 = y.1.1)) as [|Hne]; [done|]. exfalso. pose proof (ho_nd _ _ _ Hh) as Hn.
    destruct (own_split As _ A A HA) as [Hperm _]. rewrite Hperm in Hn. apply NoDup_app in Hn as (_&Hdis&_).
    apply (Hdis id); [by eapply Hown|]. eapply (rest_in As _ (y.1.1)); [done|exact HA'|by eapply Hown]. }
  rewrite <- Ea in *. rewrite HA in HA'. injection HA' as <-. rewrite Hd in Hd'. injection Hd' as <-.
  (* the same column *)
  assert (Ec : x.1.2 = y.1.2).
  { pose proof (ho_nd _ _ _ Hh) as Hn. destruct (own_split As _ A A HA) as [Hperm _]. rewrite Hperm in Hn. apply NoDup_app in Hn as (Hn&_&_).
    clear -Hn Hp Hp'. unfold own in Hn. change (omap ptr_id (b_assoc A :: b_ptrs A)) with (omap ptr_id ([b_assoc A] ++ b_ptrs A)) in Hn. rewrite omap_app in Hn. apply NoDup_app in Hn as (_&_&Hn).
    revert Hn Hp Hp'. generalize (b_ptrs A) as ps, (x.1.2) as p, (y.1.2) as q. induction ps as [|[[a o]|] ps IH]; intros p q Hn Hp Hq; [done| |].
    - cbn in Hn. apply NoDup_cons in Hn as [Ha Hn]. assert (Hno : forall n, ps !! n = Some (Some (a, 0)) -> False).
      { intros n Hnn. apply Ha. apply elem_of_list_omap. exists (Some (a, 0)). split; [by eapply elem_of_list_lookup_2|done]. }
      destruct p as [|p], q as [|q]; cbn in Hp, Hq; [done| | |f_equal; by eapply IH].
      + injection Hp as -> ->. by destruct (Hno q).
      + injection Hq as -> ->. by destruct (Hno p).
    - cbn in Hn. destruct p as [|p], q as [|q]; cbn in Hp, Hq; try done. f_equal. by eapply IH. }
  rewrite <- Ec in *. rewrite HD in HD'. injection HD' as <-.
  (* the same row *)
  assert (Er : x.2 = y.2) by nia.
  eapply NoDup_lookup; [exact Hnd|exact Hx|]. rewrite Hy. f_equal. destruct x as [[x1 x2] x3], y as [[y1 y2] y3]. cbn in *. by subst.
Qed.
Lemma Forall2_concat2 {X Y} (Q : X -> Y -> Prop) l l' : Forall2 (Forall2 Q) l l' -> Forall2 Q (concat l) (concat l').
Proof. induction 1; cbn; [constructor|]. by apply Forall2_app. Qed.

Lemma entities_length A m es : b_entities A m = Rd es -> length es = b_count A.
Proof.
  unfold b_entities. destruct (negb _); [done|]. intros E%rmap_inv. rewrite <- (Forall2_length _ _ _ E). apply seq_length.
Qed.

Section refs.
Context {Fm : family} (c : cfg) (U : list ctype) (HU : universe (big c) U) (Hla : laid_out U).
Notation be := (big c).
Notation brel := (@Bytes5.brel U []).
Let Hst : strict (ids_of U) := proj1 HU.
Let Hsm : Forall small U := proj1 (proj2 HU).

Lemma brun_history place ops : within be U ops book_empty ->
  exists r R w I O, run c ops reg_default = Ret (ref_run be U ops book_empty).1 r /\ brun c ops (breg_default place) = Ret (ref_run be U ops book_empty).1 R /\
    history c U r w I O /\ brel r R.
Proof using HU Hla.
  assert (Hgen : forall ops r R b I O, booked c U r b -> brel r R -> history c U r (bk_world b) I O -> within be U ops b ->
    exists r' R' w' I' O', run c ops r = Ret (ref_run be U ops b).1 r' /\ brun c ops R = Ret (ref_run be U ops b).1 R' /\ history c U r' w' I' O' /\ brel r' R').
  { clear ops. induction ops as [|o ops IH]; intros r R b I O Hb Hr Hh Hw; [by exists r, R, (bk_world b), I, O|].
    destruct Hw as [Hc Hw]. destruct (ref_step c U HU r b o Hb Hc) as (r1&E1&H1&Hl). pose proof (bo_tabs _ _ _ _ Hb) as (T&Hok&_).
    destruct (step_sim c U HU Hla r R T _ o Hok Hc Hr _ _ E1) as (R1&B1&Hr1). pose proof (h_call _ _ _ _ _ _ _ _ _ Hh Hc E1) as Hh1. rewrite <- Hl in Hh1.
    destruct (IH r1 R1 _ _ _ H1 Hr1 Hh1 Hw) as (r2&R2&w2&I2&O2&E2&B2&H2&Hr2).
    exists r2, R2, w2, I2, O2. cbn [run brun ref_run]. destruct (ref be U b o) as [out b1]. cbn [fst snd] in *. destruct (ref_run be U ops b1) as [outs b2]. cbn [fst snd] in *.
    rewrite (bind_Ret _ _ _ _ _ E1), (bind_Ret _ _ _ _ _ E2), (bind_Ret _ _ _ _ _ B1), (bind_Ret _ _ _ _ _ B2). done. }
  intros Hw. exact (Hgen ops _ _ _ _ _ (booked_start c U) (brel_start place) (h_start c U) Hw).
Qed.
Lemma in_positive G : in_U U G -> positive G.
Proof using HU.
  intros HG. apply Forall_lookup. intros i C Hi. pose proof (proj1 (Forall_forall _ _) HG _ (elem_of_list_lookup_2 _ _ _ Hi)) as HC.
  pose proof (proj1 (Forall_forall _ _) Hsm _ HC) as Hs. destruct Hs as (_&_&k&->). by apply N.neq_0_lt_0, N.pow_nonzero.
Qed.
Lemma collect_items {J} G accept (bitem : barch -> mem -> rd J) R l : b_slices_collect c G accept bitem R = Rd (Some l) ->
  Forall (fun y => exists A, bitem A (br_mem R) = Rd y) l.
Proof.
  unfold b_slices_collect. destruct (arch_iter_new c G) as [st| |]; cbn [rbind]; [|done..]. generalize (S (length (concat (br_maps R)))) as fuel.
  intros fuel. revert st l. induction fuel as [|fuel IH]; intros st l E; cbn [collect] in E; [done|].
  unfold b_slices_next in E at 1. destruct (arch_iter_next _ _ _ _ _) as [[[i|] st']| |]; cbn [rbind] in E; [|injection E as <-; constructor|done|done].
  destruct (br_archs R !! i) as [A|]; cbn [rbind] in E; [|done]. destruct (bitem A (br_mem R)) as [y| |] eqn:Ey; cbn [rbind] in E; [|done..].
  destruct (collect _ fuel st') as [[l1|]| |] eqn:El; cbn [rbind] in E; [|done..]. injection E as <-. constructor; [by exists A|]. by eapply IH.
Qed.
Lemma get_mut_total r w I O C h : history c U r w I O -> C ∈ U -> exists res, get_component_mut c C h r = Rd res.
Proof using HU.
  intros Hh HC. destruct (set_observed c U HU r w I O Hh C h (Value (ct_ty C) 0 false)) as (res&E&_); [done|]. by exists res.
Qed.
Lemma id_keeps G : keeps_types G (fun _ v => v). Proof. by intros i C v _ H. Qed.

Lemma mut_refs r R G accept (items : list (list N * list (list loc))) : in_U U G -> gvalid be G -> brel r R ->
  slices_collect c G accept (fun i a => letr x := get_entity_fuzzy_slices_mut c G a in Rd (x.1, locate i x.2)) (r_ar r) = Rd (Some items) ->
  slices_collect c G accept (fun i a => letr cols := get_fuzzy_slices_mut c G a in Rd (locate i cols)) (r_ar r) = Rd (Some (map snd items)) ->
  NoDup (concat (concat (map snd items))) ->
  exists bitems beitems,
    b_slices_collect c G accept (b_get_fuzzy_slices_mut c G) R = Rd (Some bitems) /\ Forall (fun cols => exists n, sound_columns (br_mem R) G n cols) bitems /\
    exclusive (concat (concat bitems)) /\
    b_slices_collect c G accept (b_get_entity_fuzzy_slices_mut c G) R = Rd (Some beitems) /\
    Forall (fun it => sound_columns (br_mem R) G (length it.1) it.2) beitems /\ exclusive (concat (concat (map snd beitems))).
Proof using HU Hla.
  intros HG Hv H Ee Em Hnd. destruct (gspec_valid c G Hv) as [s Hg]. pose proof (in_positive _ HG) as Hpos.
  destruct (iter_mut_sim c U HU Hla _ _ _ _ _ _ Hg HG H Em) as ([bitems|]&Eb&HQ); [|done]. destruct (iter_emut_sim c U HU Hla _ _ _ _ _ _ Hg HG H Ee) as ([beitems|]&Ebe&HQe); [|done].
  exists bitems, beitems. split; [exact Eb|]. split; [|split; [|split; [exact Ebe|split]]].
  - apply collect_items in Eb. eapply Forall_impl; [exact Eb|]. cbv beta. intros cols (A&E). unfold b_get_fuzzy_slices_mut in E.
    destruct (rdebug_assert _ _); cbn [rbind] in E; [|done..]. destruct (b_get_fuzzy_pointers _ _ _ _) as [ps| |]; cbn [rbind] in E; [|done..].
    exists (b_count A). by eapply slices_mut_sound.
  - eapply lr_exclusive; [apply (bl_owned _ _ H)|exact Hnd|]. apply Forall2_concat2, Forall2_concat2. exact HQ.
  - apply collect_items in Ebe. eapply Forall_impl; [exact Ebe|]. cbv beta. intros [es cols] (A&E). unfold b_get_entity_fuzzy_slices_mut in E.
    destruct (rdebug_assert _ _); cbn [rbind] in E; [|done..]. destruct (b_get_fuzzy_pointers _ _ _ _) as [ps| |]; cbn [rbind] in E; [|done..].
    destruct (b_entities A (br_mem R)) as [es'| |] eqn:Ees; cbn [rbind] in E; [|done..]. destruct (b_slices_mut _ _ _ _ _) as [cols'| |] eqn:Ec; cbn [rbind] in E; [|done..]. injection E as <- <-.
    cbn [fst snd]. rewrite (entities_length _ _ _ Ees). by eapply slices_mut_sound.
  - eapply lr_exclusive; [apply (bl_owned _ _ H)|exact Hnd|]. apply Forall2_concat2, Forall2_concat2.
    change (@map (list N * list (list loc)) _ snd items) with (snd <$> items). change (map snd beitems) with (snd <$> beitems). apply Forall2_fmap_2. eapply Forall2_impl; [exact HQe|]. by intros x y [_ ?].
Qed.
Lemma matching_refs place ops out R G : within be U ops book_empty -> brun c ops (breg_default place) = Ret out R -> in_U U G -> gvalid be G ->
  refs_ok (br_mem R) G (b_iter_matching_mut c G R) (b_iter_entity_matching_mut c G R).
Proof using HU Hla.
  intros Hw Er HG Hv. destruct (brun_history place ops Hw) as (r&R1&w&I&O&_&Eb&Hh&H). rewrite Er in Eb. injection Eb as _ <-.
  destruct (iter_mut_observed c U HU r w I O Hh G _ HG Hv (id_keeps G)) as (items&E1&E2&Hnd&_). by eapply mut_refs.
Qed.
Lemma filtered_refs place ops out R G f : within be U ops book_empty -> brun c ops (breg_default place) = Ret out R -> in_U U G -> gvalid be G -> respects f ->
  refs_ok (br_mem R) G (b_iter_filtered_mut c G f R) (b_iter_entity_filtered_mut c G f R).
Proof using HU Hla.
  intros Hw Er HG Hv Hf. destruct (brun_history place ops Hw) as (r&R1&w&I&O&_&Eb&Hh&H). rewrite Er in Eb. injection Eb as _ <-.
  destruct (filter_mut_observed c U HU r w I O Hh G f _ HG Hv Hf (id_keeps G)) as (items&E1&E2&Hnd&_). by eapply mut_refs.
Qed.
Lemma exact_refs place ops out R G : within be U ops book_empty -> brun c ops (breg_default place) = Ret out R -> in_U U G -> gvalid be G -> known be U G ->
  exists es cols, b_exact_mut c G R = Rd cols /\ b_entity_exact_mut c G R = Rd (es, cols) /\ sound_columns (br_mem R) G (length es) cols /\ exclusive (concat cols).
Proof using HU Hla.
  intros Hw Er HG Hv Hkn. destruct (brun_history place ops Hw) as (r&R1&w&I&O&_&Eb&Hh&H). rewrite Er in Eb. injection Eb as _ <-.
  destruct (exact_mut_observed c U HU r w I O Hh G _ HG Hv Hkn (id_keeps G)) as ([es sl]&E1&E2&Hnd&_). cbn [fst snd] in *.
  destruct (history_ok c U HU _ _ _ _ Hh) as (T&D&Hok&_). unfold iter_entity_components_exact_mut in E1. unfold iter_components_exact_mut in E2. unfold b_exact_mut, b_entity_exact_mut.
  destruct (exact_sim c U HU _ _ _ _ _ Hok HG Hv Hkn H) as [(Ef&->)|(i&a&A&s&Ef&->&Ha&HA&Hr&Hg&Hcs)]; rewrite Ef in E1, E2; cbn [rbind] in *.
  { injection E2 as <-. exists [], (empty_slices G). split; [done|]. split; [done|]. split.
    - unfold sound_columns, empty_slices. clear. induction G; cbn; by repeat constructor.
    - assert (En : concat (empty_slices G : list (list bloc)) = []) by (unfold empty_slices; clear; by induction G). rewrite En. by intros ? ? ? ? ? ? ?. }
  destruct (entities a) as [es'| |] eqn:Ee; cbn [rbind] in E1; [|done..].
  destruct (get_slices_exact_mut c G a) as [cols| |] eqn:Ec; cbn [rbind] in *; [|done..]. injection E1 as <- <-.
  rewrite (entities_sim _ _ _ _ Hr Ee). cbn [rbind].
  destruct (slices_exact_mut_sim Hsm Hla _ _ _ Hg HG _ _ _ _ _ eq_refl Hcs Hr Ec) as (bcols&Ebc&Hb). rewrite Ebc. cbn [rbind]. exists es', bcols. split; [done|]. split; [done|]. split.
  - unfold b_get_slices_exact_mut in Ebc. destruct (rdebug_assert _ _); cbn [rbind] in Ebc; [|done..].
    rewrite (entities_length _ _ _ (entities_sim _ _ _ _ Hr Ee)). eapply slices_mut_sound; [by apply in_positive|exact Ebc].
  - eapply lr_exclusive; [apply (bl_owned _ _ H)|exact Hnd|]. apply Forall2_concat2. by eapply locate_lr.
Qed.
Lemma tuple_refs place ops out R G h : within be U ops book_empty -> brun c ops (breg_default place) = Ret out R -> in_U U G -> gvalid be G ->
  exists res, b_get_all_mut c G h R = Rd res /\ forall ls, res = Some ls -> Forall2 (sound_ref (br_mem R)) G ls /\ exclusive ls.
Proof using HU Hla.
  intros Hw Er HG Hv. destruct (brun_history place ops Hw) as (r&R1&w&I&O&_&Eb&Hh&H). rewrite Er in Eb. injection Eb as _ <-.
  destruct (get_all_mut_distinct c U HU r w I O Hh G h HG Hv) as (res&E&Hnd). destruct (gspec_valid c G Hv) as [s Hg].
  unfold get_components_mut in E. unfold b_get_all_mut. rewrite (entry_same _ _ _ _ H). destruct (entry_of c r h) as [e|]; [|by exists None].
  unfold arch_at in E. unfold b_arch_at. fold (archs r) in E. destruct (archs r !! e_arch c e) as [a|] eqn:Ea; [|done]. destruct (brel_at _ _ _ _ H Ea) as (A&EA&Hr). rewrite EA. cbn [rbind] in *.
  rewrite (ar_desc _ _ _ Hr). destruct (negb _); [by exists None|].
  destruct (get_fuzzy_components_mut c G (e_row e) a) as [ls| |] eqn:Eg; cbn [rbind] in E; [|done..]. injection E as <-.
  destruct (fuzzy_components_mut_sim Hst Hsm Hla _ _ _ Hg HG _ _ _ _ _ _ eq_refl Hr Eg) as (bls&Ebl&Hl). rewrite Ebl. cbn [rbind]. exists (Some bls). split; [done|].
  intros ls' [= <-]. split.
  - unfold b_get_fuzzy_components_mut in Ebl. destruct (rdebug_assert _ _); cbn [rbind] in Ebl; [|done..]. destruct (b_get_fuzzy_pointers _ _ _ _) as [ps| |]; cbn [rbind] in Ebl; [|done..].
    eapply tuple_mut_sound; [by apply in_positive|exact Ebl].
  - eapply lr_exclusive; [apply (bl_owned _ _ H)|exact (Hnd _ eq_refl)|]. apply Forall2_fmap_l. eapply Forall2_impl; [exact Hl|]. intros [idx row] bl Hb. by eapply lrel_lr.
Qed.
Lemma single_ref place ops out R C h : within be U ops book_empty -> brun c ops (breg_default place) = Ret out R -> C ∈ U ->
  exists res, b_get_mut c C h R = Rd res /\ forall l, res = Some l -> sound_ref (br_mem R) C l.
Proof using HU Hla.
  intros Hw Er HC. destruct (brun_history place ops Hw) as (r&R1&w&I&O&_&Eb&Hh&H). rewrite Er in Eb. injection Eb as _ <-.
  destruct (get_mut_total r w I O C h Hh HC) as (res&E). unfold get_component_mut in E. unfold b_get_mut. rewrite (entry_same _ _ _ _ H).
  destruct (entry_of c r h) as [e|]; [|by exists None].
  unfold arch_at in E. unfold b_arch_at. fold (archs r) in E. destruct (archs r !! e_arch c e) as [a|] eqn:Ea; [|done]. destruct (brel_at _ _ _ _ H Ea) as (A&EA&Hr). rewrite EA. cbn [rbind] in *.
  rewrite (ar_desc _ _ _ Hr). destruct (negb _); [by exists None|].
  destruct (get_component_unchecked_mut C (e_row e) a) as [[idx row]| |] eqn:Eg; cbn [rbind] in E; [|done..].
  destruct (get_component_mut_sim Hst Hsm Hla _ _ _ _ _ _ Hr HC Eg) as (bl&Ebl&_). rewrite Ebl. cbn [rbind]. exists (Some bl). split; [done|]. intros l [= <-].
  unfold b_get_component_mut in Ebl. destruct (b_component_ptr _ _ _ _) as [p| |]; cbn [rbind] in Ebl; [|done..].
  destruct (read_as _ _ _) as [v| |] eqn:Ev; cbn [rbind] in Ebl; [|done..]. injection Ebl as <-. eapply read_as_sound; [|exact Ev].
  destruct (proj1 (Forall_forall _ _) Hsm _ HC) as (_&_&k&->). by apply N.neq_0_lt_0, N.pow_nonzero.
Qed.
End refs.
