(** Proofs for C53: reading, iterating and writing through references; whole programs. *)
From Verif Require Import ByteReg Sizes SearchProofs MonadProofs DescrProofs ArchProofs ArchOps ArchOps2 ArchOps3 RegProofs RegOps RegOps2 RegExact Refine Ref
  Bytes Bytes2 Bytes3 Bytes4 Bytes5 SpecBytes SpecBase SpecTrace SpecWorld SpecRef.
Local Open Scope nat_scope.

(** ** What the lookups see *)
Lemma scan_level_desc l l' accept keys : (forall i, a_desc <$> l !! i = a_desc <$> l' !! i) ->
  forall idx, scan_level l accept keys idx = scan_level l' accept keys idx.
Proof.
  intros H. induction keys as [|k keys IH]; intros idx; cbn [scan_level]; [done|]. specialize (H (k_idx k)).
  destruct (l !! k_idx k) as [a|], (l' !! k_idx k) as [a'|]; cbn in H; try done. injection H as ->. by rewrite IH.
Qed.
Lemma scan_levels_desc ar ar' accept fuel : ar_maps ar = ar_maps ar' -> (forall i, a_desc <$> ar_archs ar !! i = a_desc <$> ar_archs ar' !! i) ->
  forall st, scan_levels ar accept fuel st = scan_levels ar' accept fuel st.
Proof.
  intros Hm H. induction fuel as [|fuel IH]; intros st; cbn [scan_levels]; [done|]. rewrite Hm. destruct (ar_maps ar' !! _) as [keys|]; [|done].
  rewrite (scan_level_desc _ _ _ _ H). destruct (scan_level _ _ _ _) as [[[i|] idx]| |]; cbn [rbind]; [done|apply IH|done|done].
Qed.

(** The bytes a reference of the registry covers. *)
Definition lr (ds : list adesc) (As : list barch) (l : loc) (bl : bloc) : Prop :=
  exists d A D id, ds !! l.1.1 = Some d /\ As !! l.1.1 = Some A /\ ad_components d !! l.1.2 = Some D /\
    b_ptrs A !! l.1.2 = Some (Some (id, 0)) /\ bl = (Some (id, dsize D * l.2), dsize D).
Definition descs (r : reg) : list adesc := map a_desc (archs r).
Lemma lrel_lr r i a As A idx row bl : archs r !! i = Some a -> As !! i = Some A -> lrel a A (idx, row) bl -> lr (descs r) As (i, idx, row) bl.
Proof.
  intros Ha HA (D&id&HD&Hq&->). exists (a_desc a), A, D, id. cbn in *. split; [|done]. unfold descs. change (map a_desc (archs r)) with (a_desc <$> archs r). by rewrite list_lookup_fmap, Ha.
Qed.

Section registry.
Context {U : list ctype} {L : list (N * hblk)} (Hst : strict (ids_of U)) (Hsm : Forall small U) (Hla : laid_out U).
Notation arel := (@Bytes.arel U).
Notation brel := (@Bytes5.brel U L).
Notation rsim := (@Bytes5.rsim U L).

Lemma shadow_desc r R : brel r R -> forall i, a_desc <$> ar_archs (shadow R) !! i = a_desc <$> ar_archs (r_ar r) !! i.
Proof.
  intros H i. cbn [shadow ar_archs]. change (map bare (br_archs R)) with (bare <$> br_archs R). rewrite list_lookup_fmap. fold (archs r).
  destruct (archs r !! i) as [a|] eqn:Ea.
  - destruct (brel_at _ _ _ _ H Ea) as (A&EA&Hr). rewrite EA. cbn. by rewrite (ar_desc _ _ _ Hr).
  - by rewrite (brel_none _ _ _ H Ea).
Qed.
Lemma arch_iter_next_sim r R c G accept st : brel r R -> arch_iter_next c G accept (shadow R) st = arch_iter_next c G accept (r_ar r) st.
Proof.
  intros H. unfold arch_iter_next. destruct (negb _); [done|]. apply scan_levels_desc; [apply (bl_maps _ _ H)|by apply shadow_desc].
Qed.
Lemma slices_collect_sim {I J} r R c G accept (item : nat -> arch -> rd I) (bitem : barch -> mem -> rd J) (Q : I -> J -> Prop) l :
  brel r R ->
  (forall i a A x, archs r !! i = Some a -> br_archs R !! i = Some A -> arel (m_blocks (br_mem R)) a A -> item i a = Rd x ->
     exists y, bitem A (br_mem R) = Rd y /\ Q x y) ->
  slices_collect c G accept item (r_ar r) = Rd l ->
  exists l', b_slices_collect c G accept bitem R = Rd l' /\ match l, l' with Some l, Some l' => Forall2 Q l l' | None, None => True | _, _ => False end.
Proof.
  intros H Hitem E. unfold slices_collect in E. unfold b_slices_collect, total_keys in *. rewrite (bl_maps _ _ H).
  destruct (arch_iter_new c G) as [st| |]; cbn [rbind] in *; [|done..]. revert st l E.
  generalize (S (length (concat (ar_maps (r_ar r))))) as fuel. induction fuel as [|fuel IH]; intros st l E; cbn [collect] in *; [injection E as <-; by exists None|].
  unfold slices_next in E at 1. unfold b_slices_next at 1. rewrite (arch_iter_next_sim _ _ _ _ _ _ H).
  destruct (arch_iter_next _ _ _ _ _) as [[[i|] st']| |]; cbn [rbind] in *; [|injection E as <-; by exists (Some [])|done|done].
  fold (archs r) in E. destruct (archs r !! i) as [a|] eqn:Ea; cbn [rbind] in E; [|done]. destruct (brel_at _ _ _ _ H Ea) as (A&EA&Hr). rewrite EA.
  destruct (item i a) as [x| |] eqn:Ei; cbn [rbind] in E; [|done..]. destruct (Hitem _ _ _ _ Ea EA Hr Ei) as (y&->&HQ). cbn [rbind].
  destruct (collect _ fuel st') as [l1| |] eqn:El; cbn [rbind] in E; [|done..]. injection E as <-.
  destruct (IH _ _ El) as (l1'&->&Hl). cbn [rbind]. eexists. split; [done|]. destruct l1, l1'; cbn; try done. by constructor.
Qed.
Lemma slices_collect_eq {I} r R c G accept (item : arch -> rd I) (bitem : barch -> mem -> rd I) l :
  brel r R -> (forall a A x, arel (m_blocks (br_mem R)) a A -> item a = Rd x -> bitem A (br_mem R) = Rd x) ->
  slices_collect c G accept (fun _ => item) (r_ar r) = Rd l -> b_slices_collect c G accept bitem R = Rd l.
Proof.
  intros H Hitem E. destruct (slices_collect_sim r R c G accept (fun _ => item) bitem eq l H) as (l1&El&Hl); [|exact E|].
  - intros i a A x _ _ Hr Ex. exists x. split; [by eapply Hitem|done].
  - rewrite El. destruct l as [l|], l1 as [l1|]; try done. do 2 f_equal. clear -Hl. induction Hl; by subst.
Qed.
Lemma find_exact_sim r R c G o : brel r R -> find_exact c G r = Rd o ->
  match o with
  | None => b_find_exact c G R = Rd None
  | Some (i, a) => archs r !! i = Some a /\ exists A, b_find_exact c G R = Rd (Some A) /\ br_archs R !! i = Some A /\ arel (m_blocks (br_mem R)) a A
  end.
Proof.
  intros H E. unfold find_exact in E. unfold b_find_exact.
  assert (Ef : find_archetype (gd_arch (group_desc (big c) G)) (shadow R) = find_archetype (gd_arch (group_desc (big c) G)) (r_ar r)).
  { unfold find_archetype, shadow. cbn [ar_maps ar_archs]. rewrite (bl_maps _ _ H), map_length, (bl_len _ _ H). done. }
  rewrite Ef. destruct (find_archetype _ _) as [[i|]| |]; cbn [rbind] in *; [|injection E as <-; done|done|done].
  fold (archs r) in E. destruct (archs r !! i) as [a|] eqn:Ea; [|done]. injection E as <-. destruct (brel_at _ _ _ _ H Ea) as (A&EA&Hr).
  split; [done|]. exists A. by rewrite EA.
Qed.

(** ** Writing through references *)
Lemma desc_at r ds i d : descs r = ds -> ds !! i = Some d -> exists a, archs r !! i = Some a /\ a_desc a = d.
Proof. intros <- Hd. unfold descs in Hd. apply map_lookup_inv in Hd as (a&?&->). by exists a. Qed.
Lemma read_loc r R l bl ov : brel r R -> lr (descs r) (br_archs R) l bl ->
  (let! a := rm_rd (arch_at l.1.1) in lift_rd (raw_cell a l.1.2 l.2)) r = Ret (Some ov) r ->
  load (br_mem R) bl.1 bl.2 = Rd (val_bytes bl.2 ov) /\ bytes_val (val_bytes bl.2 ov) = Some ov.
Proof using Hsm.
  intros H (d&A&D&id&Hd&HA&HD&Hq&->) E. destruct (desc_at _ _ _ _ eq_refl Hd) as (a&Ha&<-).
  unfold bind, rm_rd, arch_at in E. fold (archs r) in E. rewrite Ha in E. cbn [lift_rd ret] in E. unfold ret in E. apply lift_inv in E as [E _].
  pose proof (bl_archs _ _ H _ _ _ Ha HA) as Hr. destruct (cell_load _ _ _ _ _ _ _ Hr HD E) as (id'&Hq'&_&Hl). rewrite Hq in Hq'. injection Hq' as <-.
  cbn [fst snd cell_bytes] in *. rewrite Nat.mul_comm. split; [done|]. apply bytes_val_ok.
  destruct (knows_at _ _ _ (ar_knows _ _ _ Hr) HD) as (C&HC&->). rewrite (dsize_of Hsm) by done.
  pose proof (U_small Hsm _ HC) as Hs. unfold small in Hs. unfold size_of. lia.
Qed.
Definition stays (r : reg) (R : breg) (r' : reg) (R' : breg) : Prop := descs r' = descs r /\ br_archs R' = br_archs R.
Definition wsim {X} (ds : list adesc) (As : list barch) (f : RM X) (g : BRM X) : Prop :=
  forall r R x r', brel r R -> descs r = ds -> br_archs R = As -> f r = Ret x r' ->
    exists R', g R = Ret x R' /\ brel r' R' /\ descs r' = ds /\ br_archs R' = As.
Lemma wsim_bind {X Y} ds As (f : RM X) g (k : X -> RM Y) k' :
  wsim ds As f g -> (forall x, wsim ds As (k x) (k' x)) -> wsim ds As (bind f k) (bind g k').
Proof.
  intros Hf Hk r R y r2 H Hd HA E. unfold bind in E. destruct (f r) as [x r1|r1|] eqn:Ef; [|done..].
  destruct (Hf _ _ _ _ H Hd HA Ef) as (R1&Eg&H1&Hd1&HA1). destruct (Hk _ _ _ _ _ H1 Hd1 HA1 E) as (R2&Eg2&H2).
  exists R2. split; [unfold bind; by rewrite Eg|done].
Qed.
Lemma wsim_ret {X} ds As (x : X) : wsim ds As (ret x) (ret x).
Proof. intros r R y r' H Hd HA [= <- <-]. by exists R. Qed.
Lemma wsim_mmap {X Y Z} (Q : X -> Y -> Prop) ds As (f : X -> RM Z) (g : Y -> BRM Z) l l' :
  Forall2 Q l l' -> (forall x y, Q x y -> wsim ds As (f x) (g y)) -> wsim ds As (mmap f l) (mmap g l').
Proof.
  intros Hl Hf. induction Hl as [|x y l l' Hx Hl IH]; cbn [mmap]; [apply wsim_ret|].
  apply wsim_bind; [by apply Hf|intros z]. apply wsim_bind; [done|intros zs]. apply wsim_ret.
Qed.
Lemma rd_inv {X} (f : reg -> rd X) r x r' : rm_rd f r = Ret x r' -> f r = Rd x /\ r' = r.
Proof. intros E. exact (lift_inv (f r) r _ x E). Qed.
Lemma replace_inv l v r x r' : replace_loc l v r = Ret x r' ->
  (let! a := rm_rd (arch_at l.1.1) in lift_rd (raw_cell a l.1.2 l.2)) r = Ret (Some x) r /\ with_arch l.1.1 (write_cell l.1.2 l.2 (Some v)) r = Ret tt r'.
Proof.
  unfold replace_loc. intros (a&r1&E1&E)%bind_Ret_inv. pose proof E1 as [_ ->]%rd_inv. apply bind_Ret_inv in E as (o&r2&E2&E).
  pose proof E2 as [_ ->]%lift_inv. destruct o as [ov|]; [|done]. apply bind_Ret_inv in E as ([]&r3&E3&E). injection E as <- <-.
  split; [|done]. by rewrite (bind_Ret _ _ _ _ _ E1).
Qed.
Lemma wsim_replace ds As l bl v : lr ds As l bl -> wsim ds As (replace_loc l v) (b_replace bl v).
Proof using Hsm.
  intros Hl r R x r' H <- <- E. apply replace_inv in E as [E1 E2]. destruct (read_loc _ _ _ _ _ H Hl E1) as [El Eb].
  destruct Hl as (d&A&D&id&Hd&HA&HD&Hq&->). destruct (desc_at _ _ _ _ eq_refl Hd) as (a&Ha&<-).
  unfold with_arch in E2. fold (archs r) in E2. rewrite Ha in E2. destruct (write_cell _ _ _ _) as [[] [a' e']|s|] eqn:Ew; [|done..]. injection E2 as <-.
  destruct (cell_write _ _ _ _ _ _ _ _ (brel_ast _ _ _ _ _ H Ha HA) HD Ew) as (id'&m'&Hq'&_&Hs&Has&Hk). cbn [fst snd] in *. rewrite Hq in Hq'. injection Hq' as <-.
  pose proof (brel_put _ _ _ _ _ _ _ _ H HA Has Hk) as H'. rewrite (list_insert_id (br_archs R) l.1.1 A HA) in H'.
  eexists. split; [|split; [exact H'|split; [|done]]].
  - unfold b_replace, bind, bq_mrd. cbn [fst snd]. rewrite El. cbn [lift_rd ret]. unfold ret at 1. rewrite Eb. unfold bq_mem. rewrite Nat.mul_comm.
    cbn [cell_bytes] in Hs. rewrite Hs. done.
  - unfold descs, archs. cbn. change (@map arch adesc a_desc) with (fmap (M := list) a_desc). rewrite list_fmap_insert. apply list_insert_id. rewrite list_lookup_fmap. fold (archs r). rewrite Ha. cbn. f_equal.
    pose proof (write_cell_desc _ _ _ _ _ Ew) as Hdesc. by cbn in Hdesc.
Qed.
Lemma wsim_replaces ds As ls bls vs : Forall2 (lr ds As) ls bls -> wsim ds As (replace_locs ls vs) (b_replaces bls vs).
Proof using Hsm.
  intros Hl. revert vs. induction Hl as [|l bl ls bls Hb Hl IH]; intros [|v vs]; cbn [replace_locs b_replaces]; try apply wsim_ret.
  apply wsim_bind; [by apply wsim_replace|intros ov]. apply wsim_bind; [apply IH|intros ovs]. apply wsim_ret.
Qed.
Lemma wsim_modify ds As f l bl : lr ds As l bl -> wsim ds As (modify_loc f l) (b_modify f bl).
Proof using Hsm.
  intros Hl r R x r' H Hd HA E. unfold modify_loc in E.
  assert (Hx : exists ov, (let! a := rm_rd (arch_at l.1.1) in lift_rd (raw_cell a l.1.2 l.2)) r = Ret (Some ov) r /\ replace_loc l (f ov) r = Ret x r').
  { unfold bind, rm_rd in *. destruct (arch_at l.1.1 r) as [a| |]; [|done..]. cbn [lift_rd ret] in *. unfold ret in *.
    destruct (raw_cell a l.1.2 l.2) as [[ov|]| |]; [|done..]. cbn [lift_rd] in *. by exists ov. }
  destruct Hx as (ov&E1&E2). rewrite <- Hd, <- HA in Hl. destruct (read_loc _ _ _ _ _ H Hl E1) as [El Eb].
  rewrite Hd, HA in Hl. destruct (wsim_replace _ _ _ _ _ Hl _ _ _ _ H Hd HA E2) as (R'&ER&HR). exists R'. split; [|done].
  unfold b_modify, bind, bq_mrd. rewrite El. cbn [lift_rd]. unfold ret. rewrite Eb. exact ER.
Qed.
Lemma Forall2_enum {X Y} (Q : X -> Y -> Prop) l l' : Forall2 Q l l' -> Forall2 (fun x y => x.1 = y.1 /\ Q x.2 y.2) (enum l) (enum l').
Proof.
  intros H. unfold enum. rewrite <- (Forall2_length _ _ _ H). generalize 0 as k. induction H as [|x y l l' Hx H IH]; intros k; cbn [length seq zip zip_with]; constructor; [done|]. apply IH.
Qed.
Lemma wsim_item ds As upd cols bcols : Forall2 (Forall2 (lr ds As)) cols bcols -> wsim ds As (modify_item upd cols) (b_modify_item upd bcols).
Proof using Hsm.
  intros H. unfold modify_item, b_modify_item. eapply wsim_mmap; [by apply Forall2_enum|]. intros [i col] [i' bcol] [Hi Hc]. cbn in Hi, Hc. subst i'.
  eapply wsim_mmap; [done|]. intros l bl. apply wsim_modify.
Qed.
Definition elr (ds : list adesc) (As : list barch) (x : list N * list (list loc)) (y : list N * list (list bloc)) : Prop :=
  x.1 = y.1 /\ Forall2 (Forall2 (lr ds As)) x.2 y.2.
Lemma wsim_items ds As upd l l' : Forall2 (Forall2 (Forall2 (lr ds As))) l l' -> wsim ds As (modify_items upd l) (b_modify_items upd l').
Proof using Hsm. intros H. eapply wsim_mmap; [done|]. intros x y. apply wsim_item. Qed.
Lemma wsim_eitems ds As upd l l' : Forall2 (elr ds As) l l' -> wsim ds As (modify_eitems upd l) (b_modify_eitems upd l').
Proof using Hsm.
  intros H. eapply wsim_mmap; [done|]. intros [es cols] [es' bcols] [Hes Hc]. cbn in Hes, Hc. subst es'.
  apply wsim_bind; [by apply wsim_item|intros vs]. apply wsim_ret.
Qed.
Lemma wsim_rsim {X} r R (f : RM X) g : wsim (descs r) (br_archs R) f g -> rsim r R f g.
Proof. intros Hw H x r' E. destruct (Hw _ _ _ _ H eq_refl eq_refl E) as (R'&?&?&_). by exists R'. Qed.
Lemma locate_lr r As i a A cols bcols : archs r !! i = Some a -> As !! i = Some A ->
  Forall2 (Forall2 (lrel a A)) cols bcols -> Forall2 (Forall2 (lr (descs r) As)) (locate i cols) bcols.
Proof.
  intros Ha HA H. unfold locate. change (@map (list (nat * nat)) (list loc)) with (@fmap list _ (list (nat * nat)) (list loc)). apply Forall2_fmap_l. eapply Forall2_impl; [exact H|].
  intros col bcol Hc. change (@map (nat * nat) loc) with (@fmap list _ (nat * nat) loc). apply Forall2_fmap_l. eapply Forall2_impl; [exact Hc|]. intros [idx row] bl Hl. by eapply lrel_lr.
Qed.
(** First the references, then the writing. *)
Lemma rsim_then {X Y Z} r R (f : reg -> rd X) (g : breg -> rd Y) (Q : X -> Y -> Prop) (k : X -> RM Z) k' :
  (brel r R -> forall x, f r = Rd x -> exists y, g R = Rd y /\ Q x y) -> (forall x y, Q x y -> rsim r R (k x) (k' y)) ->
  rsim r R (let! x := rm_rd f in k x) (let! y := bq_rd g in k' y).
Proof.
  intros Hf Hk H z r' E. unfold bind, rm_rd in E. destruct (f r) as [x| |] eqn:Ef; [|done..]. cbn [lift_rd] in E. unfold ret in E.
  destruct (Hf H _ eq_refl) as (y&Eg&HQ). destruct (Hk _ _ HQ H _ _ E) as (R'&ER&HR). exists R'. split; [|done].
  unfold bind, bq_rd. rewrite Eg. exact ER.
Qed.
Definition orel {X Y} (Q : X -> Y -> Prop) (x : option X) (y : option Y) : Prop :=
  match x, y with Some x, Some y => Q x y | None, None => True | _, _ => False end.
End registry.

Section steps.
Context {Fm : family} (c : cfg) (U : list ctype) {L : list (N * hblk)} (HU : universe (big c) U) (Hla : laid_out U).
Notation be := (big c).
Notation brel := (@Bytes5.brel U L).
Notation rsim := (@Bytes5.rsim U L).
Notation arel := (@Bytes.arel U).
Implicit Types (T : list tab) (w : world).
Let Hst : strict (ids_of U) := proj1 HU.
Let Hsm : Forall small U := proj1 (proj2 HU).

(** [reg_ok], whatever the allocator's answers and the trace. *)
Definition reg_like (r : reg) T w : Prop := exists e, reg_ok be U (Reg (r_er r) (r_ar r) e) T w.
Lemma ok_like r T w : reg_ok be U r T w -> reg_like r T w.
Proof. intros H. exists (r_env r). by destruct r. Qed.
Lemma like_tidy r T w : reg_like r T w -> tidy r.
Proof.
  intros [e0 H] i a Ha. destruct (ro_arch _ _ _ _ _ _ _ H Ha) as (t&Ht&Hta). destruct (tab_facts _ _ _ _ Hta) as (Hd&_). split; [apply Hd|].
  destruct (desc_len _ _ Hd) as [-> _]. apply Hd.
Qed.
Lemma like_dead r T w h : reg_like r T w -> w !! h = None -> entry_of c r h = None.
Proof. intros [e0 H] E. exact (dead_entry c U _ _ _ _ H E). Qed.
Lemma like_live r T w h e : reg_like r T w -> w !! h = Some e ->
  exists en i j t m a, entry_of c r h = Some en /\ e_arch c en = i /\ e_row en = j /\
    entry_index_in_archetype en = N.of_nat j /\ T !! i = Some t /\ t_rows t !! j = Some (h, m) /\ e = Ent (t_id t) m /\
    ar_archs (r_ar r) !! i = Some a /\ tab_ok be U a t.
Proof. intros [e0 H] E. exact (live_entry c U _ _ _ _ _ H E). Qed.
Lemma reg_tidy r T w : reg_ok be U r T w -> tidy r.
Proof. intros H. by eapply like_tidy, ok_like. Qed.
Lemma tab_comps a t : tab_ok be U a t -> a_comps a = map cdesc_of (t_cs t).
Proof. intros Ht. destruct (tab_facts _ _ _ _ Ht) as (Hd&_). apply Hd. Qed.
Lemma rsim_map {X Y} r R (f : RM X) g (k : X -> Y) : rsim r R f g -> rsim r R (let! x := f in ret (k x)) (let! x := g in ret (k x)).
Proof. intros H. apply rsim_bind; [done|]. intros x ? ? _ _. apply rsim_ret. Qed.
Lemma at_entry {X} r R h (f : entry -> arch -> rd X) (g : entry -> barch -> rd X) (z : X) v :
  brel r R -> (forall e a A v, archs r !! e_arch c e = Some a -> br_archs R !! e_arch c e = Some A -> arel (m_blocks (br_mem R)) a A -> f e a = Rd v -> g e A = Rd v) ->
  match entry_of c r h with None => Rd z | Some e => letr a := arch_at (e_arch c e) r in f e a end = Rd v ->
  match b_entry_of c R h with None => Rd z | Some e => letr a := b_arch_at (e_arch c e) R in g e a end = Rd v.
Proof.
  intros H Hf E. rewrite (entry_same _ _ _ _ H). destruct (entry_of c r h) as [e|]; [|done]. unfold arch_at in E. unfold b_arch_at. fold (archs r) in E.
  destruct (archs r !! e_arch c e) as [a|] eqn:Ea; [|done]. destruct (brel_at _ _ _ _ H Ea) as (A&EA&Hr). rewrite EA. cbn [rbind] in *. by eapply Hf.
Qed.
Definition oorel {X Y} (Q : X -> Y -> Prop) (x : option (list X)) (y : option (list Y)) : Prop :=
  match x, y with Some x, Some y => Forall2 Q x y | None, None => True | _, _ => False end.
Lemma rsim_iter {X Y Z} r R (f : reg -> rd (option (list X))) (g : breg -> rd (option (list Y))) (Q : X -> Y -> Prop) (k : list X -> RM Z) k' :
  (brel r R -> forall x, f r = Rd x -> exists y, g R = Rd y /\ oorel Q x y) -> (forall x y, Forall2 Q x y -> rsim r R (k x) (k' y)) ->
  rsim r R (let! l := rm_rd f in let! l := unwrap l in k l) (let! l := bq_rd g in let! l := unwrap l in k' l).
Proof.
  intros Hf Hk. eapply rsim_then; [exact Hf|]. intros [x|] [y|] HQ; try done. intros H z r' E. exact (Hk _ _ HQ H z r' E).
Qed.
Lemma iter_mut_sim r R G s accept l : gspec be G s -> in_U U G -> brel r R ->
  slices_collect c G accept (fun i a => letr cols := get_fuzzy_slices_mut c G a in Rd (locate i cols)) (r_ar r) = Rd l ->
  exists l', b_slices_collect c G accept (b_get_fuzzy_slices_mut c G) R = Rd l' /\ oorel (Forall2 (Forall2 (lr (descs r) (br_archs R)))) l l'.
Proof using HU Hla.
  intros Hg HG H. apply (slices_collect_sim (U := U) (L := L)); [done|]. intros i a A x Ha HA Hr E.
  destruct (get_fuzzy_slices_mut c G a) as [cols| |] eqn:Ec; cbn [rbind] in E; [|done..]. injection E as <-.
  destruct (fuzzy_slices_mut_sim Hst Hsm Hla _ _ _ Hg HG _ _ _ _ _ eq_refl Hr Ec) as (bcols&Eb&Hb). exists bcols. split; [done|]. by eapply locate_lr.
Qed.
Lemma iter_emut_sim r R G s accept l : gspec be G s -> in_U U G -> brel r R ->
  slices_collect c G accept (fun i a => letr x := get_entity_fuzzy_slices_mut c G a in Rd (x.1, locate i x.2)) (r_ar r) = Rd l ->
  exists l', b_slices_collect c G accept (b_get_entity_fuzzy_slices_mut c G) R = Rd l' /\ oorel (elr (descs r) (br_archs R)) l l'.
Proof using HU Hla.
  intros Hg HG H. apply (slices_collect_sim (U := U) (L := L)); [done|]. intros i a A x Ha HA Hr E.
  destruct (get_entity_fuzzy_slices_mut c G a) as [[es cols]| |] eqn:Ec; cbn [rbind] in E; [|done..]. injection E as <-.
  destruct (entity_fuzzy_slices_mut_sim Hst Hsm Hla _ _ _ Hg HG _ _ _ _ _ eq_refl Hr Ec) as ([es' bcols]&Eb&Hes&Hb). exists (es', bcols). split; [done|].
  split; [done|]. cbn [fst snd] in *. by eapply locate_lr.
Qed.
Lemma exact_sim_like r R T w G : reg_like r T w -> in_U U G -> gvalid be G -> known be U G -> brel r R ->
  (find_exact c G r = Rd None /\ b_find_exact c G R = Rd None) \/
  (exists i a A s, find_exact c G r = Rd (Some (i, a)) /\ b_find_exact c G R = Rd (Some A) /\ archs r !! i = Some a /\ br_archs R !! i = Some A /\
     arel (m_blocks (br_mem R)) a A /\ gspec be G s /\ a_comps a = map cdesc_of s).
Proof using HU.
  intros [e0 Hok] HG Hv Hkn H. destruct (exact_find c U HU _ _ _ _ Hok HG Hv Hkn) as [(E&_)|(i&a&t&E&Ha&Ht&Hta&Hg&_)]; pose proof (find_exact_sim r _ _ _ _ H E) as HE; cbn in HE.
  - by left.
  - right. destruct HE as (_&A&EA&HA&Hr). exists i, a, A, (t_cs t). split_and!; try done. by apply tab_comps.
Qed.
Lemma exact_sim r R T w G : reg_ok be U r T w -> in_U U G -> gvalid be G -> known be U G -> brel r R ->
  (find_exact c G r = Rd None /\ b_find_exact c G R = Rd None) \/
  (exists i a A s, find_exact c G r = Rd (Some (i, a)) /\ b_find_exact c G R = Rd (Some A) /\ archs r !! i = Some a /\ br_archs R !! i = Some A /\
     arel (m_blocks (br_mem R)) a A /\ gspec be G s /\ a_comps a = map cdesc_of s).
Proof using HU. intros H. by eapply exact_sim_like, ok_like. Qed.
Lemma empty_lr {X Y} (Q : X -> Y -> Prop) G : Forall2 (Forall2 Q) (empty_slices G) (empty_slices G).
Proof. unfold empty_slices. induction G; cbn; by repeat constructor. Qed.
Lemma step_sim_like r R T w o : reg_like r T w -> contract be U w o -> rsim r R (step c o) (bstep c o).
Proof using HU Hla.
  intros Hok Hc. destruct o as [G vs|h|G h|C h|G h|C h|G h|C h v|G h vs|C h v|C h| |G|G|G f|G f|G upd|G upd|G f upd|G f upd|G|G|G upd|G upd]; cbn [step bstep].
  - destruct Hc as (HG&Hf&_). apply rsim_map. apply rsim_create; [done|done|]. symmetry. by eapply Forall2_length.
  - apply rsim_map. by apply rsim_destroy.
  - destruct Hc as (HG&Hf). apply rsim_map. apply rsim_remove_entity; [done|done|done|]. intros e Ee. destruct (w !! h) as [x|] eqn:Ew.
    + destruct (Hf _ eq_refl) as [Hv Hfull]. destruct (like_live _ _ _ _ _ Hok Ew) as (en&i&j&t&m&a&Een&<-&<-&Hrow&Ht&Hj&->&Ha&Hta).
      rewrite Ee in Een. injection Een as <-. exists (t_cs t), a. split; [by eapply gspec_exact|]. split; [done|]. by apply tab_comps.
    + by rewrite (like_dead _ _ _ _ Hok Ew) in Ee.
  - apply rsim_map, rsim_rd. intros H v. unfold has_component, b_has_component. apply at_entry; [done|]. intros e a A x _ _ Hr. by rewrite (ar_desc _ _ _ Hr).
  - apply rsim_map, rsim_rd. intros H v. unfold has_components, b_has_components. apply at_entry; [done|]. intros e a A x _ _ Hr. by rewrite (ar_desc _ _ _ Hr).
  - cbn in Hc. apply rsim_map, rsim_rd. intros H v. unfold get_component, b_get. apply at_entry; [done|]. intros e a A x _ _ Hr. rewrite (ar_desc _ _ _ Hr).
    destruct (negb _); [done|]. destruct (get_component_unchecked C (e_row e) a) as [y| |] eqn:Eg; [|done..]. by rewrite (get_component_sim Hst Hsm Hla _ _ _ _ _ _ Hr Hc Eg).
  - destruct Hc as [HG Hv]. destruct (gspec_valid c G Hv) as [s Hg]. apply rsim_map, rsim_rd. intros H v. unfold get_components, b_get_all. apply at_entry; [done|]. intros e a A x _ _ Hr. rewrite (ar_desc _ _ _ Hr).
    destruct (negb _); [done|]. destruct (get_fuzzy_components c G (e_row e) a) as [y| |] eqn:Eg; [|done..]. by rewrite (fuzzy_components_sim Hst Hsm Hla _ _ _ Hg HG _ _ _ _ _ _ eq_refl Hr Eg).
  - destruct Hc as [HC _]. eapply rsim_then with (Q := orel (lr (descs r) (br_archs R))).
    + intros H x Ex. unfold get_component_mut in Ex. unfold b_get_mut. rewrite (entry_same _ _ _ _ H). destruct (entry_of c r h) as [e|]; [|injection Ex as <-; by exists None].
      unfold arch_at in Ex. unfold b_arch_at. fold (archs r) in Ex. destruct (archs r !! e_arch c e) as [a|] eqn:Ea; [|done]. destruct (brel_at _ _ _ _ H Ea) as (A&EA&Hr). rewrite EA. cbn [rbind] in *.
      rewrite (ar_desc _ _ _ Hr). destruct (negb _); [injection Ex as <-; by exists None|].
      destruct (get_component_unchecked_mut C (e_row e) a) as [[idx row]| |] eqn:Eg; cbn [rbind] in Ex; [|done..]. injection Ex as <-.
      destruct (get_component_mut_sim Hst Hsm Hla _ _ _ _ _ _ Hr HC Eg) as (bl&->&Hl). cbn [rbind]. exists (Some bl). split; [done|]. cbn. by eapply lrel_lr.
    + intros [l|] [bl|] HQ; try done; [|apply rsim_ret]. apply wsim_rsim. apply wsim_bind; [by apply wsim_replace|]. intros old. apply wsim_ret.
  - destruct Hc as (HG&Hv&_). destruct (gspec_valid c G Hv) as [s Hg]. eapply rsim_then with (Q := orel (Forall2 (lr (descs r) (br_archs R)))).
    + intros H x Ex. unfold get_components_mut in Ex. unfold b_get_all_mut. rewrite (entry_same _ _ _ _ H). destruct (entry_of c r h) as [e|]; [|injection Ex as <-; by exists None].
      unfold arch_at in Ex. unfold b_arch_at. fold (archs r) in Ex. destruct (archs r !! e_arch c e) as [a|] eqn:Ea; [|done]. destruct (brel_at _ _ _ _ H Ea) as (A&EA&Hr). rewrite EA. cbn [rbind] in *.
      rewrite (ar_desc _ _ _ Hr). destruct (negb _); [injection Ex as <-; by exists None|].
      destruct (get_fuzzy_components_mut c G (e_row e) a) as [ls| |] eqn:Eg; cbn [rbind] in Ex; [|done..]. injection Ex as <-.
      destruct (fuzzy_components_mut_sim Hst Hsm Hla _ _ _ Hg HG _ _ _ _ _ _ eq_refl Hr Eg) as (bls&->&Hl). cbn [rbind]. exists (Some bls). split; [done|]. cbn [orel].
      apply Forall2_fmap_l. eapply Forall2_impl; [exact Hl|]. intros [idx row] bl Hb. by eapply lrel_lr.
    + intros [l|] [bl|] HQ; try done; [|apply rsim_ret]. apply wsim_rsim. apply wsim_bind; [by apply wsim_replaces|]. intros old. apply wsim_ret.
  - destruct Hc as (HC&_). apply rsim_map. apply rsim_add; [done|done|done|by eapply like_tidy|done].
  - destruct Hc as (HC&_). apply rsim_map. apply rsim_remove; [done|done|done|by eapply like_tidy|done].
  - apply rsim_bind; [|intros l ? ? _ _; apply rsim_map, rsim_unwrap]. apply rsim_rd. intros H v. unfold iter_entities, b_iter_entities. by rewrite (bl_er _ _ H).
  - destruct Hc as [HG Hv]. destruct (gspec_valid c G Hv) as [s Hg]. apply rsim_bind; [|intros l ? ? _ _; apply rsim_map, rsim_unwrap]. apply rsim_rd. intros H v.
    apply (slices_collect_eq (U := U) (L := L)); [done|]. intros a A x Hr. by apply (fuzzy_slices_sim Hst Hsm Hla _ _ _ Hg HG).
  - destruct Hc as [HG Hv]. destruct (gspec_valid c G Hv) as [s Hg]. apply rsim_bind; [|intros l ? ? _ _; apply rsim_map, rsim_unwrap]. apply rsim_rd. intros H v.
    apply (slices_collect_eq (U := U) (L := L)); [done|]. intros a A x Hr. by apply (entity_fuzzy_slices_sim Hst Hsm Hla _ _ _ Hg HG).
  - destruct Hc as (HG&Hv&_). destruct (gspec_valid c G Hv) as [s Hg]. apply rsim_bind; [|intros l ? ? _ _; apply rsim_map, rsim_unwrap]. apply rsim_rd. intros H v.
    apply (slices_collect_eq (U := U) (L := L)); [done|]. intros a A x Hr. by apply (fuzzy_slices_sim Hst Hsm Hla _ _ _ Hg HG).
  - destruct Hc as (HG&Hv&_). destruct (gspec_valid c G Hv) as [s Hg]. apply rsim_bind; [|intros l ? ? _ _; apply rsim_map, rsim_unwrap]. apply rsim_rd. intros H v.
    apply (slices_collect_eq (U := U) (L := L)); [done|]. intros a A x Hr. by apply (entity_fuzzy_slices_sim Hst Hsm Hla _ _ _ Hg HG).
  - destruct Hc as (HG&Hv&_). destruct (gspec_valid c G Hv) as [s Hg]. eapply rsim_iter; [intros H x; by eapply iter_mut_sim|].
    intros x y HQ. apply rsim_map, wsim_rsim. by apply wsim_items.
  - destruct Hc as (HG&Hv&_). destruct (gspec_valid c G Hv) as [s Hg]. eapply rsim_iter; [intros H x; by eapply iter_emut_sim|].
    intros x y HQ. apply rsim_map, wsim_rsim. by apply wsim_eitems.
  - destruct Hc as (HG&Hv&_). destruct (gspec_valid c G Hv) as [s Hg]. eapply rsim_iter; [intros H x; by eapply iter_mut_sim|].
    intros x y HQ. apply rsim_map, wsim_rsim. by apply wsim_items.
  - destruct Hc as (HG&Hv&_). destruct (gspec_valid c G Hv) as [s Hg]. eapply rsim_iter; [intros H x; by eapply iter_emut_sim|].
    intros x y HQ. apply rsim_map, wsim_rsim. by apply wsim_eitems.
  - destruct Hc as (HG&Hv&Hkn). apply rsim_map, rsim_rd. intros H v. unfold iter_components_exact, b_exact.
    destruct (exact_sim_like _ _ _ _ _ Hok HG Hv Hkn H) as [(->&->)|(i&a&A&s&->&->&Ha&HA&Hr&Hg&Hcs)]; cbn [rbind]; [done|]. by apply (slices_exact_sim Hsm Hla _ _ _ Hg HG).
  - destruct Hc as (HG&Hv&Hkn). apply rsim_map, rsim_rd. intros H v. unfold iter_entity_components_exact, b_entity_exact.
    destruct (exact_sim_like _ _ _ _ _ Hok HG Hv Hkn H) as [(->&->)|(i&a&A&s&->&->&Ha&HA&Hr&Hg&Hcs)]; cbn [rbind]; [done|]. intros E.
    destruct (entities a) as [es| |] eqn:Ee; cbn [rbind] in E; [|done..]. destruct (get_slices_exact c G a) as [cols| |] eqn:Ec; cbn [rbind] in E; [|done..].
    rewrite (entities_sim _ _ _ _ Hr Ee). cbn [rbind]. by rewrite (slices_exact_sim Hsm Hla _ _ _ Hg HG _ _ _ _ _ eq_refl Hcs Hr Ec).
  - destruct Hc as (HG&Hv&Hkn&_). eapply rsim_then with (Q := Forall2 (Forall2 (lr (descs r) (br_archs R)))).
    + intros H x. unfold iter_components_exact_mut, b_exact_mut.
      destruct (exact_sim_like _ _ _ _ _ Hok HG Hv Hkn H) as [(->&->)|(i&a&A&s&->&->&Ha&HA&Hr&Hg&Hcs)]; cbn [rbind].
      { intros [= <-]. exists (empty_slices G). split; [done|]. apply empty_lr. }
      intros E. destruct (get_slices_exact_mut c G a) as [cols| |] eqn:Ec; cbn [rbind] in E; [|done..]. injection E as <-.
      destruct (slices_exact_mut_sim Hsm Hla _ _ _ Hg HG _ _ _ _ _ eq_refl Hcs Hr Ec) as (bcols&Eb&Hb). exists bcols. split; [done|]. by eapply locate_lr.
    + intros x y HQ. apply rsim_map, wsim_rsim. apply (wsim_items Hsm). by constructor.
  - destruct Hc as (HG&Hv&Hkn&_). eapply rsim_then with (Q := elr (descs r) (br_archs R)).
    + intros H x. unfold iter_entity_components_exact_mut, b_entity_exact_mut.
      destruct (exact_sim_like _ _ _ _ _ Hok HG Hv Hkn H) as [(->&->)|(i&a&A&s&->&->&Ha&HA&Hr&Hg&Hcs)]; cbn [rbind].
      { intros [= <-]. exists ([], empty_slices G). split; [done|]. split; [done|]. apply empty_lr. }
      intros E. destruct (entities a) as [es| |] eqn:Ee; cbn [rbind] in E; [|done..].
      destruct (get_slices_exact_mut c G a) as [cols| |] eqn:Ec; cbn [rbind] in E; [|done..]. injection E as <-.
      rewrite (entities_sim _ _ _ _ Hr Ee). cbn [rbind].
      destruct (slices_exact_mut_sim Hsm Hla _ _ _ Hg HG _ _ _ _ _ eq_refl Hcs Hr Ec) as (bcols&Eb&Hb). rewrite Eb. cbn [rbind]. exists (es, bcols). split; [done|]. split; [done|]. cbn [snd]. by eapply locate_lr.
    + intros x y HQ. apply rsim_map, wsim_rsim. apply (wsim_eitems Hsm). by constructor.
Qed.
Lemma step_sim r R T w o : reg_ok be U r T w -> contract be U w o -> rsim r R (step c o) (bstep c o).
Proof using HU Hla. intros H. by eapply step_sim_like, ok_like. Qed.
End steps.
