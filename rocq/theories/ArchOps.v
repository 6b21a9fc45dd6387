(** Proofs about archetype rows: what each storage operation does to the list
    of rows (entity handle, component map) an archetype holds. *)
From Verif Require Import ArchModel SpecTrace SearchProofs DescrProofs MonadProofs ArchProofs SpecBase SpecWorld.
Local Open Scope nat_scope.

(** ** Tuples and component maps *)
Lemma ids_of_lookup G i c : G !! i = Some c -> ids_of G !! i = Some (ct_id c).
Proof. intros E. change (ids_of G) with (ct_id <$> G). by rewrite list_lookup_fmap, E. Qed.
Lemma ids_of_lookup_inv G i x : ids_of G !! i = Some x -> exists c, G !! i = Some c /\ ct_id c = x.
Proof.
  change (ids_of G) with (ct_id <$> G). rewrite list_lookup_fmap. intros E.
  destruct (G !! i) as [c|]; [|done]. injection E as <-. by exists c.
Qed.
Lemma elem_of_ids G x : x ∈ ids_of G <-> exists c, c ∈ G /\ ct_id c = x.
Proof. change (ids_of G) with (ct_id <$> G). rewrite elem_of_list_fmap. naive_solver. Qed.
Lemma ids_inj G c c' : NoDup (ids_of G) -> c ∈ G -> c' ∈ G -> ct_id c = ct_id c' -> c = c'.
Proof.
  intros Hnd [i Hi]%elem_of_list_lookup [j Hj]%elem_of_list_lookup E.
  pose proof (ids_of_lookup _ _ _ Hi) as Ei. pose proof (ids_of_lookup _ _ _ Hj) as Ej. rewrite <- E in Ej.
  pose proof (NoDup_lookup _ _ _ _ Hnd Ei Ej) as ->. congruence.
Qed.
Lemma NoDup_ids_NoDup G : NoDup (ids_of G) -> NoDup G.
Proof. apply NoDup_fmap_1. Qed.
Lemma vmap_lookup G vs i c v : NoDup (ids_of G) -> length vs = length G ->
  G !! i = Some c -> vs !! i = Some v -> vmap G vs !! ct_id c = Some v.
Proof.
  intros Hnd Hl Hc Hv. apply elem_of_list_to_map_1.
  - rewrite fst_zip; [done|]. rewrite map_length. lia.
  - apply elem_of_list_lookup. exists i. apply lookup_zip_with_Some. eexists _, _. split; [done|].
    split; [by apply ids_of_lookup|done].
Qed.
Lemma vmap_lookup_inv G vs x v : vmap G vs !! x = Some v ->
  exists i c, G !! i = Some c /\ vs !! i = Some v /\ ct_id c = x.
Proof.
  intros H. apply elem_of_list_to_map_2 in H. apply elem_of_list_lookup in H as [i Hi].
  apply lookup_zip_with_Some in Hi as (y&w&[= -> ->]&Hy&Hw).
  apply ids_of_lookup_inv in Hy as (c&Hc&<-). by exists i, c.
Qed.
Lemma full_perm cs cs' m : cs ≡ₚ cs' -> full cs m -> full cs' m.
Proof. intros E H x. rewrite (H x). by rewrite E. Qed.
Lemma vmap_full G vs : NoDup (ids_of G) -> length vs = length G -> full G (vmap G vs).
Proof.
  intros Hnd Hl x. split.
  - intros [v Hv]. apply vmap_lookup_inv in Hv as (i&c&Hc&_&<-). apply elem_of_ids. exists c.
    split; [by eapply elem_of_list_lookup_2|done].
  - intros (c&[i Hi]%elem_of_list_lookup&<-)%elem_of_ids.
    destruct (lookup_lt_is_Some_2 vs i) as [v Hv]; [rewrite Hl; by eapply lookup_lt_Some|].
    exists v. by eapply vmap_lookup.
Qed.
Definition fit (cs : list ctype) (m : gmap N value) : Prop :=
  forall c v, c ∈ cs -> m !! ct_id c = Some v -> fits c v.
Lemma fit_perm cs cs' m : cs ≡ₚ cs' -> fit cs m -> fit cs' m.
Proof. intros E H c v Hc. apply H. by rewrite E. Qed.
Lemma vmap_fit G vs : NoDup (ids_of G) -> Forall2 fits G vs -> fit G (vmap G vs).
Proof.
  intros Hnd HF c v Hc Hv. apply vmap_lookup_inv in Hv as (i&c'&Hc'&Hv&E).
  assert (c' = c) as ->. { eapply ids_inj; [done|by eapply elem_of_list_lookup_2|done|done]. }
  by eapply Forall2_lookup_lr.
Qed.
Lemma tuple_of_exists m G : (forall c, c ∈ G -> is_Some (m !! ct_id c)) -> exists vs, tuple_of m G vs.
Proof.
  induction G as [|c G IH]; intros H; [exists []; constructor|].
  destruct (H c (elem_of_list_here _ _)) as [v Hv]. destruct IH as [vs Hvs]. { intros c' Hc'. apply H. by right. }
  exists (v :: vs). by constructor.
Qed.
Lemma tuple_of_vmap G vs : NoDup (ids_of G) -> length vs = length G -> tuple_of (vmap G vs) G vs.
Proof.
  intros Hnd Hl. apply Forall2_same_length_lookup. split; [done|]. intros i c v Hc Hv. by eapply vmap_lookup.
Qed.
Lemma tuple_of_fun m G vs vs' : tuple_of m G vs -> tuple_of m G vs' -> vs = vs'.
Proof.
  intros H. revert vs'. induction H as [|c v G vs Hv H IH]; intros vs' H'; inversion H'; subst; [done|].
  f_equal; [congruence|]. by apply IH.
Qed.
(** The values stored in a full map, in column order. *)
Definition row_values (cs : list ctype) (m : gmap N value) : list value := omap (fun c => m !! ct_id c) cs.
Lemma row_values_perm cs m : NoDup (ids_of cs) -> full cs m -> row_values cs m ≡ₚ (map_to_list m).*2.
Proof.
  revert m. induction cs as [|c cs IH]; intros m Hnd Hf.
  - assert (m = ∅) as ->. { apply map_empty. intros x. apply eq_None_not_Some. rewrite (Hf x). apply not_elem_of_nil. }
    by rewrite map_to_list_empty.
  - cbn [map] in Hnd. apply NoDup_cons in Hnd as [Hni Hnd].
    destruct (proj2 (Hf (ct_id c))) as [v Hv]; [left|].
    unfold row_values. cbn [omap list_omap]. rewrite Hv.
    transitivity ((map_to_list (<[ct_id c := v]> (delete (ct_id c) m))).*2); [|by rewrite insert_delete].
    rewrite map_to_list_insert by apply lookup_delete.
    cbn [fmap list_fmap snd]. constructor. rewrite <- IH; [|done|].
    + assert (E : forall l : list ctype, (forall c', c' ∈ l -> ct_id c' <> ct_id c) ->
        omap (fun c0 => m !! ct_id c0) l = omap (fun c0 => delete (ct_id c) m !! ct_id c0) l).
      { induction l as [|c' l IHl]; intros Hl; [done|]. cbn [omap list_omap].
        rewrite lookup_delete_ne by (intros E; by apply (Hl c'); [left|]).
        rewrite IHl; [done|]. intros c'' Hc''. apply Hl. by right. }
      unfold row_values. rewrite E; [done|]. intros c' Hc' Heq. apply Hni. apply elem_of_ids. by exists c'.
    + intros x. destruct (decide (x = ct_id c)) as [->|Hne].
      * rewrite lookup_delete. split; [by intros [? ?]|done].
      * rewrite lookup_delete_ne by done. rewrite (Hf x). cbn [map]. rewrite elem_of_cons. naive_solver.
Qed.

(** ** Sorted order of a tuple type *)
Record gspec (be : bool) (G s : list ctype) : Prop := {
  gs_perm : s ≡ₚ G;
  gs_strict : strict (ids_of s);
  gs_comps : ad_components (gd_arch (group_desc be G)) = map cdesc_of s;
  gs_id : ad_id (gd_arch (group_desc be G)) = tuple_archetype_id be (ids_of s);
  gs_len : ad_len (gd_arch (group_desc be G)) = length s;
  gs_valid : gd_is_valid (group_desc be G) = true;
  gs_avalid : ad_is_valid (gd_arch (group_desc be G)) = true;
  gs_pos : 1 <= length s <= 14;
  gs_slot : forall i c, G !! i = Some c -> s !! group_slot be G i = Some c;
}.
Lemma gspec_exists be G : gd_is_valid (group_desc be G) = true -> exists s, gspec be G s.
Proof.
  intros Hv. destruct (group_desc_spec be G Hv) as (s&Hp&Hs&Ea&Hc&Hid&Hu&_).
  pose proof (proj1 (group_desc_valid be G) Hv) as (Hl&Hnd&_).
  pose proof (Permutation_length Hp) as Hsl.
  exists s. split; [done|done|done|by rewrite Ea|by rewrite Ea|done| |lia|].
  - rewrite Ea. unfold ad_is_valid, aid_is_valid, AID_INVALID. cbn [ad_id]. by rewrite (proj2 (N.eqb_neq _ _)).
  - intros i c Hi. destruct (Hu i c Hi) as [Hu1 Hu2].
    assert (Hun : gd_unsorted_to_sorted (group_desc be G) i = id_pos (ct_id c) (ids_of s)).
    { unfold gd_unsorted_to_sorted. by rewrite Hu1. }
    unfold group_slot. destruct G as [|c0 [|c1 G']]; [done| |by rewrite Hun].
    destruct i as [|i]; [|done]. injection Hi as ->. apply Permutation_singleton_r in Hp as ->. done.
Qed.
Lemma gspec_NoDup be G s : gspec be G s -> NoDup (ids_of G) /\ NoDup (ids_of s) /\ NoDup s /\ length s = length G.
Proof.
  intros H. pose proof (strict_NoDup _ (gs_strict _ _ _ H)) as Hnd. split; [by rewrite <- (gs_perm _ _ _ H)|].
  split; [done|]. split; [by apply NoDup_ids_NoDup|]. apply Permutation_length, H.
Qed.
Lemma gspec_slot_inj be G s i j c c' :
  gspec be G s -> G !! i = Some c -> G !! j = Some c' -> group_slot be G i = group_slot be G j -> i = j.
Proof.
  intros H Hi Hj E. pose proof (gs_slot _ _ _ H _ _ Hi) as Ei. pose proof (gs_slot _ _ _ H _ _ Hj) as Ej.
  rewrite E in Ei. assert (c = c') as -> by congruence.
  destruct (gspec_NoDup _ _ _ H) as (Hnd&_). eapply NoDup_lookup; [by apply NoDup_ids_NoDup|done|done].
Qed.
Lemma gspec_unique be G s s' : gspec be G s -> gspec be G s' -> s = s'.
Proof.
  intros H H'. assert (E : ids_of s = ids_of s').
  { apply strict_perm_unique; [apply H|apply H'|]. apply Permutation_map. by rewrite (gs_perm _ _ _ H), (gs_perm _ _ _ H'). }
  apply list_eq_same_length with (length s); [|done|].
  { by rewrite <- (map_length ct_id s), <- (map_length ct_id s'), E. }
  intros i c c' Hi Hc Hc'. pose proof (ids_of_lookup _ _ _ Hc) as A. pose proof (ids_of_lookup _ _ _ Hc') as B.
  rewrite E in A. eapply ids_inj with (G := s); [by apply (gspec_NoDup _ _ _ H)|by eapply elem_of_list_lookup_2| |congruence].
  rewrite (gs_perm _ _ _ H), <- (gs_perm _ _ _ H'). by eapply elem_of_list_lookup_2.
Qed.
Lemma as_sorted_lookup be G s vs i c v :
  gspec be G s -> length vs = length G -> G !! i = Some c -> vs !! i = Some v ->
  as_sorted_values be G vs !! group_slot be G i = Some (Some v).
Proof.
  intros Hg Hl Hi Hv. unfold as_sorted_values. unfold MAX_COMPONENTS_PER_ENTITY.
  assert (HH : forall us, (forall j u, us !! j = Some u -> vs !! j = Some u) ->
    let r := fold_left (fun ps '(i, v) => <[group_slot be G i := Some v]> ps) (enum us) (replicate 14 (@None value)) in
    length r = 14 /\ forall j u, us !! j = Some u -> r !! group_slot be G j = Some (Some u)).
  { intros us. induction us as [|u us IH] using rev_ind; intros Hpre; cbn zeta.
    { split; [reflexivity|]. intros j w Hj. by rewrite lookup_nil in Hj. }
    rewrite enum_app, fold_left_app. cbn [fold_left].
    destruct IH as [IL IHl]. { intros j w Hj. apply Hpre. by apply lookup_app_l_Some. } cbn zeta in *.
    split; [by rewrite insert_length|].
    assert (Hju : vs !! length us = Some u). { apply Hpre. rewrite lookup_app_r by done. by rewrite Nat.sub_diag. }
    destruct (lookup_lt_is_Some_2 G (length us)) as [cu Hcu]. { rewrite <- Hl. by eapply lookup_lt_Some. }
    intros j w Hj. apply lookup_app_Some in Hj as [Hj|[Hge Hj]].
    - rewrite list_lookup_insert_ne; [by apply IHl|]. intros E.
      destruct (lookup_lt_is_Some_2 G j) as [cj Hcj]. { rewrite <- Hl. eapply lookup_lt_Some, Hpre. by apply lookup_app_l_Some. }
      pose proof (gspec_slot_inj _ _ _ _ _ _ _ Hg Hcu Hcj E). apply lookup_lt_Some in Hj. lia.
    - apply list_lookup_singleton_Some in Hj as [Hz ->]. assert (j = length us) as -> by lia.
      apply list_lookup_insert. rewrite IL. pose proof (gs_slot _ _ _ Hg _ _ Hcu) as Hs.
      apply lookup_lt_Some in Hs. pose proof (gs_pos _ _ _ Hg). lia. }
  destruct (HH vs) as [_ H]; [done|]. by apply H.
Qed.

(** ** Rows *)
Notation row := (N * gmap N value)%type.
Definition rowat (cs : list ctype) (C : list column) (r : nat) (m : gmap N value) : Prop :=
  forall k c, cs !! k = Some c -> exists col, C !! k = Some col /\ col !! r = Some (m !! ct_id c).
Definition stored (cs : list ctype) (C : list column) (H : list (option N)) (rows : list row) : Prop :=
  forall r h m, rows !! r = Some (h, m) -> H !! r = Some (Some h) /\ rowat cs C r m.
Definition row_ok (cs : list ctype) (x : row) : Prop := full cs x.2 /\ fit cs x.2.
(** Which capacities may occur.  The registry starts at 128 and doubles; an
    archetype of one's own starts anywhere (Rows.v). *)
Class caps := {
  capok : nat -> Prop;
  capok_pos : forall cap, capok cap -> 0 < cap;
  capok_double : forall cap, capok cap -> (N.of_nat cap < 8388608)%N -> capok (cap + cap) /\ (N.of_nat (cap + cap) < 16777215)%N;
  capok_128 : capok 128;
}.
(** The archetype [a] has the component types [cs] and holds the rows [rows]. *)
Definition arch_ok {K : caps} (a : arch) (cs : list ctype) (rows : list row) : Prop :=
  desc_ok (a_desc a) cs /\ capok (a_cap a) /\ length rows <= a_cap a /\ Forall (row_ok cs) rows /\
  exists C H, a = mk (a_desc a) cs (a_cap a) (length rows) C H /\ shape cs (a_cap a) C H /\ stored cs C H rows.
(** One row has been pushed but only the ids where [P] is defined are written. *)
Definition arch_half {K : caps} (a : arch) (cs : list ctype) (rows : list row) (P : gmap N value) : Prop :=
  desc_ok (a_desc a) cs /\ capok (a_cap a) /\ length rows < a_cap a /\ Forall (row_ok cs) rows /\
  exists C H, a = mk (a_desc a) cs (a_cap a) (S (length rows)) C H /\ shape cs (a_cap a) C H /\ stored cs C H rows /\
    forall k c v, cs !! k = Some c -> P !! ct_id c = Some v -> exists col, C !! k = Some col /\ col !! length rows = Some (Some v).
Lemma rowat_cell cs C r m k c col : rowat cs C r m -> cs !! k = Some c -> C !! k = Some col -> col !! r = Some (m !! ct_id c).
Proof. intros HR Hc Hk. destruct (HR k c Hc) as (col'&E&Hr). by simplify_eq. Qed.
Lemma shape_col cs cap C H k col : shape cs cap C H -> C !! k = Some col -> length col = cap.
Proof. intros (_&HF&_) Hk. exact (Forall_lookup_1 _ _ _ _ HF Hk). Qed.
Lemma full_Some cs m k c : full cs m -> cs !! k = Some c -> exists v, m !! ct_id c = Some v.
Proof. intros Hf Hk. apply Hf. apply elem_of_ids. exists c. split; [by eapply elem_of_list_lookup_2|done]. Qed.
Lemma row_ok_get cs x k c : row_ok cs x -> cs !! k = Some c -> exists v, x.2 !! ct_id c = Some v /\ fits c v.
Proof.
  intros [Hf Ht] Hk. destruct (full_Some _ _ _ _ Hf Hk) as [v Hv]. exists v. split; [done|].
  apply Ht; [by eapply elem_of_list_lookup_2|done].
Qed.

(** *** Column-wise loops *)
Section cols.
  Context (d : adesc) (cs : list ctype) (Hd : desc_ok d cs).
  Lemma mfor_columns {X} (l : list X) (f : nat * X -> AM unit) (C C' : list column) cap n H (e : env) :
    length l = length cs -> length C = length cs -> length C' = length cs ->
    (forall k x col col' D, l !! k = Some x -> C !! k = Some col -> C' !! k = Some col' ->
       length D = length cs -> D !! k = Some col ->
       f (k, x) (mk d cs cap n D H, e) = Ret tt (mk d cs cap n (<[k := col']> D) H, e)) ->
    mfor (enum l) f (mk d cs cap n C H, e) = Ret tt (mk d cs cap n C' H, e).
  Proof.
    intros Hl HC HC' Hf.
    eapply (mfor_enum_inv_rel (fun i s => s = (mk d cs cap n (take i C' ++ drop i C) H, e))).
    - by rewrite drop_0.
    - intros i x s Hx ->. pose proof (lookup_lt_Some _ _ _ Hx).
      destruct (lookup_lt_is_Some_2 C i) as [col Hcol]; [lia|].
      destruct (lookup_lt_is_Some_2 C' i) as [col' Hcol']; [lia|].
      assert (Ht : length (take i C') = i) by (rewrite take_length; lia).
      eexists. split.
      + apply (Hf i x col col'); [done|done|done| |].
        * rewrite app_length, take_length, drop_length. lia.
        * rewrite lookup_app_r by lia. by rewrite Ht, Nat.sub_diag, lookup_drop, Nat.add_0_r.
      + do 2 f_equal. rewrite insert_app_r_alt by lia. rewrite Ht, Nat.sub_diag, (drop_S _ _ _ Hcol).
        cbn [insert list_insert]. by rewrite (take_S_r _ _ _ Hcol'), <- app_assoc.
    - intros s1 ->. rewrite take_ge, drop_ge by lia. by rewrite app_nil_r.
  Qed.
End cols.

(** *** Writing a whole row *)
Definition setrow (cs : list ctype) (r : nat) (m : gmap N value) (C : list column) : list column :=
  zip_with (fun c col => <[r := m !! ct_id c]> col) cs C.
Lemma setrow_length cs r m C : length C = length cs -> length (setrow cs r m C) = length cs.
Proof. intros E. unfold setrow. rewrite zip_with_length. lia. Qed.
Lemma setrow_lookup cs r m C k c col : cs !! k = Some c -> C !! k = Some col ->
  setrow cs r m C !! k = Some (<[r := m !! ct_id c]> col).
Proof. intros Hc Hk. apply lookup_zip_with_Some. by exists c, col. Qed.
Lemma setrow_shape cs r m cap C H : shape cs cap C H -> shape cs cap (setrow cs r m C) H.
Proof.
  intros (Hl&HF&HH). split; [by apply setrow_length|]. split; [|done].
  apply Forall_lookup. intros k col Hk. apply lookup_zip_with_Some in Hk as (c&col0&->&_&H0).
  rewrite insert_length. exact (Forall_lookup_1 _ _ _ _ HF H0).
Qed.
Lemma setrow_eq cs r m cap C H : shape cs cap C H -> r < cap -> rowat cs (setrow cs r m C) r m.
Proof.
  intros Hs Hr k c Hc. pose proof Hs as (Hl&_&_).
  destruct (lookup_lt_is_Some_2 C k) as [col Hcol]. { rewrite Hl. by eapply lookup_lt_Some. }
  exists (<[r := m !! ct_id c]> col). split; [by apply setrow_lookup|]. apply list_lookup_insert.
  by rewrite (shape_col _ _ _ _ _ _ Hs Hcol).
Qed.
Lemma setrow_ne cs r r' m m' C : r <> r' -> rowat cs C r' m' -> rowat cs (setrow cs r m C) r' m'.
Proof.
  intros Hne HR k c Hc. destruct (HR k c Hc) as (col&Hk&Hr'). eexists. split; [by apply setrow_lookup|].
  by rewrite list_lookup_insert_ne.
Qed.

Section ops.
  Context {K : caps}.
  Context (d : adesc) (cs : list ctype) (Hd : desc_ok d cs).

  Lemma arch_ok_intro cap C H rows :
    capok cap -> length rows <= cap -> Forall (row_ok cs) rows -> shape cs cap C H -> stored cs C H rows ->
    arch_ok (mk d cs cap (length rows) C H) cs rows.
  Proof. intros. split; [done|]. split; [done|]. split; [done|]. split; [done|]. by exists C, H. Qed.

  (** *** A new archetype *)
  Lemma a_new_ok e : ev_oracle e = [] ->
    exists a e', a_with_capacity d DEFAULT_ARCHETYPE_ALLOCATION_SIZE e = Ret a e' /\
      a_desc a = d /\ arch_ok a cs [] /\ emits e e' [] [] (layouts cs (a_cap a)).
  Proof.
    intros Ho. destruct (with_capacity_spec d cs Hd 128 e) as (e'&E&Hem); [lia|lia|done|].
    eexists _, e'. split; [exact E|]. split; [done|]. split; [|exact Hem].
    apply (arch_ok_intro 128); [apply capok_128|cbn; lia|constructor| |].
    - split; [by rewrite replicate_length|]. split; [|by rewrite replicate_length].
      apply Forall_replicate. by rewrite replicate_length.
    - intros r h m Hr. by rewrite lookup_nil in Hr.
  Qed.

  (** *** Making room *)
  Lemma stored_grow cap C H rows : shape cs cap C H -> stored cs C H rows ->
    stored cs (map (grow cap) C) (grow cap H) rows.
  Proof.
    intros Hs HS r h m Hr. destruct (HS r h m Hr) as [HH HR]. split; [by apply lookup_app_l_Some|].
    intros k c Hc. destruct (HR k c Hc) as (col&Hk&Hrr). exists (grow cap col). split.
    - change (map (grow cap) C) with (grow cap <$> C). by rewrite list_lookup_fmap, Hk.
    - by apply lookup_app_l_Some.
  Qed.
  Lemma shape_grow cap C H : shape cs cap C H -> shape cs (cap + cap) (map (grow cap) C) (grow cap H).
  Proof.
    intros (Hl&HF&HH). split; [by rewrite map_length|]. split.
    - apply Forall_map. eapply Forall_impl; [exact HF|]. cbn. intros col E. unfold grow. rewrite app_length, replicate_length. lia.
    - unfold grow. rewrite app_length, replicate_length. lia.
  Qed.
  Definition has_room (a : arch) (rows : list row) : Prop := (N.of_nat (length rows) < 8388608)%N \/ length rows < a_cap a.
  Lemma resize_room a rows e :
    a_desc a = d -> arch_ok a cs rows -> has_room a rows -> ev_oracle e = [] ->
    exists cap C H e', resize_if_necessary (a, e) = Ret tt (mk d cs cap (length rows) C H, e') /\
      capok cap /\ length rows < cap /\ shape cs cap C H /\ stored cs C H rows /\
      emits e e' [] (layouts cs (a_cap a)) (layouts cs cap).
  Proof.
    intros Ed (_&Hcap&Hle&_&C&H&Ea&Hs&HS) Hlt Ho. rewrite Ed in Ea. set (cap := a_cap a) in *.
    destruct (decide (length rows = cap)) as [E|E].
    - destruct (capok_double cap Hcap) as [Hc2 Hm2]; [destruct Hlt as [Hlt|Hlt]; [by rewrite <- E|fold cap in Hlt; lia]|].
      destruct (resize_grows d cs Hd cap C H e (capok_pos _ Hcap) Hm2 Ho Hs) as (e'&E'&Hem).
      exists (cap + cap), (map (grow cap) C), (grow cap H), e'. rewrite Ea, E. split; [exact E'|].
      split; [done|]. pose proof (capok_pos _ Hcap). split; [lia|]. split; [by apply shape_grow|].
      split; [by apply stored_grow|done].
    - exists cap, C, H, e. rewrite Ea. split; [by apply resize_noop|]. split; [done|]. split; [lia|].
      split; [done|]. split; [done|]. by apply emits_refl.
  Qed.

  Lemma resize_ok a rows e :
    a_desc a = d -> arch_ok a cs rows -> (N.of_nat (length rows) < 8388608)%N -> ev_oracle e = [] ->
    exists cap C H e', resize_if_necessary (a, e) = Ret tt (mk d cs cap (length rows) C H, e') /\
      capok cap /\ length rows < cap /\ shape cs cap C H /\ stored cs C H rows /\
      emits e e' [] (layouts cs (a_cap a)) (layouts cs cap).
  Proof. intros Ed Hok Hlt. apply resize_room; [done|done|by left]. Qed.

  Lemma stored_snoc cap C H rows h m :
    shape cs cap C H -> length rows < cap -> stored cs C H rows ->
    H !! length rows = Some (Some h) -> rowat cs C (length rows) m -> stored cs C H (rows ++ [(h, m)]).
  Proof.
    intros Hs Hlt HS HH HR r h' m' Hr. apply lookup_app_Some in Hr as [Hr|[Hge Hr]]; [by apply HS|].
    apply list_lookup_singleton_Some in Hr as [Hz [= <- <-]]. replace r with (length rows) by lia. done.
  Qed.
  Lemma stored_insert_H C H rows h : stored cs C H rows -> stored cs C (<[length rows := h]> H) rows.
  Proof.
    intros HS r h' m' Hr. destruct (HS r h' m' Hr) as [HH HR]. split; [|done].
    rewrite list_lookup_insert_ne; [done|]. apply lookup_lt_Some in Hr. lia.
  Qed.

  (** *** Pushing a tuple *)
  Lemma copy_in_ok be G vs n cap C H e rw :
    gspec be G cs -> length vs = length G -> rw < cap -> shape cs cap C H ->
    mfor (enum (ad_components (gd_arch (group_desc be G)))) (copy_in (as_sorted_values be G vs) rw)
      (mk d cs cap n C H, e) = Ret tt (mk d cs cap n (setrow cs rw (vmap G vs) C) H, e).
  Proof.
    intros Hg Hl Hrw Hs. pose proof Hs as (HlC&_&_). rewrite (gs_comps _ _ _ Hg).
    apply mfor_columns; [by rewrite map_length|done|by apply setrow_length|].
    intros k x col col' D Hx Hk Hk' HD HDk.
    change (map cdesc_of cs) with (cdesc_of <$> cs) in Hx. rewrite list_lookup_fmap in Hx.
    destruct (cs !! k) as [c|] eqn:Hc; [|done]. injection Hx as <-.
    rewrite (setrow_lookup _ _ _ _ _ _ _ Hc Hk) in Hk'. injection Hk' as <-.
    unfold copy_in. unfold bind, am_get. cbn [fst]. rewrite (mk_comps_lookup d cs Hd _ _ _ _ _ _ Hc).
    destruct (gspec_NoDup _ _ _ Hg) as (HndG&Hnds&Hnd&HlG).
    assert (HcG : c ∈ G) by (rewrite <- (gs_perm _ _ _ Hg); by eapply elem_of_list_lookup_2).
    apply elem_of_list_lookup in HcG as [i Hi].
    destruct (lookup_lt_is_Some_2 vs i) as [v Hv]. { rewrite Hl. by eapply lookup_lt_Some. }
    assert (Esl : group_slot be G i = k).
    { eapply NoDup_lookup; [exact Hnd|by apply (gs_slot _ _ _ Hg)|done]. }
    pose proof (as_sorted_lookup _ _ _ _ _ _ _ Hg Hl Hi Hv) as Eas. rewrite Esl in Eas. rewrite Eas, N.eqb_refl.
    rewrite (write_cell_mk d cs cap n D H k rw col); [|done|done|by rewrite (shape_col _ _ _ _ _ _ Hs Hk)].
    by rewrite (vmap_lookup _ _ _ _ _ HndG Hl Hi Hv).
  Qed.
  Lemma push_room c G vs h a rows e :
    a_desc a = d -> arch_ok a cs rows -> has_room a rows -> ev_oracle e = [] ->
    gspec (big c) G cs -> ad_id d = tuple_archetype_id (big c) (ids_of cs) -> Forall2 fits G vs ->
    exists a' e', push_entity_unchecked c G h vs (a, e) = Ret (length rows) (a', e') /\
      a_desc a' = d /\ arch_ok a' cs (rows ++ [(h, vmap G vs)]) /\
      emits e e' [] (layouts cs (a_cap a)) (layouts cs (a_cap a')).
  Proof.
    intros Ed Hok Hlt Ho Hg Hid HF. pose proof (Forall2_length _ _ _ HF) as HFl.
    destruct (resize_room a rows e Ed Hok Hlt Ho) as (cap&C&H&e'&Er&Hcap&Hn&Hs&HS&Hem).
    destruct (gspec_NoDup _ _ _ Hg) as (HndG&_).
    unfold push_entity_unchecked. unfold bind at 1, am_get at 1. cbn [fst].
    rewrite (bind_Ret _ _ _ _ _ (mdebug_true _ _ _ (gs_valid _ _ _ Hg))).
    erewrite (bind_Ret (mdebug_assert _ _)); [|apply mdebug_true; rewrite Ed, Hid, (gs_id _ _ _ Hg); apply N.eqb_refl].
    rewrite (bind_Ret _ _ _ _ _ Er). unfold bind at 1, am_get at 1. cbn [fst].
    unfold bind at 1, am_upd at 1. cbn [fst snd]. change (a_len (mk d cs cap (length rows) C H)) with (length rows).
    change (set_count (mk d cs cap (length rows) C H) (S (a_count (mk d cs cap (length rows) C H))))
      with (mk d cs cap (S (length rows)) C H).
    assert (Ew : write_entity_unchecked c G (length rows) h vs (mk d cs cap (S (length rows)) C H, e') =
      Ret tt (mk d cs cap (S (length rows)) (setrow cs (length rows) (vmap G vs) C) (<[length rows := Some h]> H), e')).
    { unfold write_entity_unchecked. unfold bind at 1, am_get at 1. cbn [fst].
      erewrite (bind_Ret (mdebug_assert _ _)); [|apply mdebug_true; by apply Nat.ltb_lt].
      rewrite (bind_Ret _ _ _ _ _ (mdebug_true _ _ _ (gs_valid _ _ _ Hg))).
      erewrite (bind_Ret (mdebug_assert _ _)); [|apply mdebug_true; cbn [a_desc mk]; rewrite Hid, (gs_id _ _ _ Hg); apply N.eqb_refl].
      erewrite bind_Ret; [|by apply copy_in_ok]. apply write_entity_mk; destruct Hs as (_&_&HH); lia. }
    rewrite (bind_Ret _ _ _ _ _ Ew). unfold ret. eexists _, e'. split; [reflexivity|]. split; [done|]. split; [|exact Hem].
    replace (S (length rows)) with (length (rows ++ [(h, vmap G vs)])) by (rewrite app_length; cbn; lia).
    destruct Hok as (_&_&_&HFr&_).
    apply arch_ok_intro; [done|rewrite app_length; cbn; lia| | |].
    - apply Forall_app. split; [done|]. apply Forall_singleton. split; cbn [snd].
      + eapply full_perm; [symmetry; apply Hg|]. apply vmap_full; [done|lia].
      + eapply fit_perm; [symmetry; apply Hg|]. by apply vmap_fit.
    - apply setrow_shape. destruct Hs as (?&?&?). split; [done|]. split; [done|]. by rewrite insert_length.
    - pose proof Hs as (HlC&HFC&HH).
      assert (Hs' : shape cs cap (setrow cs (length rows) (vmap G vs) C) (<[length rows := Some h]> H)).
      { apply setrow_shape. split; [done|]. split; [done|]. by rewrite insert_length. }
      eapply stored_snoc; [exact Hs'|done| | |].
      + apply stored_insert_H. intros r h' m' Hr. destruct (HS r h' m' Hr) as [HH' HR]. split; [done|].
        apply setrow_ne; [|done]. apply lookup_lt_Some in Hr. lia.
      + apply list_lookup_insert. lia.
      + by eapply setrow_eq.
  Qed.
  Lemma push_ok c G vs h a rows e :
    a_desc a = d -> arch_ok a cs rows -> (N.of_nat (length rows) < 8388608)%N -> ev_oracle e = [] ->
    gspec (big c) G cs -> ad_id d = tuple_archetype_id (big c) (ids_of cs) -> Forall2 fits G vs ->
    exists a' e', push_entity_unchecked c G h vs (a, e) = Ret (length rows) (a', e') /\
      a_desc a' = d /\ arch_ok a' cs (rows ++ [(h, vmap G vs)]) /\
      emits e e' [] (layouts cs (a_cap a)) (layouts cs (a_cap a')).
  Proof. intros Ed Hok Hlt. apply push_room; [done|done|by left]. Qed.
End ops.
