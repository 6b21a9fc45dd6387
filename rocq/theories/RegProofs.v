(** Proofs about the registry state: the entity table seen as a location map,
    the archetype table, and archetype lookup/creation. *)
From Verif Require Import RegModel SpecTrace SpecEntity EntityProofs EntityTable SearchProofs DescrProofs MonadProofs ArchProofs ArchOps ArchOps2 ArchOps3 AregProofs SpecBase SpecWorld SpecRef.
Local Open Scope nat_scope.

(** ** The entity table as a map from live handles to (archetype, row) *)
Definition loc_of (be : bool) (r : er) (h : N) : option (nat * nat) :=
  (fun e => (N.to_nat (entry_archetype_index be e), N.to_nat (entry_index_in_archetype e))) <$> er_entity_entry be r h.
Lemma option_eq' {A} (x y : option A) : (forall a, x = Some a <-> y = Some a) -> x = y.
Proof. apply option_eq. Qed.

Lemma loc_create be r F row ai :
  er_inv be r F -> (row < 16777216)%N -> (ai < 65535)%N ->
  ((16777215 <= N.of_nat (length (er_ents r)))%N /\ er_create_entity be row ai r = Ret None r) \/
  ((N.of_nat (length (er_ents r)) < 16777215)%N /\
   exists h r' F', er_create_entity be row ai r = Ret (Some h) r' /\ er_inv be r' F' /\ (h < 4294967295)%N /\
     loc_of be r h = None /\
     forall h', loc_of be r' h' = if decide (h' = h) then Some (N.to_nat ai, N.to_nat row) else loc_of be r h').
Proof.
  intros Hinv Hrow Hai. destruct (er_create_spec be r F row ai Hinv Hrow Hai) as [?|[Hlt H]]; [by left|right].
  split; [done|]. destruct H as (i&v&r'&F'&e'&E&Hinv'&Hi&Hv&He'&Hver&Hval&Har&Hrw&Hoth&Hcase).
  pose proof (ei_len _ _ _ Hinv) as HL. pose proof (ei_len _ _ _ Hinv') as HL'.
  exists (ent_new_unchecked (N.of_nat i) v), r', F'. split; [done|]. split; [done|].
  assert (Eh : ent_new_unchecked (N.of_nat i) v = (N.of_nat i * 256 + v)%N) by (apply ent_new_val; lia).
  rewrite Eh. split; [lia|].
  assert (Hdiv : ((N.of_nat i * 256 + v) / 256 = N.of_nat i)%N) by lia.
  assert (Hmod : ((N.of_nat i * 256 + v) mod 256 = v)%N) by lia.
  assert (Hold : forall h e, (h / 256 = N.of_nat i)%N -> er_entity_entry be r h = Some e -> False).
  { intros h e Hh He. apply entity_entry_spec in He as (H1&H2&H3); [|done]. rewrite Hh, Nat2N.id in H1.
    destruct Hcase as [(_&_&->&_)|(_&_&e0&H0&_&Hf)]; [|congruence]. apply lookup_lt_Some in H1. lia. }
  split.
  - unfold loc_of. destruct (er_entity_entry be r _) as [e|] eqn:Ee; [|done]. by destruct (Hold _ _ Hdiv Ee).
  - intros h'. unfold loc_of. destruct (decide (h' = _)) as [->|Hne].
    + assert (er_entity_entry be r' (N.of_nat i * 256 + v) = Some e') as ->.
      { apply entity_entry_spec; [done|]. rewrite Hdiv, Hmod, Nat2N.id. done. }
      cbn. by rewrite Har, Hrw.
    + f_equal. apply option_eq. intros e. rewrite !entity_entry_spec by done.
      destruct (decide (N.to_nat (h' / 256) = i)) as [Hi'|Hi'].
      * split.
        -- intros (H1&H2&_). rewrite Hi' in H1. simplify_eq. exfalso. apply Hne. lia.
        -- intros (H1&H2&H3). exfalso. eapply (Hold h' e); [lia|]. apply entity_entry_spec; done.
      * by rewrite Hoth.
Qed.
Lemma loc_destroy be r F h p : er_inv be r F -> loc_of be r h = Some p ->
  exists r' F', er_destroy_entity be h r = Ret true r' /\ er_inv be r' F' /\ length (er_ents r') = length (er_ents r) /\
    forall h', loc_of be r' h' = if decide (h' = h) then None else loc_of be r h'.
Proof.
  intros Hinv Hp. destruct (er_destroy_spec be r F h Hinv) as [[Hn _]|(e&e'&r'&He&E&Hinv'&He'&Hval&Hver&Hoth&Hlen)].
  { exfalso. apply Hn. unfold loc_of in Hp. destruct (er_entity_entry be r h) as [e|] eqn:Ee; [by exists e|done]. }
  cbn zeta in *. rewrite ent_index_val, ent_version_val in *.
  pose proof (ei_len _ _ _ Hinv) as HL. pose proof (ei_len _ _ _ Hinv') as HL'.
  exists r', (N.to_nat (h / 256) :: F). split; [done|]. split; [done|]. split; [done|].
  intros h'. unfold loc_of.
  assert (Hnone : forall h1, N.to_nat (h1 / 256) = N.to_nat (h / 256) -> er_entity_entry be r' h1 = None).
  { intros h1 Eq. destruct (er_entity_entry be r' h1) as [e1|] eqn:E1; [|done].
    apply entity_entry_spec in E1 as (H1&_&H3); [|done]. rewrite Eq in H1. simplify_eq. congruence. }
  destruct (decide (h' = h)) as [->|Hne]; [by rewrite Hnone|].
  f_equal. apply option_eq. intros e1.
  destruct (decide (N.to_nat (h' / 256) = N.to_nat (h / 256))) as [Hi|Hi].
  - rewrite (Hnone _ Hi). split; [done|]. intros (H1&H2&_)%entity_entry_spec; [|done].
    apply entity_entry_spec in He as (G1&G2&_); [|done]. rewrite Hi in H1. simplify_eq. exfalso. apply Hne. lia.
  - rewrite !entity_entry_spec by done. by rewrite Hoth.
Qed.
Lemma loc_update be r F h i j f g :
  er_inv be r F -> loc_of be r h = Some (i, j) ->
  (forall e, entry_bytes_ok e -> entry_is_valid be e = true ->
     entry_bytes_ok (f e) /\ entry_is_valid be (f e) = true /\ entry_version (f e) = entry_version e) ->
  (forall e, entry_bytes_ok e ->
     (N.to_nat (entry_archetype_index be (f e)), N.to_nat (entry_index_in_archetype (f e))) =
     g (N.to_nat (entry_archetype_index be e), N.to_nat (entry_index_in_archetype e))) ->
  exists r', er_update_entry be r h f = Some r' /\ er_inv be r' F /\ length (er_ents r') = length (er_ents r) /\
    forall h', loc_of be r' h' = if decide (h' = h) then Some (g (i, j)) else loc_of be r h'.
Proof.
  intros Hinv Hl Hf Hg. pose proof (er_update_spec be r F h f Hinv Hf) as H.
  unfold loc_of in Hl. destruct (er_entity_entry be r h) as [e|] eqn:Ee; [|done].
  destruct (er_update_entry be r h f) as [r'|] eqn:Eu; [|exfalso; apply H; by exists e].
  destruct H as (e0&[= <-]&Hinv'&He'&Er'). exists r'. split; [done|]. split; [done|].
  pose proof (ei_len _ _ _ Hinv) as HL. pose proof (ei_len _ _ _ Hinv') as HL'.
  split; [by rewrite Er'; cbn; rewrite insert_length|].
  pose proof Ee as (G1&G2&G3)%entity_entry_spec; [|done].
  assert (Hb : entry_bytes_ok e) by (exact (Forall_lookup_1 _ _ _ _ (ei_bytes _ _ _ Hinv) G1)).
  intros h'. unfold loc_of. destruct (decide (h' = h)) as [->|Hne].
  - rewrite He'. cbn in Hl |- *. injection Hl as <- <-. by rewrite <- Hg.
  - f_equal. apply option_eq. intros e1. rewrite !entity_entry_spec by done.
    rewrite Er'. cbn [er_ents]. rewrite ent_index_val.
    destruct (decide (N.to_nat (h' / 256) = N.to_nat (h / 256))) as [Hi|Hi].
    + rewrite Hi, list_lookup_insert by (by eapply lookup_lt_Some). destruct (Hf e Hb G3) as (_&_&Hv). split.
      * intros ([= <-]&H2&_). exfalso. apply Hne. lia.
      * intros (H1&H2&_). simplify_eq. exfalso. apply Hne. lia.
    + by rewrite list_lookup_insert_ne.
Qed.
Lemma loc_set_row be r F h i j row : er_inv be r F -> loc_of be r h = Some (i, j) -> (row < 16777216)%N ->
  exists r', er_update_entry be r h (fun e => entry_set_index_in_archetype e row) = Some r' /\ er_inv be r' F /\
    length (er_ents r') = length (er_ents r) /\
    forall h', loc_of be r' h' = if decide (h' = h) then Some (i, N.to_nat row) else loc_of be r h'.
Proof.
  intros Hinv Hl Hrow. apply (loc_update be r F h i j _ (fun p => (p.1, N.to_nat row)) Hinv Hl).
  - by apply er_row_ok.
  - intros e Hb. rewrite entry_arch_set_row, entry_get_set_row by done. done.
Qed.
Lemma loc_set_arch be r F h i j ai : er_inv be r F -> loc_of be r h = Some (i, j) -> (ai < 65535)%N ->
  exists r', er_update_entry be r h (fun e => entry_set_archetype_index be e ai) = Some r' /\ er_inv be r' F /\
    length (er_ents r') = length (er_ents r) /\
    forall h', loc_of be r' h' = if decide (h' = h) then Some (N.to_nat ai, j) else loc_of be r h'.
Proof.
  intros Hinv Hl Hai. apply (loc_update be r F h i j _ (fun p => (N.to_nat ai, p.2)) Hinv Hl).
  - by apply er_arch_ok.
  - intros e Hb. rewrite entry_row_set_arch, entry_get_set_arch by lia. done.
Qed.

(** ** Tables of rows *)
(** What archetype [i] holds: its id, component types and rows. *)
Record tab := Tab { t_id : N; t_cs : list ctype; t_rows : list row }.
Definition linked (loc : N -> option (nat * nat)) (T : list tab) : Prop := forall h i j,
  loc h = Some (i, j) <-> exists t m, T !! i = Some t /\ t_rows t !! j = Some (h, m).
Definition repr (w : world) (T : list tab) : Prop := forall h e,
  w !! h = Some e <-> exists i t m, T !! i = Some t /\ (h, m) ∈ t_rows t /\ e = Ent (t_id t) m.
Definition skel (T : list tab) : list sheet := map (fun t => Sheet (t_id t) (t_cs t) (map fst (t_rows t))) T.
Definition set_rows (t : tab) (rows : list row) : tab := Tab (t_id t) (t_cs t) rows.

Lemma linked_ext loc loc' T : (forall h, loc h = loc' h) -> linked loc T -> linked loc' T.
Proof. intros E H h i j. rewrite <- E. apply H. Qed.
Lemma linked_inj loc T i j t i' j' t' h m m' :
  linked loc T -> T !! i = Some t -> t_rows t !! j = Some (h, m) -> T !! i' = Some t' -> t_rows t' !! j' = Some (h, m') ->
  i' = i /\ j' = j.
Proof.
  intros H Hi Hj Hi' Hj'. assert (loc h = Some (i, j)) as E1 by (apply H; eauto).
  assert (loc h = Some (i', j')) as E2 by (apply H; eauto). rewrite E1 in E2. by simplify_eq.
Qed.
Lemma linked_new loc T id cs : linked loc T -> linked loc (T ++ [Tab id cs []]).
Proof.
  intros H h i j. rewrite (H h i j). split.
  - intros (t&m&Hi&Hj). exists t, m. split; [by apply lookup_app_l_Some|done].
  - intros (t&m&Hi&Hj). apply lookup_app_Some in Hi as [Hi|[_ Hi]]; [by exists t, m|].
    by apply list_lookup_singleton_Some in Hi as [_ <-].
Qed.
Lemma repr_new w T id cs : repr w T -> repr w (T ++ [Tab id cs []]).
Proof.
  intros H h e. rewrite (H h e). split.
  - intros (i&t&m&Hi&Hj). exists i, t, m. split; [by apply lookup_app_l_Some|done].
  - intros (i&t&m&Hi&Hj&He). apply lookup_app_Some in Hi as [Hi|[_ Hi]]; [by exists i, t, m|].
    apply list_lookup_singleton_Some in Hi as [_ <-]. by apply elem_of_nil in Hj.
Qed.
Lemma linked_snoc loc T i t h m : linked loc T -> T !! i = Some t -> loc h = None ->
  linked (fun h' => if decide (h' = h) then Some (i, length (t_rows t)) else loc h')
         (<[i := set_rows t (t_rows t ++ [(h, m)])]> T).
Proof.
  intros H Ht Hn h' i' j'. pose proof (lookup_lt_Some _ _ _ Ht) as Hlt. split.
  - destruct (decide (h' = h)) as [->|Hne].
    + intros [= <- <-]. exists (set_rows t (t_rows t ++ [(h, m)])), m. split; [by apply list_lookup_insert|].
      by apply list_lookup_middle.
    + intros (t'&m'&Hi&Hj)%H. destruct (decide (i' = i)) as [->|Hni].
      * simplify_eq. exists (set_rows t (t_rows t ++ [(h, m)])), m'. split; [by apply list_lookup_insert|].
        by apply lookup_app_l_Some.
      * exists t', m'. by rewrite list_lookup_insert_ne.
  - intros (t'&m'&Hi&Hj). apply list_lookup_insert_Some in Hi as [(->&<-&_)|[Hni Hi]].
    + cbn [t_rows set_rows] in Hj. apply lookup_app_Some in Hj as [Hj|[Hge Hj]].
      * assert (loc h' = Some (i', j')) as E by (apply H; eauto). destruct (decide (h' = h)) as [->|]; [congruence|done].
      * apply list_lookup_singleton_Some in Hj as [Hz [= -> ->]]. rewrite decide_True by done. do 2 f_equal. lia.
    + assert (loc h' = Some (i', j')) as E by (apply H; eauto). destruct (decide (h' = h)) as [->|]; [congruence|done].
Qed.
Lemma repr_snoc w T i t h m : repr w T -> T !! i = Some t -> w !! h = None ->
  repr (<[h := Ent (t_id t) m]> w) (<[i := set_rows t (t_rows t ++ [(h, m)])]> T).
Proof.
  intros H Ht Hn h' e. pose proof (lookup_lt_Some _ _ _ Ht) as Hlt. rewrite lookup_insert_Some. split.
  - intros [[<- <-]|[Hne He]].
    + exists i, (set_rows t (t_rows t ++ [(h, m)])), m. split; [by apply list_lookup_insert|]. split; [|done].
      cbn. set_solver.
    + apply H in He as (i'&t'&m'&Hi&Hj&->). destruct (decide (i' = i)) as [->|Hni].
      * simplify_eq. exists i, (set_rows t (t_rows t ++ [(h, m)])), m'. split; [by apply list_lookup_insert|]. cbn. set_solver.
      * exists i', t', m'. by rewrite list_lookup_insert_ne.
  - intros (i'&t'&m'&Hi&Hj&->). apply list_lookup_insert_Some in Hi as [(->&<-&_)|[Hni Hi]].
    + cbn [t_rows t_id set_rows] in *. apply elem_of_app in Hj as [Hj|Hj%elem_of_list_singleton].
      * assert (w !! h' = Some (Ent (t_id t) m')) as E by (apply H; eauto 10). right. split; [|done]. intros <-. congruence.
      * injection Hj as -> ->. by left.
    + assert (w !! h' = Some (Ent (t_id t') m')) as E by (apply H; eauto 10). right. split; [|done]. intros <-. congruence.
Qed.

(** Removing row [j] moves the last row into its place. *)
Definition moved (rows : list row) (j : nat) : option N :=
  if is_last j (length rows) then None else fst <$> rows !! (length rows - 1).
Lemma linked_remove loc T i t j h m : linked loc T -> T !! i = Some t -> t_rows t !! j = Some (h, m) ->
  linked (fun h' => if decide (h' = h) then None
                    else if decide (Some h' = moved (t_rows t) j) then Some (i, j) else loc h')
         (<[i := set_rows t (remove_row j (t_rows t))]> T).
Proof.
  intros H Ht Hj h' i' j'. pose proof (lookup_lt_Some _ _ _ Ht) as Hlt. pose proof (lookup_lt_Some _ _ _ Hj) as Hjlt.
  set (n := length (t_rows t)) in *.
  assert (Hlast : exists hl ml, t_rows t !! (n - 1) = Some (hl, ml)).
  { destruct (lookup_lt_is_Some_2 (t_rows t) (n - 1)) as [[hl ml] E]; [lia|eauto]. }
  destruct Hlast as (hl&ml&Hl).
  assert (Hmv : moved (t_rows t) j = if is_last j n then None else Some hl). { unfold moved. fold n. by rewrite Hl. }
  rewrite Hmv. unfold is_last. 
  assert (Hh : loc h = Some (i, j)) by (apply H; eauto).
  assert (Hhl : loc hl = Some (i, n - 1)) by (apply H; eauto).
  split.
  - destruct (decide (h' = h)) as [->|Hne]; [done|]. case_decide as Hd.
    + destruct (Nat.eqb_spec j (n - 1)) as [|Hnl]; [done|]. injection Hd as ->. intros [= <- <-].
      eexists _, ml. split; [by apply list_lookup_insert|]. cbn [t_rows set_rows].
      rewrite remove_row_lookup by done. fold n. rewrite decide_True by lia. by rewrite decide_True.
    + intros HL. pose proof HL as (t'&m'&Hi&Hj')%H. destruct (decide (i' = i)) as [->|Hni].
      * simplify_eq. eexists _, m'. split; [by apply list_lookup_insert|]. cbn [t_rows set_rows].
        pose proof (lookup_lt_Some _ _ _ Hj'). fold n in H0.
        assert (j' <> j) by (intros ->; congruence).
        assert (j' <> n - 1). { intros ->. rewrite Hl in Hj'. injection Hj' as -> ->.
          destruct (Nat.eqb_spec j (n - 1)); congruence. }
        rewrite remove_row_lookup by done. fold n. rewrite decide_True by lia. by rewrite decide_False.
      * exists t', m'. by rewrite list_lookup_insert_ne.
  - intros (t'&m'&Hi&Hj'). apply list_lookup_insert_Some in Hi as [(->&<-&_)|[Hni Hi]].
    + cbn [t_rows set_rows] in Hj'. pose proof (lookup_lt_Some _ _ _ Hj') as Hj2. rewrite remove_row_length in Hj2.
      rewrite remove_row_lookup in Hj' by done. fold n in Hj2, Hj'. rewrite decide_True in Hj' by done.
      case_decide as Ejj.
      * subst j'. rewrite Hl in Hj'. injection Hj' as <- <-.
        rewrite decide_False by (intros ->; rewrite Hh in Hhl; injection Hhl as E; lia).
        destruct (Nat.eqb_spec j (n - 1)); [lia|]. by rewrite decide_True.
      * assert (E : loc h' = Some (i', j')) by (apply H; eauto).
        rewrite decide_False by (intros ->; congruence).
        rewrite decide_False; [done|]. destruct (j =? n - 1); [done|]. intros [= ->]. rewrite Hhl in E. injection E as E. lia.
    + assert (E : loc h' = Some (i', j')) by (apply H; eauto).
      rewrite decide_False by (intros ->; congruence).
      rewrite decide_False; [done|]. destruct (j =? n - 1); [done|]. intros [= ->]. congruence.
Qed.
Lemma repr_remove loc w T i t j h m : linked loc T -> repr w T -> T !! i = Some t -> t_rows t !! j = Some (h, m) ->
  repr (delete h w) (<[i := set_rows t (remove_row j (t_rows t))]> T).
Proof.
  intros HL H Ht Hj h' e. pose proof (lookup_lt_Some _ _ _ Ht) as Hlt. rewrite lookup_delete_Some.
  pose proof (remove_row_perm _ _ _ Hj) as Hp. split.
  - intros [Hne He]. apply H in He as (i'&t'&m'&Hi&Hm&->). destruct (decide (i' = i)) as [->|Hni].
    + simplify_eq. eexists i, _, m'. split; [by apply list_lookup_insert|]. split; [|done]. cbn [t_rows set_rows].
      rewrite Hp in Hm. apply elem_of_cons in Hm as [Hm|Hm]; [congruence|done].
    + exists i', t', m'. by rewrite list_lookup_insert_ne.
  - intros (i'&t'&m'&Hi&Hm&->). apply list_lookup_insert_Some in Hi as [(->&<-&_)|[Hni Hi]].
    + cbn [t_rows t_id set_rows] in *. split; [|apply H; exists i', t, m'; split; [done|]; split; [|done]; rewrite Hp; by right].
      intros <-. apply elem_of_list_lookup in Hm as [j' Hj'].
      pose proof (lookup_lt_Some _ _ _ Hj) as Hjlt. pose proof (lookup_lt_Some _ _ _ Hj') as Hj2.
      rewrite remove_row_length in Hj2. rewrite remove_row_lookup, decide_True in Hj' by done.
      case_decide.
      * subst. destruct (linked_inj _ _ _ _ _ _ _ _ _ _ _ HL Ht Hj Ht Hj'). lia.
      * destruct (linked_inj _ _ _ _ _ _ _ _ _ _ _ HL Ht Hj Ht Hj'). lia.
    + split; [|apply H; eauto 10]. intros <-. apply elem_of_list_lookup in Hm as [j' Hj'].
      destruct (linked_inj _ _ _ _ _ _ _ _ _ _ _ HL Ht Hj Hi Hj'). congruence.
Qed.

(** Changing values only. *)
Definition map_rows (g : tab -> gmap N value -> gmap N value) (t : tab) : tab :=
  set_rows t (map (fun x : row => (x.1, g t x.2)) (t_rows t)).
Lemma linked_map loc T T' : Forall2 (fun t t' => map fst (t_rows t) = map fst (t_rows t')) T T' -> linked loc T -> linked loc T'.
Proof.
  intros HF H h i j. rewrite (H h i j).
  assert (HH : forall (t t' : tab) m, map fst (t_rows t) = map fst (t_rows t') -> t_rows t !! j = Some (h, m) -> exists m', t_rows t' !! j = Some (h, m')).
  { intros t t' m E Hj. pose proof (f_equal (fun l => l !! j) E) as E2. cbn in E2.
    change (map fst) with (fmap fst : list row -> list N) in E2. rewrite !list_lookup_fmap, Hj in E2.
    destruct (t_rows t' !! j) as [[h' m']|]; [|done]. cbn in E2. injection E2 as <-. eauto. }
  split.
  - intros (t&m&Hi&Hj). destruct (Forall2_lookup_l _ _ _ _ _ HF Hi) as (t'&Hi'&E). destruct (HH _ _ _ E Hj). eauto.
  - intros (t&m&Hi&Hj). destruct (Forall2_lookup_r _ _ _ _ _ HF Hi) as (t'&Hi'&E). destruct (HH _ _ _ (eq_sym E) Hj). eauto.
Qed.
Lemma linked_map_rows loc T g : linked loc T -> linked loc (map (map_rows g) T).
Proof.
  apply linked_map. apply Forall2_same_length_lookup. split; [by rewrite map_length|].
  intros i t t' Ht Ht'. change (map (map_rows g) T) with (map_rows g <$> T) in Ht'. rewrite list_lookup_fmap, Ht in Ht'.
  injection Ht' as <-. cbn. by rewrite map_map.
Qed.
Lemma repr_map_rows w T g f : repr w T ->
  (forall i t h m, T !! i = Some t -> (h, m) ∈ t_rows t -> f (Ent (t_id t) m) = Ent (t_id t) (g t m)) ->
  repr (f <$> w) (map (map_rows g) T).
Proof.
  intros H Hf h e. rewrite lookup_fmap_Some. split.
  - intros (e0&<-&He0). apply H in He0 as (i&t&m&Hi&Hm&->). exists i, (map_rows g t), (g t m).
    split. { change (map (map_rows g) T) with (map_rows g <$> T). by rewrite list_lookup_fmap, Hi. }
    split; [|by erewrite Hf]. cbn. change (map ?f (t_rows t)) with (f <$> t_rows t). apply elem_of_list_fmap. by exists (h, m).
  - intros (i&t'&m'&Hi&Hm&->). change (map (map_rows g) T) with (map_rows g <$> T) in Hi. rewrite list_lookup_fmap in Hi.
    destruct (T !! i) as [t|] eqn:Ht; [|done]. injection Hi as <-. cbn in Hm.
    change (map ?f (t_rows t)) with (f <$> t_rows t) in Hm. apply elem_of_list_fmap in Hm as ([h0 m]&[= -> ->]&Hm). cbn in *.
    exists (Ent (t_id t) m). split; [by erewrite Hf|]. apply H. eauto 10.
Qed.
(** Replacing the components of one row. *)
Lemma set_rows_linked loc T i t j h m m' : linked loc T -> T !! i = Some t -> t_rows t !! j = Some (h, m) ->
  linked loc (<[i := set_rows t (<[j := (h, m')]> (t_rows t))]> T).
Proof.
  intros H Ht Hj. revert H. apply linked_map. apply Forall2_same_length_lookup. split; [by rewrite insert_length|].
  intros k t1 t2 H1 H2. apply list_lookup_insert_Some in H2 as [(->&<-&_)|[Hne H2]]; [|congruence].
  simplify_eq. cbn. change (map fst) with (fmap fst : list row -> list N). rewrite list_fmap_insert. cbn.
  rewrite list_insert_id; [done|]. by rewrite list_lookup_fmap, Hj.
Qed.
Lemma set_rows_repr loc w T i t j h m m' : linked loc T -> repr w T -> T !! i = Some t -> t_rows t !! j = Some (h, m) ->
  repr (<[h := Ent (t_id t) m']> w) (<[i := set_rows t (<[j := (h, m')]> (t_rows t))]> T).
Proof.
  intros HL H Ht Hj h' e. pose proof (lookup_lt_Some _ _ _ Ht) as Hlt. pose proof (lookup_lt_Some _ _ _ Hj) as Hjlt.
  rewrite lookup_insert_Some. split.
  - intros [[<- <-]|[Hne He]].
    + eexists i, _, m'. split; [by apply list_lookup_insert|]. split; [|done]. cbn. eapply elem_of_list_lookup_2.
      by apply list_lookup_insert.
    + apply H in He as (i'&t'&m1&Hi&[k Hk]%elem_of_list_lookup&->). destruct (decide (i' = i)) as [->|Hni].
      * simplify_eq. eexists i, _, m1. split; [by apply list_lookup_insert|]. split; [|done]. cbn.
        apply (elem_of_list_lookup_2 _ k). rewrite list_lookup_insert_ne; [done|]. intros ->. congruence.
      * exists i', t', m1. rewrite list_lookup_insert_ne by done. split; [done|]. split; [|done]. by eapply elem_of_list_lookup_2.
  - intros (i'&t'&m1&Hi&[k Hk]%elem_of_list_lookup&->). apply list_lookup_insert_Some in Hi as [(->&<-&_)|[Hni Hi]].
    + cbn [t_rows t_id set_rows] in *. apply list_lookup_insert_Some in Hk as [(->&E&_)|[Hnk Hk]].
      * injection E as <- <-. by left.
      * right. split; [|apply H; exists i', t, m1; split; [done|]; split; [|done]; by eapply elem_of_list_lookup_2].
        intros <-. destruct (linked_inj _ _ _ _ _ _ _ _ _ _ _ HL Ht Hj Ht Hk). congruence.
    + right. split; [|apply H; exists i', t', m1; split; [done|]; split; [|done]; by eapply elem_of_list_lookup_2].
      intros <-. destruct (linked_inj _ _ _ _ _ _ _ _ _ _ _ HL Ht Hj Hi Hk). congruence.
Qed.

(** ** Component sets within the universe *)
Lemma strict_sublist l k : strict k -> l `sublist_of` k -> strict l.
Proof.
  intros Hs H. induction H as [|x l k H IH|x l k H IH]; [done| |].
  - inversion Hs as [|? ? Hs' Hx]; subst. constructor; [by apply IH|].
    apply Forall_forall. intros y Hy. rewrite Forall_forall in Hx. apply Hx. by eapply elem_of_submseteq; [|apply sublist_submseteq].
  - inversion Hs; subst. by apply IH.
Qed.
Lemma strict_subset_sublist l k : strict l -> strict k -> (forall x, x ∈ l -> x ∈ k) -> l `sublist_of` k.
Proof.
  intros Hl Hk. revert l Hl. induction Hk as [|y k Hk IH Hy]; intros l Hl Hsub.
  { destruct l as [|x l]; [constructor|]. specialize (Hsub x (elem_of_list_here _ _)). by apply elem_of_nil in Hsub. }
  destruct Hl as [|x l Hl Hx]; [apply sublist_nil_l|].
  pose proof (Hsub x (elem_of_list_here _ _)) as Hxin. rewrite Forall_forall in Hx, Hy.
  apply elem_of_cons in Hxin as [->|Hxin].
  - constructor. apply IH; [done|]. intros z Hz. specialize (Hsub z (elem_of_list_further _ _ _ Hz)).
    apply elem_of_cons in Hsub as [->|?]; [|done]. specialize (Hx _ Hz). lia.
  - constructor. apply IH; [constructor; [done|by apply Forall_forall]|].
    intros z Hz. specialize (Hsub z Hz). apply elem_of_cons in Hsub as [->|?]; [|done].
    specialize (Hy _ Hxin). apply elem_of_cons in Hz as [->|Hz]; [lia|]. specialize (Hx _ Hz). lia.
Qed.
Lemma ids_sublist l k : l `sublist_of` k -> ids_of l `sublist_of` ids_of k.
Proof. induction 1; cbn [map]; by constructor. Qed.
Lemma ids_eq U l l' : NoDup (ids_of U) -> in_U U l -> in_U U l' -> ids_of l = ids_of l' -> l = l'.
Proof.
  intros Hnd Hl. revert l'. induction Hl as [|c l Hc Hl IH]; intros l' Hl' E; destruct Hl' as [|c' l' Hc' Hl']; try done.
  cbn in E. injection E as E1 E2. f_equal; [by eapply ids_inj|by apply IH].
Qed.
Lemma in_U_elem U G c : in_U U G -> c ∈ G -> c ∈ U.
Proof. unfold in_U. rewrite Forall_forall. auto. Qed.
Section uni.
  Context {Fm : family} (be : bool) (U : list ctype) (HU : universe be U).
  Lemma U_strict : strict (ids_of U). Proof. apply HU. Qed.
  Lemma U_nodup : NoDup (ids_of U). Proof. apply strict_NoDup, HU. Qed.
  Lemma U_small G : in_U U G -> Forall small G.
  Proof.
    destruct HU as (_&Hs&_). intros H. apply Forall_forall. intros c Hc. rewrite Forall_forall in Hs. by eapply Hs, in_U_elem.
  Qed.
  Lemma types_sublist m : types U m `sublist_of` U.
  Proof. unfold types. clear HU. induction U as [|c l IH]; [constructor|]. rewrite filter_cons. case_decide; by constructor. Qed.
  Lemma types_in_U m : in_U U (types U m).
  Proof. apply Forall_forall. intros c Hc. by apply elem_of_list_filter in Hc as [_ ?]. Qed.
  Lemma types_strict m : strict (ids_of (types U m)).
  Proof. eapply strict_sublist; [apply U_strict|]. apply ids_sublist, types_sublist. Qed.
  (** The sorted component list of a map is determined by the map. *)
  Lemma types_full cs m : strict (ids_of cs) -> in_U U cs -> full cs m -> types U m = cs.
  Proof.
    intros Hs Hin Hf. apply (ids_eq U); [apply U_nodup|apply types_in_U|done|].
    apply strict_perm_unique; [apply types_strict|done|].
    apply NoDup_Permutation; [apply strict_NoDup, types_strict|by apply strict_NoDup|].
    intros x. split.
    - intros (c&Hc&<-)%elem_of_ids. apply elem_of_list_filter in Hc as [Hm _]. by apply Hf.
    - intros Hx. pose proof Hx as Hm%Hf. apply elem_of_ids in Hx as (c&Hc&<-). apply elem_of_ids. exists c. split; [|done].
      apply elem_of_list_filter. split; [done|]. by eapply in_U_elem.
  Qed.
  Lemma full_types m : (forall x, is_Some (m !! x) -> x ∈ ids_of U) -> full (types U m) m.
  Proof.
    intros H x. split.
    - intros Hx. pose proof (H _ Hx) as (c&Hc&<-)%elem_of_ids. apply elem_of_ids. exists c. split; [|done].
      by apply elem_of_list_filter.
    - intros (c&Hc&<-)%elem_of_ids. by apply elem_of_list_filter in Hc as [? _].
  Qed.
  Lemma full_size cs m : NoDup (ids_of cs) -> full cs m -> size m = length cs.
  Proof.
    intros Hnd Hf. rewrite <- (map_length ct_id cs).
    assert (E : (map_to_list m).*1 ≡ₚ ids_of cs).
    { apply NoDup_Permutation; [apply NoDup_fst_map_to_list|done|]. intros x. rewrite <- (Hf x). split.
      - intros ([y v]&->&Hy)%elem_of_list_fmap. apply elem_of_map_to_list in Hy. by exists v.
      - intros [v Hv]. apply elem_of_list_fmap. exists (x, v). split; [done|]. by apply elem_of_map_to_list. }
    by rewrite <- E, fmap_length.
  Qed.
  (** Two archetypes with one id and one length have one component list. *)
  Lemma same_archetype cs cs' x : strict (ids_of cs) -> strict (ids_of cs') -> in_U U cs -> in_U U cs' ->
    length cs = length cs' -> 1 <= length cs <= 14 -> x <> 4294967295%N ->
    archetype_id_of be (ids_of cs) x -> archetype_id_of be (ids_of cs') x -> cs = cs'.
  Proof.
    intros Hs Hs' Hin Hin' Hl H14 Hx Hi Hi'. apply (ids_eq U); [apply U_nodup|done|done|].
    destruct HU as (_&_&Hcf). eapply (Hcf _ _ x); [| |by rewrite !map_length|by rewrite map_length|done|done|done].
    - apply strict_subset_sublist; [done|apply U_strict|]. intros y (c&Hc&<-)%elem_of_ids. apply elem_of_ids. exists c.
      split; [|done]. by apply (in_U_elem _ _ _ Hin).
    - apply strict_subset_sublist; [done|apply U_strict|]. intros y (c&Hc&<-)%elem_of_ids. apply elem_of_ids. exists c.
      split; [|done]. by apply (in_U_elem _ _ _ Hin').
  Qed.
End uni.

(** ** The registry invariant *)
Definition tab_ok {Fm : family} (be : bool) (U : list ctype) (a : arch) (t : tab) : Prop :=
  ad_id (a_desc a) = t_id t /\ arch_ok a (t_cs t) (t_rows t) /\ in_U U (t_cs t) /\
  archetype_id_of be (ids_of (t_cs t)) (t_id t).
Record reg_ok {Fm : family} (be : bool) (U : list ctype) (r : reg) (T : list tab) (w : world) : Prop := {
  ro_areg : areg_inv (r_ar r);
  ro_tabs : Forall2 (tab_ok be U) (ar_archs (r_ar r)) T;
  ro_er : exists F, er_inv be (r_er r) F;
  ro_loc : linked (loc_of be (r_er r)) T;
  ro_repr : repr w T;
  ro_oracle : ev_oracle (r_env r) = [];
}.
(** Memory the archetypes hold. *)
Definition live_allocs (archs : list arch) (T : list tab) : list (N * N) :=
  concat (zip_with (fun a t => layouts (t_cs t) (a_cap a)) archs T).
Definition evolves (r : reg) (T : list tab) (r' : reg) (T' : list tab) (D : list value) : Prop :=
  emits (r_env r) (r_env r') D (live_allocs (ar_archs (r_ar r)) T) (live_allocs (ar_archs (r_ar r')) T').

Lemma live_allocs_insert archs T i a t a' t' : archs !! i = Some a -> T !! i = Some t -> length archs = length T ->
  exists X, live_allocs archs T ≡ₚ layouts (t_cs t) (a_cap a) ++ X /\
    live_allocs (<[i := a']> archs) (<[i := t']> T) ≡ₚ layouts (t_cs t') (a_cap a') ++ X.
Proof.
  intros Ha Ht Hl. exists (live_allocs (take i archs) (take i T) ++ live_allocs (drop (S i) archs) (drop (S i) T)).
  pose proof (lookup_lt_Some _ _ _ Ha) as H1. pose proof (lookup_lt_Some _ _ _ Ht) as H2.
  assert (Hmid : forall l1 l2 m1 m2 (x : arch) (y : tab), length l1 = length m1 ->
    live_allocs (l1 ++ x :: l2) (m1 ++ y :: m2) ≡ₚ layouts (t_cs y) (a_cap x) ++ live_allocs l1 m1 ++ live_allocs l2 m2).
  { intros l1 l2 m1 m2 x y E. unfold live_allocs. rewrite zip_with_app by done. cbn [zip_with]. rewrite concat_app. cbn [concat].
    by rewrite !app_assoc, (Permutation_app_comm (concat _) (layouts _ _)). }
  split.
  - rewrite <- (take_drop_middle _ _ _ Ha) at 1. rewrite <- (take_drop_middle _ _ _ Ht) at 1. apply Hmid. rewrite !take_length. lia.
  - rewrite !insert_take_drop by done. apply Hmid. rewrite !take_length. lia.
Qed.
Lemma evolves_insert r T i a t a' t' e' D rg' :
  ar_archs (r_ar r) !! i = Some a -> T !! i = Some t -> length (ar_archs (r_ar r)) = length T ->
  r_env rg' = e' -> ar_archs (r_ar rg') = <[i := a']> (ar_archs (r_ar r)) ->
  emits (r_env r) e' D (layouts (t_cs t) (a_cap a)) (layouts (t_cs t') (a_cap a')) ->
  evolves r T rg' (<[i := t']> T) D.
Proof.
  intros Ha Ht Hl He Hr Hem. destruct (live_allocs_insert _ _ _ _ _ a' t' Ha Ht Hl) as (X&E1&E2).
  unfold evolves. rewrite He, Hr. eapply emits_perm; [apply (emits_frame_r _ _ _ _ _ X Hem)|done|by symmetry|by symmetry].
Qed.
Lemma live_allocs_snoc archs T a t : length archs = length T ->
  live_allocs (archs ++ [a]) (T ++ [t]) = live_allocs archs T ++ layouts (t_cs t) (a_cap a).
Proof. intros E. unfold live_allocs. rewrite zip_with_app by done. cbn [zip_with]. rewrite concat_app. cbn. by rewrite app_nil_r. Qed.
Lemma evolves_refl r T : ev_oracle (r_env r) = [] -> evolves r T r T [].
Proof. intros. by apply emits_refl. Qed.
Lemma evolves_trans r1 T1 r2 T2 r3 T3 D1 D2 : evolves r1 T1 r2 T2 D1 -> evolves r2 T2 r3 T3 D2 -> evolves r1 T1 r3 T3 (D1 ++ D2).
Proof. apply emits_trans. Qed.

Section reg.
  Context {Fm : family} (be : bool) (U : list ctype) (HU : universe be U).
  Implicit Types (T : list tab) (w : world).

  Lemma tab_facts a t : tab_ok be U a t ->
    desc_ok (a_desc a) (t_cs t) /\ strict (ids_of (t_cs t)) /\ NoDup (ids_of (t_cs t)) /\ 1 <= length (t_cs t) <= 14 /\
    ad_len (a_desc a) = length (t_cs t) /\ t_id t <> 4294967295%N.
  Proof.
    intros (Hid&Hok&Hin&Haid). pose proof (proj1 Hok) as Hd. split; [done|].
    pose proof (desc_strict _ _ Hd) as Hs. split; [done|]. split; [by apply strict_NoDup|].
    destruct (desc_len _ _ Hd) as [Hl H14]. pose proof (do_pos _ _ Hd). split; [lia|]. split; [done|].
    pose proof (do_valid _ _ Hd) as Hv. unfold ad_is_valid, aid_is_valid, AID_INVALID in Hv. rewrite Hid in Hv.
    intros E. by rewrite E in Hv.
  Qed.
  Lemma ro_tab r T w i t : reg_ok be U r T w -> T !! i = Some t ->
    exists a, ar_archs (r_ar r) !! i = Some a /\ tab_ok be U a t.
  Proof. intros H Ht. by destruct (Forall2_lookup_r _ _ _ _ _ (ro_tabs _ _ _ _ _ H) Ht) as (a&?&?); exists a. Qed.
  Lemma ro_arch r T w i a : reg_ok be U r T w -> ar_archs (r_ar r) !! i = Some a ->
    exists t, T !! i = Some t /\ tab_ok be U a t.
  Proof. intros H Ht. by destruct (Forall2_lookup_l _ _ _ _ _ (ro_tabs _ _ _ _ _ H) Ht) as (a'&?&?); exists a'. Qed.
  Lemma ro_len r T w : reg_ok be U r T w -> length (ar_archs (r_ar r)) = length T.
  Proof. intros H. eapply Forall2_length, ro_tabs, H. Qed.
  Lemma tab_row a t j h m : tab_ok be U a t -> t_rows t !! j = Some (h, m) -> full (t_cs t) m /\ fit (t_cs t) m /\ types U m = t_cs t.
  Proof.
    intros Ht Hj. pose proof (tab_facts _ _ Ht) as (_&Hs&_). destruct Ht as (_&Hok&Hin&_).
    pose proof Hok as (_&_&_&HF&_). pose proof (Forall_lookup_1 _ _ _ _ HF Hj) as [Hf Hfit]. split; [done|]. split; [done|].
    by eapply types_full.
  Qed.
  Lemma tab_unique r T w i j t t' : reg_ok be U r T w -> T !! i = Some t -> T !! j = Some t' ->
    t_id t = t_id t' -> length (t_cs t) = length (t_cs t') -> i = j.
  Proof.
    intros H Hi Hj Eid El. destruct (ro_tab _ _ _ _ _ H Hi) as (a&Ha&Hta). destruct (ro_tab _ _ _ _ _ H Hj) as (a'&Ha'&Hta').
    pose proof (tab_facts _ _ Hta) as (_&_&_&_&L1&_). pose proof (tab_facts _ _ Hta') as (_&_&_&_&L2&_).
    eapply (is_arch_unique _ i j (a_desc a) (ro_areg _ _ _ _ _ H)).
    - by exists a.
    - exists a'. split; [done|]. destruct Hta as (->&_). destruct Hta' as (->&_). split; [done|lia].
  Qed.
  Lemma row_cap a t : tab_ok be U a t -> (N.of_nat (length (t_rows t)) <= 8388608)%N.
  Proof. intros (_&(_&Hc&Hle&_)&_). pose proof (capok_max _ Hc). lia. Qed.

  (** The rows of an archetype are the entities with its id and components. *)
  Lemma rows_nodup r T w i t : reg_ok be U r T w -> T !! i = Some t -> NoDup (map fst (t_rows t)).
  Proof.
    intros H Hi. apply NoDup_alt. intros j j' h Hj Hj'. change (map fst (t_rows t)) with (fst <$> t_rows t) in *.
    rewrite list_lookup_fmap in Hj, Hj'. destruct (t_rows t !! j) as [[h1 m1]|] eqn:E1; [|done].
    destruct (t_rows t !! j') as [[h2 m2]|] eqn:E2; [|done]. cbn in *. simplify_eq.
    by destruct (linked_inj _ _ _ _ _ _ _ _ _ _ _ (ro_loc _ _ _ _ _ H) Hi E1 Hi E2).
  Qed.
  Lemma crowd_rows r T w i t : reg_ok be U r T w -> T !! i = Some t ->
    crowd U w (t_id t) (ids_of (t_cs t)) = length (t_rows t).
  Proof.
    intros H Hi. unfold crowd, size, map_size. 
    rewrite <- (map_length (fun x : row => (x.1, Ent (t_id t) x.2)) (t_rows t)). apply Permutation_length.
    apply NoDup_Permutation; [apply NoDup_map_to_list| |].
    - apply (NoDup_fmap_1 fst). change (fst <$> ?l) with (map fst l). rewrite map_map. by eapply rows_nodup.
    - intros [h e]. rewrite elem_of_map_to_list, map_filter_lookup_Some. cbn [snd fst].
      change (map ?f (t_rows t)) with (f <$> t_rows t). rewrite elem_of_list_fmap. split.
      + intros (He&Eid&Ety). apply (ro_repr _ _ _ _ _ H) in He as (i'&t'&m&Hi'&Hm&->). cbn in *.
        destruct (ro_tab _ _ _ _ _ H Hi') as (a'&Ha'&Hta'). apply elem_of_list_lookup in Hm as [j Hj].
        destruct (tab_row _ _ _ _ _ Hta' Hj) as (_&_&Ety'). rewrite Ety' in Ety.
        assert (i = i') as <-. { eapply tab_unique; [done|done|done|done|]. by rewrite <- (map_length ct_id), <- Ety, map_length. }
        simplify_eq. exists (h, m). split; [done|]. by eapply elem_of_list_lookup_2.
      + intros ([h' m]&[= -> ->]&Hm). cbn. split; [apply (ro_repr _ _ _ _ _ H); eauto 10|]. split; [done|].
        apply elem_of_list_lookup in Hm as [j Hj]. destruct (ro_tab _ _ _ _ _ H Hi) as (a&Ha&Hta).
        by destruct (tab_row _ _ _ _ _ Hta Hj) as (_&_&->).
  Qed.

  (** Changing one archetype and the entity table. *)
  Lemma reg_ok_change r T w i a t a' rows' r' w' :
    reg_ok be U r T w -> ar_archs (r_ar r) !! i = Some a -> T !! i = Some t ->
    a_desc a' = a_desc a -> arch_ok a' (t_cs t) rows' ->
    ar_maps (r_ar r') = ar_maps (r_ar r) -> ar_archs (r_ar r') = <[i := a']> (ar_archs (r_ar r)) ->
    (exists F, er_inv be (r_er r') F) -> linked (loc_of be (r_er r')) (<[i := set_rows t rows']> T) ->
    repr w' (<[i := set_rows t rows']> T) -> ev_oracle (r_env r') = [] ->
    reg_ok be U r' (<[i := set_rows t rows']> T) w'.
  Proof.
    intros H Ha Ht Ed Hok Em Ear Her Hl Hr Ho. destruct H as [H1 H2 H3 H4 H5 H6]. split; try done.
    - eapply areg_inv_same; [exact H1|done|]. rewrite Ear. apply list_eq. intros k.
      change (map a_desc) with (fmap a_desc : list arch -> list adesc). rewrite !list_lookup_fmap.
      destruct (decide (i = k)) as [<-|Hne].
      + rewrite list_lookup_insert by (by eapply lookup_lt_Some). rewrite Ha. cbn. by rewrite Ed.
      + by rewrite list_lookup_insert_ne.
    - rewrite Ear. apply Forall2_insert; [done|].
      destruct (Forall2_lookup_lr _ _ _ _ _ _ H2 Ha Ht) as (A1&A2&A3&A4). split; [by rewrite Ed|]. done.
  Qed.

  (** *** The archetypes without the component values *)
  Lemma skel_lookup T i : skel T !! i = (fun t => Sheet (t_id t) (t_cs t) (map fst (t_rows t))) <$> T !! i.
  Proof. apply list_lookup_fmap. Qed.
  Lemma find_sheet_some r T w i t : reg_ok be U r T w -> T !! i = Some t ->
    find_sheet (skel T) (t_id t) (length (t_cs t)) = Some i.
  Proof.
    intros H Hi. unfold find_sheet. destruct (list_find _ _) as [[k s]|] eqn:E.
    - cbn. f_equal. apply list_find_Some in E as (Hk&[E1 E2]&_). rewrite skel_lookup in Hk.
      destruct (T !! k) as [t'|] eqn:Ek; [|done]. cbn in Hk. injection Hk as <-. cbn in *. by eapply tab_unique.
    - apply list_find_None in E. rewrite Forall_forall in E. exfalso.
      apply (E (Sheet (t_id t) (t_cs t) (map fst (t_rows t)))); [|done].
      apply elem_of_list_lookup. exists i. by rewrite skel_lookup, Hi.
  Qed.
  Lemma find_sheet_none r T w aid n : reg_ok be U r T w ->
    Forall (fun a => ~ (ad_id (a_desc a) = aid /\ ad_len (a_desc a) = n)) (ar_archs (r_ar r)) -> find_sheet (skel T) aid n = None.
  Proof.
    intros H HF. unfold find_sheet. destruct (list_find _ _) as [[k s]|] eqn:E; [|done]. exfalso.
    apply list_find_Some in E as (Hk&[E1 E2]&_). rewrite skel_lookup in Hk. destruct (T !! k) as [t|] eqn:Ek; [|done].
    cbn in Hk. injection Hk as <-. cbn in *. destruct (ro_tab _ _ _ _ _ H Ek) as (a&Ha&Hta). rewrite Forall_forall in HF.
    apply (HF a); [by eapply elem_of_list_lookup_2|]. destruct (tab_facts _ _ Hta) as (_&_&_&_&->&_). by destruct Hta as (->&_).
  Qed.
  Lemma skel_length T : length (skel T) = length T.
  Proof. apply map_length. Qed.
  Lemma skel_insert T i t rows : T !! i = Some t ->
    skel (<[i := set_rows t rows]> T) = alter (fun s => Sheet (sh_id s) (sh_types s) (map fst rows)) i (skel T).
  Proof.
    intros Hi. apply list_eq. intros k. rewrite skel_lookup. destruct (decide (i = k)) as [<-|Hne].
    - rewrite list_lookup_insert by (by eapply lookup_lt_Some). rewrite list_lookup_alter, skel_lookup, Hi. done.
    - rewrite list_lookup_insert_ne, list_lookup_alter_ne by done. by rewrite skel_lookup.
  Qed.
  Lemma skel_put T i t h m : T !! i = Some t -> skel (<[i := set_rows t (t_rows t ++ [(h, m)])]> T) = put_in h i (skel T).
  Proof.
    intros Hi. rewrite (skel_insert _ _ _ _ Hi). apply list_eq. intros k. unfold put_in. destruct (decide (i = k)) as [<-|Hne].
    - rewrite !list_lookup_alter, skel_lookup, Hi. cbn. by rewrite map_app.
    - by rewrite !list_lookup_alter_ne.
  Qed.
  Lemma swap_out_row (rows : list row) j h m : NoDup (map fst rows) -> rows !! j = Some (h, m) ->
    swap_out h (map fst rows) = map fst (remove_row j rows).
  Proof.
    intros Hnd Hj. pose proof (lookup_lt_Some _ _ _ Hj) as Hlt. unfold swap_out. rewrite last_lookup, map_length.
    change (map fst ?l) with (fst <$> l) in *. rewrite list_lookup_fmap.
    replace (pred (length rows)) with (length rows - 1) by lia.
    destruct (rows !! (length rows - 1)) as [[hl ml]|] eqn:El; [|apply lookup_ge_None in El; lia]. cbn [fmap option_fmap option_map fst].
    apply list_eq. intros k. rewrite list_lookup_fmap, (remove_row_lookup _ _ _ Hlt).
    destruct (decide (k < length rows - 1)) as [Hk|Hk].
    - rewrite lookup_take by done. change (map ?f ?l) with (f <$> l). rewrite !list_lookup_fmap. destruct (decide (k = j)) as [->|Hne].
      + rewrite Hj, El. cbn. by rewrite decide_True.
      + destruct (rows !! k) as [[h' m']|] eqn:Ek; [|done]. cbn. rewrite decide_False; [done|]. intros ->.
        apply Hne. eapply (NoDup_lookup (fst <$> rows) _ _ h Hnd); rewrite list_lookup_fmap; [by rewrite Ek|by rewrite Hj].
    - rewrite lookup_take_ge by lia. done.
  Qed.
  Lemma skel_take r T w i t j h m : reg_ok be U r T w -> T !! i = Some t -> t_rows t !! j = Some (h, m) ->
    skel (<[i := set_rows t (remove_row j (t_rows t))]> T) = take_out h (skel T).
  Proof.
    intros H Hi Hj. rewrite (skel_insert _ _ _ _ Hi). pose proof (rows_nodup _ _ _ _ _ H Hi) as Hnd.
    apply list_eq. intros k. unfold take_out. change (map ?f (skel T)) with (f <$> skel T). rewrite list_lookup_fmap.
    assert (Hin : h ∈ map fst (t_rows t)).
    { change (map fst ?l) with (fst <$> l). apply elem_of_list_fmap. exists (h, m). split; [done|by eapply elem_of_list_lookup_2]. }
    destruct (decide (i = k)) as [<-|Hne].
    - rewrite list_lookup_alter, skel_lookup, Hi. cbn. rewrite decide_True by done. by rewrite <- (swap_out_row _ _ _ _ Hnd Hj).
    - rewrite list_lookup_alter_ne, skel_lookup by done. destruct (T !! k) as [t'|] eqn:Ek; [|done]. cbn.
      rewrite decide_False; [done|]. intros Hin'. change (map fst ?l) with (fst <$> l) in Hin'.
      apply elem_of_list_fmap in Hin' as ([h' m']&Eh&[j' Hj']%elem_of_list_lookup). cbn in Eh. subst h'. apply Hne.
      by destruct (linked_inj _ _ _ _ _ _ _ _ _ _ _ (ro_loc _ _ _ _ _ H) Hi Hj Ek Hj').
  Qed.
  Lemma skel_set T i t j h m m' : T !! i = Some t -> t_rows t !! j = Some (h, m) ->
    skel (<[i := set_rows t (<[j := (h, m')]> (t_rows t))]> T) = skel T.
  Proof.
    intros Hi Hj. rewrite (skel_insert _ _ _ _ Hi). apply list_eq. intros k. destruct (decide (i = k)) as [<-|Hne].
    - rewrite list_lookup_alter, skel_lookup, Hi. cbn. f_equal. f_equal. change (map fst ?l) with (fst <$> l).
      rewrite list_fmap_insert. apply list_insert_id. by rewrite list_lookup_fmap, Hj.
    - by rewrite list_lookup_alter_ne.
  Qed.

  (** Looking an archetype up, creating it if needed. *)
  Lemma find_or_create_ok r T w d cs :
    reg_ok be U r T w -> desc_ok d cs -> in_U U cs -> archetype_id_of be (ids_of cs) (ad_id d) ->
    (find_or_create_archetype d r = Ret None r /\ archetypes_full r (ad_id d) (length cs) /\ open_sheet (skel T) (ad_id d) cs = None) \/
    (~ archetypes_full r (ad_id d) (length cs) /\
     exists i r' T' t, find_or_create_archetype d r = Ret (Some i) r' /\ r_er r' = r_er r /\
       reg_ok be U r' T' w /\ T' !! i = Some t /\ t_id t = ad_id d /\ t_cs t = cs /\ evolves r T r' T' [] /\
       (forall j t0, T !! j = Some t0 -> T' !! j = Some t0) /\
       open_sheet (skel T) (ad_id d) cs = Some (i, skel T')).
  Proof.
    intros H Hd Hin Haid. destruct (desc_len _ _ Hd) as [Hl H14]. pose proof (do_pos _ _ Hd) as Hpos.
    pose proof (find_or_create_spec d r (ro_areg _ _ _ _ _ H)) as Hs.
    destruct (a_new_ok d cs Hd (r_env r) (ro_oracle _ _ _ _ _ H)) as (a0&e0&Ea0&Eda0&Hok0&Hem0).
    assert (Hisa : forall j, (exists a, ar_archs (r_ar r) !! j = Some a /\ ad_id (a_desc a) = ad_id d /\ ad_len (a_desc a) = length cs) <-> is_arch (r_ar r) j d).
    { intros j. unfold is_arch. by rewrite Hl. }
    destruct (find_or_create_archetype d r) as [[i|] r'|r'|] eqn:E; [| | |].
    - right. destruct Hs as (_&Hinv&Hia&Eer&Hcase); [intros _; lia|]. destruct Hcase as [->|(Hno&Hc&->&a&Ear&Ed&Ea)].
      + split. { intros [_ HF]. destruct Hia as (a&Ha&Hid&Hlen). rewrite Forall_forall in HF.
          apply (HF a); [by eapply elem_of_list_lookup_2|]. by rewrite <- Hl. }
        destruct Hia as (a&Ha&Hid&Hlen). destruct (ro_arch _ _ _ _ _ H Ha) as (t&Ht&Hta).
        exists i, r, T, t. split; [done|]. split; [done|]. split; [done|]. split; [done|].
        pose proof (tab_facts _ _ Hta) as (_&Hst&_&H14t&Hlt&Hne). pose proof Hta as (Eid&_&Hint&Haidt).
        assert (t_id t = ad_id d) as Et by congruence. split; [done|].
        assert (Ecs : t_cs t = cs).
        2: { split; [done|]. split; [apply evolves_refl, H|]. split; [done|]. unfold open_sheet. rewrite <- Et, <- Ecs. by rewrite (find_sheet_some _ _ _ _ _ H Ht). }
        eapply (same_archetype be U HU _ _ (t_id t)); [done|by eapply desc_strict|done|done|lia|done|done|done|by rewrite Et].
      + rewrite Ea0 in Ea. injection Ea as E1 E2. subst a0 e0.
        split. { intros [Hge _]. lia. }
        exists (length (ar_archs (r_ar r))), r', (T ++ [Tab (ad_id d) cs []]), (Tab (ad_id d) cs []).
        split; [done|]. split; [done|]. pose proof (ro_len _ _ _ H) as HlT.
        split; [|split; [by rewrite HlT; apply list_lookup_middle|split; [done|split; [done|split; [|split]]]]].
        * destruct H as [H1 H2 H3 H4 H5 H6]. split; [done| |by rewrite Eer|rewrite Eer; by apply linked_new|by apply repr_new|by eapply emits_oracle].
          rewrite Ear. apply Forall2_app; [done|]. constructor; [|constructor]. split; [by rewrite Ed|done].
        * unfold evolves. rewrite Ear, live_allocs_snoc by done. cbn [t_cs].
          eapply emits_perm; [apply (emits_frame _ _ _ _ _ (live_allocs (ar_archs (r_ar r)) T) Hem0)|done| |done]. by rewrite app_nil_r.
        * intros j t0 Hj. by apply lookup_app_l_Some.
        * unfold open_sheet. rewrite (find_sheet_none _ _ _ _ _ H).
          2: { apply Forall_forall. intros a' [j Hj]%elem_of_list_lookup [Hid Hlen]. apply (Hno j). apply Hisa. by exists a'. }
          rewrite skel_length, <- HlT, (proj2 (N.leb_gt _ _)) by lia. unfold skel. by rewrite map_app.
    - left. destruct Hs as (->&Hcase); [intros _; lia|]. split; [done|]. destruct Hcase as [Hv|[Hno Hc]].
      { by rewrite (do_valid _ _ Hd) in Hv. }
      assert (HF : Forall (fun a => ~ (ad_id (a_desc a) = ad_id d /\ ad_len (a_desc a) = length cs)) (ar_archs (r_ar r))).
      { apply Forall_forall. intros a [j Hj]%elem_of_list_lookup [Hid Hlen]. apply (Hno j). apply Hisa. by exists a. }
      split; [done|]. unfold open_sheet. rewrite (find_sheet_none _ _ _ _ _ H HF), skel_length, <- (ro_len _ _ _ H).
      by rewrite (proj2 (N.leb_le _ _)) by lia.
    - destruct Hs as (_&_&e'&Ee); [intros _; lia|]. congruence.
    - exfalso. rewrite Ea0 in Hs. assert (regular d) as Hreg by (intros _; lia). by apply Hs in Hreg.
  Qed.
End reg.
