(** Registry operations, continued: exact access and mutable iteration. *)
From Verif Require Import RegModel SpecTrace SpecEntity EntityProofs EntityTable SearchProofs DescrProofs MonadProofs ArchProofs ArchOps ArchOps2 ArchOps3 AregProofs IterProofs RegProofs RegOps RegOps2 RegOps3 RegIter SpecBase SpecWorld.
Local Open Scope nat_scope.

(** ** All values, seen through the tables *)
Definition rows_values (rows : list row) : list value := concat (map (fun x : row => mvals x.2) rows).
Definition tabs_values (T : list tab) : list value := concat (map (fun t => rows_values (t_rows t)) T).
Lemma concat_map_perm {A B} (f : A -> list B) l l' : l ≡ₚ l' -> concat (map f l) ≡ₚ concat (map f l').
Proof. intros H. induction H; cbn; [done|by rewrite IHPermutation| |by etrans]. by rewrite !app_assoc, (Permutation_app_comm (f y)). Qed.
Lemma world_values_tabs {Fm : family} be U r T w : reg_ok be U r T w -> world_values w ≡ₚ tabs_values T.
Proof.
  intros H. unfold world_values, tabs_values.
  set (g := fun t => map (fun x : row => (x.1, Ent (t_id t) x.2)) (t_rows t)).
  assert (E : map_to_list w ≡ₚ concat (map g T)).
  { apply NoDup_Permutation; [apply NoDup_map_to_list| |].
    - apply NoDup_concat.
      + change (map g T) with (g <$> T). intros l (t&->&[i Hi]%elem_of_list_lookup)%elem_of_list_fmap.
        apply (NoDup_fmap_1 fst). change (fst <$> ?l) with (map fst l). unfold g. rewrite map_map. by eapply rows_nodup.
      + change (map g T) with (g <$> T). intros i j l k [h e] Hi Hj Hl Hk. rewrite list_lookup_fmap in Hi, Hj.
        destruct (T !! i) as [ti|] eqn:Ti; [|done]. destruct (T !! j) as [tj|] eqn:Tj; [|done]. injection Hi as <-. injection Hj as <-.
        unfold g in Hl, Hk. change (map ?f (t_rows ?t)) with (f <$> t_rows t) in Hl, Hk.
        apply elem_of_list_fmap in Hl as ([h1 m1]&E1&[p Hp]%elem_of_list_lookup). apply elem_of_list_fmap in Hk as ([h2 m2]&E2&[q Hq]%elem_of_list_lookup).
        injection E1 as -> _. injection E2 as -> _.
        by destruct (linked_inj _ _ _ _ _ _ _ _ _ _ _ (ro_loc _ _ _ _ _ H) Ti Hp Tj Hq).
    - intros [h e]. rewrite elem_of_map_to_list, elem_of_concat, (ro_repr _ _ _ _ _ H h e). split.
      + intros (i&t&m&Hi&Hm&->). exists (g t). split; [apply elem_of_list_fmap; by exists (h, m)|].
        apply elem_of_list_fmap. exists t. split; [done|]. by eapply elem_of_list_lookup_2.
      + intros (l&Hl&Hin). apply elem_of_list_fmap in Hin as (t&->&[i Hi]%elem_of_list_lookup).
        apply elem_of_list_fmap in Hl as ([h1 m]&[= -> ->]&Hm). by exists i, t, m. }
  rewrite (concat_map_perm _ _ _ E). clear. induction T as [|t T IH]; [done|]. cbn [map concat].
  rewrite map_app, concat_app, IH. apply Permutation_app_tail. unfold g, rows_values. by rewrite map_map.
Qed.

(** ** Updating the columns of rows *)
Fixpoint upd_from (n : nat) (G : group) (upd : nat -> value -> value) (m : gmap N value) : gmap N value :=
  match G with
  | [] => m
  | C :: G' => upd_from (S n) G' upd (alter (upd n) (ct_id C) m)
  end.
Lemma upd_from_lookup n G upd m x : NoDup (ids_of G) ->
  upd_from n G upd m !! x = match list_find (fun c => ct_id c = x) G with Some (i, _) => upd (n + i) <$> m !! x | None => m !! x end.
Proof.
  revert n m. induction G as [|C G IH]; intros n m Hnd; [done|]. cbn in Hnd. apply NoDup_cons in Hnd as [Hx Hnd]. cbn [upd_from list_find].
  rewrite IH by done. destruct (decide (ct_id C = x)) as [<-|Hne].
  - rewrite (proj2 (list_find_None _ _)).
    + rewrite lookup_alter. by rewrite Nat.add_0_r.
    + apply Forall_forall. intros C' HC' E. apply Hx. apply elem_of_ids. eauto.
  - rewrite lookup_alter_ne by done. destruct (list_find _ G) as [[i C']|]; cbn; [|done]. by rewrite Nat.add_succ_r.
Qed.
Lemma upd_from_updated G upd m : NoDup (ids_of G) -> upd_from 0 G upd m = updated G upd m.
Proof.
  intros Hnd. apply map_eq. intros x. rewrite upd_from_lookup by done. unfold updated. rewrite map_lookup_imap.
  destruct (m !! x) as [v|]; cbn; [|by destruct (list_find _ G) as [[]|]]. by destruct (list_find _ G) as [[]|].
Qed.
Definition set_col (f : value -> value) (C : ctype) (rows : list row) : list row := map (fun x : row => (x.1, alter f (ct_id C) x.2)) rows.
Lemma alter_as_insert' (m : gmap N value) x v f : m !! x = Some v -> alter f x m = <[x := f v]> m.
Proof.
  intros E. apply map_eq. intros y. destruct (decide (y = x)) as [->|Hne].
  - by rewrite lookup_alter, lookup_insert, E.
  - by rewrite lookup_alter_ne, lookup_insert_ne.
Qed.
Lemma set_col_values f C rows col : col_of rows C col -> map f col ++ rows_values rows ≡ₚ col ++ rows_values (set_col f C rows).
Proof.
  induction 1 as [|[h m] v rows col Hv H IH]; [done|]. unfold rows_values, set_col in *. cbn [map concat fst snd app]. cbn [snd] in Hv.
  pose proof (vals_insert m (ct_id C) (f v) v Hv) as Hp. rewrite <- (alter_as_insert' m _ _ f Hv) in Hp.
  rewrite (app_assoc (map f col)), (Permutation_app_comm (map f col)), <- app_assoc, IH.
  rewrite app_comm_cons, Hp. cbn [app]. constructor. rewrite !app_assoc. by rewrite (Permutation_app_comm col).
Qed.
Lemma cols_set_col f C rows G : ct_id C ∉ ids_of G -> cols_at (set_col f C rows) G = cols_at rows G.
Proof.
  intros Hx. unfold cols_at. apply map_ext_in. intros C' HC'. unfold col_at, set_col. rewrite map_map. apply map_ext. intros x. cbn.
  rewrite lookup_alter_ne; [done|]. intros E. apply Hx. apply elem_of_ids. exists C'. split; [by apply elem_of_list_In|done].
Qed.
Lemma imap_S_shift (upd : nat -> value -> value) n (cols : list (list value)) :
  imap (fun k col => map (upd (n + S k)) col) cols = imap (fun k col => map (upd (S n + k)) col) cols.
Proof. apply imap_ext. intros k x _. by rewrite Nat.add_succ_r. Qed.

Section mut.
  Context {Fm : family} (c : cfg) (U : list ctype) (HU : universe (big c) U).
  Notation be := (big c).
  Implicit Types (T : list tab) (w : world).

  Lemma modify_loc_ok r i a t j (h : N) (m : gmap N value) (C : ctype) f old k :
    ar_archs (r_ar r) !! i = Some a -> tab_ok be U a t -> t_rows t !! j = Some (h, m) -> t_cs t !! k = Some C ->
    m !! ct_id C = Some old -> fits C (f old) ->
    exists a', modify_loc f (i, k, j) r = Ret old (put_arch r i a' (r_env r)) /\ a_desc a' = a_desc a /\ a_cap a' = a_cap a /\
      arch_ok a' (t_cs t) (<[j := (h, alter f (ct_id C) m)]> (t_rows t)).
  Proof.
    intros Ha Hta Hj Hk Hm Hf.
    destruct (replace_loc_ok c U r i a t j h m C (f old) old k Ha Hta Hj Hk Hm Hf) as (a'&Er&Ed&Ec&Hok').
    exists a'. rewrite (alter_as_insert' _ _ _ f Hm). split; [|done].
    pose proof Hta as (_&Hok&_). pose proof (proj1 Hok) as Hd.
    destruct (typed_cell_ok (a_desc a) (t_cs t) Hd a _ _ _ _ _ _ _ eq_refl Hok Hj Hk Hm) as [_ Ecell].
    unfold modify_loc. cbn [fst snd]. rewrite (bind_Ret _ _ _ _ _ (arch_at_Rd _ _ _ Ha)). rewrite Ecell. erewrite bind_Ret; [|done]. done.
  Qed.
  Lemma modify_col_ok i id cs k (C : ctype) f todo : cs !! k = Some C -> (forall v, fits C v -> fits C (f v)) ->
    forall col fin r a, ar_archs (r_ar r) !! i = Some a -> tab_ok be U a (Tab id cs (fin ++ todo)) -> col_of todo C col ->
    exists a', mmap (modify_loc f) (map (fun j => (i, k, j)) (seq (length fin) (length todo))) r = Ret col (put_arch r i a' (r_env r)) /\
      a_desc a' = a_desc a /\ a_cap a' = a_cap a /\ tab_ok be U a' (Tab id cs (fin ++ set_col f C todo)).
  Proof.
    intros Hk Hf. induction todo as [|[h m] todo IH]; intros col fin r a Ha Hta Hcol.
    - inversion Hcol; subst. exists a. cbn [length seq map mmap]. rewrite put_arch_id by done. done.
    - inversion Hcol as [|? v ? col' Hv Hcol']; subst. cbn [snd] in Hv.
      assert (Hj : t_rows (Tab id cs (fin ++ (h, m) :: todo)) !! length fin = Some (h, m)) by (by apply list_lookup_middle).
      destruct (tab_row _ _ HU _ _ _ _ _ Hta Hj) as (_&Hfit&_). cbn [t_cs] in Hfit.
      destruct (modify_loc_ok r i a _ _ _ _ C f v k Ha Hta Hj Hk Hv) as (a1&E1&Ed1&Ec1&Hok1).
      { apply Hf, Hfit; [by eapply elem_of_list_lookup_2|done]. }
      cbn [t_rows t_cs] in Hok1. rewrite insert_app_r_alt in Hok1 by lia. rewrite Nat.sub_diag in Hok1. cbn [list_insert insert] in Hok1.
      assert (Hta1 : tab_ok be U a1 (Tab id cs ((fin ++ [(h, alter f (ct_id C) m)]) ++ todo))).
      { destruct Hta as (Hid&_&Hin&Haid). split; [by rewrite Ed1|]. split; [|done]. cbn [t_cs t_rows]. by rewrite <- app_assoc. }
      destruct (IH col' (fin ++ [(h, alter f (ct_id C) m)]) (put_arch r i a1 (r_env r)) a1) as (a'&E'&Ed'&Ec'&Hta'); [by eapply put_arch_at|done|done|].
      exists a'. split; [|split; [congruence|split; [congruence|]]].
      + cbn [length seq map mmap]. rewrite (bind_Ret _ _ _ _ _ E1). rewrite app_length in E'. cbn [length] in E'.
        rewrite Nat.add_1_r in E'. rewrite (bind_Ret _ _ _ _ _ E'). by rewrite put_arch_twice.
      + rewrite <- app_assoc in Hta'. exact Hta'.
  Qed.
  Lemma modify_cols_ok i id cs upd G : forall n r a rows,
    ar_archs (r_ar r) !! i = Some a -> tab_ok be U a (Tab id cs rows) -> NoDup (ids_of G) -> (forall C, C ∈ G -> C ∈ cs) ->
    (forall k C v, G !! k = Some C -> fits C v -> fits C (upd (n + k) v)) ->
    exists a', mmap (fun '(k, col) => mmap (modify_loc (upd k)) col) (zip (seq n (length G)) (locate i (col_cells cs (length rows) G))) r =
        Ret (cols_at rows G) (put_arch r i a' (r_env r)) /\
      a_desc a' = a_desc a /\ a_cap a' = a_cap a /\
      tab_ok be U a' (Tab id cs (map (fun x : row => (x.1, upd_from n G upd x.2)) rows)) /\
      concat (imap (fun k col => map (upd (n + k)) col) (cols_at rows G)) ++ rows_values rows ≡ₚ
        concat (cols_at rows G) ++ rows_values (map (fun x : row => (x.1, upd_from n G upd x.2)) rows).
  Proof.
    induction G as [|C G IH]; intros n r a rows Ha Hta Hnd Hsub Hupd.
    - exists a. cbn. rewrite put_arch_id by done. split; [done|]. split; [done|]. split; [done|].
      assert (map (fun x : row => (x.1, x.2)) rows = rows) as ->; [|done]. rewrite <- (map_id rows) at 2. apply map_ext. by intros [].
    - cbn in Hnd. apply NoDup_cons in Hnd as [Hx Hnd]. assert (HC : C ∈ cs) by (apply Hsub; by left).
      pose proof Hta as (_&Hok&_). cbn [t_cs t_rows] in Hok. pose proof Hok as (Hd&_&_&HF&_).
      apply elem_of_list_lookup in HC as [k Hk].
      assert (Hp : id_pos (ct_id C) (ids_of cs) = k) by (by apply (pos_in_cs _ _ Hd)).
      pose proof (col_at_ok cs rows C HF (elem_of_list_lookup_2 _ _ _ Hk)) as Hcol.
      destruct (modify_col_ok i id cs k C (upd n) rows Hk) with (col := col_at rows C) (fin := @nil row) (r := r) (a := a) as (a1&E1&Ed1&Ec1&Hta1); [|done|done|done|].
      { intros v Hv. rewrite <- (Nat.add_0_r n). by apply (Hupd 0). }
      cbn [app length] in E1, Hta1.
      destruct (IH (S n) (put_arch r i a1 (r_env r)) a1 (set_col (upd n) C rows)) as (a'&E'&Ed'&Ec'&Hta'&Hperm);
        [by eapply put_arch_at|done|done|intros; apply Hsub; by right| |].
      { intros k' C' v Hk' Hv. rewrite Nat.add_succ_comm. by apply (Hupd (S k')). }
      rewrite cols_set_col in E', Hperm by done.
      assert (Erows : map (fun x : row => (x.1, upd_from (S n) G upd x.2)) (set_col (upd n) C rows) =
        map (fun x : row => (x.1, upd_from n (C :: G) upd x.2)) rows). { unfold set_col. by rewrite map_map. }
      rewrite Erows in Hta', Hperm.
      exists a'. split; [|split; [congruence|split; [congruence|split; [done|]]]].
      + cbn [length seq col_cells map locate zip zip_with mmap]. unfold locate, col_cells in E'. rewrite map_map, Hp. cbn beta iota.
        rewrite (bind_Ret _ _ _ _ _ E1). rewrite map_map in *. 
        assert (Hlen : length (set_col (upd n) C rows) = length rows) by (unfold set_col; by rewrite map_length).
        rewrite Hlen in E'. rewrite (bind_Ret _ _ _ _ _ E'). by rewrite put_arch_twice.
      + cbn [cols_at map imap concat]. change (map (col_at rows) G) with (cols_at rows G). unfold compose. rewrite imap_S_shift, Nat.add_0_r.
        pose proof (set_col_values (upd n) C rows _ Hcol) as Hc.
        rewrite <- app_assoc. rewrite (Permutation_app_comm (concat (imap _ _)) (rows_values rows)), app_assoc, Hc, <- app_assoc.
        rewrite (Permutation_app_comm (rows_values _) (concat _)), Hperm. by rewrite <- app_assoc.
  Qed.

  (** *** The items of an iteration *)
  Definition upd_tab (V : list nat) (G : group) (upd : nat -> value -> value) (i : nat) (t : tab) : tab :=
    set_rows t (map (fun x : row => (x.1, if decide (i ∈ V) then updated G upd x.2 else x.2)) (t_rows t)).
  Definition upd_tabs V G upd T : list tab := imap (upd_tab V G upd) T.
  Lemma upd_tab_out V G upd i t : i ∉ V -> upd_tab V G upd i t = t.
  Proof.
    intros Hi. unfold upd_tab. destruct t as [id cs rows]. unfold set_rows. cbn. f_equal. rewrite <- (map_id rows) at 2.
    apply map_ext. intros [h m]. by rewrite decide_False.
  Qed.
  Lemma tabs_values_insert T i t t' : T !! i = Some t ->
    exists X, tabs_values T ≡ₚ rows_values (t_rows t) ++ X /\ tabs_values (<[i := t']> T) ≡ₚ rows_values (t_rows t') ++ X.
  Proof.
    intros Ht. exists (tabs_values (take i T) ++ tabs_values (drop (S i) T)). pose proof (lookup_lt_Some _ _ _ Ht) as Hlt.
    assert (Hmid : forall l1 l2 (x : tab), tabs_values (l1 ++ x :: l2) ≡ₚ rows_values (t_rows x) ++ tabs_values l1 ++ tabs_values l2).
    { intros l1 l2 x. unfold tabs_values. rewrite map_app, concat_app. cbn [map concat]. rewrite !app_assoc.
      by rewrite (Permutation_app_comm (concat _) (rows_values _)). }
    split; [rewrite <- (take_drop_middle _ _ _ Ht) at 1; apply Hmid|]. rewrite insert_take_drop by done. apply Hmid.
  Qed.
  Lemma item_insert T i t G j : j <> i -> item_at (<[i := t]> T) G j = item_at T G j /\ slots_at (<[i := t]> T) G j = slots_at T G j.
  Proof. intros Hne. unfold item_at, slots_at, rows_at, cs_at. by rewrite list_lookup_insert_ne. Qed.
  Lemma upd_tabs_cons i V G upd T t : i ∉ V -> T !! i = Some t ->
    upd_tabs V G upd (<[i := set_rows t (map (fun x : row => (x.1, updated G upd x.2)) (t_rows t))]> T) = upd_tabs (i :: V) G upd T.
  Proof.
    intros Hi Ht. apply list_eq. intros j. unfold upd_tabs. rewrite !list_lookup_imap. destruct (decide (j = i)) as [->|Hne].
    - rewrite list_lookup_insert by (by eapply lookup_lt_Some). rewrite Ht. cbn. rewrite upd_tab_out by done. f_equal. unfold upd_tab. f_equal.
      apply map_ext. intros x. by rewrite decide_True by left.
    - rewrite list_lookup_insert_ne by done. destruct (T !! j) as [t'|]; [|done]. cbn. f_equal. unfold upd_tab. f_equal. apply map_ext.
      intros x. f_equal. destruct (decide (j ∈ V)) as [Hj|Hj]; [by rewrite decide_True by (by right)|].
      rewrite decide_False; [done|]. by intros [?|?]%elem_of_cons.
  Qed.
  Lemma modify_items_ok G upd : NoDup (ids_of G) -> keeps_types G upd -> forall V r T,
    NoDup V -> Forall2 (tab_ok be U) (ar_archs (r_ar r)) T ->
    (forall i, i ∈ V -> exists t, T !! i = Some t /\ forall C, C ∈ G -> C ∈ t_cs t) ->
    exists r', modify_items upd (map (slots_at T G) V) r = Ret (map (fun i => (item_at T G i).2) V) r' /\
      r_er r' = r_er r /\ r_env r' = r_env r /\ ar_maps (r_ar r') = ar_maps (r_ar r) /\
      map a_desc (ar_archs (r_ar r')) = map a_desc (ar_archs (r_ar r)) /\ map a_cap (ar_archs (r_ar r')) = map a_cap (ar_archs (r_ar r)) /\
      Forall2 (tab_ok be U) (ar_archs (r_ar r')) (upd_tabs V G upd T) /\
      concat (map (fun i => replacements upd (item_at T G i).2) V) ++ tabs_values T ≡ₚ
        concat (concat (map (fun i => (item_at T G i).2) V)) ++ tabs_values (upd_tabs V G upd T).
  Proof.
    intros HndG Hkeep. induction V as [|i V IH]; intros r T Hnd HT Htab.
    - exists r. cbn. repeat (split; [done|]).
      assert (upd_tabs [] G upd T = T) as ->; [|done]. apply list_eq. intros j. unfold upd_tabs. rewrite list_lookup_imap.
      destruct (T !! j) as [t|]; [|done]. cbn. f_equal. apply upd_tab_out. by apply not_elem_of_nil.
    - apply NoDup_cons in Hnd as [Hi Hnd]. destruct (Htab i (elem_of_list_here _ _)) as (t&Ht&Hsub).
      destruct (Forall2_lookup_r _ _ _ _ _ HT Ht) as (a&Ha&Hta). destruct t as [id cs rows]. cbn [t_cs] in Hsub.
      destruct (modify_cols_ok i id cs upd G 0 r a rows Ha Hta HndG Hsub) as (a'&E&Ed&Ec&Hta'&Hperm).
      { intros k C v Hk Hv. by apply (Hkeep k C v). }
      assert (Erows : map (fun x : row => (x.1, upd_from 0 G upd x.2)) rows = map (fun x : row => (x.1, updated G upd x.2)) rows).
      { apply map_ext. intros x. by rewrite upd_from_updated. }
      rewrite Erows in Hta', Hperm.
      set (t' := Tab id cs (map (fun x : row => (x.1, updated G upd x.2)) rows)) in *.
      set (r1 := put_arch r i a' (r_env r)) in *. set (T1 := <[i := t']> T).
      destruct (IH r1 T1 Hnd) as (r'&E'&H1&H2&H3&H4&H5&H6&H7).
      { by apply Forall2_insert. }
      { intros j Hj. destruct (Htab j (elem_of_list_further _ _ _ Hj)) as (tj&Htj&Hsubj). exists tj. split; [|done].
        unfold T1. rewrite list_lookup_insert_ne; [done|]. intros ->. done. }
      assert (HE1 : map (slots_at T1 G) V = map (slots_at T G) V).
      { apply map_ext_in. intros j Hj%elem_of_list_In. apply item_insert. intros ->. done. }
      assert (HE2 : forall B (f : list N * list (list value) -> B), map (fun i => f (item_at T1 G i)) V = map (fun i => f (item_at T G i)) V).
      { intros B f. apply map_ext_in. intros j Hj%elem_of_list_In. unfold T1. rewrite (proj1 (item_insert T i t' G j ltac:(intros ->; done))). done. }
      rewrite HE1, (HE2 _ snd) in E'. rewrite (HE2 _ snd), (HE2 _ (fun x => replacements upd x.2)) in H7.
      assert (HT1 : upd_tabs V G upd T1 = upd_tabs (i :: V) G upd T). { unfold T1, t'. by apply (upd_tabs_cons i V G upd T _ Hi Ht). }
      rewrite HT1 in H6, H7.
      exists r'. split; [|split; [done|split; [done|split; [done|split; [|split; [|split; [done|]]]]]]].
      + unfold modify_items. cbn [map mmap].
        assert (Es : slots_at T G i = locate i (col_cells cs (length rows) G)) by (unfold slots_at, rows_at, cs_at; by rewrite Ht).
        assert (Ei : (item_at T G i).2 = cols_at rows G) by (unfold item_at, rows_at; by rewrite Ht).
        rewrite Es, Ei. unfold modify_item at 1. unfold enum.
        assert (Elen : length (locate i (col_cells cs (length rows) G)) = length G) by (unfold locate, col_cells; by rewrite !map_length).
        rewrite Elen, (bind_Ret _ _ _ _ _ E). unfold modify_items in E'. rewrite (bind_Ret _ _ _ _ _ E'). done.
      + rewrite H4. unfold r1. cbn. by eapply map_desc_insert.
      + rewrite H5. unfold r1. cbn. change (map a_cap) with (fmap a_cap : list arch -> list nat). rewrite list_fmap_insert, Ec.
        apply list_insert_id. by rewrite list_lookup_fmap, Ha.
      + cbn [map concat]. assert (Ei : (item_at T G i).2 = cols_at rows G) by (unfold item_at, rows_at; by rewrite Ht).
        rewrite Ei, concat_app. unfold replacements at 1.
        destruct (tabs_values_insert T i _ t' Ht) as (X&EX1&EX2). fold T1 in EX2. cbn [t_rows] in EX1.
        set (A := concat (imap _ _)) in *. set (B := concat (map (fun i => replacements upd _) V)) in *. cbn [Nat.add] in Hperm.
        rewrite EX1. unfold t' in EX2. cbn [t_rows] in EX2. rewrite EX2 in H7. rewrite <- !app_assoc.
        rewrite <- H7. rewrite (Permutation_app_comm B), !app_assoc. change (concat (imap _ _)) with A in Hperm. rewrite Hperm.
        rewrite <- !app_assoc. apply Permutation_app_head. rewrite (Permutation_app_comm B). by rewrite <- app_assoc.
  Qed.
  Lemma modify_eitems_Ret upd (items : list (list N * list (list loc))) vs r r' :
    modify_items upd (map snd items) r = Ret vs r' -> modify_eitems upd items r = Ret (zip (map fst items) vs) r'.
  Proof.
    revert vs r r'. induction items as [|[es cols] items IH]; intros vs r r' E.
    - cbn in E |- *. by injection E as <- <-.
    - unfold modify_items in E. cbn [map mmap snd] in E. unfold bind at 1 in E. unfold modify_eitems. cbn [mmap].
      destruct (modify_item upd cols r) as [v1 r1| |] eqn:E1; [|done|done]. unfold bind at 1 in E.
      destruct (mmap (modify_item upd) (map snd items) r1) as [v2 r2| |] eqn:E2; [|done|done]. unfold ret in E. injection E as <- <-.
      rewrite bind_bind. rewrite (bind_Ret _ _ _ _ _ E1), bind_ret_l. specialize (IH _ _ _ E2). unfold modify_eitems in IH.
      rewrite (bind_Ret _ _ _ _ _ IH). done.
  Qed.

  Lemma repr_upd w T V G upd f : repr w T ->
    (forall i t h m, T !! i = Some t -> (h, m) ∈ t_rows t -> f (Ent (t_id t) m) = Ent (t_id t) (if decide (i ∈ V) then updated G upd m else m)) ->
    repr (f <$> w) (upd_tabs V G upd T).
  Proof.
    intros H Hf h e. rewrite lookup_fmap_Some. unfold upd_tabs. split.
    - intros (e0&<-&He0). apply H in He0 as (i&t&m&Hi&Hm&->). exists i, (upd_tab V G upd i t), (if decide (i ∈ V) then updated G upd m else m).
      split; [by rewrite list_lookup_imap, Hi|]. split; [|by erewrite Hf]. cbn. change (map ?f (t_rows t)) with (f <$> t_rows t).
      apply elem_of_list_fmap. by exists (h, m).
    - intros (i&t'&m'&Hi&Hm&->). rewrite list_lookup_imap in Hi. destruct (T !! i) as [t|] eqn:Ht; [|done]. injection Hi as <-. cbn in Hm.
      change (map ?f (t_rows t)) with (f <$> t_rows t) in Hm. apply elem_of_list_fmap in Hm as ([h0 m]&[= -> ->]&Hm). cbn in *.
      exists (Ent (t_id t) m). split; [by erewrite Hf|]. apply H. eauto 10.
  Qed.
  (** Modifying every item of an iteration that covers [P]. *)
  Lemma modify_ok r T w P G upd V : reg_ok be U r T w -> NoDup (ids_of G) -> keeps_types G upd -> covers T P G V ->
    exists r', modify_items upd (map (slots_at T G) V) r = Ret (map (fun i => (item_at T G i).2) V) r' /\
      step_post c U (fun S' => S' = skel T) r T w (concat (map (fun i => replacements upd (item_at T G i).2) V))
        (concat (concat (map (fun i => (item_at T G i).2) V))) r' (updated_where P G upd w).
  Proof.
    intros H Hnd Hkeep [HndV Htab HP].
    destruct (modify_items_ok G upd Hnd Hkeep V r T HndV (ro_tabs _ _ _ _ _ H) Htab) as (r'&E&H1&H2&H3&H4&H5&H6&H7).
    exists r'. split; [done|].
    assert (Hok : reg_ok be U r' (upd_tabs V G upd T) (updated_where P G upd w)).
    { eapply reg_ok_build; [exact H|done|done|done|rewrite H1; apply H| | |rewrite H2; apply H].
      - rewrite H1. eapply linked_map; [|apply H]. apply Forall2_same_length_lookup. split; [unfold upd_tabs; by rewrite imap_length|].
        intros i t t' Ht Ht'. unfold upd_tabs in Ht'. rewrite list_lookup_imap, Ht in Ht'. injection Ht' as <-. cbn. by rewrite map_map.
      - apply repr_upd; [apply H|]. intros i t h m Ht Hm. pose proof (HP i t h m Ht Hm) as Hx. cbn [en_aid en_vals].
        destruct (P (Ent (t_id t) m)), (decide (i ∈ V)); try done; exfalso; naive_solver. }
    exists (upd_tabs V G upd T), []. split; [done|]. split; [|split].
    - unfold evolves. rewrite H2.
      assert (live_allocs (ar_archs (r_ar r')) (upd_tabs V G upd T) = live_allocs (ar_archs (r_ar r)) T) as ->; [|apply emits_refl, H].
      unfold live_allocs. f_equal. apply list_eq. intros i. 
      pose proof (f_equal (fun l => l !! i) H5) as Ei. cbn in Ei. change (map a_cap) with (fmap a_cap : list arch -> list nat) in Ei.
      rewrite !list_lookup_fmap in Ei. rewrite !lookup_zip_with. unfold upd_tabs. rewrite list_lookup_imap.
      destruct (ar_archs (r_ar r') !! i) as [a'|], (ar_archs (r_ar r) !! i) as [a|]; cbn in Ei; try done.
      injection Ei as Ei. cbn. rewrite Ei. by destruct (T !! i).
    - cbn [app]. rewrite (world_values_tabs _ _ _ _ _ H), (world_values_tabs _ _ _ _ _ Hok). exact H7.
    - apply list_eq. intros i. rewrite !skel_lookup. unfold upd_tabs. rewrite list_lookup_imap. destruct (T !! i) as [t|]; [|done].
      cbn. by rewrite map_map.
  Qed.

  (** *** The mutable iterators *)
  Lemma zip_item T G V : zip (map fst (map (fun i => ((item_at T G i).1, slots_at T G i)) V)) (map (fun i => (item_at T G i).2) V) = map (item_at T G) V.
  Proof. induction V as [|i V IH]; [done|]. cbn [map zip zip_with] in *. f_equal. exact IH. Qed.
  Section gen.
    Context (r : reg) T w (H : reg_ok be U r T w) (G : group) (Hv : gvalid be G) (upd : nat -> value -> value) (Hk : keeps_types G upd).
    Context (P : ent -> bool) (V : list nat) (HV : covers T P G V).
    Lemma mut_gen (o : op) (it : reg -> rd (option (list (list (list loc))))) :
      it r = Rd (Some (map (slots_at T G) V)) ->
      step c o = (let! l := rm_rd it in let! l := unwrap l in let! old := modify_items upd l in ret (OutCols old)) ->
      (forall out, allowed be U (table_full r) (archetypes_full r) w o out <-> exists l, out = OutCols l /\ visits_anon w P G l) ->
      (forall l, ins o (OutCols l) = concat (map (replacements upd) l)) -> (forall l, outs o (OutCols l) = concat (concat l)) ->
      (forall out, ledger be U w o out = updated_where P G upd w) ->
      (forall out S', after c U w o out (skel T) S' = (S' = skel T)) -> step_ok c U r T w o.
    Proof.
      intros E Es Ha Hi Ho Hl Hx. destruct (modify_ok r T w P G upd V H (proj1 Hv) Hk HV) as (r'&Em&Hp).
      exists (OutCols (map (fun i => (item_at T G i).2) V)), r'. split; [|split].
      - rewrite Es. erewrite bind_Ret; [|apply rm_rd_Rd; exact E]. cbn [unwrap]. rewrite bind_ret_l.
        rewrite (bind_Ret _ _ _ _ _ Em). done.
      - apply Ha. eexists. split; [done|]. exists (map (item_at T G) V). split; [by rewrite map_map|]. by eapply covers_visits.
      - rewrite Hl, Hi, Ho, map_map. destruct Hp as (T'&D&Hp1&Hp2&Hp3&Hp4). exists T', D. split; [done|]. split; [done|]. split; [done|]. by rewrite Hx.
    Qed.
    Lemma mut_e_gen (o : op) (it : reg -> rd (option (list (list N * list (list loc))))) :
      it r = Rd (Some (map (fun i => ((item_at T G i).1, slots_at T G i)) V)) ->
      step c o = (let! l := rm_rd it in let! l := unwrap l in let! old := modify_eitems upd l in ret (OutECols old)) ->
      (forall out, allowed be U (table_full r) (archetypes_full r) w o out <-> exists l, out = OutECols l /\ visits w P G l) ->
      (forall l, ins o (OutECols l) = concat (map (fun it => replacements upd it.2) l)) ->
      (forall l, outs o (OutECols l) = concat (concat (map snd l))) ->
      (forall out, ledger be U w o out = updated_where P G upd w) ->
      (forall out S', after c U w o out (skel T) S' = (S' = skel T)) -> step_ok c U r T w o.
    Proof.
      intros E Es Ha Hi Ho Hl Hx. destruct (modify_ok r T w P G upd V H (proj1 Hv) Hk HV) as (r'&Em&Hp).
      exists (OutECols (map (item_at T G) V)), r'. split; [|split].
      - rewrite Es. erewrite bind_Ret; [|apply rm_rd_Rd; exact E]. cbn [unwrap]. rewrite bind_ret_l.
        erewrite bind_Ret; [|eapply modify_eitems_Ret; rewrite map_map; exact Em]. by rewrite zip_item.
      - apply Ha. eexists. split; [done|]. by eapply covers_visits.
      - rewrite Hl, Hi, Ho, !map_map. destruct Hp as (T'&D&Hp1&Hp2&Hp3&Hp4). exists T', D. split; [done|]. split; [done|]. split; [done|]. by rewrite Hx.
    Qed.
  End gen.
  Lemma iter_mut_ok r T w G upd : reg_ok be U r T w -> contract be U w (OpIterMut G upd) -> step_ok c U r T w (OpIterMut G upd).
  Proof.
    intros H (HG&Hv&Hk). destruct (collects c U r T w H G Hv _ (matching_accepts c U HU G HG Hv)) as (_&_&E&_).
    eapply (mut_gen r T w H G Hv upd Hk (matching G) _ (covers_V c U r T w H G Hv _ (matching_accepts c U HU G HG Hv) _ (matching_P c U HU G HG Hv)) (OpIterMut G upd) (iter_components_matching_mut c G));
      [exact E|done..].
  Qed.
  Lemma iter_emut_ok r T w G upd : reg_ok be U r T w -> contract be U w (OpIterEMut G upd) -> step_ok c U r T w (OpIterEMut G upd).
  Proof.
    intros H (HG&Hv&Hk). destruct (collects c U r T w H G Hv _ (matching_accepts c U HU G HG Hv)) as (_&_&_&E).
    eapply (mut_e_gen r T w H G Hv upd Hk (matching G) _ (covers_V c U r T w H G Hv _ (matching_accepts c U HU G HG Hv) _ (matching_P c U HU G HG Hv)) (OpIterEMut G upd) (iter_entity_components_matching_mut c G));
      [exact E|done..].
  Qed.
  Lemma iter_fmut_ok r T w G f upd : reg_ok be U r T w -> contract be U w (OpIterFMut G f upd) -> step_ok c U r T w (OpIterFMut G f upd).
  Proof.
    intros H (HG&Hv&Hf&Hk). destruct (collects c U r T w H G Hv _ (filtered_accepts c U HU G f HG Hv)) as (_&_&E&_).
    eapply (mut_gen r T w H G Hv upd Hk (filtered U G f) _ (covers_V c U r T w H G Hv _ (filtered_accepts c U HU G f HG Hv) _ (filtered_P c U HU G f HG Hv Hf)) (OpIterFMut G f upd) (iter_filtered_components_matching_mut c G f));
      [exact E|done..].
  Qed.
  Lemma iter_efmut_ok r T w G f upd : reg_ok be U r T w -> contract be U w (OpIterEFMut G f upd) -> step_ok c U r T w (OpIterEFMut G f upd).
  Proof.
    intros H (HG&Hv&Hf&Hk). destruct (collects c U r T w H G Hv _ (filtered_accepts c U HU G f HG Hv)) as (_&_&_&E).
    eapply (mut_e_gen r T w H G Hv upd Hk (filtered U G f) _ (covers_V c U r T w H G Hv _ (filtered_accepts c U HU G f HG Hv) _ (filtered_P c U HU G f HG Hv Hf)) (OpIterEFMut G f upd) (iter_filtered_entity_components_matching_mut c G f));
      [exact E|done..].
  Qed.
End mut.
