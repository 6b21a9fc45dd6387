(** Proofs for C49: a little- and a big-endian target do the same, except that
    archetype ids differ and with them the order in which iterators visit
    archetypes. *)
From Verif Require Import RegModel MonadProofs EntityProofs SearchProofs DescrProofs AregProofs IterProofs RegProofs RegOps Clients SpecClient SpecBase SpecWorld SpecPorts.
Local Open Scope nat_scope.

Notation LE := (Cfg false false).
Notation BE := (Cfg false true).

(** ** Changing the id of an archetype *)
Definition retag (x : N) (d : adesc) : adesc := ADesc x (ad_comps d) (ad_len d).
Definition retag_a (x : N) (a : arch) : arch := Arch (retag x (a_desc a)) (a_ptrs a) (a_assoc a) (a_count a) (a_cap a).
Definition tag {A} (x : N) (r : res (arch * env) A) : res (arch * env) A :=
  match r with Ret v s => Ret v (retag_a x s.1, s.2) | Panic s => Panic (retag_a x s.1, s.2) | UB => UB end.
(** The method never looks at the id. *)
Definition blind {A} (m : AM A) : Prop := forall x a e, m (retag_a x a, e) = tag x (m (a, e)).
Lemma blind_bind {A B} (m : AM A) (k : A -> AM B) : blind m -> (forall v, blind (k v)) -> blind (bind m k).
Proof. intros Hm Hk x a e. unfold bind. rewrite Hm. destruct (m (a, e)) as [v [a' e']|[a' e']|]; cbn; [apply Hk|done|done]. Qed.
Lemma blind_get {B} (k : arch -> AM B) : (forall v, blind (k v)) -> (forall x v, k (retag_a x v) = k v) -> blind (bind am_get k).
Proof. intros Hk Hr x a e. unfold bind, am_get. cbn. rewrite Hr. apply Hk. Qed.
Lemma blind_ret {A} (v : A) : blind (ret v). Proof. done. Qed.
Lemma blind_panic {A} : blind (A := A) mpanic. Proof. done. Qed.
Lemma blind_ub {A} : blind (A := A) mub. Proof. done. Qed.
Lemma blind_upd f : (forall x a, f (retag_a x a) = retag_a x (f a)) -> blind (am_upd f).
Proof. intros H x a e. unfold am_upd. cbn. by rewrite H. Qed.
Lemma blind_env {A} (m : M env A) : blind (am_env m).
Proof. intros x a e. unfold am_env. cbn. by destruct (m e). Qed.
Lemma blind_rd {A} (f : arch -> rd A) : (forall x a, f (retag_a x a) = f a) -> blind (am_rd f).
Proof. intros H x a e. unfold am_rd, lift_rd. cbn. rewrite H. by destruct (f a). Qed.
Lemma blind_lift {A} (m : rd A) : blind (lift_rd m).
Proof. intros x a e. unfold lift_rd. by destruct m. Qed.
Lemma blind_massert b : blind (massert b). Proof. by destruct b. Qed.
Lemma blind_mdebug d b : blind (mdebug_assert d b). Proof. destruct d; [apply blind_massert|done]. Qed.
Lemma blind_mfor {A} (l : list A) f : (forall v, blind (f v)) -> blind (mfor l f).
Proof. intros H. induction l as [|v l IH]; [done|]. cbn [mfor]. by apply blind_bind. Qed.
Lemma blind_write_cell i row v : blind (write_cell i row v).
Proof. intros x a e. unfold write_cell. cbn. destruct (a_ptrs a !! i) as [[b|]|]; [|done..]. by case_match. Qed.
Lemma set_assoc_cell_retag x a i v : set_assoc_cell (retag_a x a) i v = retag_a x (set_assoc_cell a i v).
Proof. unfold set_assoc_cell. cbn. by destruct (a_assoc a). Qed.
Lemma blind_write_entity i h : blind (write_entity i h).
Proof.
  intros x a e. unfold write_entity. cbn [fst]. change (entity_cells (retag_a x a)) with (entity_cells a).
  destruct (entity_cells a); [|done..]. case_match; [|done]. cbn. by rewrite set_assoc_cell_retag.
Qed.
Lemma blind_swap_assoc i j : blind (swap_assoc i j).
Proof.
  intros x a e. unfold swap_assoc. cbn [fst]. change (entity_cells (retag_a x a)) with (entity_cells a).
  destruct (entity_cells a) as [cells| |]; [|done..]. destruct (cells !! i), (cells !! j); try done. cbn. by rewrite !set_assoc_cell_retag.
Qed.
Ltac blind := repeat first
  [ apply blind_ret | apply blind_panic | apply blind_ub | apply blind_env | apply blind_lift | apply blind_massert | apply blind_mdebug
  | apply blind_write_cell | apply blind_write_entity | apply blind_swap_assoc
  | apply blind_upd; done | apply blind_rd; done
  | apply blind_get; [intros ?|done]
  | apply blind_bind; [|intros ?]
  | apply blind_mfor; intros ?
  | progress cbn beta
  | match goal with |- blind (let (_, _) := ?v in _) => destruct v end
  | match goal with |- blind (if ?v then _ else _) => destruct v end
  | match goal with |- blind (match ?v with _ => _ end) => destruct v end ].
Lemma blind_dealloc_columns ds : blind (dealloc_columns ds).
Proof. induction ds as [|[i d] ds IH]; cbn [dealloc_columns]; blind. done. Qed.
Lemma blind_dealloc : blind a_dealloc.
Proof. unfold a_dealloc. apply blind_get; [intros a|done]. apply blind_bind; [apply blind_dealloc_columns|intros b]. blind. Qed.
Lemma blind_realloc_column o n v : blind (realloc_column o n v). Proof. unfold realloc_column. blind. Qed.
Lemma blind_resize z : blind (resize_capacity z).
Proof.
  unfold resize_capacity. apply blind_get; [intros a|done]. cbv zeta. destruct (_ || _); [apply blind_dealloc|].
  apply blind_bind; [blind|intros p]. apply blind_bind; [blind|intros _]. apply blind_bind; [blind|intros _].
  apply blind_bind; [apply blind_mfor; intros v; apply blind_realloc_column|intros _]. blind.
Qed.
Lemma blind_resize_if : blind resize_if_necessary.
Proof. unfold resize_if_necessary. apply blind_get; [intros a|done]. destruct (is_full a); [apply blind_resize|blind]. Qed.
Lemma blind_copy_in vals row v : blind (copy_in vals row v). Proof. unfold copy_in. blind. Qed.
Lemma blind_write_all be G row h vs : blind (write_entity_unchecked (Cfg false be) G row h vs).
Proof.
  unfold write_entity_unchecked. cbn [dbg mdebug_assert]. apply blind_get; [intros a|done]. do 3 (apply blind_bind; [blind|intros _]).
  apply blind_bind; [apply blind_mfor; intros v; apply blind_copy_in|intros _]. blind.
Qed.
Lemma blind_push be G h vs : blind (push_entity_unchecked (Cfg false be) G h vs).
Proof.
  unfold push_entity_unchecked. cbn [dbg mdebug_assert]. apply blind_get; [intros a|done]. do 2 (apply blind_bind; [blind|intros _]).
  apply blind_bind; [apply blind_resize_if|intros _]. apply blind_get; [intros a'|done]. apply blind_bind; [blind|intros _].
  apply blind_bind; [apply blind_write_all|intros _]. blind.
Qed.
Lemma blind_push_uninit : blind push_uninitialized_entity.
Proof. unfold push_uninitialized_entity. apply blind_bind; [apply blind_resize_if|intros _]. blind. Qed.
Lemma blind_decrement c : blind (decrement_len_unchecked c). Proof. unfold decrement_len_unchecked. blind. Qed.
Lemma blind_write_single C row v : blind (write_single_component_unchecked C row v).
Proof. unfold write_single_component_unchecked. blind. Qed.
Lemma blind_swap_cells i j v : blind (swap_cells i j v). Proof. unfold swap_cells. blind. Qed.
Lemma blind_swap i j : blind (swap_entities i j).
Proof. unfold swap_entities. apply blind_get; [intros a|done]. apply blind_bind; [apply blind_mfor; intros v; apply blind_swap_cells|intros _]. blind. Qed.
Lemma blind_drop_cell C i row : blind (drop_cell C i row). Proof. unfold drop_cell. blind. Qed.
Lemma blind_run_drop d i s n : blind (run_drop_handler d i s n).
Proof.
  unfold run_drop_handler. destruct (cd_drop d); [|blind]. apply blind_get; [intros a|done]. destruct (a_ptrs a !! i) as [[b|]|]; [|blind..].
  apply blind_mfor. intros v. apply blind_drop_cell.
Qed.
Lemma blind_drop_entity row : blind (drop_entity row).
Proof. unfold drop_entity. apply blind_get; [intros a|done]. apply blind_mfor. intros [i d]. apply blind_run_drop. Qed.
Lemma blind_swap_drop be row : blind (swap_drop_unchecked (Cfg false be) row).
Proof.
  unfold swap_drop_unchecked. apply blind_get; [intros a|done]. apply blind_bind; [blind|intros _]. apply blind_bind; [blind|intros last].
  destruct (row =? last); repeat (apply blind_bind; [first [apply blind_swap|apply blind_drop_entity|apply blind_decrement]|intros ?]); blind.
Qed.
Lemma blind_swap_to_last be row : blind (swap_to_last_unchecked (Cfg false be) row).
Proof.
  unfold swap_to_last_unchecked. apply blind_get; [intros a|done]. apply blind_bind; [blind|intros _]. apply blind_bind; [blind|intros last].
  destruct (row =? last); [blind|]. apply blind_bind; [apply blind_swap|intros ?]. blind.
Qed.
Lemma blind_swap_remove be G row : blind (swap_remove_unchecked (Cfg false be) G row).
Proof.
  unfold swap_remove_unchecked. apply blind_get; [intros a|done]. apply blind_bind; [blind|intros _]. apply blind_bind; [blind|intros last].
  destruct (row =? last).
  - apply blind_bind; [blind|intros data]. apply blind_bind; [apply blind_decrement|intros ?]. blind.
  - apply blind_bind; [apply blind_swap|intros ?]. apply blind_bind; [blind|intros data]. apply blind_bind; [apply blind_decrement|intros ?]. blind.
Qed.
Lemma blind_copy_common a i j : blind (copy_common_components a i j).
Proof. unfold copy_common_components. blind. Qed.
Lemma with_capacity_retag x d n e : ad_is_valid d = ad_is_valid (retag x d) ->
  a_with_capacity (retag x d) n e = match a_with_capacity d n e with Ret a e' => Ret (retag_a x a) e' | Panic e' => Panic e' | UB => UB end.
Proof.
  intros Hv. unfold a_with_capacity. rewrite <- Hv. unfold massert. destruct (ad_is_valid d); [|done]. unfold bind at 1 4, ret at 1 4.
  destruct (_ && _); [|done]. unfold bind at 1 3. destruct (mem_alloc _ _ _ e) as [[b|] e1|e1|]; [|done..].
  change (ad_components (retag x d)) with (ad_components d). unfold bind. by destruct (alloc_columns _ _ e1).
Qed.

(** ** Entries and the entity table: bytes 4 and 5 are swapped *)
Definition sw (e : entry) : entry := Entry (eb0 e) (eb1 e) (eb2 e) (eb3 e) (eb5 e) (eb4 e).
Definition sw_er (r : er) : er := Er (map sw (er_ents r)) (er_next r).
Lemma sw_arch e : entry_archetype_index true (sw e) = entry_archetype_index false e.
Proof. unfold entry_archetype_index, u16_from_ne. cbn. lia. Qed.
Lemma sw_set_arch e v : entry_set_archetype_index true (sw e) v = sw (entry_set_archetype_index false e v).
Proof. done. Qed.
Lemma sw_valid e : entry_is_valid true (sw e) = entry_is_valid false e.
Proof. unfold entry_is_valid. by rewrite sw_arch. Qed.
Lemma sw_lookup r i : er_ents (sw_er r) !! i = sw <$> er_ents r !! i.
Proof. cbn. change (map sw ?l) with (sw <$> l). apply list_lookup_fmap. Qed.
Lemma sw_length r : length (er_ents (sw_er r)) = length (er_ents r).
Proof. apply map_length. Qed.
Lemma sw_entry r h : er_entity_entry true (sw_er r) h = sw <$> er_entity_entry false r h.
Proof.
  unfold er_entity_entry. rewrite sw_length, sw_lookup. destruct (_ || _); [done|].
  destruct (er_ents r !! _) as [e|]; [|done]. cbn [fmap option_fmap option_map]. rewrite sw_valid. change (entry_version (sw e)) with (entry_version e).
  by destruct (_ || _).
Qed.
Lemma sw_insert r i e : map sw (<[i := e]> (er_ents r)) = <[i := sw e]> (map sw (er_ents r)).
Proof. change (map sw ?l) with (sw <$> l). apply list_fmap_insert. Qed.
Definition swr {A} (x : res er A) : res er A :=
  match x with Ret v r => Ret v (sw_er r) | Panic r => Panic (sw_er r) | UB => UB end.
Lemma sw_create row ai r : er_create_entity true row ai (sw_er r) = swr (er_create_entity false row ai r).
Proof.
  unfold er_create_entity. rewrite sw_length, sw_lookup. destruct (er_MAX_ENTITY_COUNT <=? _)%N; [done|].
  change (er_next (sw_er r)) with (er_next r). destruct (er_next r =? iia_INVALID_VALUE)%N.
  - cbn. unfold sw_er. cbn. by rewrite map_app.
  - destruct (er_ents r !! _) as [e|]; [|done]. cbn [fmap option_fmap option_map swr]. unfold sw_er. cbn [er_ents er_next]. by rewrite sw_insert.
Qed.
Lemma sw_destroy h r : er_destroy_entity true h (sw_er r) = swr (er_destroy_entity false h r).
Proof.
  unfold er_destroy_entity. rewrite sw_length, sw_lookup. destruct (_ || _); [done|].
  destruct (er_ents r !! _) as [e|]; [|done]. cbn [fmap option_fmap option_map]. rewrite sw_valid. change (entry_version (sw e)) with (entry_version e).
  destruct (_ || _); [done|]. cbn [swr]. unfold sw_er. cbn [er_ents er_next]. by rewrite sw_insert.
Qed.
Lemma sw_update r h f f' : (forall e, f' (sw e) = sw (f e)) -> er_update_entry true (sw_er r) h f' = sw_er <$> er_update_entry false r h f.
Proof.
  intros H. unfold er_update_entry. rewrite sw_entry. destruct (er_entity_entry false r h) as [e|]; [|done]. cbn. unfold sw_er. cbn.
  by rewrite sw_insert, H.
Qed.
Lemma sw_loop l n : eit_loop true (map sw l) n = eit_loop false l n.
Proof. revert n. induction l as [|e l IH]; intros n; [done|]. cbn. rewrite sw_valid, IH. done. Qed.
Lemma sw_iter r : er_iter true (sw_er r) = er_iter false r.
Proof.
  unfold er_iter. rewrite sw_length. generalize (S (length (er_ents r))) as f. intros f. generalize 0 as n.
  induction f as [|f IH]; intros n; [done|]. cbn [collect]. unfold eit_next at 1 3. cbn [sw_er er_ents].
  rewrite skipn_map, sw_loop. cbn [rbind]. destruct (eit_loop false _ n) as [[v|] n']; [|done]. by rewrite IH.
Qed.

(** ** Driving an iterator: the archetypes visited, then their items *)
Lemma rmap_ext {A B} (f g : A -> rd B) l : (forall x, x ∈ l -> g x = f x) -> rmap g l = rmap f l.
Proof.
  induction l as [|x l IH]; intros H; [done|]. cbn [rmap]. rewrite H by left. rewrite IH; [done|]. intros. apply H. by right.
Qed.
Lemma rmap_perm {A B} (f : A -> rd B) l1 l2 : l1 ≡ₚ l2 -> (forall x, f x <> RdPanic) ->
  match rmap f l1, rmap f l2 with Rd a, Rd b => a ≡ₚ b | RdUB, RdUB => True | _, _ => False end.
Proof.
  intros Hp Hf. induction Hp as [|x l1 l2 Hp IH|x y l|l1 l2 l3 _ IH1 _ IH2]; cbn [rmap rbind].
  - done.
  - specialize (Hf x). destruct (f x); [|done..]. cbn [rbind]. destruct (rmap f l1), (rmap f l2); try done. cbn. by apply Permutation_skip.
  - pose proof (Hf x). pose proof (Hf y). assert (rmap f l <> RdPanic).
    { induction l as [|z l IH]; [done|]. cbn [rmap]. specialize (Hf z). destruct (f z); [|done..]. cbn. by destruct (rmap f l). }
    destruct (f x), (f y); try done; cbn; destruct (rmap f l); try done. cbn. apply Permutation_swap.
  - destruct (rmap f l1), (rmap f l2), (rmap f l3); try done. by etrans.
Qed.
Lemma rmap_no_panic {A B} (f : A -> rd B) l : (forall x, x ∈ l -> f x <> RdPanic) -> rmap f l <> RdPanic.
Proof.
  induction l as [|x l IH]; intros Hf; [done|]. cbn [rmap]. pose proof (Hf x ltac:(left)). destruct (f x); [|done..]. cbn [rbind].
  assert (rmap f l <> RdPanic) by (apply IH; intros; apply Hf; by right). by destruct (rmap f l).
Qed.
Lemma rmap_elem {A B} (f : A -> rd B) l ys y : rmap f l = Rd ys -> y ∈ ys -> exists x, x ∈ l /\ f x = Rd y.
Proof.
  revert ys. induction l as [|x l IH]; intros ys; cbn [rmap]; [intros [= <-] H; by apply elem_of_nil in H|].
  destruct (f x) as [z| |] eqn:E; [|done..]. cbn [rbind]. destruct (rmap f l) as [zs| |]; [|done..]. intros [= <-].
  intros [->|H]%elem_of_cons; [exists x; split; [left|done]|]. destruct (IH _ eq_refl H) as (w&Hw&Ew). exists w. split; [by right|done].
Qed.
Definition fetch {X} (ar : areg) (g : arch -> rd X) (i : nat) : rd (nat * X) :=
  match ar_archs ar !! i with None => RdUB | Some a => letr x := g a in Rd (i, x) end.
Lemma rmap_fetch {X} ar (g : arch -> rd X) l ps : rmap (fetch ar g) l = Rd ps ->
  map fst ps = l /\ Forall (fun p : nat * X => exists a, ar_archs ar !! p.1 = Some a /\ g a = Rd p.2) ps.
Proof.
  revert ps. induction l as [|i l IH]; intros ps; cbn [rmap]; [intros [= <-]; split; [done|constructor]|].
  unfold fetch at 1. destruct (ar_archs ar !! i) as [a|] eqn:Ea; [|done]. destruct (g a) as [x| |] eqn:Eg; [|done..]. cbn [rbind].
  destruct (rmap (fetch ar g) l) as [qs| |]; [|done..]. intros [= <-]. destruct (IH _ eq_refl) as [<- Hf]. split; [done|].
  constructor; [|done]. by exists a.
Qed.
Section fetching.
  Context (c : cfg) (G : group) (ar : areg) (Hinv : areg_inv ar) (accept : adesc -> bool).
  Context {X I : Type} (item : nat -> arch -> rd I) (g : arch -> rd X) (h : nat -> X -> I).
  Context (Hitem : forall i a, item i a = letr v := g a in Rd (h i v)).
  Lemma collect_fetch fuel st : gd_is_valid (group_desc (big c) G) = true -> it_level st <= 14 ->
    length (filter (acc ar accept) (indices ar st)) < fuel ->
    collect (slices_next c G accept item ar) fuel st =
      letr l := rmap (fetch ar g) (filter (acc ar accept) (indices ar st)) in Rd (Some (map (fun p => h p.1 p.2) l)).
  Proof.
    intros Hv. revert st. induction fuel as [|fuel IH]; intros st Hl Hf; [lia|].
    cbn [collect]. destruct (arch_iter_next_spec c G ar Hinv accept st Hv Hl) as (o&st'&E&Hl'&H). unfold slices_next at 1. rewrite E. cbn [rbind].
    destruct o as [i|]; [|by destruct H as [-> _]].
    destruct H as [Ei (a&Ha&Hacc)]. rewrite Ei in *. rewrite Ha, Hitem. cbn [rmap]. unfold fetch at 1. rewrite Ha.
    destruct (g a) as [v| |]; [|done..]. cbn [rbind]. cbn in Hf. rewrite IH by (done || lia). by destruct (rmap _ _).
  Qed.
  Lemma slices_collect_fetch : gd_is_valid (group_desc (big c) G) = true ->
    slices_collect c G accept item ar = letr l := rmap (fetch ar g) (visited c G ar accept) in Rd (Some (map (fun p => h p.1 p.2) l)).
  Proof.
    intros Hv. unfold slices_collect, arch_iter_new, visited, glen.
    pose proof (group_validity (big c) G) as ([H1 _]&_&Eg). destruct (H1 Hv) as (Hlen&_). specialize (Eg Hv).
    rewrite Eg. destruct (length G) as [|n] eqn:En; [lia|]. cbn [rbind Nat.sub]. rewrite Nat.sub_0_r.
    apply collect_fetch; [done|cbn; lia|].
    rewrite indices_start. unfold total_keys. eapply Nat.le_lt_trans; [apply filter_length|].
    rewrite map_length. rewrite <- (take_drop n (ar_maps ar)) at 2. rewrite concat_app, app_length. lia.
  Qed.
End fetching.
Lemma slices_collect_invalid {I} be G accept (item : nat -> arch -> rd I) ar : gd_is_valid (group_desc be G) = false ->
  slices_collect (Cfg false be) G accept item ar = Rd (Some []).
Proof.
  intros Hv. pose proof (group_validity be G) as (_&H&_). unfold slices_collect, arch_iter_new. cbn [big dbg]. rewrite (H Hv). cbn [rbind collect].
  unfold slices_next, arch_iter_next. cbn [big]. rewrite Hv. done.
Qed.

(** ** Writing through the references of one archetype *)
Lemma reg_same s i a : ar_archs (r_ar s) !! i = Some a -> Reg (r_er s) (set_archs (r_ar s) (<[i := a]> (ar_archs (r_ar s)))) (r_env s) = s.
Proof. intros E. rewrite list_insert_id by done. by destruct s as [? [] ?]. Qed.
Definition am_modify (f : value -> value) (p : nat * nat) : AM value :=
  let! old := am_rd (fun a => raw_cell a p.1 p.2) in
  match old with None => mub | Some ov => write_cell p.1 p.2 (Some (f ov)) ;;! ret ov end.
Definition am_item (upd : nat -> value -> value) (cols : list (list (nat * nat))) : AM (list (list value)) :=
  mmap (fun '(k, col) => mmap (am_modify (upd k)) col) (enum cols).
Lemma modify_loc_arch f i p s : modify_loc f (i, p.1, p.2) s = with_arch i (am_modify f p) s.
Proof.
  unfold modify_loc, replace_loc, with_arch, am_modify, am_rd, rm_rd, arch_at, bind, lift_rd. cbn [fst snd].
  destruct (ar_archs (r_ar s) !! i) as [a|] eqn:Ea; [|done]. cbn [fst snd].
  destruct (raw_cell a p.1 p.2) as [[ov|]| |] eqn:Er; [|done| |done].
  - rewrite Ea, Er, Ea. by destruct (write_cell p.1 p.2 (Some (f ov)) (a, r_env s)).
  - cbn [fst snd]. by rewrite reg_same.
Qed.
Lemma with_arch_bind {A B} i (m : AM A) (k : A -> AM B) s : with_arch i (bind m k) s = bind (with_arch i m) (fun x => with_arch i (k x)) s.
Proof.
  unfold with_arch, bind. destruct (ar_archs (r_ar s) !! i) as [a|] eqn:Ea; [|done].
  destruct (m (a, r_env s)) as [x [a' e']|[a' e']|]; [|done|done]. cbn [r_ar set_archs ar_archs ar_maps r_env r_er fst snd].
  rewrite list_lookup_insert by (by eapply lookup_lt_Some). destruct (k x (a', e')) as [y [b e2]|[b e2]|]; cbn [fst snd]; [..|done]; unfold set_archs; cbn [ar_maps ar_archs]; by rewrite list_insert_insert.
Qed.
Lemma with_arch_ret {A} i (x : A) s : is_Some (ar_archs (r_ar s) !! i) -> with_arch i (ret x) s = Ret x s.
Proof. intros [a Ea]. unfold with_arch. rewrite Ea. cbn [ret fst snd]. by rewrite reg_same. Qed.
Lemma with_arch_stays {A} i (m : AM A) s x s' j : with_arch i m s = Ret x s' -> is_Some (ar_archs (r_ar s) !! j) -> is_Some (ar_archs (r_ar s') !! j).
Proof.
  unfold with_arch. destruct (ar_archs (r_ar s) !! i) as [a|]; [|done]. destruct (m _) as [? st| |]; [|done..]. intros [= <- <-]. cbn.
  rewrite !lookup_lt_is_Some. by rewrite insert_length.
Qed.
Lemma with_arch_other {A} i (m : AM A) s x s' j : with_arch i m s = Ret x s' -> i <> j -> ar_archs (r_ar s') !! j = ar_archs (r_ar s) !! j.
Proof.
  unfold with_arch. destruct (ar_archs (r_ar s) !! i) as [a|]; [|done]. destruct (m _) as [? st| |]; [|done..]. intros [= <- <-] Hne. cbn.
  by rewrite list_lookup_insert_ne.
Qed.
Lemma mmap_arch {A B} i (f : A -> RM B) (m : A -> AM B) l s : is_Some (ar_archs (r_ar s) !! i) ->
  (forall x s, x ∈ l -> is_Some (ar_archs (r_ar s) !! i) -> f x s = with_arch i (m x) s) -> mmap f l s = with_arch i (mmap m l) s.
Proof.
  revert s. induction l as [|x l IH]; intros s Hs Hf; cbn [mmap]; [by rewrite with_arch_ret|].
  rewrite with_arch_bind. unfold bind at 1 3. rewrite Hf by (done || left). destruct (with_arch i (m x) s) as [y s1|s1|] eqn:E; [|done|done].
  assert (H1 : is_Some (ar_archs (r_ar s1) !! i)) by (by eapply with_arch_stays).
  rewrite with_arch_bind. unfold bind. rewrite IH; [|done|intros; apply Hf; [by right|done]].
  destruct (with_arch i (mmap m l) s1) as [ys s2|s2|] eqn:E2; [|done|done]. rewrite with_arch_ret; [done|by eapply with_arch_stays].
Qed.
Lemma mmap_map {S A B D} (f : B -> M S D) (g : A -> B) l s : mmap f (map g l) s = mmap (fun x => f (g x)) l s.
Proof. revert s. induction l as [|x l IH]; intros s; [done|]. cbn [map mmap]. unfold bind. destruct (f (g x) s); [|done..]. by rewrite IH. Qed.
Lemma mmap_ext {S A B} (f g : A -> M S B) l s : (forall x s, f x s = g x s) -> mmap f l s = mmap g l s.
Proof. intros H. revert s. induction l as [|x l IH]; intros s; [done|]. cbn [mmap]. unfold bind. rewrite H. destruct (g x s); [|done..]. by rewrite IH. Qed.
Lemma enum_map {A B} (f : A -> B) l : enum (map f l) = map (fun p => (p.1, f p.2)) (enum l).
Proof.
  apply list_eq. intros k. change (map f l) with (f <$> l). change (map ?h (enum l)) with (h <$> enum l). rewrite (list_lookup_fmap _ (enum l)).
  destruct (l !! k) as [x|] eqn:E.
  - rewrite (enum_lookup _ _ _ E). apply enum_lookup. cbn [fst snd]. by rewrite list_lookup_fmap, E.
  - apply lookup_ge_None in E. rewrite !lookup_ge_None_2; [done|..]; rewrite enum_length; [done|by rewrite fmap_length].
Qed.
Lemma modify_item_arch upd i cols s : is_Some (ar_archs (r_ar s) !! i) -> modify_item upd (locate i cols) s = with_arch i (am_item upd cols) s.
Proof.
  intros Hs. unfold modify_item, am_item, locate. rewrite enum_map, mmap_map. apply mmap_arch; [done|].
  intros [k col] t _ Ht. cbn [fst snd]. rewrite mmap_map. apply mmap_arch; [done|]. intros [idx row] u _ _. apply (modify_loc_arch _ _ (idx, row)).
Qed.
(** The method neither reads nor changes the outside world. *)
Definition indep {A} (m : AM A) : Prop := forall a e e', m (a, e') = match m (a, e) with Ret x s => Ret x (s.1, e') | Panic s => Panic (s.1, e') | UB => UB end.
Lemma indep_bind {A B} (m : AM A) (k : A -> AM B) : indep m -> (forall x, indep (k x)) -> indep (bind m k).
Proof.
  intros Hm Hk a e e'. unfold bind. rewrite (Hm a e e'). destruct (m (a, e)) as [x [a' e1]|[a' e1]|]; cbn; [apply Hk|done|done].
Qed.
Lemma indep_mmap {A B} (f : A -> AM B) l : (forall x, indep (f x)) -> indep (mmap f l).
Proof. intros H. induction l as [|x l IH]; [by intros a e e'|]. cbn [mmap]. apply indep_bind; [done|]. intros y. apply indep_bind; [done|]. by intros ys a e e'. Qed.
Lemma indep_modify f p : indep (am_modify f p).
Proof.
  intros a e e'. unfold am_modify, am_rd, bind, lift_rd, write_cell. cbn [fst snd]. destruct (raw_cell a p.1 p.2) as [[ov|]| |]; [|done..].
  cbn [fst snd]. destruct (a_ptrs a !! p.1) as [[b|]|]; [|done..].
  unfold ret. destruct (Nat.ltb p.2 (length (bl_cells b))); done.
Qed.
Lemma indep_item upd cols : indep (am_item upd cols).
Proof. apply indep_mmap. intros [k col]. apply indep_mmap. intros p. apply indep_modify. Qed.
(** The method does not panic on an archetype with [n] columns, and keeps their number. *)
Definition calm {A} (n : nat) (m : AM A) : Prop := forall a e, length (a_ptrs a) = n ->
  match m (a, e) with Ret _ s => length (a_ptrs s.1) = n | Panic _ => False | UB => True end.
Lemma calm_bind {A B} n (m : AM A) (k : A -> AM B) : calm n m -> (forall x, calm n (k x)) -> calm n (bind m k).
Proof. intros Hm Hk a e Ha. unfold bind. specialize (Hm a e Ha). destruct (m (a, e)) as [x [a' e1]| |]; [by apply Hk|done|done]. Qed.
Lemma calm_mmap {A B} n (f : A -> AM B) l : (forall x, x ∈ l -> calm n (f x)) -> calm n (mmap f l).
Proof.
  intros H. induction l as [|x l IH]; [by intros a e|]. cbn [mmap]. apply calm_bind; [apply H; left|]. intros y. apply calm_bind; [apply IH; intros; apply H; by right|].
  by intros ys a e.
Qed.
Lemma calm_modify n f p : p.1 < n -> calm n (am_modify f p).
Proof.
  intros Hp a e Ha. unfold am_modify, am_rd, bind, lift_rd, write_cell, raw_cell. cbn [fst snd].
  destruct (a_ptrs a !! p.1) as [[b|]|] eqn:Ho; [|done|].
  2: { apply lookup_ge_None in Ho. subst n. apply (Nat.lt_irrefl p.1). eapply Nat.lt_le_trans; [exact Hp|exact Ho]. }
  destruct (bl_cells b !! p.2) as [[ov|]|]; [|done..]. cbn [fst snd]. rewrite Ho. destruct (Nat.ltb p.2 (length (bl_cells b))); [|done]. cbn. by rewrite insert_length.
Qed.
Definition inside (n : nat) (cols : list (list (nat * nat))) : Prop := forall col p, col ∈ cols -> p ∈ col -> p.1 < n.
Lemma calm_item n upd cols : inside n cols -> calm n (am_item upd cols).
Proof.
  intros H. apply calm_mmap. intros [k col] Hin. apply calm_mmap. intros p Hp. apply calm_modify. eapply H; [|exact Hp].
  apply elem_of_list_lookup in Hin as [j Hj]. apply enum_lookup_inv in Hj as (x&[= -> ->]&Hx). by eapply elem_of_list_lookup_2.
Qed.
Section permuted.
  Context {X Y : Type} (m : X -> AM Y) (Hm : forall x, indep (m x)).
  Definition at_item (p : nat * X) : RM Y := with_arch p.1 (m p.2).
  Definition safe (s : reg) (p : nat * X) : Prop := exists a, ar_archs (r_ar s) !! p.1 = Some a /\ calm (length (a_ptrs a)) (m p.2).
  Lemma at_item_safe s p : safe s p ->
    (exists y a, ar_archs (r_ar s) !! p.1 <> None /\ (forall e, m p.2 (default (Arch ad_INVALID [] None 0 0) (ar_archs (r_ar s) !! p.1), e) = Ret y (a, e)) /\
       at_item p s = Ret y (Reg (r_er s) (set_archs (r_ar s) (<[p.1 := a]> (ar_archs (r_ar s)))) (r_env s)))
    \/ at_item p s = UB /\ (forall e, m p.2 (default (Arch ad_INVALID [] None 0 0) (ar_archs (r_ar s) !! p.1), e) = UB).
  Proof.
    intros (a&Ea&Hc). unfold at_item, with_arch. rewrite Ea. cbn [default]. specialize (Hc a (r_env s) eq_refl). pose proof (fun e' => Hm p.2 a (r_env s) e') as Hi.
    destruct (m p.2 (a, r_env s)) as [y [a' e']|[a' e']|] eqn:E.
    - left. cbn in Hi. pose proof (Hi (r_env s)) as Hs. rewrite E in Hs. injection Hs as Hs. subst e'. exists y, a'. split; [done|]. split; [done|]. done.
    - done.
    - right. done.
  Qed.
  Lemma safe_after s p y s' q : at_item p s = Ret y s' -> p.1 <> q.1 -> safe s q -> safe s' q.
  Proof. intros E Hne (a&Ha&Hc). exists a. split; [|done]. by rewrite (with_arch_other _ _ _ _ _ _ E Hne). Qed.
  Lemma mmap_perm l1 l2 s : l1 ≡ₚ l2 -> NoDup (map fst l1) -> Forall (safe s) l1 ->
    match mmap at_item l1 s, mmap at_item l2 s with
    | Ret y1 t1, Ret y2 t2 => y1 ≡ₚ y2 /\ t1 = t2
    | Panic t1, Panic t2 => t1 = t2
    | UB, UB => True
    | _, _ => False
    end.
  Proof.
    intros Hp. revert s. induction Hp as [|p l1 l2 Hp IH|p q l|l1 l2 l3 H12 IH1 _ IH2]; intros s Hnd Hs.
    - done.
    - cbn [mmap map] in *. unfold bind. apply NoDup_cons in Hnd as [Hn Hnd]. apply Forall_cons in Hs as [Hs1 Hs].
      destruct (at_item p s) as [y t|t|] eqn:E; [|done|done].
      assert (Hs' : Forall (safe t) l1).
      { rewrite Forall_forall in Hs |- *. intros q Hq. eapply safe_after; [exact E| |by apply Hs]. intros Ene. apply Hn. rewrite Ene. by apply elem_of_list_fmap_1. }
      specialize (IH t Hnd Hs'). destruct (mmap at_item l1 t), (mmap at_item l2 t); try done. destruct IH as [IH ->]. cbn. split; [|done]. by apply Permutation_skip.
    - cbn [mmap map] in *. unfold bind. apply NoDup_cons in Hnd as [Hn Hnd]. apply Forall_cons in Hs as [Hq Hs]. apply Forall_cons in Hs as [Hpp Hs].
      assert (Hne : q.1 <> p.1). { intros Ene. apply Hn. rewrite Ene. left. }
      destruct (at_item_safe s p Hpp) as [(yp&ap&Np&Mp&Ep)|[Ep Mp]], (at_item_safe s q Hq) as [(yq&aq&Nq&Mq&Eq)|[Eq Mq]].
      + pose proof (safe_after _ _ _ _ _ Ep (not_eq_sym Hne) Hq) as Hq'. pose proof (safe_after _ _ _ _ _ Eq Hne Hpp) as Hp'.
        rewrite Ep, Eq.
        destruct (at_item_safe _ p Hp') as [(yp'&ap'&_&Mp'&Ep')|[Ep' Mp']].
        2: { specialize (Mp' (r_env s)). cbn in Mp'. rewrite list_lookup_insert_ne in Mp' by done. by rewrite Mp in Mp'. }
        destruct (at_item_safe _ q Hq') as [(yq'&aq'&_&Mq'&Eq')|[Eq' Mq']].
        2: { specialize (Mq' (r_env s)). cbn in Mq'. rewrite list_lookup_insert_ne in Mq' by done. by rewrite Mq in Mq'. }
        specialize (Mp' (r_env s)). cbn in Mp'. rewrite list_lookup_insert_ne, Mp in Mp' by done. injection Mp' as <- <-.
        specialize (Mq' (r_env s)). cbn in Mq'. rewrite list_lookup_insert_ne, Mq in Mq' by done. injection Mq' as <- <-.
        rewrite Ep', Eq'. unfold set_archs. cbn [r_er r_ar ar_archs ar_maps r_env]. rewrite (list_insert_commute _ p.1 q.1) by done.
        destruct (mmap at_item l _); [|done|done]. cbn. split; [|done]. apply Permutation_swap.
      + rewrite Ep, Eq. pose proof (safe_after _ _ _ _ _ Ep (not_eq_sym Hne) Hq) as Hq'.
        destruct (at_item_safe _ q Hq') as [(yq'&aq'&_&Mq'&Eq')|[Eq' Mq']]; [|by rewrite Eq'].
        specialize (Mq' (r_env s)). cbn in Mq'. rewrite list_lookup_insert_ne in Mq' by done. by rewrite Mq in Mq'.
      + rewrite Ep, Eq. pose proof (safe_after _ _ _ _ _ Eq Hne Hpp) as Hp'.
        destruct (at_item_safe _ p Hp') as [(yp'&ap'&_&Mp'&Ep')|[Ep' Mp']]; [|by rewrite Ep'].
        specialize (Mp' (r_env s)). cbn in Mp'. rewrite list_lookup_insert_ne in Mp' by done. by rewrite Mp in Mp'.
      + by rewrite Ep, Eq.
    - specialize (IH1 s Hnd Hs). 
      assert (Hnd2 : NoDup (map fst l2)) by (by rewrite <- (Permutation_map fst H12)).
      assert (Hs2 : Forall (safe s) l2) by (by rewrite <- H12). specialize (IH2 s Hnd2 Hs2).
      destruct (mmap at_item l1 s), (mmap at_item l2 s), (mmap at_item l3 s); try done; [|congruence].
      destruct IH1 as [I1 ->], IH2 as [I2 ->]. split; [by etrans|done].
  Qed.
  Lemma mmap_items (F : nat * X -> RM Y) l s : Forall (fun p : nat * X => is_Some (ar_archs (r_ar s) !! p.1)) l ->
    (forall p s, is_Some (ar_archs (r_ar s) !! p.1) -> F p s = at_item p s) -> mmap F l s = mmap at_item l s.
  Proof.
    intros Hl HF. revert s Hl. induction l as [|p l IH]; intros s Hl; [done|]. apply Forall_cons in Hl as [Hp Hl]. cbn [mmap]. unfold bind.
    rewrite HF by done. destruct (at_item p s) as [y t| |] eqn:E; [|done|done]. rewrite IH; [done|].
    eapply Forall_impl; [exact Hl|]. intros q Hq. by eapply with_arch_stays.
  Qed.
End permuted.
(** *** Slices are inside the archetype and building them does not panic *)
Lemma slot_small G i c : gd_is_valid (group_desc false G) = true -> G !! i = Some c -> group_slot false G i < 14.
Proof.
  intros Hv Hi. pose proof (lookup_lt_Some _ _ _ Hi) as Hlt. destruct (group_validity false G) as ([H1 _]&_). destruct (H1 Hv) as (Hlen&_).
  destruct (sort_mappings false G Hv) as [H _]. destruct (H i Hlt) as (Hs&_). unfold group_slot. destruct G as [|? [|? ?]]; lia.
Qed.
Lemma pointers_length g row a : 14 <= length (get_fuzzy_pointers g row a).
Proof. unfold get_fuzzy_pointers, MAX_COMPONENTS_PER_ENTITY. rewrite app_length, replicate_length. lia. Qed.
Lemma slice_cells_calm C a ps slot n : slot < length ps -> slice_cells C a ps slot n <> RdPanic.
Proof.
  intros Hs. unfold slice_cells. destruct (ps !! slot) as [[[idx row]|]|] eqn:Eo; [|done|].
  2: { apply lookup_ge_None in Eo. exfalso. apply (Nat.lt_irrefl slot). eapply Nat.lt_le_trans; [exact Hs|exact Eo]. }
  destruct (a_ptrs a !! idx) as [[b|]|] eqn:Ep; [|done..]. apply rmap_no_panic. intros r _. unfold typed_cell, raw_cell. rewrite Ep.
  destruct (bl_cells b !! r) as [[v|]|]; cbn; [|done..]. destruct (a_comps a !! idx); [|done]. by case_match.
Qed.
Lemma slice_calm G g row n a : gd_is_valid (group_desc false G) = true -> slice_unchecked false G (get_fuzzy_pointers g row a) n a <> RdPanic.
Proof.
  intros Hv. apply rmap_no_panic. intros [i C] Hin. apply elem_of_list_lookup in Hin as [j Hj]. apply enum_lookup_inv in Hj as (x&[= -> ->]&Hx).
  pose proof (slice_cells_calm x a (get_fuzzy_pointers g row a) (group_slot false G j) n) as H.
  destruct (slice_cells _ _ _ _ _); [done| |done]. intros _. apply H; [|done]. pose proof (pointers_length g row a). pose proof (slot_small _ _ _ Hv Hx). lia.
Qed.
Lemma slice_mut_calm G g row n a : gd_is_valid (group_desc false G) = true -> slice_unchecked_mut false G (get_fuzzy_pointers g row a) n a <> RdPanic.
Proof.
  intros Hv. apply rmap_no_panic. intros [i C] Hin. apply elem_of_list_lookup in Hin as [j Hj]. apply enum_lookup_inv in Hj as (x&[= -> ->]&Hx).
  pose proof (slice_cells_calm x a (get_fuzzy_pointers g row a) (group_slot false G j) n) as H.
  destruct (slice_cells _ _ _ _ _); [done| |done]. intros _. apply H; [|done]. pose proof (pointers_length g row a). pose proof (slot_small _ _ _ Hv Hx). lia.
Qed.
Lemma slice_mut_inside be G ps n a cols : slice_unchecked_mut be G ps n a = Rd cols -> inside (length (a_ptrs a)) cols.
Proof.
  intros E col p Hcol Hp. destruct (rmap_elem _ _ _ _ E Hcol) as ([i C]&_&Ec). destruct (slice_cells C a ps (group_slot be G i) n) as [l| |] eqn:El; [|done..].
  cbn in Ec. injection Ec as <-. apply elem_of_list_In, in_map_iff in Hp as ([p' v]&<-&Hin%elem_of_list_In). cbn.
  unfold slice_cells in El. destruct (ps !! _) as [[[idx row]|]|]; [|done..]. destruct (a_ptrs a !! idx) as [[b|]|] eqn:Ep; [|done..].
  destruct (rmap_elem _ _ _ _ El Hin) as (r&_&Er). destruct (typed_cell C a idx r); [|done..]. injection Er as <- _. cbn. by eapply lookup_lt_Some.
Qed.
Lemma entities_calm a : entities a <> RdPanic.
Proof.
  unfold entities, entity_cells. destruct (a_assoc a); [|done]. case_match; [|done]. apply rmap_no_panic. intros [h|] _; done.
Qed.

(** ** Descriptors of the same component set on the two targets *)
Section sim.
  Context (U : list ctype) (HU : portable U).
  Definition paired (l : list N) (x y : N) : Prop :=
    (x = tuple_archetype_id false l /\ y = tuple_archetype_id true l) \/ (x = derived_archetype_id false l /\ y = derived_archetype_id true l).
  Definition dsim (d1 d2 : adesc) : Prop :=
    d2 = retag (ad_id d2) d1 /\ ad_wf d1 /\ set_of U (ids (ad_components d1)) /\ paired (ids (ad_components d1)) (ad_id d1) (ad_id d2).
  Lemma dsim_valid d1 d2 : dsim d1 d2 -> ad_is_valid d1 = ad_is_valid d2.
  Proof.
    intros (E&_&Hl&Hp). destruct HU as (_&_&_&H). destruct (H _ Hl) as (H1&H2&_). unfold ad_is_valid, aid_is_valid, AID_INVALID.
    destruct Hp as [[-> ->]|[-> ->]]; repeat case_bool_decide; apply eq_true_iff_eq; rewrite !negb_true_iff, !N.eqb_neq; tauto.
  Qed.
  Lemma dsim_len d1 d2 : dsim d1 d2 -> ad_len d2 = ad_len d1. Proof. by intros (->&_). Qed.
  Lemma dsim_length d1 d2 : dsim d1 d2 -> length (ids (ad_components d1)) = ad_len d1.
  Proof. intros (_&Hwf&_). rewrite map_length. by apply ad_components_length. Qed.
  Lemma dsim_ids d1 d2 e1 e2 : dsim d1 d2 -> dsim e1 e2 -> ad_is_valid d1 = true -> ad_len d1 = ad_len e1 ->
    ad_id d1 = ad_id e1 <-> ad_id d2 = ad_id e2.
  Proof.
    intros Hd He Hv Hlen. pose proof (dsim_valid _ _ Hd) as Hv2. rewrite Hv in Hv2. symmetry in Hv2.
    pose proof (dsim_length _ _ Hd) as L1. pose proof (dsim_length _ _ He) as L2.
    destruct Hd as (_&_&Hl&Hp), He as (_&_&Hk&Hq). destruct HU as (_&C1&C2&H).
    destruct (H _ Hl) as (_&_&Ha). pose proof Hl as [Sl Nl]. pose proof Hk as [Sk _].
    unfold ad_is_valid, aid_is_valid, AID_INVALID in Hv, Hv2. rewrite negb_true_iff, N.eqb_neq in Hv, Hv2.
    set (l := ids (ad_components d1)) in *. set (k := ids (ad_components e1)) in *. split; intros E.
    - assert (l = k) as Elk.
      { apply (C1 l k (ad_id d1)); try done; [congruence| |].
        - destruct Hp as [[-> _]|[-> _]]; [by split; [|left]|by split; [|right]].
        - rewrite E. destruct Hq as [[-> _]|[-> _]]; [by split; [|left]|by split; [|right]]. }
      rewrite <- Elk in Hq. destruct Hp as [[P1 ->]|[P1 ->]], Hq as [[Q1 ->]|[Q1 ->]]; try done; [|symmetry]; apply Ha; congruence.
    - assert (l = k) as Elk.
      { apply (C2 l k (ad_id d2)); try done; [congruence| |].
        - destruct Hp as [[_ ->]|[_ ->]]; [by split; [|left]|by split; [|right]].
        - rewrite E. destruct Hq as [[_ ->]|[_ ->]]; [by split; [|left]|by split; [|right]]. }
      rewrite <- Elk in Hq. destruct Hp as [[-> P1]|[-> P1]], Hq as [[-> Q1]|[-> Q1]]; try done; [|symmetry]; apply Ha; congruence.
  Qed.
  Lemma dsim_regular d1 d2 : dsim d1 d2 -> regular d1.
  Proof. intros H _. rewrite <- (dsim_length _ _ H). apply H. Qed.
  Lemma dsim_regular2 d1 d2 : dsim d1 d2 -> regular d2.
  Proof. intros H _. rewrite (dsim_len _ _ H), <- (dsim_length _ _ H). apply H. Qed.

  (** *** Tuple types *)
  Lemma gsim G : in_U U G ->
    gd_is_valid (group_desc true G) = gd_is_valid (group_desc false G) /\
    gd_arch (group_desc true G) = retag (ad_id (gd_arch (group_desc true G))) (gd_arch (group_desc false G)) /\
    gd_u2s (group_desc true G) = gd_u2s (group_desc false G) /\
    (gd_is_valid (group_desc false G) = true -> dsim (gd_arch (group_desc false G)) (gd_arch (group_desc true G))).
  Proof.
    intros HG. pose proof (group_desc_spec false G) as S1. pose proof (group_arch_wf false G) as W1. revert S1 W1.
    destruct (compute_sorted_spec (map cdesc_of G)) as (s&Es&Hp&Hs).
    unfold group_desc, gd_new. destruct (validate_component_descriptors (map cdesc_of G)) eqn:Ev; [|intros _ _; repeat split; done].
    apply validate_spec in Ev as [Hlen Hnd]. cbn [negb].
    assert (Hls : length s = length (map cdesc_of G)) by (by apply Permutation_length).
    assert (Hnds : NoDup (ids s)). { by rewrite Hp. }
    pose proof (le_sorted_strict _ Hs Hnds) as Hst.
    assert (Hset : set_of U (ids s)).
    { split; [|rewrite map_length; lia]. apply strict_subset_sublist; [done|apply HU|]. intros x Hx.
      assert (Hx' : x ∈ ids (map cdesc_of G)). { by rewrite <- Hp. }
      rewrite ids_cdesc_of in Hx'. apply elem_of_list_In, in_map_iff in Hx' as (t&<-&Ht%elem_of_list_In).
      unfold in_U in HG. rewrite Forall_forall in HG. apply elem_of_list_In, in_map, elem_of_list_In. by apply HG. }
    assert (Hid : forall be, compute_archetype_id be (compute_sorted_descriptors (map cdesc_of G)) = Some (tuple_archetype_id be (ids s))).
    { intros be. rewrite Es. apply compute_id_tuple; lia. }
    rewrite !Hid. destruct HU as (_&_&_&H). destruct (H _ Hset) as (Ht&_).
    destruct (aid_is_valid (tuple_archetype_id false (ids s))) eqn:E1.
    - assert (E2 : aid_is_valid (tuple_archetype_id true (ids s)) = true).
      { unfold aid_is_valid, AID_INVALID in *. rewrite negb_true_iff, N.eqb_neq in *. tauto. }
      rewrite E2. cbn [negb]. unfold ad_new. rewrite E1, E2. destruct (Nat.eqb_spec (length (map cdesc_of G)) 0) as [|Hn0]; [lia|]. cbn [orb negb gd_arch ad_id].
      rewrite E1, E2. cbn [negb gd_arch gd_u2s]. intros S1 W1. split; [unfold gd_is_valid, ad_is_valid; cbn; by rewrite E1, E2|].
      split; [done|]. split; [done|]. intros _. split; [done|]. split; [done|].
      assert (Ec : forall x, ad_components (ADesc x (compute_sorted_descriptors (map cdesc_of G)) (length (map cdesc_of G))) = s).
      { intros x. unfold ad_components. cbn. rewrite Es, <- Hls. apply take_app. }
      rewrite Ec. split; [done|]. by left.
    - assert (E2 : aid_is_valid (tuple_archetype_id true (ids s)) = false).
      { unfold aid_is_valid, AID_INVALID in *. rewrite negb_false_iff, N.eqb_eq in *. tauto. }
      rewrite E2. intros _ _. repeat split; done.
  Qed.
  Lemma slot_eq G : in_U U G -> group_slot true G = group_slot false G.
  Proof.
    intros HG. destruct (gsim G HG) as (_&_&E&_). unfold group_slot. destruct G as [|x [|y G]]; [|done|]; unfold gd_unsorted_to_sorted; by rewrite E.
  Qed.
  Lemma comps_eq G : in_U U G -> ad_components (gd_arch (group_desc true G)) = ad_components (gd_arch (group_desc false G)).
  Proof. intros HG. destruct (gsim G HG) as (_&->&_). done. Qed.
  Lemma glen_eq G : in_U U G -> gd_len (group_desc true G) = gd_len (group_desc false G).
  Proof. intros HG. unfold gd_len. destruct (gsim G HG) as (_&->&_). done. Qed.
  Lemma contains_eq G x d : in_U U G -> ad_contains_subset (retag x d) (gd_arch (group_desc true G)) = ad_contains_subset d (gd_arch (group_desc false G)).
  Proof. intros HG. destruct (gsim G HG) as (_&->&_). done. Qed.
  Lemma pointers_eq G row x a : in_U U G -> get_fuzzy_pointers (group_desc true G) row (retag_a x a) = get_fuzzy_pointers (group_desc false G) row a.
  Proof. intros HG. unfold get_fuzzy_pointers. rewrite comps_eq by done. done. Qed.
  Lemma ref_tuple_eq G ps x a : in_U U G -> pointers_as_ref_tuple true G ps (retag_a x a) = pointers_as_ref_tuple false G ps a.
  Proof. intros HG. unfold pointers_as_ref_tuple. by rewrite slot_eq. Qed.
  Lemma mut_tuple_eq G ps x a : in_U U G -> pointers_as_mut_ref_tuple true G ps (retag_a x a) = pointers_as_mut_ref_tuple false G ps a.
  Proof. intros HG. unfold pointers_as_mut_ref_tuple. by rewrite slot_eq. Qed.
  Lemma slice_eq G ps n x a : in_U U G -> slice_unchecked true G ps n (retag_a x a) = slice_unchecked false G ps n a.
  Proof. intros HG. unfold slice_unchecked. by rewrite slot_eq. Qed.
  Lemma slice_mut_eq G ps n x a : in_U U G -> slice_unchecked_mut true G ps n (retag_a x a) = slice_unchecked_mut false G ps n a.
  Proof. intros HG. unfold slice_unchecked_mut. by rewrite slot_eq. Qed.
  Lemma sorted_values_eq G vs : in_U U G -> as_sorted_values true G vs = as_sorted_values false G vs.
  Proof. intros HG. unfold as_sorted_values. by rewrite slot_eq. Qed.
  Lemma push_eq G h vs s : in_U U G -> push_entity_unchecked BE G h vs s = push_entity_unchecked LE G h vs s.
  Proof.
    intros HG. unfold push_entity_unchecked, write_entity_unchecked. cbn [dbg big mdebug_assert].
    rewrite sorted_values_eq, comps_eq by done. done.
  Qed.
  Lemma swap_remove_eq G row s : in_U U G -> swap_remove_unchecked BE G row s = swap_remove_unchecked LE G row s.
  Proof.
    intros HG. unfold swap_remove_unchecked, read_components_exact_unchecked, read_from_sorted_pointers. cbn [dbg big mdebug_assert].
    by rewrite slot_eq.
  Qed.

  (** ** Registries that correspond *)
  Definition asim (a1 a2 : arch) : Prop := dsim (a_desc a1) (a_desc a2) /\ a2 = retag_a (ad_id (a_desc a2)) a1.
  Record R (s1 s2 : reg) : Prop := {
    R_er : r_er s2 = sw_er (r_er s1);
    R_env : r_env s2 = r_env s1;
    R_inv1 : areg_inv (r_ar s1);
    R_inv2 : areg_inv (r_ar s2);
    R_archs : Forall2 asim (ar_archs (r_ar s1)) (ar_archs (r_ar s2));
  }.
  Definition tw {A B} (Q : A -> B -> Prop) (m1 : RM A) (m2 : RM B) : Prop := forall s1 s2, R s1 s2 ->
    match m1 s1, m2 s2 with
    | Ret x t1, Ret y t2 => Q x y /\ R t1 t2
    | Panic t1, Panic t2 => R t1 t2
    | UB, UB => True
    | _, _ => False
    end.
  Definition rtw {A B} (Q : A -> B -> Prop) (m1 : rd A) (m2 : rd B) : Prop :=
    match m1, m2 with
    | Rd x, Rd y => Q x y
    | RdPanic, RdPanic => True
    | RdUB, RdUB => True
    | _, _ => False
    end.
  Lemma tw_bind {A B A' B'} (Q : A -> B -> Prop) (Q' : A' -> B' -> Prop) m1 m2 k1 k2 :
    tw Q m1 m2 -> (forall x y, Q x y -> tw Q' (k1 x) (k2 y)) -> tw Q' (bind m1 k1) (bind m2 k2).
  Proof.
    intros Hm Hk s1 s2 HR. specialize (Hm _ _ HR). unfold bind. destruct (m1 s1), (m2 s2); try done. destruct Hm as [HQ HR']. by apply (Hk _ _ HQ).
  Qed.
  Lemma tw_ret {A B} (Q : A -> B -> Prop) x y : Q x y -> tw Q (ret x) (ret y).
  Proof. intros H s1 s2 HR. done. Qed.
  Lemma tw_mono {A B} (Q Q' : A -> B -> Prop) m1 m2 : tw Q m1 m2 -> (forall x y, Q x y -> Q' x y) -> tw Q' m1 m2.
  Proof. intros H HQ s1 s2 HR. specialize (H _ _ HR). destruct (m1 s1), (m2 s2); try done. destruct H. auto. Qed.
  Lemma tw_panic {A B} (Q : A -> B -> Prop) : tw Q mpanic mpanic. Proof. by intros s1 s2 HR. Qed.
  Lemma tw_ub {A B} (Q : A -> B -> Prop) : tw Q mub mub. Proof. by intros s1 s2 HR. Qed.
  Lemma tw_get : tw R rm_get rm_get. Proof. by intros s1 s2 HR. Qed.
  Lemma tw_lift {A B} (Q : A -> B -> Prop) x y : rtw Q x y -> tw Q (lift_rd x) (lift_rd y).
  Proof. intros H s1 s2 HR. unfold lift_rd. by destruct x, y. Qed.
  Lemma tw_rd {A B} (Q : A -> B -> Prop) f g : (forall s1 s2, R s1 s2 -> rtw Q (f s1) (g s2)) -> tw Q (rm_rd f) (rm_rd g).
  Proof. intros H s1 s2 HR. unfold rm_rd. by apply (tw_lift _ _ _ (H _ _ HR)). Qed.
  Lemma tw_unwrap {A} (o : option A) : tw eq (unwrap o) (unwrap o).
  Proof. destruct o; [by apply tw_ret|apply tw_panic]. Qed.
  Lemma rtw_eq {A} (x : rd A) : rtw eq x x. Proof. by destruct x. Qed.
  Lemma tw_dropping {A B} (Q : A -> B -> Prop) vs m1 m2 : tw Q m1 m2 -> tw Q (dropping_on_panic vs m1) (dropping_on_panic vs m2).
  Proof.
    intros H s1 s2 HR. specialize (H _ _ HR). unfold dropping_on_panic. destruct (m1 s1), (m2 s2); try done.
    destruct H. split; cbn; [done| |done..]. by rewrite R_env0.
  Qed.
  (** *** The entity table *)
  Lemma tw_create row ai : tw eq (rm_er (er_create_entity false row ai)) (rm_er (er_create_entity true row ai)).
  Proof.
    intros s1 s2 [Her He H1 H2 Ha]. unfold rm_er. rewrite Her, sw_create. destruct (er_create_entity false row ai (r_er s1)); cbn; [split; [done|]|..]; done.
  Qed.
  Lemma tw_destroy h : tw eq (rm_er (er_destroy_entity false h)) (rm_er (er_destroy_entity true h)).
  Proof.
    intros s1 s2 [Her He H1 H2 Ha]. unfold rm_er. rewrite Her, sw_destroy. destruct (er_destroy_entity false h (r_er s1)); cbn; [split; [done|]|..]; done.
  Qed.
  Lemma tw_update h f g : (forall e, g (sw e) = sw (f e)) -> tw eq (update_entry LE h f) (update_entry BE h g).
  Proof.
    intros Hf s1 s2 HR. pose proof HR as [Her He H1 H2 Ha]. unfold update_entry. cbn [big]. rewrite Her, (sw_update _ _ _ _ Hf).
    by destruct (er_update_entry false (r_er s1) h f).
  Qed.
  Lemma R_entry s1 s2 h : R s1 s2 -> entry_of BE s2 h = sw <$> entry_of LE s1 h.
  Proof. intros H. unfold entry_of. rewrite (R_er _ _ H). apply sw_entry. Qed.
  Lemma sw_e_arch e : e_arch BE (sw e) = e_arch LE e. Proof. unfold e_arch. cbn [big]. by rewrite sw_arch. Qed.
  (** *** Archetypes *)
  Lemma R_arch s1 s2 i : R s1 s2 ->
    match ar_archs (r_ar s1) !! i, ar_archs (r_ar s2) !! i with Some a1, Some a2 => asim a1 a2 | None, None => True | _, _ => False end.
  Proof.
    intros HR. destruct (ar_archs (r_ar s1) !! i) as [a1|] eqn:E1.
    - destruct (Forall2_lookup_l _ _ _ _ _ (R_archs _ _ HR) E1) as (a2&->&H). done.
    - apply lookup_ge_None in E1. rewrite (Forall2_length _ _ _ (R_archs _ _ HR)) in E1. by rewrite lookup_ge_None_2.
  Qed.
  Lemma R_len s1 s2 : R s1 s2 -> length (ar_archs (r_ar s2)) = length (ar_archs (r_ar s1)).
  Proof. intros HR. symmetry. apply (Forall2_length _ _ _ (R_archs _ _ HR)). Qed.
  Lemma rtw_arch_at s1 s2 i : R s1 s2 -> rtw asim (arch_at i s1) (arch_at i s2).
  Proof. intros HR. unfold arch_at. pose proof (R_arch _ _ i HR) as H. by destruct (_ !! i), (_ !! i). Qed.
  Lemma tw_arch_at i : tw asim (rm_rd (arch_at i)) (rm_rd (arch_at i)).
  Proof. apply tw_rd. intros. by apply rtw_arch_at. Qed.
  Lemma R_replace s1 s2 i a1 a2 b1 e : R s1 s2 -> ar_archs (r_ar s1) !! i = Some a1 -> ar_archs (r_ar s2) !! i = Some a2 ->
    a_desc b1 = a_desc a1 ->
    R (Reg (r_er s1) (set_archs (r_ar s1) (<[i := b1]> (ar_archs (r_ar s1)))) e)
      (Reg (r_er s2) (set_archs (r_ar s2) (<[i := retag_a (ad_id (a_desc a2)) b1]> (ar_archs (r_ar s2)))) e).
  Proof.
    intros HR E1 E2 Ed. pose proof (R_arch _ _ i HR) as H. rewrite E1, E2 in H. destruct H as [Hd Ha].
    destruct HR as [Her He H1 H2 HF]. split; cbn; [done|done| | |].
    - eapply areg_inv_same; [exact H1|done|]. cbn. change (map a_desc ?l) with (a_desc <$> l). rewrite list_fmap_insert, Ed.
      apply list_insert_id. by rewrite list_lookup_fmap, E1.
    - eapply areg_inv_same; [exact H2|done|]. cbn. change (map a_desc ?l) with (a_desc <$> l). rewrite list_fmap_insert. cbn. rewrite Ed.
      apply list_insert_id. rewrite list_lookup_fmap, E2. cbn. f_equal. apply Hd.
    - apply Forall2_insert; [done|]. unfold asim. cbn. rewrite Ed. split; [|done]. rewrite Ha in Hd. exact Hd.
  Qed.
  Lemma tw_arch {A} i (m : AM A) m' : blind m -> akeeps m -> (forall s, m' s = m s) -> tw eq (with_arch i m) (with_arch i m').
  Proof.
    intros Hb Hk Hm s1 s2 HR. unfold with_arch. pose proof (R_arch _ _ i HR) as H.
    destruct (ar_archs (r_ar s1) !! i) as [a1|] eqn:E1, (ar_archs (r_ar s2) !! i) as [a2|] eqn:E2; try done.
    rewrite Hm, (R_env _ _ HR). pose proof H as [_ Ha]. rewrite (f_equal (fun a => m (a, r_env s1)) Ha), Hb. specialize (Hk (a1, r_env s1)).
    destruct (m (a1, r_env s1)) as [x [b1 e]|[b1 e]|]; cbn in *; [split; [done|]|..|done]; by eapply R_replace.
  Qed.
  (** *** Lookup and creation of archetypes *)
  Lemma R_is_arch s1 s2 d1 d2 i : R s1 s2 -> dsim d1 d2 -> is_arch (r_ar s1) i d1 <-> is_arch (r_ar s2) i d2.
  Proof.
    intros HR Hd. pose proof (R_arch _ _ i HR) as H. unfold is_arch.
    destruct (ar_archs (r_ar s1) !! i) as [a1|] eqn:E1, (ar_archs (r_ar s2) !! i) as [a2|] eqn:E2; try done.
    2: { split; intros (?&?&_); done. }
    destruct H as [Ha _]. pose proof (dsim_len _ _ Ha) as L1. pose proof (dsim_len _ _ Hd) as L2.
    destruct (ai_arch _ (R_inv1 _ _ HR) _ _ E1) as (_&Hv&_).
    pose proof (dsim_ids _ _ _ _ Ha Hd Hv) as Hi. split; intros (a&[= <-]&H1&H2); (eexists; split; [done|]); split; [apply Hi; congruence|congruence| |congruence].
    apply Hi; congruence.
  Qed.
  Lemma tw_find_or_create d1 d2 : dsim d1 d2 -> tw eq (find_or_create_archetype d1) (find_or_create_archetype d2).
  Proof.
    intros Hd s1 s2 HR. pose proof (dsim_valid _ _ Hd) as Hv. destruct (ad_is_valid d1) eqn:Hv1.
    2: { by rewrite !find_or_create_invalid. }
    pose proof (dsim_regular _ _ Hd Hv1) as Hr. pose proof (dsim_len _ _ Hd) as Hl.
    unfold find_or_create_archetype, MAX_COMPONENTS_PER_ENTITY. rewrite Hl, <- Hv, Hv1, (proj2 (Nat.ltb_ge _ _)) by lia. cbn [orb negb].
    rewrite (proj2 (Nat.eqb_neq _ _)) by lia. rewrite !rm_get_step.
    destruct (areg_search _ d1 (R_inv1 _ _ HR) Hr) as (lv1&Hlv1&_&H1). rewrite Hlv1.
    destruct (areg_search _ d2 (R_inv2 _ _ HR)) as (lv2&Hlv2&_&H2); [lia|]. rewrite Hl in Hlv2. rewrite Hlv2.
    pose proof (fun i => R_is_arch _ _ _ _ i HR Hd) as Hia. pose proof (R_len _ _ HR) as Hlen.
    destruct (binary_search (map k_id lv1) (ad_id d1)) as [f1|ins1] eqn:B1, (binary_search (map k_id lv2) (ad_id d2)) as [f2|ins2] eqn:B2.
    - destruct H1 as (k1&->&K1), H2 as (k2&->&K2). rewrite Hlen.
      rewrite (is_arch_unique _ _ _ _ (R_inv2 _ _ HR) K2 (proj1 (Hia _) K1)). by destruct (_ <? _).
    - destruct H1 as (k1&_&K1). by destruct (H2 (k_idx k1)), (Hia (k_idx k1)); auto.
    - destruct H2 as (k2&_&K2). by destruct (H1 (k_idx k2)), (Hia (k_idx k2)); auto.
    - rewrite Hlen. destruct (N.leb_spec MAX_ARCHETYPE_COUNT (N.of_nat (length (ar_archs (r_ar s1))))) as [|Hroom]; [done|].
      unfold bind, rm_env, rm_get, get_st, put_st, ret. rewrite (R_env _ _ HR). pose proof Hd as (Ed&_).
      rewrite (f_equal (fun d => a_with_capacity d DEFAULT_ARCHETYPE_ALLOCATION_SIZE (r_env s1)) Ed).
      rewrite with_capacity_retag by (by rewrite <- Ed, Hv1, <- Hv).
      destruct (a_with_capacity d1 DEFAULT_ARCHETYPE_ALLOCATION_SIZE (r_env s1)) as [a e'|e'|] eqn:Ea; [| |done].
      2: { destruct HR. by split. }
      cbn [r_ar r_er r_env ar_maps ar_archs]. rewrite Hlen. split; [done|].
      pose proof (a_with_capacity_desc _ _ _ _ _ Ea) as Da.
      assert (Db : a_desc (retag_a (ad_id d2) a) = d2). { cbn. rewrite Da. done. }
      unfold MAX_ARCHETYPE_COUNT in Hroom. pose proof HR as [Her He Hi1 Hi2 HF]. split; cbn [r_er r_env r_ar]; [done|done| | |].
      + rewrite <- Da. apply areg_inv_snoc; rewrite ?Da; done.
      + rewrite <- Hlen, <- Hl. rewrite <- Db. apply areg_inv_snoc; rewrite ?Db, ?Hl, ?Hlen; done.
      + cbn [ar_archs]. apply Forall2_app; [done|]. constructor; [|done]. unfold asim. rewrite Db, Da. done.
  Qed.
  Definition osim (o1 o2 : option adesc) : Prop := match o1, o2 with Some d1, Some d2 => dsim d1 d2 | None, None => True | _, _ => False end.
  Lemma set_of_strict l : strict l -> (forall x, x ∈ l -> x ∈ ids_of U) -> 1 <= length l <= 14 -> set_of U l.
  Proof. intros Hs H Hl. split; [|done]. apply strict_subset_sublist; [done|apply HU|done]. Qed.
  Lemma set_of_elem l x : set_of U l -> x ∈ l -> x ∈ ids_of U.
  Proof. intros [H _] Hx. by eapply elem_of_submseteq, sublist_submseteq. Qed.
  Lemma rtw_add d1 d2 c : dsim d1 d2 -> cd_id c ∈ ids_of U -> rtw osim (ad_add_component false d1 c) (ad_add_component true d2 c).
  Proof.
    intros Hd Hc. destruct Hd as (->&Hwf&Hl&_). pose proof (wf_add false d1 c) as W. revert W. unfold ad_add_component. cbn [retag ad_len ad_comps].
    change (ad_components (retag (ad_id d2) d1)) with (ad_components d1).
    destruct (Nat.eqb_spec (ad_len d1) MAX_COMPONENTS_PER_ENTITY) as [|Hn]; [done|].
    destruct (binary_search _ _) as [|k]; [done|]. destruct (shift_right_loop _ _ _ _) as [v|]; [|done].
    unfold MAX_COMPONENTS_PER_ENTITY in Hn. destruct Hwf as (H14&Hle&Hs).
    rewrite !compute_id_derived by (rewrite take_length; lia). intros W. destruct (W _ (conj H14 (conj Hle Hs)) eq_refl) as (Wf&_&Wl&Hle12&Wp&Wn).
    cbn [rtw osim]. split; [done|]. split; [done|]. split; [|by right].
    apply set_of_strict; [apply Wf| |].
    - intros x Hx. rewrite Wp in Hx. cbn in Hx. apply elem_of_cons in Hx as [->|Hx]; [done|]. by eapply set_of_elem.
    - rewrite map_length, ad_components_length by done. cbn [ad_len]. lia.
  Qed.
  Lemma rtw_remove d1 d2 x : dsim d1 d2 -> rtw osim (ad_remove_component false d1 x) (ad_remove_component true d2 x).
  Proof.
    intros Hd. pose proof (dsim_length _ _ Hd) as Hlen. destruct Hd as (->&Hwf&Hl&_). pose proof (wf_remove false d1 x) as W. revert W. unfold ad_remove_component. cbn [retag ad_len ad_comps].
    change (ad_components (retag (ad_id d2) d1)) with (ad_components d1).
    destruct (Nat.eqb_spec (ad_len d1) 1) as [|Hn]; [done|].
    destruct (binary_search _ _) as [k|]; [|done]. destruct (shift_left_loop _ _ _ _) as [v|]; [|done].
    destruct Hwf as (H14&Hle&Hs). assert (1 <= ad_len d1) by (rewrite <- Hlen; apply Hl).
    rewrite !compute_id_derived by (rewrite take_length; lia). intros W.
    destruct (W _ (conj H14 (conj Hle Hs)) ltac:(lia) eq_refl) as (Wf&_&Wl&Hle12&c&Wc&Wp).
    cbn [rtw osim]. split; [done|]. split; [done|]. split; [|by right].
    apply set_of_strict; [apply Wf| |].
    - intros y Hy. eapply set_of_elem; [exact Hl|]. rewrite Wp. cbn. by right.
    - rewrite map_length, ad_components_length by done. cbn [ad_len] in *. lia.
  Qed.

  (** ** Calls about one entity *)
  Lemma rtw_bind {A B A' B'} (Q : A -> B -> Prop) (Q' : A' -> B' -> Prop) m1 m2 k1 k2 :
    rtw Q m1 m2 -> (forall x y, Q x y -> rtw Q' (k1 x) (k2 y)) -> rtw Q' (rbind m1 k1) (rbind m2 k2).
  Proof. intros Hm Hk. destruct m1, m2; try done. by apply Hk. Qed.
  Lemma rtw_refl {A} (x y : rd A) : y = x -> rtw eq x y.
  Proof. intros ->. apply rtw_eq. Qed.
  Lemma asim_retag a1 a2 : asim a1 a2 -> exists x, a2 = retag_a x a1.
  Proof. intros [_ H]. by eexists. Qed.
  Lemma R_on_entity {A} h (d : rd A) k1 k2 s1 s2 : R s1 s2 ->
    (forall e x a, rtw eq (k1 e a) (k2 (sw e) (retag_a x a))) ->
    rtw eq (match entry_of LE s1 h with None => d | Some e => letr a := arch_at (e_arch LE e) s1 in k1 e a end)
           (match entry_of BE s2 h with None => d | Some e => letr a := arch_at (e_arch BE e) s2 in k2 e a end).
  Proof.
    intros HR Hk. rewrite (R_entry _ _ h HR). destruct (entry_of LE s1 h) as [e|]; [|apply rtw_eq]. cbn [fmap option_fmap option_map].
    rewrite sw_e_arch. eapply rtw_bind; [by apply rtw_arch_at|]. intros a1 a2 (t1&->)%asim_retag. apply Hk.
  Qed.
  Lemma tw_has C h : tw eq (rm_rd (has_component LE C h)) (rm_rd (has_component BE C h)).
  Proof. apply tw_rd. intros s1 s2 HR. apply R_on_entity; [done|]. intros e x a. by apply rtw_refl. Qed.
  Lemma tw_has_all G h : in_U U G -> tw eq (rm_rd (has_components LE G h)) (rm_rd (has_components BE G h)).
  Proof.
    intros HG. apply tw_rd. intros s1 s2 HR. apply R_on_entity; [done|]. intros e x a. cbn [big].
    change (a_desc (retag_a x a)) with (retag x (a_desc a)). by rewrite contains_eq.
  Qed.
  Lemma tw_get_one C h : tw eq (rm_rd (get_component LE C h)) (rm_rd (get_component BE C h)).
  Proof. apply tw_rd. intros s1 s2 HR. apply R_on_entity; [done|]. intros e x a. by apply rtw_refl. Qed.
  Lemma tw_get_all G h : in_U U G -> tw eq (rm_rd (get_components LE G h)) (rm_rd (get_components BE G h)).
  Proof.
    intros HG. apply tw_rd. intros s1 s2 HR. apply R_on_entity; [done|]. intros e x a. cbn [big].
    change (a_desc (retag_a x a)) with (retag x (a_desc a)). rewrite contains_eq by done. destruct (negb _); [done|]. apply rtw_refl.
    unfold get_fuzzy_components. cbn [dbg big rdebug_assert rbind]. rewrite pointers_eq, ref_tuple_eq by done. done.
  Qed.
  Lemma tw_get_mut C h : tw eq (rm_rd (get_component_mut LE C h)) (rm_rd (get_component_mut BE C h)).
  Proof.
    apply tw_rd. intros s1 s2 HR. unfold get_component_mut. rewrite (R_entry _ _ h HR). destruct (entry_of LE s1 h) as [e|]; [|done]. cbn [fmap option_fmap option_map].
    rewrite sw_e_arch. eapply rtw_bind; [by apply rtw_arch_at|]. intros a1 a2 (t1&->)%asim_retag. by apply rtw_refl.
  Qed.
  Lemma tw_get_all_mut G h : in_U U G -> tw eq (rm_rd (get_components_mut LE G h)) (rm_rd (get_components_mut BE G h)).
  Proof.
    intros HG. apply tw_rd. intros s1 s2 HR. unfold get_components_mut. rewrite (R_entry _ _ h HR). destruct (entry_of LE s1 h) as [e|]; [|done]. cbn [fmap option_fmap option_map big].
    rewrite sw_e_arch. eapply rtw_bind; [by apply rtw_arch_at|]. intros a1 a2 (t1&->)%asim_retag.
    change (a_desc (retag_a t1 a1)) with (retag t1 (a_desc a1)). rewrite contains_eq by done. destruct (negb _); [done|]. apply rtw_refl.
    unfold get_fuzzy_components_mut. cbn [dbg big rdebug_assert rbind]. rewrite pointers_eq, mut_tuple_eq by done. done.
  Qed.
  Lemma tw_replace l v : tw eq (replace_loc l v) (replace_loc l v).
  Proof.
    unfold replace_loc. eapply tw_bind; [apply tw_arch_at|]. intros a1 a2 (t1&->)%asim_retag.
    eapply tw_bind; [by apply tw_lift, rtw_refl|]. intros o ? <-. destruct o; [|apply tw_ub].
    eapply tw_bind; [apply tw_arch; [apply blind_write_cell|apply akeeps_write_cell|done]|]. intros ? ? _. by apply tw_ret.
  Qed.
  Lemma tw_replaces ls vs : tw eq (replace_locs ls vs) (replace_locs ls vs).
  Proof.
    revert vs. induction ls as [|l ls IH]; intros [|v vs]; cbn [replace_locs]; try by apply tw_ret.
    eapply tw_bind; [apply tw_replace|]. intros o ? <-. eapply tw_bind; [apply IH|]. intros os ? <-. by apply tw_ret.
  Qed.
  Lemma tw_create_entity G vs : in_U U G -> tw eq (create_entity LE G vs) (create_entity BE G vs).
  Proof.
    intros HG. unfold create_entity. apply tw_dropping. cbn [big]. destruct (gsim G HG) as (Ev&_&_&Hd). rewrite Ev.
    destruct (gd_is_valid (group_desc false G)); [|by apply tw_ret]. cbn [negb].
    eapply tw_bind; [by apply tw_find_or_create, Hd|]. intros o ? <-. destruct o as [i|]; [|by apply tw_ret].
    eapply tw_bind; [apply tw_arch_at|]. intros a1 a2 (t1&->)%asim_retag.
    eapply tw_bind; [apply tw_unwrap|]. intros row ? <-. eapply tw_bind; [apply tw_unwrap|]. intros ai ? <-.
    eapply tw_bind; [apply tw_create|]. intros oh ? <-. destruct oh as [h|]; [|by apply tw_ret].
    eapply tw_bind; [apply tw_arch; [apply blind_push|apply akeeps_push|intros; by apply push_eq]|]. intros ? ? _. by apply tw_ret.
  Qed.
  Lemma tw_move_back (at_ : arch -> nat -> rd N) i row r (b : bool) : (forall x a k, at_ (retag_a x a) k = at_ a k) ->
    tw eq (if b then let! a := rm_rd (arch_at i) in let! h' := lift_rd (at_ a row) in update_entry LE h' (fun e' => entry_set_index_in_archetype e' r) else ret tt)
          (if b then let! a := rm_rd (arch_at i) in let! h' := lift_rd (at_ a row) in update_entry BE h' (fun e' => entry_set_index_in_archetype e' r) else ret tt).
  Proof.
    intros Hat. destruct b; [|by apply tw_ret]. eapply tw_bind; [apply tw_arch_at|]. intros a1 a2 (t1&->)%asim_retag.
    eapply tw_bind; [apply tw_lift, rtw_refl, Hat|]. intros h ? <-. by apply tw_update.
  Qed.
  Lemma tw_destroy_entity h : tw eq (destroy_entity LE h) (destroy_entity BE h).
  Proof.
    unfold destroy_entity. eapply tw_bind; [apply tw_get|]. intros s1 s2 HR. rewrite (R_entry _ _ h HR). cbn [dbg mdebug_assert big].
    destruct (entry_of LE s1 h) as [e|]; [|by apply tw_ret]. cbn [fmap option_fmap option_map]. rewrite sw_e_arch.
    eapply tw_bind; [apply tw_arch; [apply blind_swap_drop|apply akeeps_swap_drop|done]|]. intros b ? <-.
    eapply tw_bind; [by apply tw_move_back|]. intros ? ? _. eapply tw_bind; [apply tw_destroy|]. intros ? ? _.
    eapply tw_bind; [by apply tw_ret|]. intros ? ? _. by apply tw_ret.
  Qed.
  Lemma tw_remove_entity G h : in_U U G -> tw eq (remove_entity LE G h) (remove_entity BE G h).
  Proof.
    intros HG. unfold remove_entity. eapply tw_bind; [apply tw_get|]. intros s1 s2 HR. rewrite (R_entry _ _ h HR). cbn [dbg mdebug_assert big].
    destruct (entry_of LE s1 h) as [e|]; [|by apply tw_ret]. cbn [fmap option_fmap option_map]. rewrite sw_e_arch.
    eapply tw_bind; [apply tw_arch; [apply blind_swap_remove|apply akeeps_swap_remove|intros; by apply swap_remove_eq]|].
    intros [data b] ? <-. apply tw_dropping.
    eapply tw_bind; [by apply tw_move_back|]. intros ? ? _. eapply tw_bind; [apply tw_destroy|]. intros ? ? _.
    eapply tw_bind; [by apply tw_ret|]. intros ? ? _. by apply tw_ret.
  Qed.
  Lemma tw_foc_add i C : C ∈ U -> tw eq (find_or_create_archetype_adding_component LE i (cdesc_of C)) (find_or_create_archetype_adding_component BE i (cdesc_of C)).
  Proof.
    intros HC. unfold find_or_create_archetype_adding_component. eapply tw_bind; [apply tw_get|]. intros s1 s2 HR.
    rewrite (R_len _ _ HR). destruct (_ <? _); [by apply tw_ret|]. pose proof (R_arch _ _ i HR) as Ha.
    destruct (ar_archs (r_ar s1) !! i) as [a1|], (ar_archs (r_ar s2) !! i) as [a2|]; try done; [|apply tw_panic].
    eapply tw_bind; [apply tw_lift, rtw_add; [apply Ha|]|]. { cbn. by apply elem_of_list_fmap_1. }
    intros [d1|] [d2|] Hd; try done; try by apply tw_ret.
    eapply tw_bind; [by apply tw_find_or_create|]. intros o ? <-. destruct o as [dst|]; [|by apply tw_ret].
    eapply tw_bind; [apply tw_get|]. intros t1 t2 HT. rewrite (R_len _ _ HT). apply tw_lift, rtw_eq.
  Qed.
  Lemma tw_foc_remove i C : tw eq (find_or_create_archetype_removing_component LE i (cdesc_of C)) (find_or_create_archetype_removing_component BE i (cdesc_of C)).
  Proof.
    unfold find_or_create_archetype_removing_component. eapply tw_bind; [apply tw_get|]. intros s1 s2 HR.
    rewrite (R_len _ _ HR). destruct (_ <? _); [by apply tw_ret|]. pose proof (R_arch _ _ i HR) as Ha.
    destruct (ar_archs (r_ar s1) !! i) as [a1|], (ar_archs (r_ar s2) !! i) as [a2|]; try done; [|apply tw_panic].
    eapply tw_bind; [apply tw_lift, rtw_remove; apply Ha|].
    intros [d1|] [d2|] Hd; try done; try by apply tw_ret.
    eapply tw_bind; [by apply tw_find_or_create|]. intros o ? <-. destruct o as [dst|]; [|by apply tw_ret].
    eapply tw_bind; [apply tw_get|]. intros t1 t2 HT. rewrite (R_len _ _ HT). apply tw_lift, rtw_eq.
  Qed.
  Lemma tw_add C h v : C ∈ U -> tw eq (add_component LE C h v) (add_component BE C h v).
  Proof.
    intros HC. unfold add_component. eapply tw_bind; [apply tw_get|]. intros s1 s2 HR. rewrite (R_entry _ _ h HR). cbn [big].
    destruct (entry_of LE s1 h) as [e|]; [|by apply tw_ret]. cbn [fmap option_fmap option_map]. rewrite sw_e_arch.
    eapply tw_bind; [by apply tw_dropping, tw_foc_add|]. intros o ? <-. destruct o as [[src dst]|]; [|by apply tw_ret].
    eapply (tw_bind eq).
    { apply tw_dropping.
      eapply tw_bind; [apply tw_arch; [apply blind_swap_to_last|apply akeeps_swap_to_last|done]|]. intros b ? <-.
      eapply tw_bind; [by apply tw_move_back|]. intros ? ? _.
      eapply tw_bind; [apply tw_arch; [apply blind_push_uninit|apply akeeps_push_uninit|done]|]. intros ? ? _.
      eapply tw_bind; [apply tw_arch_at|]. intros sa1 sa2 (t1&->)%asim_retag. eapply tw_bind; [apply tw_arch_at|]. intros da1 da2 (t2&->)%asim_retag.
      eapply tw_bind; [by apply tw_lift, rtw_refl|]. intros srow ? <-. eapply tw_bind; [by apply tw_lift, rtw_refl|]. intros drow ? <-.
      eapply tw_bind; [apply tw_arch; [apply blind_copy_common|apply akeeps_copy_common|done]|]. intros ? ? _.
      eapply tw_bind; [apply tw_arch; [apply blind_write_single|apply akeeps_write_single|done]|]. intros ? ? _. by apply tw_ret. }
    intros [srow drow] ? <-. eapply tw_bind; [apply tw_arch_at|]. intros sa1 sa2 (t1&->)%asim_retag.
    eapply tw_bind; [by apply tw_lift, rtw_refl|]. intros hs ? <-.
    eapply tw_bind; [apply tw_arch; [apply blind_write_entity|apply akeeps_write_entity|done]|]. intros ? ? _.
    eapply tw_bind; [apply tw_arch; [apply blind_decrement|apply akeeps_decrement|done]|]. intros ? ? _.
    eapply tw_bind; [by apply tw_update|]. intros ? ? _. eapply tw_bind; [apply tw_unwrap|]. intros idx ? <-.
    eapply tw_bind; [by apply tw_update|]. intros ? ? _. by apply tw_ret.
  Qed.
  Lemma tw_remove C h : tw eq (remove_component LE C h) (remove_component BE C h).
  Proof.
    unfold remove_component. eapply tw_bind; [apply tw_get|]. intros s1 s2 HR. rewrite (R_entry _ _ h HR). cbn [big].
    destruct (entry_of LE s1 h) as [e|]; [|by apply tw_ret]. cbn [fmap option_fmap option_map]. rewrite sw_e_arch.
    eapply tw_bind; [by apply tw_foc_remove|]. intros o ? <-. destruct o as [[src dst]|]; [|by apply tw_ret].
    eapply tw_bind; [apply tw_arch; [apply blind_swap_to_last|apply akeeps_swap_to_last|done]|]. intros b ? <-.
    eapply tw_bind; [by apply tw_move_back|]. intros ? ? _.
    eapply tw_bind; [apply tw_arch; [apply blind_push_uninit|apply akeeps_push_uninit|done]|]. intros ? ? _.
    eapply tw_bind; [apply tw_arch_at|]. intros sa1 sa2 (t1&->)%asim_retag. eapply tw_bind; [apply tw_arch_at|]. intros da1 da2 (t2&->)%asim_retag.
    eapply tw_bind; [by apply tw_lift, rtw_refl|]. intros srow ? <-. eapply tw_bind; [by apply tw_lift, rtw_refl|]. intros drow ? <-.
    eapply tw_bind; [apply tw_arch; [apply blind_copy_common|apply akeeps_copy_common|done]|]. intros ? ? _.
    eapply tw_bind; [by apply tw_lift, rtw_refl|]. intros v ? <-. apply tw_dropping.
    eapply tw_bind; [by apply tw_lift, rtw_refl|]. intros hs ? <-.
    eapply tw_bind; [apply tw_arch; [apply blind_write_entity|apply akeeps_write_entity|done]|]. intros ? ? _.
    eapply tw_bind; [apply tw_arch; [apply blind_decrement|apply akeeps_decrement|done]|]. intros ? ? _.
    eapply tw_bind; [by apply tw_update|]. intros ? ? _. eapply tw_bind; [apply tw_unwrap|]. intros idx ? <-.
    eapply tw_bind; [by apply tw_update|]. intros ? ? _. by apply tw_ret.
  Qed.

  (** ** Iterators: the same archetypes, in another order *)
  Lemma rtw_visited G s1 s2 acc1 acc2 : in_U U G -> R s1 s2 -> (forall x d, acc2 (retag x d) = acc1 d) ->
    visited LE G (r_ar s1) acc1 ≡ₚ visited BE G (r_ar s2) acc2.
  Proof.
    intros HG HR Hacc. apply NoDup_Permutation; [apply visited_NoDup, HR|apply visited_NoDup, HR|]. intros i. unfold visited.
    rewrite !elem_of_list_filter. rewrite (proj2 (indices_from _ (R_inv1 _ _ HR) _) i), (proj2 (indices_from _ (R_inv2 _ _ HR) _) i).
    unfold glen, acc. cbn [big]. rewrite glen_eq by done. pose proof (R_arch _ _ i HR) as H.
    destruct (ar_archs (r_ar s1) !! i) as [a1|] eqn:E1, (ar_archs (r_ar s2) !! i) as [a2|] eqn:E2; try done.
    2: { split; intros [(?&?&_) _]; done. }
    apply asim_retag in H as (x&->). split; (intros [(?&[= <-]&H1) (?&[= <-]&H2)]; split; eexists; (split; [done|])); try done.
    - change (a_desc (retag_a x a1)) with (retag x (a_desc a1)). by rewrite Hacc.
    - change (a_desc (retag_a x a1)) with (retag x (a_desc a1)) in H1. by rewrite Hacc in H1.
  Qed.
  Lemma iter_sim {X I} G acc1 acc2 (item1 item2 : nat -> arch -> rd I) (g1 g2 : arch -> rd X) (h : nat -> X -> I) s1 s2 :
    in_U U G -> R s1 s2 ->
    (forall x d, acc2 (retag x d) = acc1 d) -> (forall x a, g2 (retag_a x a) = g1 a) ->
    (forall i a, item1 i a = letr v := g1 a in Rd (h i v)) -> (forall i a, item2 i a = letr v := g2 a in Rd (h i v)) ->
    (gd_is_valid (group_desc false G) = true -> forall a, g1 a <> RdPanic) ->
    rtw (fun o1 o2 => exists l1 l2 : list (nat * X), o1 = Some (map (fun p => h p.1 p.2) l1) /\ o2 = Some (map (fun p => h p.1 p.2) l2) /\
           l1 ≡ₚ l2 /\ NoDup (map fst l1) /\ Forall (fun p : nat * X => exists a, ar_archs (r_ar s1) !! p.1 = Some a /\ g1 a = Rd p.2) l1)
        (slices_collect LE G acc1 item1 (r_ar s1)) (slices_collect BE G acc2 item2 (r_ar s2)).
  Proof.
    intros HG HR Hacc Hg Hi1 Hi2 Hnp. destruct (gsim G HG) as (Ev&_&_&_). destruct (gd_is_valid (group_desc false G)) eqn:Hv.
    - rewrite (slices_collect_fetch LE G _ (R_inv1 _ _ HR) acc1 item1 g1 h Hi1 Hv).
      rewrite (slices_collect_fetch BE G _ (R_inv2 _ _ HR) acc2 item2 g2 h Hi2 Ev).
      pose proof (rtw_visited G s1 s2 acc1 acc2 HG HR Hacc) as Hp.
      assert (Ef : forall i, fetch (r_ar s2) g2 i = fetch (r_ar s1) g1 i).
      { intros i. unfold fetch. pose proof (R_arch _ _ i HR) as H.
        destruct (ar_archs (r_ar s1) !! i) as [a1|] eqn:E1, (ar_archs (r_ar s2) !! i) as [a2|] eqn:E2; try done.
        apply asim_retag in H as (x&->). by rewrite Hg. }
      rewrite (rmap_ext _ _ _ (fun i _ => Ef i)).
      pose proof (rmap_perm (fetch (r_ar s1) g1) _ _ Hp) as H.
      assert (Hn : forall i, fetch (r_ar s1) g1 i <> RdPanic).
      { intros i. unfold fetch. destruct (_ !! i) as [a|]; [|done]. specialize (Hnp eq_refl a). by destruct (g1 a). }
      specialize (H Hn). destruct (rmap (fetch (r_ar s1) g1) (visited LE G (r_ar s1) acc1)) as [l1| |] eqn:E1,
        (rmap (fetch (r_ar s1) g1) (visited BE G (r_ar s2) acc2)) as [l2| |]; try done. cbn [rbind rtw].
      exists l1, l2. split; [done|]. split; [done|]. split; [done|]. destruct (rmap_fetch _ _ _ _ E1) as [Ei Hf]. split; [|done].
      rewrite Ei. apply visited_NoDup, HR.
    - rewrite !slices_collect_invalid by done. cbn [rtw]. exists [], []. split; [done|]. split; [done|]. split; [done|]. split; constructor.
  Qed.
  Lemma accept_eq G x d : in_U U G -> accept_matching true G (retag x d) = accept_matching false G d.
  Proof. intros. by apply contains_eq. Qed.
  Lemma accept_f_eq G f x d : in_U U G -> id_blind f -> accept_filtered true G f (retag x d) = accept_filtered false G f d.
  Proof. intros HG Hf. unfold accept_filtered. rewrite contains_eq by done. f_equal. apply Hf. Qed.
  Lemma slices_eq G x a : in_U U G -> get_fuzzy_slices BE G (retag_a x a) = get_fuzzy_slices LE G a.
  Proof. intros HG. unfold get_fuzzy_slices. cbn [dbg big rdebug_assert rbind]. rewrite pointers_eq, slice_eq by done. done. Qed.
  Lemma slices_mut_eq G x a : in_U U G -> get_fuzzy_slices_mut BE G (retag_a x a) = get_fuzzy_slices_mut LE G a.
  Proof. intros HG. unfold get_fuzzy_slices_mut. cbn [dbg big rdebug_assert rbind]. rewrite pointers_eq, slice_mut_eq by done. done. Qed.
  Lemma eslices_eq G x a : in_U U G -> get_entity_fuzzy_slices BE G (retag_a x a) = get_entity_fuzzy_slices LE G a.
  Proof. intros HG. unfold get_entity_fuzzy_slices. cbn [dbg big rdebug_assert rbind]. rewrite pointers_eq, slice_eq by done. done. Qed.
  Lemma eslices_mut_eq G x a : in_U U G -> get_entity_fuzzy_slices_mut BE G (retag_a x a) = get_entity_fuzzy_slices_mut LE G a.
  Proof. intros HG. unfold get_entity_fuzzy_slices_mut. cbn [dbg big rdebug_assert rbind]. rewrite pointers_eq, slice_mut_eq by done. done. Qed.
  Lemma exact_eq G x a : in_U U G -> get_slices_exact BE G (retag_a x a) = get_slices_exact LE G a.
  Proof. intros HG. unfold get_slices_exact. cbn [dbg big rdebug_assert rbind]. by apply slice_eq. Qed.
  Lemma exact_mut_eq G x a : in_U U G -> get_slices_exact_mut BE G (retag_a x a) = get_slices_exact_mut LE G a.
  Proof. intros HG. unfold get_slices_exact_mut. cbn [dbg big rdebug_assert rbind]. by apply slice_mut_eq. Qed.
  (** *** Reading *)
  Lemma tw_items {I} (i1 i2 : reg -> rd (option (list I))) (out : list I -> output) :
    (forall s1 s2, R s1 s2 -> rtw (fun o1 o2 => exists l1 l2, o1 = Some l1 /\ o2 = Some l2 /\ l1 ≡ₚ l2) (i1 s1) (i2 s2)) ->
    (forall l1 l2, l1 ≡ₚ l2 -> same_but_order (out l1) (out l2)) ->
    tw same_but_order (let! l := rm_rd i1 in let! l := unwrap l in ret (out l)) (let! l := rm_rd i2 in let! l := unwrap l in ret (out l)).
  Proof.
    intros Hi Ho. eapply tw_bind; [by apply tw_rd|]. intros o1 o2 (l1&l2&->&->&Hp). cbn [unwrap].
    eapply (tw_bind (fun a b => a = l1 /\ b = l2)); [by apply tw_ret|]. intros ? ? [-> ->]. by apply tw_ret, Ho.
  Qed.
  Lemma rtw_read {I} G acc1 acc2 (g1 g2 : arch -> rd I) s1 s2 : in_U U G -> R s1 s2 ->
    (forall x d, acc2 (retag x d) = acc1 d) -> (forall x a, g2 (retag_a x a) = g1 a) ->
    (gd_is_valid (group_desc false G) = true -> forall a, g1 a <> RdPanic) ->
    rtw (fun o1 o2 => exists l1 l2, o1 = Some l1 /\ o2 = Some l2 /\ l1 ≡ₚ l2)
      (slices_collect LE G acc1 (fun _ a => g1 a) (r_ar s1)) (slices_collect BE G acc2 (fun _ a => g2 a) (r_ar s2)).
  Proof.
    intros HG HR Ha Hg Hn.
    pose proof (iter_sim G acc1 acc2 (fun _ a => g1 a) (fun _ a => g2 a) g1 g2 (fun _ v => v) s1 s2 HG HR Ha Hg) as H.
    specialize (H ltac:(intros i a; by destruct (g1 a)) ltac:(intros i a; by destruct (g2 a)) Hn).
    destruct (slices_collect LE _ _ _ _), (slices_collect BE _ _ _ _); try done. destruct H as (l1&l2&->&->&Hp&_). cbn.
    eexists _, _. split; [done|]. split; [done|]. by apply Permutation_map.
  Qed.
  (** *** Exact access *)
  Lemma rtw_exact G s1 s2 : in_U U G -> R s1 s2 ->
    rtw (fun o1 o2 => match o1, o2 with Some (i, a1), Some (j, a2) => i = j /\ asim a1 a2 | None, None => True | _, _ => False end)
      (find_exact LE G s1) (find_exact BE G s2).
  Proof.
    intros HG HR. unfold find_exact. cbn [big]. destruct (gsim G HG) as (Ev&_&_&Hd). destruct (gd_is_valid (group_desc false G)) eqn:Hv.
    - specialize (Hd eq_refl). set (d1 := gd_arch (group_desc false G)) in *. set (d2 := gd_arch (group_desc true G)) in *.
      pose proof (fun i => R_is_arch _ _ _ _ i HR Hd) as Hia.
      destruct (areg_search _ d1 (R_inv1 _ _ HR) (dsim_regular _ _ Hd Hv)) as (lv&_&_&H1).
      destruct (binary_search (map k_id lv) (ad_id d1)).
      + destruct H1 as (k&_&K). rewrite (find_archetype_found _ d1 _ (R_inv1 _ _ HR) Hv K), (find_archetype_found _ d2 _ (R_inv2 _ _ HR) Ev (proj1 (Hia _) K)).
        cbn [rbind]. pose proof (R_arch _ _ (k_idx k) HR) as Ha. by destruct (_ !! k_idx k), (_ !! k_idx k).
      + rewrite (find_archetype_absent _ d1 (R_inv1 _ _ HR) (dsim_regular _ _ Hd) (or_introl H1)).
        rewrite (find_archetype_absent _ d2 (R_inv2 _ _ HR) (dsim_regular2 _ _ Hd)); [done|]. left. intros i Hi. apply (H1 i). by apply Hia.
    - rewrite (group_desc_invalid _ _ Hv), (group_desc_invalid _ _ Ev). done.
  Qed.
  (** *** Writing through the references *)
  Lemma tw_modify f l : tw eq (modify_loc f l) (modify_loc f l).
  Proof.
    unfold modify_loc. eapply tw_bind; [apply tw_arch_at|]. intros a1 a2 (x&->)%asim_retag.
    eapply tw_bind; [by apply tw_lift, rtw_refl|]. intros o ? <-. destruct o; [|apply tw_ub]. apply tw_replace.
  Qed.
  Lemma tw_mmap {A B} (f : A -> RM B) l : (forall x, tw eq (f x) (f x)) -> tw eq (mmap f l) (mmap f l).
  Proof.
    intros H. induction l as [|x l IH]; [by apply tw_ret|]. cbn [mmap]. eapply tw_bind; [apply H|]. intros y ? <-.
    eapply tw_bind; [apply IH|]. intros ys ? <-. by apply tw_ret.
  Qed.
  Lemma tw_modify_item upd cols : tw eq (modify_item upd cols) (modify_item upd cols).
  Proof. unfold modify_item. apply tw_mmap. intros [i col]. apply tw_mmap. intros l. apply tw_modify. Qed.
  Lemma tw_modify_items upd items : tw eq (modify_items upd items) (modify_items upd items).
  Proof. apply tw_mmap. intros. apply tw_modify_item. Qed.
  Lemma tw_modify_eitems upd items : tw eq (modify_eitems upd items) (modify_eitems upd items).
  Proof. apply tw_mmap. intros [es cols]. eapply tw_bind; [apply tw_modify_item|]. intros v ? <-. by apply tw_ret. Qed.
  Lemma tw_iter_mut {X I Y} G acc1 acc2 (g1 g2 : arch -> rd X) (h : nat -> X -> I) (F : I -> RM Y) (m : X -> AM Y) (out : list Y -> output) :
    in_U U G -> (forall x d, acc2 (retag x d) = acc1 d) -> (forall x a, g2 (retag_a x a) = g1 a) ->
    (gd_is_valid (group_desc false G) = true -> forall a, g1 a <> RdPanic) ->
    (forall x, indep (m x)) -> (forall a x, g1 a = Rd x -> calm (length (a_ptrs a)) (m x)) ->
    (forall i x s, is_Some (ar_archs (r_ar s) !! i) -> F (h i x) s = with_arch i (m x) s) -> (forall x, tw eq (F x) (F x)) ->
    (forall y1 y2, y1 ≡ₚ y2 -> same_but_order (out y1) (out y2)) ->
    tw same_but_order
      (let! l := rm_rd (fun s => slices_collect LE G acc1 (fun i a => letr v := g1 a in Rd (h i v)) (r_ar s)) in
       let! l := unwrap l in let! old := mmap F l in ret (out old))
      (let! l := rm_rd (fun s => slices_collect BE G acc2 (fun i a => letr v := g2 a in Rd (h i v)) (r_ar s)) in
       let! l := unwrap l in let! old := mmap F l in ret (out old)).
  Proof.
    intros HG Hacc Hg Hnp Hind Hcalm HF Htw Hout s1 s2 HR.
    pose proof (iter_sim G acc1 acc2 (fun i a => letr v := g1 a in Rd (h i v)) (fun i a => letr v := g2 a in Rd (h i v)) g1 g2 h s1 s2
      HG HR Hacc Hg ltac:(done) ltac:(done) Hnp) as H. unfold bind, rm_rd.
    destruct (slices_collect LE G acc1 _ _) as [o1| |], (slices_collect BE G acc2 _ _) as [o2| |]; cbn [rtw] in H; try done.
    destruct H as (l1&l2&->&->&Hp&Hnd&Hl1). cbn [lift_rd unwrap ret].
    pose proof (tw_mmap F (map (fun p => h p.1 p.2) l1) Htw s1 s2 HR) as Leg1.
    assert (Hsafe : Forall (safe m s2) l1).
    { eapply Forall_impl; [exact Hl1|]. intros p (a&Ea&Ep). pose proof (R_arch _ _ p.1 HR) as Ha. rewrite Ea in Ha.
      destruct (ar_archs (r_ar s2) !! p.1) as [a2|] eqn:E2; [|done]. exists a2. split; [done|].
      apply asim_retag in Ha as (x&->). by apply (Hcalm a). }
    assert (Hsome : forall l, l1 ≡ₚ l -> Forall (fun p : nat * X => is_Some (ar_archs (r_ar s2) !! p.1)) l).
    { intros l Hl. rewrite <- Hl. eapply Forall_impl; [exact Hsafe|]. intros p (a&Ea&_). by exists a. }
    assert (Eitem : forall l, l1 ≡ₚ l -> mmap F (map (fun p => h p.1 p.2) l) s2 = mmap (at_item m) l s2).
    { intros l Hl. rewrite mmap_map. apply mmap_items; [by apply Hsome|]. intros p s Hs. by apply HF. }
    pose proof (mmap_perm m Hind l1 l2 s2 Hp Hnd Hsafe) as Leg2. rewrite <- !Eitem in Leg2 by done.
    destruct (mmap F (map _ l1) s1) as [y1 t1|t1|], (mmap F (map _ l1) s2) as [y1' t1'|t1'|], (mmap F (map _ l2) s2) as [y2 t2|t2|]; try done.
    - destruct Leg1 as [<- Leg1], Leg2 as [Hy <-]. cbn [ret]. split; [by apply Hout|done].
    - by subst.
  Qed.
  Definition am_eitem (upd : nat -> value -> value) (x : list N * list (list (nat * nat))) : AM (list N * list (list value)) :=
    let! vs := am_item upd x.2 in ret (x.1, vs).
  Lemma tw_iter_mut_cols G acc1 acc2 upd : in_U U G -> (forall x d, acc2 (retag x d) = acc1 d) ->
    tw same_but_order
      (let! l := rm_rd (fun s => slices_collect LE G acc1 (fun i a => letr v := get_fuzzy_slices_mut LE G a in Rd (locate i v)) (r_ar s)) in
       let! l := unwrap l in let! old := modify_items upd l in ret (OutCols old))
      (let! l := rm_rd (fun s => slices_collect BE G acc2 (fun i a => letr v := get_fuzzy_slices_mut BE G a in Rd (locate i v)) (r_ar s)) in
       let! l := unwrap l in let! old := modify_items upd l in ret (OutCols old)).
  Proof.
    intros HG Ha. apply (tw_iter_mut G acc1 acc2 _ _ locate (modify_item upd) (am_item upd) OutCols); try done.
    - intros. by apply slices_mut_eq.
    - intros Hv a. by apply slice_mut_calm.
    - intros x. apply indep_item.
    - intros a x E. apply calm_item. eapply slice_mut_inside, E.
    - intros i x s Hs. by apply modify_item_arch.
    - intros x. apply tw_modify_item.
  Qed.
  Lemma tw_iter_mut_ecols G acc1 acc2 upd : in_U U G -> (forall x d, acc2 (retag x d) = acc1 d) ->
    tw same_but_order
      (let! l := rm_rd (fun s => slices_collect LE G acc1 (fun i a => letr v := get_entity_fuzzy_slices_mut LE G a in Rd (v.1, locate i v.2)) (r_ar s)) in
       let! l := unwrap l in let! old := modify_eitems upd l in ret (OutECols old))
      (let! l := rm_rd (fun s => slices_collect BE G acc2 (fun i a => letr v := get_entity_fuzzy_slices_mut BE G a in Rd (v.1, locate i v.2)) (r_ar s)) in
       let! l := unwrap l in let! old := modify_eitems upd l in ret (OutECols old)).
  Proof.
    intros HG Ha.
    apply (tw_iter_mut G acc1 acc2 _ _ (fun i v => (v.1, locate i v.2)) (fun '(es, cols) => let! vs := modify_item upd cols in ret (es, vs)) (am_eitem upd) OutECols); try done.
    - intros. by apply eslices_mut_eq.
    - intros Hv a. unfold get_entity_fuzzy_slices_mut. cbn [dbg big rdebug_assert rbind].
      pose proof (slice_mut_calm G (group_desc false G) 0 (a_count a) a Hv) as H1. pose proof (entities_calm a) as H2.
      destruct (entities a); cbn [rbind]; try done. destruct (slice_unchecked_mut _ _ _ _ _); done.
    - intros x. apply indep_bind; [apply indep_item|]. by intros vs a e e'.
    - intros a x. unfold get_entity_fuzzy_slices_mut. cbn [dbg big rdebug_assert rbind].
      destruct (entities a) as [es| |]; cbn [rbind]; try done.
      destruct (slice_unchecked_mut _ _ _ _ _) as [cols| |] eqn:E; try done. intros [= <-].
      apply calm_bind; [apply calm_item; by eapply slice_mut_inside|]. by intros vs b e.
    - intros i x s Hs. unfold am_eitem. rewrite with_arch_bind. unfold bind. rewrite modify_item_arch by done.
      destruct (with_arch i (am_item upd x.2) s) as [y t| |] eqn:E; try done. rewrite with_arch_ret; [done|]. by eapply with_arch_stays.
    - intros [es cols]. eapply tw_bind; [apply tw_modify_item|]. intros v ? <-. by apply tw_ret.
  Qed.
  (** ** One call, many calls *)
  Lemma eslices_calm G a : gd_is_valid (group_desc false G) = true -> get_entity_fuzzy_slices LE G a <> RdPanic.
  Proof.
    intros Hv. unfold get_entity_fuzzy_slices. cbn [dbg big rdebug_assert rbind].
    pose proof (slice_calm G (group_desc false G) 0 (a_count a) a Hv) as H1. pose proof (entities_calm a) as H2.
    destruct (entities a); cbn [rbind]; try done. destruct (slice_unchecked _ _ _ _ _); done.
  Qed.
  Lemma tw_read_cols G acc1 acc2 : in_U U G -> (forall x d, acc2 (retag x d) = acc1 d) ->
    tw same_but_order
      (let! l := rm_rd (fun s => slices_collect LE G acc1 (fun _ a => get_fuzzy_slices LE G a) (r_ar s)) in let! l := unwrap l in ret (OutCols l))
      (let! l := rm_rd (fun s => slices_collect BE G acc2 (fun _ a => get_fuzzy_slices BE G a) (r_ar s)) in let! l := unwrap l in ret (OutCols l)).
  Proof.
    intros HG Ha. apply tw_items; [|done]. intros s1 s2 HR. apply rtw_read; try done; [intros; by apply slices_eq|]. intros Hv a. by apply slice_calm.
  Qed.
  Lemma tw_read_ecols G acc1 acc2 : in_U U G -> (forall x d, acc2 (retag x d) = acc1 d) ->
    tw same_but_order
      (let! l := rm_rd (fun s => slices_collect LE G acc1 (fun _ a => get_entity_fuzzy_slices LE G a) (r_ar s)) in let! l := unwrap l in ret (OutECols l))
      (let! l := rm_rd (fun s => slices_collect BE G acc2 (fun _ a => get_entity_fuzzy_slices BE G a) (r_ar s)) in let! l := unwrap l in ret (OutECols l)).
  Proof.
    intros HG Ha. apply tw_items; [|done]. intros s1 s2 HR. apply rtw_read; try done; [intros; by apply eslices_eq|]. intros Hv a. by apply eslices_calm.
  Qed.
  Lemma entities_retag x a : entities (retag_a x a) = entities a. Proof. done. Qed.
  Lemma rtw_exact_cols G s1 s2 : in_U U G -> R s1 s2 -> rtw eq (iter_components_exact LE G s1) (iter_components_exact BE G s2).
  Proof.
    intros HG HR. pose proof (rtw_exact G s1 s2 HG HR) as H. unfold iter_components_exact.
    destruct (find_exact LE G s1) as [[[i a1]|]| |], (find_exact BE G s2) as [[[j a2]|]| |]; try done. destruct H as [<- (x&->)%asim_retag]. cbn [rbind].
    rewrite exact_eq by done. by apply rtw_refl.
  Qed.
  Lemma rtw_exact_mut G s1 s2 : in_U U G -> R s1 s2 -> rtw eq (iter_components_exact_mut LE G s1) (iter_components_exact_mut BE G s2).
  Proof.
    intros HG HR. pose proof (rtw_exact G s1 s2 HG HR) as H. unfold iter_components_exact_mut.
    destruct (find_exact LE G s1) as [[[i a1]|]| |], (find_exact BE G s2) as [[[j a2]|]| |]; try done. destruct H as [<- (x&->)%asim_retag]. cbn [rbind].
    rewrite exact_mut_eq by done. by apply rtw_refl.
  Qed.
  Lemma rtw_exact_e G s1 s2 : in_U U G -> R s1 s2 -> rtw eq (iter_entity_components_exact LE G s1) (iter_entity_components_exact BE G s2).
  Proof.
    intros HG HR. pose proof (rtw_exact G s1 s2 HG HR) as H. unfold iter_entity_components_exact.
    destruct (find_exact LE G s1) as [[[i a1]|]| |], (find_exact BE G s2) as [[[j a2]|]| |]; try done. destruct H as [<- (x&->)%asim_retag]. cbn [rbind].
    rewrite exact_eq, entities_retag by done. by apply rtw_refl.
  Qed.
  Lemma rtw_exact_e_mut G s1 s2 : in_U U G -> R s1 s2 -> rtw eq (iter_entity_components_exact_mut LE G s1) (iter_entity_components_exact_mut BE G s2).
  Proof.
    intros HG HR. pose proof (rtw_exact G s1 s2 HG HR) as H. unfold iter_entity_components_exact_mut.
    destruct (find_exact LE G s1) as [[[i a1]|]| |], (find_exact BE G s2) as [[[j a2]|]| |]; try done. destruct H as [<- (x&->)%asim_retag]. cbn [rbind].
    rewrite exact_mut_eq, entities_retag by done. by apply rtw_refl.
  Qed.
  Lemma same_refl o : same_but_order o o. Proof. destruct o; cbn; done || reflexivity. Qed.
  Lemma tw_out {A} (m1 m2 : RM A) (out : A -> output) : tw eq m1 m2 -> tw same_but_order (let! x := m1 in ret (out x)) (let! x := m2 in ret (out x)).
  Proof. intros H. eapply tw_bind; [exact H|]. intros x ? <-. apply tw_ret, same_refl. Qed.
  Lemma tw_out_rd {A} (f1 f2 : reg -> rd A) (out : A -> output) : (forall s1 s2, R s1 s2 -> rtw eq (f1 s1) (f2 s2)) ->
    tw same_but_order (let! x := rm_rd f1 in ret (out x)) (let! x := rm_rd f2 in ret (out x)).
  Proof. intros H. apply tw_out. by apply tw_rd. Qed.
  Lemma tw_step o : ports U o -> tw same_but_order (step LE o) (step BE o).
  Proof.
    destruct o; cbn [ports step]; intros Hp.
    - by apply tw_out, tw_create_entity.
    - apply tw_out, tw_destroy_entity.
    - by apply tw_out, tw_remove_entity.
    - apply tw_out, tw_has.
    - by apply tw_out, tw_has_all.
    - apply tw_out, tw_get_one.
    - by apply tw_out, tw_get_all.
    - eapply tw_bind; [apply tw_get_mut|]. intros l ? <-. destruct l; [|apply tw_ret, same_refl]. apply tw_out, tw_replace.
    - eapply tw_bind; [by apply tw_get_all_mut|]. intros l ? <-. destruct l; [|apply tw_ret, same_refl]. apply tw_out, tw_replaces.
    - by apply tw_out, tw_add.
    - apply tw_out, tw_remove.
    - eapply (tw_bind eq); [|intros l ? <-; eapply tw_bind; [apply tw_unwrap|]; intros x ? <-; apply tw_ret, same_refl].
      apply tw_rd. intros s1 s2 HR. unfold iter_entities. cbn [big]. rewrite (R_er _ _ HR), sw_iter. by apply rtw_refl.
    - apply tw_read_cols; [done|]. intros. by apply accept_eq.
    - apply tw_read_ecols; [done|]. intros. by apply accept_eq.
    - destruct Hp. apply tw_read_cols; [done|]. intros. by apply accept_f_eq.
    - destruct Hp. apply tw_read_ecols; [done|]. intros. by apply accept_f_eq.
    - apply tw_iter_mut_cols; [done|]. intros. by apply accept_eq.
    - apply tw_iter_mut_ecols; [done|]. intros. by apply accept_eq.
    - destruct Hp. apply tw_iter_mut_cols; [done|]. intros. by apply accept_f_eq.
    - destruct Hp. apply tw_iter_mut_ecols; [done|]. intros. by apply accept_f_eq.
    - apply tw_out_rd. intros. by apply rtw_exact_cols.
    - apply tw_out_rd. intros. by apply rtw_exact_e.
    - eapply (tw_bind eq); [apply tw_rd; intros; by apply rtw_exact_mut|]. intros l ? <-. apply tw_out, tw_modify_items.
    - eapply (tw_bind eq); [apply tw_rd; intros; by apply rtw_exact_e_mut|]. intros l ? <-. apply tw_out, tw_modify_eitems.
  Qed.
  Lemma tw_run ops : Forall (ports U) ops -> tw (Forall2 same_but_order) (run LE ops) (run BE ops).
  Proof.
    induction 1 as [|o ops Ho _ IH]; cbn [run]; [by apply tw_ret|]. eapply tw_bind; [by apply tw_step|]. intros x y Hxy.
    eapply tw_bind; [apply IH|]. intros xs ys Hs. apply tw_ret. by constructor.
  Qed.
  Lemma R_start O : R (Reg er_default areg_default (Env [] O)) (Reg er_default areg_default (Env [] O)).
  Proof.
    split; [done|done|apply areg_inv_default..|]. cbn. constructor.
  Qed.
  Lemma twin_calls s1 s2 tr t1 : R s1 s2 -> calls LE s1 tr t1 -> Forall (fun x => ports U x.1) tr ->
    exists tr2 t2, calls BE s2 tr2 t2 /\ same_trace tr tr2 /\ R t1 t2.
  Proof.
    intros HR Hc. revert s2 HR. induction Hc as [r|r o out r1 tr r2 E _ IH|r o r1 tr r2 E _ IH]; intros s2 HR Hp.
    - exists [], s2. split; [constructor|]. split; [constructor|done].
    - apply Forall_cons in Hp as [Ho Hp]. pose proof (tw_step o Ho r s2 HR) as H. rewrite E in H.
      destruct (step BE o s2) as [out2 t| |] eqn:E2; try done. destruct H as [Hs HR']. destruct (IH t HR' Hp) as (tr2&t2&H1&H2&H3).
      exists ((o, Some out2) :: tr2), t2. split; [by eapply cs_ret|]. split; [by constructor|done].
    - apply Forall_cons in Hp as [Ho Hp]. pose proof (tw_step o Ho r s2 HR) as H. rewrite E in H.
      destruct (step BE o s2) as [|t|] eqn:E2; try done. destruct (IH t H Hp) as (tr2&t2&H1&H2&H3).
      exists ((o, None) :: tr2), t2. split; [by eapply cs_panic|]. split; [by constructor|done].
  Qed.
  Lemma twin_calls_back s1 s2 tr t2 : R s1 s2 -> calls BE s2 tr t2 -> Forall (fun x => ports U x.1) tr ->
    exists tr1 t1, calls LE s1 tr1 t1 /\ same_trace tr1 tr /\ R t1 t2.
  Proof.
    intros HR Hc. revert s1 HR. induction Hc as [r|r o out r1 tr r2 E _ IH|r o r1 tr r2 E _ IH]; intros s1 HR Hp.
    - exists [], s1. split; [constructor|]. split; [constructor|done].
    - apply Forall_cons in Hp as [Ho Hp]. pose proof (tw_step o Ho s1 r HR) as H. rewrite E in H.
      destruct (step LE o s1) as [out1 t| |] eqn:E1; try done. destruct H as [Hs HR']. destruct (IH t HR' Hp) as (tr1&t1&H1&H2&H3).
      exists ((o, Some out1) :: tr1), t1. split; [by eapply cs_ret|]. split; [by constructor|done].
    - apply Forall_cons in Hp as [Ho Hp]. pose proof (tw_step o Ho s1 r HR) as H. rewrite E in H.
      destruct (step LE o s1) as [|t|] eqn:E1; try done. destruct (IH t H Hp) as (tr1&t1&H1&H2&H3).
      exists ((o, None) :: tr1), t1. split; [by eapply cs_panic|]. split; [by constructor|done].
  Qed.
  (** Both targets, from the empty registry with the same allocator answers. *)
  Theorem endian_run ops O : Forall (ports U) ops ->
    match run LE ops (Reg er_default areg_default (Env [] O)), run BE ops (Reg er_default areg_default (Env [] O)) with
    | Ret out1 r1, Ret out2 r2 => Forall2 same_but_order out1 out2 /\ r_env r1 = r_env r2
    | Panic r1, Panic r2 => r_env r1 = r_env r2
    | UB, UB => True
    | _, _ => False
    end.
  Proof.
    intros Hp. pose proof (tw_run ops Hp _ _ (R_start O)) as H. destruct (run LE _ _), (run BE _ _); try done.
    - destruct H as [H1 H2]. split; [done|]. symmetry. apply H2.
    - symmetry. apply H.
  Qed.
  Theorem endian_calls O tr r : calls LE (Reg er_default areg_default (Env [] O)) tr r -> Forall (fun x => ports U x.1) tr ->
    exists tr2 r2, calls BE (Reg er_default areg_default (Env [] O)) tr2 r2 /\ same_trace tr tr2 /\ r_env r = r_env r2 /\
      forall o, ports U o -> step LE o r = UB <-> step BE o r2 = UB.
  Proof.
    intros H Hp. destruct (twin_calls _ _ _ _ (R_start O) H Hp) as (tr2&r2&H1&H2&H3). exists tr2, r2. split; [done|]. split; [done|].
    split; [symmetry; apply H3|]. intros o Ho. pose proof (tw_step o Ho _ _ H3) as Hs. destruct (step LE o r), (step BE o r2); done.
  Qed.
  Theorem endian_calls_back O tr r : calls BE (Reg er_default areg_default (Env [] O)) tr r -> Forall (fun x => ports U x.1) tr ->
    exists tr1 r1, calls LE (Reg er_default areg_default (Env [] O)) tr1 r1 /\ same_trace tr1 tr /\ r_env r1 = r_env r /\
      forall o, ports U o -> step LE o r1 = UB <-> step BE o r = UB.
  Proof.
    intros H Hp. destruct (twin_calls_back _ _ _ _ (R_start O) H Hp) as (tr2&r2&H1&H2&H3). exists tr2, r2. split; [done|]. split; [done|].
    split; [symmetry; apply H3|]. intros o Ho. pose proof (tw_step o Ho _ _ H3) as Hs. destruct (step LE o r2), (step BE o r); done.
  Qed.
End sim.
