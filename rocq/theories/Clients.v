(** Proofs about arbitrary clients: the entity table only ever takes its own
    steps, and archetypes are only appended. *)
From Verif Require Import RegModel SpecEntity EntityProofs EntityTable DescrProofs MonadProofs AregProofs SpecClient SpecBase.
Local Open Scope nat_scope.

(** ** Archetype operations keep the descriptor *)
Definition akeeps {A} (m : AM A) : Prop := forall s,
  match m s with Ret _ s' | Panic s' => a_desc s'.1 = a_desc s.1 | UB => True end.
Lemma akeeps_bind {A B} (m : AM A) (k : A -> AM B) : akeeps m -> (forall x, akeeps (k x)) -> akeeps (bind m k).
Proof.
  intros Hm Hk s. specialize (Hm s). unfold bind. destruct (m s) as [x s1|s1|]; [|done|done].
  specialize (Hk x s1). destruct (k x s1); congruence.
Qed.
Lemma akeeps_ret {A} (x : A) : akeeps (ret x). Proof. by intros s. Qed.
Lemma akeeps_panic {A} : akeeps (A := A) mpanic. Proof. by intros s. Qed.
Lemma akeeps_ub {A} : akeeps (A := A) mub. Proof. by intros s. Qed.
Lemma akeeps_get : akeeps am_get. Proof. by intros s. Qed.
Lemma akeeps_upd f : (forall a, a_desc (f a) = a_desc a) -> akeeps (am_upd f). Proof. intros H s. apply H. Qed.
Lemma akeeps_env {A} (m : M env A) : akeeps (am_env m). Proof. intros s. unfold am_env. by destruct (m s.2). Qed.
Lemma akeeps_rd {A} (f : arch -> rd A) : akeeps (am_rd f). Proof. intros s. unfold am_rd, lift_rd. by destruct (f s.1). Qed.
Lemma akeeps_lift {A} (x : rd A) : akeeps (lift_rd x). Proof. intros s. unfold lift_rd. by destruct x. Qed.
Lemma akeeps_massert b : akeeps (massert b). Proof. by destruct b. Qed.
Lemma akeeps_mdebug d b : akeeps (mdebug_assert d b). Proof. destruct d; [apply akeeps_massert|apply akeeps_ret]. Qed.
Lemma akeeps_mfor {A} (l : list A) f : (forall x, akeeps (f x)) -> akeeps (mfor l f).
Proof. intros H. induction l as [|x l IH]; cbn [mfor]; [apply akeeps_ret|]. apply akeeps_bind; [apply H|done]. Qed.
Lemma akeeps_write_cell i row v : akeeps (write_cell i row v).
Proof. intros s. unfold write_cell. destruct (_ !! i) as [[b|]|]; [|done..]. by destruct (_ <? _). Qed.
Lemma set_assoc_cell_desc a i x : a_desc (set_assoc_cell a i x) = a_desc a.
Proof. unfold set_assoc_cell. by destruct (a_assoc a). Qed.
Lemma akeeps_write_entity i h : akeeps (write_entity i h).
Proof.
  intros s. unfold write_entity. destruct (entity_cells _); [|done..]. destruct (_ <? _); [|done]. apply set_assoc_cell_desc.
Qed.
Lemma akeeps_swap_assoc i j : akeeps (swap_assoc i j).
Proof.
  intros s. unfold swap_assoc. destruct (entity_cells _); [|done..]. match goal with |- context [?l !! i] => destruct (l !! i), (l !! j) end; try done. cbn.
  by rewrite !set_assoc_cell_desc.
Qed.
Create HintDb akeeps.
#[local] Hint Resolve akeeps_ret akeeps_panic akeeps_ub akeeps_get akeeps_env akeeps_rd akeeps_lift akeeps_massert akeeps_mdebug
  akeeps_write_cell akeeps_write_entity akeeps_swap_assoc : akeeps.
Ltac akeeps :=
  repeat first
    [ solve [eauto with akeeps]
    | apply akeeps_bind; [|intros]
    | apply akeeps_upd; intros; reflexivity
    | apply akeeps_mfor; intros
    | progress cbn beta
    | match goal with |- akeeps (match ?x with _ => _ end) => destruct x end
    | match goal with |- akeeps (if ?x then _ else _) => destruct x end ].
Lemma akeeps_dealloc_columns ds : akeeps (dealloc_columns ds).
Proof. induction ds as [|[i d] ds IH]; cbn [dealloc_columns]; akeeps. Qed.
#[local] Hint Resolve akeeps_dealloc_columns : akeeps.
Lemma akeeps_dealloc : akeeps a_dealloc. Proof. unfold a_dealloc. akeeps. Qed.
#[local] Hint Resolve akeeps_dealloc : akeeps.
Lemma akeeps_realloc_column o n x : akeeps (realloc_column o n x). Proof. unfold realloc_column. akeeps. Qed.
#[local] Hint Resolve akeeps_realloc_column : akeeps.
Lemma akeeps_resize z : akeeps (resize_capacity z). Proof. unfold resize_capacity. akeeps. Qed.
#[local] Hint Resolve akeeps_resize : akeeps.
Lemma akeeps_resize_if : akeeps resize_if_necessary. Proof. unfold resize_if_necessary. akeeps. Qed.
#[local] Hint Resolve akeeps_resize_if : akeeps.
Lemma akeeps_copy_in vals row x : akeeps (copy_in vals row x). Proof. unfold copy_in. akeeps. Qed.
#[local] Hint Resolve akeeps_copy_in : akeeps.
Lemma akeeps_write_all c G row h vs : akeeps (write_entity_unchecked c G row h vs). Proof. unfold write_entity_unchecked. akeeps. Qed.
#[local] Hint Resolve akeeps_write_all : akeeps.
Lemma akeeps_push c G h vs : akeeps (push_entity_unchecked c G h vs). Proof. unfold push_entity_unchecked. akeeps. Qed.
Lemma akeeps_push_uninit : akeeps push_uninitialized_entity. Proof. unfold push_uninitialized_entity. akeeps. Qed.
Lemma akeeps_decrement c : akeeps (decrement_len_unchecked c). Proof. unfold decrement_len_unchecked. akeeps. Qed.
Lemma akeeps_write_single C row v : akeeps (write_single_component_unchecked C row v). Proof. unfold write_single_component_unchecked. akeeps. Qed.
Lemma akeeps_swap_cells i j x : akeeps (swap_cells i j x). Proof. unfold swap_cells. akeeps. Qed.
#[local] Hint Resolve akeeps_push akeeps_push_uninit akeeps_decrement akeeps_write_single akeeps_swap_cells : akeeps.
Lemma akeeps_swap i j : akeeps (swap_entities i j). Proof. unfold swap_entities. akeeps. Qed.
Lemma akeeps_drop_cell C i row : akeeps (drop_cell C i row). Proof. unfold drop_cell. akeeps. Qed.
#[local] Hint Resolve akeeps_swap akeeps_drop_cell : akeeps.
Lemma akeeps_run_drop d i s n : akeeps (run_drop_handler d i s n). Proof. unfold run_drop_handler. akeeps. Qed.
#[local] Hint Resolve akeeps_run_drop : akeeps.
Lemma akeeps_drop_entity row : akeeps (drop_entity row). Proof. unfold drop_entity. akeeps. Qed.
#[local] Hint Resolve akeeps_drop_entity : akeeps.
Lemma akeeps_swap_drop c row : akeeps (swap_drop_unchecked c row). Proof. unfold swap_drop_unchecked. akeeps. Qed.
Lemma akeeps_swap_to_last c row : akeeps (swap_to_last_unchecked c row). Proof. unfold swap_to_last_unchecked. akeeps. Qed.
Lemma akeeps_swap_remove c G row : akeeps (swap_remove_unchecked c G row). Proof. unfold swap_remove_unchecked. akeeps. Qed.
Lemma akeeps_copy_common a i j : akeeps (copy_common_components a i j). Proof. unfold copy_common_components. akeeps. Qed.
#[local] Hint Resolve akeeps_swap_drop akeeps_swap_to_last akeeps_swap_remove akeeps_copy_common : akeeps.

(** ** Registry operations *)
(** Run [find_or_create_archetype] to its three cases. *)
Lemma find_or_create_existing d s k : areg_inv (r_ar s) -> regular d -> ad_is_valid d = true -> is_arch (r_ar s) k d ->
  find_or_create_archetype d s = Ret (Some k) s.
Proof.
  intros Hinv Hr Hv Hk. unfold find_or_create_archetype, MAX_COMPONENTS_PER_ENTITY. rewrite Hv.
  specialize (Hr Hv). rewrite (proj2 (Nat.ltb_ge _ _)) by lia. cbn [orb negb].
  rewrite (proj2 (Nat.eqb_neq _ _)) by lia.
  unfold bind at 1, rm_get at 1, get_st at 1.
  destruct (areg_search _ d Hinv Hr) as (level&Hlv&Hs&H). rewrite Hlv.
  destruct (binary_search _ _) as [f|ins] eqn:Eb; [|by destruct (H k)].
  destruct H as (key&->&Hkey). rewrite (proj2 (Nat.ltb_lt _ _)) by (by eapply is_arch_lt). unfold ret.
  by rewrite (is_arch_unique _ _ _ _ Hinv Hkey Hk).
Qed.
Lemma find_or_create_full d s : areg_inv (r_ar s) -> regular d -> (forall k, ~ is_arch (r_ar s) k d) ->
  (65534 <= N.of_nat (length (ar_archs (r_ar s))))%N -> find_or_create_archetype d s = Ret None s.
Proof.
  intros Hinv Hr Hn Hfull. unfold find_or_create_archetype, MAX_COMPONENTS_PER_ENTITY.
  destruct (ad_is_valid d) eqn:Hv; [|by rewrite orb_true_r].
  specialize (Hr Hv). rewrite (proj2 (Nat.ltb_ge _ _)) by lia. cbn [orb negb].
  rewrite (proj2 (Nat.eqb_neq _ _)) by lia.
  unfold bind at 1, rm_get at 1, get_st at 1.
  destruct (areg_search _ d Hinv Hr) as (level&Hlv&Hs&H). rewrite Hlv.
  destruct (binary_search _ _) as [f|ins] eqn:Eb; [destruct H as (key&_&Hkey); by destruct (Hn (k_idx key))|].
  unfold MAX_ARCHETYPE_COUNT. rewrite (proj2 (N.leb_le _ _)) by lia. done.
Qed.
Lemma find_or_create_invalid d s : ad_is_valid d = false -> find_or_create_archetype d s = Ret None s.
Proof. intros Hv. unfold find_or_create_archetype. rewrite Hv, orb_true_r. done. Qed.

(** Every archetype has a well-formed descriptor, and no component of size 0:
    its columns were allocated. *)
Definition built (d : adesc) : Prop := ad_wf d /\ Forall (fun x => cd_size x <> 0%N) (ad_components d).
Lemma alloc_columns_sized ds cap e ps e' : alloc_columns ds cap e = Ret ps e' -> Forall (fun x => cd_size x <> 0%N) ds.
Proof.
  revert e ps e'. induction ds as [|d ds IH]; intros e ps e' E; [constructor|]. cbn [alloc_columns] in E.
  unfold bind at 1 in E. unfold mem_alloc in E. destruct (N.eqb_spec (cd_size d * N.of_nat cap) 0); [done|]. cbn [orb] in E. destruct (is_pow2 (cd_align d)); cbn [negb] in E; [|done].
  constructor; [lia|]. destruct ((let! ok := ask_allocator in _) e) as [[b|] e1| |]; try done.
  unfold bind at 1 in E. destruct (alloc_columns ds cap e1) as [ps' e2| |] eqn:E2; [|done..]. by eapply IH.
Qed.
Lemma with_capacity_sized d cap e a e' : 0 < cap -> (N.of_nat cap <= MAX_ENTITIES_PER_ARCHETYPE)%N -> a_with_capacity d cap e = Ret a e' ->
  Forall (fun x => cd_size x <> 0%N) (ad_components d).
Proof.
  intros H1 H2 E. unfold a_with_capacity in E. unfold bind at 1 in E. destruct (massert _ _) as [[] e0| |]; [|done..].
  rewrite (proj2 (Nat.ltb_lt _ _) H1), (proj2 (N.leb_le _ _) H2) in E. cbn [andb] in E.
  unfold bind at 1 in E. destruct (mem_alloc _ _ _ e0) as [[b|] e1| |]; try done.
  unfold bind at 1 in E. destruct (alloc_columns (ad_components d) cap e1) as [ps e2| |] eqn:E2; [|done..]. by eapply alloc_columns_sized.
Qed.

Section clients.
  Context (c : cfg).
  Definition inv (s : reg) : Prop :=
    er_reach (big c) (r_er s) /\ areg_inv (r_ar s) /\ Forall (fun a => built (a_desc a)) (ar_archs (r_ar s)).
  Definition ext (s s' : reg) : Prop := map a_desc (ar_archs (r_ar s)) `prefix_of` map a_desc (ar_archs (r_ar s')).
  Definition moves (ls : list label) : Prop := Forall (fun l => exists h, l = LMove h) ls.
  Definition evolves (s : reg) (ls : list label) (s' : reg) : Prop :=
    er_path (big c) (r_er s) ls (r_er s') /\ inv s' /\ ext s s'.
  (** From [s], [m] only moves entities and appends archetypes, whatever its
      outcome; [Q] holds of what it returns. *)
  Definition qt {A} (s : reg) (m : RM A) (Q : A -> reg -> Prop) : Prop :=
    match m s with
    | Ret x s' => exists ls, evolves s ls s' /\ moves ls /\ Q x s'
    | Panic s' => exists ls, evolves s ls s' /\ moves ls
    | UB => True
    end.
  Lemma evolves_refl s : inv s -> evolves s [] s.
  Proof. intros H. split; [constructor|]. split; [done|]. unfold ext. done. Qed.
  Lemma evolves_trans s ls s1 ls1 s2 : evolves s ls s1 -> evolves s1 ls1 s2 -> evolves s (ls ++ ls1) s2.
  Proof. intros (H1&_&H2) (H3&H4&H5). split; [by eapply er_path_app|]. split; [done|]. unfold ext in *. by etrans. Qed.
  Lemma moves_app l1 l2 : moves l1 -> moves l2 -> moves (l1 ++ l2).
  Proof. apply Forall_app_2. Qed.
  Lemma qt_bind {A B} s (m : RM A) (k : A -> RM B) Q R :
    qt s m Q -> (forall x s', inv s' -> ext s s' -> Q x s' -> qt s' (k x) R) -> qt s (bind m k) R.
  Proof.
    unfold qt, bind. intros Hm Hk. destruct (m s) as [x s1|s1|]; [|done|done].
    destruct Hm as (ls&He&Hmv&HQ). specialize (Hk x s1 ltac:(apply He) ltac:(apply He) HQ).
    destruct (k x s1) as [y s2|s2|]; [|..|done].
    - destruct Hk as (ls2&He2&Hmv2&HR). exists (ls ++ ls2). split; [by eapply evolves_trans|]. split; [by apply moves_app|done].
    - destruct Hk as (ls2&He2&Hmv2). exists (ls ++ ls2). split; [by eapply evolves_trans|by apply moves_app].
  Qed.
  Lemma qt_weaken {A} s (m : RM A) (Q R : A -> reg -> Prop) : qt s m Q -> (forall x s', Q x s' -> R x s') -> qt s m R.
  Proof. unfold qt. destruct (m s); [|done|done]. intros (ls&?&?&?) HR. exists ls. auto. Qed.
  Lemma qt_ret {A} s (x : A) (Q : A -> reg -> Prop) : inv s -> Q x s -> qt s (ret x) Q.
  Proof. intros. exists []. split; [by apply evolves_refl|]. split; [constructor|done]. Qed.
  Lemma qt_get s (Q : reg -> reg -> Prop) : inv s -> Q s s -> qt s rm_get Q.
  Proof. intros. exists []. split; [by apply evolves_refl|]. split; [constructor|done]. Qed.
  Lemma qt_panic {A} s (Q : A -> reg -> Prop) : inv s -> qt s mpanic Q.
  Proof. intros. exists []. split; [by apply evolves_refl|constructor]. Qed.
  Lemma qt_ub {A} s (Q : A -> reg -> Prop) : qt s mub Q.
  Proof. done. Qed.
  Lemma qt_lift {A} s (x : rd A) (Q : A -> reg -> Prop) : inv s -> (forall y, x = Rd y -> Q y s) -> qt s (lift_rd x) Q.
  Proof. intros Hi HQ. destruct x as [y| |]; [apply (qt_ret s y); auto|by apply qt_panic|done]. Qed.
  Lemma qt_rd {A} s (f : reg -> rd A) (Q : A -> reg -> Prop) : inv s -> (forall y, f s = Rd y -> Q y s) -> qt s (rm_rd f) Q.
  Proof. intros Hi HQ. exact (qt_lift s (f s) Q Hi HQ). Qed.
  Lemma qt_unwrap {A} s (o : option A) (Q : A -> reg -> Prop) : inv s -> (forall x, o = Some x -> Q x s) -> qt s (unwrap o) Q.
  Proof. intros Hi HQ. destruct o; [apply qt_ret; auto|by apply qt_panic]. Qed.
  Lemma qt_dop {A} s vs (m : RM A) Q : qt s m Q -> qt s (dropping_on_panic vs m) Q.
  Proof. unfold qt, dropping_on_panic. by destruct (m s). Qed.
  Lemma qt_mdebug s d b (Q : unit -> reg -> Prop) : inv s -> Q tt s -> qt s (mdebug_assert d b) Q.
  Proof. intros. destruct d; [destruct b|]; [by apply qt_ret|by apply qt_panic|by apply qt_ret]. Qed.
  Lemma map_desc_insert l i (a a' : arch) : l !! i = Some a -> a_desc a' = a_desc a -> map a_desc (<[i := a']> l) = map a_desc l.
  Proof.
    intros Hi E. change (map a_desc) with (fmap a_desc : list arch -> list adesc). rewrite list_fmap_insert, E.
    apply list_insert_id. by rewrite list_lookup_fmap, Hi.
  Qed.
  Lemma wf_by_desc l l' : map a_desc l' = map a_desc l -> Forall (fun a => built (a_desc a)) l -> Forall (fun a => built (a_desc a)) l'.
  Proof. intros E H. apply (Forall_map a_desc built). rewrite E. by apply (Forall_map a_desc built). Qed.
  Lemma evolves_archs s l e : inv s -> map a_desc l = map a_desc (ar_archs (r_ar s)) -> evolves s [] (Reg (r_er s) (set_archs (r_ar s) l) e).
  Proof.
    intros (H1&H2&H3) E. split; [constructor|]. split.
    - split; [done|]. split; [by apply (areg_inv_same (r_ar s))|by apply (wf_by_desc (ar_archs (r_ar s)))].
    - unfold ext. cbn. by rewrite E.
  Qed.
  Lemma qt_with_arch {A} s i (m : AM A) (Q : A -> reg -> Prop) : inv s -> akeeps m -> (forall x s', Q x s') -> qt s (with_arch i m) Q.
  Proof.
    intros Hi Hm HQ. unfold qt, with_arch. destruct (ar_archs (r_ar s) !! i) as [a|] eqn:Ea; [|done].
    specialize (Hm (a, r_env s)). destruct (m (a, r_env s)) as [x st|st|]; [|..|done]; cbn [fst] in Hm.
    - exists []. split; [|split; [constructor|done]]. apply evolves_archs; [done|by apply (map_desc_insert _ _ a)].
    - exists []. split; [|constructor]. apply evolves_archs; [done|by apply (map_desc_insert _ _ a)].
  Qed.
  Lemma qt_update s h f (Q : unit -> reg -> Prop) :
    inv s -> (forall r', er_update_entry (big c) (r_er s) h f = Some r' -> er_step (big c) (r_er s) (LMove h) r') -> (forall s', Q tt s') ->
    qt s (update_entry c h f) Q.
  Proof.
    intros Hi Hs HQ. unfold qt, update_entry. destruct (er_update_entry (big c) (r_er s) h f) as [r'|] eqn:E.
    - specialize (Hs r' eq_refl). exists [LMove h]. split; [|split; [|done]].
      + split; [eapply ep_cons; [exact Hs|apply ep_nil]|]. destruct Hi as ([ls Hp]&?&?). split; [|by unfold ext].
        split; [|done]. exists (ls ++ [LMove h]). by eapply er_path_snoc.
      + constructor; [|constructor]. by eexists.
    - exists []. split; [by apply evolves_refl|constructor].
  Qed.
  Lemma qt_set_row s h row (Q : unit -> reg -> Prop) :
    inv s -> (row < 16777216)%N -> (forall s', Q tt s') -> qt s (update_entry c h (fun e => entry_set_index_in_archetype e row)) Q.
  Proof. intros. apply qt_update; [done| |done]. intros r' E. by apply (es_row _ _ _ row). Qed.
  Lemma qt_set_arch s h ai (Q : unit -> reg -> Prop) :
    inv s -> (ai < 65535)%N -> (forall s', Q tt s') -> qt s (update_entry c h (fun e => entry_set_archetype_index (big c) e ai)) Q.
  Proof. intros. apply qt_update; [done| |done]. intros r' E. by apply (es_arch _ _ _ ai). Qed.
  Lemma entry_row_lt s h e : inv s -> entry_of c s h = Some e -> (entry_index_in_archetype e < 16777216)%N.
  Proof.
    intros ([F HF]%er_reach_inv&_) E. apply entity_entry_spec in E as (E&_); [|apply HF].
    pose proof (Forall_lookup_1 _ _ _ _ (ei_bytes _ _ _ HF) E) as Hb. by apply EntityProofs.entry_row_lt.
  Qed.
  Lemma ext_length s s' : ext s s' -> length (ar_archs (r_ar s)) <= length (ar_archs (r_ar s')).
  Proof. intros H%prefix_length. by rewrite !map_length in H. Qed.

  (** *** The archetype table *)
  Lemma qt_find_or_create s d : inv s -> regular d -> ad_wf d ->
    qt s (find_or_create_archetype d) (fun o s' => forall i, o = Some i -> i < length (ar_archs (r_ar s'))).
  Proof.
    intros Hi Hr Hw. pose proof Hi as (H1&H2&H3). pose proof (find_or_create_spec d s H2 Hr) as H. unfold qt.
    destruct (find_or_create_archetype d s) as [[i|] s'|s'|].
    - destruct H as (_&Hinv&Hia&He&[->|(_&_&_&a&Ea&Ed&Enew)]).
      + exists []. split; [by apply evolves_refl|]. split; [constructor|]. intros j [= <-]. by eapply is_arch_lt.
      + exists []. split; [|split; [constructor|]].
        * split; [rewrite He; constructor|]. split.
          -- split; [by rewrite He|]. split; [done|]. rewrite Ea. apply Forall_app. split; [done|]. constructor; [|constructor]. rewrite Ed. split; [done|].
             eapply with_capacity_sized; [| |exact Enew]; unfold DEFAULT_ARCHETYPE_ALLOCATION_SIZE, MAX_ENTITIES_PER_ARCHETYPE; vm_compute; first [lia|discriminate].
          -- unfold ext. rewrite Ea, map_app. by apply prefix_app_r.
        * intros j [= <-]. by eapply is_arch_lt.
    - destruct H as [-> _]. exists []. split; [by apply evolves_refl|]. split; [constructor|done].
    - destruct H as (He&Ha&_). exists []. split; [|constructor]. split; [rewrite He; constructor|]. split; [|unfold ext; by rewrite Ha].
      unfold inv. by rewrite He, Ha.
    - done.
  Qed.
  Lemma group_regular G : regular (gd_arch (group_desc (big c) G)).
  Proof.
    intros Hv. destruct (group_desc_spec (big c) G Hv) as (l&_&_&E&_). rewrite E. cbn [ad_len].
    apply group_desc_valid in Hv as (Hl&_). lia.
  Qed.
  Lemma qt_adding s src d : inv s ->
    qt s (find_or_create_archetype_adding_component c src d)
      (fun o s' => forall i j, o = Some (i, j) -> i < length (ar_archs (r_ar s')) /\ j < length (ar_archs (r_ar s'))).
  Proof.
    intros Hi. unfold find_or_create_archetype_adding_component.
    apply (qt_bind _ _ _ (fun x s' => x = s' /\ s' = s)); [by apply qt_get|]. intros x s1 Hi1 _ [-> ->].
    destruct (_ <? src); [by apply qt_ret|]. destruct (ar_archs (r_ar s) !! src) as [a|] eqn:Ea; [|by apply qt_panic].
    pose proof Hi as (_&H2&H3). pose proof (proj1 (Forall_lookup_1 _ _ _ _ H3 Ea)) as Hw. cbn beta in Hw.
    apply (qt_bind _ _ _ (fun od s' => ad_add_component (big c) (a_desc a) d = Rd od)); [by apply qt_lift|]. intros od s1 Hi2 _ Eod.
    destruct od as [nd|]; [|by apply qt_ret]. destruct (wf_add _ _ _ _ Hw Eod) as (Hwn&_&Hln&Hle&_).
    eapply qt_bind; [apply qt_find_or_create; [done|intros _; lia|done]|]. cbn beta. intros oi s2 Hi3 _ Hoi.
    destruct oi as [dst|]; [|by apply qt_ret].
    apply (qt_bind _ _ _ (fun x s' => x = s')); [by apply qt_get|]. intros x s3 Hi4 _ ->.
    apply qt_lift; [done|]. intros y E i j ->. rewrite disjoint_mut_spec in E. injection E as E. case_decide; naive_solver lia.
  Qed.
  Lemma qt_removing s src d : inv s ->
    qt s (find_or_create_archetype_removing_component c src d)
      (fun o s' => forall i j, o = Some (i, j) -> i < length (ar_archs (r_ar s')) /\ j < length (ar_archs (r_ar s'))).
  Proof.
    intros Hi. unfold find_or_create_archetype_removing_component.
    apply (qt_bind _ _ _ (fun x s' => x = s' /\ s' = s)); [by apply qt_get|]. intros x s1 Hi1 _ [-> ->].
    destruct (_ <? src); [by apply qt_ret|]. destruct (ar_archs (r_ar s) !! src) as [a|] eqn:Ea; [|by apply qt_panic].
    pose proof Hi as (_&H2&H3). pose proof (proj1 (Forall_lookup_1 _ _ _ _ H3 Ea)) as Hw. cbn beta in Hw.
    destruct (ai_arch _ H2 _ _ Ea) as (Hla&_).
    apply (qt_bind _ _ _ (fun od s' => ad_remove_component (big c) (a_desc a) (cd_id d) = Rd od)); [by apply qt_lift|]. intros od s1 Hi2 _ Eod.
    destruct od as [nd|]; [|by apply qt_ret]. destruct (wf_remove _ _ _ _ Hw ltac:(lia) Eod) as (Hwn&_&Hln&Hle&_).
    eapply qt_bind; [apply qt_find_or_create; [done|intros _; lia|done]|]. cbn beta. intros oi s2 Hi3 _ Hoi.
    destruct oi as [dst|]; [|by apply qt_ret].
    apply (qt_bind _ _ _ (fun x s' => x = s')); [by apply qt_get|]. intros x s3 Hi4 _ ->.
    apply qt_lift; [done|]. intros y E i j ->. rewrite disjoint_mut_spec in E. injection E as E. case_decide; naive_solver lia.
  Qed.

  (** *** Steps that only move entities *)
  Definition any {A} (x : A) (s : reg) : Prop := True.
  Lemma qt_any {A} s (m : RM A) Q : qt s m Q -> qt s m any.
  Proof. intros H. by eapply qt_weaken. Qed.
  Lemma qt_seq {A B} s (m : RM A) (k : A -> RM B) R :
    qt s m any -> (forall x s', inv s' -> ext s s' -> qt s' (k x) R) -> qt s (bind m k) R.
  Proof. intros H1 H2. eapply qt_bind; [exact H1|]. intros; by apply H2. Qed.
  Lemma qt_fix_swapped s (swapped : bool) i e row (ea : arch -> nat -> rd N) :
    inv s -> (entry_index_in_archetype e < 16777216)%N ->
    qt s (if swapped then
            let! a := rm_rd (arch_at i) in
            let! h' := lift_rd (ea a row) in
            update_entry c h' (fun e' => entry_set_index_in_archetype e' (entry_index_in_archetype e))
          else ret tt) any.
  Proof.
    intros Hi He. destruct swapped; [|by apply qt_ret].
    apply qt_seq; [by apply qt_rd|]. intros a s1 Hi1 _. apply qt_seq; [by apply qt_lift|]. intros h' s2 Hi2 _. by apply qt_set_row.
  Qed.
  Lemma iia_lt n x : iia_new n = Some x -> (x < 16777215)%N.
  Proof. unfold iia_new, iia_INVALID_VALUE. destruct (N.leb_spec 16777215 n); [done|]. by intros [= <-]. Qed.
  Ltac qstep := apply qt_seq; [first [by apply qt_rd|by apply qt_lift|apply qt_with_arch; [done|eauto with akeeps|done]|by apply qt_fix_swapped]|intros ? ? ? ?].
  Lemma ai_bound s dst : inv s -> dst < length (ar_archs (r_ar s)) -> (N.of_nat dst < 65535)%N.
  Proof. intros (_&H&_) Hd. pose proof (ai_count _ H). lia. Qed.
  Lemma ext_lt s s' n : n < length (ar_archs (r_ar s)) -> ext s s' -> n < length (ar_archs (r_ar s')).
  Proof. intros H He. pose proof (ext_length _ _ He). lia. Qed.
  Lemma qt_add C h v s : inv s -> qt s (add_component c C h v) any.
  Proof.
    intros Hi. unfold add_component. apply (qt_bind _ _ _ (fun x s' => x = s')); [by apply qt_get|]. intros x s0 Hi0 _ ->.
    destruct (entry_of c s0 h) as [e|] eqn:Ee; [|by apply qt_ret]. pose proof (entry_row_lt _ _ _ Hi0 Ee) as Hrow.
    eapply qt_bind; [apply qt_dop, qt_adding; done|]. cbn beta. intros o s1 Hi1 _ Ho.
    destruct o as [[src dst]|]; [|by apply qt_ret]. destruct (Ho _ _ eq_refl) as [Hsrc Hdst]. clear Ho.
    apply qt_seq.
    - apply qt_dop. do 9 qstep. by apply qt_ret.
    - intros [srow drow] s2 Hi2 He2. apply (fun H => ext_lt _ _ _ H He2) in Hdst. clear s1 Hi1 He2 Hsrc.
      apply qt_seq; [by apply qt_rd|]. intros sa s3 Hi3 He3. apply (fun H => ext_lt _ _ _ H He3) in Hdst.
      apply qt_seq; [by apply qt_lift|]. intros hs s4 Hi4 He4. apply (fun H => ext_lt _ _ _ H He4) in Hdst.
      apply qt_seq; [apply qt_with_arch; [done|eauto with akeeps|done]|]. intros [] s5 Hi5 He5. apply (fun H => ext_lt _ _ _ H He5) in Hdst.
      apply qt_seq; [apply qt_with_arch; [done|eauto with akeeps|done]|]. intros [] s6 Hi6 He6. apply (fun H => ext_lt _ _ _ H He6) in Hdst.
      apply qt_seq; [apply qt_set_arch; [done|by eapply ai_bound|done]|]. intros [] s7 Hi7 _.
      apply (qt_bind _ _ _ (fun x s' => (x < 16777215)%N)); [apply qt_unwrap; [done|apply iia_lt]|]. intros idx s8 Hi8 _ Hidx.
      apply qt_seq; [apply qt_set_row; [done|lia|done]|]. intros [] s9 Hi9 _. by apply qt_ret.
  Qed.
  Lemma qt_remove C h s : inv s -> qt s (remove_component c C h) any.
  Proof.
    intros Hi. unfold remove_component. apply (qt_bind _ _ _ (fun x s' => x = s')); [by apply qt_get|]. intros x s0 Hi0 _ ->.
    destruct (entry_of c s0 h) as [e|] eqn:Ee; [|by apply qt_ret]. pose proof (entry_row_lt _ _ _ Hi0 Ee) as Hrow.
    eapply qt_bind; [apply qt_removing; done|]. cbn beta. intros o s1 Hi1 _ Ho.
    destruct o as [[src dst]|]; [|by apply qt_ret]. destruct (Ho _ _ eq_refl) as [Hsrc Hdst]. clear Ho.
    Local Ltac kstep H := apply qt_seq; [first [by apply qt_rd|by apply qt_lift|apply qt_with_arch; [done|eauto with akeeps|done]|by apply qt_fix_swapped]|];
      let x := fresh "x" in let s := fresh "s" in let Hi := fresh "Hi" in let He := fresh "He" in
      intros x s Hi He; apply (fun HH => ext_lt _ _ _ HH He) in H.
    do 9 kstep Hdst. apply qt_dop. do 3 kstep Hdst.
    apply qt_seq; [apply qt_set_arch; [done|by eapply ai_bound|done]|]. intros [] s17 Hi17 _.
    apply (qt_bind _ _ _ (fun x s' => (x < 16777215)%N)); [apply qt_unwrap; [done|apply iia_lt]|]. intros idx s18 Hi18 _ Hidx.
    apply qt_seq; [apply qt_set_row; [done|lia|done]|]. intros [] s19 Hi19 _. by apply qt_ret.
  Qed.
  Lemma qt_replace l v s : inv s -> qt s (replace_loc l v) any.
  Proof. intros Hi. unfold replace_loc. do 2 qstep. destruct (_ : option value); [|done]. qstep. by apply qt_ret. Qed.
  Lemma qt_replace_locs ls vs s : inv s -> qt s (replace_locs ls vs) any.
  Proof.
    revert vs s. induction ls as [|l ls IH]; intros [|v vs] s Hi; cbn [replace_locs]; try by apply qt_ret.
    apply qt_seq; [by apply qt_replace|]. intros ov s1 Hi1 _. apply qt_seq; [by apply IH|]. intros ovs s2 Hi2 _. by apply qt_ret.
  Qed.
  Lemma qt_modify f l s : inv s -> qt s (modify_loc f l) any.
  Proof. intros Hi. unfold modify_loc. do 2 qstep. destruct (_ : option value); [|done]. by apply qt_replace. Qed.
  Lemma qt_mmap {A B} (f : A -> RM B) l s : (forall x s, inv s -> qt s (f x) any) -> inv s -> qt s (mmap f l) any.
  Proof.
    intros Hf. revert s. induction l as [|x l IH]; intros s Hi; cbn [mmap]; [by apply qt_ret|].
    apply qt_seq; [by apply Hf|]. intros y s1 Hi1 _. apply qt_seq; [by apply IH|]. intros ys s2 Hi2 _. by apply qt_ret.
  Qed.
  Lemma qt_item upd cols s : inv s -> qt s (modify_item upd cols) any.
  Proof. intros Hi. apply qt_mmap; [|done]. intros [i col] s1 Hi1. apply qt_mmap; [|done]. intros; by apply qt_modify. Qed.
  Lemma qt_items upd items s : inv s -> qt s (modify_items upd items) any.
  Proof. intros Hi. apply qt_mmap; [|done]. intros; by apply qt_item. Qed.
  Lemma qt_eitems upd items s : inv s -> qt s (modify_eitems upd items) any.
  Proof.
    intros Hi. apply qt_mmap; [|done]. intros [es cols] s1 Hi1. apply qt_seq; [by apply qt_item|]. intros; by apply qt_ret.
  Qed.

  (** *** Creating and destroying *)
  Lemma move_live r h l r' F : er_inv (big c) r F -> er_step (big c) r (LMove h) r' -> live (big c) r l -> live (big c) r' l.
  Proof.
    intros Hinv Hs. inversion Hs as [| |r0 h0 row r0' Hrow E|r0 h0 ai r0' Hai E]; subst.
    - pose proof (er_update_spec _ r F h _ Hinv (er_row_ok (big c) row Hrow)) as H. rewrite E in H. destruct H as (e&Ee&Hinv'&Ee'&->).
      intros (e2&He2&Hve&Hva)%live_spec; [|apply Hinv]. apply live_spec; [apply Hinv'|]. cbn [er_ents].
      rewrite ent_index_val. destruct (decide (N.to_nat (l / 256) = N.to_nat (h / 256))) as [Eq|Hneq].
      + rewrite Eq in *. apply entity_entry_spec in Ee as (He&Hv0&Hva0); [|apply Hinv]. rewrite He in He2. injection He2 as <-.
        exists (entry_set_index_in_archetype e row). rewrite list_lookup_insert by (by eapply lookup_lt_Some). done.
      + exists e2. by rewrite list_lookup_insert_ne by done.
    - pose proof (er_update_spec _ r F h _ Hinv (er_arch_ok (big c) ai Hai)) as H. rewrite E in H. destruct H as (e&Ee&Hinv'&Ee'&->).
      intros (e2&He2&Hve&Hva)%live_spec; [|apply Hinv]. apply live_spec; [apply Hinv'|]. cbn [er_ents].
      rewrite ent_index_val. destruct (decide (N.to_nat (l / 256) = N.to_nat (h / 256))) as [Eq|Hneq].
      + rewrite Eq in *. apply entity_entry_spec in Ee as (He&Hv0&Hva0); [|apply Hinv]. rewrite He in He2. injection He2 as <-.
        apply entity_entry_spec in Ee' as (He'&Hv'&Hva'); [|apply Hinv']. cbn [er_ents] in He'. rewrite ent_index_val in He'.
        exists (entry_set_archetype_index (big c) e ai). done.
      + exists e2. by rewrite list_lookup_insert_ne by done.
  Qed.
  Lemma moves_live r ls r' h : er_reach (big c) r -> er_path (big c) r ls r' -> moves ls -> live (big c) r' h <-> live (big c) r h.
  Proof.
    intros [F HF]%er_reach_inv Hp Hm. revert F HF. induction Hp as [|r l r1 ls r2 Hs Hp IH]; intros F HF; [done|].
    apply Forall_cons in Hm as [[h0 ->] Hm]. destruct (er_step_inv _ _ _ _ _ HF Hs) as [F' HF']. rewrite (IH Hm F' HF'). split.
    - intros Hl. destruct (decide (is_Some (er_entity_entry (big c) r h))) as [[e He]|Hn]; [by exists e|]. exfalso.
      apply (er_step_keeps_dead _ _ _ _ _ h HF Hs); [|done|done]. intros [e He]. apply Hn. by exists e.
    - by apply (move_live _ h0 h _ F).
  Qed.
  (** Run the moving part first, then destroy. *)
  Definition destroyed_by (h : N) (ls : list label) : Prop := exists m, moves m /\ ls = m ++ [LDestroy h true].
  Lemma destroy_tail {A} s s1 h ls (x : A) : inv s -> evolves s ls s1 -> moves ls -> live (big c) (r_er s) h ->
    exists s2, (let! v := rm_er (er_destroy_entity (big c) h) in mdebug_assert (dbg c) v ;;! ret x) s1 = Ret x s2 /\
      evolves s (ls ++ [LDestroy h true]) s2.
  Proof.
    intros Hi He Hm Hl. pose proof He as (Hp&(Hr&Ha&Hw)&Hx). pose proof Hr as [F HF]%er_reach_inv.
    assert (Hl1 : live (big c) (r_er s1) h) by (apply (moves_live _ _ _ h ltac:(apply Hi) Hp Hm); done).
    destruct (er_destroy_spec (big c) (r_er s1) F h HF) as [[Hd _]|(e&e'&r2&_&E&HF'&_)]; [done|].
    exists (Reg r2 (r_ar s1) (r_env s1)). split.
    - unfold bind at 1, rm_er. rewrite E. by rewrite (bind_Ret _ _ _ _ _ (mdebug_true _ _ _ eq_refl)).
    - assert (Hs : er_step (big c) (r_er s1) (LDestroy h true) r2) by (by constructor).
      split; [by eapply er_path_snoc|]. split; [|done]. split; [|done]. destruct Hr as [l0 Hp0]. exists (l0 ++ [LDestroy h true]). by eapply er_path_snoc.
  Qed.
  Lemma destroy_labels h s : inv s ->
    match destroy_entity c h s with
    | Ret b s' => exists ls, evolves s ls s' /\ if b then destroyed_by h ls else moves ls
    | Panic s' => exists ls, evolves s ls s' /\ moves ls
    | UB => True
    end.
  Proof.
    intros Hi. unfold destroy_entity. unfold bind at 1, rm_get, get_st. destruct (entry_of c s h) as [e|] eqn:Ee.
    2: { cbn. exists []. split; [by apply evolves_refl|constructor]. }
    pose proof (entry_row_lt _ _ _ Hi Ee) as Hrow.
    assert (Hq : qt s (let! swapped := with_arch (e_arch c e) (swap_drop_unchecked c (e_row e)) in
                 if swapped then let! a := rm_rd (arch_at (e_arch c e)) in let! h' := lift_rd (entity_at_unchecked a (e_row e)) in
                   update_entry c h' (fun e' => entry_set_index_in_archetype e' (entry_index_in_archetype e)) else ret tt) any) by (do 1 qstep; by apply qt_fix_swapped).
    rewrite <- bind_bind. unfold qt in Hq. unfold bind at 1. destruct (bind _ _ s) as [x s1|s1|]; [|done|done].
    destruct Hq as (ls&He&Hm&_). destruct (destroy_tail s s1 h ls true Hi He Hm) as (s2&->&He2); [by exists e|].
    exists (ls ++ [LDestroy h true]). split; [done|]. by exists ls.
  Qed.
  Lemma remove_labels G h s : inv s ->
    match remove_entity c G h s with
    | Ret (Some _) s' => exists ls, evolves s ls s' /\ destroyed_by h ls
    | Ret None s' => exists ls, evolves s ls s' /\ moves ls
    | Panic s' => exists ls, evolves s ls s' /\ moves ls
    | UB => True
    end.
  Proof.
    intros Hi. unfold remove_entity. unfold bind at 1, rm_get, get_st. destruct (entry_of c s h) as [e|] eqn:Ee.
    2: { cbn. exists []. split; [by apply evolves_refl|constructor]. }
    pose proof (entry_row_lt _ _ _ Hi Ee) as Hrow.
    assert (Hq : qt s (with_arch (e_arch c e) (swap_remove_unchecked c G (e_row e))) any) by (apply qt_with_arch; [done|eauto with akeeps|done]).
    unfold qt in Hq. unfold bind at 1. destruct (with_arch _ _ s) as [[data swapped] s1|s1|]; [|done|done].
    destruct Hq as (ls&He&Hm&_).
    assert (Hq : qt s1 (if (swapped : bool) then let! a := rm_rd (arch_at (e_arch c e)) in let! h' := lift_rd (entity_at a (e_row e)) in
                   update_entry c h' (fun e' => entry_set_index_in_archetype e' (entry_index_in_archetype e)) else ret tt) any)
      by (apply qt_fix_swapped; [apply He|done]).
    unfold dropping_on_panic. unfold qt in Hq. unfold bind at 1. destruct (if swapped then _ else _) as [u s2|s2|]; [..|done].
    - destruct Hq as (ls2&He2&Hm2&_).
      destruct (destroy_tail s s2 h (ls ++ ls2) (Some data) Hi (evolves_trans _ _ _ _ _ He He2) (moves_app _ _ Hm Hm2)) as (s3&->&He3); [by exists e|].
      exists ((ls ++ ls2) ++ [LDestroy h true]). split; [done|]. exists (ls ++ ls2). split; [by apply moves_app|done].
    - destruct Hq as (ls2&He2&Hm2). exists (ls ++ ls2). split; [|by apply moves_app].
      exact (evolves_trans _ _ _ _ _ He He2).
  Qed.
  Definition created_by (o : option N) (ls : list label) : Prop := exists m1 m2, moves m1 /\ moves m2 /\ ls = m1 ++ LCreate o :: m2.
  Lemma create_labels G vs s : inv s ->
    match create_entity c G vs s with
    | Ret (Ok h) s' => exists ls, evolves s ls s' /\ created_by (Some h) ls
    | Ret (Err _) s' => exists ls, evolves s ls s' /\ (moves ls \/ created_by None ls)
    | Panic s' => exists ls, evolves s ls s' /\ (moves ls \/ exists o, created_by o ls)
    | UB => True
    end.
  Proof.
    intros Hi. unfold create_entity, dropping_on_panic. cbn zeta.
    destruct (gd_is_valid (group_desc (big c) G)); cbn [negb].
    2: { cbn. exists []. split; [by apply evolves_refl|left; constructor]. }
    unfold bind at 1. pose proof (qt_find_or_create s _ Hi (group_regular G) (group_arch_wf (big c) G)) as Hq. unfold qt in Hq.
    destruct (find_or_create_archetype _ s) as [oi s1|s1|]; [| |done].
    2: { destruct Hq as (ls&?&?). exists ls. split; [done|by left]. }
    destruct Hq as (ls&He&Hm&Hoi). destruct oi as [i|]; [|cbn; exists ls; split; [done|by left]]. specialize (Hoi i eq_refl).
    assert (Hi1 : inv s1) by apply He.
    unfold bind at 1. unfold rm_rd at 1, arch_at at 1, lift_rd. destruct (ar_archs (r_ar s1) !! i) as [a|]; [|done].
    unfold bind at 1. unfold unwrap at 1. destruct (iia_new _) as [row|] eqn:Er; [|cbn; exists ls; split; [done|by left]].
    apply iia_lt in Er. cbn [ret]. unfold ret at 1.
    unfold bind at 1. unfold unwrap at 1, ai_new. destruct (N.eqb_spec (N.of_nat i) INVALID_ARCHETYPE_INDEX); [cbn; exists ls; split; [done|by left]|].
    unfold ret at 1. pose proof (ai_bound _ _ Hi1 Hoi) as Hai.
    pose proof Hi1 as (Hr1&Ha1&Hw1). pose proof Hr1 as [F HF]%er_reach_inv.
    unfold bind at 1. unfold rm_er.
    destruct (er_create_entity (big c) row (N.of_nat i) (r_er s1)) as [o r2|r2|] eqn:Ec.
    - assert (Hs : er_step (big c) (r_er s1) (LCreate o) r2) by (eapply es_create; [|exact Hai|exact Ec]; lia).
      assert (He2 : evolves s (ls ++ [LCreate o]) (Reg r2 (r_ar s1) (r_env s1))).
      { eapply evolves_trans; [exact He|]. split; [eapply ep_cons; [exact Hs|apply ep_nil]|]. split; [|by unfold ext]. split; [|done].
        destruct Hr1 as [l0 Hp0]. exists (l0 ++ [LCreate o]). by eapply er_path_snoc. }
      destruct o as [h|].
      + assert (Hq : qt (Reg r2 (r_ar s1) (r_env s1)) (with_arch i (push_entity_unchecked c G h vs)) any).
        { apply qt_with_arch; [apply He2|eauto with akeeps|done]. }
        unfold qt in Hq. unfold bind at 1. destruct (with_arch i _ _) as [n2 s3|s3|]; [| |done].
        * destruct Hq as (ls3&He3&Hm3&_). cbn. exists ((ls ++ [LCreate (Some h)]) ++ ls3). split; [by eapply evolves_trans|].
          exists ls, ls3. split; [done|]. split; [done|]. by rewrite <- app_assoc.
        * destruct Hq as (ls3&He3&Hm3). exists ((ls ++ [LCreate (Some h)]) ++ ls3). split; [|right; exists (Some h), ls, ls3; split; [done|]; split; [done|]; by rewrite <- app_assoc].
          exact (evolves_trans _ _ _ _ _ He2 He3).
      + cbn. exists (ls ++ [LCreate None]). split; [done|]. right. exists ls, []. split; [done|]. split; [constructor|done].
    - destruct (er_create_spec (big c) (r_er s1) F row (N.of_nat i) HF ltac:(lia) Hai) as [[_ E']|(_&?&?&?&?&?&E'&_)]; congruence.
    - done.
  Qed.

  (** *** Every call *)
  Definition labels_of (o : op) (res : option output) (ls : list label) : Prop :=
    match o, res with
    | OpCreate _ _, Some (OutCreate (Ok h)) => created_by (Some h) ls
    | OpCreate _ _, Some _ => moves ls \/ created_by None ls
    | OpCreate _ _, None => moves ls \/ exists x, created_by x ls
    | OpDestroy h, Some (OutBool true) => destroyed_by h ls
    | OpRemoveEntity _ h, Some (OutVals (Some _)) => destroyed_by h ls
    | _, _ => moves ls
    end.
  Lemma qt_labels {A} s (m : RM A) (k : A -> output) o : (forall res ls, moves ls -> labels_of o res ls) ->
    qt s m any ->
    match bind m (fun x => ret (k x)) s with
    | Ret out s' => exists ls, evolves s ls s' /\ labels_of o (Some out) ls
    | Panic s' => exists ls, evolves s ls s' /\ labels_of o None ls
    | UB => True
    end.
  Proof.
    intros Hl Hq. unfold qt in Hq. unfold bind. destruct (m s) as [x s1|s1|]; [| |done].
    - destruct Hq as (ls&?&?&_). cbn. exists ls. split; [done|by apply Hl].
    - destruct Hq as (ls&?&?). cbn. exists ls. split; [done|by apply Hl].
  Qed.
  Lemma qt_labels' s (m : RM output) o : (forall res ls, moves ls -> labels_of o res ls) ->
    qt s m any ->
    match m s with
    | Ret out s' => exists ls, evolves s ls s' /\ labels_of o (Some out) ls
    | Panic s' => exists ls, evolves s ls s' /\ labels_of o None ls
    | UB => True
    end.
  Proof.
    intros Hl Hq. unfold qt in Hq. destruct (m s) as [x s1|s1|]; [| |done].
    - destruct Hq as (ls&?&?&_). exists ls. split; [done|by apply Hl].
    - destruct Hq as (ls&?&?). exists ls. split; [done|by apply Hl].
  Qed.
  Lemma step_labels o s : inv s ->
    match step c o s with
    | Ret out s' => exists ls, evolves s ls s' /\ labels_of o (Some out) ls
    | Panic s' => exists ls, evolves s ls s' /\ labels_of o None ls
    | UB => True
    end.
  Proof.
    intros Hi. destruct o; cbn [step];
      try (apply qt_labels'; [done|]; repeat first [by apply qt_rd|by apply qt_unwrap|by apply qt_ret|by apply qt_items|by apply qt_eitems|by apply qt_add|by apply qt_remove|by apply qt_replace|by apply qt_replace_locs
        |apply qt_seq; [|intros ? ? ? _]|match goal with |- qt _ (match ?x with _ => _ end) _ => destruct x end]; fail).
    - pose proof (create_labels G vs s Hi) as H. unfold bind. destruct (create_entity c G vs s) as [[h|e] s1|s1|]; [..|done]; cbn; done.
    - pose proof (destroy_labels h s Hi) as H. unfold bind. destruct (destroy_entity c h s) as [[] s1|s1|]; [..|done]; cbn; done.
    - pose proof (remove_labels G h s Hi) as H. unfold bind. destruct (remove_entity c G h s) as [[vs|] s1|s1|]; [..|done]; cbn; done.
  Qed.
  Lemma inv_init oracle : inv (Reg er_default areg_default (Env [] oracle)).
  Proof. split; [exists []; constructor|]. split; [apply areg_inv_default|constructor]. Qed.

  (** ** Client programs *)
  Inductive tr_labels : list (op * option output) -> list label -> Prop :=
  | tl_nil : tr_labels [] []
  | tl_cons o res tr ls ls' : labels_of o res ls -> tr_labels tr ls' -> tr_labels ((o, res) :: tr) (ls ++ ls').
  Lemma calls_evolve r tr r' : calls c r tr r' -> inv r -> exists ls, evolves r ls r' /\ tr_labels tr ls.
  Proof.
    induction 1 as [r|r o out r1 tr r2 E H IH|r o r1 tr r2 E H IH]; intros Hi.
    - exists []. split; [by apply evolves_refl|constructor].
    - pose proof (step_labels o r Hi) as Hs. rewrite E in Hs. destruct Hs as (ls&He&Hl).
      destruct (IH ltac:(apply He)) as (ls2&He2&Hl2). exists (ls ++ ls2). split; [by eapply evolves_trans|by constructor].
    - pose proof (step_labels o r Hi) as Hs. rewrite E in Hs. destruct Hs as (ls&He&Hl).
      destruct (IH ltac:(apply He)) as (ls2&He2&Hl2). exists (ls ++ ls2). split; [by eapply evolves_trans|by constructor].
  Qed.
  Lemma reachable_inv r : reachable c r -> inv r.
  Proof. intros (oracle&tr&H). destruct (calls_evolve _ _ _ H (inv_init oracle)) as (ls&He&_). apply He. Qed.
  Lemma calls_inv r tr r' : calls c r tr r' -> inv r -> inv r'.
  Proof. intros H Hi. destruct (calls_evolve _ _ _ H Hi) as (ls&He&_). apply He. Qed.
  Lemma alive_live r h : alive c r h <-> live (big c) (r_er r) h.
  Proof. done. Qed.
  Lemma moves_no_create ls o : moves ls -> LCreate o ∉ ls.
  Proof. intros H Hin. destruct (proj1 (Forall_forall _ _) H _ Hin) as [h [=]]. Qed.
  Lemma moves_no_destroy ls i : moves ls -> destroy_count i ls = 0.
  Proof.
    intros H. unfold destroy_count. induction H as [|l ls [h ->] H IH]; [done|]. rewrite filter_cons_False by done. done.
  Qed.
  Lemma destroy_count_app i l1 l2 : destroy_count i (l1 ++ l2) = destroy_count i l1 + destroy_count i l2.
  Proof. unfold destroy_count. by rewrite filter_app, app_length. Qed.
  Lemma labels_issue o res ls h : labels_of o res ls -> LCreate (Some h) ∈ ls -> may_issue h (o, res).
  Proof.
    assert (Hc : forall x l, created_by x l -> LCreate (Some h) ∈ l -> x = Some h).
    { intros x l (m1&m2&H1&H2&->). rewrite elem_of_app, elem_of_cons. intros [H|[H|H]]; [by apply moves_no_create in H|congruence|by apply moves_no_create in H]. }
    assert (Hd : forall h' l, destroyed_by h' l -> LCreate (Some h) ∉ l).
    { intros h' l (m&H1&->). rewrite elem_of_app, elem_of_list_singleton. intros [H|H]; [by apply moves_no_create in H|done]. }
    intros Hl Hin. destruct o; try (by eapply moves_no_create in Hin).
    - destruct res as [out|]; [|done]. destruct out as [[h'|]| | | | | | | |]; cbn in Hl |- *; try (destruct Hl as [Hl|Hl]; [by eapply moves_no_create in Hin|by pose proof (Hc _ _ Hl Hin)]).
      by injection (Hc _ _ Hl Hin).
    - destruct res as [[| [] | | | | | | |]|]; cbn in Hl; try (by eapply moves_no_create in Hin). by eapply Hd in Hin.
    - destruct res as [[| | [] | | | | | |]|]; cbn in Hl; try (by eapply moves_no_create in Hin). by eapply Hd in Hin.
  Qed.
  Lemma labels_destroy o res ls i : labels_of o res ls -> destroy_count i ls <= if destroying i (o, res) then 1 else 0.
  Proof.
    assert (Hc : forall x l, created_by x l -> destroy_count i l = 0).
    { intros x l (m1&m2&H1&H2&->). rewrite destroy_count_app, moves_no_destroy by done. unfold destroy_count.
      rewrite filter_cons_False by done. by apply (moves_no_destroy _ i) in H2. }
    assert (Hd : forall h l, destroyed_by h l -> destroy_count i l <= if (ent_index h =? i)%N then 1 else 0).
    { intros h l (m&H1&->). rewrite destroy_count_app, moves_no_destroy by done. unfold destroy_count. rewrite filter_cons. cbn [destroys_slot].
      destruct (ent_index h =? i)%N; [rewrite decide_True by done|rewrite decide_False by done]; cbn; lia. }
    intros Hl. destruct o; try (rewrite (moves_no_destroy _ i Hl); lia).
    - cbn [destroying fst]. destruct res as [out|].
      + destruct out as [[h'|]| | | | | | | |]; cbn in Hl; try (destruct Hl as [Hl|Hl]); by rewrite ?(moves_no_destroy _ i Hl), ?(Hc _ _ Hl).
      + destruct Hl as [Hl|[x Hl]]; by rewrite ?(moves_no_destroy _ i Hl), ?(Hc _ _ Hl).
    - cbn [destroying fst]. destruct res as [[| [] | | | | | | |]|]; cbn in Hl; try (rewrite (moves_no_destroy _ i Hl); lia). by apply Hd.
    - cbn [destroying fst]. destruct res as [[| | [] | | | | | |]|]; cbn in Hl; try (rewrite (moves_no_destroy _ i Hl); lia). by apply Hd.
  Qed.
  Lemma trace_issue tr ls h : tr_labels tr ls -> LCreate (Some h) ∈ ls -> exists x, x ∈ tr /\ may_issue h x.
  Proof.
    induction 1 as [|o res tr ls ls' Hl Ht IH]; intros Hin; [by apply elem_of_nil in Hin|].
    apply elem_of_app in Hin as [Hin|Hin].
    - exists (o, res). split; [left|by eapply labels_issue].
    - destruct (IH Hin) as (x&?&?). exists x. split; [by right|done].
  Qed.
  Lemma trace_destroy tr ls i : tr_labels tr ls -> destroy_count i ls <= destroying_calls i tr.
  Proof.
    induction 1 as [|o res tr ls ls' Hl Ht IH]; [cbn; lia|]. rewrite destroy_count_app. pose proof (labels_destroy _ _ _ i Hl) as H1.
    unfold destroying_calls in *. rewrite filter_cons. destruct (destroying i (o, res)).
    - rewrite decide_True by done. cbn [length]. lia.
    - rewrite decide_False by done. lia.
  Qed.

  Lemma er_path_split be r l1 l2 r' : er_path be r (l1 ++ l2) r' -> exists r1, er_path be r l1 r1 /\ er_path be r1 l2 r'.
  Proof.
    revert r. induction l1 as [|l l1 IH]; intros r; cbn; [intros H; exists r; split; [constructor|done]|].
    intros H. inversion H as [|? ? r2 ? ? Hs Hp]; subst. destruct (IH _ Hp) as (r1&H1&H2). exists r1. split; [by eapply ep_cons|done].
  Qed.

  (** ** The claims *)
  Lemma registry_create r G vs h r' : reachable c r -> create_entity c G vs r = Ret (Ok h) r' ->
    ~ alive c r h /\ alive c r' h /\ (forall h', alive c r h' -> ent_index h' <> ent_index h) /\
    (forall h', h' <> h -> alive c r' h' <-> alive c r h') /\ h <> ent_INVALID /\ (h < 2 ^ 32)%N.
  Proof.
    intros Hi%reachable_inv E. pose proof (create_labels G vs r Hi) as H. rewrite E in H. destruct H as (ls&(Hp&_&_)&m1&m2&Hm1&Hm2&->).
    apply er_path_split in Hp as (r1&Hp1&Hp2). inversion Hp2 as [|? ? r2 ? ? Hs Hp3]; subst.
    assert (Hr1 : er_reach (big c) r1). { destruct Hi as ([l0 Hp0]&_). exists (l0 ++ m1). by eapply er_path_app. }
    inversion Hs as [r0 row ai o r0' Hrow Hai Ec| | |]; subst.
    assert (Hr2 : er_reach (big c) r2). { destruct Hr1 as [l1 H1]. exists (l1 ++ [LCreate (Some h)]). by eapply er_path_snoc. }
    destruct (created_fresh _ _ _ _ _ _ Hr1 Hrow Hai Ec) as (Hd&Hix&Hl&Hlt&Hoth).
    pose proof (invalid_never_created _ _ _ _ _ _ Hr1 Hrow Hai Ec) as Hinv.
    assert (H1 : forall x, live (big c) r1 x <-> alive c r x) by (intros x; apply (moves_live _ m1); [apply Hi|done|done]).
    assert (H2 : forall x, alive c r' x <-> live (big c) r2 x) by (intros x; apply (moves_live _ m2); done).
    split; [by rewrite <- H1|]. split; [by apply H2|]. split; [intros h' Hh'; apply Hix; by apply H1|]. split; [|done].
    intros h' Hne. rewrite H2, <- H1. unfold live. by rewrite Hoth.
  Qed.
  Lemma registry_distinct r h h' : reachable c r -> alive c r h -> alive c r h' -> ent_index h = ent_index h' -> h = h'.
  Proof. intros Hi%reachable_inv. apply live_handles_distinct, Hi. Qed.
  Lemma dead_handle o h r : handle_of o = Some h -> ~ alive c r h -> step c o r = Ret (rejection o) r.
  Proof.
    intros Ho Hd. assert (E : entry_of c r h = None) by (unfold alive in Hd; destruct (entry_of c r h); [by destruct Hd|done]).
    destruct o; try done; injection Ho as <-;
      cbn [step rejection]; unfold bind, rm_rd, lift_rd, destroy_entity, remove_entity, has_component, has_components, get_component,
        get_components, get_component_mut, get_components_mut, add_component, remove_component, bind, rm_get, get_st; by rewrite E.
  Qed.
  Lemma invalid_dead r : ~ alive c r ent_INVALID.
  Proof. apply (invalid_never_accepted (big c) (r_er r)). Qed.
  Lemma registry_destroyed r o out h r' : reachable c r -> step c o r = Ret out r' -> destroyed o out h ->
    alive c r h /\ ~ alive c r' h /\ forall h', h' <> h -> alive c r' h' <-> alive c r h'.
  Proof.
    intros Hi%reachable_inv E Hd. pose proof (step_labels o r Hi) as H. rewrite E in H. destruct H as (ls&(Hp&_&_)&Hl).
    assert (Hb : destroyed_by h ls).
    { destruct o; try done; [destruct out as [| [] | | | | | | |]|destruct out as [| | [] | | | | | |]]; try done; cbn in Hd; by subst. }
    destruct Hb as (m&Hm&->). apply er_path_split in Hp as (r1&Hp1&Hp2). inversion Hp2 as [|? ? r2 ? ? Hs Hp3]; subst. inversion Hp3; subst.
    inversion Hs as [|r0 h0 b r0' Ed| |]; subst.
    assert (Hr1 : er_reach (big c) r1). { destruct Hi as ([l0 Hp0]&_). exists (l0 ++ m). by eapply er_path_app. }
    destruct (destroyed_dead _ _ _ _ Hr1 Ed) as (H1&H2&H3).
    assert (Hm1 : forall x, live (big c) r1 x <-> alive c r x) by (intros x; apply (moves_live _ m); [apply Hi|done|done]).
    split; [by apply Hm1|]. split; [done|]. intros h' Hne. rewrite <- Hm1. unfold alive, entry_of, live. rewrite H3 by done.
    unfold is_Some. done.
  Qed.
  Lemma registry_dead r tr r' h : reachable c r -> calls c r tr r' -> ~ alive c r h -> (forall x, x ∈ tr -> ~ may_issue h x) -> ~ alive c r' h.
  Proof.
    intros Hi%reachable_inv Hc Hd Hn. destruct (calls_evolve _ _ _ Hc Hi) as (ls&(Hp&_&_)&Hl).
    apply (dead_until_reissued (big c) (r_er r) ls (r_er r')); [apply Hi|done|done|].
    intros Hin. destruct (trace_issue _ _ _ Hl Hin) as (x&Hx&Hm). by apply (Hn x).
  Qed.
  Lemma registry_stale r o out h r1 tr r2 : reachable c r -> step c o r = Ret out r1 -> destroyed o out h -> calls c r1 tr r2 -> alive c r2 h ->
    255 <= destroying_calls (ent_index h) tr.
  Proof.
    intros Hi%reachable_inv E Hd Hc Ha. pose proof (step_labels o r Hi) as H. rewrite E in H. destruct H as (ls&(Hp&Hi1&_)&Hl).
    assert (Hb : destroyed_by h ls).
    { destruct o; try done; [destruct out as [| [] | | | | | | |]|destruct out as [| | [] | | | | | |]]; try done; cbn in Hd; by subst. }
    destruct Hb as (m&Hm&->). apply er_path_split in Hp as (r0&Hp1&Hp2). inversion Hp2 as [|? ? r3 ? ? Hs Hp3]; subst. inversion Hp3; subst.
    inversion Hs as [|r0' h0 b r0'' Ed| |]; subst.
    assert (Hr1 : er_reach (big c) r0). { destruct Hi as ([l0 Hp0]&_). exists (l0 ++ m). by eapply er_path_app. }
    destruct (calls_evolve _ _ _ Hc Hi1) as (ls2&(Hp4&_&_)&Hl2).
    pose proof (stale_handles _ _ _ _ _ _ Hr1 Ed Hp4 Ha). pose proof (trace_destroy _ _ (ent_index h) Hl2). lia.
  Qed.
  Lemma registry_table r : reachable c r -> er_reach (big c) (r_er r).
  Proof. intros Hi%reachable_inv. apply Hi. Qed.

  (** Archetypes. *)
  Lemma ext_lookup r r' i a : ext r r' -> ar_archs (r_ar r) !! i = Some a -> exists a', ar_archs (r_ar r') !! i = Some a' /\ a_desc a' = a_desc a.
  Proof.
    intros He Hi. assert (H : map a_desc (ar_archs (r_ar r')) !! i = Some (a_desc a)).
    { eapply prefix_lookup; [|exact He]. change (map a_desc) with (fmap a_desc : list arch -> list adesc). by rewrite list_lookup_fmap, Hi. }
    change (map a_desc) with (fmap a_desc : list arch -> list adesc) in H. rewrite list_lookup_fmap in H.
    destruct (ar_archs (r_ar r') !! i) as [a'|]; [|done]. exists a'. split; [done|]. by injection H.
  Qed.
  Lemma archetypes_stay r tr r' i a : reachable c r -> calls c r tr r' -> ar_archs (r_ar r) !! i = Some a ->
    exists a', ar_archs (r_ar r') !! i = Some a' /\ a_desc a' = a_desc a.
  Proof. intros Hi%reachable_inv Hc. destruct (calls_evolve _ _ _ Hc Hi) as (ls&(_&_&He)&_). by apply ext_lookup. Qed.
  Lemma stands_unique r i j d : reachable c r -> stands r i d -> stands r j d -> i = j.
  Proof. intros Hi%reachable_inv. apply is_arch_unique, Hi. Qed.
  Lemma lookup_iff r d k : reachable c r -> regular d -> find_archetype d (r_ar r) = Rd (Some k) <-> ad_is_valid d = true /\ stands r k d.
  Proof.
    intros (_&Ha&_)%reachable_inv Hr. split; [|intros [Hv Hs]; by apply find_archetype_found].
    intros E. destruct (ad_is_valid d) eqn:Hv; [|rewrite find_archetype_absent in E by auto; done]. split; [done|].
    destruct (areg_search _ d Ha (Hr Hv)) as (level&_&_&H). destruct (binary_search _ _).
    - destruct H as (key&_&Hk). rewrite (find_archetype_found _ _ _ Ha Hv Hk) in E. by injection E as <-.
    - rewrite find_archetype_absent in E by auto. done.
  Qed.
  Lemma lookup_total r d : reachable c r -> regular d -> exists o, find_archetype d (r_ar r) = Rd o.
  Proof.
    intros (_&Ha&_)%reachable_inv Hr. destruct (ad_is_valid d) eqn:Hv; [|exists None; apply find_archetype_absent; auto].
    destruct (areg_search _ d Ha (Hr Hv)) as (level&_&_&H). destruct (binary_search _ _).
    - destruct H as (key&_&Hk). exists (Some (k_idx key)). by apply find_archetype_found.
    - exists None. apply find_archetype_absent; auto.
  Qed.
  Lemma found_forever r d k r' tr r2 : reachable c r -> regular d -> ad_wf d -> find_or_create_archetype d r = Ret (Some k) r' ->
    calls c r' tr r2 -> find_archetype d (r_ar r2) = Rd (Some k) /\ find_or_create_archetype d r2 = Ret (Some k) r2.
  Proof.
    intros Hi%reachable_inv Hr Hw E Hc. pose proof (find_or_create_spec d r ltac:(apply Hi) Hr) as H. rewrite E in H. destruct H as (Hv&_&Hk&_).
    pose proof (qt_find_or_create r d Hi Hr Hw) as Hq. unfold qt in Hq. rewrite E in Hq. destruct Hq as (ls&He&_&_).
    destruct (calls_evolve _ _ _ Hc ltac:(apply He)) as (ls2&(_&Hi2&He2)&_).
    assert (Hk2 : is_arch (r_ar r2) k d).
    { destruct Hk as (a&Ha&H1&H2). destruct (ext_lookup _ _ _ _ He2 Ha) as (a'&Ha'&Ed). exists a'. by rewrite Ed. }
    assert (Ha2 : areg_inv (r_ar r2)) by apply Hi2. split; [by apply find_archetype_found|].
    by apply find_or_create_existing.
  Qed.
  Lemma create_fails r d : reachable c r -> regular d ->
    (exists r', find_or_create_archetype d r = Ret None r') <->
    ad_is_valid d = false \/ ((forall k, ~ stands r k d) /\ (65534 <= N.of_nat (length (ar_archs (r_ar r))))%N).
  Proof.
    intros Hi%reachable_inv Hr. split.
    - intros [r' E]. pose proof (find_or_create_spec d r ltac:(apply Hi) Hr) as H. rewrite E in H. apply H.
    - intros [Hv|[Hn Hf]]; exists r; [by apply find_or_create_invalid|]. apply find_or_create_full; [apply Hi|done|done|done].
  Qed.
  Lemma create_result r d k r' : reachable c r -> regular d -> find_or_create_archetype d r = Ret (Some k) r' ->
    ad_is_valid d = true /\ stands r' k d /\ r_er r' = r_er r /\
    (r' = r \/ (forall j, ~ stands r j d) /\ k = length (ar_archs (r_ar r)) /\
       exists a, ar_archs (r_ar r') = ar_archs (r_ar r) ++ [a] /\ a_desc a = d).
  Proof.
    intros Hi%reachable_inv Hr E. pose proof (find_or_create_spec d r ltac:(apply Hi) Hr) as H. rewrite E in H.
    destruct H as (H1&_&H2&H3&H4). split; [done|]. split; [done|]. split; [done|]. destruct H4 as [->|(H4&_&H5&a&H6&H7&_)]; [by left|right].
    split; [done|]. split; [done|]. by exists a.
  Qed.
End clients.
