(** Proofs for C68: registries and client programs. *)
From Verif Require Import WidthModel SpecWidth SpecEntity SpecObs SpecClient EntityProofs SearchProofs MonadProofs DescrProofs ArchProofs ArchOps AregProofs RegProofs RegOps Clients Sizes Width SpecBase SpecWorld.
Local Open Scope nat_scope.

Local Ltac fin := first [done|reflexivity|cbn; reflexivity].
Local Ltac unlift x s := repeat match goal with |- context [bind (lift_rd (Rd x)) ?k s] => change (bind (lift_rd (Rd x)) k s) with (k x s) end; cbv beta iota.
Local Ltac unget s := repeat match goal with |- context [bind rm_get ?k s] => change (bind rm_get k s) with (k s s) end; cbv beta.
Local Ltac unbind m s := repeat match goal with |- context [bind m ?k s] => change (bind m k s) with (match m s with Ret x t => k x t | Panic t => Panic t | UB => UB end) end.
Section regs.
  Context (w : N) (Hw : (32 <= w)%N) (c : cfg) (L : Prop).
  Local Notation arel := (arel w L).
  Local Notation oka := (oka w).
  Local Notation okt := (okt w).
  Definition okr (r : reg) : Prop := Forall oka (ar_archs (r_ar r)) /\ okt (r_env r).
  Definition rext {A} (m : RM A) : Prop := forall s,
    match m s with Ret _ t | Panic t => ev_trace (r_env s) `prefix_of` ev_trace (r_env t) | UB => True end.
  Definition rrel {A} (m1 m2 : RM A) : Prop := rext m2 /\ forall s, okr s ->
    (L /\ m1 s = UB /\ forall x t, m2 s = Ret x t -> ~ okt (r_env t)) \/
    (m1 s = m2 s /\ match m2 s with Ret _ t | Panic t => okr t | UB => True end).
  Lemma rext_bind {A B} (m : RM A) (k : A -> RM B) : rext m -> (forall x, rext (k x)) -> rext (bind m k).
  Proof.
    intros Hm Hk s. unfold bind. specialize (Hm s). destruct (m s) as [x t|t|]; [|done|done]. specialize (Hk x t).
    destruct (k x t); [..|done]; by etrans.
  Qed.
  Lemma rrel_bind {A B} (m1 m2 : RM A) (k1 k2 : A -> RM B) : rrel m1 m2 -> (forall x, rrel (k1 x) (k2 x)) -> rrel (bind m1 k1) (bind m2 k2).
  Proof.
    intros [E1 H1] Hk. assert (Hext : forall x, rext (k2 x)) by (intros; apply Hk). split; [by apply rext_bind|].
    intros s Hs. unfold bind. destruct (H1 s Hs) as [(Hl&Hub&Hno)|[Heq Hp]].
    - left. rewrite Hub. split; [done|]. split; [done|]. intros y t. destruct (m2 s) as [x t1| |] eqn:Em; try done.
      intros Ek Ht. pose proof (Hext x t1) as Hx. rewrite Ek in Hx. apply (Hno _ _ eq_refl). by eapply okt_prefix.
    - rewrite Heq. destruct (m2 s) as [x t1|t|] eqn:Em; [|right; done|right; done].
      destruct (Hk x) as [_ Hk']. by apply Hk'.
  Qed.
  Lemma rrel_same {A} (m : RM A) : (forall s, match m s with Ret _ t | Panic t => ar_archs (r_ar t) = ar_archs (r_ar s) /\ r_env t = r_env s | UB => True end) -> rrel m m.
  Proof.
    intros H. split.
    - intros s. specialize (H s). destruct (m s); [..|done]; by destruct H as [_ ->].
    - intros s Hs. right. split; [done|]. specialize (H s). destruct (m s); [..|done]; destruct H as [H1 H2]; unfold okr; by rewrite H1, H2.
  Qed.
  Lemma rrel_ret {A} (x : A) : rrel (ret x) (ret x). Proof. by apply rrel_same. Qed.
  Lemma rrel_panic {A} : rrel (A := A) mpanic mpanic. Proof. by apply rrel_same. Qed.
  Lemma rrel_ub {A} : rrel (A := A) mub mub. Proof. by apply rrel_same. Qed.
  Lemma rrel_get0 : rrel rm_get rm_get. Proof. by apply rrel_same. Qed.
  Lemma rrel_rd {A} (f : reg -> rd A) : rrel (rm_rd f) (rm_rd f). Proof. apply rrel_same. intros s. unfold rm_rd, lift_rd. by destruct (f s). Qed.
  Lemma rrel_lift {A} (x : rd A) : rrel (lift_rd x) (lift_rd x). Proof. apply rrel_same. intros s. unfold lift_rd. by destruct x. Qed.
  Lemma rrel_unwrap {A} (o : option A) : rrel (unwrap o) (unwrap o). Proof. apply rrel_same. intros s. by destruct o. Qed.
  Lemma rrel_mdebug d b : rrel (mdebug_assert d b) (mdebug_assert d b). Proof. apply rrel_same. intros s. by destruct d, b. Qed.
  Lemma rrel_er {A} (m : M er A) : rrel (rm_er m) (rm_er m). Proof. apply rrel_same. intros s. unfold rm_er. by destruct (m (r_er s)). Qed.
  Lemma rrel_entry h f : rrel (update_entry c h f) (update_entry c h f).
  Proof. apply rrel_same. intros s. unfold update_entry. by destruct (er_update_entry _ _ _ _). Qed.
  Lemma okt_drops e vs : okt e -> okt (Env (ev_trace e ++ map EvDrop vs) (ev_oracle e)).
  Proof. intros H. apply Forall_app. split; [done|]. by apply Forall_map, Forall_forall. Qed.
  Lemma rrel_dop {A} vs (m1 m2 : RM A) : rrel m1 m2 -> rrel (dropping_on_panic vs m1) (dropping_on_panic vs m2).
  Proof.
    intros [E1 H1]. split.
    - intros s. specialize (E1 s). unfold dropping_on_panic. destruct (m2 s) as [x t|t|]; [done| |done]. cbn.
      etrans; [exact E1|]. by eexists.
    - intros s Hs. unfold dropping_on_panic. destruct (H1 s Hs) as [(Hl&Hub&Hno)|[Heq Hp]].
      + left. rewrite Hub. split; [done|]. split; [done|]. intros x t. destruct (m2 s) as [y u| |]; try done. intros [= <- <-]. by apply (Hno y u).
      + right. rewrite Heq. split; [done|]. destruct (m2 s) as [x t|t|]; [done| |done]. destruct Hp as [Hp1 Hp2]. split; [done|]. cbn. by apply okt_drops.
  Qed.
  Lemma rrel_mmap {A B} (f : A -> RM B) l : (forall x, rrel (f x) (f x)) -> rrel (mmap f l) (mmap f l).
  Proof.
    intros Hf. induction l as [|x l IH]; cbn [mmap]; [apply rrel_ret|]. apply rrel_bind; [apply Hf|]. intros. apply rrel_bind; [exact IH|]. intros. apply rrel_ret.
  Qed.
  Lemma rrel_with {A} i (m1 m2 : AM A) : (forall D, arel D m1 m2) -> rrel (with_arch i m1) (with_arch i m2).
  Proof.
    intros Hm. split.
    - intros s. unfold with_arch. destruct (ar_archs (r_ar s) !! i) as [a|] eqn:Ea; [|done].
      destruct (Hm (a_desc a)) as [Hx _]. specialize (Hx (a, r_env s)). by destruct (m2 (a, r_env s)).
    - intros s [Hs He]. unfold with_arch. destruct (ar_archs (r_ar s) !! i) as [a|] eqn:Ea; [|by right].
      destruct (Hm (a_desc a)) as [_ H]. pose proof (Forall_lookup_1 _ _ _ _ Hs Ea) as Ha.
      destruct (H a (r_env s) eq_refl Ha He) as [(Hl&Hub&Hno)|[Heq Hp]].
      + left. rewrite Hub. split; [done|]. split; [done|]. intros x t. destruct (m2 (a, r_env s)) as [y u| |]; try done. intros [= <- <-]. cbn. by apply (Hno y u).
      + right. rewrite Heq. split; [done|]. destruct (m2 (a, r_env s)) as [x t|t|]; [..|done]; destruct Hp as (H1&_&H3); (split; [|done]); cbn; by apply Forall_insert.
  Qed.
  Lemma rrel_with_still {A} i (m : AM A) : still m -> rrel (with_arch i m) (with_arch i m).
  Proof. intros H. apply rrel_with. intros D. by apply arel_still. Qed.
  Lemma rrel_get {A} (k1 k2 : reg -> RM A) : (forall s, rext (k2 s)) -> (forall s, okr s -> rrel (k1 s) (k2 s)) -> rrel (bind rm_get k1) (bind rm_get k2).
  Proof. intros Hx H. split; [intros s; apply (Hx s s)|]. intros s Hs. destruct (H s Hs) as [_ Hr]. by apply Hr. Qed.
  Lemma rrel_rext {A} (m1 m2 : RM A) : rrel m1 m2 -> rext m2. Proof. by intros [H _]. Qed.

  Lemma rext_find d : rext (find_or_create_archetype d).
  Proof.
    intros s. unfold find_or_create_archetype. destruct (_ || _); [fin|]. destruct (ad_len d =? 0); [fin|].
    unfold bind at 1, rm_get, get_st. destruct (_ !! _) as [level|]; [|fin].
    destruct (binary_search _ _) as [f|ins]; [destruct (_ !! f); [|fin]; destruct (_ <? _); fin|].
    destruct (_ <=? _)%N; [fin|]. unfold bind at 1, rm_env.
    pose proof (with_capacity_trace w d DEFAULT_ARCHETYPE_ALLOCATION_SIZE (r_env s)) as H.
    destruct (a_with_capacity d DEFAULT_ARCHETYPE_ALLOCATION_SIZE (r_env s)) as [a e|e|]; [..|fin]; destruct H; fin.
  Qed.
  Lemma rrel_find d : genuine d -> rrel (w_find_or_create w c d) (find_or_create_archetype d).
  Proof.
    intros Hd. split; [apply rext_find|]. intros s Hs. right. pose proof (start_okay w Hw d Hd) as Hok.
    unfold w_find_or_create, find_or_create_archetype. destruct (_ || _); [done|]. destruct (ad_len d =? 0); [done|].
    unget s. destruct (_ !! _) as [level|]; [|done].
    destruct (binary_search _ _) as [f|ins]; [destruct (_ !! f); [|done]; by destruct (_ <? _)|].
    destruct (_ <=? _)%N; [done|]. change DEFAULT_ARCHETYPE_ALLOCATION_SIZE with 128.
    unbind (rm_env (w_with_capacity w c d 128)) s. unbind (rm_env (a_with_capacity d 128)) s. unfold rm_env at 1 2.
    rewrite (with_capacity_eq w Hw c d 128) by apply Hok. unfold rm_env.
    pose proof (with_capacity_trace w d 128 (r_env s)) as H.
    destruct (a_with_capacity d 128 (r_env s)) as [a e|e|] eqn:E; [..|done]; destruct H as [_ H].
    - split; [done|]. split; [|by apply H, Hs]. cbn. apply Forall_app. split; [apply Hs|]. constructor; [|constructor].
      unfold Width.oka. rewrite (a_with_capacity_desc _ _ _ _ _ E). replace (a_cap a) with 128; [done|]. symmetry.
      unfold a_with_capacity in E. apply bind_Ret_inv in E as ([]&e1&_&E). cbn [Nat.ltb] in E.
      replace ((0 <? 128) && (N.of_nat 128 <=? MAX_ENTITIES_PER_ARCHETYPE)%N) with true in E by (vm_compute; reflexivity).
      apply bind_Ret_inv in E as ([b|]&e2&_&E); [|done]. apply bind_Ret_inv in E as (ps&e3&_&E). by injection E as <- <-.
    - split; [done|]. split; [apply Hs|by apply H, Hs].
  Qed.
  Lemma rext_adding i d : rext (find_or_create_archetype_adding_component c i d).
  Proof.
    intros s. unfold find_or_create_archetype_adding_component. unfold bind at 1, rm_get, get_st. destruct (_ <? i); [fin|].
    destruct (ar_archs (r_ar s) !! i) as [a|] eqn:Ea; [|fin].
    destruct (ad_add_component (big c) (a_desc a) d) as [[nd|]| |] eqn:E; [|fin..].
    unfold bind at 1. cbn [lift_rd]. unfold ret at 1. apply (rext_bind (find_or_create_archetype nd)); [apply rext_find|].
    intros [dst|]; [|intros ?; fin]. apply rext_bind; [intros ?; fin|]. intros. apply (rrel_rext _ _ (rrel_lift _)).
  Qed.
  Lemma rext_removing i d : rext (find_or_create_archetype_removing_component c i d).
  Proof.
    intros s. unfold find_or_create_archetype_removing_component. unfold bind at 1, rm_get, get_st. destruct (_ <? i); [fin|].
    destruct (ar_archs (r_ar s) !! i) as [a|] eqn:Ea; [|fin].
    destruct (ad_remove_component (big c) (a_desc a) (cd_id d)) as [[nd|]| |] eqn:E; [|fin..].
    unfold bind at 1. cbn [lift_rd]. unfold ret at 1. apply (rext_bind (find_or_create_archetype nd)); [apply rext_find|].
    intros [dst|]; [|intros ?; fin]. apply rext_bind; [intros ?; fin|]. intros. apply (rrel_rext _ _ (rrel_lift _)).
  Qed.
  Lemma rrel_adding i C : rrel (w_find_adding w c i (cdesc_of C)) (find_or_create_archetype_adding_component c i (cdesc_of C)).
  Proof.
    split; [apply rext_adding|]. intros s Hs. unfold w_find_adding, find_or_create_archetype_adding_component.
    unget s. destruct (_ <? i); [by right|].
    destruct (ar_archs (r_ar s) !! i) as [a|] eqn:Ea; [|by right]. pose proof (Forall_lookup_1 _ _ _ _ (proj1 Hs) Ea) as ((Hwf&Hl&Hg)&_).
    destruct (ad_add_component (big c) (a_desc a) (cdesc_of C)) as [[nd|]| |] eqn:E; [|by right..].
    destruct (wf_add _ _ _ _ Hwf E) as (Hw'&_&Hl'&_&Hp&_).
    assert (Hgen : genuine nd) by (split; [done|]; split; [lia|]; rewrite Hp; constructor; [by exists C|done]).
    unlift (Some nd) s. apply (rrel_bind _ _ _ _ (rrel_find nd Hgen)); [|done].
    intros [dst|]; [|apply rrel_ret]. apply rrel_bind; [apply rrel_get0|]. intros. apply rrel_lift.
  Qed.
  Lemma rrel_removing i C : rrel (w_find_removing w c i (cdesc_of C)) (find_or_create_archetype_removing_component c i (cdesc_of C)).
  Proof.
    split; [apply rext_removing|]. intros s Hs. unfold w_find_removing, find_or_create_archetype_removing_component.
    unget s. destruct (_ <? i); [by right|].
    destruct (ar_archs (r_ar s) !! i) as [a|] eqn:Ea; [|by right]. pose proof (Forall_lookup_1 _ _ _ _ (proj1 Hs) Ea) as ((Hwf&Hl&Hg)&_).
    destruct (ad_remove_component (big c) (a_desc a) (cd_id (cdesc_of C))) as [[nd|]| |] eqn:E; [|by right..].
    destruct (wf_remove _ _ _ _ Hwf Hl E) as (Hw'&_&Hl'&Hb&d&_&Hp).
    assert (Hgen : genuine nd) by (split; [done|]; split; [lia|]; rewrite Hp in Hg; by apply Forall_cons in Hg as [_ Hg]).
    unlift (Some nd) s. apply (rrel_bind _ _ _ _ (rrel_find nd Hgen)); [|done].
    intros [dst|]; [|apply rrel_ret]. apply rrel_bind; [apply rrel_get0|]. intros. apply rrel_lift.
  Qed.
  Context (HL : (w < 64)%N -> L).
  Lemma rrel_push i G h vs : rrel (with_arch i (w_push_entity w c G h vs)) (with_arch i (push_entity_unchecked c G h vs)).
  Proof. apply rrel_with. intros D. by apply arel_push. Qed.
  Lemma rrel_push_uninit i : rrel (with_arch i (w_push_uninitialized w c)) (with_arch i push_uninitialized_entity).
  Proof. apply rrel_with. intros D. by apply arel_push_uninit. Qed.
End regs.
Create HintDb rrel.
#[local] Hint Resolve rrel_ret rrel_panic rrel_ub rrel_get0 rrel_rd rrel_lift rrel_unwrap rrel_mdebug rrel_er rrel_entry rrel_adding rrel_removing rrel_push rrel_push_uninit : rrel.
Ltac rrel :=
  repeat lazymatch goal with
  | |- rrel _ _ (bind _ _) (bind _ _) => apply rrel_bind; [|intros ?]
  | |- rrel _ _ (dropping_on_panic _ _) _ => apply rrel_dop
  | |- rrel _ _ (mmap _ _) _ => apply rrel_mmap; intros ?
  | |- rrel _ _ (match ?x with _ => _ end) _ => destruct x
  | |- rrel _ _ (let x := _ in _) _ => cbv zeta
  | |- _ => first [solve [auto 2 with rrel nocore] | apply rrel_with_still; solve [still]]
  end.
Section steps.
  Context (w : N) (Hw : (32 <= w)%N) (c : cfg) (L : Prop) (HL : (w < 64)%N -> L).
  Local Notation rrel := (rrel w L).
  Lemma rrel_create G vs : rrel (w_create_entity w c G vs) (create_entity c G vs).
  Proof.
    unfold w_create_entity, create_entity. apply rrel_dop. cbv zeta. destruct (gd_is_valid (group_desc (big c) G)) eqn:Hv; cbn [negb]; [|apply rrel_ret].
    apply rrel_bind; [by apply rrel_find, genuine_group|]. intros ?. rrel.
  Qed.
  Lemma rrel_add C h v : rrel (w_add_component w c C h v) (add_component c C h v).
  Proof. unfold w_add_component, add_component. rrel. Qed.
  Lemma rrel_remove C h : rrel (w_remove_component w c C h) (remove_component c C h).
  Proof. unfold w_remove_component, remove_component. rrel. Qed.
  Lemma rrel_replace l v : rrel (replace_loc l v) (replace_loc l v). Proof. unfold replace_loc. rrel. Qed.
  Lemma rrel_replaces ls vs : rrel (replace_locs ls vs) (replace_locs ls vs).
  Proof.
    revert vs. induction ls as [|l ls IH]; intros [|v vs]; cbn [replace_locs]; [apply rrel_ret..|]. apply rrel_bind; [apply rrel_replace|]. intros.
    apply rrel_bind; [apply IH|]. intros. apply rrel_ret.
  Qed.
  Lemma rrel_modify f l : rrel (modify_loc f l) (modify_loc f l). Proof. unfold modify_loc. rrel; apply rrel_replace.
  Qed.
End steps.
#[local] Hint Resolve rrel_create rrel_add rrel_remove rrel_replace rrel_replaces rrel_modify : rrel.
Section runs.
  Context (w : N) (Hw : (32 <= w)%N) (c : cfg) (L : Prop) (HL : (w < 64)%N -> L).
  Local Notation rrel := (rrel w L).
  Lemma rrel_item upd x : rrel (modify_item upd x) (modify_item upd x). Proof. unfold modify_item. rrel. Qed.
  #[local] Hint Resolve rrel_item : rrel.
  Lemma rrel_step o : rrel (w_step w c o) (step c o).
  Proof. destruct o; cbn [w_step step]; unfold destroy_entity, remove_entity, modify_items, modify_eitems; rrel. Qed.
  Lemma rrel_run ops : rrel (w_run w c ops) (run c ops).
  Proof.
    induction ops as [|o ops IH]; cbn [w_run run]; [apply rrel_ret|]. apply rrel_bind; [apply rrel_step|]. intros. apply rrel_bind; [exact IH|]. intros. apply rrel_ret.
  Qed.
End runs.
(** Dropping requests no memory. *)
Lemma drop_archs_eq w c k n p s : (32 <= w)%N -> okr w s -> w_drop_archs w c k n p s = drop_archs k n p s.
Proof.
  intros Hw. revert k p s. induction n as [|n IH]; intros k p s Hs; cbn [w_drop_archs drop_archs]; [done|].
  destruct (rrel_with w False k (w_drop w c) a_drop (arel_drop w Hw c False)) as [_ H]. destruct (H s Hs) as [[[] _]|[-> Hp]].
  destruct (with_arch k a_drop s); [..|done]; by apply IH.
Qed.
Lemma drop_registry_eq w c s : (32 <= w)%N -> okr w s -> w_drop_registry w c s = drop_registry s.
Proof. intros Hw Hs. unfold w_drop_registry, drop_registry, bind, rm_get, get_st. by apply drop_archs_eq. Qed.
