(** Proofs for C47 and C51: which component sizes the storage accepts, for any
    client whatsoever. *)
From Verif Require Import RegModel SpecEntity SpecObs SpecClient EntityProofs SearchProofs MonadProofs DescrProofs ArchProofs ArchOps AregProofs RegProofs RegOps Clients SpecBase SpecWorld.
Local Open Scope nat_scope.

(** ** Every archetype lists descriptors of component types *)
Definition genuine (d : adesc) : Prop := ad_wf d /\ 1 <= ad_len d /\ Forall (fun x => exists C, x = cdesc_of C) (ad_components d).
Section gk.
Context (P : adesc -> Prop).
Definition all_desc (r : reg) : Prop := Forall (fun a => P (a_desc a)) (ar_archs (r_ar r)).
Definition gk {A} (m : RM A) : Prop := forall s, all_desc s ->
  match m s with Ret _ s' | Panic s' => all_desc s' | UB => True end.
Lemma gk_bind {A B} (m : RM A) (k : A -> RM B) : gk m -> (forall x, gk (k x)) -> gk (bind m k).
Proof.
  intros Hm Hk s Hs. specialize (Hm s Hs). unfold bind. destruct (m s) as [x s1|s1|]; [|done|done]. by apply Hk.
Qed.
Lemma gk_ret {A} (x : A) : gk (ret x). Proof. by intros s. Qed.
Lemma gk_panic {A} : gk (A := A) mpanic. Proof. by intros s. Qed.
Lemma gk_ub {A} : gk (A := A) mub. Proof. by intros s. Qed.
Lemma gk_get : gk rm_get. Proof. by intros s. Qed.
Lemma gk_rd {A} (f : reg -> rd A) : gk (rm_rd f). Proof. intros s Hs. unfold rm_rd, lift_rd. by destruct (f s). Qed.
Lemma gk_lift {A} (x : rd A) : gk (lift_rd x). Proof. intros s Hs. unfold lift_rd. by destruct x. Qed.
Lemma gk_unwrap {A} (o : option A) : gk (unwrap o). Proof. intros s Hs. by destruct o. Qed.
Lemma gk_mdebug d b : gk (mdebug_assert d b). Proof. intros s Hs. by destruct d, b. Qed.
Lemma gk_er {A} (m : M er A) : gk (rm_er m).
Proof. intros s Hs. unfold rm_er. by destruct (m (r_er s)). Qed.
Lemma gk_entry c h f : gk (update_entry c h f).
Proof. intros s Hs. unfold update_entry. by destruct (er_update_entry _ _ _ _). Qed.
Lemma gk_dop {A} vs (m : RM A) : gk m -> gk (dropping_on_panic vs m).
Proof. intros Hm s Hs. specialize (Hm s Hs). unfold dropping_on_panic. by destruct (m s). Qed.
Lemma gk_mmap {A B} (f : A -> RM B) l : (forall x, gk (f x)) -> gk (mmap f l).
Proof.
  intros Hf. induction l as [|x l IH]; cbn [mmap]; [apply gk_ret|]. apply gk_bind; [apply Hf|]. intros. apply gk_bind; [exact IH|]. intros. apply gk_ret.
Qed.
Lemma gk_with {A} i (m : AM A) : akeeps m -> gk (with_arch i m).
Proof.
  intros Hm s Hs. unfold with_arch. destruct (ar_archs (r_ar s) !! i) as [a|] eqn:Ea; [|done].
  specialize (Hm (a, r_env s)). pose proof (Forall_lookup_1 _ _ _ _ Hs Ea) as Hg. cbn beta in Hg.
  destruct (m (a, r_env s)) as [x t|t|]; [..|done]; cbn [fst] in Hm; unfold all_desc; cbn; apply Forall_insert; try done; by rewrite Hm.
Qed.
End gk.
Notation genuine_reg := (all_desc genuine).
Lemma gk_find d : genuine d -> gk genuine (find_or_create_archetype d).
Proof.
  intros Hd s Hs. unfold find_or_create_archetype. destruct (_ || _); [done|]. destruct (ad_len d =? 0); [done|].
  unfold bind at 1, rm_get, get_st. destruct (_ !! _) as [level|]; [|done].
  destruct (binary_search _ _) as [f|ins]; [destruct (_ !! f); [|done]; by destruct (_ <? _)|].
  destruct (_ <=? _)%N; [done|]. unfold bind at 1, rm_env.
  destruct (a_with_capacity d DEFAULT_ARCHETYPE_ALLOCATION_SIZE (r_env s)) as [a e|e|] eqn:E; [|done|done].
  unfold all_desc. cbn. apply Forall_app. split; [exact Hs|]. constructor; [|constructor]. by rewrite (a_with_capacity_desc _ _ _ _ _ E).
Qed.
Lemma genuine_group be G : gd_is_valid (group_desc be G) = true -> genuine (gd_arch (group_desc be G)).
Proof.
  intros Hv. split; [apply group_arch_wf|]. destruct (gspec_exists _ _ Hv) as [s Hs]. rewrite (gs_len _ _ _ Hs), (gs_comps _ _ _ Hs).
  split; [apply Hs|]. apply Forall_map. apply Forall_forall. intros C _. by exists C.
Qed.
Lemma gk_adding c i C : gk genuine (find_or_create_archetype_adding_component c i (cdesc_of C)).
Proof.
  intros s Hs. unfold find_or_create_archetype_adding_component. unfold bind at 1, rm_get, get_st. destruct (_ <? i); [done|].
  destruct (ar_archs (r_ar s) !! i) as [a|] eqn:Ea; [|done]. pose proof (Forall_lookup_1 _ _ _ _ Hs Ea) as (Hw&Hl&Hg).
  destruct (ad_add_component (big c) (a_desc a) (cdesc_of C)) as [[nd|]| |] eqn:E; [|done..].
  destruct (wf_add _ _ _ _ Hw E) as (Hw'&_&Hl'&_&Hp&_).
  unfold bind at 1. cbn [lift_rd]. unfold ret at 1. apply (gk_bind _ (find_or_create_archetype nd)); [apply gk_find|..|done].
  - split; [done|]. split; [lia|]. rewrite Hp. constructor; [by exists C|done].
  - intros [dst|]; [|apply gk_ret]. apply gk_bind; [apply gk_get|]. intros. apply gk_lift.
Qed.
Lemma gk_removing c i C : gk genuine (find_or_create_archetype_removing_component c i (cdesc_of C)).
Proof.
  intros s Hs. unfold find_or_create_archetype_removing_component. unfold bind at 1, rm_get, get_st. destruct (_ <? i); [done|].
  destruct (ar_archs (r_ar s) !! i) as [a|] eqn:Ea; [|done]. pose proof (Forall_lookup_1 _ _ _ _ Hs Ea) as (Hw&Hl&Hg).
  destruct (ad_remove_component (big c) (a_desc a) (cd_id (cdesc_of C))) as [[nd|]| |] eqn:E; [|done..].
  destruct (wf_remove _ _ _ _ Hw Hl E) as (Hw'&_&Hl'&Hb&d&_&Hp).
  unfold bind at 1. cbn [lift_rd]. unfold ret at 1. apply (gk_bind _ (find_or_create_archetype nd)); [apply gk_find|..|done].
  - split; [done|]. split; [lia|]. rewrite Hp in Hg. by apply Forall_cons in Hg as [_ Hg].
  - intros [dst|]; [|apply gk_ret]. apply gk_bind; [apply gk_get|]. intros. apply gk_lift.
Qed.
Create HintDb gk.
#[local] Hint Resolve gk_ret gk_panic gk_ub gk_get gk_rd gk_lift gk_unwrap gk_mdebug gk_er gk_entry gk_adding gk_removing : gk.
#[local] Hint Resolve akeeps_push akeeps_push_uninit akeeps_decrement akeeps_write_single akeeps_swap_drop akeeps_swap_to_last
  akeeps_swap_remove akeeps_copy_common akeeps_write_entity akeeps_write_cell : gk.
Ltac gk :=
  repeat lazymatch goal with
  | |- gk _ (bind _ _) => apply gk_bind; [|intros ?]
  | |- gk _ (with_arch _ _) => apply gk_with
  | |- gk _ (dropping_on_panic _ _) => apply gk_dop
  | |- gk _ (mmap _ _) => apply gk_mmap; intros ?
  | |- gk _ (match ?x with _ => _ end) => destruct x
  | |- gk _ (let x := _ in _) => cbv zeta
  | |- _ => solve [auto 1 with gk nocore]
  end.
Lemma gk_create c G vs : gk genuine (create_entity c G vs).
Proof.
  unfold create_entity. apply gk_dop. cbv zeta. destruct (gd_is_valid (group_desc (big c) G)) eqn:Hv; cbn [negb]; [|apply gk_ret].
  apply gk_bind; [by apply gk_find, genuine_group|]. intros ?. gk.
Qed.
Lemma gk_replace l v : gk genuine (replace_loc l v). Proof. unfold replace_loc. gk. Qed.
#[local] Hint Resolve gk_create gk_replace : gk.
Lemma gk_replaces ls vs : gk genuine (replace_locs ls vs).
Proof. revert vs. induction ls as [|l ls IH]; intros [|v vs]; cbn [replace_locs]; [apply gk_ret..|]. apply gk_bind; [apply gk_replace|]. intros. apply gk_bind; [apply IH|]. intros. apply gk_ret. Qed.
Lemma gk_modify f l : gk genuine (modify_loc f l). Proof. unfold modify_loc. gk. Qed.
#[local] Hint Resolve gk_replaces gk_modify : gk.
Lemma gk_item upd x : gk genuine (modify_item upd x). Proof. unfold modify_item. gk. Qed.
#[local] Hint Resolve gk_item : gk.
Lemma gk_step c o : gk genuine (step c o).
Proof.
  destruct o; cbn [step]; unfold destroy_entity, remove_entity, add_component, remove_component, modify_items, modify_eitems; gk.
Qed.
Lemma gk_calls c r tr r' : calls c r tr r' -> genuine_reg r -> genuine_reg r'.
Proof.
  induction 1 as [|r o out r1 tr r2 E _ IH|r o r1 tr r2 E _ IH]; [done|..]; intros H; pose proof (gk_step c o r H) as Hs; rewrite E in Hs; by apply IH.
Qed.
Lemma reachable_genuine c r : reachable c r -> genuine_reg r.
Proof. intros (oracle&tr&H). apply (gk_calls _ _ _ _ H). constructor. Qed.

(** ** The sizes of stored components *)
Definition sized (d : adesc) : Prop := Forall (fun x => (0 < cd_size x < 65536)%N) (ad_components d).
Lemma inv_sized c r : inv c r -> genuine_reg r -> all_desc sized r.
Proof.
  intros (_&_&Hb) Hg.
  apply Forall_forall. intros a Ha. pose proof (proj2 (proj1 (Forall_forall _ _) Hb a Ha)) as H1.
  pose proof (proj2 (proj2 (proj1 (Forall_forall _ _) Hg a Ha))) as H2. apply Forall_forall. intros x Hx.
  pose proof (proj1 (Forall_forall _ _) H1 x Hx) as Hn. pose proof (proj1 (Forall_forall _ _) H2 x Hx) as [C ->]. cbn in *.
  split; [lia|]. apply N.mod_lt. lia.
Qed.
Lemma reachable_sized c r : reachable c r -> all_desc sized r.
Proof. intros H. eapply inv_sized; [by apply reachable_inv|by eapply reachable_genuine]. Qed.
Lemma typed_size C a i row v : typed_cell C a i row = Rd v -> exists d, a_comps a !! i = Some d /\ ct_size C = cd_size d.
Proof.
  unfold typed_cell. destruct (raw_cell a i row) as [[x|]| |]; cbn [rbind]; try done. destruct (a_comps a !! i) as [d|]; [|done].
  destruct (N.eqb_spec (v_ty x) (ct_ty C)), (N.eqb_spec (ct_size C) (cd_size d)); cbn [andb]; try done. intros _. by exists d.
Qed.
Lemma get_sized c r C h v : reachable c r -> get_component c C h r = Rd (Some v) -> (0 < ct_size C < 65536)%N.
Proof.
  intros H E. unfold get_component in E. destruct (entry_of c r h) as [e|]; [|done]. unfold arch_at in E.
  destruct (ar_archs (r_ar r) !! e_arch c e) as [a|] eqn:Ea; cbn [rbind] in E; [|done]. destruct (negb _); [done|].
  unfold get_component_unchecked in E. destruct (binary_search _ _) as [i|]; [|done].
  destruct (typed_cell C a i (e_row e)) as [x| |] eqn:Et; cbn [rbind] in E; try done. apply typed_size in Et as (d&Hd&->).
  pose proof (Forall_lookup_1 _ _ _ _ (reachable_sized _ _ H) Ea) as Hs. exact (Forall_lookup_1 _ _ _ _ Hs Hd).
Qed.

(** Creating. *)
Lemma mfor_runs {A} (P : A -> adesc -> Prop) (f : A -> AM unit) (l : list A) s s' :
  (forall x, akeeps (f x)) -> (forall x t t', f x t = Ret tt t' -> P x (a_desc t.1)) -> mfor l f s = Ret tt s' ->
  Forall (fun x => P x (a_desc s.1)) l.
Proof.
  intros Hk Hf. revert s. induction l as [|x l IH]; intros s E; [constructor|]. cbn [mfor] in E. unfold bind in E.
  destruct (f x s) as [[] s1| |] eqn:Ex; [|done..]. constructor; [by eapply Hf|]. specialize (IH s1 E). pose proof (Hk x s) as Hd. rewrite Ex in Hd.
  by rewrite <- Hd.
Qed.
Lemma akeeps_Ret {A} (m : AM A) s x s' : akeeps m -> m s = Ret x s' -> a_desc s'.1 = a_desc s.1.
Proof. intros Hm E. specialize (Hm s). by rewrite E in Hm. Qed.
Lemma bind_Ret_inv {S A B} (m : M S A) (k : A -> M S B) s y u : bind m k s = Ret y u -> exists x t, m s = Ret x t /\ k x t = Ret y u.
Proof. unfold bind. destruct (m s) as [x t| |]; [|done..]. intros E. by exists x, t. Qed.
Lemma push_sized c G h vs s n s' : sized (a_desc s.1) -> push_entity_unchecked c G h vs s = Ret n s' -> sized (gd_arch (group_desc (big c) G)).
Proof.
  intros Hs E. unfold push_entity_unchecked in E. cbv zeta in E.
  apply bind_Ret_inv in E as (a0&s0&[= <- <-]&E). apply bind_Ret_inv in E as ([]&s1&E1&E). apply bind_Ret_inv in E as ([]&s2&E2&E).
  apply bind_Ret_inv in E as ([]&s3&E3&E). apply bind_Ret_inv in E as (a4&s4&[= <- <-]&E). apply bind_Ret_inv in E as ([]&s5&E5&E).
  apply bind_Ret_inv in E as ([]&s6&E6&_).
  assert (Hd : a_desc s5.1 = a_desc s.1).
  { apply akeeps_Ret in E1; [|apply akeeps_mdebug]. apply akeeps_Ret in E2; [|apply akeeps_mdebug]. apply akeeps_Ret in E3; [|apply akeeps_resize_if].
    apply akeeps_Ret in E5; [|by apply akeeps_upd]. congruence. }
  unfold write_entity_unchecked in E6. cbv zeta in E6.
  apply bind_Ret_inv in E6 as (a6&s7&[= <- <-]&E). apply bind_Ret_inv in E as ([]&s8&E8&E). apply bind_Ret_inv in E as ([]&s9&E9&E).
  apply bind_Ret_inv in E as ([]&s10&E10&E). apply bind_Ret_inv in E as ([]&s11&E11&_).
  apply (mfor_runs (fun x d => exists d', ad_components d !! x.1 = Some d' /\ cd_size x.2 = cd_size d')) in E11; [|apply akeeps_copy_in|].
  2: { intros [i d] t t' Et. unfold copy_in in Et. apply bind_Ret_inv in Et as (a&t1&[= <- <-]&Et). cbn [fst snd].
       destruct (_ !! i) as [[v|]|]; try done. unfold a_comps in Et. destruct (ad_components (a_desc t.1) !! i) as [d'|] eqn:Ed'; [|done].
       destruct (N.eqb_spec (cd_size d) (cd_size d')); [|done]. by exists d'. }
  assert (Hd' : a_desc s10.1 = a_desc s.1).
  { apply akeeps_Ret in E8; [|apply akeeps_mdebug]. apply akeeps_Ret in E9; [|apply akeeps_mdebug]. apply akeeps_Ret in E10; [|apply akeeps_mdebug]. congruence. }
  rewrite Hd' in E11. unfold sized. apply Forall_forall. intros x Hx. apply elem_of_list_lookup in Hx as [i Hx].
  assert (Hin : (i, x) ∈ enum (ad_components (gd_arch (group_desc (big c) G)))).
  { unfold enum. apply elem_of_list_lookup. exists i. rewrite lookup_zip_with, Hx.
    rewrite lookup_seq_lt by (by eapply lookup_lt_Some). done. }
  destruct (proj1 (Forall_forall _ _) E11 _ Hin) as (d'&Hd1&Hsz). cbn in Hd1, Hsz. rewrite Hsz. exact (Forall_lookup_1 _ _ _ _ Hs Hd1).
Qed.
Lemma dop_Ret_inv {A} vs (m : RM A) s x t : dropping_on_panic vs m s = Ret x t -> m s = Ret x t.
Proof. unfold dropping_on_panic. by destruct (m s). Qed.
Lemma create_sized c r G vs h r' : reachable c r -> create_entity c G vs r = Ret (Ok h) r' ->
  Forall (fun C => (ct_size C mod 65536 <> 0)%N) G.
Proof.
  intros H E. unfold create_entity in E. unfold dropping_on_panic in E. cbv zeta in E.
  destruct (gd_is_valid (group_desc (big c) G)) eqn:Hv; cbn [negb] in E; [|done].
  match goal with _ : match ?m r with _ => _ end = _ |- _ => destruct (m r) as [x t| |] eqn:E'; [|done..] end. injection E as -> ->.
  apply bind_Ret_inv in E' as ([i|]&s1&E1&E); [|done].
  assert (Hs1 : all_desc sized s1).
  { apply (inv_sized c).
    - pose proof (qt_find_or_create c r _ (reachable_inv _ _ H) (group_regular c G) (group_arch_wf _ _)) as Hq. unfold qt in Hq. rewrite E1 in Hq.
      destruct Hq as (ls&He&_). apply He.
    - pose proof (gk_find _ (genuine_group _ _ Hv) r (reachable_genuine _ _ H)) as Hq. by rewrite E1 in Hq. }
  apply bind_Ret_inv in E as (a&s2&E2&E). apply bind_Ret_inv in E as (row&s3&E3&E). apply bind_Ret_inv in E as (ai&s4&E4&E).
  apply bind_Ret_inv in E as ([h'|]&s5&E5&E); [|done]. apply bind_Ret_inv in E as (n&s6&E6&_).
  assert (Hs5 : r_ar s5 = r_ar s1).
  { unfold rm_rd, lift_rd in E2. destruct (arch_at i s1); [|done..]. injection E2 as <- <-.
    destruct (iia_new _); [|done]. injection E3 as <- <-. destruct (ai_new _); [|done]. injection E4 as <- <-.
    unfold rm_er in E5. destruct (er_create_entity _ _ _ _); [|done..]. by injection E5 as _ <-. }
  unfold with_arch in E6. destruct (ar_archs (r_ar s5) !! i) as [a'|] eqn:Ea; [|done].
  destruct (push_entity_unchecked c G h' vs (a', r_env s5)) as [n' t'| |] eqn:Ep; [|done..].
  rewrite Hs5 in Ea. pose proof (push_sized c G h' vs (a', r_env s5) _ _ (Forall_lookup_1 _ _ _ _ Hs1 Ea) Ep) as Hz.
  destruct (gspec_exists _ _ Hv) as [l Hl]. unfold sized in Hz. rewrite (gs_comps _ _ _ Hl) in Hz. rewrite <- (gs_perm _ _ _ Hl).
  rewrite Forall_map in Hz. eapply Forall_impl; [exact Hz|]. intros C [HC _]. cbn in HC. lia.
Qed.

(** Adding. *)
Lemma write_sized C row v s s' : sized (a_desc s.1) -> write_single_component_unchecked C row v s = Ret tt s' -> (0 < ct_size C < 65536)%N.
Proof.
  intros Hs E. unfold write_single_component_unchecked in E. apply bind_Ret_inv in E as (a&s1&[= <- <-]&E).
  destruct (binary_search _ _) as [i|]; [|done]. destruct (a_comps s.1 !! i) as [d|] eqn:Ed; [|done].
  destruct (N.eqb_spec (ct_size C) (cd_size d)) as [->|]; [|done]. exact (Forall_lookup_1 _ _ _ _ Hs Ed).
Qed.

Lemma gk_sized {A} (m : RM A) s x s' : gk sized m -> all_desc sized s -> m s = Ret x s' -> all_desc sized s'.
Proof. intros Hm Hs E. specialize (Hm s Hs). by rewrite E in Hm. Qed.
Lemma add_sized c r C h v r' : reachable c r -> add_component c C h v r = Ret (Ok tt) r' -> (0 < ct_size C < 65536)%N.
Proof.
  intros H E. unfold add_component in E. apply bind_Ret_inv in E as (s&r0&[= <- <-]&E).
  destruct (entry_of c r h) as [e|]; [|done]. cbv zeta in E. apply bind_Ret_inv in E as ([[src dst]|]&r1&E1&E); [|done].
  apply dop_Ret_inv in E1.
  assert (Hs1 : all_desc sized r1).
  { apply (inv_sized c).
    - pose proof (qt_adding c r (e_arch c e) (cdesc_of C) (reachable_inv _ _ H)) as Hq. unfold qt in Hq. rewrite E1 in Hq.
      destruct Hq as (ls&He&_). apply He.
    - pose proof (gk_adding c (e_arch c e) C r (reachable_genuine _ _ H)) as Hq. by rewrite E1 in Hq. }
  apply bind_Ret_inv in E as ([srow drow]&r2&E2&_). apply dop_Ret_inv in E2.
  apply bind_Ret_inv in E2 as (sw&r3&E3&E). apply gk_sized in E3; [|gk|done].
  apply bind_Ret_inv in E as ([]&r4&E4&E). apply gk_sized in E4; [|gk|done].
  apply bind_Ret_inv in E as (n&r5&E5&E). apply gk_sized in E5; [|gk|done].
  apply bind_Ret_inv in E as (sa&r6&E6&E). apply gk_sized in E6; [|gk|done].
  apply bind_Ret_inv in E as (da&r7&E7&E). apply gk_sized in E7; [|gk|done].
  apply bind_Ret_inv in E as (sr&r8&E8&E). apply gk_sized in E8; [|gk|done].
  apply bind_Ret_inv in E as (dr&r9&E9&E). apply gk_sized in E9; [|gk|done].
  apply bind_Ret_inv in E as ([]&r10&E10&E). apply gk_sized in E10; [|gk|done].
  apply bind_Ret_inv in E as ([]&r11&E11&_). unfold with_arch in E11. destruct (ar_archs (r_ar r10) !! dst) as [a|] eqn:Ea; [|done].
  destruct (write_single_component_unchecked C dr v (a, r_env r10)) as [[] t| |] eqn:Ew; [|done..].
  exact (write_sized C dr v (a, r_env r10) t (Forall_lookup_1 _ _ _ _ E10 Ea) Ew).
Qed.

(** ** An archetype that cannot be allocated *)
Definition unfit (x : cdesc) : Prop := cd_size x = 0%N \/ is_pow2 (cd_align x) = false.
Lemma alloc_answer {A} s a n e : ev_oracle e = [] ->
  (mem_alloc (A := A) s a n e = UB /\ (s = 0%N \/ is_pow2 a = false)) \/
  (s <> 0%N /\ is_pow2 a = true /\ exists b e', mem_alloc (A := A) s a n e = Ret (Some b) e' /\ ev_oracle e' = []).
Proof.
  intros Ho. unfold mem_alloc. destruct (N.eqb_spec s 0) as [->|Hs]; cbn [orb]; [left; auto|].
  destruct (is_pow2 a); cbn [negb]; [|left; auto]. right. split; [done|]. split; [done|].
  unfold bind, ask_allocator. rewrite Ho. cbn. eexists _, _. by split.
Qed.
Lemma alloc_columns_unfit ds cap e : ev_oracle e = [] -> Exists unfit ds -> alloc_columns ds cap e = UB.
Proof.
  intros Ho H. revert e Ho. induction ds as [|d ds IH]; intros e Ho; [by inversion H|]. cbn [alloc_columns]. unfold bind at 1.
  destruct (alloc_answer (A := value) (cd_size d * N.of_nat cap)%N (cd_align d) cap e Ho) as [[-> _]|(Hs&Hp&b&e'&->&Ho')]; [done|].
  unfold bind. rewrite IH; [done| |done]. inversion H as [? ? [Hz|Hz]|]; subst; [|congruence|done]. rewrite Hz in Hs. lia.
Qed.
Lemma create_unfit c r G vs : reachable c r -> ev_oracle (r_env r) = [] -> gvalid (big c) G ->
  (forall k, ~ stands r k (gd_arch (group_desc (big c) G))) -> (N.of_nat (length (ar_archs (r_ar r))) < 65534)%N ->
  Exists (fun C => ct_size C mod 65536 = 0 \/ ct_align C mod 65536 = 0)%N G -> create_entity c G vs r = UB.
Proof.
  intros H Ho Hg Hn Hlen Hex. apply (gvalid_iff c G) in Hg as Hv. unfold create_entity, dropping_on_panic. cbv zeta. rewrite Hv. cbn [negb].
  unfold bind at 1.
  enough (Ef : find_or_create_archetype (gd_arch (group_desc (big c) G)) r = UB) by (by rewrite Ef).
  destruct (gspec_exists _ _ Hv) as [l Hl]. pose proof (reachable_inv _ _ H) as (_&Ha&_).
  assert (Hwc : a_with_capacity (gd_arch (group_desc (big c) G)) DEFAULT_ARCHETYPE_ALLOCATION_SIZE (r_env r) = UB).
  { unfold a_with_capacity. unfold bind at 1. rewrite (gs_avalid _ _ _ Hl). cbn [massert]. unfold ret at 1.
    replace ((0 <? DEFAULT_ARCHETYPE_ALLOCATION_SIZE) && (N.of_nat DEFAULT_ARCHETYPE_ALLOCATION_SIZE <=? MAX_ENTITIES_PER_ARCHETYPE)%N) with true by (vm_compute; reflexivity).
    unfold bind at 1. destruct (alloc_answer (A := N) (ENTITY_SIZE * N.of_nat DEFAULT_ARCHETYPE_ALLOCATION_SIZE)%N ENTITY_ALIGN DEFAULT_ARCHETYPE_ALLOCATION_SIZE _ Ho) as [[-> _]|(_&_&b&e'&->&Ho')]; [done|].
    unfold bind. rewrite alloc_columns_unfit; [done|done|]. rewrite (gs_comps _ _ _ Hl). apply Exists_exists in Hex as (C&HC&Hz).
    apply Exists_exists. exists (cdesc_of C). split; [apply elem_of_list_fmap; exists C; split; [done|by rewrite (gs_perm _ _ _ Hl)]|].
    destruct Hz as [Hz|Hz]; [by left|]. right. cbn. by rewrite Hz. }
  pose proof (find_or_create_spec (gd_arch (group_desc (big c) G)) r Ha (group_regular c G)) as Hf.
  destruct (find_or_create_archetype (gd_arch (group_desc (big c) G)) r) as [[i|] s|s|]; [| | |done]; exfalso.
  - destruct Hf as (_&_&Hk&_&[->|(_&_&_&a&_&_&E)]); [by apply (Hn i)|congruence].
  - destruct Hf as [_ [Hf|[_ Hf]]]; [rewrite (gs_avalid _ _ _ Hl) in Hf; done|lia].
  - destruct Hf as (_&_&e'&E). congruence.
Qed.
