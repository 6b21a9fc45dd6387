(** How the calls outside the contract go wrong, continued: where entities are
    stored, and which entities survive a call that panics half-way. *)
From Verif Require Import RegProofs RegOps RegOps2 RegOps3 Refine Observe Clients Faults.
From Verif Require Import MonadProofs DescrProofs SearchProofs ArchProofs ArchOps ArchOps2 ArchOps3 AregProofs EntityProofs EntityTable FnvProofs.
From Verif Require Import SpecEntity SpecObs SpecClient SpecBase SpecWorld.
Local Open Scope nat_scope.

(** ** Which archetype an entity is in (C13) *)
Section place.
  Context (c : cfg).
  Notation be := (big c).
  Lemma entry_loc r h e : entry_of c r h = Some e -> loc_of be (r_er r) h = Some (e_arch c e, e_row e).
  Proof. unfold entry_of, loc_of. by intros ->. Qed.
  Lemma loc_entry r h i j : loc_of be (r_er r) h = Some (i, j) -> exists e, entry_of c r h = Some e /\ e_arch c e = i /\ e_row e = j.
  Proof. unfold loc_of, entry_of. destruct (er_entity_entry be (r_er r) h) as [e|]; [|done]. cbn. intros [= <- <-]. by exists e. Qed.

  Lemma create_placed G vs s h s' : inv c s -> create_entity c G vs s = Ret (Ok h) s' ->
    exists e, entry_of c s' h = Some e /\ stands s' (e_arch c e) (gd_arch (group_desc be G)) /\
      forall h', h' <> h -> loc_of be (r_er s') h' = loc_of be (r_er s) h'.
  Proof.
    intros Hi E. unfold create_entity, dropping_on_panic in E. cbn zeta in E.
    destruct (gd_is_valid (group_desc be G)) eqn:Hv; cbn [negb] in E; [|done].
    unfold bind at 1 in E. pose proof (qt_find_or_create c s _ Hi (group_regular c G) (group_arch_wf be G)) as Hq. unfold qt in Hq.
    pose proof (find_or_create_spec (gd_arch (group_desc be G)) s ltac:(apply Hi) (group_regular c G)) as Hf.
    destruct (find_or_create_archetype _ s) as [[i|] s1|s1|]; try done.
    destruct Hq as (ls&He&_&Hoi). specialize (Hoi i eq_refl). destruct Hf as (_&_&Hia&Eer&_).
    assert (Hi1 : inv c s1) by apply He.
    unfold bind at 1 in E. unfold rm_rd at 1, arch_at at 1, lift_rd in E. destruct (ar_archs (r_ar s1) !! i) as [a|] eqn:Ea; [|done].
    unfold bind at 1 in E. unfold unwrap at 1 in E. destruct (iia_new _) as [row|] eqn:Er; [|done].
    apply iia_lt in Er. unfold ret at 1 in E.
    unfold bind at 1 in E. unfold unwrap at 1, ai_new in E. destruct (N.eqb_spec (N.of_nat i) INVALID_ARCHETYPE_INDEX); [done|].
    unfold ret at 1 in E. pose proof (ai_bound c _ _ Hi1 Hoi) as Hai.
    pose proof Hi1 as (Hr1&Ha1&Hw1). pose proof Hr1 as [F HF]%er_reach_inv.
    unfold bind at 1 in E. unfold rm_er in E.
    destruct (loc_create be (r_er s1) F row (N.of_nat i) HF ltac:(lia) Hai) as [[_ Ec]|(_&h0&r2&F2&Ec&_&_&Hnone&Hloc)]; rewrite Ec in E; [done|].
    unfold bind at 1 in E. unfold with_arch in E. cbn [r_ar r_env] in E. rewrite Ea in E.
    pose proof (akeeps_push c G h0 vs (a, r_env s1)) as Hk.
    destruct (push_entity_unchecked c G h0 vs (a, r_env s1)) as [nn [a' e']| |]; [|done..]. cbn in E, Hk. injection E as <- <-.
    destruct (loc_entry (Reg r2 (set_archs (r_ar s1) (<[i:=a']> (ar_archs (r_ar s1)))) e') h0 i (N.to_nat row)) as (e&Ee&Eea&_).
    { cbn [r_er]. rewrite Hloc, decide_True by done. by rewrite Nat2N.id. }
    exists e. split; [done|]. split.
    - rewrite Eea. exists a'. cbn. rewrite list_lookup_insert by (by eapply lookup_lt_Some). rewrite Hk.
      destruct Hia as (a2&Ea2&H1&H2). rewrite Ea in Ea2. injection Ea2 as <-. done.
    - intros h' Hne. cbn [r_er]. rewrite Hloc, decide_False by done. by rewrite Eer.
  Qed.
  Lemma calls_app r tr r1 tr2 r2 : calls c r tr r1 -> calls c r1 tr2 r2 -> calls c r (tr ++ tr2) r2.
  Proof. induction 1 as [|? ? ? ? ? ? E ? IH|? ? ? ? ? E ? IH]; intros H2; cbn; [done|eapply cs_ret; [exact E|by apply IH]|eapply cs_panic; [exact E|by apply IH]]. Qed.
  Lemma reachable_step r o out r' : reachable c r -> step c o r = Ret out r' -> reachable c r'.
  Proof. intros (orc&tr&Hc) E. exists orc, (tr ++ [(o, Some out)]). eapply calls_app; [exact Hc|]. eapply cs_ret; [exact E|constructor]. Qed.
  Lemma reachable_panic r o r' : reachable c r -> step c o r = Panic r' -> reachable c r'.
  Proof. intros (orc&tr&Hc) E. exists orc, (tr ++ [(o, None)]). eapply calls_app; [exact Hc|]. eapply cs_panic; [exact E|constructor]. Qed.
  (** Two entities created one after the other share an archetype iff the
      tuple types have the same hash and the same length. *)
  Lemma create_twice r G1 vs1 h1 r1 G2 vs2 h2 r2 : reachable c r ->
    create_entity c G1 vs1 r = Ret (Ok h1) r1 -> create_entity c G2 vs2 r1 = Ret (Ok h2) r2 ->
    exists e1 e2, entry_of c r2 h1 = Some e1 /\ entry_of c r2 h2 = Some e2 /\
      (e_arch c e1 = e_arch c e2 <->
        ad_id (gd_arch (group_desc be G1)) = ad_id (gd_arch (group_desc be G2)) /\ length G1 = length G2).
  Proof.
    intros Hr E1 E2. pose proof (reachable_inv c r Hr) as Hi.
    assert (Hr1 : reachable c r1).
    { apply (reachable_step r (OpCreate G1 vs1) (OutCreate (Ok h1))); [done|]. cbn [step]. by rewrite (bind_Ret _ _ _ _ _ E1). }
    assert (Hr2 : calls c r1 [(OpCreate G2 vs2, Some (OutCreate (Ok h2)))] r2).
    { eapply cs_ret; [|constructor]. cbn [step]. by rewrite (bind_Ret _ _ _ _ _ E2). }
    pose proof (reachable_inv c r1 Hr1) as Hi1.
    destruct (create_placed _ _ _ _ _ Hi E1) as (e1&Ee1&Hs1&_). destruct (create_placed _ _ _ _ _ Hi1 E2) as (e2&Ee2&Hs2&Hoth).
    destruct (registry_create c r1 G2 vs2 h2 r2 Hr1 E2) as (Hd&_).
    assert (Hne : h1 <> h2). { intros <-. apply Hd. by exists e1. }
    pose proof (entry_loc _ _ _ Ee1) as El1. rewrite <- Hoth in El1 by done. apply loc_entry in El1 as (e1'&Ee1'&Ea1&_).
    exists e1', e2. split; [done|]. split; [done|]. rewrite Ea1.
    destruct Hs1 as (a1&Ha1&Hid1&Hl1). destruct (calls_evolve c _ _ _ Hr2 Hi1) as (ls&(_&Hi2&Hext)&_).
    destruct (ext_lookup _ _ _ _ Hext Ha1) as (a1'&Ha1'&Ed1). destruct Hs2 as (a2&Ha2&Hid2&Hl2).
    assert (Hlen : forall G vs s h s', create_entity c G vs s = Ret (Ok h) s' -> ad_len (gd_arch (group_desc be G)) = length G).
    { intros G vs s h s' E. destruct (gd_is_valid (group_desc be G)) eqn:Hv; [|by rewrite invalid_create in E].
      destruct (gspec_exists _ _ Hv) as [l Hg]. rewrite (gs_len _ _ _ Hg). by destruct (gspec_NoDup _ _ _ Hg) as (_&_&_&?). }
    rewrite (Hlen _ _ _ _ _ E1) in Hl1. rewrite (Hlen _ _ _ _ _ E2) in Hl2. split.
    - intros E. rewrite E in Ha1'. rewrite Ha2 in Ha1'. injection Ha1' as ->. rewrite <- Hid1, <- Hid2, <- Hl1, <- Hl2, Ed1. done.
    - intros [Eid El]. apply (is_arch_unique (r_ar r2) _ _ (a_desc a2)); [apply Hi2| |].
      + exists a1'. split; [exact Ha1'|]. rewrite Ed1, Hid1, Hl1, Hid2, Hl2. done.
      + by exists a2.
  Qed.
End place.

Section same_place.
  Context {Fm : family} (c : cfg) (U : list ctype) (HU : universe (big c) U).
  Notation be := (big c).
  Lemma together r T w h1 e1 h2 e2 : reg_ok be U r T w -> w !! h1 = Some e1 -> w !! h2 = Some e2 ->
    exists n1 n2, entry_of c r h1 = Some n1 /\ entry_of c r h2 = Some n2 /\
      (e_arch c n1 = e_arch c n2 <-> en_aid e1 = en_aid e2 /\ dom (en_vals e1) = dom (en_vals e2)).
  Proof.
    intros H E1 E2. destruct (live_entry c U _ _ _ _ _ H E1) as (n1&i1&j1&t1&m1&a1&En1&Ei1&Ej1&_&Ht1&Hj1&->&Ha1&Hta1).
    destruct (live_entry c U _ _ _ _ _ H E2) as (n2&i2&j2&t2&m2&a2&En2&Ei2&Ej2&_&Ht2&Hj2&->&Ha2&Hta2).
    exists n1, n2. split; [done|]. split; [done|]. rewrite Ei1, Ei2. cbn [en_aid en_vals].
    destruct (tab_row _ _ HU _ _ _ _ _ Hta1 Hj1) as (Hf1&_&Ety1). destruct (tab_row _ _ HU _ _ _ _ _ Hta2 Hj2) as (Hf2&_&Ety2). split.
    - intros <-. rewrite Ht1 in Ht2. injection Ht2 as <-. split; [done|]. apply set_eq. intros x. rewrite !elem_of_dom. by rewrite (Hf1 x), (Hf2 x).
    - intros [Eid Ed]. eapply (tab_unique be U _ _ _ _ _ _ _ H Ht1 Ht2); [done|].
      assert (types U m1 = types U m2) as Et; [|by rewrite <- Ety1, <- Ety2, Et].
      unfold types. apply list_filter_iff. intros C. by rewrite <- !elem_of_dom, Ed.
  Qed.
  (** ** Components with other ids (C14): any component type, of the universe or not. *)
  Lemma any_component r T w h e C : reg_ok be U r T w -> w !! h = Some e ->
    has_component c C h r = Rd (bool_decide (is_Some (en_vals e !! ct_id C))) /\
    (en_vals e !! ct_id C = None -> get_component c C h r = Rd None).
  Proof.
    intros H Ew. destruct (live_entry c U _ _ _ _ _ H Ew) as (en&i&j&t&m&a&Een&<-&<-&Hrow&Ht&Hj&->&Ha&Hta). cbn [en_vals].
    destruct (tab_facts _ _ _ _ Hta) as (Hd&Hs&_). destruct (tab_row _ _ HU _ _ _ _ _ Hta Hj) as (Hf&_&_).
    assert (E : ad_has_component (a_desc a) C = bool_decide (is_Some (m !! ct_id C))).
    { apply eq_true_iff_eq. rewrite has_component_spec; rewrite (do_comps _ _ Hd), ids_cdesc_of; [|done].
      rewrite bool_decide_eq_true. by rewrite (Hf (ct_id C)). }
    unfold has_component, get_component. rewrite Een, (arch_at_step _ _ _ Ha). cbn [rbind]. rewrite E. split; [done|].
    intros Hn. rewrite bool_decide_eq_false_2; [done|]. rewrite Hn. by intros [? ?].
  Qed.
End same_place.

(** There are only 65536 component ids: among more names, two share one. *)
Lemma NoDup_below (n : N) (l : list N) : NoDup l -> (forall x, x ∈ l -> (x < n)%N) -> (N.of_nat (length l) <= n)%N.
Proof.
  revert l. induction n as [|n IH] using N.peano_ind; intros l Hnd Hl.
  - destruct l as [|x l]; [done|]. specialize (Hl x (elem_of_list_here _ _)). lia.
  - destruct (decide (n ∈ l)) as [Hin|Hin].
    + apply elem_of_Permutation in Hin as [l' Hp]. rewrite Hp in Hnd. apply NoDup_cons in Hnd as [Hn Hnd]. rewrite (Permutation_length Hp). cbn [length].
      specialize (IH l' Hnd). assert (N.of_nat (length l') <= n)%N; [|lia]. apply IH. intros x Hx.
      assert (x < N.succ n)%N by (apply Hl; rewrite Hp; by right). assert (x <> n) by (intros ->; done). lia.
    + assert (N.of_nat (length l) <= n)%N; [|lia]. apply IH; [done|]. intros x Hx. specialize (Hl x Hx). assert (x <> n) by (intros ->; done). lia.
Qed.
Lemma names_collide be (names : list (list N)) : NoDup names -> (65536 < N.of_nat (length names))%N ->
  exists n1 n2, n1 ∈ names /\ n2 ∈ names /\ n1 <> n2 /\ default_component_id be n1 = default_component_id be n2.
Proof.
  intros Hnd Hlen.
  assert (Hdec : (exists i j x y, i <> j /\ names !! i = Some x /\ names !! j = Some y /\ default_component_id be x = default_component_id be y) \/ NoDup (map (default_component_id be) names)).
  { clear Hnd Hlen. induction names as [|x l IH]; [right; constructor|]. destruct IH as [(i&j&y&z&Hne&Hi&Hj&E)|IH].
    - left. exists (S i), (S j), y, z. split; [congruence|done].
    - cbn [map]. destruct (decide (default_component_id be x ∈ map (default_component_id be) l)) as [Hin|Hin]; [|right; by constructor].
      left. change (map ?f l) with (f <$> l) in Hin. apply elem_of_list_fmap in Hin as (y&E&[j Hj]%elem_of_list_lookup). exists 0, (S j), x, y. done. }
  destruct Hdec as [(i&j&x&y&Hne&Hi&Hj&E)|Hm].
  - exists x, y. split; [by eapply elem_of_list_lookup_2|]. split; [by eapply elem_of_list_lookup_2|]. split; [|done].
    intros <-. apply Hne. by eapply NoDup_lookup.
  - exfalso. pose proof (NoDup_below 65536 _ Hm) as Hb. rewrite map_length in Hb.
    assert (N.of_nat (length names) <= 65536)%N; [|lia]. apply Hb. intros z Hz. change (map ?f names) with (f <$> names) in Hz.
    apply elem_of_list_fmap in Hz as (nm&->&_). apply hash_16_bound.
Qed.

(** ** The same in terms of histories *)
Lemma ids_eq l s s' : NoDup (ids_of l) -> (forall C, C ∈ s -> C ∈ l) -> (forall C, C ∈ s' -> C ∈ l) -> ids_of s = ids_of s' -> s = s'.
Proof.
  intros Hnd. revert s'. induction s as [|C s IH]; intros [|C' s'] H1 H2 E; try done. cbn in E. injection E as E1 E2. f_equal.
  - apply (ids_inj l); [done|apply H1; by left|apply H2; by left|done].
  - apply IH; [intros; apply H1; by right|intros; apply H2; by right|done].
Qed.
Section faults.
  Context {Fm : family} (c : cfg) (U : list ctype) (HU : universe (big c) U).
  Notation be := (big c).
  Context (r : reg) (w : world) (I O : list value) (Hh : history c U r w I O).
  Lemma add_thirteen C h v e : w !! h = Some e -> size (en_vals e) = 13 -> C ∈ U -> en_vals e !! ct_id C = None ->
    exists r', add_component c C h v r = Panic r' /\ r_er r' = r_er r /\ r_ar r' = r_ar r /\ ev_trace (r_env r') = ev_trace (r_env r) ++ [EvDrop v].
  Proof.
    intros Ew Hs HC Hn. destruct (history_ok c U HU r w I O Hh) as (T&D&H&_).
    eexists. split; [by eapply (add_13_panics c U HU)|]. done.
  Qed.
  Lemma remove_fourteen C h e : w !! h = Some e -> size (en_vals e) = 14 -> C ∈ U -> is_Some (en_vals e !! ct_id C) ->
    remove_component c C h r = Panic r.
  Proof.
    intros Ew Hs HC [v Hv]. destruct (history_ok c U HU r w I O Hh) as (T&D&H&_). by eapply (remove_14_panics c U HU).
  Qed.
  Lemma gspec_given G s : gvalid be G -> s ≡ₚ G -> strict (ids_of s) -> gspec be G s.
  Proof.
    intros Hg Hp Hs. apply gvalid_iff in Hg. destruct (gspec_exists _ _ Hg) as [s' Hg']. assert (s = s') as ->; [|done].
    assert (E : ids_of s = ids_of s').
    { apply strict_perm_unique; [done|apply Hg'|]. unfold ids_of. by rewrite Hp, (gs_perm _ _ _ Hg'). }
    assert (Hp' : s ≡ₚ s') by (by rewrite Hp, (gs_perm _ _ _ Hg')).
    apply (ids_eq s'); [by apply strict_NoDup, Hg'|intros C HC; by rewrite <- Hp'|done|done].
  Qed.
  Lemma shows_tuple T e G h vs : reg_ok be U r T w -> w !! h = Some e -> in_U U G -> tuple_of (en_vals e) G vs ->
    Forall2 (fun C v => shows c r h C (Some v)) G vs.
  Proof.
    intros H Ew HG Htup. apply Forall2_same_length_lookup. split; [by eapply Forall2_length|]. intros i C v HC Hv.
    apply (obs_shows c U HU _ _ _ _ _ _ H); [apply (in_U_elem _ _ _ HG); by eapply elem_of_list_lookup_2|].
    unfold value_of. rewrite Ew. cbn. symmetry. exact (Forall2_lookup_lr _ _ _ _ _ _ Htup HC Hv).
  Qed.
  Lemma remove_any G s h e : w !! h = Some e -> in_U U G -> gvalid be G -> s ≡ₚ G -> strict (ids_of s) -> NoDup (map ct_ty U) ->
    (s `prefix_of` types U (en_vals e) ->
      exists vs r', remove_entity c G h r = Ret (Some vs) r' /\ Forall2 (fun C v => shows c r h C (Some v)) G vs /\
        ~ alive c r' h /\ others_same c U r r' h /\ r_env r' = r_env r) /\
    (~ s `prefix_of` types U (en_vals e) -> remove_entity c G h r = UB).
  Proof.
    intros Ew HG Hg Hp Hs Hnt. destruct (history_ok c U HU r w I O Hh) as (T&D&H&_). pose proof (gspec_given _ _ Hg Hp Hs) as Hgs. split.
    - intros Hpre. destruct (remove_prefix c U HU r T w G s h e H Ew HG Hgs Hpre) as (vs&r'&T'&E&Htup&H'&Henv&_).
      exists vs, r'. split; [done|]. split; [|split; [|split; [|done]]].
      + apply (shows_tuple T e); [done..|exact Htup].
      + rewrite (obs_alive c U _ _ _ _ H'), lookup_delete. by intros [? ?].
      + intros h' Hne. eapply (obs_same c U HU); [exact H|exact H'|]. by rewrite lookup_delete_ne.
    - intros Hpre. by eapply (remove_other_ub c U HU).
  Qed.
  (** Invalid tuple types. *)
  Lemma invalid_live_calls G h e : w !! h = Some e -> gd_is_valid (group_desc be G) = false -> G <> [] ->
    has_components c G h r = Rd true /\
    get_components c G h r = (if dbg c then RdPanic else RdUB) /\ get_components_mut c G h r = (if dbg c then RdPanic else RdUB).
  Proof.
    intros Ew Hv HG. destruct (history_ok c U HU r w I O Hh) as (T&D&H&_).
    split; [by eapply (invalid_has c U)|by eapply (invalid_get_live c U)].
  Qed.
  Lemma invalid_take G h e : w !! h = Some e -> in_U U G -> G <> [] -> gd_is_valid (group_desc be G) = false -> NoDup (map ct_ty U) ->
    exists C0 v0, head (types U (en_vals e)) = Some C0 /\ shows c r h C0 (Some v0) /\
      ((forall C, C ∈ G -> C = C0) ->
         exists r', remove_entity c G h r = Ret (Some (map (fun _ => v0) G)) r' /\ ~ alive c r' h /\ others_same c U r r' h /\ r_env r' = r_env r) /\
      ((exists C, C ∈ G /\ C <> C0) -> remove_entity c G h r = UB).
  Proof.
    intros Ew HG HGn Hv Hnt. destruct (history_ok c U HU r w I O Hh) as (T&D&H&_).
    destruct (invalid_remove c U HU r T w G h e H Ew HG HGn Hv Hnt) as (C0&v0&Hhd&Hv0&H1&H2). exists C0, v0. split; [done|].
    split; [|split; [|done]].
    - apply (obs_shows c U HU _ _ _ _ _ _ H).
      + apply head_Some_elem_of in Hhd. by apply elem_of_list_filter in Hhd as [_ ?].
      + unfold value_of. by rewrite Ew.
    - intros Hall. destruct (H1 Hall) as (r'&T'&E&H'&Henv&_). exists r'. split; [done|]. split; [|split; [|done]].
      + rewrite (obs_alive c U _ _ _ _ H'), lookup_delete. by intros [? ?].
      + intros h' Hne. eapply (obs_same c U HU); [exact H|exact H'|]. by rewrite lookup_delete_ne.
  Qed.
  Lemma together_history h1 e1 h2 e2 : w !! h1 = Some e1 -> w !! h2 = Some e2 ->
    exists n1 n2, entry_of c r h1 = Some n1 /\ entry_of c r h2 = Some n2 /\
      (e_arch c n1 = e_arch c n2 <-> en_aid e1 = en_aid e2 /\ dom (en_vals e1) = dom (en_vals e2)).
  Proof. destruct (history_ok c U HU r w I O Hh) as (T&D&H&_). by eapply (together c U HU). Qed.
  Lemma any_component_history h e C : w !! h = Some e ->
    has_component c C h r = Rd (bool_decide (is_Some (en_vals e !! ct_id C))) /\
    (en_vals e !! ct_id C = None -> get_component c C h r = Rd None).
  Proof. destruct (history_ok c U HU r w I O Hh) as (T&D&H&_). by eapply (any_component c U HU). Qed.
End faults.
(** Calls with invalid tuple types that need no live entity. *)
Lemma invalid_calls c G r : gd_is_valid (group_desc (big c) G) = false ->
  (forall vs, step c (OpCreate G vs) r = Ret (OutCreate (Err vs)) r) /\
  (forall f upd, Forall (fun o => step c o r = if dbg c then Panic r else Ret (OutCols []) r) [OpIter G; OpIterF G f; OpIterMut G upd; OpIterFMut G f upd]) /\
  (forall f upd, Forall (fun o => step c o r = if dbg c then Panic r else Ret (OutECols []) r) [OpIterE G; OpIterEF G f; OpIterEMut G upd; OpIterEFMut G f upd]) /\
  (forall upd, Forall (fun o => step c o r = Ret (OutCols [map (fun _ => []) G]) r) [OpExact G; OpExactMut G upd]) /\
  (forall upd, Forall (fun o => step c o r = Ret (OutECols [([], map (fun _ => []) G)]) r) [OpExactE G; OpExactEMut G upd]).
Proof.
  intros Hv.
  assert (Hmod : forall upd (s : reg), modify_item upd (empty_slices G) s = Ret (empty_slices G) s).
  { intros upd s. unfold modify_item.
    assert (Hg : forall k, mmap (fun '(i, col) => mmap (modify_loc (upd i)) col) (zip (seq k (length (empty_slices (A:=loc) G))) (empty_slices G)) s = Ret (empty_slices G) s).
    { clear Hv. unfold empty_slices. induction G as [|C G' IH]; intros k; [done|]. cbn [map length seq zip_with mmap].
      rewrite bind_ret_l. rewrite (bind_Ret _ _ _ _ _ (IH (S k))). done. }
    apply Hg. }
  repeat split; intros; repeat constructor; cbn [step].
  all: try (rewrite (bind_Ret _ _ _ _ _ (invalid_create c G Hv _ r)); done).
  all: unfold iter_components_matching, iter_filtered_components_matching, iter_components_matching_mut, iter_filtered_components_matching_mut,
    iter_entity_components_matching, iter_filtered_entity_components_matching, iter_entity_components_matching_mut, iter_filtered_entity_components_matching_mut,
    iter_components_exact, iter_components_exact_mut, iter_entity_components_exact, iter_entity_components_exact_mut, bind, rm_rd, lift_rd.
  all: rewrite ?(invalid_collect c G Hv), ?(invalid_exact c G Hv).
  all: cbn [rbind].
  all: try (destruct (dbg c); done).
  all: unfold modify_items, modify_eitems; cbn [mmap]; unfold bind; by rewrite Hmod.
Qed.
Lemma not_gvalid c G : ~ gvalid (big c) G -> gd_is_valid (group_desc (big c) G) = false.
Proof. intros H. destruct (gd_is_valid (group_desc (big c) G)) eqn:E; [|done]. destruct H. by apply gvalid_iff. Qed.
