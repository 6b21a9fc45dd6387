(** Programs that fill archetypes do what SpecBrim.v says (C65). *)
From Verif Require Import RegModel Instances SpecTrace SpecEntity EntityProofs EntityTable SearchProofs DescrProofs MonadProofs ArchProofs ArchOps ArchOps2 ArchOps3 AregProofs IterProofs RegProofs RegOps RegOps2 RegOps3 RegIter RegMut RegExact Refine SpecObs SpecClient Observe Sizes Clients Overflow Faults Faults2 Ref Events Events2 Total SpecBase SpecWorld SpecRef SpecEvents SpecTotal SpecBrim.
Local Open Scope nat_scope.

(** A loop whose rounds leave the state alone or are undefined. *)
Lemma mfor_ub {S A} (l : list A) (f : A -> M S unit) s :
  (forall x, x ∈ l -> f x s = Ret tt s \/ f x s = UB) -> (exists x, x ∈ l /\ f x s = UB) -> mfor l f s = UB.
Proof.
  induction l as [|y l IH]; intros H (x&Hx&Ex); [by apply elem_of_nil in Hx|]. cbn [mfor]. unfold bind.
  destruct (H y (elem_of_list_here _ _)) as [E|E]; rewrite E; [|done]. apply IH; [intros; apply H; by right|].
  apply elem_of_cons in Hx as [->|Hx]; [by rewrite E in Ex|by exists x].
Qed.
Lemma mfor_quiet {S A} (l : list A) (f : A -> M S unit) s :
  (forall x, x ∈ l -> f x s = Ret tt s \/ f x s = UB) -> mfor l f s = Ret tt s \/ mfor l f s = UB.
Proof.
  induction l as [|y l IH]; intros H; [by left|]. cbn [mfor]. unfold bind.
  destruct (H y (elem_of_list_here _ _)) as [E|E]; rewrite E; [|by right]. apply IH. intros; apply H. by right.
Qed.
Lemma elem_enum {A} (l : list A) i x : (i, x) ∈ enum l -> l !! i = Some x.
Proof.
  intros [k Hk]%elem_of_list_lookup. unfold enum in Hk. apply lookup_zip_with_Some in Hk as (a&b&[= -> ->]&Ha&Hb).
  apply lookup_seq in Ha as [-> _]. done.
Qed.
Lemma enum_elem {A} (l : list A) i x : l !! i = Some x -> (i, x) ∈ enum l.
Proof.
  intros H. apply elem_of_list_lookup. exists i. unfold enum. apply lookup_zip_with_Some. exists i, x. split; [done|]. split; [|done].
  apply lookup_seq. split; [done|]. by eapply lookup_lt_Some.
Qed.

Lemma bind_tail {S A B C X} (p : M S A) (f : A -> M S B) (q : M S C) (K : M S X) s s2 :
  bind p (fun a => bind (f a) (fun _ => bind q (fun _ => ret tt))) s = Ret tt s2 ->
  bind p (fun a => bind (f a) (fun _ => bind q (fun _ => K))) s = K s2.
Proof.
  unfold bind. destruct (p s) as [a s1|s1|]; [|done..]. destruct (f a s1) as [b s3|s3|]; [|done..].
  destruct (q s3) as [x s4|s4|]; [|done..]. unfold ret. by intros [= ->].
Qed.

(** ** Copying a row to an archetype without memory *)
Section null.
  Context {K : caps}.
  Context (d : adesc) (cs : list ctype) (Hd : desc_ok d cs).
  Lemma copy_null sd scs sa srows sr h m ps n k e :
    desc_ok sd scs -> a_desc sa = sd -> arch_ok sa scs srows -> srows !! sr = Some (h, m) ->
    (forall c c', c ∈ scs -> c' ∈ cs -> ct_id c = ct_id c' -> c = c') -> (exists c, c ∈ scs /\ c ∈ cs) ->
    (forall i, i < length cs -> ps !! i = Some None) ->
    copy_common_components sa sr n (Arch d ps None k 0, e) = UB.
  Proof.
    intros Hsd Esd Hsok Hsr Hcomp (c&Hc&Hc') Hnull. unfold copy_common_components. unfold bind at 1, am_get at 1. cbn [fst].
    assert (Hcomps : a_comps (Arch d ps None k 0) = map cdesc_of cs) by (apply (do_comps _ _ Hd)).
    rewrite Hcomps, (ok_comps sd scs Hsd _ _ Esd Hsok).
    assert (Hin : forall si cA di cB, scs !! si = Some cA -> cs !! di = Some cB ->
      (if negb (cd_id (cdesc_of cA) =? cd_id (cdesc_of cB))%N then ret tt
       else if negb (cd_size (cdesc_of cA) =? cd_size (cdesc_of cB))%N then mub
       else let! cell := lift_rd (raw_cell sa si sr) in write_cell di n cell) (Arch d ps None k 0, e) =
      if decide (cA = cB) then UB else Ret tt (Arch d ps None k 0, e)).
    { intros si cA di cB HA HB. cbn [cd_id cdesc_of]. destruct (decide (cA = cB)) as [->|Hne].
      - rewrite !N.eqb_refl. cbn [negb]. assert (Hrow : row_ok scs (h, m)) by (destruct Hsok as (_&_&_&HFs&_); exact (Forall_lookup_1 _ _ _ _ HFs Hsr)).
        destruct (row_ok_get _ _ _ _ Hrow HA) as (v&Hv&_). cbn [snd] in Hv.
        destruct (typed_cell_ok sd scs Hsd sa srows sr h m si cB v Esd Hsok Hsr HA Hv) as [_ Hraw]. rewrite Hraw.
        erewrite bind_Ret; [|done]. unfold write_cell. cbn [fst a_ptrs].
        rewrite Hnull; [done|]. by eapply lookup_lt_Some.
      - destruct (N.eqb_spec (ct_id cA) (ct_id cB)) as [E|]; [|done]. exfalso. apply Hne, Hcomp; [by eapply elem_of_list_lookup_2..|done]. }
    assert (Hi : forall si cA, scs !! si = Some cA -> forall x, x ∈ enum (map cdesc_of cs) ->
      (let '(di, dd) := x in
       if negb (cd_id (cdesc_of cA) =? cd_id dd)%N then ret tt
       else if negb (cd_size (cdesc_of cA) =? cd_size dd)%N then mub
       else let! cell := lift_rd (raw_cell sa si sr) in write_cell di n cell) (Arch d ps None k 0, e) = Ret tt (Arch d ps None k 0, e) \/
      (let '(di, dd) := x in
       if negb (cd_id (cdesc_of cA) =? cd_id dd)%N then ret tt
       else if negb (cd_size (cdesc_of cA) =? cd_size dd)%N then mub
       else let! cell := lift_rd (raw_cell sa si sr) in write_cell di n cell) (Arch d ps None k 0, e) = UB).
    { intros si cA HA [di dd] Hx. apply elem_enum in Hx. change (map cdesc_of cs) with (cdesc_of <$> cs) in Hx. rewrite list_lookup_fmap in Hx.
      destruct (cs !! di) as [cB|] eqn:HB; [|done]. injection Hx as <-. rewrite (Hin si cA di cB HA HB). case_decide; [by right|by left]. }
    apply mfor_ub.
    - intros [si sd0] Hx. apply elem_enum in Hx. change (map cdesc_of scs) with (cdesc_of <$> scs) in Hx. rewrite list_lookup_fmap in Hx.
      destruct (scs !! si) as [cA|] eqn:HA; [|done]. injection Hx as <-. apply mfor_quiet. by apply Hi.
    - apply elem_of_list_lookup in Hc as [si HA], Hc' as [di HB]. exists (si, cdesc_of c). split.
      + apply enum_elem. change (map cdesc_of scs) with (cdesc_of <$> scs). by rewrite list_lookup_fmap, HA.
      + apply mfor_ub; [by apply Hi|]. exists (di, cdesc_of c). split.
        * apply enum_elem. change (map cdesc_of cs) with (cdesc_of <$> cs). by rewrite list_lookup_fmap, HB.
        * by rewrite (Hin si c di c HA HB), decide_True.
  Qed.
End null.

Section main.
  Context {Fm : family} (c : cfg) (U : list ctype) (HU : universe (big c) U) (Hnt : NoDup (map ct_ty U)).
  Notation be := (big c).

  (** ** Moving an entity into a full archetype *)
  (** An entity of archetype [i] is about to move to archetype [d], which is full. *)
  Definition ready (r : reg) (i d j : nat) (h : N) (en : entry) : Prop :=
    exists T w t td a ad m,
      reg_ok be U r T w /\ i <> d /\ T !! i = Some t /\ T !! d = Some td /\
      ar_archs (r_ar r) !! i = Some a /\ ar_archs (r_ar r) !! d = Some ad /\ tab_ok be U a t /\ tab_ok be U ad td /\
      t_rows t !! j = Some (h, m) /\ entry_index_in_archetype en = N.of_nat j /\
      (8388608 <= N.of_nat (length (t_rows td)))%N /\ (exists C, C ∈ t_cs t /\ C ∈ t_cs td).
  (** The move up to the copy; the copy meets an archetype without memory. *)
  Definition front (j : nat) (en : entry) (i d : nat) : RM unit :=
    let! swapped := with_arch i (swap_to_last_unchecked c j) in
    (if (swapped : bool) then
      let! a := rm_rd (arch_at i) in
      let! h' := lift_rd (entity_at a j) in
      update_entry c h' (fun e' => entry_set_index_in_archetype e' (entry_index_in_archetype en))
    else ret tt) ;;!
    let! _ := with_arch d push_uninitialized_entity in ret tt.
  Lemma front_runs r i d j h en : ready r i d j h en ->
    exists r2 sa da cs cs' srow drow, front j en i d r = Ret tt r2 /\ i <> d /\ ar_archs (r_ar r2) !! i = Some sa /\ ar_archs (r_ar r2) !! d = Some da /\
      a_comps sa = map cdesc_of cs /\ a_comps da = map cdesc_of cs' /\ (forall k, k < length cs' -> a_ptrs da !! k = Some None) /\
      (forall C C', C ∈ cs -> C' ∈ cs' -> ct_id C = ct_id C' -> C = C') /\ (exists C, C ∈ cs /\ C ∈ cs') /\ (forall k, k < length cs -> is_Some (a_ptrs sa !! k)) /\
      last_row c sa = Rd srow /\ last_row c da = Rd drow /\ copy_common_components sa srow drow (da, r_env r2) = UB.
  Proof.
    intros (T&w&t&td&a&ad&m&H&Hne&Ht&Htd&Ha&Had&Hta&Htad&Hj&Hen&Hfull&Hcommon).
    pose proof Hta as (_&Hok&Hin&_). pose proof (proj1 Hok) as Hds. pose proof Htad as (_&Hokd&Hind&_). pose proof (proj1 Hokd) as Hdd.
    pose proof (row_cap _ _ _ _ Hta) as Hcap. pose proof (lookup_lt_Some _ _ _ Hj) as Hjlt.
    destruct (swap_to_last_ok (a_desc a) (t_cs t) Hds c a _ j (r_env r) eq_refl Hok Hjlt) as (sa&Es&Esd&Esc&Hsok).
    destruct (ro_er _ _ _ _ _ H) as [F Her].
    set (r1 := put_arch r i sa (r_env r)).
    assert (Ha1 : ar_archs (r_ar r1) !! i = Some sa) by (by eapply put_arch_at).
    destruct (fixup_ok c entity_at r1 T i j h m t sa en F) as (rg&Ef&Hinv1&Hlen1&Hloc1); [apply H|done|done|done|done| |done|lia|].
    { intros hl Hmv. unfold moved in Hmv. destruct (is_last j (length (t_rows t))) eqn:El; [done|].
      destruct (t_rows t !! (length (t_rows t) - 1)) as [[hl' ml]|] eqn:El2; [|done]. cbn in Hmv. injection Hmv as ->.
      assert (Hjs : swapl j (length (t_rows t) - 1) (t_rows t) !! j = Some (hl, ml)).
      { rewrite swapl_lookup by lia. unfold swp. by rewrite decide_True. }
      by eapply entity_at_ok. }
    change (Reg rg (r_ar r1) (r_env r1)) with (Reg rg (r_ar (put_arch r i sa (r_env r))) (r_env r)) in Ef. rewrite (put2_start r i d ad Hne Had) in Ef.
    assert (Ecap : a_cap ad = length (t_rows td)).
    { destruct Hokd as (_&Hcapd&Hle&_). apply capok_max in Hcapd. lia. }
    destruct (full_resize (a_desc ad) (t_cs td) Hdd ad (t_rows td) (r_env r) eq_refl Hokd Ecap Hfull (ro_oracle _ _ _ _ _ H)) as (ps&e1&Er&Hnull).
    set (da := Arch (a_desc ad) ps None (S (length (t_rows td))) 0).
    assert (Ep : push_uninitialized_entity (ad, r_env r) = Ret (length (t_rows td)) (da, e1)).
    { unfold push_uninitialized_entity. by rewrite (bind_Ret _ _ _ _ _ Er). }
    assert (Hcomp : forall c0 c', c0 ∈ t_cs t -> c' ∈ t_cs td -> ct_id c0 = ct_id c' -> c0 = c').
    { intros c0 c' H1 H2. apply (ids_inj U); [apply (U_nodup _ _ HU)|by apply (in_U_elem _ _ _ Hin)|by apply (in_U_elem _ _ _ Hind)]. }
    pose proof (copy_null (a_desc ad) (t_cs td) Hdd (a_desc a) (t_cs t) sa _ _ h m ps (length (t_rows td)) (S (length (t_rows td))) e1 Hds Esd Hsok
      (moving_last _ _ _ _ Hj) Hcomp Hcommon Hnull) as Ecp. fold da in Ecp.
    exists (put2 r i sa d da rg e1), sa, da, (t_cs t), (t_cs td), (length (t_rows t) - 1), (length (t_rows td)). split.
    { unfold front. rewrite (bind_Ret _ _ _ _ _ (with_arch_Ret _ _ _ _ _ _ _ Ha Es)). fold r1.
      erewrite bind_Ret; [|exact Ef].
      erewrite bind_Ret; [|eapply with_arch_Ret; [by eapply put2_dst|exact Ep]]. by rewrite put2_put_dst. }
    split; [done|]. split; [by eapply put2_src|]. split; [by eapply put2_dst|].
    split; [exact (ok_comps _ _ Hds _ _ Esd Hsok)|]. split; [apply (do_comps _ _ Hdd)|]. split; [exact Hnull|]. split; [done|]. split; [done|].
    split.
    { pose proof Hsok as (_&_&_&_&C&Hh&Ea&(HlC&_&_)&_). intros k [B HB]%lookup_lt_is_Some. destruct (lookup_lt_is_Some_2 C k) as [cl Hcl].
      { rewrite HlC. by eapply lookup_lt_Some. }
      rewrite Ea. eexists. by apply colbs_lookup. }
    split; [rewrite (last_row_ok _ c _ _ Hsok) by (rewrite swapl_length; lia); by rewrite swapl_length|]. split; [done|]. exact Ecp.
  Qed.
  Lemma move_front_ub {A} r i d j h en (k : arch -> nat -> nat -> RM A) : ready r i d j h en -> move_front c j en i d k r = UB.
  Proof.
    intros (r2&sa&da&cs&cs'&srow&drow&Ef&Hne&Hs&Hd&_&_&_&_&_&_&El&El'&Ecp)%front_runs. unfold move_front. unfold front in Ef. rewrite (bind_tail _ _ _ _ _ _ Ef).
    erewrite bind_Ret; [|by apply arch_at_Rd]. erewrite bind_Ret; [|by apply arch_at_Rd].
    rewrite El. erewrite bind_Ret; [|done]. rewrite El'. erewrite bind_Ret; [|done].
    unfold bind, with_arch. by rewrite Hd, Ecp.
  Qed.

  (** ** Archetypes that hold something have 1 to 14 components *)
  Lemma crowd_tab r T w aid l : reg_ok be U r T w -> 0 < crowd U w aid l ->
    exists i t a, T !! i = Some t /\ ar_archs (r_ar r) !! i = Some a /\ tab_ok be U a t /\ t_id t = aid /\ ids_of (t_cs t) = l.
  Proof.
    intros H Hpos.
    assert (Hex : exists h e, w !! h = Some e /\ en_aid e = aid /\ ids_of (types U (en_vals e)) = l).
    { unfold crowd in Hpos. set (f := filter _ w) in Hpos. destruct (map_to_list f) as [|[h e] l'] eqn:E.
      - unfold size, map_size in Hpos. rewrite E in Hpos. cbn in Hpos. lia.
      - assert (Hhe : f !! h = Some e) by (apply elem_of_map_to_list; rewrite E; left).
        apply map_filter_lookup_Some in Hhe as [? [? ?]]. by exists h, e. }
    destruct Hex as (h&e&Hw&Ea&Ei). apply (ro_repr _ _ _ _ _ H) in Hw as (i&t&m&Ht&Hm&->). cbn in Ea, Ei.
    destruct (ro_tab _ _ _ _ _ _ _ H Ht) as (a&Ha&Hta). exists i, t, a. split; [done|]. split; [done|]. split; [done|]. split; [done|].
    assert (Et : types U m = t_cs t). { apply elem_of_list_lookup in Hm as [j Hj]. by eapply tab_row. }
    by rewrite <- Et.
  Qed.
  Lemma crowd_max r T w aid l : reg_ok be U r T w -> (N.of_nat (crowd U w aid l) <= 8388608)%N.
  Proof.
    intros H. destruct (decide (crowd U w aid l = 0)) as [->|Hn]; [lia|].
    destruct (crowd_tab r T w aid l H ltac:(lia)) as (i&t&a&Ht&Ha&Hta&<-&<-). rewrite (crowd_rows _ _ HU _ _ _ _ _ H Ht).
    destruct Hta as (_&(_&Hcap&Hle&_)&_). apply capok_max in Hcap. lia.
  Qed.
  Lemma brim_tab r T w e : reg_ok be U r T w -> brimful U w e = true ->
    exists i t a, T !! i = Some t /\ ar_archs (r_ar r) !! i = Some a /\ tab_ok be U a t /\ t_id t = en_aid e /\ ids_of (t_cs t) = ids_of (types U (en_vals e)) /\
      1 <= length (types U (en_vals e)) <= 14 /\ (8388608 <= N.of_nat (length (t_rows t)))%N.
  Proof.
    intros H Hb%N.leb_le. assert (Hpos : 0 < crowd U w (en_aid e) (ids_of (types U (en_vals e)))) by lia.
    destruct (crowd_tab r T w _ _ H Hpos) as (i&t&a&Ht&Ha&Hta&E1&E2).
    exists i, t, a. split; [done|]. split; [done|]. split; [done|]. split; [done|]. split; [done|]. split.
    - destruct (tab_facts _ _ _ _ Hta) as (Hd&_&_&H14&_). pose proof (do_pos _ _ Hd).
      assert (length (types U (en_vals e)) = length (t_cs t)) as ->; [|lia].
      rewrite <- (map_length ct_id (t_cs t)), <- (map_length ct_id (types U (en_vals e))). by rewrite E2.
    - rewrite <- E1, <- E2, (crowd_rows _ _ HU _ _ _ _ _ H Ht) in Hb. done.
  Qed.

  (** ** add_component and remove_component *)
  Lemma add_ready r T w C h v e : reg_ok be U r T w -> w !! h = Some e -> C ∈ U -> en_vals e !! ct_id C = None -> size (en_vals e) <> 13 ->
    in_use U (derived be U (<[ct_id C := v]> (en_vals e))) -> brimful U w (derived be U (<[ct_id C := v]> (en_vals e))) = true ->
    exists en d r1, entry_of c r h = Some en /\ dropping_on_panic [v] (find_or_create_archetype_adding_component c (e_arch c en) (cdesc_of C)) r = Ret (Some (e_arch c en, d)) r1 /\
      find_or_create_archetype_adding_component c (e_arch c en) (cdesc_of C) r = Ret (Some (e_arch c en, d)) r1 /\
      ready r1 (e_arch c en) d (e_row en) h en.
  Proof.
    intros H Ew HC Hnone Hn13 Huse Hbrim.
    destruct (brim_tab _ _ _ _ H Hbrim) as (i0&t0&a0&Ht0&Ha0&Hta0&Eid0&Eids0&Hl0&Hfull0). cbn [derived en_aid en_vals] in *.
    destruct (live_entry c U _ _ _ _ _ H Ew) as (en&i&j&t&m&a&Een&Ei&Ej&Hrow&Ht&Hj&->&Ha&Hta). cbn [en_vals] in *.
    destruct (tab_facts _ _ _ _ Hta) as (Hd&Hst&Hnd&H14&Hlen&_). destruct (tab_row _ _ HU _ _ _ _ _ Hta Hj) as (Hfull&Hfit&Ety).
    pose proof (full_size _ _ Hnd Hfull) as Hsize.
    assert (Hfind : find_or_create_archetype_adding_component c i (cdesc_of C) r =
      (let! od := lift_rd (ad_add_component be (a_desc a) (cdesc_of C)) in match od with None => ret None | Some nd => find_dst i nd end) r).
    { unfold find_or_create_archetype_adding_component. rewrite rm_get_step, Ha.
      rewrite (proj2 (Nat.ltb_ge _ _)); [done|]. apply Nat.lt_le_incl. by eapply lookup_lt_Some. }
    assert (HnC' : cd_id (cdesc_of C) ∉ ids (ad_components (a_desc a))).
    { rewrite (do_comps _ _ Hd), ids_cdesc_of. cbn. intros Hx. apply Hfull in Hx as [? ?]. congruence. }
    assert (Hn14 : length (t_cs t) < 14).
    { assert (Hf1 : length (types U (<[ct_id C := v]> m)) = size (<[ct_id C := v]> m)).
      { symmetry. apply full_size; [apply strict_NoDup, (types_strict _ _ HU)|]. apply full_types. intros x [Hx|[_ Hx]]%lookup_insert_is_Some.
        - rewrite <- Hx. apply elem_of_ids. by exists C.
        - apply Hfull in Hx. apply elem_of_ids in Hx as (C'&HC'&<-). apply elem_of_ids. exists C'. split; [|done]. eapply in_U_elem; [apply Hta|done]. }
      rewrite map_size_insert_None in Hf1 by done. lia. }
    destruct (add_component_spec be (a_desc a) (cdesc_of C) (do_wf _ _ Hd)) as (nd&k&Eadd&_); [lia|done|].
    destruct (add_desc c U HU _ _ _ _ _ _ v _ Hta Hj HC Eadd) as (cs'&Hwf&Hcomp&Hin'&Hp&Ety'&Hid&Hfull').
    pose proof (Permutation_length Hp) as Hlen'. cbn in Hlen'. rewrite Ety' in *. rewrite <- Hid in *. rewrite Eadd in Hfind.
    unfold in_use in Huse. cbn [derived en_vals en_aid] in Huse. rewrite Ety', <- Hid in Huse. specialize (Huse ltac:(rewrite map_length; lia)).
    destruct (find_dst_ok c U HU r T w i t nd cs' H Ht Hwf Hcomp Hin' ltac:(lia) ltac:(lia) Huse Hid)
      as [[Ef Hc]|(Hv&Hnf&d&r1&T1&td&Ef&Eer&H1&Ht1&Htd&Hne&Htid&Htcs&Hev&Eop)].
    { exfalso. destruct Hc as [Hx|[_ HF]].
      - destruct Hta0 as (Hx0&Hok0&_). pose proof (do_valid _ _ (proj1 Hok0)) as Hv0. unfold ad_is_valid, aid_is_valid, AID_INVALID in Hv0.
        rewrite Hx0, Eid0, Hx in Hv0. done.
      - rewrite Forall_forall in HF. apply (HF a0); [by eapply elem_of_list_lookup_2|]. destruct (tab_facts _ _ _ _ Hta0) as (_&_&_&_&Hl&_).
        destruct Hta0 as (Hx0&_). split; [congruence|]. rewrite Hl. rewrite <- (map_length ct_id (t_cs t0)), <- (map_length ct_id cs'). by rewrite Eids0. }
    destruct (ro_tab _ _ _ _ _ _ _ H1 Htd) as (ad&Had&Htad). destruct (ro_tab _ _ _ _ _ _ _ H1 Ht1) as (a1&Ha1&Hta1).
    assert (Hrows : (8388608 <= N.of_nat (length (t_rows td)))%N).
    { rewrite <- (crowd_rows _ _ HU _ _ _ _ _ H1 Htd), Htid, Htcs, <- Eids0, <- Eid0. by rewrite (crowd_rows _ _ HU _ _ _ _ _ H Ht0). }
    exists en, d, r1. split; [done|]. rewrite Ei, Ej. split; [apply dop_Ret; rewrite Hfind; exact Ef|]. split; [rewrite Hfind; exact Ef|].
    exists T1, w, t, td, a1, ad, m. do 11 (split; [done|]).
    destruct (t_cs t) as [|C0 l0] eqn:Etc; [pose proof (do_pos _ _ Hd); cbn in *; lia|]. exists C0. split; [by left|]. rewrite Htcs, Hp. right. by left.
  Qed.
  Lemma add_brim r T w C h v e : reg_ok be U r T w -> w !! h = Some e -> C ∈ U -> en_vals e !! ct_id C = None -> size (en_vals e) <> 13 ->
    in_use U (derived be U (<[ct_id C := v]> (en_vals e))) -> brimful U w (derived be U (<[ct_id C := v]> (en_vals e))) = true ->
    step c (OpAdd C h v) r = UB.
  Proof.
    intros H Ew HC Hnone Hn13 Huse Hbrim. destruct (add_ready r T w C h v e H Ew HC Hnone Hn13 Huse Hbrim) as (en&d&r1&Een&Ef&_&Hr).
    cbn [step]. unfold bind at 1. unfold add_component. rewrite rm_get_step, Een. cbv zeta. rewrite (bind_Ret _ _ _ _ _ Ef). cbn beta iota.
    unfold bind at 1, dropping_on_panic at 1.
    pose proof (move_front_ub r1 _ d _ h en (fun _ srow drow => with_arch d (write_single_component_unchecked C drow v) ;;! ret (srow, drow)) Hr) as Eu.
    unfold move_front in Eu. by rewrite Eu.
  Qed.
  Lemma remove_ready r T w C h e : reg_ok be U r T w -> w !! h = Some e -> C ∈ U -> is_Some (en_vals e !! ct_id C) -> size (en_vals e) <> 14 ->
    in_use U (derived be U (delete (ct_id C) (en_vals e))) -> brimful U w (derived be U (delete (ct_id C) (en_vals e))) = true ->
    exists en d r1, entry_of c r h = Some en /\ find_or_create_archetype_removing_component c (e_arch c en) (cdesc_of C) r = Ret (Some (e_arch c en, d)) r1 /\
      ready r1 (e_arch c en) d (e_row en) h en.
  Proof.
    intros H Ew HC Hsome Hn14 Huse Hbrim.
    destruct (brim_tab _ _ _ _ H Hbrim) as (i0&t0&a0&Ht0&Ha0&Hta0&Eid0&Eids0&Hl0&Hfull0). cbn [derived en_aid en_vals] in *.
    destruct (live_entry c U _ _ _ _ _ H Ew) as (en&i&j&t&m&a&Een&Ei&Ej&Hrow&Ht&Hj&->&Ha&Hta). cbn [en_vals] in *.
    destruct (tab_facts _ _ _ _ Hta) as (Hd&Hst&Hnd&H14&Hlen&_). destruct (tab_row _ _ HU _ _ _ _ _ Hta Hj) as (Hfull&Hfit&Ety).
    pose proof (full_size _ _ Hnd Hfull) as Hsize.
    assert (Hfind : find_or_create_archetype_removing_component c i (cdesc_of C) r =
      (let! od := lift_rd (ad_remove_component be (a_desc a) (ct_id C)) in match od with None => ret None | Some nd => find_dst i nd end) r).
    { unfold find_or_create_archetype_removing_component. rewrite rm_get_step, Ha.
      rewrite (proj2 (Nat.ltb_ge _ _)); [done|]. apply Nat.lt_le_incl. by eapply lookup_lt_Some. }
    assert (HCin : ct_id C ∈ ids (ad_components (a_desc a))).
    { rewrite (do_comps _ _ Hd), ids_cdesc_of. by apply Hfull. }
    assert (Hsz0 : length (types U (delete (ct_id C) m)) = size (delete (ct_id C) m)).
    { symmetry. apply full_size; [apply strict_NoDup, (types_strict _ _ HU)|]. apply full_types. intros x [_ Hx]%lookup_delete_is_Some.
      apply Hfull in Hx. apply elem_of_ids in Hx as (C'&HC'&<-). apply elem_of_ids. exists C'. split; [|done]. eapply in_U_elem; [apply Hta|done]. }
    rewrite map_size_delete in Hsz0. destruct Hsome as [v Hv0]. rewrite Hv0 in Hsz0.
    destruct (remove_component_spec be (a_desc a) (ct_id C) (do_wf _ _ Hd)) as (nd&k&Erem&_); [lia|done|].
    destruct (remove_desc c U HU _ _ _ _ _ _ _ Hta Hj HC Erem) as (cs'&Hwf&Hcomp&Hin'&Hp&Ety'&Hid&Hfull').
    pose proof (Permutation_length Hp) as Hlen'. cbn in Hlen'. rewrite Ety' in *. rewrite <- Hid in *. rewrite Erem in Hfind.
    unfold in_use in Huse. cbn [derived en_vals en_aid] in Huse. rewrite Ety', <- Hid in Huse. specialize (Huse ltac:(rewrite map_length; lia)).
    destruct (find_dst_ok c U HU r T w i t nd cs' H Ht Hwf Hcomp Hin' ltac:(lia) ltac:(lia) Huse Hid)
      as [[Ef Hc]|(Hv&Hnf&d&r1&T1&td&Ef&Eer&H1&Ht1&Htd&Hne&Htid&Htcs&Hev&Eop)].
    { exfalso. destruct Hc as [Hx|[_ HF]].
      - destruct Hta0 as (Hx0&Hok0&_). pose proof (do_valid _ _ (proj1 Hok0)) as Hvv. unfold ad_is_valid, aid_is_valid, AID_INVALID in Hvv.
        rewrite Hx0, Eid0, Hx in Hvv. done.
      - rewrite Forall_forall in HF. apply (HF a0); [by eapply elem_of_list_lookup_2|]. destruct (tab_facts _ _ _ _ Hta0) as (_&_&_&_&Hl&_).
        destruct Hta0 as (Hx0&_). split; [congruence|]. rewrite Hl. rewrite <- (map_length ct_id (t_cs t0)), <- (map_length ct_id cs'). by rewrite Eids0. }
    destruct (ro_tab _ _ _ _ _ _ _ H1 Htd) as (ad&Had&Htad). destruct (ro_tab _ _ _ _ _ _ _ H1 Ht1) as (a1&Ha1&Hta1).
    assert (Hrows : (8388608 <= N.of_nat (length (t_rows td)))%N).
    { rewrite <- (crowd_rows _ _ HU _ _ _ _ _ H1 Htd), Htid, Htcs, <- Eids0, <- Eid0. by rewrite (crowd_rows _ _ HU _ _ _ _ _ H Ht0). }
    exists en, d, r1. split; [done|]. rewrite Ei, Ej. split; [rewrite Hfind; exact Ef|].
    exists T1, w, t, td, a1, ad, m. do 11 (split; [done|]).
    destruct cs' as [|C0 l0] eqn:Etc; [cbn in *; lia|]. exists C0. split; [rewrite Hp; right; by left|]. rewrite Htcs. by left.
  Qed.
  Lemma remove_brim r T w C h e : reg_ok be U r T w -> w !! h = Some e -> C ∈ U -> is_Some (en_vals e !! ct_id C) -> size (en_vals e) <> 14 ->
    in_use U (derived be U (delete (ct_id C) (en_vals e))) -> brimful U w (derived be U (delete (ct_id C) (en_vals e))) = true ->
    step c (OpRemove C h) r = UB.
  Proof.
    intros H Ew HC Hsome Hn14 Huse Hbrim. destruct (remove_ready r T w C h e H Ew HC Hsome Hn14 Huse Hbrim) as (en&d&r1&Een&Ef&Hr).
    cbn [step]. unfold bind at 1. unfold remove_component. rewrite rm_get_step, Een. cbv zeta. rewrite (bind_Ret _ _ _ _ _ Ef). cbn beta iota.
    pose proof (move_front_ub r1 _ d _ h en (fun sa srow drow =>
      let! v := lift_rd (read_component_unchecked C srow sa) in
      dropping_on_panic [v] (move_back c h (e_arch c en) d sa srow drow (@Ok value unit v))) Hr) as Eu.
    unfold move_front, move_back in Eu. by rewrite Eu.
  Qed.

  (** ** create_entity *)
  Lemma handle_room r b : booked c U r b -> is_Some (next_handle b) <-> ~ table_full r.
  Proof.
    intros [_ _ HF HV]. unfold next_handle, table_full. rewrite <- HV. unfold vers. rewrite map_length.
    destruct (N.leb_spec 16777215 (N.of_nat (length (er_ents (r_er r))))).
    - split; [by intros [? ?]|]. intros Hn. exfalso. by apply Hn.
    - split; [lia|]. intros _. destruct (bk_free b); by eexists.
  Qed.
  Lemma create_brim r b G vs : booked c U r b -> admissible be U (bk_world b) (OpCreate G vs) -> bursts be U b (OpCreate G vs) = true ->
    if dbg c then exists r', step c (OpCreate G vs) r = Panic r' else step c (OpCreate G vs) r = UB.
  Proof.
    intros Hb ([HG _]&HF&_). cbn [bursts]. rewrite !andb_true_iff, bool_decide_eq_true. intros [[Hv%(valid_iff c U HU G HG) Hn%(handle_room _ _ Hb)] Hbrim].
    pose proof Hb as [(T&H&_) _ _ _].
    assert (Hcr : N.of_nat (crowd U (bk_world b) (en_aid (created be U G vs)) (ids_of (types U (vmap G vs)))) = 8388608%N).
    { apply N.le_antisymm; [by eapply crowd_max|]. by apply N.leb_le in Hbrim. }
    destruct c as [d be0]. cbn [big dbg] in *. pose proof (full_create d be0 U HU r T _ G vs H Hv HG HF Hn Hcr) as Hx.
    cbn [step]. unfold bind. destruct d; [destruct Hx as [s' ->]; by eexists|by rewrite Hx].
  Qed.
  (** No handle left. *)
  Lemma create_late r b G vs : booked c U r b -> admissible be U (bk_world b) (OpCreate G vs) -> valid be U G = true ->
    brimful U (bk_world b) (created be U G vs) = true -> next_handle b = None ->
    good c U r b (OpCreate G vs) (outcome (dbg c) be U b (OpCreate G vs)).
  Proof.
    intros Hb ([HG _]&HF&Huse) Hv Hbrim Hnone. pose proof Hb as [(T&H&HS) _ _ _]. specialize (Huse Hv).
    pose proof (Forall2_length _ _ _ HF) as HFl. pose proof (proj1 (valid_iff c U HU G HG) Hv) as Hgv.
    pose proof (proj1 (gvalid_iff c G) Hgv) as Hdv. destruct (gspec_exists be G Hdv) as [s Hg].
    destruct (gspec_desc c U HU _ _ Hg HG) as (Hd&Hins). pose proof (gspec_types c U HU _ _ vs Hg HG (eq_sym HFl)) as Ety.
    destruct (brim_tab _ _ _ _ H Hbrim) as (i&t&a&Ht&Ha&Hta&Eid&Eids&Hl&_). cbn [created en_aid en_vals] in *. rewrite Ety in *.
    destruct (tab_facts _ _ _ _ Hta) as (_&_&_&_&Hlt&_).
    assert (Hia : is_arch (r_ar r) i (gd_arch (group_desc be G))).
    { exists a. split; [done|]. destruct Hta as (Hida&_). rewrite (gs_id _ _ _ Hg), (gs_len _ _ _ Hg). split; [congruence|]. rewrite Hlt.
      rewrite <- (map_length ct_id (t_cs t)), <- (map_length ct_id s). by rewrite Eids. }
    assert (Haid : archetype_id_of be (ids_of s) (ad_id (gd_arch (group_desc be G)))).
    { apply (gspec_id c); [done|]. unfold in_use in Huse. cbn [created en_aid en_vals] in Huse. rewrite Ety in Huse. apply Huse. rewrite map_length. apply Hg. }
    destruct (find_or_create_ok be U HU r T _ _ s H Hd Hins Haid) as [(Efc&Hfull&_)|(_&i'&r1&T1&t1&Efc&Eer&H1&Ht1&Hid1&Hcs1&_&_&Eop)].
    { exfalso. destruct Hfull as [_ HFa]. rewrite Forall_forall in HFa. apply (HFa a); [by eapply elem_of_list_lookup_2|].
      destruct Hia as (a'&Ha'&Hx&Hy). rewrite Ha in Ha'. injection Ha' as <-. split; [done|]. by rewrite Hy, (gs_len _ _ _ Hg). }
    assert (r1 = r) as ->.
    { pose proof (find_or_create_spec (gd_arch (group_desc be G)) r (ro_areg _ _ _ _ _ H)) as Hsp. rewrite Efc in Hsp.
      destruct Hsp as (_&_&_&_&[?|[Hno _]]); [intros _; rewrite (gs_len _ _ _ Hg); apply Hg|done|]. by destruct (Hno i). }
    assert (skel T1 = bk_sheets b) as Esk.
    { rewrite <- HS. unfold open_sheet in Eop. rewrite (gs_id _ _ _ Hg), <- Eid in Eop. assert (length s = length (t_cs t)) as El.
      { rewrite <- (map_length ct_id (t_cs t)), <- (map_length ct_id s). by rewrite Eids. }
      rewrite El, (find_sheet_some be U r T _ i t H Ht) in Eop. congruence. }
    assert (Hr : ref be U b (OpCreate G vs) = (OutCreate (Err vs), b)).
    { cbn [ref]. cbv zeta. rewrite (proj2 (valid_tuple_iff c U HU G vs HG (eq_sym HFl)) Hgv). cbn [created en_aid en_vals]. rewrite Ety, <- (gs_id _ _ _ Hg).
      rewrite <- HS, Eop, Hnone, Esk. by destruct b. }
    cbn [outcome]. rewrite Hr. apply good_same; [done|done|].
    destruct (ro_tab _ _ _ _ _ _ _ H1 Ht1) as (a1&Ha1&Hta1). pose proof Hta1 as (_&Hok1&_).
    assert (Hsmall : (N.of_nat (length (t_rows t1)) <= 8388608)%N). { destruct Hok1 as (_&Hcap&Hle&_). apply capok_max in Hcap. lia. }
    pose proof (ro_small_index c U _ _ _ _ _ H1 Ht1) as Hi'. destruct (ro_er _ _ _ _ _ H1) as [F Her].
    assert (Ecount : a_len a1 = length (t_rows t1)) by (unfold a_len; by eapply count_ok).
    destruct (loc_create be (r_er r) F (N.of_nat (length (t_rows t1))) (N.of_nat i') Her) as [[Hge Ec]|[Hlt' _]]; [lia|lia| |].
    2: { exfalso. assert (~ table_full r) as Hx%(handle_room _ _ Hb) by (unfold table_full; lia). rewrite Hnone in Hx. by destruct Hx. }
    cbn [step]. erewrite bind_Ret; [done|]. unfold create_entity. apply dop_Ret. rewrite Hdv. cbn [negb].
    rewrite (bind_Ret _ _ _ _ _ Efc). rewrite (bind_Ret _ _ _ _ _ (arch_at_Rd _ _ _ Ha1)).
    rewrite Ecount, iia_new_spec, decide_True by lia. cbn [unwrap]. rewrite bind_ret_l.
    rewrite ai_new_spec, decide_False by lia. cbn [unwrap]. rewrite bind_ret_l.
    rewrite (bind_Ret _ _ _ _ _ (rm_er_Ret _ _ _ _ Ec)). by destruct r.
  Qed.

  (** ** Any call *)
  Definition breaks (r : reg) (o : op) : Prop :=
    match o with
    | OpCreate _ _ => if dbg c then exists r', step c o r = Panic r' else step c o r = UB
    | _ => step c o r = UB
    end.
  Lemma any_step r b o : booked c U r b -> admissible be U (bk_world b) o ->
    if bursts be U b o then breaks r o else good c U r b o (outcome (dbg c) be U b o).
  Proof.
    intros Hb Ha. pose proof Hb as [(T&H&_) _ _ _].
    assert (Hlaw : lawful be U (bk_world b) o -> good c U r b o (outcome (dbg c) be U b o)) by (by apply outcome_step).
    assert (Hroom : forall e, brimful U (bk_world b) e = false -> in_use U e -> room U (bk_world b) (en_aid e) (ids_of (types U (en_vals e)))).
    { intros e Hn%N.leb_gt Hu. by split. }
    destruct o; try (by apply Hlaw).
    - destruct (bursts be U b (OpCreate G vs)) eqn:Eb; [by apply (create_brim r b G vs)|]. pose proof Ha as ([HG HGn]&HF&Hu). cbn [bursts] in Eb.
      destruct (valid be U G) eqn:Hv; [|apply Hlaw; split; [done|split; [done|]]; by rewrite Hv].
      destruct (brimful U (bk_world b) (created be U G vs)) eqn:Hbr.
      + apply create_late; try done. destruct (next_handle b); [|done]. by rewrite bool_decide_eq_true_2 in Eb by eauto.
      + apply Hlaw. split; [done|]. split; [done|]. intros _. apply (Hroom (created be U G vs)); auto.
    - pose proof Ha as (HC&Hf&Hu). cbn [bursts]. destruct (bk_world b !! h) as [e|] eqn:Ew.
      2: { apply Hlaw. split; [done|]. split; [done|]. intros e. by rewrite Ew. }
      destruct (bool_decide_reflect (en_vals e !! ct_id C = None)) as [Hnone|Hsome]; cbn [andb].
      2: { apply Hlaw. split; [done|]. split; [done|]. intros e' Ew'. rewrite Ew in Ew'. by injection Ew' as <-. }
      specialize (Hu e eq_refl Hnone). destruct (Nat.eqb_spec (size (en_vals e)) 13) as [E13|N13]; cbn [negb andb].
      + cbn [outcome]. rewrite Ew, E13, bool_decide_eq_true_2 by done. cbn [Nat.eqb andb].
        pose proof (add_13_panics c U HU r T _ C h v e H Ew E13 HC Hnone) as E. eexists. split; [cbn [step]; unfold bind; rewrite E; done|].
        split; [|done]. destruct Hb as [(T0&H0&HS0) Hi0 HF0 HV0]. split; [|done|done|done]. exists T0. split; [|done].
        destruct H0. split; done.
      + destruct (brimful U (bk_world b) _) eqn:Hbr.
        * by eapply add_brim.
        * apply Hlaw. split; [done|]. split; [done|]. intros e' Ew' _. rewrite Ew in Ew'. injection Ew' as <-. by apply Hroom.
    - pose proof Ha as (HC&Hu). cbn [bursts]. destruct (bk_world b !! h) as [e|] eqn:Ew.
      2: { apply Hlaw. split; [done|]. intros e. by rewrite Ew. }
      destruct (bool_decide_reflect (is_Some (en_vals e !! ct_id C))) as [Hsome|Hnone]; cbn [andb].
      2: { apply Hlaw. split; [done|]. intros e' Ew'. rewrite Ew in Ew'. by injection Ew' as <-. }
      specialize (Hu e eq_refl Hsome). destruct (Nat.eqb_spec (size (en_vals e)) 14) as [E14|N14]; cbn [negb andb].
      + cbn [outcome]. rewrite Ew, E14, bool_decide_eq_true_2 by done. cbn [Nat.eqb andb]. destruct Hsome as [v Hv].
        pose proof (remove_14_panics c U HU r T _ C h e v H Ew E14 HC Hv) as E. apply good_panic; [done|done|]. cbn [step]. unfold bind. by rewrite E.
      + destruct (brimful U (bk_world b) _) eqn:Hbr.
        * by eapply remove_brim.
        * apply Hlaw. split; [done|]. intros e' Ew' _. rewrite Ew in Ew'. injection Ew' as <-. by apply Hroom.
  Qed.

  (** ** Programs *)
  Definition ends (x : list (option output) * option reg) (y : list (option output) * fate) : Prop :=
    match y.2 with
    | Completes b => x.1 = y.1 /\ exists r, x.2 = Some r /\ booked c U r b
    | Faults => x.1 = y.1 /\ x.2 = None
    | Wrecks => y.1 `prefix_of` x.1
    end.
  Lemma ends_cons out x y : ends x y -> ends (out :: x.1, x.2) (out :: y.1, y.2).
  Proof.
    unfold ends. cbn [fst snd]. destruct y.2.
    - intros [-> ?]. done.
    - intros [-> ?]. done.
    - apply prefix_cons.
  Qed.
  Lemma foreseen_from ops r b : booked c U r b -> admissible_all (dbg c) be U ops b ->
    ends (attempt c ops r) (foresee (dbg c) be U ops b).
  Proof.
    revert r b. induction ops as [|o ops IH]; intros r b Hb Hl; [by split; [|exists r]|].
    destruct Hl as [Hl1 Hl]. pose proof (any_step r b o Hb Hl1) as Hs. cbn [attempt foresee]. destruct (bursts be U b o).
    - unfold breaks in Hs. destruct o; try (by rewrite Hs). destruct (dbg c); [|by rewrite Hs]. destruct Hs as [r' ->].
      destruct (attempt c ops r') as [l e]. unfold ends. cbn [fst snd]. apply prefix_cons, prefix_nil.
    - specialize (Hl eq_refl). destruct (outcome (dbg c) be U b o) as [out b1|b1|]; cbn [good] in Hs.
      + destruct Hs as (r1&E&Hb1&_). rewrite E. specialize (IH r1 b1 Hb1 Hl). apply (ends_cons (Some out)) in IH.
        destruct (attempt c ops r1), (foresee (dbg c) be U ops b1). exact IH.
      + destruct Hs as (r1&E&Hb1&_). rewrite E. specialize (IH r1 b1 Hb1 Hl). apply (ends_cons None) in IH.
        destruct (attempt c ops r1), (foresee (dbg c) be U ops b1). exact IH.
      + by rewrite Hs.
  Qed.
  Lemma foreseen ops : admissible_all (dbg c) be U ops book_empty -> ends (attempt c ops reg_default) (foresee (dbg c) be U ops book_empty).
  Proof. apply foreseen_from, booked_start. Qed.

  (** ** After the panic of a debug build *)
  Lemma push_wreck (d : adesc) cs G vs h a rows e : desc_ok d cs -> dbg c = true ->
    a_desc a = d -> arch_ok a cs rows -> a_cap a = length rows -> (8388608 <= N.of_nat (length rows))%N -> ev_oracle e = [] ->
    gspec be G cs -> ad_id d = tuple_archetype_id be (ids_of cs) ->
    exists ps e', push_entity_unchecked c G h vs (a, e) = Panic (Arch d ps None (S (length rows)) 0, e') /\
      forall k, k < length cs -> ps !! k = Some None.
  Proof.
    intros Hd Hdbg Ed Hok Ecap Hn Ho Hg Hid. destruct (full_resize d cs Hd a rows e Ed Hok Ecap Hn Ho) as (ps&e'&Er&Hps). exists ps, e'. split; [|done].
    unfold push_entity_unchecked. unfold bind at 1, am_get at 1. cbn [fst].
    rewrite (bind_Ret _ _ _ _ _ (mdebug_true _ _ _ (gs_valid _ _ _ Hg))).
    erewrite (bind_Ret (mdebug_assert _ _)); [|apply mdebug_true; rewrite Ed, Hid, (gs_id _ _ _ Hg); apply N.eqb_refl].
    rewrite (bind_Ret _ _ _ _ _ Er). unfold bind at 1, am_get at 1. cbn [fst]. unfold am_upd. unfold bind at 1. cbn [fst snd].
    unfold bind at 1. unfold write_entity_unchecked. unfold bind at 1, am_get at 1. cbn [fst a_cap set_count]. unfold bind at 1.
    replace (a_len (Arch d ps None (length rows) 0) <? 0) with false by (symmetry; apply Nat.ltb_ge; lia). rewrite Hdbg. done.
  Qed.
  Lemma create_wreck r b G vs : booked c U r b -> dbg c = true -> admissible be U (bk_world b) (OpCreate G vs) -> bursts be U b (OpCreate G vs) = true ->
    exists r', step c (OpCreate G vs) r = Panic r' /\
      forall h e C, bk_world b !! h = Some e -> en_aid e = en_aid (created be U G vs) -> types U (en_vals e) = types U (vmap G vs) ->
        C ∈ types U (en_vals e) -> step c (OpGet C h) r' = UB.
  Proof.
    intros Hb Hdbg ([HG _]&HF&_). cbn [bursts]. rewrite !andb_true_iff, bool_decide_eq_true. intros [[Hgv%(valid_iff c U HU G HG) Hnt'%(handle_room _ _ Hb)] Hbrim].
    pose proof Hb as [(T&H&_) _ _ _]. pose proof (Forall2_length _ _ _ HF) as HFl. pose proof (proj1 (gvalid_iff c G) Hgv) as Hv.
    destruct (gspec_exists be G Hv) as [s Hg]. destruct (gspec_desc c U HU _ _ Hg HG) as (Hd&Hins).
    pose proof (gspec_types c U HU _ _ vs Hg HG (eq_sym HFl)) as Ety.
    destruct (brim_tab _ _ _ _ H Hbrim) as (i0&t0&a0&Ht0&Ha0&Hta0&Eid0&Eids0&Hl0&Hfull0). cbn [created en_aid en_vals] in *. rewrite Ety in *.
    assert (Haid : archetype_id_of be (ids_of s) (ad_id (gd_arch (group_desc be G)))).
    { apply (gspec_id c); [done|]. change (occurs (tuple_archetype_id be (ids_of s)) (ids_of s)). rewrite <- Eid0, <- Eids0. apply Hta0. }
    destruct (find_or_create_ok be U HU r T _ _ s H Hd Hins Haid) as [(Efc&Hfull&_)|(_&i&r1&T1&t&Efc&Eer&H1&Ht&Hid&Hcs&_&Hext&_)].
    { exfalso. destruct Hfull as [_ HFa]. rewrite Forall_forall in HFa. apply (HFa a0); [by eapply elem_of_list_lookup_2|].
      destruct (tab_facts _ _ _ _ Hta0) as (_&_&_&_&Hl&_). destruct Hta0 as (Hx0&_). rewrite (gs_id _ _ _ Hg). split; [congruence|].
      rewrite Hl. rewrite <- (map_length ct_id (t_cs t0)), <- (map_length ct_id s). by rewrite Eids0. }
    rewrite (gs_id _ _ _ Hg) in Hid.
    destruct (ro_tab _ _ _ _ _ _ _ H1 Ht) as (a&Ha&Hta). pose proof Hta as (Hida&Hok&_).
    assert (Hrows : (8388608 <= N.of_nat (length (t_rows t)))%N).
    { rewrite <- (crowd_rows _ _ HU _ _ _ _ _ H1 Ht), Hid, Hcs, <- Eid0, <- Eids0. by rewrite (crowd_rows _ _ HU _ _ _ _ _ H Ht0). }
    assert (Ecap : a_cap a = length (t_rows t)). { destruct Hok as (_&Hcap&Hle&_). apply capok_max in Hcap. lia. }
    assert (Hmax : (N.of_nat (length (t_rows t)) <= 8388608)%N). { destruct Hok as (_&Hcap&Hle&_). apply capok_max in Hcap. lia. }
    pose proof (ro_small_index c U _ _ _ _ _ H1 Ht) as Hi. destruct (ro_er _ _ _ _ _ H1) as [F Her].
    assert (Ecount : a_len a = length (t_rows t)) by (unfold a_len; by eapply count_ok).
    destruct (loc_create be (r_er r1) F (N.of_nat (length (t_rows t))) (N.of_nat i) Her) as [[Hge Ec]|[Hlt (h&rg&F'&Ec&_&_&Hfresh&Hloc)]]; [lia|lia| |].
    { exfalso. apply Hnt'. unfold table_full. by rewrite <- Eer. }
    destruct (push_wreck (a_desc a) (t_cs t) G vs h a (t_rows t) (r_env r1)) as (ps&e'&Ep&Hps);
      [apply Hok|done|done|done|done|done|apply H1|by rewrite Hcs|by rewrite Hida, Hid, Hcs|].
    assert (Estep : create_entity c G vs r = dropping_on_panic vs
      (let! _ := with_arch i (push_entity_unchecked c G h vs) in ret (Ok h)) (Reg rg (r_ar r1) (r_env r1))).
    { unfold create_entity, dropping_on_panic. rewrite Hv. cbn [negb].
      rewrite (bind_Ret _ _ _ _ _ Efc). rewrite (bind_Ret _ _ _ _ _ (arch_at_Rd _ _ _ Ha)).
      rewrite Ecount, iia_new_spec, decide_True by lia. cbn [unwrap]. rewrite bind_ret_l.
      rewrite ai_new_spec, decide_False by lia. cbn [unwrap]. rewrite bind_ret_l.
      rewrite (bind_Ret _ _ _ _ _ (rm_er_Ret _ _ _ _ Ec)). done. }
    eexists. split.
    { cbn [step]. unfold bind at 1. rewrite Estep. unfold dropping_on_panic, bind, with_arch. cbn [r_ar r_env]. rewrite Ha, Ep. done. }
    intros h' e C Ew Eaid Etys HC.
    destruct (live_entry c U _ _ _ _ _ H1 Ew) as (en&i2&j&t2&m&a2&Een&Ei&Ej&Hrow&Ht2&Hj&->&Ha2&Hta2). cbn [en_aid en_vals] in *.
    assert (Ecs2 : t_cs t2 = s). { rewrite <- Etys. symmetry. by destruct (tab_row _ _ HU _ _ _ _ _ Hta2 Hj) as (_&_&?). }
    assert (i2 = i) as ->.
    { apply (is_arch_unique (r_ar r1) i2 i (gd_arch (group_desc be G)) (ro_areg _ _ _ _ _ H1)); [exists a2|exists a].
      - split; [done|]. destruct (tab_facts _ _ _ _ Hta2) as (_&_&_&_&Hl&_). destruct Hta2 as (Hx&_).
        rewrite (gs_id _ _ _ Hg), (gs_len _ _ _ Hg). split; congruence.
      - split; [done|]. destruct (tab_facts _ _ _ _ Hta) as (_&_&_&_&Hl&_). rewrite (gs_id _ _ _ Hg), (gs_len _ _ _ Hg). split; congruence. }
    assert (Hl2 : loc_of be rg h' = Some (i, j)).
    { rewrite Hloc. assert (loc_of be (r_er r1) h' = Some (i, j)) as El by (apply (ro_loc _ _ _ _ _ H1); eauto). rewrite El.
      rewrite decide_False; [done|]. intros ->. congruence. }
    unfold loc_of in Hl2. destruct (er_entity_entry be rg h') as [en'|] eqn:Een'; [|done]. cbn in Hl2. injection Hl2 as E1 E2.
    cbn [step]. unfold bind, rm_rd, lift_rd, get_component, entry_of. cbn [r_er r_ar]. rewrite Een'. unfold e_arch, e_row. rewrite E1, E2.
    unfold arch_at. cbn [r_ar set_archs ar_archs]. rewrite list_lookup_insert by (by eapply lookup_lt_Some). cbn [rbind fst a_desc].
    assert (HCt : C ∈ t_cs t) by (by rewrite Hcs, <- Etys).
    assert (Hhas : ad_has_component (a_desc a) C = true).
    { destruct (tab_facts _ _ _ _ Hta) as (Hda&_). rewrite has_component_spec; rewrite (do_comps _ _ Hda), ids_cdesc_of; [apply elem_of_ids; eauto|by eapply desc_strict]. }
    rewrite Hhas. cbn [negb].
    apply elem_of_list_lookup in HCt as [k Hk].
    assert (Hbs : binary_search (map cd_id (a_comps (Arch (a_desc a) ps None (S (length (t_rows t))) 0))) (ct_id C) = inl k).
    { change (a_comps (Arch (a_desc a) ps None (S (length (t_rows t))) 0)) with (ad_components (a_desc a)).
      destruct Hok as (Hda&_). change (ad_components (a_desc a)) with (a_comps (mk (a_desc a) (t_cs t) 0 0 [] [])). by apply search_col. }
    unfold get_component_unchecked. rewrite Hbs. unfold typed_cell, raw_cell. cbn [a_ptrs]. rewrite Hps by (by eapply lookup_lt_Some). done.
  Qed.

  Lemma attempt_app ops1 ops2 r r1 l : attempt c ops1 r = (l, Some r1) ->
    attempt c (ops1 ++ ops2) r = (l ++ (attempt c ops2 r1).1, (attempt c ops2 r1).2).
  Proof.
    revert r l. induction ops1 as [|o ops1 IH]; intros r l; cbn [attempt app]; [intros [= <- ->]; by destruct (attempt c ops2 r1)|].
    destruct (step c o r) as [out r2|r2|]; [| |done]; destruct (attempt c ops1 r2) as [l2 e2] eqn:E; intros [= <- ->]; by rewrite (IH _ _ E).
  Qed.
  Lemma wrecked ops l b G vs h e C : dbg c = true -> admissible_all (dbg c) be U ops book_empty ->
    foresee (dbg c) be U ops book_empty = (l, Completes b) -> admissible be U (bk_world b) (OpCreate G vs) -> bursts be U b (OpCreate G vs) = true ->
    bk_world b !! h = Some e -> en_aid e = en_aid (created be U G vs) -> types U (en_vals e) = types U (vmap G vs) -> C ∈ types U (en_vals e) ->
    attempt c (ops ++ [OpCreate G vs; OpGet C h]) reg_default = (l ++ [None], None).
  Proof.
    intros Hdbg Hl Ef Hadm Hbu Ew E1 E2 HC. pose proof (foreseen ops Hl) as He. unfold ends in He. rewrite Ef in He. cbn [fst snd] in He.
    destruct He as (El&r&Er&Hb). destruct (create_wreck r b G vs Hb Hdbg Hadm Hbu) as (r'&Ec&Hget). specialize (Hget h e C Ew E1 E2 HC).
    rewrite (attempt_app ops _ _ r l); [|destruct (attempt c ops reg_default); cbn in *; congruence].
    cbn [attempt]. rewrite Ec, Hget. done.
  Qed.
End main.

(** ** Short programs never get there *)
Section short.
  Context {Fm : family} (dbg be : bool) (U : list ctype).
  Lemma size_alter {A} (f : A -> A) (k : N) (m : gmap N A) : size (alter f k m) = size m.
  Proof. rewrite <- !(size_dom (D := gset N)). by rewrite dom_alter_L. Qed.
  Lemma ledger_size w o out : size (ledger be U w o out) <= S (size w).
  Proof.
    destruct o, out; cbn [ledger]; try lia; try (unfold updated_where; rewrite map_size_fmap; lia).
    all: case_match; try lia; rewrite ?map_size_insert, ?map_size_delete, ?size_alter; try lia; destruct (w !! _); cbn; lia.
  Qed.
  Lemma ref_size b o : size (bk_world (ref be U b o).2) <= S (size (bk_world b)).
  Proof.
    assert (Hm : forall h e o' g x, size (bk_world (move_to be U b h e o' g x).2) <= S (size (bk_world b))).
    { intros h e o' g x. unfold move_to. destruct (_ =? _)%N; [cbn; lia|]. destruct (open_sheet _ _ _) as [[i S1]|]; [|cbn; lia]. apply ledger_size. }
    assert (Hk : forall o' out, size (bk_world (keep be U b o' out).2) <= S (size (bk_world b))) by (intros; apply ledger_size).
    assert (Hl : forall h o' out, size (bk_world (leave be U b h o' out).2) <= S (size (bk_world b))) by (intros; apply ledger_size).
    destruct o; cbn [ref]; cbv zeta; try (cbn [snd]; lia); try apply Hk.
    - destruct (valid_tuple _ _); [|cbn; lia]. destruct (open_sheet _ _ _) as [[i S1]|]; [|cbn; lia].
      destruct (next_handle b) as [h|]; [|cbn; lia]. cbn [snd bk_world]. rewrite map_size_insert. destruct (bk_world b !! h); cbn; lia.
    - destruct (bk_world b !! h); [apply Hl|cbn; lia].
    - destruct (bk_world b !! h); [apply Hl|cbn; lia].
    - destruct (bk_world b !! h) as [e|]; [|cbn; lia]. destruct (en_vals e !! ct_id C); [cbn; lia|]. destruct (_ <? _); [apply Hm|cbn; lia].
    - destruct (bk_world b !! h) as [e|]; [|cbn; lia]. destruct (en_vals e !! ct_id C); [|cbn; lia]. destruct (_ <=? _); [apply Hm|cbn; lia].
  Qed.
  Lemma outcome_size b o : match outcome dbg be U b o with Returns _ b1 | Panics b1 => size (bk_world b1) <= S (size (bk_world b)) | Undefined => True end.
  Proof.
    assert (Hg : forall v, v = answer (ref be U b o) \/ (exists out, v = Returns out b) \/ v = Panics b \/ v = Undefined ->
      match v with Returns _ b1 | Panics b1 => size (bk_world b1) <= S (size (bk_world b)) | Undefined => True end).
    { intros v [->|[(out&->)|[->| ->]]]; [apply ref_size|lia|lia|done]. }
    apply Hg. clear Hg. destruct o; cbn [outcome]; cbv zeta; try (by left);
      repeat match goal with |- context [if ?x then _ else _] => destruct x | |- context [match bk_world b !! ?h with _ => _ end] => destruct (bk_world b !! h) end; eauto.
  Qed.
  Lemma small_lawful w o : (N.of_nat (size w) < 8388608)%N -> admissible be U w o -> lawful be U w o.
  Proof.
    intros Hw%N.ltb_lt Ha. destruct o; try exact Ha.
    - destruct Ha as (?&?&Hu). split; [done|]. split; [done|]. intros Hv. apply room_small; [done|]. exact (Hu Hv).
    - destruct Ha as (?&?&Hu). split; [done|]. split; [done|]. intros e He Hn. apply room_small; [done|]. exact (Hu e He Hn).
    - destruct Ha as (?&Hu). split; [done|]. intros e He Hn. apply room_small; [done|]. exact (Hu e He Hn).
  Qed.
  Lemma small_bursts b o : (N.of_nat (size (bk_world b)) < 8388608)%N -> bursts be U b o = false.
  Proof.
    intros Hw%N.ltb_lt.
    assert (Hb : forall e, brimful U (bk_world b) e = false).
    { intros e. apply N.leb_gt. pose proof (room_small (Fm := every) U (bk_world b) (en_aid e) (ids_of (types U (en_vals e))) Hw (fun _ => I)) as [_ Hr]. exact Hr. }
    destruct o; cbn [bursts]; try done.
    - by rewrite Hb, andb_false_r.
    - destruct (bk_world b !! h); [|done]. by rewrite Hb, andb_false_r.
    - destruct (bk_world b !! h); [|done]. by rewrite Hb, andb_false_r.
  Qed.
  Lemma short_from ops b : (N.of_nat (size (bk_world b) + length ops) <= 8388608)%N -> admissible_all dbg be U ops b ->
    lawful_all dbg be U ops b /\ (foresee dbg be U ops b).1 = (predict dbg be U ops b).1.
  Proof.
    revert b. induction ops as [|o ops IH]; intros b Hs Hl; [done|]. cbn [length] in Hs. destruct Hl as [Ha Hl].
    assert (Hw : (N.of_nat (size (bk_world b)) < 8388608)%N) by lia.
    pose proof (small_bursts b o Hw) as Hnb. specialize (Hl Hnb). cbn [lawful_all foresee predict]. rewrite Hnb.
    pose proof (small_lawful _ _ Hw Ha) as Hlaw. pose proof (outcome_size b o) as Ho.
    destruct (outcome dbg be U b o) as [out b1|b1|]; [| |done].
    - destruct (IH b1) as [H1 H2]; [lia|done|]. split; [done|]. destruct (foresee _ _ _ ops b1), (predict _ _ _ ops b1). cbn in *. by rewrite H2.
    - destruct (IH b1) as [H1 H2]; [lia|done|]. split; [done|]. destruct (foresee _ _ _ ops b1), (predict _ _ _ ops b1). cbn in *. by rewrite H2.
  Qed.
  Lemma lawful_admissible ops b : lawful_all dbg be U ops b -> admissible_all dbg be U ops b.
  Proof.
    revert b. induction ops as [|o ops IH]; intros b; [done|]. intros [Hl Hr]. split.
    - destruct o; try exact Hl.
      + destruct Hl as (?&?&Hl). split; [done|]. split; [done|]. intros Hv. exact (proj1 (Hl Hv)).
      + destruct Hl as (?&?&Hl). split; [done|]. split; [done|]. intros e He Hn. exact (proj1 (Hl e He Hn)).
      + destruct Hl as (?&Hl). split; [done|]. intros e He Hn. exact (proj1 (Hl e He Hn)).
    - intros _. destruct (outcome dbg be U b o); [by apply IH..|done].
  Qed.
  Lemma never_wrecks ops b : dbg = false -> (foresee dbg be U ops b).2 <> Wrecks.
  Proof.
    intros ->. revert b. induction ops as [|o ops IH]; intros b; [done|]. cbn [foresee]. destruct (bursts be U b o); [by destruct o|].
    destruct (outcome false be U b o) as [out b1|b1|]; [| |done]; specialize (IH b1); by destruct (foresee false be U ops b1).
  Qed.
  Lemma short_lawful ops : (N.of_nat (length ops) <= 8388608)%N -> admissible_all dbg be U ops book_empty -> lawful_all dbg be U ops book_empty.
  Proof. intros Hs Hl. by apply short_from. Qed.
End short.

(** ** Creating entities of one kind until it breaks *)
Section flood.
  Context {Fm : family} (d be : bool) (U : list ctype) (HU : universe be U) (Hnt : NoDup (map ct_ty U)).
  Local Notation c := (Cfg d be).
  Context (G : group) (vs : list value) (HG : in_U U G) (HF : Forall2 fits G vs) (Hv : valid be U G = true) (Hk : known be U G).
  Let e := created be U G vs.
  Lemma flood_nonempty : G <> [].
  Proof. intros E. unfold valid, valid_tuple in Hv. by rewrite E in Hv. Qed.
  Lemma flood_vtuple : valid_tuple G (en_aid e) = true.
  Proof.
    apply (valid_tuple_iff c U HU G vs HG); [symmetry; by eapply Forall2_length|]. by apply (valid_iff c U HU G HG).
  Qed.
  Lemma flood_admissible w : admissible be U w (OpCreate G vs).
  Proof.
    split; [split; [done|apply flood_nonempty]|]. split; [done|]. intros _ _.
    apply (created_known c U HU); try done; [by apply (valid_iff c U HU G HG)|symmetry; by eapply Forall2_length].
  Qed.
  Definition handles (n : nat) : list N := map (fun k => 256 * N.of_nat k)%N (seq 0 n).
  Lemma handles_S n : handles (S n) = handles n ++ [256 * N.of_nat n]%N.
  Proof. unfold handles. by rewrite seq_S, map_app. Qed.
  Record flooded (n : nat) (b : book) : Prop := {
    fl_sheets : bk_sheets b = match n with O => [] | _ => [Sheet (en_aid e) (types U (en_vals e)) (handles n)] end;
    fl_vers : length (bk_versions b) = n;
    fl_free : bk_free b = [];
    fl_crowd : crowd U (bk_world b) (en_aid e) (ids_of (types U (en_vals e))) = n;
    fl_fresh : forall h, (256 * N.of_nat n <= h)%N -> bk_world b !! h = None;
    fl_same : forall h e', bk_world b !! h = Some e' -> e' = e;
    fl_all : forall h, h ∈ handles n -> bk_world b !! h = Some e;
  }.
  Lemma flood_step n b : flooded n b -> (N.of_nat n < 8388608)%N ->
    bursts be U b (OpCreate G vs) = false /\
    exists b', ref be U b (OpCreate G vs) = (OutCreate (Ok (256 * N.of_nat n)%N), b') /\ flooded (S n) b'.
  Proof.
    intros [E1 E2 E3 E4 E5 E6 E7] Hn. split.
    { cbn [bursts]. fold e. unfold brimful. rewrite E4, (proj2 (N.leb_gt _ _)) by done. by rewrite andb_false_r. }
    cbn [ref]. cbv zeta. fold e. rewrite flood_vtuple, E1.
    assert (Eo : open_sheet (match n with O => [] | _ => [Sheet (en_aid e) (types U (en_vals e)) (handles n)] end) (en_aid e) (types U (en_vals e)) =
      Some (0, [Sheet (en_aid e) (types U (en_vals e)) (handles n)])).
    { unfold open_sheet, find_sheet. destruct n; [done|]. cbn [list_find]. rewrite decide_True by done. done. }
    rewrite Eo. assert (Enh : next_handle b = Some (256 * N.of_nat n)%N).
    { unfold next_handle. rewrite E2, E3. rewrite (proj2 (N.leb_gt _ _)) by lia. done. }
    rewrite Enh. eexists. split; [reflexivity|]. cbn [bk_world bk_versions bk_free bk_sheets].
    assert (Hfr : bk_world b !! (256 * N.of_nat n)%N = None) by (by apply E5).
    split; cbn [bk_world bk_versions bk_free bk_sheets].
    - unfold put_in. cbn [alter list_alter sh_id sh_types sh_ents]. by rewrite handles_S.
    - unfold versions_created. rewrite E3, app_length, E2. cbn. lia.
    - by rewrite E3.
    - pose proof (crowd_created be U (bk_world b) G vs (256 * N.of_nat n)%N Hfr) as Hc. cbv zeta in Hc. fold e in Hc.
      change (vmap G vs) with (en_vals e) in Hc. by rewrite Hc, E4.
    - intros h Hh. rewrite lookup_insert_ne by lia. apply E5. lia.
    - intros h e'. rewrite lookup_insert_Some. intros [[_ ?]|[_ ?]]; [done|by eapply E6].
    - intros h. rewrite handles_S, elem_of_app, elem_of_list_singleton. intros [Hh| ->]; [|by rewrite lookup_insert].
      destruct (decide (h = 256 * N.of_nat n)%N) as [->|]; [by rewrite lookup_insert|]. rewrite lookup_insert_ne by done. by apply E7.
  Qed.
  Lemma foresee_snoc ops o b b1 l : foresee d be U ops b = (l, Completes b1) ->
    foresee d be U (ops ++ [o]) b = (l ++ (foresee d be U [o] b1).1, (foresee d be U [o] b1).2).
  Proof.
    revert b l. induction ops as [|x ops IH]; intros b l; cbn [app].
    { cbn [foresee]. intros [= <- ->]. cbn [app]. by destruct (if bursts be U b1 o then _ else _). }
    cbn [foresee]. destruct (bursts be U b x); [destruct x, d; done|].
    destruct (outcome d be U b x) as [out b2|b2|]; [| |done]; destruct (foresee d be U ops b2) as [l2 f2] eqn:E; intros [= <- ->]; by rewrite (IH _ _ E).
  Qed.
  Lemma admissible_snoc ops o b b1 l : admissible_all d be U ops b -> foresee d be U ops b = (l, Completes b1) ->
    admissible be U (bk_world b1) o -> admissible_all d be U (ops ++ [o]) b.
  Proof.
    revert b l. induction ops as [|x ops IH]; intros b l; cbn [app].
    { intros _ [= <- ->] Ha. split; [done|]. intros _. cbn [admissible_all]. by destruct (outcome d be U b1 o). }
    intros [Hx Hl]. cbn [foresee]. destruct (bursts be U b x) eqn:Hb; [destruct x, d; done|]. specialize (Hl eq_refl). intros Ef Ha. split; [done|].
    intros _. destruct (outcome d be U b x) as [out b2|b2|]; [| |done]; destruct (foresee d be U ops b2) as [l2 f2] eqn:E; injection Ef as <- ->; by eapply IH.
  Qed.
  Lemma repeat_snoc {A} (x : A) n : repeat x (S n) = repeat x n ++ [x].
  Proof. apply repeat_cons. Qed.
  Lemma flood n : (N.of_nat n <= 8388608)%N ->
    admissible_all d be U (repeat (OpCreate G vs) n) book_empty /\
    exists b, foresee d be U (repeat (OpCreate G vs) n) book_empty = (map (fun h => Some (OutCreate (Ok h))) (handles n), Completes b) /\ flooded n b.
  Proof.
    induction n as [|n IH]; intros Hn.
    - split; [done|]. exists book_empty. split; [done|]. split; cbn [book_empty bk_world bk_sheets bk_versions bk_free]; [done|done|done| |done|done|].
      + unfold crowd. change (size (filter (fun he : N * ent => en_aid he.2 = en_aid e /\ ids_of (types U (en_vals he.2)) = ids_of (types U (en_vals e))) (∅ : world)) = 0).
        by rewrite map_filter_empty, map_size_empty.
      + by intros h Hh%elem_of_nil.
    - destruct IH as (Ha&b&Ef&Hb); [lia|]. destruct (flood_step n b Hb) as (Hnb&b'&Er&Hb'); [lia|]. rewrite repeat_snoc. split.
      + eapply admissible_snoc; [done|exact Ef|apply flood_admissible].
      + exists b'. split; [|done]. rewrite (foresee_snoc _ _ _ _ _ Ef). cbn [foresee]. rewrite Hnb. cbn [outcome]. rewrite Er. cbn [answer fst snd].
        by rewrite handles_S, map_app.
  Qed.
  (** One more. *)
  Lemma flood_bursts n b : flooded n b -> N.of_nat n = 8388608%N -> bursts be U b (OpCreate G vs) = true.
  Proof.
    intros [E1 E2 E3 E4 E5] Hn. cbn [bursts]. fold e. rewrite Hv. cbn [andb]. unfold next_handle. rewrite E2, Hn, E3. cbn [N.leb N.compare].
    unfold brimful. by rewrite E4, Hn.
  Qed.
  Lemma flood_over n : N.of_nat n = 8388608%N ->
    let l := map (fun h => Some (OutCreate (Ok h))) (handles n) in
    if d then exists r, attempt c (repeat (OpCreate G vs) (S n)) reg_default = (l ++ [None], Some r)
    else attempt c (repeat (OpCreate G vs) (S n)) reg_default = (l, None).
  Proof.
    intros Hn l. destruct (flood n) as (Ha&b&Ef&Hb); [by rewrite Hn|]. fold l in Ef.
    pose proof (foreseen c U HU Hnt (repeat (OpCreate G vs) n) Ha) as He. cbn [dbg big] in He. unfold ends in He. rewrite Ef in He. cbn [fst snd] in He.
    destruct He as (El&r&Er&Hbk). rewrite repeat_snoc.
    rewrite (attempt_app c _ _ _ r l); [|destruct (attempt c (repeat (OpCreate G vs) n) reg_default); cbn in *; congruence].
    pose proof (create_brim c U HU r b G vs Hbk (flood_admissible _) (flood_bursts n b Hb Hn)) as Hc. cbn [dbg] in Hc.
    destruct d; cbn [attempt].
    - destruct Hc as [r' ->]. exists r'. done.
    - rewrite Hc. cbn [fst snd]. by rewrite app_nil_r.
  Qed.
  (** And reading any of them afterwards. *)
  Lemma flood_read n h C : d = true -> N.of_nat n = 8388608%N -> h ∈ handles n -> C ∈ G ->
    attempt c (repeat (OpCreate G vs) (S n) ++ [OpGet C h]) reg_default = (map (fun h => Some (OutCreate (Ok h))) (handles n) ++ [None], None).
  Proof.
    intros Hd Hn Hh HC. destruct (flood n) as (Ha&b&Ef&Hb); [by rewrite Hn|]. rewrite repeat_snoc, <- app_assoc. cbn [app].
    eapply (wrecked c U HU Hnt _ _ b); [done|exact Ha|exact Ef|apply flood_admissible|by eapply flood_bursts|by apply (fl_all _ _ Hb)|done|done|].
    unfold e. cbn [created en_vals]. apply elem_of_list_filter. split; [|by apply (in_U_elem _ _ _ HG)].
    apply (vmap_full G vs); [|symmetry; by eapply Forall2_length|apply elem_of_ids; eauto].
    pose proof Hv as Hx%(valid_iff c U HU G HG). apply Hx.
  Qed.
End flood.
