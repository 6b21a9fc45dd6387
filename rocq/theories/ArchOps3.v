(** Proofs about archetype rows, continued: half-built rows, writing cells,
    pointers and slices for tuples, releasing everything. *)
From Verif Require Import ArchModel SpecTrace SearchProofs DescrProofs MonadProofs ArchProofs ArchOps ArchOps2 SpecBase SpecWorld.
Local Open Scope nat_scope.

Section ops.
  Context {K : caps}.
  Context (d : adesc) (cs : list ctype) (Hd : desc_ok d cs).

  Lemma cs_NoDup : NoDup (ids_of cs).
  Proof. by eapply strict_NoDup, desc_strict. Qed.
  Lemma shape_insert cap C H k r x col : shape cs cap C H -> C !! k = Some col -> shape cs cap (<[k := <[r := x]> col]> C) H.
  Proof.
    intros Hs Hk. pose proof Hs as (Hl&HF&HH). split; [by rewrite insert_length|]. split; [|done].
    apply Forall_insert; [done|]. rewrite insert_length. by eapply shape_col.
  Qed.
  (** *** Rows under construction *)
  Lemma push_uninit_room a rows e :
    a_desc a = d -> arch_ok a cs rows -> has_room a rows -> ev_oracle e = [] ->
    exists a' e', push_uninitialized_entity (a, e) = Ret (length rows) (a', e') /\
      a_desc a' = d /\ arch_half a' cs rows ∅ /\ emits e e' [] (layouts cs (a_cap a)) (layouts cs (a_cap a')).
  Proof.
    intros Ed Hok Hlt Ho. destruct (resize_room d cs Hd a rows e Ed Hok Hlt Ho) as (cap&C&H&e'&Er&Hcap&Hn&Hs&HS&Hem).
    unfold push_uninitialized_entity. rewrite (bind_Ret _ _ _ _ _ Er).
    exists (mk d cs cap (S (length rows)) C H), e'. split; [done|]. split; [done|]. split; [|done].
    destruct Hok as (_&_&_&HFr&_). split; [done|]. split; [done|]. split; [done|]. split; [done|].
    exists C, H. split; [done|]. split; [done|]. split; [done|]. intros k c v _ Hv. by rewrite lookup_empty in Hv.
  Qed.
  Lemma push_uninit_ok a rows e :
    a_desc a = d -> arch_ok a cs rows -> (N.of_nat (length rows) < 8388608)%N -> ev_oracle e = [] ->
    exists a' e', push_uninitialized_entity (a, e) = Ret (length rows) (a', e') /\
      a_desc a' = d /\ arch_half a' cs rows ∅ /\ emits e e' [] (layouts cs (a_cap a)) (layouts cs (a_cap a')).
  Proof. intros Ed Hok Hlt. apply push_uninit_room; [done|done|by left]. Qed.
  Lemma half_count a rows P : arch_half a cs rows P -> a_count a = S (length rows).
  Proof. intros (_&_&_&_&C&H&Ea&_). by rewrite Ea. Qed.
  Lemma half_last c a rows P : arch_half a cs rows P -> last_row c a = Rd (length rows).
  Proof. intros Hh. unfold last_row. by rewrite (half_count _ _ _ Hh). Qed.
  Lemma half_comps a rows P : a_desc a = d -> arch_half a cs rows P -> a_comps a = map cdesc_of cs.
  Proof. intros Ed (_&_&_&_&C&H&Ea&_). rewrite Ea, Ed. by apply mk_comps. Qed.
  Lemma ok_comps a rows : a_desc a = d -> arch_ok a cs rows -> a_comps a = map cdesc_of cs.
  Proof. intros Ed (_&_&_&_&C&H&Ea&_). rewrite Ea, Ed. by apply mk_comps. Qed.
  Lemma half_write a rows P k c v e :
    a_desc a = d -> arch_half a cs rows P -> cs !! k = Some c ->
    exists a', write_cell k (length rows) (Some v) (a, e) = Ret tt (a', e) /\ a_desc a' = d /\ a_cap a' = a_cap a /\
      arch_half a' cs rows (<[ct_id c := v]> P).
  Proof.
    intros Ed (_&Hcap&Hlt&HFr&C&H&Ea&Hs&HS&HP) Hc. rewrite Ed in Ea. pose proof Hs as (HlC&_&_).
    destruct (lookup_lt_is_Some_2 C k) as [col Hk]. { rewrite HlC. by eapply lookup_lt_Some. }
    pose proof (shape_col _ _ _ _ _ _ Hs Hk) as Hcl.
    exists (mk d cs (a_cap a) (S (length rows)) (<[k := <[length rows := Some v]> col]> C) H).
    split; [rewrite Ea at 1; apply (write_cell_mk d cs); [done|done|lia]|]. split; [done|]. split; [done|].
    split; [done|]. split; [done|]. split; [done|]. split; [done|]. eexists _, H. split; [done|].
    split; [by apply shape_insert|]. split.
    - intros r h m Hr. destruct (HS _ _ _ Hr) as [HH HR]. split; [done|]. intros k' c' Hc'.
      destruct (HR k' c' Hc') as (col'&Hk'&Hcell). destruct (decide (k' = k)) as [->|Hne].
      + rewrite Hk in Hk'. injection Hk' as <-. eexists. split; [apply list_lookup_insert; by eapply lookup_lt_Some|].
        rewrite list_lookup_insert_ne; [done|]. apply lookup_lt_Some in Hr. lia.
      + exists col'. by rewrite list_lookup_insert_ne.
    - intros k' c' w Hc' Hw. destruct (decide (k' = k)) as [->|Hne].
      + rewrite Hc in Hc'. injection Hc' as <-. rewrite lookup_insert in Hw. injection Hw as <-.
        eexists. split; [apply list_lookup_insert; by eapply lookup_lt_Some|]. apply list_lookup_insert. lia.
      + rewrite lookup_insert_ne in Hw.
        * destruct (HP k' c' w Hc' Hw) as (col'&Hk'&Hcell). exists col'. by rewrite list_lookup_insert_ne.
        * intros E. apply Hne. pose proof (ids_of_lookup _ _ _ Hc) as A. pose proof (ids_of_lookup _ _ _ Hc') as B.
          rewrite E in A. by eapply NoDup_lookup; [apply cs_NoDup|..].
  Qed.
  Lemma write_single_ok C a rows P v e :
    a_desc a = d -> arch_half a cs rows P -> C ∈ cs ->
    exists a', write_single_component_unchecked C (length rows) v (a, e) = Ret tt (a', e) /\ a_desc a' = d /\
      a_cap a' = a_cap a /\ arch_half a' cs rows (<[ct_id C := v]> P).
  Proof.
    intros Ed Hh [k Hc]%elem_of_list_lookup. unfold write_single_component_unchecked.
    unfold bind at 1, am_get at 1. cbn [fst].
    pose proof Hh as (_&_&_&_&C0&H0&Ea&_). rewrite Ed in Ea.
    assert (Hb : binary_search (ids (a_comps a)) (ct_id C) = inl k) by (rewrite Ea; by apply search_col).
    rewrite Hb. assert (Hcd : a_comps a !! k = Some (cdesc_of C)) by (rewrite Ea; by apply mk_comps_lookup).
    rewrite Hcd. rewrite small_size by (by eapply cs_small). rewrite N.eqb_refl. by apply half_write.
  Qed.
  Lemma write_entity_half a rows P h m e :
    a_desc a = d -> arch_half a cs rows P -> row_ok cs (h, m) ->
    (forall c v, c ∈ cs -> m !! ct_id c = Some v -> P !! ct_id c = Some v) ->
    exists a', write_entity (length rows) h (a, e) = Ret tt (a', e) /\ a_desc a' = d /\ a_cap a' = a_cap a /\
      arch_ok a' cs (rows ++ [(h, m)]).
  Proof.
    intros Ed (_&Hcap&Hlt&HFr&C&H&Ea&Hs&HS&HP) Hrow Hm. rewrite Ed in Ea. pose proof Hs as (HlC&HFC&HHl).
    exists (mk d cs (a_cap a) (S (length rows)) C (<[length rows := Some h]> H)).
    split; [rewrite Ea at 1; apply write_entity_mk; lia|]. split; [done|]. split; [done|].
    replace (S (length rows)) with (length (rows ++ [(h, m)])) by (rewrite app_length; cbn; lia).
    assert (Hs' : shape cs (a_cap a) C (<[length rows := Some h]> H)).
    { split; [done|]. split; [done|]. by rewrite insert_length. }
    apply arch_ok_intro; [done|done|rewrite app_length; cbn; lia| |done|].
    - apply Forall_app. split; [done|]. by apply Forall_singleton.
    - eapply stored_snoc; [exact Hs'|done|by apply stored_insert_H|apply list_lookup_insert; lia|].
      intros k c Hc. destruct (full_Some cs m k c) as [v Hv]; [apply Hrow|done|].
      destruct (HP k c v Hc) as (col&Hk&Hcell); [apply Hm; [by eapply elem_of_list_lookup_2|done]|].
      exists col. by rewrite Hv.
  Qed.
  Lemma copy_common_ok sd scs sa srows sr h m a rows e :
    desc_ok sd scs -> a_desc sa = sd -> arch_ok sa scs srows -> srows !! sr = Some (h, m) ->
    (forall c c', c ∈ scs -> c' ∈ cs -> ct_id c = ct_id c' -> c = c') ->
    a_desc a = d -> arch_half a cs rows ∅ ->
    exists a', copy_common_components sa sr (length rows) (a, e) = Ret tt (a', e) /\ a_desc a' = d /\ a_cap a' = a_cap a /\
      exists P, arch_half a' cs rows P /\ forall x, x ∈ ids_of scs -> x ∈ ids_of cs -> P !! x = m !! x.
  Proof.
    intros Hsd Esd Hsok Hsr Hcomp Ed Hh. unfold copy_common_components. unfold bind at 1, am_get at 1. cbn [fst].
    rewrite (half_comps _ _ _ Ed Hh).
    assert (Hscomps : a_comps sa = map cdesc_of scs).
    { destruct Hsok as (_&_&_&_&C0&H0&E0&_). rewrite E0, Esd. by apply mk_comps. }
    rewrite Hscomps.
    assert (Hsrow : row_ok scs (h, m)).
    { destruct Hsok as (_&_&_&HFs&_). exact (Forall_lookup_1 _ _ _ _ HFs Hsr). }
    destruct (mfor_enum_inv (fun i s => exists a', s = (a', e) /\ a_desc a' = d /\ a_cap a' = a_cap a /\
       exists P, arch_half a' cs rows P /\ forall x, x ∈ ids_of (take i scs) -> x ∈ ids_of cs -> P !! x = m !! x)
       (map cdesc_of scs) (fun '(si, sd) =>
    mfor (enum (map cdesc_of cs)) (fun '(di, dd) =>
      if negb (cd_id sd =? cd_id dd)%N then ret tt
      else if negb (cd_size sd =? cd_size dd)%N then mub
      else
        let! cell := lift_rd (raw_cell sa si sr) in
        write_cell di (length rows) cell)) (a, e)) as (s'&E&a'&->&Ed'&Ec'&P&HP&HPx).
    - exists a. split; [done|]. split; [done|]. split; [done|]. exists ∅. split; [done|]. intros x Hx. by apply elem_of_nil in Hx.
    - intros i x s Hx (a1&->&Ed1&Ec1&P1&Hh1&HP1).
      change (map cdesc_of scs) with (cdesc_of <$> scs) in Hx. rewrite list_lookup_fmap in Hx.
      destruct (scs !! i) as [c|] eqn:Hc; [|done]. injection Hx as <-.
      destruct (row_ok_get _ _ _ _ Hsrow Hc) as (v&Hv&_). cbn [snd] in Hv.
      destruct (mfor_enum_inv (fun j s => exists a', s = (a', e) /\ a_desc a' = d /\ a_cap a' = a_cap a /\
         exists P, arch_half a' cs rows P /\ (forall x, x ∈ ids_of (take i scs) -> x ∈ ids_of cs -> P !! x = m !! x) /\
           (ct_id c ∈ ids_of (take j cs) -> P !! ct_id c = m !! ct_id c))
         (map cdesc_of cs) (fun '(di, dd) =>
        if negb (cd_id (cdesc_of c) =? cd_id dd)%N then ret tt
        else if negb (cd_size (cdesc_of c) =? cd_size dd)%N then mub
        else
          let! cell := lift_rd (raw_cell sa i sr) in
          write_cell di (length rows) cell) (a1, e)) as (s'&E&a'&->&Ed'&Ec'&P&HP&HPx&HPc).
      + exists a1. split; [done|]. split; [done|]. split; [done|]. exists P1. split; [done|]. split; [done|]. intros Hn. by apply elem_of_nil in Hn.
      + intros j x s Hx (a2&->&Ed2&Ec2&P2&Hh2&HP2&HPc2).
        change (map cdesc_of cs) with (cdesc_of <$> cs) in Hx. rewrite list_lookup_fmap in Hx.
        destruct (cs !! j) as [c'|] eqn:Hc'; [|done]. injection Hx as <-. cbn [cd_id cdesc_of].
        rewrite (take_S_r _ _ _ Hc').
        destruct (decide (ct_id c = ct_id c')) as [Eid|Nid].
        * assert (c = c') as <-. { apply Hcomp; [by eapply elem_of_list_lookup_2..|done]. }
          rewrite !N.eqb_refl. cbn [negb].
          destruct (typed_cell_ok sd scs Hsd sa srows sr h m i c v Esd Hsok Hsr Hc Hv) as [_ Hraw].
          destruct (half_write a2 rows P2 j c v e Ed2 Hh2 Hc') as (a3&E3&Ed3&Ec3&Hh3).
          exists (a3, e). split. { erewrite bind_Ret; [|by apply lift_Rd]. exact E3. }
          exists a3. split; [done|]. split; [done|]. split; [congruence|]. eexists. split; [exact Hh3|]. split.
          -- intros x Hx1 Hx2. destruct (decide (x = ct_id c)) as [->|Hne]; [by rewrite lookup_insert|].
             rewrite lookup_insert_ne by done. by apply HP2.
          -- intros _. by rewrite lookup_insert.
        * rewrite (proj2 (N.eqb_neq _ _) Nid). cbn [negb]. exists (a2, e). split; [done|].
          exists a2. split; [done|]. split; [done|]. split; [done|]. exists P2. split; [done|]. split; [done|].
          intros Hin. apply HPc2. rewrite map_app in Hin. apply elem_of_app in Hin as [Hin|Hin]; [done|].
          apply elem_of_list_singleton in Hin. congruence.
      + exists (a', e). split; [exact E|]. exists a'. split; [done|]. split; [done|]. split; [congruence|]. exists P. split; [done|].
        intros x Hx Hxcs. rewrite (take_S_r _ _ _ Hc), map_app in Hx. apply elem_of_app in Hx as [Hx|Hx]; [by apply HPx|].
        apply elem_of_list_singleton in Hx. subst x. apply HPc. rewrite map_length, take_ge by lia. done.
    - exists a'. split; [exact E|]. split; [done|]. split; [done|]. exists P. split; [done|].
      intros x Hx. apply HPx. rewrite map_length, take_ge by lia. done.
  Qed.

  (** *** Overwriting one component *)
  Lemma set_cell_ok a rows r h m k c v e :
    a_desc a = d -> arch_ok a cs rows -> rows !! r = Some (h, m) -> cs !! k = Some c -> fits c v ->
    exists a', write_cell k r (Some v) (a, e) = Ret tt (a', e) /\ a_desc a' = d /\ a_cap a' = a_cap a /\
      arch_ok a' cs (<[r := (h, <[ct_id c := v]> m)]> rows).
  Proof.
    intros Ed (_&Hcap&Hle&HFr&C&H&Ea&Hs&HS) Hr Hc Hfit. rewrite Ed in Ea. pose proof Hs as (HlC&_&_).
    destruct (lookup_lt_is_Some_2 C k) as [col Hk]. { rewrite HlC. by eapply lookup_lt_Some. }
    pose proof (shape_col _ _ _ _ _ _ Hs Hk) as Hcl. pose proof (lookup_lt_Some _ _ _ Hr) as Hrl.
    exists (mk d cs (a_cap a) (length rows) (<[k := <[r := Some v]> col]> C) H).
    split; [rewrite Ea at 1; apply (write_cell_mk d cs); [done|done|lia]|]. split; [done|]. split; [done|].
    rewrite <- (insert_length rows r (h, <[ct_id c := v]> m)) at 1.
    apply arch_ok_intro; [done|done|by rewrite insert_length| |by apply shape_insert|].
    - apply Forall_insert; [done|]. destruct (Forall_lookup_1 _ _ _ _ HFr Hr) as [Hf Hft]. cbn [snd] in *. split; cbn [snd].
      + intros x. destruct (decide (x = ct_id c)) as [->|Hne].
        * rewrite lookup_insert. split; [|done]. intros _. apply elem_of_ids. exists c. split; [by eapply elem_of_list_lookup_2|done].
        * rewrite lookup_insert_ne by done. apply Hf.
      + intros c' w Hc' Hw. destruct (decide (ct_id c' = ct_id c)) as [E|Hne].
        * assert (c' = c) as ->. { eapply ids_inj; [apply cs_NoDup|done|by eapply elem_of_list_lookup_2|done]. }
          rewrite lookup_insert in Hw. by injection Hw as <-.
        * rewrite lookup_insert_ne in Hw by done. by apply Hft.
    - intros r' h' m' Hr'. destruct (decide (r' = r)) as [->|Hne].
      + rewrite list_lookup_insert in Hr' by done. injection Hr' as <- <-. destruct (HS _ _ _ Hr) as [HH HR].
        split; [done|]. intros k' c' Hc'. destruct (HR k' c' Hc') as (col'&Hk'&Hcell).
        destruct (decide (k' = k)) as [->|Hnk].
        * rewrite Hk in Hk'. injection Hk' as <-. rewrite Hc in Hc'. injection Hc' as <-. rewrite lookup_insert.
          eexists. split; [apply list_lookup_insert; by eapply lookup_lt_Some|]. apply list_lookup_insert. lia.
        * exists col'. rewrite list_lookup_insert_ne by done. rewrite lookup_insert_ne; [done|].
          intros E. apply Hnk. pose proof (ids_of_lookup _ _ _ Hc) as A. pose proof (ids_of_lookup _ _ _ Hc') as B.
          rewrite E in A. by eapply NoDup_lookup; [apply cs_NoDup|..].
      + rewrite list_lookup_insert_ne in Hr' by done. destruct (HS _ _ _ Hr') as [HH HR].
        split; [done|]. intros k' c' Hc'. destruct (HR k' c' Hc') as (col'&Hk'&Hcell).
        destruct (decide (k' = k)) as [->|Hnk].
        * rewrite Hk in Hk'. injection Hk' as <-. eexists. split; [apply list_lookup_insert; by eapply lookup_lt_Some|].
          by rewrite list_lookup_insert_ne.
        * exists col'. by rewrite list_lookup_insert_ne.
  Qed.

  (** *** Pointers for a tuple type *)
  Lemma find_from_spec ds pos j dd : NoDup (ids ds) -> ds !! j = Some dd -> find_from ds pos (cd_id dd) = Some (pos + j).
  Proof.
    revert pos j. induction ds as [|d0 ds IH]; intros pos j Hnd Hj; [done|]. cbn [map] in Hnd. apply NoDup_cons in Hnd as [Hni Hnd].
    cbn [find_from]. destruct j as [|j].
    - injection Hj as ->. rewrite N.eqb_refl. f_equal. lia.
    - cbn in Hj. rewrite (proj2 (N.eqb_neq _ _)).
      + rewrite (IH (S pos) j Hnd Hj). f_equal. lia.
      + intros E. apply Hni. rewrite E. change (ids ds) with (cd_id <$> ds). apply elem_of_list_fmap. exists dd.
        split; [done|by eapply elem_of_list_lookup_2].
  Qed.
  Lemma subset_pos s i k c : strict (ids_of s) -> (forall c, c ∈ s -> c ∈ cs) -> s !! i = Some c -> cs !! k = Some c -> i <= k.
  Proof.
    intros Hst Hsub Hi Hk. pose proof (desc_strict _ _ Hd) as Hst'.
    (* the ids of s up to i all occur in cs up to k *)
    assert (Hincl : ids_of (take (S i) s) ⊆+ ids_of (take (S k) cs)).
    { apply NoDup_submseteq.
      - rewrite <- firstn_map. pose proof (strict_NoDup _ Hst) as Hnd. rewrite <- (take_drop (S i)) in Hnd.
        by apply NoDup_app in Hnd as (?&_&_).
      - intros x Hx. apply elem_of_ids in Hx as (c'&[j Hj]%elem_of_list_lookup&<-).
        apply lookup_take_Some in Hj as [Hj Hji].
        assert (Hc' : c' ∈ cs) by (apply Hsub; by eapply elem_of_list_lookup_2).
        apply elem_of_list_lookup in Hc' as [k' Hk']. apply elem_of_ids. exists c'. split; [|done].
        apply elem_of_list_lookup. exists k'. apply lookup_take_Some. split; [done|].
        destruct (decide (k' < S k)) as [?|Hge]; [done|exfalso].
        pose proof (ids_of_lookup _ _ _ Hk) as A. pose proof (ids_of_lookup _ _ _ Hk') as B.
        assert (Hkk : k < k') by lia. pose proof (strict_lookup_lt _ _ _ _ _ Hst' Hkk A B) as L1.
        pose proof (ids_of_lookup _ _ _ Hi) as A'. pose proof (ids_of_lookup _ _ _ Hj) as B'.
        destruct (decide (j = i)) as [->|Hne].
        + rewrite A' in B'. injection B' as E. lia.
        + assert (Hjj : j < i) by lia. pose proof (strict_lookup_lt _ _ _ _ _ Hst Hjj B' A'). lia. }
    apply submseteq_length in Hincl. rewrite !map_length, !take_length in Hincl.
    apply lookup_lt_Some in Hi. apply lookup_lt_Some in Hk. lia.
  Qed.
  Lemma fuzzy_ok be G s a rows off i k c :
    a_desc a = d -> arch_ok a cs rows -> gspec be G s -> (forall c, c ∈ G -> c ∈ cs) ->
    s !! i = Some c -> cs !! k = Some c -> get_fuzzy_pointers (group_desc be G) off a !! i = Some (Some (k, off)).
  Proof.
    intros Ed Hok Hg Hsub Hi Hk. unfold get_fuzzy_pointers. rewrite (gs_comps _ _ _ Hg).
    apply lookup_app_l_Some. change (map ?f (enum ?l)) with (f <$> enum l). rewrite list_lookup_fmap.
    assert (Hcd : map cdesc_of s !! i = Some (cdesc_of c)).
    { change (map cdesc_of s) with (cdesc_of <$> s). by rewrite list_lookup_fmap, Hi. }
    rewrite (enum_lookup _ _ _ Hcd). cbn [fmap option_fmap option_map]. f_equal. unfold fuzzy_pointer.
    rewrite (ok_comps _ _ Ed Hok).
    assert (Hik : i <= k).
    { eapply subset_pos; [apply Hg| |exact Hi|exact Hk]. intros c' Hc'. apply Hsub. by rewrite <- (gs_perm _ _ _ Hg). }
    assert (Hkd : map cdesc_of cs !! k = Some (cdesc_of c)).
    { change (map cdesc_of cs) with (cdesc_of <$> cs). by rewrite list_lookup_fmap, Hk. }
    rewrite (find_from_spec (drop i (map cdesc_of cs)) i (k - i) (cdesc_of c)).
    - replace (i + (k - i)) with k by lia. rewrite (cnth_lookup _ _ _ Hkd). by rewrite N.eqb_refl.
    - change (map cd_id ?l) with (cd_id <$> l). rewrite fmap_drop.
      change (cd_id <$> map cdesc_of cs) with (ids (map cdesc_of cs)). rewrite ids_cdesc_of.
      pose proof cs_NoDup as Hnd. rewrite <- (take_drop i) in Hnd. by apply NoDup_app in Hnd as (_&_&?).
    - rewrite lookup_drop. by replace (i + (k - i)) with k by lia.
  Qed.
  (** The cells of the tuple's components in row [r]. *)
  Definition cells_of (G : group) (r : nat) : list (nat * nat) := map (fun c => (id_pos (ct_id c) (ids_of cs), r)) G.
  Lemma fuzzy_components_ok c G a rows r h m vs :
    a_desc a = d -> arch_ok a cs rows -> rows !! r = Some (h, m) -> gd_is_valid (group_desc (big c) G) = true ->
    (forall c, c ∈ G -> c ∈ cs) -> tuple_of m G vs ->
    get_fuzzy_components c G r a = Rd vs /\ get_fuzzy_components_mut c G r a = Rd (cells_of G r).
  Proof.
    intros Ed Hok Hr Hv Hsub Ht. destruct (gspec_exists _ _ Hv) as [s Hg].
    assert (HD : forall i c0 v, G !! i = Some c0 -> vs !! i = Some v ->
       deref c0 a (get_fuzzy_pointers (group_desc (big c) G) r a) (group_slot (big c) G i) = Rd (id_pos (ct_id c0) (ids_of cs), r, v)).
    { intros i c0 v Hi Hvi. pose proof (gs_slot _ _ _ Hg _ _ Hi) as Hs.
      assert (Hin : c0 ∈ cs) by (apply Hsub; by eapply elem_of_list_lookup_2). apply elem_of_list_lookup in Hin as [k Hk].
      unfold deref. rewrite (fuzzy_ok _ _ _ _ _ _ _ _ _ Ed Hok Hg Hsub Hs Hk).
      assert (Hm : m !! ct_id c0 = Some v) by (by eapply Forall2_lookup_lr in Ht).
      destruct (typed_cell_ok d cs Hd _ _ _ _ _ _ _ _ Ed Hok Hr Hk Hm) as [-> _]. cbn [rbind].
      by rewrite (pos_in_cs d cs Hd _ _ Hk). }
    unfold get_fuzzy_components, get_fuzzy_components_mut. rewrite Hv. split.
    - rewrite rdebug_true by done. cbn [rbind]. apply rmap_enum; [by eapply Forall2_length|].
      intros i c0 v Hi Hvi. by rewrite (HD _ _ _ Hi Hvi).
    - rewrite rdebug_true by done. cbn [rbind]. apply rmap_enum; [by unfold cells_of; rewrite map_length|].
      intros i c0 y Hi Hy. destruct (lookup_lt_is_Some_2 vs i) as [v Hvi].
      { rewrite <- (Forall2_length _ _ _ Ht). by eapply lookup_lt_Some. }
      rewrite (HD _ _ _ Hi Hvi). cbn [rbind fst]. unfold cells_of in Hy.
      change (map ?f G) with (f <$> G) in Hy. rewrite list_lookup_fmap, Hi in Hy. by injection Hy as <-.
  Qed.

  (** *** Slices *)
  (** The column of [c] over all rows. *)
  Definition col_of (rows : list row) (c : ctype) (col : list value) : Prop :=
    Forall2 (fun (x : row) v => x.2 !! ct_id c = Some v) rows col.
  Lemma slice_cells_ok a rows ps slot k c col :
    a_desc a = d -> arch_ok a cs rows -> ps !! slot = Some (Some (k, 0)) -> cs !! k = Some c -> col_of rows c col ->
    slice_cells c a ps slot (length rows) = Rd (imap (fun r v => (k, r, v)) col).
  Proof.
    intros Ed Hok Hps Hk Hcol. unfold slice_cells. rewrite Hps.
    pose proof Hok as (_&_&_&_&C&H&Ea&(HlC&_&_)&_). rewrite Ed in Ea.
    destruct (lookup_lt_is_Some_2 C k) as [cl Hcl]. { rewrite HlC. by eapply lookup_lt_Some. }
    assert (Ep : a_ptrs a !! k = Some (colb (a_cap a) c cl)) by (rewrite Ea; by apply colbs_lookup).
    rewrite_ptr Ep. cbn [colb]. apply rmap_Forall2. apply Forall2_same_length_lookup. split.
    { rewrite seq_length, imap_length. by eapply Forall2_length. }
    intros i r y Hr Hy. apply lookup_seq in Hr as [-> Hlt]. cbn [Nat.add] in *.
    rewrite list_lookup_imap in Hy. destruct (col !! i) as [v|] eqn:Hv; [|done]. injection Hy as <-.
    destruct (lookup_lt_is_Some_2 rows i Hlt) as [[h m] Hrow].
    assert (Hm : m !! ct_id c = Some v) by (by pose proof (Forall2_lookup_lr _ _ _ _ _ _ Hcol Hrow Hv)).
    destruct (typed_cell_ok d cs Hd _ _ _ _ _ _ _ _ Ed Hok Hrow Hk Hm) as [-> _]. done.
  Qed.
  (** The cells of the tuple's components over [n] rows. *)
  Definition col_cells (n : nat) (G : group) : list (list (nat * nat)) :=
    map (fun c => map (fun r => (id_pos (ct_id c) (ids_of cs), r)) (seq 0 n)) G.
  Lemma slices_ok be G a rows ps cols :
    a_desc a = d -> arch_ok a cs rows ->
    (forall i c k, G !! i = Some c -> cs !! k = Some c -> ps !! group_slot be G i = Some (Some (k, 0))) ->
    (forall c, c ∈ G -> c ∈ cs) -> Forall2 (col_of rows) G cols ->
    slice_unchecked be G ps (a_len a) a = Rd cols /\
    slice_unchecked_mut be G ps (a_len a) a = Rd (col_cells (length rows) G).
  Proof.
    intros Ed Hok Hps Hsub HF. unfold a_len. rewrite (count_ok cs _ _ Hok).
    assert (HD : forall i c0 col, G !! i = Some c0 -> cols !! i = Some col -> exists k, cs !! k = Some c0 /\
       slice_cells c0 a ps (group_slot be G i) (length rows) = Rd (imap (fun r v => (k, r, v)) col)).
    { intros i c0 col Hi Hcol. assert (Hin : c0 ∈ cs) by (apply Hsub; by eapply elem_of_list_lookup_2).
      apply elem_of_list_lookup in Hin as [k Hk]. exists k. split; [done|].
      eapply slice_cells_ok; [done|done|by eapply Hps|done|]. by eapply Forall2_lookup_lr in HF. }
    split.
    - apply rmap_enum; [by eapply Forall2_length|]. intros i c0 col Hi Hcol.
      destruct (HD _ _ _ Hi Hcol) as (k&Hk&->). cbn [rbind]. f_equal.
      apply list_eq. intros j. change (map snd ?l) with (snd <$> l). rewrite list_lookup_fmap, list_lookup_imap. by destruct (col !! j).
    - apply rmap_enum; [by unfold col_cells; rewrite map_length|]. intros i c0 y Hi Hy.
      destruct (lookup_lt_is_Some_2 cols i) as [col Hcol]. { rewrite <- (Forall2_length _ _ _ HF). by eapply lookup_lt_Some. }
      destruct (HD _ _ _ Hi Hcol) as (k&Hk&->). cbn [rbind]. f_equal.
      unfold col_cells in Hy. change (map ?f G) with (f <$> G) in Hy. rewrite list_lookup_fmap, Hi in Hy. injection Hy as <-.
      rewrite (pos_in_cs d cs Hd _ _ Hk).
      assert (Hlen : length col = length rows). { symmetry. eapply Forall2_length. by eapply Forall2_lookup_lr in HF. }
      apply list_eq. intros j. change (map ?f ?l) with (f <$> l). rewrite !list_lookup_fmap, list_lookup_imap.
      destruct (decide (j < length rows)) as [Hj|Hj].
      + destruct (lookup_lt_is_Some_2 col j) as [v Hv]; [lia|]. rewrite Hv. rewrite lookup_seq_lt by done. done.
      + rewrite (lookup_ge_None_2 col) by lia. rewrite lookup_seq_ge by lia. done.
  Qed.
  Lemma cols_exist G rows : Forall (row_ok cs) rows -> (forall c, c ∈ G -> c ∈ cs) -> exists cols, Forall2 (col_of rows) G cols.
  Proof.
    intros HF. induction G as [|c G IH]; intros Hsub; [exists []; constructor|].
    destruct IH as [cols Hcols]. { intros c' Hc'. apply Hsub. by right. }
    assert (exists col, col_of rows c col) as [col Hcol].
    { assert (Hin : c ∈ cs) by (apply Hsub; left). clear -HF Hin. apply elem_of_list_lookup in Hin as [k Hk].
      induction HF as [|x rows Hx HF IH]; [exists []; constructor|]. destruct IH as [col Hcol].
      destruct (row_ok_get _ _ _ _ Hx Hk) as (v&Hv&_). exists (v :: col). by constructor. }
    exists (col :: cols). by constructor.
  Qed.
  Lemma fuzzy_slices_ok c G a rows cols :
    a_desc a = d -> arch_ok a cs rows -> gd_is_valid (group_desc (big c) G) = true ->
    (forall c, c ∈ G -> c ∈ cs) -> Forall2 (col_of rows) G cols ->
    get_fuzzy_slices c G a = Rd cols /\ get_fuzzy_slices_mut c G a = Rd (col_cells (length rows) G) /\
    get_entity_fuzzy_slices c G a = Rd (map fst rows, cols) /\
    get_entity_fuzzy_slices_mut c G a = Rd (map fst rows, col_cells (length rows) G).
  Proof.
    intros Ed Hok Hv Hsub HF. destruct (gspec_exists _ _ Hv) as [s Hg].
    destruct (slices_ok (big c) G a rows (get_fuzzy_pointers (group_desc (big c) G) 0 a) cols Ed Hok) as [H1 H2].
    { intros i c0 k Hi Hk. eapply fuzzy_ok; [done|done|done|done| |done]. by apply (gs_slot _ _ _ Hg). }
    { done. } { done. }
    unfold get_fuzzy_slices, get_fuzzy_slices_mut, get_entity_fuzzy_slices, get_entity_fuzzy_slices_mut.
    rewrite !Hv, !rdebug_true by done. cbn [rbind].
    rewrite (entities_ok d cs _ _ Ed Hok). cbn [rbind]. rewrite H1, H2. done.
  Qed.
  Lemma own_pointers_ok a rows k c : a_desc a = d -> arch_ok a cs rows -> cs !! k = Some c -> own_pointers a !! k = Some (Some (k, 0)).
  Proof.
    intros Ed (_&_&_&_&C&H&Ea&(HlC&_&_)&_) Hk. rewrite Ed in Ea. rewrite Ea.
    destruct (lookup_lt_is_Some_2 C k) as [cl Hcl]. { rewrite HlC. by eapply lookup_lt_Some. }
    unfold own_pointers. change (map ?f ?l) with (f <$> l). rewrite list_lookup_fmap.
    cbn [a_ptrs mk]. rewrite (enum_lookup _ _ _ (colbs_lookup _ _ _ _ _ _ Hk Hcl)). done.
  Qed.
  Lemma exact_slices_ok c G a rows cols :
    a_desc a = d -> arch_ok a cs rows -> gspec (big c) G cs -> ad_id d = tuple_archetype_id (big c) (ids_of cs) ->
    Forall2 (col_of rows) G cols ->
    get_slices_exact c G a = Rd cols /\ get_slices_exact_mut c G a = Rd (col_cells (length rows) G).
  Proof.
    intros Ed Hok Hg Hid HF.
    destruct (slices_ok (big c) G a rows (own_pointers a) cols Ed Hok) as [H1 H2].
    { intros i c0 k Hi Hk. pose proof (gs_slot _ _ _ Hg _ _ Hi) as Hs.
      assert (group_slot (big c) G i = k) as ->.
      { destruct (gspec_NoDup _ _ _ Hg) as (_&_&Hnd&_). by eapply NoDup_lookup. }
      by eapply own_pointers_ok. }
    { intros c0 Hc0. by rewrite (gs_perm _ _ _ Hg). } { done. }
    unfold get_slices_exact, get_slices_exact_mut. rewrite Ed, Hid, (gs_id _ _ _ Hg), N.eqb_refl.
    rewrite !rdebug_true by done. cbn [rbind]. by rewrite H1, H2.
  Qed.

  (** *** Releasing everything *)
  Lemma drop_rows_ok a rows k c col n e L :
    a_desc a = d -> arch_ok a cs rows -> cs !! k = Some c -> col_of rows c col -> n <= length rows -> Forall (fun x : row => calm x.2) rows -> ev_oracle e = [] ->
    exists e', mfor (seq 0 n) (drop_cell c k) (a, e) = Ret tt (a, e') /\ emits e e' (take n col) L L.
  Proof.
    intros Ed Hok Hk Hcol Hn Hcalm Ho. induction n as [|n IH].
    { exists e. split; [done|]. by apply emits_refl. }
    destruct IH as (e1&E1&Hem1); [lia|].
    destruct (lookup_lt_is_Some_2 rows n) as [[h m] Hrow]; [lia|].
    destruct (lookup_lt_is_Some_2 col n) as [v Hv]. { rewrite <- (Forall2_length _ _ _ Hcol). lia. }
    assert (Hm : m !! ct_id c = Some v) by (by pose proof (Forall2_lookup_lr _ _ _ _ _ _ Hcol Hrow Hv)).
    assert (Hb : v_bomb v = false).
    { exact (Forall_lookup_1 _ _ _ _ Hcalm Hrow _ _ Hm). }
    destruct (typed_cell_ok d cs Hd _ _ _ _ _ _ _ _ Ed Hok Hrow Hk Hm) as [Ht _].
    exists (emitted e1 [EvDrop v]). split.
    - rewrite seq_S. rewrite (mfor_app _ _ _ _ _ E1). cbn [mfor Nat.add]. unfold bind at 1. unfold drop_cell.
      erewrite bind_Ret; [|by apply am_rd_Rd]. unfold bind at 1. cbn. rewrite Hb. done.
    - rewrite (take_S_r _ _ _ Hv). eapply emits_trans; [exact Hem1|]. apply emits_drop. by eapply emits_oracle.
  Qed.
  Lemma cols_concat_perm (l : list ctype) rows cols :
    NoDup (ids_of l) -> Forall2 (col_of rows) l cols -> concat cols ≡ₚ concat (map (fun x : row => row_values l x.2) rows).
  Proof.
    intros _ HF. induction HF as [|c col l cols Hc HF IH].
    - cbn. induction rows as [|x rows IH]; [done|]. cbn. done.
    - cbn [concat]. rewrite IH. clear IH HF. induction Hc as [|x v rows col Hv Hc IH]; [done|].
      cbn [map concat]. assert (Er : row_values (c :: l) x.2 = v :: row_values l x.2).
      { unfold row_values. cbn [omap list_omap]. by rewrite Hv. }
      rewrite Er. cbn [app]. constructor.
      rewrite <- IH. rewrite !app_assoc. by rewrite (Permutation_app_comm col).
  Qed.
  Lemma drop_entities_ok a rows e L :
    a_desc a = d -> arch_ok a cs rows -> Forall (fun x : row => calm x.2) rows -> ev_oracle e = [] ->
    exists e', drop_entities (a, e) = Ret tt (a, e') /\
      emits e e' (concat (map (fun x : row => row_values cs x.2) rows)) L L.
  Proof.
    intros Ed Hok Hcalm Ho. pose proof Hok as (_&_&_&HFr&C&H&Ea&(HlC&_&_)&_). rewrite Ed in Ea.
    destruct (cols_exist cs rows HFr) as [cols Hcols]; [done|].
    unfold drop_entities. unfold bind at 1, am_get at 1. cbn [fst]. unfold a_len. rewrite (count_ok cs _ _ Hok).
    destruct (mfor_enum_inv (fun i s => exists e', s = (a, e') /\ emits e e' (concat (take i cols)) L L)
       (a_comps a) (fun '(i, d) => run_drop_handler d i 0 (length rows)) (a, e)) as (s'&E&e'&->&Hem).
    - exists e. split; [done|]. by apply emits_refl.
    - intros i x s Hx (e1&->&Hem). rewrite (ok_comps _ _ Ed Hok) in Hx.
      change (map cdesc_of cs) with (cdesc_of <$> cs) in Hx. rewrite list_lookup_fmap in Hx.
      destruct (cs !! i) as [c|] eqn:Hc; [|done]. injection Hx as <-.
      destruct (lookup_lt_is_Some_2 C i) as [cl Hcl]. { rewrite HlC. by eapply lookup_lt_Some. }
      destruct (lookup_lt_is_Some_2 cols i) as [col Hcol]. { rewrite <- (Forall2_length _ _ _ Hcols). by eapply lookup_lt_Some. }
      assert (Hco : col_of rows c col) by (by eapply Forall2_lookup_lr in Hcols).
      destruct (drop_rows_ok a rows i c col (length rows) e1 L Ed Hok Hc Hco) as (e2&E2&Hem2); [done|done|by eapply emits_oracle|].
      exists (a, e2). split.
      + unfold run_drop_handler. cbn [cd_drop cdesc_of]. unfold bind at 1, am_get at 1. cbn [fst].
        assert (Ep : a_ptrs a !! i = Some (colb (a_cap a) c cl)) by (rewrite Ea; by apply colbs_lookup).
        rewrite_ptr Ep. cbn [colb]. exact E2.
      + exists e2. split; [done|]. rewrite (take_S_r _ _ _ Hcol), concat_app. cbn [concat]. rewrite app_nil_r.
        eapply emits_trans; [exact Hem|]. rewrite take_ge in Hem2; [done|]. by rewrite (Forall2_length _ _ _ Hco).
    - exists e'. split; [exact E|]. rewrite (ok_comps _ _ Ed Hok), map_length, take_ge in Hem by (by rewrite (Forall2_length _ _ _ Hcols)).
      eapply emits_perm; [exact Hem| |done|done]. apply cols_concat_perm; [apply cs_NoDup|done].
  Qed.
  Lemma dealloc_columns_ok cap n ps p (l : list ctype) (C : list column) e i :
    Forall small l -> length C = length l -> ev_oracle e = [] ->
    (forall j c col, l !! j = Some c -> C !! j = Some col -> ps !! (i + j) = Some (colb cap c col)) ->
    exists ps' e', dealloc_columns (zip (seq i (length l)) (map cdesc_of l)) (Arch d ps p n cap, e) = Ret true (Arch d ps' p n cap, e') /\
      emits e e' [] (map (fun c => (ct_size c * N.of_nat cap, ct_align c)%N) l) [] /\
      (forall j, j < i -> ps' !! j = ps !! j) /\ (forall j, j < length l -> ps' !! (i + j) = Some None).
  Proof.
    revert C e i ps. induction l as [|c l IH]; intros C e i ps Hsm HC Ho Hps.
    { exists ps, e. split; [done|]. split; [by apply emits_refl|]. split; [done|]. intros j Hj. cbn in Hj. lia. }
    apply Forall_cons in Hsm as [Hc Hsm]. destruct C as [|col C]; [done|]. cbn [length] in HC.
    cbn [length seq map zip zip_with dealloc_columns]. unfold bind at 1, am_get at 1. cbn [fst a_ptrs].
    pose proof (Hps 0 c col eq_refl eq_refl) as Hp. rewrite Nat.add_0_r in Hp.
    rewrite_ptr Hp. cbn [colb a_cap].
    rewrite small_size, small_align by done.
    assert (Ed : mem_dealloc (colb cap c col) (ct_size c * N.of_nat cap) (ct_align c) e =
                 Ret tt (emitted e [EvDealloc (ct_size c * N.of_nat cap) (ct_align c)])%N).
    { unfold mem_dealloc, colb. cbn [bl_size bl_align]. rewrite !N.eqb_refl. done. }
    unfold colb in Ed. rewrite (bind_Ret _ _ _ _ _ (am_env_Ret _ _ _ _ _ Ed)). unfold bind at 1, am_upd at 1. cbn [fst snd].
    unfold set_ptrs. cbn [a_desc a_assoc a_count a_cap a_ptrs].
    destruct (IH C (emitted e [EvDealloc (ct_size c * N.of_nat cap) (ct_align c)])%N (S i) (<[i := None]> ps)) as (ps'&e'&E'&Hem&Hlow&Hnull).
    { done. } { lia. } { done. }
    { intros j c' col' Hj Hcol'. rewrite list_lookup_insert_ne by lia.
      replace (S i + j) with (i + S j) by lia. by apply Hps. }
    exists ps', e'. split; [exact E'|].
    enough (Hgoal : emits e e' [] (map (fun c => (ct_size c * N.of_nat cap, ct_align c)%N) (c :: l)) []).
    { split; [done|]. split.
      - intros j Hj. rewrite Hlow by lia. apply list_lookup_insert_ne. lia.
      - intros [|j] Hj.
        + rewrite Nat.add_0_r, Hlow by lia. apply list_lookup_insert. by eapply lookup_lt_Some.
        + replace (i + S j) with (S i + j) by lia. apply Hnull. cbn in Hj. lia. }
    change (map ?f (c :: l)) with ([f c] ++ map f l).
    eapply (emits_trans _ _ _ [] []); [|exact Hem].
    apply (emits_frame_r _ _ _ [_] []). by apply emits_dealloc.
  Qed.
  Lemma a_drop_ok a rows e :
    a_desc a = d -> arch_ok a cs rows -> Forall (fun x : row => calm x.2) rows -> ev_oracle e = [] ->
    exists a' e', a_drop (a, e) = Ret tt (a', e') /\
      emits e e' (concat (map (fun x : row => row_values cs x.2) rows)) (layouts cs (a_cap a)) [].
  Proof.
    intros Ed Hok Hcalm Ho. unfold a_drop. unfold bind at 1, am_get at 1. cbn [fst].
    pose proof Hok as (_&Hcap&_&_&C&H&Ea&(HlC&_&_)&_). rewrite Ed in Ea.
    rewrite (proj2 (Nat.eqb_neq (a_cap a) 0)) by (pose proof (capok_pos _ Hcap); lia).
    destruct (drop_entities_ok a rows e (layouts cs (a_cap a)) Ed Hok Hcalm Ho) as (e1&E1&Hem1).
    rewrite (bind_Ret _ _ _ _ _ E1). unfold a_dealloc. unfold bind at 1, am_get at 1. cbn [fst].
    rewrite (ok_comps _ _ Ed Hok). unfold enum. rewrite map_length.
    destruct (dealloc_columns_ok (a_cap a) (length rows) (colbs (a_cap a) cs C) (Some (Block (4 * N.of_nat (a_cap a))%N 4%N H)) cs C e1 0)
      as (ps'&e2&E2&Hem2&_); [apply Hd|done|by eapply emits_oracle| |].
    { intros j c col Hj Hcol. by apply colbs_lookup. }
    assert (E2' : dealloc_columns (zip (seq 0 (length cs)) (map cdesc_of cs)) (a, e1) =
      Ret true (Arch d ps' (Some (Block (4 * N.of_nat (a_cap a))%N 4%N H)) (length rows) (a_cap a), e2)).
    { rewrite <- E2. rewrite Ea at 1. done. }
    rewrite (bind_Ret _ _ _ _ _ E2'). cbn iota. unfold bind at 1, am_get at 1. cbn [fst a_assoc a_cap].
    assert (Edl : mem_dealloc (Some (Block (4 * N.of_nat (a_cap a))%N 4%N H)) (ENTITY_SIZE * N.of_nat (a_cap a)) ENTITY_ALIGN e2 =
                 Ret tt (emitted e2 [EvDealloc (4 * N.of_nat (a_cap a)) 4])%N).
    { unfold mem_dealloc, ENTITY_SIZE, ENTITY_ALIGN. cbn [bl_size bl_align]. rewrite !N.eqb_refl. done. }
    rewrite (bind_Ret _ _ _ _ _ (am_env_Ret _ _ _ _ _ Edl)). unfold am_upd. cbn [fst snd].
    eexists _, _. split; [reflexivity|].
    rewrite <- (app_nil_r (concat _)). eapply emits_trans; [exact Hem1|].
    unfold layouts. eapply (emits_trans _ e2 _ [] [] _ [(4 * N.of_nat (a_cap a), 4)%N]).
    - eapply (emits_frame _ _ _ _ _ [(4 * N.of_nat (a_cap a), 4)%N]) in Hem2. rewrite app_nil_r in Hem2. exact Hem2.
    - apply emits_dealloc. by eapply emits_oracle.
  Qed.
End ops.

(** ** The capacities of the registry's archetypes *)
Definition pow2_cap (cap : nat) : Prop := exists j, (N.of_nat cap = 2 ^ (7 + j))%N /\ (j <= 16)%N.
Lemma pow2_cap_pos cap : pow2_cap cap -> 0 < cap.
Proof. intros (j&E&_). assert (2 ^ (7 + j) <> 0)%N by (apply N.pow_nonzero; lia). lia. Qed.
Lemma pow2_cap_double cap : pow2_cap cap -> (N.of_nat cap < 8388608)%N -> pow2_cap (cap + cap) /\ (N.of_nat (cap + cap) < 16777215)%N.
Proof.
  intros (j&E&Hj) Hlt. assert (j < 16)%N as Hj'.
  { destruct (N.lt_ge_cases j 16) as [?|Hge]; [done|]. assert (j = 16)%N as -> by lia. rewrite E in Hlt. done. }
  assert (E2 : (2 ^ (7 + N.succ j) = 2 * 2 ^ (7 + j))%N). { rewrite N.add_succ_r. apply N.pow_succ_r'. }
  split; [exists (N.succ j); lia|lia].
Qed.
Lemma pow2_cap_128 : pow2_cap 128.
Proof. exists 0%N. done. Qed.
Global Instance registry_caps : caps :=
  {| capok := pow2_cap; capok_pos := pow2_cap_pos; capok_double := pow2_cap_double; capok_128 := pow2_cap_128 |}.
Lemma capok_max cap : capok cap -> (N.of_nat cap <= 8388608)%N.
Proof. intros (j&->&Hj). change 8388608%N with (2 ^ 23)%N. apply N.pow_le_mono_r; lia. Qed.
