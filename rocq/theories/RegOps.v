(** Proofs about the entity-level operations of the registry: on a registry
    that represents a world, each call returns what the specification allows
    and the resulting registry represents the specified next world. *)
From Verif Require Import RegModel SpecTrace SpecEntity EntityProofs EntityTable SearchProofs DescrProofs MonadProofs ArchProofs ArchOps ArchOps2 ArchOps3 AregProofs RegProofs SpecBase SpecWorld SpecRef.
Local Open Scope nat_scope.

(** ** Stepping through the registry monad *)
Lemma dop_Ret {A} vs (m : RM A) s x s' : m s = Ret x s' -> dropping_on_panic vs m s = Ret x s'.
Proof. intros E. unfold dropping_on_panic. by rewrite E. Qed.
Definition put_arch (r : reg) (i : nat) (a : arch) (e : env) : reg :=
  Reg (r_er r) (set_archs (r_ar r) (<[i := a]> (ar_archs (r_ar r)))) e.
Lemma with_arch_Ret {A} i (m : AM A) s a x a' e' :
  ar_archs (r_ar s) !! i = Some a -> m (a, r_env s) = Ret x (a', e') -> with_arch i m s = Ret x (put_arch s i a' e').
Proof. intros Ha E. unfold with_arch. by rewrite Ha, E. Qed.
Lemma arch_at_Rd i s a : ar_archs (r_ar s) !! i = Some a -> rm_rd (arch_at i) s = Ret a s.
Proof. intros Ha. unfold rm_rd, arch_at. by rewrite Ha. Qed.
Lemma rm_er_Ret {A} (m : M er A) s x r : m (r_er s) = Ret x r -> rm_er m s = Ret x (Reg r (r_ar s) (r_env s)).
Proof. intros E. unfold rm_er. by rewrite E. Qed.
Lemma rm_rd_Rd {A} (f : reg -> rd A) s x : f s = Rd x -> rm_rd f s = Ret x s.
Proof. intros E. unfold rm_rd. by rewrite E. Qed.
Lemma rm_get_step {A} (k : reg -> RM A) s : bind rm_get k s = k s s.
Proof. done. Qed.
Lemma update_entry_Ret c h f s r : er_update_entry (big c) (r_er s) h f = Some r -> update_entry c h f s = Ret tt (Reg r (r_ar s) (r_env s)).
Proof. intros E. unfold update_entry. by rewrite E. Qed.

(** ** Values in the world *)
Notation vals e := ((map_to_list (en_vals e)).*2).
Lemma wv_insert w h e : w !! h = None -> world_values (<[h := e]> w) ≡ₚ vals e ++ world_values w.
Proof. intros H. unfold world_values. by rewrite map_to_list_insert. Qed.
Lemma wv_delete w h e : w !! h = Some e -> world_values w ≡ₚ vals e ++ world_values (delete h w).
Proof. intros H. rewrite <- (insert_delete w h e H) at 1. apply wv_insert, lookup_delete. Qed.
Lemma wv_replace w h e e' : w !! h = Some e -> vals e' ++ world_values w ≡ₚ vals e ++ world_values (<[h := e']> w).
Proof.
  intros H. rewrite (wv_delete _ _ _ H). rewrite <- (insert_delete_insert w).
  rewrite (wv_insert _ _ e') by apply lookup_delete. rewrite !app_assoc. by rewrite (Permutation_app_comm (vals e)).
Qed.

Lemma filter_sublist_of {A} (P : A -> Prop) `{!forall x, Decision (P x)} l : filter P l `sublist_of` l.
Proof. induction l as [|x l IH]; [constructor|]. rewrite filter_cons. destruct (decide (P x)); by constructor. Qed.
Section ops.
  Context {Fm : family} (c : cfg) (U : list ctype) (HU : universe (big c) U).
  Notation be := (big c).
  Implicit Types (T : list tab) (w : world).

  Lemma gvalid_iff G : gvalid be G <-> gd_is_valid (group_desc be G) = true.
  Proof.
    rewrite group_desc_valid. unfold gvalid. split.
    - intros (Hnd&Hl&l&Hp&Hs&Hne). split; [done|]. split; [done|]. eauto.
    - intros (Hl&Hnd&H). split; [done|]. split; [done|]. naive_solver.
  Qed.

  (** The archetypes and the order of their entities, as the reference
      implementation has them after the call. *)
  Definition opens (e : ent) (S : list sheet) : option (nat * list sheet) := open_sheet S (en_aid e) (types U (en_vals e)).
  Definition after (w : world) (o : op) (out : output) (S S' : list sheet) : Prop :=
    match o, out with
    | OpCreate G vs, OutCreate (Ok h) => exists i S1, opens (created be U G vs) S = Some (i, S1) /\ S' = put_in h i S1
    | OpCreate G vs, _ =>
        ((~ gvalid be G \/ opens (created be U G vs) S = None) /\ S' = S) \/
        (gvalid be G /\ exists i S1, opens (created be U G vs) S = Some (i, S1) /\ S' = S1)
    | OpDestroy h, OutBool true | OpRemoveEntity _ h, OutVals (Some _) => S' = take_out h S
    | OpAdd C h v, OutAdd (Ok _) => exists e i S1, w !! h = Some e /\
        opens (derived be U (<[ct_id C := v]> (en_vals e))) S = Some (i, S1) /\ S' = put_in h i (take_out h S1)
    | OpRemove C h, OutRemove (Ok _) => exists e i S1, w !! h = Some e /\
        opens (derived be U (delete (ct_id C) (en_vals e))) S = Some (i, S1) /\ S' = put_in h i (take_out h S1)
    | _, _ => S' = S
    end.
  Definition step_post (X : list sheet -> Prop) (r : reg) T w (I O : list value) (r' : reg) w' : Prop :=
    exists T' D, reg_ok be U r' T' w' /\ evolves r T r' T' D /\ I ++ world_values w ≡ₚ O ++ D ++ world_values w' /\ X (skel T').
  Definition step_ok (r : reg) T w (o : op) : Prop :=
    exists out r', step c o r = Ret out r' /\ allowed be U (table_full r) (archetypes_full r) w o out /\
      step_post (after w o out (skel T)) r T w (ins o out) (outs o out) r' (ledger be U w o out).
  Lemma post_same (X : list sheet -> Prop) r T w : reg_ok be U r T w -> X (skel T) -> step_post X r T w [] [] r w.
  Proof. intros H HX. exists T, []. split; [done|]. split; [apply evolves_refl, H|done]. Qed.
  Lemma post_back (X : list sheet -> Prop) r T w vs : reg_ok be U r T w -> X (skel T) -> step_post X r T w vs vs r w.
  Proof. intros H HX. exists T, []. split; [done|]. split; [apply evolves_refl, H|done]. Qed.

  Lemma gspec_desc G s : gspec be G s -> in_U U G -> desc_ok (gd_arch (group_desc be G)) s /\ in_U U s.
  Proof.
    intros Hg Hin. assert (Hin' : in_U U s). { unfold in_U. by rewrite (gs_perm _ _ _ Hg). }
    split; [|done]. split; [apply group_arch_wf|apply Hg|apply Hg|by eapply U_small|apply Hg].
  Qed.
  Lemma gspec_id G s : gspec be G s -> occurs (tuple_archetype_id be (ids_of s)) (ids_of s) ->
    archetype_id_of be (ids_of s) (ad_id (gd_arch (group_desc be G))).
  Proof. intros Hg Ho. rewrite (gs_id _ _ _ Hg). split; [done|by left]. Qed.
  Lemma tuple_types G s : gspec be G s -> in_U U G -> filter (fun C => ct_id C ∈ ids_of G) U = s.
  Proof.
    intros Hg HG. destruct (gspec_desc _ _ Hg HG) as (_&Hins).
    assert (Hst : strict (ids_of (filter (fun C => ct_id C ∈ ids_of G) U))).
    { eapply strict_sublist; [apply (U_strict _ _ HU)|]. apply ids_sublist, filter_sublist_of. }
    apply (ids_eq U); [apply (U_nodup _ _ HU)| |done|].
    - apply Forall_forall. intros C HC. by apply elem_of_list_filter in HC as [_ ?].
    - apply strict_perm_unique; [done|apply Hg|]. apply NoDup_Permutation; [by apply strict_NoDup|apply strict_NoDup, Hg|].
      intros x. rewrite !elem_of_ids. split.
      + intros (C&[HC _]%elem_of_list_filter&<-). apply elem_of_ids in HC as (C'&HC'&E). exists C'. by rewrite (gs_perm _ _ _ Hg).
      + intros (C&HC&<-). rewrite (gs_perm _ _ _ Hg) in HC. exists C. split; [|done]. apply elem_of_list_filter. split.
        * apply elem_of_ids. by exists C.
        * by apply (in_U_elem _ _ _ HG).
  Qed.
  Lemma gspec_known G s : gspec be G s -> in_U U G -> known be U G -> archetype_id_of be (ids_of s) (ad_id (gd_arch (group_desc be G))).
  Proof. intros Hg HG Hk. apply gspec_id; [done|]. unfold known in Hk. by rewrite (tuple_types _ _ Hg HG) in Hk. Qed.
  Lemma gspec_types G s vs : gspec be G s -> in_U U G -> length vs = length G -> types U (vmap G vs) = s.
  Proof.
    intros Hg Hin Hl. destruct (gspec_NoDup _ _ _ Hg) as (Hnd&_).
    eapply types_full; [done|apply Hg|by eapply gspec_desc|]. eapply full_perm; [symmetry; apply Hg|]. by apply vmap_full.
  Qed.
  Lemma created_known G vs : gvalid be G -> in_U U G -> known be U G -> length vs = length G ->
    occurs (en_aid (created be U G vs)) (ids_of (types U (vmap G vs))).
  Proof.
    intros Hv HG Hk Hl. apply gvalid_iff in Hv. destruct (gspec_exists be G Hv) as [s Hg].
    unfold created, known in *. cbn [en_aid]. rewrite (gspec_types _ _ _ Hg HG Hl). by rewrite (tuple_types _ _ Hg HG) in Hk.
  Qed.
  Lemma vmap_vals G vs : NoDup (ids_of G) -> length vs = length G -> (map_to_list (vmap G vs)).*2 ≡ₚ vs.
  Proof.
    intros Hnd Hl. unfold vmap. rewrite map_to_list_to_map by (rewrite fst_zip; [done|rewrite map_length; lia]).
    rewrite snd_zip; [done|]. rewrite map_length. lia.
  Qed.
  Lemma loc_world r T w h : reg_ok be U r T w -> (loc_of be (r_er r) h = None <-> w !! h = None).
  Proof.
    intros H. split; intros E.
    - destruct (w !! h) as [e|] eqn:Ew; [|done]. apply (ro_repr _ _ _ _ _ H) in Ew as (i&t&m&Hi&[j Hj]%elem_of_list_lookup&_).
      assert (loc_of be (r_er r) h = Some (i, j)) by (apply (ro_loc _ _ _ _ _ H); eauto). congruence.
    - destruct (loc_of be (r_er r) h) as [[i j]|] eqn:El; [|done]. apply (ro_loc _ _ _ _ _ H) in El as (t&m&Hi&Hj).
      assert (w !! h = Some (Ent (t_id t) m)); [|congruence]. apply (ro_repr _ _ _ _ _ H). exists i, t, m. split; [done|].
      split; [by eapply elem_of_list_lookup_2|done].
  Qed.
  Lemma ro_small_index r T w i t : reg_ok be U r T w -> T !! i = Some t -> (N.of_nat i < 65534)%N.
  Proof.
    intros H Hi. pose proof (lookup_lt_Some _ _ _ Hi). pose proof (ro_len _ _ _ _ _ H). pose proof (ai_count _ (ro_areg _ _ _ _ _ H)). lia.
  Qed.

  (** *** create_entity *)
  Lemma create_ok r T w G vs : reg_ok be U r T w -> contract be U w (OpCreate G vs) -> step_ok r T w (OpCreate G vs).
  Proof.
    intros H (Hin&HF&Hroom). pose proof (Forall2_length _ _ _ HF) as HFl.
    unfold step_ok. cbn [step]. 
    assert (Hfail : forall r', step_post (after w (OpCreate G vs) (OutCreate (Err vs)) (skel T)) r T w vs vs r' w -> ~ creatable be U (table_full r) (archetypes_full r) G vs ->
      create_entity c G vs r = Ret (Err vs) r' ->
      exists out r', (let! r := create_entity c G vs in ret (OutCreate r)) r = Ret out r' /\
        allowed be U (table_full r) (archetypes_full r) w (OpCreate G vs) out /\
        step_post (after w (OpCreate G vs) out (skel T)) r T w (ins (OpCreate G vs) out) (outs (OpCreate G vs) out) r' (ledger be U w (OpCreate G vs) out)).
    { intros r' Hp Hn E. exists (OutCreate (Err vs)), r'. split; [by rewrite (bind_Ret _ _ _ _ _ E)|]. split; [by right|done]. }
    destruct (decide (gd_is_valid (group_desc be G) = true)) as [Hv|Hv].
    2: { apply (Hfail r); [apply post_back; [done|left; split; [left; by rewrite gvalid_iff|done]]|intros (?%gvalid_iff&_); done|].
         unfold create_entity. apply dop_Ret. destruct (gd_is_valid (group_desc be G)); [done|]. done. }
    destruct (gspec_exists be G Hv) as [s Hg]. destruct (gspec_NoDup _ _ _ Hg) as (HndG&Hnds&_&Hsl).
    destruct (gspec_desc _ _ Hg Hin) as (Hd&Hins).
    pose proof (gspec_types _ _ vs Hg Hin (eq_sym HFl)) as Ety.
    specialize (Hroom (proj2 (gvalid_iff G) Hv)). rewrite Ety in Hroom. unfold created in Hroom. cbn [en_aid] in Hroom. rewrite Ety in Hroom.
    destruct Hroom as [Hocc Hroom]. pose proof (gspec_id _ _ Hg (Hocc ltac:(rewrite map_length; apply Hg))) as Haid.
    assert (Eaid : en_aid (created be U G vs) = tuple_archetype_id be (ids_of s)) by (unfold created; cbn; by rewrite Ety).
    destruct (find_or_create_ok be U HU r T w _ s H Hd Hins Haid) as [(Efc&Hfull&Eop)|(Hnf&i&r1&T1&t&Efc&Eer&H1&Ht&Hid&Hcs&Hev&Hext&Eop)];
      (assert (Eops : opens (created be U G vs) (skel T) = open_sheet (skel T) (ad_id (gd_arch (group_desc be G))) s) by (unfold opens; rewrite Eaid, (gs_id _ _ _ Hg); cbn [created en_vals]; by rewrite Ety)); rewrite Eop in Eops.
    - apply (Hfail r); [apply post_back; [done|left; split; [by right|done]]| |].
      + intros (_&_&Hna). apply Hna. by rewrite Eaid, <- Hsl, <- (gs_id _ _ _ Hg).
      + unfold create_entity. apply dop_Ret. rewrite Hv. cbn [negb]. by rewrite (bind_Ret _ _ _ _ _ Efc).
    - rewrite (gs_id _ _ _ Hg) in Hid, Hnf.
      destruct (ro_tab _ _ _ _ _ _ _ H1 Ht) as (a&Ha&Hta). pose proof Hta as (Hida&Hok&_).
      rewrite <- Hid, <- Hcs in Hroom. rewrite (crowd_rows _ _ HU _ _ _ _ _ H1 Ht) in Hroom.
      pose proof (ro_small_index _ _ _ _ _ H1 Ht) as Hi.
      destruct (ro_er _ _ _ _ _ H1) as [F Her].
      assert (Ecount : a_len a = length (t_rows t)) by (unfold a_len; by eapply count_ok).
      assert (Estep : forall oh rg, er_create_entity be (N.of_nat (length (t_rows t))) (N.of_nat i) (r_er r1) = Ret oh rg ->
        create_entity c G vs r = dropping_on_panic vs (fun s => match oh with None => ret (Err vs)
            | Some h => let! _ := with_arch i (push_entity_unchecked c G h vs) in ret (Ok h) end s) (Reg rg (r_ar r1) (r_env r1))).
      { intros oh rg Ec. unfold create_entity, dropping_on_panic. rewrite Hv. cbn [negb].
        rewrite (bind_Ret _ _ _ _ _ Efc). rewrite (bind_Ret _ _ _ _ _ (arch_at_Rd _ _ _ Ha)).
        rewrite Ecount, iia_new_spec, decide_True by lia. cbn [unwrap]. rewrite bind_ret_l.
        rewrite ai_new_spec, decide_False by lia. cbn [unwrap]. rewrite bind_ret_l.
        rewrite (bind_Ret _ _ _ _ _ (rm_er_Ret _ _ _ _ Ec)). done. }
      destruct (loc_create be (r_er r1) F (N.of_nat (length (t_rows t))) (N.of_nat i) Her) as [[Hge Ec]|[Hlt (h&rg&F'&Ec&Hinv'&Hh&Hnone&Hloc)]]; [lia|lia| |].
      + specialize (Estep _ _ Ec). cbn in Estep. destruct r1 as [rer rar renv]. cbn in *. subst rer. 
        apply (Hfail (Reg (r_er r) rar renv)); [|intros (_&Hns&_); by apply Hns|done].
        exists T1, []. split; [done|]. split; [done|]. split; [done|]. right. split; [by apply gvalid_iff|]. eauto.
      + specialize (Estep _ _ Ec). cbn in Estep.
        destruct (push_ok (a_desc a) (t_cs t) (proj1 Hok) c G vs h a (t_rows t) (r_env r1)) as (a'&e'&Ep&Ed&Hok'&Hem);
          [done|done|done|apply H1|by rewrite Hcs|by rewrite Hida, Hid, Hcs|done|].
        exists (OutCreate (Ok h)), (Reg rg (set_archs (r_ar r1) (<[i := a']> (ar_archs (r_ar r1)))) e').
        split. { erewrite bind_Ret; [done|]. rewrite Estep. apply dop_Ret. cbn beta iota.
          erewrite bind_Ret; [|eapply with_arch_Ret; [exact Ha|exact Ep]]. done. }
        assert (Hwn : w !! h = None) by (by apply (loc_world _ _ _ _ H1)).
        split. { left. split; [|by exists h]. split; [by apply gvalid_iff|]. rewrite Eer in Hlt.
          split; [unfold table_full; lia|]. by rewrite Eaid, <- Hsl. }
        cbn [ins outs ledger]. assert (Ecr : created be U G vs = Ent (t_id t) (vmap G vs)). { unfold created. by rewrite Ety, Hid. }
        rewrite Ecr. exists (<[i := set_rows t (t_rows t ++ [(h, vmap G vs)])]> T1), []. split; [|split; [|split]].
        * eapply reg_ok_change; [exact H1|exact Ha|exact Ht|exact Ed|exact Hok'|done|done|by exists F'| | |].
          -- cbn [r_er]. eapply linked_ext; [|apply linked_snoc; [apply H1|exact Ht|exact Hnone]].
             intros h'. cbn. rewrite Hloc, !Nat2N.id. done.
          -- apply repr_snoc; [apply H1|done|done].
          -- cbn. by eapply emits_oracle.
        * apply (evolves_trans _ _ _ _ _ _ [] [] Hev).
          eapply evolves_insert; [exact Ha|exact Ht|by eapply ro_len|done|done|exact Hem].
        * rewrite (wv_insert _ _ _ Hwn). cbn [en_vals app]. by rewrite vmap_vals.
        * exists i, (skel T1). split; [done|by apply skel_put].
  Qed.

  (** *** Looking an entity up *)
  Lemma dead_entry r T w h : reg_ok be U r T w -> w !! h = None -> entry_of c r h = None.
  Proof.
    intros H E. apply (loc_world _ _ _ _ H) in E. unfold loc_of in E. unfold entry_of. by destruct (er_entity_entry be (r_er r) h).
  Qed.
  Lemma live_entry r T w h e : reg_ok be U r T w -> w !! h = Some e ->
    exists en i j t m a, entry_of c r h = Some en /\ e_arch c en = i /\ e_row en = j /\
      entry_index_in_archetype en = N.of_nat j /\ T !! i = Some t /\ t_rows t !! j = Some (h, m) /\ e = Ent (t_id t) m /\
      ar_archs (r_ar r) !! i = Some a /\ tab_ok be U a t.
  Proof.
    intros H E. apply (ro_repr _ _ _ _ _ H) in E as (i&t&m&Hi&[j Hj]%elem_of_list_lookup&->).
    assert (El : loc_of be (r_er r) h = Some (i, j)) by (apply (ro_loc _ _ _ _ _ H); eauto).
    unfold loc_of in El. destruct (er_entity_entry be (r_er r) h) as [en|] eqn:Ee; [|done]. cbn in El. injection El as E1 E2.
    destruct (ro_tab _ _ _ _ _ _ _ H Hi) as (a&Ha&Hta).
    exists en, i, j, t, m, a. unfold entry_of, e_arch, e_row. repeat split; try done; [lia|apply Hta..].
  Qed.

  (** *** Repairing the entry of the row that was moved *)
  Definition fixup (f : arch -> nat -> rd N) (swapped : bool) (i j : nat) (en : entry) : RM unit :=
    if swapped then
      let! a := rm_rd (arch_at i) in
      let! h' := lift_rd (f a j) in
      update_entry c h' (fun e' => entry_set_index_in_archetype e' (entry_index_in_archetype en))
    else ret tt.
  Lemma fixup_ok f r1 T i j h m t a1 en F :
    linked (loc_of be (r_er r1)) T -> er_inv be (r_er r1) F -> T !! i = Some t -> t_rows t !! j = Some (h, m) ->
    ar_archs (r_ar r1) !! i = Some a1 -> (forall hl, moved (t_rows t) j = Some hl -> f a1 j = Rd hl) ->
    entry_index_in_archetype en = N.of_nat j -> (N.of_nat j < 16777216)%N ->
    exists rg, fixup f (negb (is_last j (length (t_rows t)))) i j en r1 = Ret tt (Reg rg (r_ar r1) (r_env r1)) /\
      er_inv be rg F /\ length (er_ents rg) = length (er_ents (r_er r1)) /\
      forall h', loc_of be rg h' = if decide (Some h' = moved (t_rows t) j) then Some (i, j) else loc_of be (r_er r1) h'.
  Proof.
    intros HL Hinv Ht Hj Ha Hf Hen Hjb. unfold fixup. unfold moved in *.
    destruct (is_last j (length (t_rows t))) eqn:El; cbn [negb].
    - exists (r_er r1). split; [by destruct r1|]. split; [done|]. split; [done|]. intros h'. by rewrite decide_False.
    - pose proof (lookup_lt_Some _ _ _ Hj) as Hlt.
      destruct (lookup_lt_is_Some_2 (t_rows t) (length (t_rows t) - 1)) as [[hl ml] Hl]; [lia|].
      rewrite Hl in *. cbn [fmap option_fmap option_map fst] in *.
      assert (Eloc : loc_of be (r_er r1) hl = Some (i, length (t_rows t) - 1)) by (apply HL; eauto).
      destruct (loc_set_row be (r_er r1) F hl _ _ (entry_index_in_archetype en) Hinv Eloc) as (rg&Eu&Hinv'&Hlen&Hloc); [by rewrite Hen|].
      exists rg. split; [|split; [done|split; [done|]]].
      + rewrite (bind_Ret _ _ _ _ _ (arch_at_Rd _ _ _ Ha)). rewrite (Hf hl eq_refl). 
        erewrite bind_Ret; [|done]. by apply update_entry_Ret.
      + intros h'. rewrite Hloc, Hen, Nat2N.id. destruct (decide (h' = hl)) as [->|Hne]; [by rewrite decide_True|].
        rewrite decide_False; [done|]. congruence.
  Qed.
  Lemma removed_row_at {A} (l : list A) j x : l !! j = Some x -> is_last j (length l) = false -> remove_row j l !! j = l !! (length l - 1).
  Proof.
    intros Hj El. apply lookup_lt_Some in Hj. unfold is_last in El. apply Nat.eqb_neq in El.
    rewrite remove_row_lookup by done. rewrite decide_True by lia. by rewrite decide_True.
  Qed.

  (** *** destroy_entity *)
  Lemma destroy_ok r T w h : reg_ok be U r T w -> contract be U w (OpDestroy h) -> step_ok r T w (OpDestroy h).
  Proof.
    intros H Hcalm. unfold step_ok. cbn [step]. unfold destroy_entity. destruct (w !! h) as [e|] eqn:Ew.
    - destruct (live_entry _ _ _ _ _ H Ew) as (en&i&j&t&m&a&Een&<-&<-&Hrow&Ht&Hj&->&Ha&Hta).
      set (i := e_arch c en) in *. set (j := e_row en) in *.
      pose proof Hta as (_&Hok&_). pose proof (proj1 Hok) as Hd. pose proof (row_cap _ _ _ _ Hta) as Hcap.
      pose proof (lookup_lt_Some _ _ _ Hj) as Hjlt.
      destruct (tab_facts _ _ _ _ Hta) as (_&_&Hnd&_).
      destruct (tab_row _ _ HU _ _ _ _ _ Hta Hj) as (Hfull&_&_).
      destruct (swap_drop_ok (a_desc a) (t_cs t) Hd c a (t_rows t) j h m (r_env r) eq_refl Hok Hj (Hcalm _ Ew) (ro_oracle _ _ _ _ _ H)) as (a'&e'&Es&Ed'&Hcap'&Hok'&Hem).
      destruct (ro_er _ _ _ _ _ H) as [F Her].
      set (r1 := put_arch r i a' e').
      assert (Ha1 : ar_archs (r_ar r1) !! i = Some a') by (cbn; apply list_lookup_insert; by eapply lookup_lt_Some).
      destruct (fixup_ok entity_at_unchecked r1 T i j h m t a' en F) as (rg&Ef&Hinv1&Hlen1&Hloc1); [apply H|done|done|done|done| |done|lia|].
      { intros hl Hmv. unfold moved in Hmv. destruct (is_last j (length (t_rows t))) eqn:El; [done|].
        pose proof (removed_row_at _ _ _ Hj El) as Hr. destruct (t_rows t !! (length (t_rows t) - 1)) as [[hl' ml]|]; [|done].
        cbn in Hmv. injection Hmv as ->. by eapply entity_at_ok. }
      assert (Hloch : loc_of be rg h = Some (i, j)).
      { rewrite Hloc1. assert (loc_of be (r_er r) h = Some (i, j)) as E by (apply (ro_loc _ _ _ _ _ H); eauto). cbn. rewrite E. by case_decide. }
      destruct (loc_destroy be rg F h _ Hinv1 Hloch) as (rg'&F'&Edes&Hinv2&_&Hloc2).
      exists (OutBool true), (Reg rg' (r_ar r1) e'). split; [|split].
      + rewrite bind_bind, rm_get_step, Een. fold i j.
        rewrite bind_bind. rewrite (bind_Ret _ _ _ _ _ (with_arch_Ret _ _ _ _ _ _ _ Ha Es)).
        rewrite bind_bind. erewrite bind_Ret; [|exact Ef].
        rewrite bind_bind. erewrite bind_Ret; [|apply rm_er_Ret; exact Edes].
        rewrite bind_bind. rewrite (bind_Ret _ _ _ _ _ (mdebug_true _ _ _ eq_refl)). done.
      + cbn. by rewrite Ew.
      + cbn [ins outs ledger]. exists (<[i := set_rows t (remove_row j (t_rows t))]> T), (row_values (t_cs t) m).
        split; [|split; [|split]].
        * eapply (reg_ok_change _ _ _ _ _ _ _ _ a'); [exact H|exact Ha|exact Ht|exact Ed'|exact Hok'|done|done|by exists F'| | |].
          -- eapply linked_ext; [|exact (linked_remove _ _ _ _ _ _ _ (ro_loc _ _ _ _ _ H) Ht Hj)]. intros h'. cbn [r_er]. rewrite Hloc2.
             destruct (decide (h' = h)); [done|]. by rewrite Hloc1.
          -- eapply repr_remove; [apply H|apply H|done|done].
          -- cbn. by apply (emits_oracle _ _ _ _ _ (Hem [])).
        * eapply evolves_insert; [exact Ha|exact Ht|by eapply ro_len|done|done|]. cbn [t_cs set_rows]. rewrite Hcap'. apply Hem.
        * cbn [app]. rewrite (wv_delete _ _ _ Ew). cbn [en_vals]. by rewrite row_values_perm.
        * by eapply skel_take.
    - exists (OutBool false), r. split; [|split; [by cbn; rewrite Ew|by apply post_same]].
      rewrite bind_bind, rm_get_step. by rewrite (dead_entry _ _ _ _ H Ew).
  Qed.
End ops.
