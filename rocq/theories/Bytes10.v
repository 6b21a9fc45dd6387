(** Proofs for C67: programs that fill archetypes, and any program up to the first clash, at byte level. *)
From Verif Require Import ByteReg Sizes SearchProofs MonadProofs DescrProofs ArchProofs ArchOps ArchOps2 ArchOps3 RegProofs RegOps RegOps2 RegOps3 RegExact Refine Faults Faults2 Overflow Ref Total Brim Used Clash
  Bytes Bytes2 Bytes3 Bytes4 Bytes5 Bytes6 Bytes7 Bytes9 SpecBytes SpecBase SpecTrace SpecWorld SpecRef SpecTotal SpecBrim SpecUsed SpecClash SpecBytes2.
Local Open Scope nat_scope.

Section null.
Context {U : list ctype}.
Notation arel := (@Bytes.arel U).
Lemma null_pointers H a A cs : arel H a A -> a_comps a = map cdesc_of cs -> (forall k, k < length cs -> a_ptrs a !! k = Some None) ->
  forall k, k < length cs -> b_ptrs A !! k = Some None.
Proof.
  intros Hr Hc Hn k Hk. pose proof (Hn k Hk) as Hp. destruct (lookup_lt_is_Some_2 (b_ptrs A) k) as [q Hq].
  { rewrite (ar_len _ _ _ Hr). by eapply lookup_lt_Some. }
  destruct (lookup_lt_is_Some_2 cs k Hk) as [C HC].
  assert (Hd : a_comps a !! k = Some (cdesc_of C)). { rewrite Hc. change (map cdesc_of cs) with (cdesc_of <$> cs). by rewrite list_lookup_fmap, HC. }
  pose proof (ar_col _ _ _ Hr _ _ _ _ Hd Hp Hq) as Hx. by destruct q.
Qed.
Lemma offset_null m k : offset m None k = Rd None \/ offset m None k = RdUB.
Proof. cbn. destruct (_ =? 0); [by left|by right]. Qed.
Lemma load_no_panic m p n : load m p n <> RdPanic.
Proof. unfold load. repeat case_match; done. Qed.
Lemma copy_null_bytes (m : mem) p n : copy_bytes p None n m = UB.
Proof.
  unfold copy_bytes, bind, get_st. destruct (negb _); [done|]. pose proof (load_no_panic m p n). by destruct (load m p n).
Qed.
Lemma offset_no_panic m p n : offset m p n <> RdPanic.
Proof. unfold offset. repeat case_match; done. Qed.
Lemma map_cdesc_lookup cs k : map cdesc_of cs !! k = cdesc_of <$> cs !! k.
Proof. change (map cdesc_of cs) with (cdesc_of <$> cs). by rewrite list_lookup_fmap. Qed.
Lemma b_copy_null SRC DA m srow drow cs cs' : b_comps SRC = map cdesc_of cs -> b_comps DA = map cdesc_of cs' ->
  (forall k, k < length cs -> is_Some (b_ptrs SRC !! k)) -> (forall k, k < length cs' -> b_ptrs DA !! k = Some None) -> (exists C, C ∈ cs /\ C ∈ cs') ->
  b_copy_common SRC srow drow (DA, m) = UB.
Proof.
  intros Hs Hd Hps Hnull (C&HC&HC'). unfold b_copy_common. unfold bind at 1, bm_get at 1. cbn [fst]. rewrite Hs, Hd.
  assert (Hin : forall si A di B, cs !! si = Some A -> cs' !! di = Some B ->
    (if negb (cd_id (cdesc_of A) =? cd_id (cdesc_of B))%N then ret tt
     else
       let! p := bm_rd (fun _ m => column_at SRC m si (dsize (cdesc_of A) * srow)) in
       let! q := bm_rd (fun a m => column_at a m di (dsize (cdesc_of B) * drow)) in
       bm_mem (copy_bytes p q (dsize (cdesc_of A)))) (DA, m) =
    if decide (ct_id A = ct_id B) then UB else Ret tt (DA, m)).
  { intros si A di B HA HB. cbn [cd_id cdesc_of]. destruct (decide (ct_id A = ct_id B)) as [->|Hne].
    - rewrite N.eqb_refl. cbn [negb]. unfold bind, bm_rd, column_at. cbn [fst snd]. destruct (Hps si) as [p ->]; [by eapply lookup_lt_Some|].
      pose proof (offset_no_panic m p (dsize (cdesc_of A) * srow)) as Hx. destruct (offset m p _) as [p'| |]; [|done|done]. cbn [lift_rd].
      unfold ret. cbn [fst snd]. rewrite Hnull by (by eapply lookup_lt_Some). destruct (offset_null m (dsize (cdesc_of B) * drow)) as [->| ->]; [|done].
      cbn [lift_rd]. unfold ret, bm_mem. cbn [fst snd]. by rewrite copy_null_bytes.
    - by rewrite (proj2 (N.eqb_neq _ _) Hne). }
  apply mfor_ub.
  - intros [si sd] Hx%elem_enum. rewrite map_cdesc_lookup in Hx. destruct (cs !! si) as [A|] eqn:HA; [|done]. injection Hx as <-. apply mfor_quiet.
    intros [di dd] Hx%elem_enum. rewrite map_cdesc_lookup in Hx. destruct (cs' !! di) as [B|] eqn:HB; [|done]. injection Hx as <-.
    rewrite (Hin si A di B HA HB). case_decide; [by right|by left].
  - apply elem_of_list_lookup in HC as [si HA], HC' as [di HB]. exists (si, cdesc_of C). split; [apply enum_elem; by rewrite map_cdesc_lookup, HA|].
    apply mfor_ub.
    + intros [di' dd] Hx%elem_enum. rewrite map_cdesc_lookup in Hx. destruct (cs' !! di') as [B|] eqn:HB'; [|done]. injection Hx as <-.
      rewrite (Hin si C di' B HA HB'). case_decide; [by right|by left].
    + exists (di, cdesc_of C). split; [apply enum_elem; by rewrite map_cdesc_lookup, HB|]. rewrite (Hin si C di C HA HB). by rewrite decide_True.
Qed.
End null.

Section bursting.
Context {Fm : family} (c : cfg) (U : list ctype) (HU : universe (big c) U) (Hla : laid_out U) (Hnt : NoDup (map ct_ty U)).
Notation be := (big c).
Notation brel := (@Bytes5.brel U []).
Notation rsim := (@Bytes5.rsim U []).
Notation arel := (@Bytes.arel U).
Let Hst : strict (ids_of U) := proj1 HU.
Let Hsm : Forall small U := proj1 (proj2 HU).

(** ** Moving an entity into a full archetype *)
Lemma b_front_ub {X} r R i d j h en (K : barch -> nat -> nat -> BRM X) : ready c U r i d j h en -> brel r R ->
  (let! swapped := b_with_arch i (b_swap_to_last c j) in
   (if (swapped : bool) then
      let! a := bq_rd (b_arch_at i) in
      let! h' := bq_mrd (fun m => b_entity_at a m j) in
      b_update_entry c h' (fun e' => entry_set_index_in_archetype e' (entry_index_in_archetype en))
    else ret tt) ;;!
   let! _ := b_with_arch d b_push_uninitialized in
   let! sa := bq_rd (b_arch_at i) in
   let! da := bq_rd (b_arch_at d) in
   let! srow := lift_rd (b_last_row c sa) in
   let! drow := lift_rd (b_last_row c da) in
   b_with_arch d (b_copy_common sa srow drow) ;;!
   K sa srow drow) R = UB.
Proof.
  intros (r2&sa&da&cs&cs'&srow&drow&Ef&Hne&Hs&Hd&Ecs&Ecd&Hnull&_&Hcom&Hps&El&El'&_)%(front_runs c U HU) Hb.
  assert (Hsim : rsim r R (front c j en i d)
    (let! swapped := b_with_arch i (b_swap_to_last c j) in
     (if (swapped : bool) then
        let! a := bq_rd (b_arch_at i) in
        let! h' := bq_mrd (fun m => b_entity_at a m j) in
        b_update_entry c h' (fun e' => entry_set_index_in_archetype e' (entry_index_in_archetype en))
      else ret tt) ;;!
     let! _ := b_with_arch d b_push_uninitialized in ret tt)).
  { apply rsim_swap_back. intros r' R'. apply rsim_bind; [apply rsim_with; intros; apply sim_push_uninitialized|]. intros ? ? ? _ _. apply rsim_ret. }
  destruct (Hsim Hb _ _ Ef) as (R2&Eg&Hb2). rewrite (bind_tail _ _ _ _ _ _ Eg). clear Eg Hsim.
  destruct (brel_at _ _ _ _ Hb2 Hs) as (SA&HSA&Hrs). destruct (brel_at _ _ _ _ Hb2 Hd) as (DA&HDA&Hrd).
  erewrite bind_Ret; [|unfold bq_rd, b_arch_at; rewrite HSA; done]. erewrite bind_Ret; [|unfold bq_rd, b_arch_at; rewrite HDA; done].
  erewrite bind_Ret; [|unfold b_last_row; rewrite (ar_count _ _ _ Hrs); fold (last_row c sa); rewrite El; done].
  erewrite bind_Ret; [|unfold b_last_row; rewrite (ar_count _ _ _ Hrd); fold (last_row c da); rewrite El'; done].
  unfold bind, b_with_arch. rewrite HDA. rewrite (b_copy_null SA DA (br_mem R2) srow drow cs cs'); [done|..].
  - by rewrite (ar_comps _ _ _ Hrs).
  - by rewrite (ar_comps _ _ _ Hrd).
  - intros k Hk. destruct (Hps k Hk) as [p Hp]. apply lookup_lt_is_Some_2. rewrite (ar_len _ _ _ Hrs). by eapply lookup_lt_Some.
  - by eapply null_pointers.
  - done.
Qed.
Lemma b_add_brim r R T w C h v e : reg_ok be U r T w -> w !! h = Some e -> C ∈ U -> en_vals e !! ct_id C = None -> size (en_vals e) <> 13 ->
  in_use U (derived be U (<[ct_id C := v]> (en_vals e))) -> brimful U w (derived be U (<[ct_id C := v]> (en_vals e))) = true ->
  brel r R -> bstep c (OpAdd C h v) R = UB.
Proof.
  intros H Ew HC Hnone Hn13 Huse Hbrim Hb. destruct (add_ready c U HU r T w C h v e H Ew HC Hnone Hn13 Huse Hbrim) as (en&d&r1&Een&Ef&_&Hr).
  destruct (rsim_dop (U := U) r R [v] _ _ (rsim_find_adding r R c (e_arch c en) C (reg_tidy c U _ _ _ H) HC) Hb _ _ Ef) as (R1&Eg&Hb1).
  cbn [bstep]. unfold bind at 1. unfold b_add_component. unfold bind at 1, bq_get, get_st. rewrite (entry_same _ _ _ _ Hb), Een. cbv zeta.
  rewrite (bind_Ret _ _ _ _ _ Eg). cbn beta iota. unfold bind at 1, b_dropping_on_panic at 1.
  pose proof (b_front_ub r1 R1 _ d _ h en (fun _ srow drow => b_with_arch d (b_write_single C drow v) ;;! ret (srow, drow)) Hr Hb1) as Eu. by rewrite Eu.
Qed.
Lemma b_remove_brim r R T w C h e : reg_ok be U r T w -> w !! h = Some e -> C ∈ U -> is_Some (en_vals e !! ct_id C) -> size (en_vals e) <> 14 ->
  in_use U (derived be U (delete (ct_id C) (en_vals e))) -> brimful U w (derived be U (delete (ct_id C) (en_vals e))) = true ->
  brel r R -> bstep c (OpRemove C h) R = UB.
Proof.
  intros H Ew HC Hsome Hn14 Huse Hbrim Hb. destruct (remove_ready c U HU r T w C h e H Ew HC Hsome Hn14 Huse Hbrim) as (en&d&r1&Een&Ef&Hr).
  destruct (rsim_find_removing r R c (e_arch c en) C (reg_tidy c U _ _ _ H) Hb _ _ Ef) as (R1&Eg&Hb1).
  cbn [bstep]. unfold bind at 1. unfold b_remove_component. unfold bind at 1, bq_get, get_st. rewrite (entry_same _ _ _ _ Hb), Een. cbv zeta.
  rewrite (bind_Ret _ _ _ _ _ Eg). cbn beta iota.
  by rewrite (b_front_ub r1 R1 _ d _ h en (fun sa srow drow =>
    let! v := bq_mrd (fun m => b_get_component C srow sa m) in
    b_dropping_on_panic [v] (
      let! hs := bq_mrd (fun m => b_entity_at sa m srow) in
      b_with_arch d (b_write_entity drow hs) ;;!
      b_with_arch (e_arch c en) (b_decrement_len c) ;;!
      b_update_entry c h (fun e' => entry_set_archetype_index (big c) e' (N.of_nat d)) ;;!
      let! idx := unwrap (iia_new (N.of_nat drow)) in
      b_update_entry c h (fun e' => entry_set_index_in_archetype e' idx) ;;!
      ret (@Ok value unit v))) Hr Hb1).
Qed.

(** ** Creating an entity in a full archetype *)
Lemma b_full_push F G vs h a A e m cs rows :
  @Bytes.ast U F (a, e) (A, m) -> arch_ok a cs rows -> a_cap a = length rows -> (8388608 <= N.of_nat (length rows))%N -> ev_oracle e = [] ->
  gspec be G cs -> ad_id (a_desc a) = tuple_archetype_id be (ids_of cs) ->
  if dbg c then exists s', b_push_entity c G h vs (A, m) = Panic s' else b_push_entity c G h vs (A, m) = UB.
Proof.
  intros Ha Hok Ecap Hn Ho Hg Hid. pose proof (proj1 Hok) as Hd.
  destruct (full_resize (a_desc a) cs Hd a rows e eq_refl Hok Ecap Hn Ho) as (ps&e'&Er&Hps).
  destruct (sim_resize_if F (a, e) (A, m) Ha _ _ Er) as ([A1 m1]&Eb&Ha1&_).
  pose proof (as_rel _ _ _ Ha) as Hr. pose proof (as_rel _ _ _ Ha1) as Hr1. cbn [fst snd] in Hr, Hr1.
  pose proof (null_pointers _ _ _ cs Hr1 (do_comps _ _ Hd) Hps) as Hnull.
  pose proof (ar_count _ _ _ Hr1) as Ecount. pose proof (ar_cap _ _ _ Hr1) as Ecap1. cbn in Ecount, Ecap1.
  assert (E : b_push_entity c G h vs (A, m) =
    (b_write_entity_unchecked c G (length rows) h vs ;;! ret (length rows)) (bset_count A1 (S (length rows)), m1)).
  { unfold b_push_entity. unfold bind at 1, bm_get at 1. cbn [fst].
    rewrite (bind_Ret _ _ _ _ _ (mdebug_true _ _ _ (gs_valid _ _ _ Hg))).
    erewrite (bind_Ret (mdebug_assert _ _)); [|apply mdebug_true; rewrite (ar_desc _ _ _ Hr), Hid, (gs_id _ _ _ Hg); apply N.eqb_refl].
    rewrite (bind_Ret _ _ _ _ _ Eb). unfold bind at 1, bm_get at 1. cbn [fst]. unfold bind at 1, bm_upd at 1. cbn [fst snd]. by rewrite Ecount. }
  rewrite E. clear E.
  assert (Ew : if dbg c then exists s', b_write_entity_unchecked c G (length rows) h vs (bset_count A1 (S (length rows)), m1) = Panic s'
               else b_write_entity_unchecked c G (length rows) h vs (bset_count A1 (S (length rows)), m1) = UB).
  { unfold b_write_entity_unchecked. unfold bind, bm_get. cbn [fst b_cap bset_count]. rewrite Ecap1.
    replace (length rows <? 0) with false by (symmetry; apply Nat.ltb_ge; lia). destruct (dbg c); [eexists; done|]. cbn [mdebug_assert ret]. unfold ret.
    rewrite (gs_comps _ _ _ Hg). pose proof (do_pos _ _ Hd) as Hp.
    assert (Eu : forall x, b_copy_in (b_sorted_values be G vs) (length rows) (0, x) (bset_count A1 (S (length rows)), m1) = UB).
    { intros x. unfold b_copy_in. destruct (b_sorted_values be G vs !! 0) as [[v|]|]; [|done|done]. destruct (_ <? _); [done|].
      unfold bind, bm_get, bm_rd. cbn [fst snd bset_count b_ptrs]. rewrite Hnull by done. cbn [fst snd].
      destruct (offset_null m1 (dsize x * length rows)) as [->| ->]; [|done]. done. }
    destruct cs as [|C0 cs0]; [cbn in Hp; lia|]. cbn [map enum length seq zip zip_with mfor]. unfold bind. by rewrite Eu. }
  unfold bind. destruct (dbg c); [|by rewrite Ew]. destruct Ew as [s' ->]. by exists s'.
Qed.
Lemma b_create_brim r R b G vs : booked c U r b -> admissible be U (bk_world b) (OpCreate G vs) -> bursts be U b (OpCreate G vs) = true -> brel r R ->
  if dbg c then exists R', bstep c (OpCreate G vs) R = Panic R' else bstep c (OpCreate G vs) R = UB.
Proof.
  intros Hb ([HG _]&HF&_). cbn [bursts]. rewrite !andb_true_iff, bool_decide_eq_true. intros [[Hv%(valid_iff c U HU G HG) Hn%(handle_room c U _ _ Hb)] Hbrim] HR.
  pose proof Hb as [(T&H&_) _ _ _].
  assert (Hcr : N.of_nat (crowd U (bk_world b) (en_aid (created be U G vs)) (ids_of (types U (vmap G vs)))) = 8388608%N).
  { apply N.le_antisymm; [by eapply (crowd_max c U HU)|]. by apply N.leb_le in Hbrim. }
  assert (exists i r1 a cs rows row ai h rg, gd_is_valid (group_desc be G) = true /\ find_or_create_archetype (gd_arch (group_desc be G)) r = Ret (Some i) r1 /\
      ar_archs (r_ar r1) !! i = Some a /\ iia_new (N.of_nat (a_len a)) = Some row /\ ai_new (N.of_nat i) = Some ai /\
      er_create_entity be row ai (r_er r1) = Ret (Some h) rg /\ arch_ok a cs rows /\ a_cap a = length rows /\ (8388608 <= N.of_nat (length rows))%N /\
      ev_oracle (r_env r1) = [] /\ gspec be G cs /\ ad_id (a_desc a) = tuple_archetype_id be (ids_of cs))
    as (i&r1&a&cs&rows&row&ai&h&rg&Hgv&Efc&Ha&Erow&Eai&Ec&Hok&Ecap&Hfull&Ho&Hg&Hid).
  { destruct c as [d be0]. cbn [big dbg] in *. exact (full_ready d be0 U HU r T _ G vs H Hv HG HF Hn Hcr). }
  assert (Hk : knows U (gd_arch (group_desc be G))).
  { exists cs. split; [apply Hg|]. split; [|apply Hg]. unfold in_U. by rewrite (gs_perm _ _ _ Hg). }
  destruct (rsim_find_or_create r R _ (fun _ => Hk) HR _ _ Efc) as (R1&Eg&HR1).
  destruct (brel_at _ _ _ _ HR1 Ha) as (A&HA&Hr).
  destruct (rsim_er (U := U) r1 R1 (er_create_entity be row ai) HR1 _ _ (rm_er_Ret _ _ _ _ Ec)) as (R2&Eg2&HR2).
  assert (HA2 : br_archs R2 !! i = Some A /\ br_mem R2 = br_mem R1).
  { unfold bq_er in Eg2. destruct (er_create_entity be row ai (br_er R1)); [|done..]. by injection Eg2 as _ <-. }
  destruct HA2 as [HA2 Hm2].
  assert (Estep : b_create_entity c G vs R = b_dropping_on_panic vs (let! _ := b_with_arch i (b_push_entity c G h vs) in ret (Ok h)) R2).
  { unfold b_create_entity, b_dropping_on_panic. rewrite Hgv. cbn [negb]. rewrite (bind_Ret _ _ _ _ _ Eg).
    erewrite bind_Ret; [|unfold bq_rd, b_arch_at; rewrite HA; done]. rewrite (ar_count _ _ _ Hr). change (a_count a) with (a_len a). rewrite Erow, Eai. cbn [unwrap]. rewrite !bind_ret_l.
    by rewrite (bind_Ret _ _ _ _ _ Eg2). }
  pose proof (b_full_push _ G vs h a A _ (br_mem R2) cs rows (brel_ast _ _ _ _ _ HR2 Ha HA2) Hok Ecap Hfull Ho Hg Hid) as Hp.
  cbn [bstep]. unfold bind. rewrite Estep. unfold b_dropping_on_panic, bind, b_with_arch. rewrite HA2.
  destruct (dbg c); [|by rewrite Hp]. destruct Hp as [[A' m'] ->]. by eexists.
Qed.

(** ** Any call *)
Definition b_breaks (R : breg) (o : op) : Prop :=
  match o with
  | OpCreate _ _ => if dbg c then exists R', bstep c o R = Panic R' else bstep c o R = UB
  | _ => bstep c o R = UB
  end.
Notation calls o := (@alike U [] _ (step c o) (bstep c o)).
Lemma b_any r R b o : booked c U r b -> admissible be U (bk_world b) o -> brel r R ->
  if bursts be U b o then b_breaks R o else calls o r R.
Proof.
  intros Hb Ha HR. pose proof Hb as [(T&H&_) _ _ _].
  assert (Hlaw : lawful be U (bk_world b) o -> calls o r R) by (intros Hl; by apply (byte_step c U HU Hla Hnt r R b)).
  assert (Hroom : forall e, brimful U (bk_world b) e = false -> in_use U e -> room U (bk_world b) (en_aid e) (ids_of (types U (en_vals e)))).
  { intros e Hn%N.leb_gt Hu. by split. }
  destruct o; try (by apply Hlaw).
  - destruct (bursts be U b (OpCreate G vs)) eqn:Eb; [by apply (b_create_brim r R b G vs)|]. pose proof Ha as ([HG HGn]&HF&Hu). cbn [bursts] in Eb.
    destruct (valid be U G) eqn:Hv; [|apply Hlaw; split; [done|split; [done|]]; by rewrite Hv].
    destruct (brimful U (bk_world b) (created be U G vs)) eqn:Hbr.
    + assert (Hnone : next_handle b = None). { destruct (next_handle b); [|done]. by rewrite bool_decide_eq_true_2 in Eb by eauto. }
      pose proof (create_late c U HU r b G vs Hb Ha Hv Hbr Hnone) as Hg. cbn [outcome answer good] in Hg. destruct Hg as (r1&E&_).
      cbn [step] in E. apply bind_Ret_inv in E as (x&r2&E&_). cbn [step bstep]. apply alike_map.
      eapply alike_ret; [apply (rsim_create Hsm); [done|symmetry; by eapply Forall2_length]|done|exact E].
    + apply Hlaw. split; [done|]. split; [done|]. intros _. apply (Hroom (created be U G vs)); auto.
  - pose proof Ha as (HC&Hf&Hu). cbn [bursts]. destruct (bk_world b !! h) as [e|] eqn:Ew.
    2: { apply Hlaw. split; [done|]. split; [done|]. intros e. by rewrite Ew. }
    destruct (bool_decide_reflect (en_vals e !! ct_id C = None)) as [Hnone|Hsome]; cbn [andb].
    2: { apply Hlaw. split; [done|]. split; [done|]. intros e' Ew'. rewrite Ew in Ew'. by injection Ew' as <-. }
    specialize (Hu e eq_refl Hnone). destruct (Nat.eqb_spec (size (en_vals e)) 13) as [E13|N13]; cbn [negb andb].
    + by eapply (calls_add_13 c U HU).
    + destruct (brimful U (bk_world b) _) eqn:Hbr; [by eapply b_add_brim|].
      apply Hlaw. split; [done|]. split; [done|]. intros e' Ew' _. rewrite Ew in Ew'. injection Ew' as <-. by apply Hroom.
  - pose proof Ha as (HC&Hu). cbn [bursts]. destruct (bk_world b !! h) as [e|] eqn:Ew.
    2: { apply Hlaw. split; [done|]. intros e. by rewrite Ew. }
    destruct (bool_decide_reflect (is_Some (en_vals e !! ct_id C))) as [Hsome|Hnone]; cbn [andb].
    2: { apply Hlaw. split; [done|]. intros e' Ew'. rewrite Ew in Ew'. by injection Ew' as <-. }
    specialize (Hu e eq_refl Hsome). destruct (Nat.eqb_spec (size (en_vals e)) 14) as [E14|N14]; cbn [negb andb].
    + destruct Hsome as [v Hv]. by eapply (calls_remove_14 c U HU).
    + destruct (brimful U (bk_world b) _) eqn:Hbr; [by eapply b_remove_brim|].
      apply Hlaw. split; [done|]. intros e' Ew' _. rewrite Ew in Ew'. injection Ew' as <-. by apply Hroom.
Qed.
End bursting.

(** ** Programs *)
Section follow.
Context (c : cfg) (U : list ctype) (HU : plain U) (Hla : laid_out U) (Hnt : NoDup (map ct_ty U)).
Notation be := (big c).
Notation brel := (@Bytes5.brel U []).
Notation calls o := (@alike U [] _ (step c o) (bstep c o)).
(** Among the archetypes there are and the one looked up, the call is admissible, unless it panics before it looks up any. *)
Definition thirteenth (w : world) (o : op) : Prop :=
  exists C h v e, o = OpAdd C h v /\ w !! h = Some e /\ size (en_vals e) = 13 /\ C ∈ U /\ en_vals e !! ct_id C = None.
Definition fourteenth (w : world) (o : op) : Prop :=
  exists C h e v, o = OpRemove C h /\ w !! h = Some e /\ size (en_vals e) = 14 /\ C ∈ U /\ en_vals e !! ct_id C = Some v.
Lemma fair_near b o : fair be U (bk_world b) o ->
  @admissible (near c U b o) be U (bk_world b) o \/ thirteenth (bk_world b) o \/ fourteenth (bk_world b) o.
Proof.
  intros Hf. destruct o; try (left; exact Hf).
  - destruct Hf as (H1&H2&_). left. split; [done|]. split; [done|]. intros Hv Hl. apply (near_sought c U b (OpCreate G vs) (place_of U (created be U G vs))). cbn [seeks]. by rewrite Hv.
  - destruct Hf as (H1&H2&_). destruct (bk_world b !! h) as [e|] eqn:Ew.
    2: { left. split; [done|]. split; [done|]. intros e. by rewrite Ew. }
    destruct (decide (en_vals e !! ct_id C = None)) as [Hn|Hs].
    2: { left. split; [done|]. split; [done|]. intros e' Ew'. rewrite Ew in Ew'. by injection Ew' as <-. }
    destruct (Nat.eqb_spec (size (en_vals e)) 13) as [E13|N13]; [right; left; by exists C, h, v, e|].
    left. split; [done|]. split; [done|]. intros e' Ew' Hn' Hl. rewrite Ew in Ew'. injection Ew' as <-.
    apply (near_sought c U b (OpAdd C h v) (place_of U (derived be U (<[ct_id C := v]> (en_vals e))))). cbn [seeks]. rewrite Ew, bool_decide_eq_true_2 by done.
    rewrite (proj2 (Nat.eqb_neq _ _) N13). done.
  - destruct Hf as (H1&_). destruct (bk_world b !! h) as [e|] eqn:Ew.
    2: { left. split; [done|]. intros e. by rewrite Ew. }
    destruct (decide (is_Some (en_vals e !! ct_id C))) as [Hs|Hn].
    2: { left. split; [done|]. intros e' Ew'. rewrite Ew in Ew'. by injection Ew' as <-. }
    destruct (Nat.eqb_spec (size (en_vals e)) 14) as [E14|N14]; [right; right; destruct Hs as [v Hv]; by exists C, h, e, v|].
    left. split; [done|]. intros e' Ew' Hn' Hl. rewrite Ew in Ew'. injection Ew' as <-.
    apply (near_sought c U b (OpRemove C h) (place_of U (derived be U (delete (ct_id C) (en_vals e))))). cbn [seeks]. rewrite Ew, bool_decide_eq_true_2 by done.
    rewrite (proj2 (Nat.eqb_neq _ _) N14). done.
  - destruct Hf as (H1&_). left. split; [done|]. intros Hv. apply (near_sought c U b (OpExact G) (exact_place be U G)). cbn [seeks]. by rewrite Hv.
  - destruct Hf as (H1&_). left. split; [done|]. intros Hv. apply (near_sought c U b (OpExactE G) (exact_place be U G)). cbn [seeks]. by rewrite Hv.
  - destruct Hf as (H1&_&H3). left. split; [done|]. split; [|done]. intros Hv. apply (near_sought c U b (OpExactMut G upd) (exact_place be U G)). cbn [seeks]. by rewrite Hv.
  - destruct Hf as (H1&_&H3). left. split; [done|]. split; [|done]. intros Hv. apply (near_sought c U b (OpExactEMut G upd) (exact_place be U G)). cbn [seeks]. by rewrite Hv.
Qed.
Lemma b_clash_free r R b o : @booked every c U r b -> fair be U (bk_world b) o -> clashes be U b o = false -> brel r R ->
  if bursts be U b o then b_breaks c R o else calls o r R.
Proof.
  intros Hb Hf Hc HR. pose proof (near_universe c U HU _ _ _ _ Hb Hc) as HU'. pose proof (near_booked c U _ _ _ o Hb) as Hb'.
  pose proof Hb' as [(T&H&_) _ _ _].
  destruct (fair_near b o Hf) as [Ha|[(C&h&v&e&->&Ew&E13&HC&Hn)|(C&h&e&v&->&Ew&E14&HC&Hv)]].
  - exact (b_any c U HU' Hla Hnt r R b o Hb' Ha HR).
  - cbn [bursts]. rewrite Ew, E13, bool_decide_eq_true_2 by done. cbn [Nat.eqb negb andb]. by eapply (calls_add_13 c U HU').
  - cbn [bursts]. rewrite Ew, E14, bool_decide_eq_true_2 by eauto. cbn [Nat.eqb negb andb]. by eapply (calls_remove_14 c U HU').
Qed.
Definition b_met (x : list (option output) * option breg) (y : list (option output) * ending) : Prop :=
  match y.2 with
  | Ends (Completes b) => x.1 = y.1 /\ exists r R, x.2 = Some R /\ @booked every c U r b /\ brel r R
  | Ends Faults => x.1 = y.1 /\ x.2 = None
  | Ends Wrecks | Clash _ _ => y.1 `prefix_of` x.1
  end.
Lemma b_met_cons out x y : b_met x y -> b_met (out :: x.1, x.2) (out :: y.1, y.2).
Proof.
  unfold b_met. cbn [fst snd]. destruct y.2 as [[b| |]|b o].
  - intros [-> ?]. done.
  - intros [-> ?]. done.
  - apply prefix_cons.
  - apply prefix_cons.
Qed.
Lemma b_followed_from ops r R b : @booked every c U r b -> fair_all (dbg c) be U ops b -> brel r R ->
  b_met (battempt c ops R) (follow (dbg c) be U ops b).
Proof.
  revert r R b. induction ops as [|o ops IH]; intros r R b Hb Hl HR; [by split; [|exists r, R]|].
  destruct Hl as [Hl1 Hl]. cbn [battempt follow]. destruct (clashes be U b o) eqn:Hc; [apply prefix_nil|]. specialize (Hl eq_refl).
  pose proof (b_clash_free r R b o Hb Hl1 Hc HR) as Hs. pose proof (clash_free c U HU Hnt r b o Hb Hl1 Hc) as Hg. destruct (bursts be U b o).
  - unfold b_breaks in Hs. destruct o; try (by rewrite Hs). destruct (dbg c); [|by rewrite Hs]. destruct Hs as [R' ->].
    destruct (battempt c ops R') as [l e]. unfold b_met. cbn [fst snd]. apply prefix_cons, prefix_nil.
  - specialize (Hl eq_refl). unfold alike in Hs. destruct (outcome (dbg c) be U b o) as [out b1|b1|]; cbn [good] in Hg.
    + destruct Hg as (r1&E&Hb1&_). rewrite E in Hs. destruct Hs as (R1&->&HR1). specialize (IH r1 R1 b1 Hb1 Hl HR1). apply (b_met_cons (Some out)) in IH.
      destruct (battempt c ops R1), (follow (dbg c) be U ops b1). exact IH.
    + destruct Hg as (r1&E&Hb1&_). rewrite E in Hs. destruct Hs as (R1&->&HR1). specialize (IH r1 R1 b1 Hb1 Hl HR1). apply (b_met_cons None) in IH.
      destruct (battempt c ops R1), (follow (dbg c) be U ops b1). exact IH.
    + rewrite Hg in Hs. by rewrite Hs.
Qed.
Lemma b_followed place ops : fair_all (dbg c) be U ops book_empty -> b_met (battempt c ops (breg_default place)) (follow (dbg c) be U ops book_empty).
Proof. intros Hl. exact (b_followed_from ops _ _ _ (@booked_start every c U) Hl (brel_start place)). Qed.
(** The registry is dropped in the end. *)
Lemma b_followed_drop place ops l b : fair_all (dbg c) be U ops book_empty -> follow (dbg c) be U ops book_empty = (l, Ends (Completes b)) -> all_calm (bk_world b) ->
  exists R R', (battempt c ops (breg_default place)).2 = Some R /\ b_drop_registry R = Ret tt R' /\ m_blocks (br_mem R') = ∅.
Proof.
  intros Hl E Hcalm. pose proof (b_followed place ops Hl) as Hm. rewrite E in Hm. destruct Hm as (_&r&R&E2&Hb&HR).
  pose proof (near_universe c U HU _ _ b OpIterEntities Hb eq_refl) as HU'. pose proof (near_booked c U _ _ _ OpIterEntities Hb) as Hb'.
  pose proof (bo_tabs _ _ _ _ Hb') as (T&Hok&_).
  destruct (b_drop_ok c U HU' Hla r R T _ HR Hok Hcalm) as (R'&ER&Hmem&_). exists R, R'. done.
Qed.
End follow.
