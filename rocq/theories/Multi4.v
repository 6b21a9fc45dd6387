(** Proofs for C74: several registries, some of them misused. *)
From Verif Require Import MultiModel MonadProofs DescrProofs ArchProofs RegProofs Refine Sizes Clients Ref Events Events2 Bytes Bytes4 Bytes5 Bytes6 Bytes7 Bytes9 Bytes11 Bytes12 Bytes16 Bytes17 Crash RegMut Total Multi Multi2
  SpecMulti SpecMulti2 SpecBytes SpecEvents SpecTotal SpecBytes2 SpecBomb SpecFail SpecObs SpecTrace SpecBase SpecWorld SpecRef.
Local Open Scope nat_scope.

Section main.
  Context {Fm : family} (c : cfg) (U : list ctype) (HU : universe (big c) U) (Hla : laid_out U) (Hnt : NoDup (map ct_ty U)).
  Notation be := (big c).
  Notation minv := (minv c U).
  Notation foresee := (mforesee (dbg c) be U).
  Notation predict := (mpredict (dbg c) be U).
  Definition wasted (Z : list (N * hblk)) : list (N * N) := map (fun x => layout_of x.2) Z.
  Lemma wasted_in Z m : (forall id b, (id, b) ∈ Z -> m_blocks m !! id = Some b) -> omap (lay (m_blocks m)) (map fst Z) = wasted Z.
  Proof.
    induction Z as [|[id b] Z IH]; intros H; [done|]. cbn [map omap list_omap fst snd wasted]. unfold lay at 1. rewrite (H id b) by left. cbn.
    f_equal. apply IH. intros i x Hx. apply H. by right.
  Qed.
  Lemma wasted_blocks m l : (forall id, id ∈ l -> is_Some (m_blocks m !! id)) -> wasted (with_blocks m l) = omap (lay (m_blocks m)) l.
  Proof.
    induction l as [|id l IH]; intros H; [done|]. cbn [with_blocks map omap list_omap wasted snd]. unfold lay at 1. destruct (H id) as [b Hb]; [left|]. rewrite Hb. cbn.
    f_equal. apply IH. intros i Hi. apply H. by right.
  Qed.
  Lemma mdrop_ok s l Z k b caps : minv s l Z -> l !! k = Some (Some (b, caps)) ->
    exists s' Z', mstep c (MDrop k) s = (if existsb v_bomb (world_values (bk_world b)) then Panic s' else Ret None s') /\ minv s' (<[k := None]> l) Z' /\
      m_env (mu_mem s') = emitted (m_env (mu_mem s)) (abandon_log b caps) /\ wasted Z' ≡ₚ wasted Z ++ lost b caps.
  Proof using HU Hla.
    intros Hi Hl. destruct (Forall2_lookup_r _ _ _ _ _ (mi_cells _ _ _ _ _ Hi) Hl) as (h&Hk&Hcell). destruct h as [h|]; [|done]. destruct Hcell as (r&Hb&Hcaps&Hr).
    pose proof (booked_env c U _ _ (m_env (mu_mem s)) Hb (mi_calm _ _ _ _ _ Hi)) as Hb1. pose proof (brel_focus c U _ _ _ _ _ _ Hi Hk Hr) as Hf.
    destruct (bo_tabs _ _ _ _ Hb1) as (T&Hok&HS).
    destruct (b_drop_left c U HU Hla _ _ T Hf (ro_oracle _ _ _ _ _ Hok) (ro_tabs _ _ _ _ _ Hok)) as (r'&R'&Ed&Hf'&Ee&Hlost).
    destruct (tabs_sheets (bk_world b) T (map a_cap (archs r)) (tab_rows_in c U _ _ _ Hok)) as [E1 E2].
    assert (Ek : map a_cap (archs r) = caps) by (by rewrite <- Hcaps, pk_caps).
    change (archs (with_env r (m_env (mu_mem s)))) with (archs r) in *. rewrite E1, HS, Ek in Ee. rewrite E2, HS, Ek in Hlost.
    rewrite (tabs_bombed c U _ _ (ro_tabs _ _ _ _ _ Hok)), <- (existsb_perm _ _ _ (world_values_tabs _ _ _ _ _ Hok)) in Ed.
    set (D := concat (map own (br_archs R'))) in *.
    assert (HD : forall id, id ∈ D -> is_Some (m_blocks (br_mem R') !! id)).
    { intros id Hid. apply (ho_dom _ _ _ (bl_heap _ _ Hf')). apply elem_of_app. by left. }
    exists (Multi (<[k := None]> (mu_regs s)) (br_mem R')), (with_blocks (br_mem R') D ++ Z). split; [|split; [|split]].
    - cbn [mstep]. unfold bind, mu_with. rewrite Hk, Ed. by destruct (existsb _ _).
    - eapply minv_put; [exact Hi|exact Hk|exact Hl|exact Hf'| | | |done].
      + rewrite Ee. apply (mi_calm _ _ _ _ _ Hi).
      + by rewrite map_app, with_blocks_fst.
      + intros id y [Hy|Hy]%elem_of_app; [|apply (bl_kept _ _ Hf'), elem_of_app; by right].
        eapply with_blocks_in; [exact (bl_heap _ _ Hf')| |exact Hy]. intros x Hx. apply elem_of_app. by left.
    - cbn [mu_mem]. by rewrite (bl_env _ _ Hf'), Ee.
    - unfold wasted at 1. rewrite map_app. fold (wasted Z). fold (wasted (with_blocks (br_mem R') D)). rewrite (wasted_blocks _ _ HD), Hlost.
      apply Permutation_app_comm.
  Qed.
  Lemma mforesee_ok s l Z o : minv s l Z -> mlawful be U l o ->
    match foresee l o with
    | Some (x, l') => exists s' Z', mstep c o s = match fs_reply x with Some y => Ret y s' | None => Panic s' end /\ minv s' l' Z' /\
        m_env (mu_mem s') = emitted (m_env (mu_mem s)) (fs_log x) /\ wasted Z' ≡ₚ wasted Z ++ fs_lost x
    | None => mstep c o s = UB
    end.
  Proof using HU Hla Hnt.
    intros Hi Ha.
    assert (Husual : forall o, mallowed be U l o -> exists s' Z', mstep c o s = Ret (mref be U l o).1.1 s' /\ minv s' (mref be U l o).2 Z' /\
      m_env (mu_mem s') = emitted (m_env (mu_mem s)) (mref be U l o).1.2 /\ wasted Z' ≡ₚ wasted Z ++ []).
    { intros o' Ha'. destruct (mstep_ok c U HU Hla s l Z o' Hi Ha') as (s'&?&?&?). exists s', Z. by rewrite app_nil_r. }
    destruct o as [|k o|k|i j]; [exact (Husual MNew Ha)| | |exact (Husual (MSwap i j) Ha)].
    2: { cbn [mlawful mforesee] in *. destruct Ha as (b&caps&Hl). rewrite Hl. cbn [fs_reply fs_log fs_lost].
      destruct (mdrop_ok s l Z k b caps Hi Hl) as (s'&Z'&E&H). exists s', Z'. split; [|exact H]. rewrite E. by destruct (existsb _ _). }
    cbn [mlawful mforesee mstep] in *. destruct Ha as (b&caps&Hl&Hc). rewrite Hl.
    destruct (Forall2_lookup_r _ _ _ _ _ (mi_cells _ _ _ _ _ Hi) Hl) as (h&Hk&Hcell). destruct h as [h|]; [|done]. destruct Hcell as (r&Hb&Hcaps&Hr).
    pose proof (booked_env c U _ _ (m_env (mu_mem s)) Hb (mi_calm _ _ _ _ _ Hi)) as Hb1. pose proof (brel_focus c U _ _ _ _ _ _ Hi Hk Hr) as Hf.
    pose proof (byte_step c U HU Hla Hnt _ _ _ _ Hb1 Hc Hf) as Hs. unfold alike in Hs.
    pose proof (outcome_step c U HU Hnt _ _ _ Hb1 Hc) as Hg. pose proof (verdict_vlog c U b caps o) as Hv. cbv zeta.
    assert (Hput : forall r' R' b' v, tracks c U (with_env r (m_env (mu_mem s))) b o v r' b' ->
      @Bytes5.brel U (aside s k Z) r' R' -> outcome (dbg c) be U b o = v ->
      minv (Multi (<[k := Some (emptied R')]> (mu_regs s)) (br_mem R')) (<[k := Some (b', (verdict_log (dbg c) be U b caps o).2)]> l) Z /\
      m_env (br_mem R') = emitted (m_env (mu_mem s)) (verdict_log (dbg c) be U b caps o).1).
    { intros r' R' b' v (Hb'&Ee&Ek) Hf' Eo. change (rpf (with_env r (m_env (mu_mem s)))) with (rpf r) in *. rewrite Hcaps in Ee, Ek.
      rewrite Hv, Eo. split.
      - eapply minv_stay; [exact Hi|exact Hk|exact Hl|exact Hf'| |].
        + rewrite Ee. apply (mi_calm _ _ _ _ _ Hi).
        + exists r'. split; [done|]. split; [done|]. by eapply hrel_of.
      - rewrite (bl_env _ _ Hf'). by rewrite Ee. }
    destruct (outcome (dbg c) be U b o) as [out b'|b'|] eqn:Eo; cbn [good] in Hg.
    - destruct Hg as (r'&E&Ht). rewrite E in Hs. destruct Hs as (R'&EB&Hf'). destruct (Hput _ _ _ _ Ht Hf' eq_refl) as [H1 H2].
      eexists _, Z. split; [|split; [exact H1|split; [exact H2|by rewrite app_nil_r]]]. unfold bind, mu_with. rewrite Hk, EB. done.
    - destruct Hg as (r'&E&Ht). rewrite E in Hs. destruct Hs as (R'&EB&Hf'). destruct (Hput _ _ _ _ Ht Hf' eq_refl) as [H1 H2].
      eexists _, Z. split; [|split; [exact H1|split; [exact H2|by rewrite app_nil_r]]]. unfold bind, mu_with. rewrite Hk, EB. done.
    - rewrite Hg in Hs. unfold bind, mu_with. rewrite Hk, Hs. done.
  Qed.
  Lemma mattempt_from ops : forall s l Z, minv s l Z -> mlawful_all (dbg c) be U ops l ->
    (mattempt c ops s).1 = map fs_reply (predict ops l).1 /\
    match (mattempt c ops s).2, (predict ops l).2 with
    | Some s', Some l' => exists Z', minv s' l' Z' /\ m_env (mu_mem s') = emitted (m_env (mu_mem s)) (concat (map fs_log (predict ops l).1)) /\
        wasted Z' ≡ₚ wasted Z ++ concat (map fs_lost (predict ops l).1)
    | None, None => True
    | _, _ => False
    end.
  Proof using HU Hla Hnt.
    induction ops as [|o ops IH]; intros s l Z Hi Hw; cbn [mattempt mpredict mlawful_all] in *.
    { split; [done|]. exists Z. cbn. by rewrite emitted_nil, app_nil_r. }
    destruct Hw as [Ha Hw]. pose proof (mforesee_ok s l Z o Hi Ha) as H1. destruct (foresee l o) as [[x l1]|]; [|by rewrite H1].
    destruct H1 as (s1&Z1&E1&H1&Ee1&Ez1). destruct (IH _ _ _ H1 Hw) as [E2 H2].
    assert (Hgoal : forall y : option (option output), y = fs_reply x -> 
       (let (a, e) := mattempt c ops s1 in (y :: a, e)).1 = map fs_reply (let (a, e) := predict ops l1 in (x :: a, e)).1 /\
       match (let (a, e) := mattempt c ops s1 in (y :: a, e)).2, (let (a, e) := predict ops l1 in (x :: a, e)).2 with
       | Some s', Some l' => exists Z', minv s' l' Z' /\ m_env (mu_mem s') = emitted (m_env (mu_mem s)) (concat (map fs_log (let (a, e) := predict ops l1 in (x :: a, e)).1)) /\
           wasted Z' ≡ₚ wasted Z ++ concat (map fs_lost (let (a, e) := predict ops l1 in (x :: a, e)).1)
       | None, None => True
       | _, _ => False
       end).
    { intros y ->. destruct (mattempt c ops s1) as [a e], (predict ops l1) as [a' e']. cbn [fst snd map concat] in *. rewrite E2. split; [done|].
      destruct e as [s2|], e' as [l2|]; try done. destruct H2 as (Z2&?&Ee2&Ez2). exists Z2. split; [done|]. split; [by rewrite Ee2, Ee1, emitted_app|].
      by rewrite Ez2, Ez1, app_assoc. }
    rewrite E1. destruct (fs_reply x) as [y|]; by apply Hgoal.
  Qed.
  Lemma misused place ops : mlawful_all (dbg c) be U ops [] ->
    (mattempt c ops (multi_default place)).1 = map fs_reply (predict ops []).1 /\
    match (mattempt c ops (multi_default place)).2, (predict ops []).2 with
    | Some s, Some l => ev_trace (m_env (mu_mem s)) = concat (map fs_log (predict ops []).1) /\
        (Forall (fun x => x = None) l -> map layout_of (map_to_list (m_blocks (mu_mem s))).*2 ≡ₚ concat (map fs_lost (predict ops []).1))
    | None, None => True
    | _, _ => False
    end.
  Proof using HU Hla Hnt.
    intros Hw. destruct (mattempt_from ops _ _ _ (minv_start c U place) Hw) as [E H]. split; [done|].
    destruct (mattempt c ops (multi_default place)).2 as [s|], (predict ops []).2 as [l|]; try done. destruct H as (Z&Hi&Ee&Ez).
    split; [by rewrite Ee|]. intros Hall. etrans; [apply (heap_layouts _ _ _ (mi_heap _ _ _ _ _ Hi))|].
    rewrite (all_gone c U _ _ _ Hi Hall). cbn [app]. rewrite (wasted_in _ _ (mi_lost _ _ _ _ _ Hi)). exact Ez.
  Qed.

  (** ** Each registry as if alone *)
  Lemma gone_for_good ops : forall (s : list cell) k, mlawful_all (dbg c) be U ops s -> Forall (fun o => swaps o = false) ops -> s !! k = Some None ->
    is_Some (predict ops s).2 ->
    calls_on k ops = [] /\ replies_on k ops (map fs_reply (predict ops s).1) = [].
  Proof.
    induction ops as [|o ops IH]; intros s k Hw Hns Hk Hd; cbn [mlawful_all mpredict] in *; [done|].
    destruct Hw as [Ha Hw]. apply Forall_cons in Hns as [Hn Hns]. destruct (foresee s o) as [[x s1]|] eqn:Ef; [|by destruct Hd].
    assert (Hstep : s1 !! k = Some None /\ on k o = false).
    { destruct o as [|i o|i|]; [| | |done]; cbn [mforesee mlawful mallowed mref on] in *.
      - injection Ef as <- <-. split; [|done]. by apply lookup_app_l_Some.
      - destruct Ha as (b&caps&Hi&_). rewrite Hi in Ef. assert (i <> k) by (intros ->; congruence). split.
        + destruct (outcome _ _ _ _ _); simplify_eq; by rewrite list_lookup_insert_ne by done.
        + by rewrite bool_decide_eq_false_2 by done.
      - destruct Ha as (b&caps&Hi). rewrite Hi in Ef. injection Ef as <- <-. assert (i <> k) by (intros ->; congruence).
        rewrite list_lookup_insert_ne by done. split; [done|]. by rewrite bool_decide_eq_false_2. }
    destruct Hstep as (Hk'&Hon). pose proof (IH _ _ Hw Hns Hk') as Hrec.
    destruct (predict ops s1) as [xs s2]. cbn [fst snd map] in *. destruct (Hrec Hd) as (E1&E2).
    destruct o as [|i o|i|]; [done| |done|done]. cbn [on] in Hon. apply bool_decide_eq_false in Hon. cbn [replies_on]. rewrite decide_False by done. split; [|done].
    unfold calls_on. cbn [omap list_omap]. by rewrite decide_False.
  Qed.
  Lemma alone_gen2 ops : forall (s : list cell) k b caps, mlawful_all (dbg c) be U ops s -> Forall (fun o => swaps o = false) ops -> so_far s k b caps ->
    is_Some (predict ops s).2 ->
    lawful_all (dbg c) be U (calls_on k ops) b /\
    replies_on k ops (map fs_reply (predict ops s).1) = (SpecTotal.predict (dbg c) be U (calls_on k ops) b).1.
  Proof.
    induction ops as [|o ops IH]; intros s k b caps Hw Hns Hs Hd; cbn [mlawful_all mpredict] in *; [done|].
    destruct Hw as [Ha Hw]. apply Forall_cons in Hns as [Hn Hns]. destruct (foresee s o) as [[x s1]|] eqn:Ef; [|by destruct Hd].
    destruct (on k o) eqn:Hon.
    - destruct o as [|i o|i|]; try done; cbn [on mlawful mallowed mforesee mref] in *; apply bool_decide_eq_true in Hon as ->.
      + destruct Ha as (b'&caps'&Hk&Hc); destruct Hs as [Hs|(Hs&_)]; rewrite Hk in Hs; [|done]; injection Hs as -> ->; rewrite Hk in Ef.
        assert (Hcalls : calls_on k (MCall k o :: ops) = o :: calls_on k ops) by (unfold calls_on; cbn [omap list_omap]; by rewrite decide_True).
        rewrite Hcalls. cbv zeta in Ef. cbn [lawful_all SpecTotal.predict].
        assert (Hrec : forall b1 caps1, s1 = <[k := Some (b1, caps1)]> s -> lawful_all (dbg c) be U (calls_on k ops) b1 /\
          replies_on k ops (map fs_reply (predict ops s1).1) = (SpecTotal.predict (dbg c) be U (calls_on k ops) b1).1).
        { intros b1 caps1 ->. eapply (IH _ _ _ caps1); [done|done| |].
          - left. apply list_lookup_insert. by eapply lookup_lt_Some.
          - by destruct (predict ops _). }
        destruct (outcome (dbg c) be U b o) as [out b1|b1|]; [| |done]; simplify_eq;
          destruct (Hrec _ _ eq_refl) as [H1 H2]; (split; [done|]); destruct (predict ops _) as [xs s2]; cbn [fst snd] in *;
          cbn [map replies_on fs_reply]; rewrite decide_True by done; destruct (SpecTotal.predict _ _ _ _ b1) as [xs' s2']; cbn [fst] in *;
          rewrite <- H2; reflexivity.
      + destruct Ha as (b'&caps'&Hk); destruct Hs as [Hs|(Hs&_)]; rewrite Hk in Hs; [|done]; injection Hs as -> ->; rewrite Hk in Ef.
        injection Ef as <- <-. assert (Hs1 : <[k := None]> s !! k = Some None) by (apply list_lookup_insert; by eapply lookup_lt_Some).
        pose proof (gone_for_good ops _ _ Hw Hns Hs1) as Hg. change (calls_on k (MDrop k :: ops)) with (calls_on k ops).
        destruct (predict ops _) as [xs s2]. cbn [fst snd] in *. destruct (Hg Hd) as [-> H2]. cbn [map replies_on]. rewrite H2. done.
    - assert (Hs1 : so_far s1 k b caps).
      { destruct o as [|i o|i|]; [| | |done]; cbn [mforesee mref mlawful mallowed on] in *.
        - injection Ef as <- <-. cbn [snd]. destruct Hs as [Hs|(Hs&->&->)]; [left; by apply lookup_app_l_Some|].
          apply lookup_ge_None in Hs. destruct (decide (k = length s)) as [->|Hne]; [left; by rewrite lookup_app_r, Nat.sub_diag by lia|].
          right. split; [|done]. apply lookup_ge_None. rewrite app_length. cbn. lia.
        - apply bool_decide_eq_false in Hon. destruct Ha as (b'&caps'&Hi&_). rewrite Hi in Ef.
          unfold so_far. destruct (outcome _ _ _ _ _); simplify_eq; by rewrite list_lookup_insert_ne.
        - apply bool_decide_eq_false in Hon. destruct Ha as (b'&caps'&Hi). rewrite Hi in Ef. injection Ef as <- <-.
          unfold so_far. by rewrite list_lookup_insert_ne. }
      assert (Hcalls : calls_on k (o :: ops) = calls_on k ops /\ forall y ys, replies_on k (o :: ops) (y :: ys) = replies_on k ops ys).
      { destruct o as [|i o|i|]; [done| |done|done]. cbn [on] in Hon. apply bool_decide_eq_false in Hon. split.
        - unfold calls_on. cbn [omap list_omap]. by rewrite decide_False.
        - intros y ys. cbn [replies_on]. by rewrite decide_False. }
      destruct Hcalls as [-> Hrep]. pose proof (IH _ _ _ _ Hw Hns Hs1) as Hrec. destruct (predict ops s1) as [xs s2]. cbn [fst snd map] in *.
      rewrite Hrep. by apply Hrec.
  Qed.
  Lemma misused_alone place place' ops k s : mlawful_all (dbg c) be U ops [] -> Forall (fun o => swaps o = false) ops ->
    (mattempt c ops (multi_default place)).2 = Some s ->
    lawful_all (dbg c) be U (calls_on k ops) book_empty /\
    (battempt c (calls_on k ops) (breg_default place')).1 = replies_on k ops (mattempt c ops (multi_default place)).1.
  Proof using HU Hla Hnt.
    intros Hw Hns Es. destruct (misused place ops Hw) as [E H]. rewrite Es in H.
    destruct (alone_gen2 ops [] k book_empty [] Hw Hns) as [H1 H2]; [by right|by destruct (predict ops []).2|].
    split; [done|]. destruct (battempt_predicted c U HU Hla Hnt place' _ H1) as [E' _]. by rewrite E', E, <- H2.
  Qed.
End main.
