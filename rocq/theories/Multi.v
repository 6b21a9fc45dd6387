(** Proofs for C72: several registries in one heap. *)
From Verif Require Import MultiModel SearchProofs MonadProofs DescrProofs ArchProofs RegProofs Refine Sizes Clients Ref Events Events2 Bytes Bytes4 Bytes5 Bytes6 Bytes7 Bytes11 Bytes12 SpecMulti SpecBytes SpecEvents SpecBase SpecWorld SpecRef.
Local Open Scope nat_scope.

(** ** Lists cut into parts *)
Section parts.
  Context {X : Type} (f : X -> list N).
  Definition others (i : nat) (l : list X) : list N := concat (map f (take i l ++ drop (S i) l)).
  Lemma parts_at l i x : l !! i = Some x -> concat (map f l) ≡ₚ f x ++ others i l.
  Proof.
    intros Hi. rewrite <- (take_drop_middle _ _ _ Hi) at 1. unfold others. rewrite !map_app, !concat_app. cbn [map concat].
    by rewrite !app_assoc, (Permutation_app_comm (f x)).
  Qed.
  Lemma others_insert l i y : i < length l -> others i (<[i := y]> l) = others i l.
  Proof. intros Hi. unfold others. by rewrite take_insert, drop_insert_gt by lia. Qed.
  Lemma parts_put l i y : i < length l -> concat (map f (<[i := y]> l)) ≡ₚ f y ++ others i l.
  Proof. intros Hi. rewrite (parts_at _ i y) by (by apply list_lookup_insert). by rewrite others_insert. Qed.
  Lemma others_in l i j x id : l !! j = Some x -> j <> i -> id ∈ f x -> id ∈ others i l.
  Proof.
    intros Hj Hne Hid. unfold others. apply elem_of_list_In, in_concat. exists (f x). split; [|by apply elem_of_list_In].
    apply in_map, elem_of_list_In, elem_of_app. destruct (decide (j < i)).
    - left. apply elem_of_list_lookup. exists j. by rewrite lookup_take.
    - right. apply elem_of_list_lookup. exists (j - S i). rewrite lookup_drop. replace (S i + (j - S i)) with j by lia. done.
  Qed.
End parts.

Lemma concat_perm {X} (l l' : list (list X)) : l ≡ₚ l' -> concat l ≡ₚ concat l'.
Proof.
  induction 1 as [|x l l' _ IH|x y l|l l' l'' _ IH1 _ IH2]; [done| | |by rewrite IH1]; cbn [concat]; [by rewrite IH|].
  by rewrite !app_assoc, (Permutation_app_comm x y).
Qed.
Lemma swap_perm {X} (l : list X) i j x y : l !! i = Some x -> l !! j = Some y -> <[j := x]> (<[i := y]> l) ≡ₚ l.
Proof.
  revert i j. induction l as [|z l IH]; intros [|i] [|j] Hi Hj; cbn [lookup list_lookup] in Hi, Hj; try done; simplify_eq.
  - done.
  - change (y :: <[j := x]> l ≡ₚ x :: l). rewrite <- (take_drop_middle _ _ _ Hj) at 2. rewrite insert_take_drop by (by eapply lookup_lt_Some).
    rewrite <- !Permutation_middle. apply perm_swap.
  - change (x :: <[i := y]> l ≡ₚ y :: l). rewrite <- (take_drop_middle _ _ _ Hi) at 2. rewrite insert_take_drop by (by eapply lookup_lt_Some).
    rewrite <- !Permutation_middle. apply perm_swap.
  - change (z :: <[j := x]> (<[i := y]> l) ≡ₚ z :: l). f_equiv. by apply IH.
Qed.

Lemma b_drop_own {Fm : family} (c : cfg) U (HU : universe (big c) U) (Hla : laid_out U) L r R T w : @Bytes5.brel U L r R -> reg_ok (big c) U r T w -> all_calm w ->
  exists r' R', drop_registry r = Ret tt r' /\ b_drop_registry R = Ret tt R' /\ @Bytes5.brel U L r' R' /\ concat (map own (br_archs R')) = [].
Proof.
  intros H Hok Hcalm. destruct (b_drop_archs_ok c U HU Hla (L := L) (length (archs r)) 0 r R T) as (r'&R'&E&Eb&H'&Hnil);
    [done|apply Hok|lia|apply Hok|by eapply (all_calm_rows c U)|lia|].
  exists r', R'. split; [exact E|]. split; [|done]. change (b_drop_archs 0 (length (br_archs R)) false R = Ret tt R'). rewrite (bl_len _ _ H). exact Eb.
Qed.

Section main.
  Context {Fm : family} (c : cfg) (U : list ctype) (HU : universe (big c) U) (Hla : laid_out U).
  Notation be := (big c).
  Definition hown (h : option hollow) : list N := match h with Some h => concat (map own (hw_archs h)) | None => [] end.
  (** What a registry's own representation says, whoever else uses the heap. *)
  Record hrel (r : reg) (h : hollow) (m : mem) : Prop := {
    hl_er : hw_er h = r_er r;
    hl_maps : hw_maps h = ar_maps (r_ar r);
    hl_len : length (hw_archs h) = length (archs r);
    hl_archs : forall i a A, archs r !! i = Some a -> hw_archs h !! i = Some A -> @arel U (m_blocks m) a A;
  }.
  Definition cell_ok (m : mem) (h : option hollow) (x : cell) : Prop :=
    match h, x with
    | Some h, Some (b, caps) => exists r, booked c U r b /\ map pk (rpf r) = caps /\ hrel r h m
    | None, None => True
    | _, _ => False
    end.
  (** [Z]: the blocks that were lost when registries were dropped (none in C72). *)
  Record minv (s : multi) (l : list cell) (Z : list (N * hblk)) : Prop := {
    mi_cells : Forall2 (cell_ok (mu_mem s)) (mu_regs s) l;
    mi_heap : heap_ok (m_blocks (mu_mem s)) (m_next (mu_mem s)) (concat (map hown (mu_regs s)) ++ map fst Z);
    mi_lost : forall id b, (id, b) ∈ Z -> m_blocks (mu_mem s) !! id = Some b;
    mi_calm : ev_oracle (m_env (mu_mem s)) = [];
  }.
  Definition aside (s : multi) (k : nat) (Z : list (N * hblk)) : list (N * hblk) := with_blocks (mu_mem s) (others hown k (mu_regs s)) ++ Z.
  Lemma aside_fst s k Z : map fst (aside s k Z) = others hown k (mu_regs s) ++ map fst Z.
  Proof. unfold aside. by rewrite map_app, with_blocks_fst. Qed.

  Definition with_env (r : reg) (e : env) : reg := Reg (r_er r) (r_ar r) e.
  Lemma booked_env r b e : booked c U r b -> ev_oracle e = [] -> booked c U (with_env r e) b.
  Proof. intros [(T&[]&HS) Hi Hf Hv] He. split; [exists T; split; [split|]|..]; done. Qed.
  Lemma hrel_frame r h m m' : hrel r h m -> (forall id, id ∈ hown (Some h) -> m_blocks m' !! id = m_blocks m !! id) -> hrel r h m'.
  Proof.
    intros [] Hid. split; [done..|]. intros i a A Ha HA. eapply arel_frame; [by eapply hl_archs0|]. intros id Hi. apply Hid. cbn [hown].
    apply elem_of_list_In, in_concat. exists (own A). split; [|by apply elem_of_list_In]. apply in_map, elem_of_list_In. by eapply elem_of_list_lookup_2.
  Qed.
  Lemma cell_frame h x m m' : cell_ok m h x -> (forall id, id ∈ hown h -> m_blocks m' !! id = m_blocks m !! id) -> cell_ok m' h x.
  Proof.
    destruct h as [h|], x as [[b caps]|]; try done. intros (r&?&?&?) Hid. exists r. split; [done|]. split; [done|]. by eapply hrel_frame.
  Qed.
  (** One registry, seen with the rest of the heap put aside. *)
  Lemma brel_focus s l Z k h r : minv s l Z -> mu_regs s !! k = Some (Some h) -> hrel r h (mu_mem s) ->
    @Bytes5.brel U (aside s k Z) (with_env r (m_env (mu_mem s))) (filled h (mu_mem s)).
  Proof.
    intros [_ Hh Hz _] Hk [He Hm Hl Ha]. pose proof (parts_at hown _ _ _ Hk) as Hp. split; cbn; try done.
    - rewrite aside_fst, app_assoc. eapply heap_ok_perm; [|exact Hh]. by rewrite Hp.
    - intros id b [Hb|Hb]%elem_of_app; [|by apply Hz]. eapply with_blocks_in; [exact Hh| |exact Hb]. intros x Hx. rewrite Hp, !elem_of_app. by left; right.
  Qed.
  (** Whatever one registry does, the others stay. *)
  Lemma minv_put s l Z Z' k h x R r' h' x' : minv s l Z -> mu_regs s !! k = Some (Some h) -> l !! k = Some x ->
    @Bytes5.brel U (aside s k Z) r' R -> ev_oracle (r_env r') = [] ->
    hown h' ++ map fst Z' ≡ₚ concat (map own (br_archs R)) ++ map fst Z -> (forall id b, (id, b) ∈ Z' -> m_blocks (br_mem R) !! id = Some b) ->
    cell_ok (br_mem R) h' x' ->
    minv (Multi (<[k := h']> (mu_regs s)) (br_mem R)) (<[k := x']> l) Z'.
  Proof.
    intros [Hc Hh _ _] Hk Hx Hb Ho Ew Hz' Hc'. pose proof (lookup_lt_Some _ _ _ Hk) as Hlt. pose proof (parts_at hown _ _ _ Hk) as Hp. split; cbn [mu_regs mu_mem].
    - apply Forall2_same_length_lookup. split; [rewrite !insert_length; by eapply Forall2_length|]. intros j hj xj Hj Hxj.
      destruct (decide (j = k)) as [->|Hne].
      + rewrite list_lookup_insert in Hj by done. rewrite list_lookup_insert in Hxj by (by eapply lookup_lt_Some). by simplify_eq.
      + rewrite list_lookup_insert_ne in Hj by done. rewrite list_lookup_insert_ne in Hxj by done. eapply cell_frame; [by eapply Forall2_lookup_lr|]. intros id Hid.
        pose proof (others_in hown _ k _ _ _ Hj Hne Hid) as Hin.
        assert (Hs : is_Some (m_blocks (mu_mem s) !! id)) by (apply (ho_dom _ _ _ Hh); rewrite Hp, !elem_of_app; by left; right).
        destruct Hs as [y Hy]. rewrite Hy. apply (bl_kept _ _ Hb). apply elem_of_app. left. apply elem_of_list_fmap. exists id. by rewrite Hy.
    - eapply heap_ok_perm; [|apply (bl_heap _ _ Hb)]. rewrite aside_fst, parts_put by done.
      rewrite (Permutation_app_comm (others hown k (mu_regs s))), app_assoc, <- Ew, <- !app_assoc. f_equiv. apply Permutation_app_comm.
    - done.
    - by rewrite (bl_env _ _ Hb).
  Qed.
  Lemma minv_stay s l Z k h x R r' x' : minv s l Z -> mu_regs s !! k = Some (Some h) -> l !! k = Some x ->
    @Bytes5.brel U (aside s k Z) r' R -> ev_oracle (r_env r') = [] -> cell_ok (br_mem R) (Some (emptied R)) x' ->
    minv (Multi (<[k := Some (emptied R)]> (mu_regs s)) (br_mem R)) (<[k := x']> l) Z.
  Proof.
    intros. eapply minv_put; try done. intros id b Hb. eapply bl_kept; [done|]. apply elem_of_app. by right.
  Qed.
  Lemma hrel_of L r R : @Bytes5.brel U L r R -> hrel r (emptied R) (br_mem R).
  Proof. intros []. by split. Qed.
  Lemma oracle_emitted e evs : ev_oracle (emitted e evs) = ev_oracle e.
  Proof. done. Qed.

  Lemma mstep_ok s l Z o : minv s l Z -> mallowed be U l o ->
    exists s', mstep c o s = Ret (mref be U l o).1.1 s' /\ minv s' (mref be U l o).2 Z /\
      m_env (mu_mem s') = emitted (m_env (mu_mem s)) (mref be U l o).1.2.
  Proof using HU Hla.
    intros Hi Ha. destruct o as [|k o|k|i j]; cbn [mallowed mstep mref] in *.
    - eexists. split; [done|]. cbn [fst snd mu_mem]. split; [|by rewrite emitted_nil]. destruct Hi as [Hc Hh Hz Ho]. split; cbn.
      + apply Forall2_app; [done|]. repeat constructor. exists reg_default. split; [apply booked_start|]. split; [done|]. by split.
      + rewrite map_app, concat_app. cbn. by rewrite app_nil_r.
      + done.
      + done.
    - destruct Ha as (b&caps&Hl&Hc). rewrite Hl. cbn [fst snd].
      destruct (Forall2_lookup_r _ _ _ _ _ (mi_cells _ _ _ Hi) Hl) as (h&Hk&Hcell). destruct h as [h|]; [|done]. destruct Hcell as (r&Hb&Hcaps&Hr).
      pose proof (booked_env _ _ (m_env (mu_mem s)) Hb (mi_calm _ _ _ Hi)) as Hb1. pose proof (brel_focus _ _ _ _ _ _ Hi Hk Hr) as Hf.
      destruct (step_exact c U HU o _ _ Hb1 Hc) as (r'&E&Hb'&Ee&Ek). change (rpf (with_env r (m_env (mu_mem s)))) with (rpf r) in *. rewrite Hcaps in Ee, Ek.
      destruct (bo_tabs _ _ _ _ Hb1) as (T&Hok&_). destruct (step_sim c U HU Hla _ _ _ _ _ Hok Hc Hf _ _ E) as (R'&EB&Hf').
      eexists. split; [|split].
      + unfold bind, mu_with. rewrite Hk, EB. done.
      + eapply minv_stay; [exact Hi|exact Hk|exact Hl|exact Hf'| |].
        * rewrite Ee. apply (mi_calm _ _ _ Hi).
        * exists r'. split; [done|]. split; [done|]. by eapply hrel_of.
      + cbn [mu_mem]. rewrite (bl_env _ _ Hf'). by rewrite Ee.
    - destruct Ha as (b&caps&Hl&Hcalm). rewrite Hl. cbn [fst snd].
      destruct (Forall2_lookup_r _ _ _ _ _ (mi_cells _ _ _ Hi) Hl) as (h&Hk&Hcell). destruct h as [h|]; [|done]. destruct Hcell as (r&Hb&Hcaps&Hr).
      pose proof (booked_env _ _ (m_env (mu_mem s)) Hb (mi_calm _ _ _ Hi)) as Hb1. pose proof (brel_focus _ _ _ _ _ _ Hi Hk Hr) as Hf.
      destruct (drop_exact c U _ _ Hb1 Hcalm) as (r1&E1&Ee). rewrite <- pk_caps in Ee. change (rpf (with_env r (m_env (mu_mem s)))) with (rpf r) in Ee. rewrite Hcaps in Ee.
      destruct (bo_tabs _ _ _ _ Hb1) as (T&Hok&_).
      destruct (b_drop_own c U HU Hla _ _ _ _ _ Hf Hok Hcalm) as (r'&R'&E&EB&Hf'&Hnil).
      assert (r1 = r') as -> by congruence.
      eexists. split; [|split].
      + unfold bind, mu_with. rewrite Hk, EB. done.
      + eapply minv_put; [exact Hi|exact Hk|exact Hl|exact Hf'| |by rewrite Hnil| |done];
          [|intros id y Hy; apply (bl_kept _ _ Hf'), elem_of_app; by right].
        rewrite Ee. apply (mi_calm _ _ _ Hi).
      + cbn [mu_mem]. rewrite (bl_env _ _ Hf'). by rewrite Ee.
    - destruct Ha as (x&y&Hx'&Hy'). assert (Hx : @lookup nat cell (list cell) _ i l = Some (Some x)) by exact Hx'. assert (Hy : @lookup nat cell (list cell) _ j l = Some (Some y)) by exact Hy'. rewrite Hx, Hy. cbn [fst snd]. destruct Hi as [Hc Hh Hz Ho].
      destruct (Forall2_lookup_r _ _ _ _ _ Hc Hx) as (hx&Hkx&Hcx). destruct (Forall2_lookup_r _ _ _ _ _ Hc Hy) as (hy&Hky&Hcy).
      destruct hx as [hx|]; [|done]. destruct hy as [hy|]; [|done]. rewrite Hkx, Hky. eexists. split; [done|]. cbn [mu_mem]. split; [|by rewrite emitted_nil].
      split; cbn [mu_regs mu_mem]; [by do 2 (apply Forall2_insert; [|done])| |done|done].
      eapply heap_ok_perm; [|exact Hh]. f_equiv. apply concat_perm. change (map hown (mu_regs s)) with (hown <$> mu_regs s). 
      apply Permutation_map. symmetry. by apply swap_perm.
  Qed.
  Lemma mrun_ok ops : forall s l Z, minv s l Z -> mwithin be U ops l ->
    exists s', mrun c ops s = Ret (map fst (mref_run be U ops l).1) s' /\ minv s' (mref_run be U ops l).2 Z /\
      m_env (mu_mem s') = emitted (m_env (mu_mem s)) (concat (map snd (mref_run be U ops l).1)).
  Proof using HU Hla.
    induction ops as [|o ops IH]; intros s l Z Hi Hw; cbn [mrun mref_run mwithin] in *.
    { exists s. cbn. by rewrite emitted_nil. }
    destruct Hw as [Ha Hw]. destruct (mstep_ok s l Z o Hi Ha) as (s1&E1&H1&Ee1). destruct (mref be U l o) as [[x evs] l1]. cbn [fst snd] in *.
    destruct (IH _ _ _ H1 Hw) as (s2&E2&H2&Ee2). destruct (mref_run be U ops l1) as [xs l2]. cbn [fst snd map concat] in *.
    exists s2. rewrite (bind_Ret _ _ _ _ _ E1), (bind_Ret _ _ _ _ _ E2). split; [done|]. split; [done|]. by rewrite Ee2, Ee1, emitted_app.
  Qed.
  Lemma minv_start place : minv (multi_default place) [] [].
  Proof. split; [constructor| |by intros ? ? ?%elem_of_nil|done]. cbn. split; [constructor| |]; intros id; rewrite ?lookup_empty, ?elem_of_nil; [|done]. split; [by intros [? ?]|done]. Qed.
  Lemma all_gone s l Z : minv s l Z -> Forall (fun x => x = None) l -> concat (map hown (mu_regs s)) = [].
  Proof.
    intros Hi Hall. destruct (concat (map hown (mu_regs s))) as [|id L] eqn:E; [done|]. exfalso.
    assert (Hs : id ∈ concat (map hown (mu_regs s))) by (rewrite E; left).
    apply elem_of_list_In, in_concat in Hs as (l'&Hl&Hid). apply in_map_iff in Hl as (h&<-&Hh%elem_of_list_In).
    apply elem_of_list_lookup in Hh as [k Hk]. destruct (Forall2_lookup_l _ _ _ _ _ (mi_cells _ _ _ Hi) Hk) as (x&Hx&Hc).
    pose proof (proj1 (Forall_forall _ _) Hall _ (elem_of_list_lookup_2 _ _ _ Hx)) as ->. by destruct h.
  Qed.
  Lemma together place ops : mwithin be U ops [] ->
    exists s, mrun c ops (multi_default place) = Ret (map fst (mref_run be U ops []).1) s /\
      ev_trace (m_env (mu_mem s)) = concat (map snd (mref_run be U ops []).1) /\
      (Forall (fun x => x = None) (mref_run be U ops []).2 -> m_blocks (mu_mem s) = ∅).
  Proof using HU Hla.
    intros Hw. destruct (mrun_ok ops _ _ _ (minv_start place) Hw) as (s&E&Hi&Ee). exists s. split; [done|]. split; [by rewrite Ee|].
    intros Hall. apply map_empty. intros id. apply eq_None_not_Some. intros Hs. apply (ho_dom _ _ _ (mi_heap _ _ _ Hi)) in Hs.
    rewrite (all_gone _ _ _ Hi Hall) in Hs. cbn in Hs. by apply elem_of_nil in Hs.
  Qed.
End main.
