(** Proofs for C59, continued: the theorems, and client code over bytes. *)
From Verif Require Import RegModel SpecTrace SpecEntity EntityProofs EntityTable SearchProofs DescrProofs MonadProofs ArchProofs ArchOps ArchOps2 ArchOps3 AregProofs IterProofs
  RegProofs RegOps RegOps2 RegOps3 RegIter RegMut RegExact Refine Ref Sizes Observe ByteReg Bytes Bytes2 Bytes3 Bytes4 Bytes5 Bytes6 Bytes7 Bytes8 Codes SpecBytes SpecBase SpecWorld SpecRef SpecCode.
Local Open Scope nat_scope.

(** ** References to elements *)
Section elements.
  Context {Fm : family} (c : cfg) (U : list ctype) (HU : universe (big c) U) (r : reg) (w : world) (I O : list value) (Hh : history c U r w I O).
  Notation be := (big c).
  Lemma matching_like G : in_U U G -> gvalid be G ->
    exists refs items, iter_entity_components_matching_mut c G r = Rd (Some refs) /\ iter_components_matching_mut c G r = Rd (Some (map snd refs)) /\
      iter_entity_components_matching c G r = Rd (Some items) /\ map fst refs = map fst items /\ visits w (matching G) G items /\
      like_list c U r w I O (concat (concat (map snd refs))) (concat (map (owners G) (map fst items))) (concat (concat (map snd items))).
  Proof.
    intros HG Hv. destruct (matching_aimed c U HU r w I O Hh G HG Hv) as (refs&items&E1&E2&E3&E4&E5&Ha). exists refs, items. do 5 (split; [done|]). by apply aimed_like.
  Qed.
  Lemma filtered_like G f : in_U U G -> gvalid be G -> respects f ->
    exists refs items, iter_filtered_entity_components_matching_mut c G f r = Rd (Some refs) /\ iter_filtered_components_matching_mut c G f r = Rd (Some (map snd refs)) /\
      iter_filtered_entity_components_matching c G f r = Rd (Some items) /\ map fst refs = map fst items /\ visits w (filtered U G f) G items /\
      like_list c U r w I O (concat (concat (map snd refs))) (concat (map (owners G) (map fst items))) (concat (concat (map snd items))).
  Proof.
    intros HG Hv Hf. destruct (filtered_aimed c U HU r w I O Hh G f HG Hv Hf) as (refs&items&E1&E2&E3&E4&E5&Ha). exists refs, items. do 5 (split; [done|]). by apply aimed_like.
  Qed.
  Lemma exact_like G : in_U U G -> gvalid be G -> known be U G ->
    exists refs it, iter_entity_components_exact_mut c G r = Rd refs /\ iter_components_exact_mut c G r = Rd refs.2 /\
      iter_entity_components_exact c G r = Rd it /\ refs.1 = it.1 /\ visits w (is_exactly be U G) G [it] /\
      like_list c U r w I O (concat refs.2) (owners G it.1) (concat it.2).
  Proof.
    intros HG Hv Hk. destruct (exact_aimed c U HU r w I O Hh G HG Hv Hk) as (refs&items&E1&E2&E3&E4&E5&Ha). exists refs, items. do 5 (split; [done|]). by apply aimed_like.
  Qed.
  Lemma tuple_like G h : in_U U G -> gvalid be G ->
    exists res, get_components_mut c G h r = Rd res /\ get_components c G h r = Rd (values_of w h G) /\
      match res, values_of w h G with
      | Some ls, Some vs => like_list c U r w I O ls (map (fun C => (h, C)) G) vs
      | None, None => True
      | _, _ => False
      end.
  Proof.
    intros HG Hv. destruct (tuple_aimed c U HU r w I O Hh G h HG Hv) as (res&E1&E2&Ha). exists res. do 2 (split; [done|]).
    destruct res, (values_of w h G); try done. by apply aimed_like.
  Qed.
  Lemma single_like C h : C ∈ U ->
    exists res, get_component_mut c C h r = Rd res /\ get_component c C h r = Rd (value_of w h C) /\
      match res, value_of w h C with
      | Some l, Some v => like_list c U r w I O [l] [(h, C)] [v]
      | None, None => True
      | _, _ => False
      end.
  Proof.
    intros HC. destruct (single_aimed c U HU r w I O Hh C h HC) as (res&E1&E2&Ha). exists res. do 2 (split; [done|]).
    destruct res, (value_of w h C); try done. by apply aimed_like.
  Qed.
End elements.

(** ** References to bytes *)
Lemma lr_fun ds As l b1 b2 : lr ds As l b1 -> lr ds As l b2 -> b1 = b2.
Proof. intros (d&A&D&id&?&?&?&?&->) (d'&A'&D'&id'&?&?&?&?&->). by simplify_eq. Qed.

Section bytes.
  Context {Fm : family} (c : cfg) (U : list ctype) (HU : universe (big c) U) (Hla : laid_out U).
  Notation be := (big c).
  Notation brel := (@Bytes5.brel U []).
  Let Hst : strict (ids_of U) := proj1 HU.
  Let Hsm : Forall small U := proj1 (proj2 HU).

  Lemma look_sim r R l bl v : brel r R -> lr (descs r) (br_archs R) l bl -> look_loc l r = Ret v r -> b_look bl R = Ret v R.
  Proof using HU.
    intros H Hl E. unfold look_loc in E.
    assert (Hx : (let! a := rm_rd (arch_at l.1.1) in lift_rd (raw_cell a l.1.2 l.2)) r = Ret (Some v) r).
    { unfold bind, rm_rd in *. destruct (arch_at l.1.1 r) as [a| |]; [|done..]. cbn [lift_rd ret] in *. unfold ret in *.
      destruct (raw_cell a l.1.2 l.2) as [[ov|]| |]; [|done..]. cbn [lift_rd] in *. unfold ret in *. by injection E as ->. }
    destruct (read_loc Hsm _ _ _ _ _ H Hl Hx) as [El Eb]. unfold b_look, bind, bq_mrd. rewrite El. cbn [lift_rd]. unfold ret. by rewrite Eb.
  Qed.
  Lemma get_mut_sim r R C h l : brel r R -> C ∈ U -> get_component_mut c C h r = Rd (Some l) ->
    exists bl, b_get_mut c C h R = Rd (Some bl) /\ lr (descs r) (br_archs R) l bl.
  Proof using HU Hla.
    intros H HC Ex. unfold get_component_mut in Ex. unfold b_get_mut. rewrite (entry_same _ _ _ _ H). destruct (entry_of c r h) as [e|]; [|done].
    unfold arch_at in Ex. unfold b_arch_at. fold (archs r) in Ex. destruct (archs r !! e_arch c e) as [a|] eqn:Ea; [|done]. destruct (brel_at _ _ _ _ H Ea) as (A&EA&Hr). rewrite EA. cbn [rbind] in *.
    rewrite (ar_desc _ _ _ Hr). destruct (negb _); [done|].
    destruct (get_component_unchecked_mut C (e_row e) a) as [[idx row]| |] eqn:Eg; cbn [rbind] in Ex; [|done..]. injection Ex as <-.
    destruct (get_component_mut_sim Hst Hsm Hla _ _ _ _ _ _ Hr HC Eg) as (bl&->&Hl). cbn [rbind]. exists bl. split; [done|]. by eapply lrel_lr.
  Qed.
  Lemma b_serve_ok S ls bls who ds As : Forall2 (points S) ls who -> NoDup who -> Forall2 (lr ds As) ls bls -> forall cd vs r T w R,
    reg_ok be U r T w -> skel T = S -> Forall2 (fun x v => value_of w x.1 x.2 = Some v) who vs ->
    brel r R -> descs r = ds -> br_archs R = As -> typed_code (map snd who) cd -> exists R',
      b_serve bls cd R = Ret (on_list vs cd).1 R' /\ brun c (writes who vs cd) R = Ret (map (fun v => OutVal (Some v)) (taken vs cd)) R' /\
      forall b, within be U (writes who vs cd) b.
  Proof using HU Hla.
    intros Hps Hnd Hlr cd. induction cd as [|p k IH|p v k IH]; intros vs r T w R H HS Hvs Hb Hds HAs Ht.
    { exists R. done. }
    all: cbn [typed_code] in Ht; destruct Ht as (C&HC&Ht); change (map snd who) with (snd <$> who) in HC; rewrite list_lookup_fmap in HC;
      destruct (who !! p) as [x|] eqn:Hx; [|done]; injection HC as <-;
      destruct (Forall2_lookup_r _ _ _ _ _ Hps Hx) as (l&Hl&Hp); destruct (Forall2_lookup_l _ _ _ _ _ Hvs Hx) as (old&Ho&Hold);
      destruct (Forall2_lookup_l _ _ _ _ _ Hlr Hl) as (bl&Hbl&Hlb);
      rewrite <- HS in Hp; destruct (point_look c U HU _ _ _ _ _ _ H Hp Hold) as [El Hfo].
    - destruct (IH old vs r T w R H HS Hvs Hb Hds HAs (Ht _ Hfo)) as (R'&E1&E2&E3). exists R'. cbn [b_serve on_list writes taken]. rewrite Hbl, Ho. cbn [fst snd].
      split; [|done]. rewrite <- Hds, <- HAs in Hlb. rewrite (bind_Ret _ _ _ _ _ (look_sim _ _ _ _ _ Hb Hlb El)), (bind_Ret _ _ _ _ _ E1). done.
    - destruct Ht as [Hfv Ht]. destruct (point_set c U HU _ _ _ _ _ _ _ H Hp Hold Hfv) as (r1&T1&Er&Es&H1&HS1).
      destruct (point_row c U HU _ _ _ _ _ H Hp) as (?&?&?&?&?&?&_&_&_&_&_&_&_&Hw&HCU&_).
      assert (Hk : NoDup (map key who)).
      { apply (key_inj c U HU); [|done]. intros y [q Hq]%elem_of_list_lookup. destruct (Forall2_lookup_r _ _ _ _ _ Hps Hq) as (lq&_&Hpq). rewrite <- HS in Hpq.
        by destruct (point_row c U HU _ _ _ _ _ H Hpq) as (_&_&_&_&_&_&_&_&_&_&_&_&_&_&?&_). }
      destruct (get_mut_sim _ _ _ _ _ Hb HCU (point_mut c U HU _ _ _ _ _ H Hp)) as (bl'&Eg&Hlb'). rewrite Hds, HAs in Hlb'.
      rewrite (lr_fun _ _ _ _ _ Hlb' Hlb) in Eg. clear bl' Hlb'.
      destruct (wsim_replace Hsm _ _ _ _ v Hlb _ _ _ _ Hb Hds HAs Er) as (R1&ER&Hb1&Hds1&HAs1).
      destruct (IH old (<[p := v]> vs) r1 T1 (put1 x v w) R1 H1 (eq_trans HS1 HS)) as (R'&E1&E2&E3); [by apply values_put1|done..|by apply Ht|].
      exists R'. cbn [b_serve on_list writes taken map]. rewrite Hbl, Ho, Hx. cbn [fst snd brun]. split; [|split].
      + rewrite (bind_Ret _ _ _ _ _ ER), (bind_Ret _ _ _ _ _ E1). done.
      + assert (Eb : bstep c (OpSet x.2 x.1 v) R = Ret (OutVal (Some old)) R1).
        { cbn [bstep]. unfold bind at 1, bq_rd. rewrite Eg. cbn [lift_rd]. unfold ret at 1. by rewrite (bind_Ret _ _ _ _ _ ER). }
        rewrite (bind_Ret _ _ _ _ _ Eb), (bind_Ret _ _ _ _ _ E2). done.
      + intros b. cbn [within]. split; [done|]. apply E3.
  Qed.
  Lemma within_app ops1 ops2 b : within be U ops1 b -> (forall b', within be U ops2 b') -> within be U (ops1 ++ ops2) b.
  Proof. revert b. induction ops1 as [|o ops IH]; intros b H1 H2; cbn [app within] in *; [done|]. destruct H1. split; [done|]. by apply IH. Qed.
  Lemma brun_app ops1 ops2 s o1 s1 : brun c ops1 s = Ret o1 s1 -> brun c (ops1 ++ ops2) s = (let! o2 := brun c ops2 in ret (o1 ++ o2)) s1.
  Proof.
    revert s o1. induction ops1 as [|o ops IH]; intros s o1 E; cbn [brun app] in *.
    - injection E as <- <-. unfold bind. by destruct (brun c ops2 s).
    - apply bind_Ret_inv in E as (x&s2&E1&E). apply bind_Ret_inv in E as (xs&s3&E2&E). injection E as <- <-.
      rewrite (bind_Ret _ _ _ _ _ E1). pose proof (IH _ _ E2) as E3. unfold bind in *. rewrite E3. by destruct (brun c ops2 s3).
  Qed.
  Lemma aimed_bytes place ops out r w R ls bls who vs : within be U ops book_empty -> brun c ops (breg_default place) = Ret out R -> brel r R ->
    aimed c U r w ls who vs -> Forall2 (lr (descs r) (br_archs R)) ls bls -> like_list_bytes c U place ops out R bls who vs.
  Proof using HU Hla.
    intros Hw Er Hb (T&H&Hp&Hn&Hv) Hl cd Ht. destruct (b_serve_ok _ _ _ _ _ _ Hp Hn Hl cd vs r T w R H eq_refl Hv Hb eq_refl eq_refl Ht) as (R'&E1&E2&E3).
    exists R'. split; [done|]. split; [by apply within_app|]. rewrite (brun_app _ _ _ _ _ Er). by rewrite (bind_Ret _ _ _ _ _ E2).
  Qed.
  Lemma elr_refs ds As (refs : list (list N * list (list loc))) brefs : Forall2 (elr ds As) refs brefs ->
    map fst brefs = map fst refs /\ Forall2 (lr ds As) (concat (concat (map snd refs))) (concat (concat (map snd brefs))).
  Proof.
    induction 1 as [|x y refs brefs [E Hx] H [IH1 IH2]]; [split; [done|constructor]|]. cbn [map concat]. split; [by rewrite E, IH1|].
    rewrite !concat_app. apply Forall2_app; [|done]. by apply Forall2_concat2.
  Qed.
  Lemma map_snd_eq ds As (l : list (list N * list (list loc))) bl bs : Forall2 (elr ds As) l bl -> Forall2 (Forall2 (Forall2 (lr ds As))) (map snd l) bs -> bs = map snd bl.
  Proof.
    intros H. revert bs. induction H as [|x y l bl [_ Hx] H IH]; intros bs Hb; cbn [map] in Hb; inversion Hb as [|? z ? bs' Hz Hb']; subst; [done|]. cbn [map]. f_equal; [|by apply IH].
    clear -Hx Hz. revert z Hz. induction Hx as [|a b p q Hab H IH]; intros z Hz; inversion Hz as [|? d ? z' Hd Hz']; subst; [done|]. f_equal; [|by apply IH].
    clear -Hab Hd. revert d Hd. induction Hab as [|a b p q Hab H IH]; intros d Hd; inversion Hd as [|? e ? d' He Hd']; subst; [done|]. f_equal; [by eapply lr_fun|by apply IH].
  Qed.

  Section program.
    Context (place : N -> N) (ops : list op) (out : list output) (R : breg).
    Context (Hw : within be U ops book_empty) (Er : brun c ops (breg_default place) = Ret out R).
    Lemma matching_bytes G : in_U U G -> gvalid be G ->
      exists refs items, b_iter_entity_matching_mut c G R = Rd (Some refs) /\ b_iter_matching_mut c G R = Rd (Some (map snd refs)) /\
        b_iter_entity_matching c G R = Rd (Some items) /\ map fst refs = map fst items /\
        like_list_bytes c U place ops out R (concat (concat (map snd refs))) (concat (map (owners G) (map fst items))) (concat (concat (map snd items))).
    Proof using HU Hla Hw Er.
      intros HG Hv. destruct (brun_history c U HU Hla place ops Hw) as (r&R1&w&I&O&_&Eb&Hh&H). rewrite Er in Eb. injection Eb as _ <-.
      destruct (gspec_valid c G Hv) as [s Hg]. destruct (matching_aimed c U HU r w I O Hh G HG Hv) as (refs&items&E1&E2&E3&E4&_&Ha).
      destruct (iter_emut_sim c U HU Hla _ _ _ _ _ _ Hg HG H E1) as ([brefs|]&F1&Q1); [|done]. destruct (iter_mut_sim c U HU Hla _ _ _ _ _ _ Hg HG H E2) as ([brefs2|]&F2&Q2); [|done].
      cbn [oorel] in Q1, Q2. pose proof (map_snd_eq _ _ _ _ _ Q1 Q2) as ->. destruct (elr_refs _ _ _ _ Q1) as [Ef Hl]. exists brefs, items. split; [exact F1|]. split; [exact F2|]. split; [|split].
      - eapply (slices_collect_eq (U := U) (L := [])); [exact H| |exact E3]. intros a A x Hr. by apply (entity_fuzzy_slices_sim Hst Hsm Hla _ _ _ Hg HG).
      - congruence.
      - by eapply aimed_bytes.
    Qed.
    Lemma filtered_bytes G f : in_U U G -> gvalid be G -> respects f ->
      exists refs items, b_iter_entity_filtered_mut c G f R = Rd (Some refs) /\ b_iter_filtered_mut c G f R = Rd (Some (map snd refs)) /\
        b_iter_entity_filtered c G f R = Rd (Some items) /\ map fst refs = map fst items /\
        like_list_bytes c U place ops out R (concat (concat (map snd refs))) (concat (map (owners G) (map fst items))) (concat (concat (map snd items))).
    Proof using HU Hla Hw Er.
      intros HG Hv Hf. destruct (brun_history c U HU Hla place ops Hw) as (r&R1&w&I&O&_&Eb&Hh&H). rewrite Er in Eb. injection Eb as _ <-.
      destruct (gspec_valid c G Hv) as [s Hg]. destruct (filtered_aimed c U HU r w I O Hh G f HG Hv Hf) as (refs&items&E1&E2&E3&E4&_&Ha).
      destruct (iter_emut_sim c U HU Hla _ _ _ _ _ _ Hg HG H E1) as ([brefs|]&F1&Q1); [|done]. destruct (iter_mut_sim c U HU Hla _ _ _ _ _ _ Hg HG H E2) as ([brefs2|]&F2&Q2); [|done].
      cbn [oorel] in Q1, Q2. pose proof (map_snd_eq _ _ _ _ _ Q1 Q2) as ->. destruct (elr_refs _ _ _ _ Q1) as [Ef Hl]. exists brefs, items. split; [exact F1|]. split; [exact F2|]. split; [|split].
      - eapply (slices_collect_eq (U := U) (L := [])); [exact H| |exact E3]. intros a A x Hr. by apply (entity_fuzzy_slices_sim Hst Hsm Hla _ _ _ Hg HG).
      - congruence.
      - by eapply aimed_bytes.
    Qed.
    Lemma exact_bytes G : in_U U G -> gvalid be G -> known be U G ->
      exists refs it, b_entity_exact_mut c G R = Rd refs /\ b_exact_mut c G R = Rd refs.2 /\ b_entity_exact c G R = Rd it /\ refs.1 = it.1 /\
        like_list_bytes c U place ops out R (concat refs.2) (owners G it.1) (concat it.2).
    Proof using HU Hla Hw Er.
      intros HG Hv Hkn. destruct (brun_history c U HU Hla place ops Hw) as (r&R1&w&I&O&_&Eb&Hh&H). rewrite Er in Eb. injection Eb as _ <-.
      destruct (exact_aimed c U HU r w I O Hh G HG Hv Hkn) as (refs&it&E1&E2&E3&E4&_&Ha). destruct (history_ok c U HU _ _ _ _ Hh) as (T&D&Hok&_).
      unfold iter_entity_components_exact_mut in E1. unfold iter_entity_components_exact in E3. unfold b_exact_mut, b_entity_exact_mut, b_entity_exact.
      destruct (exact_sim c U HU _ _ _ _ _ Hok HG Hv Hkn H) as [(Ef&->)|(i&a&A&s&Ef&->&Hi&HA&Hr&Hg&Hcs)]; rewrite Ef in E1, E3; cbn [rbind] in *.
      - injection E1 as <-. injection E3 as <-. exists ([], empty_slices G), ([], empty_slices G). do 4 (split; [done|]). eapply aimed_bytes; [done..|exact Ha|].
        apply Forall2_concat2, empty_lr.
      - destruct (entities a) as [es| |] eqn:Ee; cbn [rbind] in *; [|done..].
        destruct (get_slices_exact_mut c G a) as [cols| |] eqn:Ec; cbn [rbind] in *; [|done..]. destruct (get_slices_exact c G a) as [vcols| |] eqn:Ev; cbn [rbind] in *; [|done..].
        injection E1 as <-. injection E3 as <-. rewrite (entities_sim _ _ _ _ Hr Ee). cbn [rbind].
        destruct (slices_exact_mut_sim Hsm Hla _ _ _ Hg HG _ _ _ _ _ eq_refl Hcs Hr Ec) as (bcols&->&Hb). rewrite (slices_exact_sim Hsm Hla _ _ _ Hg HG _ _ _ _ _ eq_refl Hcs Hr Ev). cbn [rbind].
        exists (es, bcols), (es, vcols). do 4 (split; [done|]). eapply aimed_bytes; [done..|exact Ha|]. cbn [snd]. apply Forall2_concat2. by eapply locate_lr.
    Qed.
    Lemma tuple_bytes G h : in_U U G -> gvalid be G ->
      exists res vals, b_get_all_mut c G h R = Rd res /\ b_get_all c G h R = Rd vals /\
        match res, vals with
        | Some ls, Some vs => like_list_bytes c U place ops out R ls (map (fun C => (h, C)) G) vs
        | None, None => True
        | _, _ => False
        end.
    Proof using HU Hla Hw Er.
      intros HG Hv. destruct (brun_history c U HU Hla place ops Hw) as (r&R1&w&I&O&_&Eb&Hh&H). rewrite Er in Eb. injection Eb as _ <-.
      destruct (tuple_aimed c U HU r w I O Hh G h HG Hv) as (res&E1&E2&Ha). destruct (gspec_valid c G Hv) as [s Hg].
      unfold get_components_mut in E1. unfold get_components in E2. unfold b_get_all_mut, b_get_all. rewrite (entry_same _ _ _ _ H). destruct (entry_of c r h) as [e|].
      2: { exists None, None. done. }
      unfold arch_at in E1, E2. unfold b_arch_at. fold (archs r) in E1, E2. destruct (archs r !! e_arch c e) as [a|] eqn:Ea; [|done]. destruct (brel_at _ _ _ _ H Ea) as (A&EA&Hr). rewrite EA. cbn [rbind] in *.
      rewrite (ar_desc _ _ _ Hr). destruct (negb _); [by exists None, None|].
      destruct (get_fuzzy_components_mut c G (e_row e) a) as [ls| |] eqn:Eg; cbn [rbind] in E1; [|done..]. injection E1 as <-.
      destruct (get_fuzzy_components c G (e_row e) a) as [vs| |] eqn:Ev; cbn [rbind] in E2; [|done..]. injection E2 as E2. rewrite <- E2 in Ha.
      destruct (fuzzy_components_mut_sim Hst Hsm Hla _ _ _ Hg HG _ _ _ _ _ _ eq_refl Hr Eg) as (bls&->&Hl).
      rewrite (fuzzy_components_sim Hst Hsm Hla _ _ _ Hg HG _ _ _ _ _ _ eq_refl Hr Ev). cbn [rbind]. exists (Some bls), (Some vs). do 2 (split; [done|]).
      eapply aimed_bytes; [done..|exact Ha|]. apply Forall2_fmap_l. eapply Forall2_impl; [exact Hl|]. intros [idx row] bl Hb. by eapply lrel_lr.
    Qed.
    Lemma single_bytes C h : C ∈ U ->
      exists res val, b_get_mut c C h R = Rd res /\ b_get c C h R = Rd val /\
        match res, val with
        | Some l, Some v => like_list_bytes c U place ops out R [l] [(h, C)] [v]
        | None, None => True
        | _, _ => False
        end.
    Proof using HU Hla Hw Er.
      intros HC. destruct (brun_history c U HU Hla place ops Hw) as (r&R1&w&I&O&_&Eb&Hh&H). rewrite Er in Eb. injection Eb as _ <-.
      destruct (single_aimed c U HU r w I O Hh C h HC) as (res&E1&E2&Ha).
      unfold get_component_mut in E1. unfold get_component in E2. unfold b_get_mut, b_get. rewrite (entry_same _ _ _ _ H). destruct (entry_of c r h) as [e|].
      2: { exists None, None. done. }
      unfold arch_at in E1, E2. unfold b_arch_at. fold (archs r) in E1, E2. destruct (archs r !! e_arch c e) as [a|] eqn:Ea; [|done]. destruct (brel_at _ _ _ _ H Ea) as (A&EA&Hr). rewrite EA. cbn [rbind] in *.
      rewrite (ar_desc _ _ _ Hr). destruct (negb _); [by exists None, None|].
      destruct (get_component_unchecked_mut C (e_row e) a) as [[idx row]| |] eqn:Eg; cbn [rbind] in E1; [|done..]. injection E1 as <-.
      destruct (get_component_unchecked C (e_row e) a) as [v| |] eqn:Ev; cbn [rbind] in E2; [|done..]. injection E2 as E2. rewrite <- E2 in Ha.
      destruct (get_component_mut_sim Hst Hsm Hla _ _ _ _ _ _ Hr HC Eg) as (bl&->&Hl). rewrite (get_component_sim Hst Hsm Hla _ _ _ _ _ _ Hr HC Ev). cbn [rbind].
      exists (Some bl), (Some v). do 2 (split; [done|]). eapply aimed_bytes; [done..|exact Ha|]. constructor; [|constructor]. by eapply lrel_lr.
    Qed.
  End program.
End bytes.
