(** Proofs for C56: an archetype on its own is a growable table of rows. *)
From Verif Require Import ArchClient Instances SpecTrace SearchProofs DescrProofs MonadProofs ArchProofs ArchOps ArchOps2 ArchOps3 RegOps Sizes Events Events2 Overflow SpecBase SpecWorld SpecEvents SpecRows.
Local Open Scope nat_scope.

(** ** Any capacity *)
Definition any_cap (cap : nat) : Prop := 0 < cap /\ (N.of_nat cap <= 16777215)%N.
Lemma any_cap_pos cap : any_cap cap -> 0 < cap. Proof. by intros []. Qed.
Lemma any_cap_double cap : any_cap cap -> (N.of_nat cap < 8388608)%N -> any_cap (cap + cap) /\ (N.of_nat (cap + cap) < 16777215)%N.
Proof. intros [H1 H2] H. unfold any_cap. lia. Qed.
Lemma any_cap_128 : any_cap 128. Proof. by split; [lia|]. Qed.
Local Instance any_caps : caps :=
  {| capok := any_cap; capok_pos := any_cap_pos; capok_double := any_cap_double; capok_128 := any_cap_128 |}.
Notation aok := (@arch_ok any_caps).

(** ** Rows *)
Lemma put_cons C G v vs m : ct_id C ∉ ids_of G -> put (C :: G) (v :: vs) m = put G vs (<[ct_id C := v]> m).
Proof.
  intros Hn. unfold put, vmap. cbn [map zip zip_with list_to_map foldr]. rewrite <- insert_union_l. apply insert_union_r.
  apply not_elem_of_list_to_map_1. intros Hin. apply Hn. apply elem_of_list_fmap in Hin as ([x y]&->&Hxy).
  by apply elem_of_zip_l in Hxy.
Qed.
Lemma put_nil m : put [] [] m = m. Proof. unfold put, vmap. cbn. apply (left_id_L ∅ (∪)). Qed.
Lemma pick_tuple cs G m : full cs m -> (forall C, C ∈ G -> C ∈ cs) -> tuple_of m G (pick m G).
Proof.
  intros Hf Hsub. unfold tuple_of, pick. induction G as [|C G IH]; [constructor|]. cbn [omap list_omap].
  destruct (m !! ct_id C) as [v|] eqn:Ev.
  - constructor; [done|]. apply IH. intros C' H'. apply Hsub. by right.
  - exfalso. assert (is_Some (m !! ct_id C)) as [? ?]; [|congruence]. apply Hf. apply elem_of_ids. exists C. split; [apply Hsub; left|done].
Qed.
Lemma columns_of cs G (rows : list row) : Forall (row_ok cs) rows -> (forall C, C ∈ G -> C ∈ cs) ->
  Forall2 (col_of rows) G (columns rows G).
Proof.
  intros HF Hsub. unfold columns. apply Forall2_fmap_r. apply Forall_Forall2_diag. apply Forall_forall. intros C HC.
  assert (Hin : C ∈ cs) by auto. unfold col_of. clear Hsub HC G. induction HF as [|x rows [Hf _] HF IH]; [constructor|].
  assert (is_Some (x.2 !! ct_id C)) as [v Hv]. { apply Hf, elem_of_ids. by exists C. }
  destruct x as [h m]. cbn [snd] in Hv. cbn. rewrite Hv. by constructor.
Qed.
Lemma exchange_swapl {A} i j (l : list A) : i <> j -> exchange i j l = swapl i j l.
Proof.
  intros Hn. unfold exchange, swapl. destruct (l !! i) as [x|] eqn:Hi, (l !! j) as [y|] eqn:Hj; try done. by apply list_insert_commute.
Qed.
Lemma exchange_id {A} i (l : list A) : exchange i i l = l.
Proof. unfold exchange. destruct (l !! i) as [x|] eqn:Hi; [|done]. rewrite list_insert_insert. by apply list_insert_id. Qed.
Lemma cut_remove {A} i (l : list A) : i < length l -> cut i l = remove_row i l.
Proof.
  intros Hi. unfold cut. destruct (last l) as [x|] eqn:El; [|by apply last_None in El as ->].
  rewrite last_lookup in El. replace (pred (length l)) with (length l - 1) in El by lia. unfold remove_row, swapl. rewrite El.
  destruct (lookup_lt_is_Some_2 l i Hi) as [y ->]. rewrite (take_insert (<[i:=x]> l)) by lia. done.
Qed.

(** A valid tuple type of the component types [cs]. *)
Lemma gvalid_perm be G G' : G ≡ₚ G' -> gvalid be G -> gvalid be G'.
Proof.
  intros Hp (Hnd&Hl&l&Hlp&Hs&Hne). assert (ids_of G ≡ₚ ids_of G') as Hp' by by rewrite Hp.
  split; [by rewrite <- Hp'|]. split; [by rewrite <- (Permutation_length Hp)|]. exists l. split; [|done]. by rewrite Hlp.
Qed.
Lemma gspec_sorted be cs G : strict (ids_of cs) -> gvalid be cs -> G ≡ₚ cs -> gspec be G cs.
Proof.
  intros Hst Hg0 Hp. assert (gvalid be G) as Hv by (by eapply gvalid_perm; [symmetry|]).
  apply (gvalid_iff (Cfg true be)) in Hv. destruct (gspec_exists _ _ Hv) as [s Hs].
  assert (s = cs) as <-; [|done].
  assert (Hps : s ≡ₚ cs) by (by rewrite (gs_perm _ _ _ Hs)).
  assert (E : ids_of s = ids_of cs). { apply strict_perm_unique; [apply Hs|done|by rewrite Hps]. }
  apply list_eq_same_length with (length s); [by symmetry; apply Permutation_length|done|].
  intros i x y Hi Hx Hy. pose proof (ids_of_lookup _ _ _ Hx) as A. pose proof (ids_of_lookup _ _ _ Hy) as B.
  rewrite E in A. eapply ids_inj with (G := cs); [by apply strict_NoDup| |by eapply elem_of_list_lookup_2|congruence].
  rewrite <- Hps. by eapply elem_of_list_lookup_2.
Qed.
Lemma tuple_desc be cs G : storable be cs -> G ≡ₚ cs ->
  desc_ok (gd_arch (group_desc be G)) cs /\ ad_id (gd_arch (group_desc be G)) = tuple_archetype_id be (ids_of cs).
Proof.
  intros (Hst&Hsm&Hg) Hp. pose proof (gspec_sorted be cs G Hst Hg Hp) as Hs. split; [|apply Hs].
  split; [apply group_arch_wf|apply Hs|apply Hs|done|apply Hs].
Qed.

Section table.
  Context (c : cfg) (cs : list ctype) (d : adesc) (Hd : desc_ok d cs).
  Notation be := (big c).

  Lemma cs_strict : strict (ids_of cs).
  Proof. pose proof (do_wf _ _ Hd) as (_&_&Hs). by rewrite (do_comps _ _ Hd), ids_cdesc_of in Hs. Qed.
  Lemma cs_small : Forall small cs. Proof. apply Hd. Qed.
  Lemma exact_gspec G : gvalid be cs -> G ≡ₚ cs -> gspec be G cs.
  Proof. intros Hg Hp. apply gspec_sorted; [apply cs_strict|done|done]. Qed.
  Lemma exact_in G : G ≡ₚ cs -> forall C, C ∈ G -> C ∈ cs.
  Proof. intros Hp C. by rewrite Hp. Qed.
  Lemma csNoDup : NoDup (ids_of cs). Proof. apply strict_NoDup, cs_strict. Qed.

  (** The archetype holds the table. *)
  Definition held (a : arch) (t : table) : Prop := a_desc a = d /\ aok a cs (tb_rows t) /\ a_cap a = tb_cap t.

  Lemma held_fits a t : held a t -> pf a = (d, length (tb_rows t), tb_cap t).
  Proof. intros (Ed&Hok&Ec). unfold pf. by rewrite Ed, Ec, (count_ok cs _ _ Hok). Qed.
  Lemma held_comps a t : held a t -> a_comps a = map cdesc_of cs.
  Proof. intros (Ed&Hok&_). by eapply ok_comps; [apply Hd|..]. Qed.
  Lemma start_ok n e : ev_oracle e = [] -> 0 < n -> (N.of_nat n <= 16777215)%N ->
    exists a, a_with_capacity d n e = Ret a (emitted e (obtain n (sheet0 cs))) /\ held a (Table n []).
  Proof.
    intros Ho Hn Hmax. destruct (with_capacity_spec d cs Hd n e Hn Hmax Ho) as (e'&E&_).
    pose proof E as E2. apply with_any_capacity_log in E2 as [_ Ee]; [|done|].
    2:{ apply andb_true_intro. split; [by apply Nat.ltb_lt|]. by apply N.leb_le. }
    eexists. split.
    { rewrite E, Ee. f_equal. f_equal. rewrite (do_comps _ _ Hd). unfold buy, obtain, elements. cbn [map sheet0 sh_types].
      f_equal. by rewrite (cbuy_obtain n cs cs_small). }
    split; [done|]. split; [|done]. apply (arch_ok_intro d cs Hd n); [by split|cbn; lia|constructor| |].
    - split; [by rewrite replicate_length|]. split; [|by rewrite replicate_length]. apply Forall_replicate. by rewrite replicate_length.
    - intros r h m Hr. by destruct r.
  Qed.

  (** *** Adding rows *)
  Lemma append_room a t : held a t -> can_append t -> has_room a (tb_rows t).
  Proof.
    intros (_&Hok&Ec) Hr. destruct Hok as (_&_&Hle&_). rewrite Ec in Hle. unfold has_room. rewrite Ec.
    destruct Hr as [Hr|Hr]; [by right|]. destruct (decide (length (tb_rows t) = tb_cap t)) as [E|E]; [left|right]; lia.
  Qed.
  Lemma pushed_append a t e a' e' x : held a t -> a_desc a' = d -> aok a' cs (tb_rows t ++ [x]) ->
    pushed (a, e) (a', e') -> held a' (append cs t x).1 /\ e' = emitted e (append cs t x).2.
  Proof.
    intros Hh Ed' Hok' (k&Hp&Hk). pose proof (held_fits _ _ Hh) as Ef. pose proof (held_comps _ _ Hh) as Ecs. unfold pf in Ef, Hp. cbn [fst snd] in *.
    injection Ef as E1 E2 E3. injection Hp as P1 P2 P3.
    destruct Hk as [[Ek Ee]|Hk].
    2:{ exfalso. pose proof (count_ok cs _ _ Hok') as Hc. destruct Hok' as (_&_&Hle&_). rewrite P3, <- Hc, P2 in Hle. lia. }
    rewrite E2, E3, Ecs in *. unfold append. destruct (length (tb_rows t) =? tb_cap t) eqn:Eq; cbn [fst snd].
    - split; [split; [done|]; split; [done|]; cbn [tb_cap]; congruence|].
      rewrite Ee. f_equal. unfold grows, grow_to, elements. cbn [map sheet0 sh_types]. f_equal. apply (cgrow_to _ _ cs cs_small).
    - split; [split; [done|]; split; [done|]; cbn [with_rows tb_cap]; congruence|]. done.
  Qed.
  Lemma write_ent_mk G vs h row cap n C H e :
    gvalid be cs -> ad_id d = tuple_archetype_id be (ids_of cs) -> G ≡ₚ cs -> Forall2 fits G vs -> row < n -> n <= cap -> shape cs cap C H ->
    write_entity_unchecked c G row h vs (mk d cs cap n C H, e) =
      Ret tt (mk d cs cap n (setrow cs row (vmap G vs) C) (<[row := Some h]> H), e).
  Proof.
    intros Hv Hid Hp HF Hr Hn Hs. pose proof (exact_gspec G Hv Hp) as Hg. pose proof (Forall2_length _ _ _ HF) as HFl.
    unfold write_entity_unchecked. unfold bind at 1, am_get at 1. cbn [fst].
    erewrite (bind_Ret (mdebug_assert _ _)); [|apply mdebug_true; apply Nat.ltb_lt; cbn [a_cap mk]; lia].
    rewrite (bind_Ret _ _ _ _ _ (mdebug_true _ _ _ (gs_valid _ _ _ Hg))).
    erewrite (bind_Ret (mdebug_assert _ _)); [|apply mdebug_true; cbn [a_desc mk]; rewrite Hid, (gs_id _ _ _ Hg); apply N.eqb_refl].
    erewrite bind_Ret; [|apply (copy_in_ok d cs Hd); [done|done|lia|done]]. apply write_entity_mk; destruct Hs as (_&_&HH); lia.
  Qed.
  Lemma vmap_row_ok G vs h : G ≡ₚ cs -> Forall2 fits G vs -> row_ok cs (h, vmap G vs).
  Proof.
    intros Hp HF. pose proof (Forall2_length _ _ _ HF) as HFl. assert (HndG : NoDup (ids_of G)) by (rewrite Hp; apply csNoDup).
    split; cbn [snd].
    - eapply full_perm; [exact Hp|]. apply vmap_full; [done|lia].
    - eapply fit_perm; [exact Hp|]. by apply vmap_fit.
  Qed.
  Lemma setrow_stored G vs h row cap C H rows : shape cs cap C H -> row < length rows -> length rows <= cap -> stored cs C H rows ->
    stored cs (setrow cs row (vmap G vs) C) (<[row := Some h]> H) (<[row := (h, vmap G vs)]> rows).
  Proof.
    intros Hs Hr Hle HS r h' m' Hx. destruct (decide (r = row)) as [->|Hne].
    - rewrite list_lookup_insert in Hx by done. injection Hx as <- <-. split; [apply list_lookup_insert; destruct Hs as (_&_&HH); lia|].
      eapply setrow_eq; [exact Hs|lia].
    - rewrite list_lookup_insert_ne in Hx by done. destruct (HS _ _ _ Hx) as [HH HR]. split; [by rewrite list_lookup_insert_ne|].
      by apply setrow_ne.
  Qed.
  Lemma shape_write row m h cap C H : shape cs cap C H -> shape cs cap (setrow cs row m C) (<[row := Some h]> H).
  Proof. intros Hs. apply setrow_shape. destruct Hs as (?&?&?). split; [done|]. split; [done|]. by rewrite insert_length. Qed.

  Notation good a e o t := (exists a', astep c o (a, e) = Ret (acall cs t o).1.1 (a', emitted e (acall cs t o).2) /\ held a' (acall cs t o).1.2).

  Lemma push_step a e t G h vs : held a t -> ev_oracle e = [] -> proper be cs t (APush G h vs) -> whole be cs (ad_id d) (APush G h vs) -> good a e (APush G h vs) t.
  Proof.
    intros Hh Ho (Hp&HF&Hr) (Hv&Hid). pose proof (append_room _ _ Hh Hr) as Hroom. pose proof Hh as (Ed&Hok&_).
    destruct (push_room d cs Hd c G vs h a _ e Ed Hok Hroom Ho (exact_gspec G Hv Hp) Hid HF) as (a'&e'&E&Ed'&Hok'&_).
    pose proof E as El. apply push_log in El; [|cbn [fst]; destruct Hok as (_&Hc&_); by apply capok_pos|done].
    destruct (pushed_append _ _ _ _ _ _ Hh Ed' Hok' El) as [Hh' Ee].
    cbn [astep acall]. destruct (append cs t (h, vmap G vs)) as [t' evs] eqn:Ea. cbn [fst snd] in *.
    exists a'. rewrite (bind_Ret _ _ _ _ _ E), Ee. done.
  Qed.
  Lemma reserve_step a e t G h vs : held a t -> ev_oracle e = [] -> proper be cs t (AReserve G h vs) -> whole be cs (ad_id d) (AReserve G h vs) -> good a e (AReserve G h vs) t.
  Proof.
    intros Hh Ho (Hp&HF&Hr) (Hv&Hid). pose proof (append_room _ _ Hh Hr) as Hroom. pose proof Hh as (Ed&Hok&_).
    destruct (push_uninit_room d cs Hd a _ e Ed Hok Hroom Ho) as (a'&e'&E&Ed'&Hhalf&_).
    pose proof E as El. apply push_uninit_log in El; [|cbn [fst]; destruct Hok as (_&Hc&_); by apply capok_pos|done].
    destruct Hhalf as (_&Hcap&Hlt&HFr&C&H&Ea&Hs&HS&_). rewrite Ed' in Ea.
    set (n := a_cap a') in *. set (rows := tb_rows t) in *.
    pose proof (write_ent_mk G vs h (length rows) n (S (length rows)) C H e' Hv Hid Hp HF ltac:(lia) ltac:(lia) Hs) as Ew. rewrite <- Ea in Ew.
    set (a2 := mk d cs n (S (length rows)) (setrow cs (length rows) (vmap G vs) C) (<[length rows := Some h]> H)) in *.
    assert (Hok2 : aok a2 cs (rows ++ [(h, vmap G vs)])).
    { unfold a2. replace (S (length rows)) with (length (rows ++ [(h, vmap G vs)])) by (rewrite app_length; cbn; lia).
      apply (arch_ok_intro d cs Hd); [done|rewrite app_length; cbn; lia| |by apply shape_write|].
      - apply Forall_app. split; [done|]. apply Forall_singleton. by apply vmap_row_ok.
      - pose proof (shape_write (length rows) (vmap G vs) h _ _ _ Hs) as Hs'. pose proof Hs as (_&_&HH).
        eapply stored_snoc; [exact Hs'|done| |apply list_lookup_insert; lia|by eapply setrow_eq].
        apply stored_insert_H. intros r h' m' Hx. destruct (HS r h' m' Hx) as [HH' HR]. split; [done|].
        apply setrow_ne; [|done]. apply lookup_lt_Some in Hx. lia. }
    assert (El2 : pushed (a, e) (a2, e')).
    { destruct El as (k&Hk&Hk2). exists k. split; [|done]. rewrite <- Hk. cbn [fst]. rewrite Ea. done. }
    destruct (pushed_append _ _ _ _ _ _ Hh (eq_refl : a_desc a2 = d) Hok2 El2) as [Hh' Ee].
    cbn [astep acall]. destruct (append cs t (h, vmap G vs)) as [t' evs] eqn:Eap. cbn [fst snd] in *.
    exists a2. rewrite (bind_Ret _ _ _ _ _ E). rewrite (bind_Ret _ _ _ _ _ Ew), <- Ee. done.
  Qed.

  (** *** Writing rows *)
  Lemma overwrite_step a e t G i h vs : held a t -> ev_oracle e = [] -> proper be cs t (AOverwrite G i h vs) -> whole be cs (ad_id d) (AOverwrite G i h vs) -> good a e (AOverwrite G i h vs) t.
  Proof.
    intros (Ed&Hok&Ec) Ho (Hp&HF&Hr) (Hv&Hid). cbn [astep acall fst snd]. unfold row_of in Hr. destruct Hok as (_&Hcap&Hle&HFr&C&H&Ea&Hs&HS). rewrite Ed in Ea.
    pose proof (write_ent_mk G vs h i (a_cap a) (length (tb_rows t)) C H e Hv Hid Hp HF Hr Hle Hs) as Ew. rewrite <- Ea in Ew.
    rewrite (bind_Ret _ _ _ _ _ Ew). eexists. split; [by rewrite emitted_nil|]. split; [done|]. split; [|done]. cbn [with_rows tb_rows].
    rewrite <- (insert_length (tb_rows t) i (h, vmap G vs)).
    apply (arch_ok_intro d cs Hd); [done|by rewrite insert_length| |by apply shape_write|by eapply setrow_stored].
    apply Forall_insert; [done|]. by apply vmap_row_ok.
  Qed.
  Lemma handle_step a e t i h : held a t -> ev_oracle e = [] -> proper be cs t (ASetHandle i h) -> good a e (ASetHandle i h) t.
  Proof.
    intros (Ed&Hok&Ec) Ho Hr. cbn [astep acall fst snd]. cbn [proper] in Hr. unfold row_of in Hr. destruct Hok as (_&Hcap&Hle&HFr&C&H&Ea&Hs&HS). rewrite Ed in Ea.
    pose proof Hs as (HlC&HFC&HH).
    pose proof (write_entity_mk d cs (a_cap a) (length (tb_rows t)) C H i h e ltac:(lia) Hr) as Ew. rewrite <- Ea in Ew.
    rewrite (bind_Ret _ _ _ _ _ Ew). eexists. split; [by rewrite emitted_nil|]. split; [done|]. split; [|done]. cbn [with_rows tb_rows].
    assert (Hl : length (alter (fun x : row => (h, x.2)) i (tb_rows t)) = length (tb_rows t)) by apply alter_length. rewrite <- Hl.
    apply (arch_ok_intro d cs Hd); [done|by rewrite Hl| |split; [done|split; [done|by rewrite insert_length]]|].
    - apply Forall_lookup. intros r x Hx. destruct (decide (r = i)) as [->|Hne].
      + rewrite list_lookup_alter in Hx. destruct (tb_rows t !! i) as [y|] eqn:Ey; [|done]. injection Hx as <-.
        exact (Forall_lookup_1 _ _ _ _ HFr Ey).
      + rewrite list_lookup_alter_ne in Hx by done. exact (Forall_lookup_1 _ _ _ _ HFr Hx).
    - intros r h' m' Hx. destruct (decide (r = i)) as [->|Hne].
      + rewrite list_lookup_alter in Hx. destruct (tb_rows t !! i) as [[h0 m0]|] eqn:Ey; [|done]. injection Hx as <- <-.
        destruct (HS _ _ _ Ey) as [_ HR]. split; [apply list_lookup_insert; lia|done].
      + rewrite list_lookup_alter_ne in Hx by done. destruct (HS _ _ _ Hx) as [HH' HR]. split; [by rewrite list_lookup_insert_ne|done].
  Qed.
  Lemma alter_row (rows : list row) i (f : row -> row) x : rows !! i = Some x -> alter f i rows = <[i := f x]> rows.
  Proof. intros Hx. apply list_eq. intros j. destruct (decide (j = i)) as [->|Hne].
    - rewrite list_lookup_alter, Hx. cbn. symmetry. apply list_lookup_insert. by eapply lookup_lt_Some.
    - by rewrite list_lookup_alter_ne, list_lookup_insert_ne. Qed.

  (** One cell through a reference. *)
  Lemma replace_cell_ok a e rows i h m C v k cap : a_desc a = d -> aok a cs rows -> a_cap a = cap -> rows !! i = Some (h, m) -> cs !! k = Some C -> fits C v ->
    exists a' old, replace_cell (k, i) v (a, e) = Ret old (a', e) /\ m !! ct_id C = Some old /\
      a_desc a' = d /\ aok a' cs (<[i := (h, <[ct_id C := v]> m)]> rows) /\ a_cap a' = cap.
  Proof.
    intros Ed Hok Ec Hi Hk Hv. pose proof Hok as (_&_&_&HFr&_). destruct (row_ok_get _ _ _ _ (Forall_lookup_1 _ _ _ _ HFr Hi) Hk) as (old&Hold&_). cbn [snd] in Hold.
    destruct (typed_cell_ok d cs Hd a rows i h m k C old Ed Hok Hi Hk Hold) as [_ Hraw].
    destruct (set_cell_ok d cs Hd a rows i h m k C v e Ed Hok Hi Hk Hv) as (a'&Ew&Ed'&Ec'&Hok').
    exists a', old. split; [|split; [done|]; split; [done|]; split; [done|congruence]].
    unfold replace_cell. cbn [fst snd]. rewrite (bind_Ret _ _ _ _ _ (am_rd_Rd (fun a => raw_cell a k i) a e _ Hraw)).
    by rewrite (bind_Ret _ _ _ _ _ Ew).
  Qed.
  Lemma pos_of C : C ∈ cs -> cs !! id_pos (ct_id C) (ids_of cs) = Some C.
  Proof.
    intros [k Hk]%elem_of_list_lookup. by rewrite (pos_in_cs d cs Hd C k Hk).
  Qed.
  Lemma replace_step a e t C i v : held a t -> ev_oracle e = [] -> proper be cs t (AReplace C i v) -> good a e (AReplace C i v) t.
  Proof.
    intros (Ed&Hok&Ec) Ho (HC&Hv&Hr). destruct (lookup_lt_is_Some_2 _ _ Hr) as [[h m] Hi].
    destruct (replace_cell_ok a e _ i h m C v _ _ Ed Hok Ec Hi (pos_of C HC) Hv) as (a'&old&E&Hold&Ed'&Hok'&Ec').
    destruct (get_component_ok d cs Hd a _ i h m C old Ed Hok Hi HC Hold) as (_&_&Eg&_).
    cbn [astep acall fst snd]. rewrite (bind_Ret _ _ _ _ _ (am_rd_Rd _ a e _ Eg)).
    rewrite (bind_Ret _ _ _ _ _ E). exists a'. rewrite emitted_nil. unfold at_row. rewrite Hi. cbn [snd]. rewrite Hold. split; [done|].
    split; [done|]. split; [|done]. cbn [with_rows tb_rows]. by rewrite (alter_row _ _ _ _ Hi).
  Qed.
  Lemma write_step a e t C i v : held a t -> ev_oracle e = [] -> proper be cs t (AWrite C i v) -> good a e (AWrite C i v) t.
  Proof.
    intros (Ed&Hok&Ec) Ho (HC&Hv&Hr). destruct (lookup_lt_is_Some_2 _ _ Hr) as [[h m] Hi]. pose proof (pos_of C HC) as Hk.
    destruct (set_cell_ok d cs Hd a _ i h m _ C v e Ed Hok Hi Hk Hv) as (a'&Ew&Ed'&Ec'&Hok').
    cbn [astep acall fst snd]. exists a'. rewrite emitted_nil. split.
    - unfold write_single_component_unchecked. rewrite bind_bind. unfold bind at 1, am_get at 1. cbn [fst].
      assert (Es : binary_search (map cd_id (a_comps a)) (ct_id C) = inl (id_pos (ct_id C) (ids_of cs))).
      { destruct Hok as (_&_&_&_&C1&H1&Ea&_). rewrite Ea, Ed. by apply (search_col d cs Hd). }
      rewrite Es. rewrite (ok_comps d cs Hd _ _ Ed Hok). change (map cdesc_of cs) with (cdesc_of <$> cs). rewrite list_lookup_fmap, Hk. cbn [fmap option_fmap option_map].
      assert (small C) as Hsc by (eapply Forall_forall; [apply cs_small|done]). rewrite (small_size C Hsc), N.eqb_refl. by rewrite (bind_Ret _ _ _ _ _ Ew).
    - split; [done|]. split; [|cbn [with_rows tb_cap]; congruence]. cbn [with_rows tb_rows]. by rewrite (alter_row _ _ _ _ Hi).
  Qed.
  (** Several components of one row. *)
  Lemma replace_cells_ok G i vs a e rows h m cap : a_desc a = d -> aok a cs rows -> a_cap a = cap -> rows !! i = Some (h, m) ->
    NoDup (ids_of G) -> (forall C, C ∈ G -> C ∈ cs) -> Forall2 fits G vs ->
    exists a', replace_cells (cells_of cs G i) vs (a, e) = Ret (pick m G) (a', e) /\
      a_desc a' = d /\ aok a' cs (<[i := (h, put G vs m)]> rows) /\ a_cap a' = cap.
  Proof.
    intros Ed Hok Ec Hi Hnd Hsub HF. revert a rows m Ed Hok Ec Hi. induction HF as [|C v G vs Hv HF IH]; intros a rows m Ed Hok Ec Hi.
    - exists a. split; [done|]. rewrite put_nil. split; [done|]. split; [|done]. by rewrite list_insert_id.
    - cbn [map] in Hnd. apply NoDup_cons in Hnd as [Hni Hnd].
      assert (HC : C ∈ cs) by (apply Hsub; left).
      destruct (replace_cell_ok a e _ i h m C v _ _ Ed Hok Ec Hi (pos_of C HC) Hv) as (a1&old&E1&Hold&Ed1&Hok1&Ec1).
      destruct (IH Hnd ltac:(intros C' H'; apply Hsub; by right) a1 (<[i := (h, <[ct_id C := v]> m)]> rows) (<[ct_id C := v]> m)) as (a2&E2&Ed2&Hok2&Ec2); [done|done|done| |].
      { apply list_lookup_insert. by eapply lookup_lt_Some. }
      exists a2. cbn [cells_of map replace_cells]. rewrite (bind_Ret _ _ _ _ _ E1). rewrite (bind_Ret _ _ _ _ _ E2).
      split.
      { unfold ret. f_equal. unfold pick. cbn [omap list_omap]. rewrite Hold. f_equal.
        clear -Hni. induction G as [|C' G IH]; [done|]. cbn [map] in Hni. apply not_elem_of_cons in Hni as [Hne Hni]. cbn [omap list_omap].
        rewrite lookup_insert_ne by done. rewrite (IH Hni). done. }
      split; [done|]. split; [|done]. rewrite list_insert_insert in Hok2. by rewrite put_cons.
  Qed.
  Lemma some_valid G : some_types be cs G -> gd_is_valid (group_desc be G) = true /\ (forall C, C ∈ G -> C ∈ cs) /\ NoDup (ids_of G).
  Proof. intros [Hv Hsub]. split; [by apply gvalid_iff|]. split; [done|]. apply Hv. Qed.
  Lemma full_at a t i h m : held a t -> tb_rows t !! i = Some (h, m) -> full cs m.
  Proof. intros (_&(_&_&_&HF&_)&_) Hi. apply (Forall_lookup_1 _ _ _ _ HF Hi). Qed.
  Lemma replace_all_step a e t G i vs : held a t -> ev_oracle e = [] -> proper be cs t (AReplaceAll G i vs) -> good a e (AReplaceAll G i vs) t.
  Proof.
    intros Hh Ho (Hs&HF&Hr). destruct (some_valid G Hs) as (Hv&Hsub&Hnd). destruct (lookup_lt_is_Some_2 _ _ Hr) as [[h m] Hi].
    pose proof (full_at _ _ _ _ _ Hh Hi) as Hfull. destruct Hh as (Ed&Hok&Ec).
    destruct (fuzzy_components_ok d cs Hd c G a _ i h m _ Ed Hok Hi Hv Hsub (pick_tuple cs G m Hfull Hsub)) as [_ Eg].
    destruct (replace_cells_ok G i vs a e _ h m _ Ed Hok Ec Hi Hnd Hsub HF) as (a'&E&Ed'&Hok'&Ec').
    cbn [astep acall fst snd]. rewrite (bind_Ret _ _ _ _ _ (am_rd_Rd _ a e _ Eg)).
    rewrite (bind_Ret _ _ _ _ _ E). exists a'. rewrite emitted_nil. unfold at_row. rewrite Hi. split; [done|]. split; [done|].
    split; [|done]. cbn [with_rows tb_rows]. by rewrite (alter_row _ _ _ _ Hi).
  Qed.

  (** Whole columns. *)
  Definition set_col (C : ctype) (col : list value) (rows : list row) : list row :=
    zip_with (fun (x : row) v => (x.1, <[ct_id C := v]> x.2)) rows col.
  Lemma replace_column_ok C col a e pre suf cap k : a_desc a = d -> aok a cs (pre ++ suf) -> a_cap a = cap -> cs !! k = Some C ->
    length col = length suf -> Forall (fits C) col ->
    exists a', replace_cells (map (fun r => (k, r)) (seq (length pre) (length suf))) col (a, e) =
        Ret (omap (fun x : row => x.2 !! ct_id C) suf) (a', e) /\
      a_desc a' = d /\ aok a' cs (pre ++ set_col C col suf) /\ a_cap a' = cap.
  Proof.
    intros Ed Hok Ec Hk Hl HF. revert pre suf a Ed Hok Ec Hl. induction HF as [|v col Hv HF IH]; intros pre suf a Ed Hok Ec Hl.
    - destruct suf; [|done]. by exists a.
    - destruct suf as [|[h m] suf]; [done|]. cbn [length] in Hl.
      assert (Hi : (pre ++ (h, m) :: suf) !! length pre = Some (h, m)) by (by apply list_lookup_middle).
      destruct (replace_cell_ok a e _ (length pre) h m C v k _ Ed Hok Ec Hi Hk Hv) as (a1&old&E1&Hold&Ed1&Hok1&Ec1).
      rewrite (insert_app_r_alt pre) in Hok1 by lia. rewrite Nat.sub_diag in Hok1. cbn [insert list_insert] in Hok1.
      destruct (IH (pre ++ [(h, <[ct_id C := v]> m)]) suf a1) as (a2&E2&Ed2&Hok2&Ec2); [done| |done|lia|].
      { by rewrite <- app_assoc. }
      rewrite app_length in E2. cbn [length] in E2. rewrite Nat.add_1_r in E2. rewrite <- app_assoc in Hok2.
      exists a2. cbn [length seq map replace_cells]. rewrite (bind_Ret _ _ _ _ _ E1). rewrite (bind_Ret _ _ _ _ _ E2).
      split; [|done]. unfold ret. f_equal. cbn [omap list_omap snd]. by rewrite Hold.
  Qed.
  Lemma set_col_length C col rows : length col = length rows -> length (set_col C col rows) = length rows.
  Proof. intros Hl. unfold set_col. rewrite zip_with_length. lia. Qed.
  Lemma replace_columns_ok G cols a e rows cap : a_desc a = d -> aok a cs rows -> a_cap a = cap -> NoDup (ids_of G) -> (forall C, C ∈ G -> C ∈ cs) ->
    Forall2 (fun C col => length col = length rows /\ Forall (fits C) col) G cols ->
    exists a', replace_columns (col_cells cs (length rows) G) cols (a, e) = Ret (columns rows G) (a', e) /\
      a_desc a' = d /\ aok a' cs (imap (fun r x => (x.1, put G (omap (fun col => col !! r) cols) x.2)) rows) /\ a_cap a' = cap.
  Proof.
    intros Ed Hok Ec Hnd Hsub HF. revert cols a rows Ed Hok Ec HF. induction G as [|C G IH]; intros cols a rows Ed Hok Ec HF.
    - inversion HF; subst. exists a. split; [done|]. split; [done|]. split; [|done].
      assert (E : imap (fun r (x : row) => (x.1, put [] (omap (fun col : list value => col !! r) []) x.2)) rows = rows); [|by rewrite E].
      apply list_eq. intros i. rewrite list_lookup_imap. destruct (rows !! i) as [[h m]|]; [|done]. cbn [fmap option_fmap option_map fst snd omap list_omap]. by rewrite put_nil.
    - destruct cols as [|col cols']; [by inversion HF|]. apply Forall2_cons in HF as [[Hl Hv] HF']. cbn [map] in Hnd. apply NoDup_cons in Hnd as [Hni Hnd].
      assert (HC : C ∈ cs) by (apply Hsub; left).
      destruct (replace_column_ok C col a e [] rows _ _ Ed Hok Ec (pos_of C HC) Hl Hv) as (a1&E1&Ed1&Hok1&Ec1).
      cbn [length app] in E1, Hok1.
      destruct (IH Hnd ltac:(intros C' H'; apply Hsub; by right) cols' a1 (set_col C col rows)) as (a2&E2&Ed2&Hok2&Ec2); [done|done|done| |].
      { rewrite set_col_length by done. done. }
      rewrite set_col_length in E2 by done.
      exists a2. cbn [col_cells map replace_columns]. rewrite (bind_Ret _ _ _ _ _ E1). rewrite (bind_Ret _ _ _ _ _ E2).
      split.
      { unfold ret. f_equal. unfold columns. cbn [map]. f_equal. apply map_ext_in. intros C' HC'%elem_of_list_In.
        assert (Hne : ct_id C' <> ct_id C). { intros E. apply Hni. rewrite <- E. apply elem_of_ids. by exists C'. }
        clear -Hl Hne. revert col Hl. induction rows as [|x rows IH]; intros col Hl; [by destruct col|].
        destruct col as [|v col]; [done|]. injection Hl as Hl. cbn [set_col zip_with omap list_omap snd].
        rewrite lookup_insert_ne by done. specialize (IH col Hl). unfold set_col in IH. by rewrite IH. }
      split; [done|]. split; [|congruence].
      replace (imap (fun r (x : row) => (x.1, put (C :: G) (omap (fun col0 => col0 !! r) (col :: cols')) x.2)) rows)
        with (imap (fun r (x : row) => (x.1, put G (omap (fun col0 => col0 !! r) cols') x.2)) (set_col C col rows)); [done|].
      apply list_eq. intros i. rewrite !list_lookup_imap. unfold set_col. rewrite lookup_zip_with.
      destruct (rows !! i) as [[h m]|] eqn:Ei; [|done]. cbn [fst snd omap list_omap mbind option_bind fmap option_fmap option_map].
      destruct (lookup_lt_is_Some_2 col i) as [v Hvi]. { rewrite Hl. by eapply lookup_lt_Some. }
      rewrite Hvi. cbn [fst snd mbind option_bind fmap option_fmap option_map]. by rewrite put_cons.
  Qed.
  Lemma slices_held a t k G : held a t -> match k with Exact => all_types cs G | _ => some_types be cs G end ->
    whole be cs (ad_id d) (ASlices k G) ->
    slices_of c k G a = Rd (match k with With_handles => map fst (tb_rows t) | _ => [] end, columns (tb_rows t) G) /\
    mut_slices_of c k G a = Rd (match k with With_handles => map fst (tb_rows t) | _ => [] end, col_cells cs (length (tb_rows t)) G) /\
    (forall C, C ∈ G -> C ∈ cs) /\ NoDup (ids_of G).
  Proof.
    intros (Ed&Hok&Ec) Hk Hw. pose proof Hok as (_&_&_&HFr&_). destruct k.
    - destruct Hw as (Hv&Hid). pose proof (exact_in G Hk) as Hsub. assert (NoDup (ids_of G)) by (unfold all_types in Hk; rewrite Hk; apply csNoDup).
      destruct (exact_slices_ok d cs Hd c G a _ _ Ed Hok (exact_gspec G Hv Hk) Hid (columns_of cs G _ HFr Hsub)) as [E1 E2].
      cbn [slices_of mut_slices_of]. by rewrite E1, E2.
    - destruct (some_valid G Hk) as (Hv&Hsub&Hnd).
      destruct (fuzzy_slices_ok d cs Hd c G a _ _ Ed Hok Hv Hsub (columns_of cs G _ HFr Hsub)) as (E1&E2&_&_).
      cbn [slices_of mut_slices_of]. by rewrite E1, E2.
    - destruct (some_valid G Hk) as (Hv&Hsub&Hnd).
      destruct (fuzzy_slices_ok d cs Hd c G a _ _ Ed Hok Hv Hsub (columns_of cs G _ HFr Hsub)) as (_&_&E1&E2).
      cbn [slices_of mut_slices_of]. by rewrite E1, E2.
  Qed.
  Lemma store_step a e t k G cols : held a t -> ev_oracle e = [] -> proper be cs t (AStore k G cols) -> whole be cs (ad_id d) (AStore k G cols) -> good a e (AStore k G cols) t.
  Proof.
    intros Hh Ho (Hk&HF) Hw. destruct (slices_held a t k G Hh Hk) as (_&Em&Hsub&Hnd); [by destruct k|]. destruct Hh as (Ed&Hok&Ec).
    destruct (replace_columns_ok G cols a e _ _ Ed Hok Ec Hnd Hsub HF) as (a'&E&Ed'&Hok'&Ec').
    cbn [astep acall fst snd]. rewrite (bind_Ret _ _ _ _ _ (am_rd_Rd _ a e _ Em)). cbn [fst snd].
    rewrite (bind_Ret _ _ _ _ _ E). exists a'. rewrite emitted_nil. split; [done|]. by split.
  Qed.

  (** *** Moving and removing rows *)
  Lemma swap_step a e t i j : held a t -> ev_oracle e = [] -> proper be cs t (ASwap i j) -> good a e (ASwap i j) t.
  Proof.
    intros (Ed&Hok&Ec) Ho (Hi&Hj&Hne). destruct (swap_ok d cs Hd a _ i j e Ed Hok Hi Hj Hne) as (a'&E&Ed'&Ec'&Hok').
    cbn [astep acall fst snd]. rewrite (bind_Ret _ _ _ _ _ E). exists a'. rewrite emitted_nil. split; [done|]. split; [done|].
    split; [|cbn [with_rows tb_cap]; congruence]. cbn [with_rows tb_rows]. by rewrite exchange_swapl.
  Qed.
  Lemma to_last_step a e t i : held a t -> ev_oracle e = [] -> proper be cs t (AToLast i) -> good a e (AToLast i) t.
  Proof.
    intros (Ed&Hok&Ec) Ho Hi. destruct (swap_to_last_ok d cs Hd c a _ i e Ed Hok Hi) as (a'&E&Ed'&Ec'&Hok').
    cbn [astep acall fst snd]. rewrite (bind_Ret _ _ _ _ _ E). exists a'. rewrite emitted_nil. split; [done|]. split; [done|].
    split; [|cbn [with_rows tb_cap]; congruence]. cbn [with_rows tb_rows].
    destruct (decide (i = length (tb_rows t) - 1)) as [->|Hne]; [by rewrite exchange_id, <- (swapl_id (length (tb_rows t) - 1) (tb_rows t))|by rewrite exchange_swapl].
  Qed.
  Lemma swap_drop_step a e t i : held a t -> ev_oracle e = [] -> proper be cs t (ASwapDrop i) -> good a e (ASwapDrop i) t.
  Proof.
    intros (Ed&Hok&Ec) Ho (h&m&Hi&Hcalm). destruct (swap_drop_ok d cs Hd c a _ i h m e Ed Hok Hi Hcalm Ho) as (a'&e'&E&Ed'&Ec'&Hok'&_).
    destruct (swap_drop_exact d cs Hd c a _ i h m e Ed Hok Hi Hcalm) as (x&a''&E2&_). rewrite E in E2. injection E2 as _ _ Ee.
    cbn [astep acall fst snd]. rewrite (bind_Ret _ _ _ _ _ E). exists a'. unfold at_row. rewrite Hi. split; [by rewrite Ee|]. split; [done|].
    split; [|cbn [with_rows tb_cap]; congruence]. cbn [with_rows tb_rows]. rewrite cut_remove; [done|by eapply lookup_lt_Some].
  Qed.
  Lemma swap_remove_step a e t G i : held a t -> ev_oracle e = [] -> proper be cs t (ASwapRemove G i) -> whole be cs (ad_id d) (ASwapRemove G i) -> good a e (ASwapRemove G i) t.
  Proof.
    intros Hh Ho (Hp&Hi) Hv. destruct (lookup_lt_is_Some_2 _ _ Hi) as [[h m] Hm]. pose proof (full_at _ _ _ _ _ Hh Hm) as Hf. destruct Hh as (Ed&Hok&Ec).
    destruct (swap_remove_ok d cs Hd c G a _ i h m _ e Ed Hok Hm (exact_gspec G Hv Hp) (pick_tuple cs G m Hf (exact_in G Hp))) as (a'&E&Ed'&Ec'&Hok').
    cbn [astep acall fst snd]. rewrite (bind_Ret _ _ _ _ _ E). exists a'. rewrite emitted_nil. unfold at_row. rewrite Hm. split; [done|]. split; [done|].
    split; [|cbn [with_rows tb_cap]; congruence]. cbn [with_rows tb_rows]. by rewrite cut_remove.
  Qed.
  Lemma forget_step a e t : held a t -> ev_oracle e = [] -> proper be cs t AForget -> good a e AForget t.
  Proof.
    intros (Ed&Hok&Ec) Ho Hi. destruct (decrement_ok d cs Hd c a _ e Ed Hok Hi) as (a'&E&Ed'&Ec'&Hok').
    cbn [astep acall fst snd]. rewrite (bind_Ret _ _ _ _ _ E). exists a'. rewrite emitted_nil. split; [done|]. split; [done|].
    split; [done|cbn [with_rows tb_cap]; congruence].
  Qed.

  (** *** Reading *)
  Lemma get_steps a e t C i : held a t -> C ∈ cs -> row_of t i -> good a e (AGet C i) t /\ good a e (ARead C i) t.
  Proof.
    intros Hh HC Hi. destruct (lookup_lt_is_Some_2 _ _ Hi) as [[h m] Hm]. pose proof (full_at _ _ _ _ _ Hh Hm) as Hf. pose proof Hh as (Ed&Hok&Ec).
    assert (is_Some (m !! ct_id C)) as [v Hv]. { apply Hf, elem_of_ids. by exists C. }
    destruct (get_component_ok d cs Hd a _ i h m C v Ed Hok Hm HC Hv) as (E1&E2&_).
    cbn [astep acall fst snd]. rewrite emitted_nil. unfold at_row. rewrite Hm. cbn [snd]. rewrite Hv.
    split; exists a; (split; [|done]); [by rewrite (bind_Ret _ _ _ _ _ (am_rd_Rd _ a e _ E1))|by rewrite (bind_Ret _ _ _ _ _ (am_rd_Rd _ a e _ E2))].
  Qed.
  Lemma get_all_step a e t G i : held a t -> proper be cs t (AGetAll G i) -> good a e (AGetAll G i) t.
  Proof.
    intros Hh [Hs Hi]. destruct (some_valid G Hs) as (Hv&Hsub&Hnd). destruct (lookup_lt_is_Some_2 _ _ Hi) as [[h m] Hm]. pose proof (full_at _ _ _ _ _ Hh Hm) as Hf.
    pose proof Hh as (Ed&Hok&Ec).
    destruct (fuzzy_components_ok d cs Hd c G a _ i h m _ Ed Hok Hm Hv Hsub (pick_tuple cs G m Hf Hsub)) as [E _].
    cbn [astep acall fst snd]. rewrite emitted_nil. unfold at_row. rewrite Hm. exists a. split; [|done].
    by rewrite (bind_Ret _ _ _ _ _ (am_rd_Rd _ a e _ E)).
  Qed.
  Lemma read_all_step a e t G i : held a t -> proper be cs t (AReadAll G i) -> gvalid be cs -> good a e (AReadAll G i) t.
  Proof.
    intros Hh [Hp Hi] Hv. destruct (lookup_lt_is_Some_2 _ _ Hi) as [[h m] Hm]. pose proof (full_at _ _ _ _ _ Hh Hm) as Hf. pose proof Hh as (Ed&Hok&Ec).
    pose proof (read_exact_ok d cs Hd be G a _ i h m _ Ed Hok Hm (exact_gspec G Hv Hp) (pick_tuple cs G m Hf (exact_in G Hp))) as E.
    cbn [astep acall fst snd]. rewrite emitted_nil. unfold at_row. rewrite Hm. exists a. split; [|done].
    by rewrite (bind_Ret _ _ _ _ _ (am_rd_Rd _ a e _ E)).
  Qed.

  Lemma astep_ok o a e t : held a t -> ev_oracle e = [] -> proper be cs t o -> whole be cs (ad_id d) o -> good a e o t.
  Proof.
    intros Hh Ho Hp Hw. destruct o; [by apply push_step|by apply reserve_step|by apply overwrite_step|by apply write_step|by apply handle_step|
      by apply replace_step|by apply replace_all_step|by apply store_step|by apply swap_step|by apply to_last_step|by apply swap_drop_step|
      by apply swap_remove_step|by apply forget_step|by destruct Hp; apply get_steps|by destruct Hp; apply get_steps|by apply get_all_step|by apply read_all_step| | | | |].
    - destruct (slices_held a t k G Hh Hp Hw) as (E&_). cbn [astep acall fst snd]. rewrite emitted_nil. exists a. split; [|done].
      by rewrite (bind_Ret _ _ _ _ _ (am_rd_Rd _ a e _ E)).
    - pose proof Hh as (Ed&Hok&Ec). pose proof (entities_ok d cs a _ Ed Hok) as E. cbn [astep acall fst snd]. rewrite emitted_nil. exists a. split; [|done].
      by rewrite (bind_Ret _ _ _ _ _ (am_rd_Rd _ a e _ E)).
    - pose proof Hh as (Ed&Hok&Ec). cbn [astep acall fst snd]. rewrite emitted_nil. exists a. split; [|done]. unfold bind, am_get, a_len, ret. cbn [fst]. by rewrite (count_ok cs _ _ Hok).
    - pose proof Hh as (Ed&Hok&Ec). cbn [astep acall fst snd]. rewrite emitted_nil. exists a. split; [|done]. unfold bind, am_get, ret. cbn [fst]. by rewrite Ec.
    - pose proof Hh as (Ed&Hok&Ec). cbn [astep acall fst snd]. rewrite emitted_nil. exists a. split; [|done]. unfold bind, am_get, is_full, ret. cbn [fst]. by rewrite (count_ok cs _ _ Hok), Ec.
  Qed.
  Lemma arun_ok ops a e t : held a t -> ev_oracle e = [] -> all_proper be cs t ops -> Forall (whole be cs (ad_id d)) ops ->
    exists a', arun c ops (a, e) = Ret (acalls cs t ops).1.1 (a', emitted e (acalls cs t ops).2) /\ held a' (acalls cs t ops).1.2.
  Proof.
    revert a e t. induction ops as [|o ops IH]; intros a e t Hh Ho Hp Hw; cbn [arun acalls].
    { exists a. cbn [fst snd]. by rewrite emitted_nil. }
    destruct Hp as [Hp Hps]. apply Forall_cons in Hw as [Hw Hws]. destruct (astep_ok o a e t Hh Ho Hp Hw) as (a1&E1&Hh1). rewrite (bind_Ret _ _ _ _ _ E1).
    destruct (acall cs t o) as [[x t1] evs]. cbn [fst snd] in *.
    destruct (IH a1 (emitted e evs) t1 Hh1 Ho Hps Hws) as (a2&E2&Hh2). rewrite (bind_Ret _ _ _ _ _ E2).
    destruct (acalls cs t1 ops) as [[xs t2] evs']. cbn [fst snd] in *. exists a2. by rewrite emitted_app.
  Qed.
  Lemma adrop_ok a e t : held a t -> Forall (fun x : row => calm x.2) (tb_rows t) -> ev_oracle e = [] ->
    exists a', a_drop (a, e) = Ret tt (a', emitted e (drop_table cs t)).
  Proof.
    intros (Ed&Hok&Ec) Hcalm Ho. destruct (a_drop_exact d cs Hd a _ e Ed Hok Hcalm) as [a' E]. exists a'. rewrite E. do 3 f_equal.
    unfold drop_table, value_drops, col_values, columns. rewrite map_map. f_equal. unfold cfree, free_arrays, elements. cbn [tail take sheet0 sh_types].
    rewrite Ec, map_app, map_map. done.
  Qed.
  Lemma append_full a t G h vs e : gvalid be cs -> ad_id d = tuple_archetype_id be (ids_of cs) -> held a t -> ev_oracle e = [] -> G ≡ₚ cs -> Forall2 fits G vs -> ~ can_append t ->
    if dbg c then exists s, astep c (APush G h vs) (a, e) = Panic s else astep c (APush G h vs) (a, e) = UB.
  Proof.
    intros Hv Hid (Ed&Hok&Ec) Ho Hp HF Hn. unfold can_append in Hn. pose proof Hok as (_&_&Hle&_).
    assert (El : a_cap a = length (tb_rows t)) by lia.
    pose proof (full_push d cs Hd c G vs h a _ e Ed Hok El ltac:(lia) Ho (exact_gspec G Hv Hp) Hid) as H.
    cbn [astep]. unfold bind. destruct (dbg c); [|by rewrite H]. destruct H as [s ->]. by exists s.
  Qed.
  (** *** Archetypes without memory *)
  Lemma unallocated n e G h vs : gvalid be cs -> ad_id d = tuple_archetype_id be (ids_of cs) -> n = 0 \/ (16777215 < N.of_nat n)%N -> G ≡ₚ cs ->
    exists a, a_with_capacity d n e = Ret a e /\ a_count a = 0 /\ a_cap a = 0 /\
      astep c AEntities (a, e) = UB /\ astep c (APush G h vs) (a, e) = UB /\ astep c (AReserve G h vs) (a, e) = UB /\
      astep c (ASlices Exact G) (a, e) = UB /\ a_drop (a, e) = Ret tt (a, e).
  Proof.
    intros Hv Hid Hn Hp. pose proof (exact_gspec G Hv Hp) as Hg. eexists. split.
    { unfold a_with_capacity. rewrite (bind_Ret _ _ e tt e) by (unfold massert; by rewrite (do_valid _ _ Hd)).
      replace ((0 <? n) && (N.of_nat n <=? MAX_ENTITIES_PER_ARCHETYPE)%N) with false; [done|].
      symmetry. apply andb_false_iff. unfold MAX_ENTITIES_PER_ARCHETYPE, MAX_ENTITY_HANDLE_VALUE. destruct Hn as [->|Hn]; [by left|right]. apply N.leb_gt. done. }
    assert (Er : forall A (k : unit -> AM A), bind resize_if_necessary k (Arch d (replicate 14 None) None 0 0, e) = UB) by done.
    split; [done|]. split; [done|]. split; [done|]. split; [|split; [|split; [|done]]].
    - cbn [astep]. unfold push_entity_unchecked. rewrite bind_bind. unfold bind at 1, am_get at 1. cbn [fst]. rewrite !bind_bind.
      rewrite (bind_Ret _ _ _ _ _ (mdebug_true _ _ _ (gs_valid _ _ _ Hg))). rewrite bind_bind.
      erewrite (bind_Ret (mdebug_assert _ _)); [|apply mdebug_true; cbn [a_desc]; rewrite Hid, (gs_id _ _ _ Hg); apply N.eqb_refl].
      rewrite bind_bind. apply Er.
    - cbn [astep]. unfold push_uninitialized_entity. rewrite bind_bind. apply Er.
    - set (a0 := Arch d (replicate MAX_COMPONENTS_PER_ENTITY None) None 0 0).
      assert (Eg : get_slices_exact c G a0 = RdUB); [|unfold astep, bind, am_rd, slices_of; cbn [fst]; rewrite Eg; done].
      unfold get_slices_exact. cbv zeta. change (a_desc a0) with d. rewrite Hid, (gs_id _ _ _ Hg), N.eqb_refl, rdebug_true by done. cbn [rbind].
      unfold slice_unchecked. destruct G as [|C G]; [apply Permutation_length in Hp; pose proof (gs_pos _ _ _ Hg); cbn in Hp; lia|].
      assert (El : group_slot be (C :: G) 0 < 14).
      { pose proof (gs_slot _ _ _ Hg 0 C eq_refl) as Hs. apply lookup_lt_Some in Hs. pose proof (gs_pos _ _ _ Hg). lia. }
      assert (Es : forall s, s < 14 -> slice_cells C a0 (own_pointers a0) s (a_len a0) = RdUB).
      { intros s Hs. do 14 (destruct s as [|s]; [done|]). lia. }
      unfold enum. cbn [length seq zip zip_with rmap]. rewrite (Es _ El). done.
  Qed.
End table.

(** ** Programs *)
Lemma whole_tuple be cs G o : storable be cs -> G ≡ₚ cs -> whole be cs (ad_id (gd_arch (group_desc be G))) o.
Proof. intros Hst Hp. destruct (tuple_desc be cs G Hst Hp) as [_ E]. destruct Hst as (_&_&Hg). by destruct o as [| | | | | | |[]| | | | | | | | | |[]| | | |]. Qed.
Lemma table_programs c cs G0 n ops e : storable (big c) cs -> G0 ≡ₚ cs -> 0 < n -> (N.of_nat n <= 16777215)%N -> ev_oracle e = [] ->
  all_proper (big c) cs (Table n []) ops ->
  let '(outs, t, evs) := acalls cs (Table n []) ops in
  exists a e0 a' e1, archetype_for c G0 n e = Ret a e0 /\ ev_trace e0 = ev_trace e ++ obtain n (sheet0 cs) /\
    arun c ops (a, e0) = Ret outs (a', e1) /\ ev_trace e1 = ev_trace e0 ++ evs /\
    a_len a' = length (tb_rows t) /\ a_cap a' = tb_cap t /\
    (Forall (fun x : row => calm x.2) (tb_rows t) ->
     exists a2 e2, a_drop (a', e1) = Ret tt (a2, e2) /\ ev_trace e2 = ev_trace e1 ++ drop_table cs t).
Proof.
  intros Hs Hp Hn Hm Ho Hall. destruct (tuple_desc _ _ _ Hs Hp) as [Hd Hid]. destruct (start_ok cs _ Hd n e Ho Hn Hm) as (a&E&Hh).
  destruct (arun_ok c cs _ Hd ops a (emitted e (obtain n (sheet0 cs))) _ Hh Ho Hall) as (a'&E'&Hh').
  { apply Forall_forall. intros o _. by apply whole_tuple. }
  destruct (acalls cs (Table n []) ops) as [[outs t] evs]. cbn [fst snd] in *.
  eexists a, _, a', _. split; [exact E|]. split; [done|]. split; [exact E'|]. split; [done|]. pose proof Hh' as (_&Hok&Ec).
  split; [by apply count_ok in Hok|]. split; [done|]. intros Hc.
  destruct (adrop_ok cs _ Hd a' (emitted (emitted e (obtain n (sheet0 cs))) evs) _ Hh' Hc Ho) as [a2 E2].
  eexists a2, _. by rewrite E2.
Qed.
Lemma table_limit c cs G0 n ops e G h vs : storable (big c) cs -> G0 ≡ₚ cs -> 0 < n -> (N.of_nat n <= 16777215)%N -> ev_oracle e = [] ->
  all_proper (big c) cs (Table n []) ops -> ~ can_append (acalls cs (Table n []) ops).1.2 -> G ≡ₚ cs -> Forall2 fits G vs ->
  exists a e0 x s, archetype_for c G0 n e = Ret a e0 /\ arun c ops (a, e0) = Ret x s /\
    if dbg c then exists s', astep c (APush G h vs) s = Panic s' else astep c (APush G h vs) s = UB.
Proof.
  intros Hs Hp Hn Hm Ho Hall Hf HG HF. destruct (tuple_desc _ _ _ Hs Hp) as [Hd Hid]. destruct (start_ok cs _ Hd n e Ho Hn Hm) as (a&E&Hh).
  destruct (arun_ok c cs _ Hd ops a (emitted e (obtain n (sheet0 cs))) _ Hh Ho Hall) as (a'&E'&Hh').
  { apply Forall_forall. intros o _. by apply whole_tuple. }
  eexists a, _, _, _. split; [exact E|]. split; [exact E'|]. destruct Hs as (_&_&Hg).
  by apply (append_full c cs _ Hd _ _ _ _ _ _ Hg Hid Hh').
Qed.
Lemma table_unallocated c cs G0 n e G h vs : storable (big c) cs -> G0 ≡ₚ cs -> G ≡ₚ cs -> n = 0 \/ (16777215 < N.of_nat n)%N ->
  exists a, archetype_for c G0 n e = Ret a e /\ a_len a = 0 /\ a_cap a = 0 /\
    astep c AEntities (a, e) = UB /\ astep c (APush G h vs) (a, e) = UB /\ astep c (AReserve G h vs) (a, e) = UB /\
    astep c (ASlices Exact G) (a, e) = UB /\ a_drop (a, e) = Ret tt (a, e).
Proof.
  intros Hs Hp HG Hn. destruct (tuple_desc _ _ _ Hs Hp) as [Hd Hid]. destruct Hs as (_&_&Hg).
  exact (unallocated c cs _ Hd n e G h vs Hg Hid Hn HG).
Qed.
(** For concrete tables. *)
Lemma droppable (t : table) i :
  match tb_rows t !! i with Some x => forallb (fun y => negb (v_bomb y.2)) (map_to_list x.2) | None => false end = true ->
  exists h m, tb_rows t !! i = Some (h, m) /\ calm m.
Proof.
  destruct (tb_rows t !! i) as [[h m]|]; [|done]. cbn [snd]. intros H. exists h, m. split; [done|]. intros x v Hx.
  rewrite forallb_forall in H. specialize (H (x, v)). cbn [snd] in H. apply negb_true_iff, H, elem_of_list_In. by apply elem_of_map_to_list.
Qed.
(** Filling a table with copies of one row. *)
Lemma filling be cs n G h vs k rows : G ≡ₚ cs -> Forall2 fits G vs -> length rows + k <= n ->
  all_proper be cs (Table n rows) (repeat (APush G h vs) k) /\
  (acalls cs (Table n rows) (repeat (APush G h vs) k)).1.2 = Table n (rows ++ replicate k (h, vmap G vs)).
Proof.
  intros Hp HF. revert rows. induction k as [|k IH]; intros rows Hl; [cbn; by rewrite app_nil_r|].
  assert (E : acall cs (Table n rows) (APush G h vs) = (AoNat (length rows), Table n (rows ++ [(h, vmap G vs)]), [])).
  { unfold acall, append. cbn [tb_rows tb_cap]. destruct (Nat.eqb_spec (length rows) n) as [Ee|_]; [lia|done]. }
  destruct (IH (rows ++ [(h, vmap G vs)])) as [H1 H2]; [rewrite app_length; cbn; lia|].
  cbn [repeat all_proper acalls]. rewrite E. cbn [fst snd]. split; [|].
  - split; [|done]. split; [done|]. split; [done|]. left. cbn. lia.
  - destruct (acalls cs _ _) as [[xs t2] evs] in *. cbn [fst snd] in *. rewrite H2, <- app_assoc. done.
Qed.
