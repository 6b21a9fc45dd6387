(** Proofs for C53: the byte-level storage does what the cell-level storage does. *)
From Verif Require Import RegModel ByteModel SearchProofs MonadProofs DescrProofs SpecBase SpecWorld.
Local Open Scope nat_scope.

(** ** Columns as bytes *)
Section col.
  Context {A : Type} (f : A -> list mbyte) (n : nat) (Hf : forall x, length (f x) = n).
  Definition cell_bytes (c : option A) : list mbyte := match c with Some x => f x | None => replicate n Poison end.
  Definition col_bytes (cells : list (option A)) : list mbyte := concat (map cell_bytes cells).
  Lemma cell_bytes_length c : length (cell_bytes c) = n.
  Proof using Hf. destruct c; [apply Hf|apply replicate_length]. Qed.
  Lemma col_bytes_length cells : length (col_bytes cells) = length cells * n.
  Proof using Hf.
    unfold col_bytes. induction cells as [|c cells IH]; [done|]. cbn [map concat length]. rewrite app_length, cell_bytes_length, IH. lia.
  Qed.
  Lemma col_bytes_app x y : col_bytes (x ++ y) = col_bytes x ++ col_bytes y.
  Proof. unfold col_bytes. by rewrite map_app, concat_app. Qed.
  Lemma col_bytes_cons c l : col_bytes (c :: l) = cell_bytes c ++ col_bytes l.
  Proof. done. Qed.
  Lemma col_bytes_None k : col_bytes (replicate k None) = replicate (k * n) Poison.
  Proof. induction k as [|k IH]; [done|]. cbn [replicate]. rewrite col_bytes_cons, IH. cbn [cell_bytes]. by rewrite <- replicate_add. Qed.
  Lemma col_split cells row c : cells !! row = Some c ->
    col_bytes cells = col_bytes (take row cells) ++ cell_bytes c ++ col_bytes (drop (S row) cells) /\
    length (col_bytes (take row cells)) = row * n.
  Proof using Hf.
    intros E. split.
    - rewrite <- (take_drop_middle _ _ _ E) at 1. rewrite col_bytes_app. f_equal.
    - rewrite col_bytes_length, take_length. apply lookup_lt_Some in E. rewrite Nat.min_l by lia. done.
  Qed.
  Lemma col_read cells row c : cells !! row = Some c -> take n (drop (row * n) (col_bytes cells)) = cell_bytes c.
  Proof using Hf.
    intros E. destruct (col_split _ _ _ E) as [-> Hl]. rewrite drop_app_alt by done. apply take_app_alt. by rewrite cell_bytes_length.
  Qed.
  Lemma col_bound (cells : list (option A)) row : row < length cells -> row * n + n <= length (col_bytes cells).
  Proof using Hf. intros H. rewrite col_bytes_length. nia. Qed.
  Lemma col_write cells row c : row < length cells ->
    take (row * n) (col_bytes cells) ++ cell_bytes c ++ drop (row * n + n) (col_bytes cells) = col_bytes (<[row := c]> cells).
  Proof using Hf.
    intros H. destruct (lookup_lt_is_Some_2 _ _ H) as [c0 E]. destruct (col_split _ _ _ E) as [Hs Hl].
    rewrite insert_take_drop by done. rewrite col_bytes_app, col_bytes_cons. f_equal; [|f_equal].
    - rewrite Hs. apply take_app_alt. done.
    - rewrite Hs, app_assoc. apply drop_app_alt. by rewrite app_length, Hl, cell_bytes_length.
  Qed.
  Lemma col_realloc cells k :
    take (k * n) (col_bytes cells) ++ replicate (k * n - length (col_bytes cells)) Poison =
    col_bytes (take k cells ++ replicate (k - length cells) None).
  Proof using Hf.
    rewrite col_bytes_app, col_bytes_None, col_bytes_length. f_equal; [|f_equal; nia].
    destruct (decide (k <= length cells)) as [Hk|Hk].
    - rewrite <- (take_drop k cells) at 1. rewrite col_bytes_app. apply take_app_alt. rewrite col_bytes_length, take_length, Nat.min_l by done. done.
    - rewrite (take_ge cells) by lia. apply take_ge. rewrite col_bytes_length. nia.
  Qed.
End col.
Lemma val_bytes_length n v : length (val_bytes n v) = n.
Proof. unfold val_bytes. by rewrite map_length, seq_length. Qed.
Lemma handle_bytes_length h : length (handle_bytes h) = 4.
Proof. done. Qed.
Lemma bytes_val_ok n v : 0 < n -> bytes_val (val_bytes n v) = Some v.
Proof.
  intros H. unfold bytes_val. rewrite val_bytes_length. destruct n as [|n]; [lia|]. unfold val_bytes at 1. cbn [seq map].
  by rewrite decide_True.
Qed.
Lemma bytes_handle_ok h : bytes_handle (handle_bytes h) = Some h.
Proof. unfold bytes_handle. unfold handle_bytes at 1. cbn [seq map]. by rewrite decide_True. Qed.
Notation vcol n := (col_bytes (val_bytes n) n).
Notation vcell n := (cell_bytes (val_bytes n) n).
Notation hcol := (col_bytes handle_bytes 4).
Notation hcell := (cell_bytes handle_bytes 4).

(** ** The relation between the two storages *)
Definition prel {A} (f : A -> list mbyte) (n : nat) (al : N) (H : gmap N hblk) (p : ptr A) (q : bptr) : Prop :=
  match p, q with
  | None, None => True
  | Some b, Some (id, off) =>
      off = 0 /\ bl_align b = al /\ (bl_size b = N.of_nat (length (bl_cells b) * n)) /\
      exists base, H !! id = Some (HBlk base al (col_bytes f n (bl_cells b))) /\ (al | base)%N
  | _, _ => False
  end.
(** The descriptor lists component types of [U], sorted by id. *)
Definition knows (U : list ctype) (d : adesc) : Prop :=
  exists cs, ad_components d = map cdesc_of cs /\ in_U U cs /\ strict (ids_of cs).
Section sim.
Context {U : list ctype}.
Record arel (H : gmap N hblk) (a : arch) (A : barch) : Prop := {
  ar_desc : b_desc A = a_desc a;
  ar_knows : knows U (a_desc a);
  ar_count : b_count A = a_count a;
  ar_cap : b_cap A = a_cap a;
  ar_len : length (b_ptrs A) = length (a_ptrs a);
  ar_col : forall i d p q, a_comps a !! i = Some d -> a_ptrs a !! i = Some p -> b_ptrs A !! i = Some q ->
    prel (val_bytes (dsize d)) (dsize d) (cd_align d) H p q;
  ar_rest : forall i p q, a_comps a !! i = None -> a_ptrs a !! i = Some p -> b_ptrs A !! i = Some q -> p = None /\ q = None;
  ar_assoc : prel handle_bytes 4 4 H (a_assoc a) (b_assoc A);
}.
(** The blocks an archetype owns. *)
Definition ptr_id (p : bptr) : option N := fst <$> p.
Definition own (A : barch) : list N := omap ptr_id (b_assoc A :: b_ptrs A).
Record ast (F : list N) (s : arch * env) (S : barch * mem) : Prop := {
  as_rel : arel (m_blocks S.2) s.1 S.1;
  as_nd : NoDup (own S.1 ++ F);
  as_dom : forall id, is_Some (m_blocks S.2 !! id) <-> id ∈ own S.1 ++ F;
  as_next : forall id, id ∈ own S.1 ++ F -> (id < m_next S.2)%N;
  as_env : m_env S.2 = s.2;
}.
Definition kept (F : list N) (m m' : mem) : Prop := forall id, id ∈ F -> m_blocks m' !! id = m_blocks m !! id.
Lemma kept_refl F m : kept F m m. Proof. by intros id. Qed.
Lemma kept_trans F m1 m2 m3 : kept F m1 m2 -> kept F m2 m3 -> kept F m1 m3.
Proof. intros H1 H2 id Hid. by rewrite H2, H1. Qed.

(** Positions of owned blocks. *)
Lemma omap_elem {X Y} (f : X -> option Y) (l : list X) (i : nat) x y : l !! i = Some x -> f x = Some y -> y ∈ omap f l.
Proof. intros H1 H2. apply elem_of_list_omap. exists x. split; [by eapply elem_of_list_lookup_2|done]. Qed.
Lemma omap_inj {X Y} (f : X -> option Y) (l : list X) (i j : nat) x x' y :
  NoDup (omap f l) -> l !! i = Some x -> l !! j = Some x' -> f x = Some y -> f x' = Some y -> i = j.
Proof.
  revert i j. induction l as [|z l IH]; intros i j Hn Hi Hj Hx Hx'; [done|].
  assert (Hz : NoDup (omap f l)) by (cbn in Hn; destruct (f z); [by apply NoDup_cons in Hn as [_ ?]|done]).
  destruct i as [|i], j as [|j]; cbn in Hi, Hj.
  - done.
  - injection Hi as ->. exfalso. cbn in Hn. rewrite Hx in Hn. apply NoDup_cons in Hn as [Hn _]. apply Hn. by eapply omap_elem.
  - injection Hj as ->. exfalso. cbn in Hn. rewrite Hx' in Hn. apply NoDup_cons in Hn as [Hn _]. apply Hn. by eapply omap_elem.
  - f_equal. by eapply IH.
Qed.
Lemma own_ptr A i id o : b_ptrs A !! i = Some (Some (id, o)) -> id ∈ own A.
Proof. intros E. apply (omap_elem _ _ (S i) (Some (id, o))); done. Qed.
Lemma own_assoc A id o : b_assoc A = Some (id, o) -> id ∈ own A.
Proof. intros E. apply (omap_elem _ _ 0 (Some (id, o))); cbn; [by rewrite E|done]. Qed.
Lemma own_ptr_inj A i j id o o' : NoDup (own A) ->
  b_ptrs A !! i = Some (Some (id, o)) -> b_ptrs A !! j = Some (Some (id, o')) -> i = j.
Proof.
  intros Hn Hi Hj. enough (S i = S j) by lia. by eapply (omap_inj ptr_id (b_assoc A :: b_ptrs A)).
Qed.
Lemma own_ptr_assoc A i id o o' : NoDup (own A) ->
  b_ptrs A !! i = Some (Some (id, o)) -> b_assoc A = Some (id, o') -> False.
Proof.
  intros Hn Hi Ha. enough (S i = 0) by lia.
  eapply (omap_inj ptr_id (b_assoc A :: b_ptrs A) _ _ _ (Some (id, o'))); [done|done|cbn; by rewrite Ha|done|done].
Qed.
Lemma as_nd_own F s S1 : ast F s S1 -> NoDup (own S1.1).
Proof. intros H. by destruct (proj1 (NoDup_app _ _) (as_nd _ _ _ H)). Qed.
Lemma as_not_F F s S1 id : ast F s S1 -> id ∈ own S1.1 -> id ∉ F.
Proof. intros H Hid. destruct (proj1 (NoDup_app _ _) (as_nd _ _ _ H)) as (_&Hx&_). by apply Hx. Qed.

(** A block update outside an archetype, or in one of its columns. *)
Lemma prel_frame {A} f n al H H' (p : ptr A) q :
  prel f n al H p q -> (forall id o, q = Some (id, o) -> H' !! id = H !! id) -> prel f n al H' p q.
Proof.
  intros Hp HH. destruct p as [b|], q as [[id o]|]; cbn in *; try done.
  destruct Hp as (?&?&?&base&Hb&?). split_and!; try done. exists base. by rewrite (HH id o).
Qed.
Lemma arel_frame H H' a A : arel H a A -> (forall id, id ∈ own A -> H' !! id = H !! id) -> arel H' a A.
Proof.
  intros [] HH. split; try done.
  - intros i d p q Hd Hp Hq. eapply prel_frame; [by eapply ar_col0|]. intros id o ->. apply HH. by eapply own_ptr.
  - eapply prel_frame; [done|]. intros id o E. apply HH. by eapply own_assoc.
Qed.

(** ** Simulation of one archetype method *)
Definition sim {X} (F : list N) (s : arch * env) (S : barch * mem) (f : AM X) (g : BAM X) : Prop :=
  ast F s S -> forall x s', f s = Ret x s' -> exists S', g S = Ret x S' /\ ast F s' S' /\ kept F S.2 S'.2.
Lemma sim_bind {X Y} F s S1 (f : AM X) g (k : X -> AM Y) k' :
  sim F s S1 f g ->
  (forall x s' S', f s = Ret x s' -> g S1 = Ret x S' -> sim F s' S' (k x) (k' x)) ->
  sim F s S1 (bind f k) (bind g k').
Proof.
  intros Hf Hk Ha y s2 E. unfold bind in E. destruct (f s) as [x s1|s1|] eqn:Ef; [|done..].
  destruct (Hf Ha _ _ Ef) as (S2&Eg&Ha1&Hk1). destruct (Hk _ _ _ eq_refl Eg Ha1 _ _ E) as (S3&Eg3&Ha3&Hk3).
  exists S3. split; [unfold bind; by rewrite Eg|]. split; [done|]. by eapply kept_trans.
Qed.
Lemma sim_get {X} F s S1 (k : arch -> AM X) k' :
  (ast F s S1 -> sim F s S1 (k s.1) (k' S1.1)) -> sim F s S1 (bind am_get k) (bind bm_get k').
Proof. intros H Ha. exact (H Ha Ha). Qed.
Lemma sim_ret {X} F s S1 (x : X) : sim F s S1 (ret x) (ret x).
Proof. intros Ha y s' E. injection E as <- <-. exists S1. split; [done|]. split; [done|apply kept_refl]. Qed.
Lemma sim_panic {X} F s S1 (g : BAM X) : sim F s S1 mpanic g. Proof. intros Ha y s' E. discriminate. Qed.
Lemma sim_ub {X} F s S1 (g : BAM X) : sim F s S1 mub g. Proof. intros Ha y s' E. discriminate. Qed.
Lemma sim_assert F s S1 b b' : b = b' -> sim F s S1 (massert b) (massert b').
Proof. intros ->. destruct b'; [apply sim_ret|apply sim_panic]. Qed.
Lemma sim_debug F s S1 d b b' : b = b' -> sim F s S1 (mdebug_assert d b) (mdebug_assert d b').
Proof. intros ->. destruct d; [by apply sim_assert|apply sim_ret]. Qed.
Lemma sim_lift {X} F s S1 (x y : rd X) : (forall v, x = Rd v -> y = Rd v) -> sim F s S1 (lift_rd x) (lift_rd y).
Proof.
  intros H Ha v s' E. destruct x as [w| |]; cbn in E; [|done..]. rewrite (H _ eq_refl). exact (sim_ret F s S1 w Ha _ _ E).
Qed.
Lemma sim_rd {X} F s S1 (x : arch -> rd X) (y : barch -> mem -> rd X) :
  (ast F s S1 -> forall v, x s.1 = Rd v -> y S1.1 S1.2 = Rd v) -> sim F s S1 (am_rd x) (bm_rd y).
Proof.
  intros H Ha v s' E. unfold am_rd, bm_rd in *. destruct (x s.1) as [w| |] eqn:Ex; cbn in E; [|done..].
  rewrite (H Ha _ eq_refl). exact (sim_ret F s S1 w Ha _ _ E).
Qed.
Lemma sim_mfor {X} (I : arch -> Prop) F (l : list X) (f : X -> AM unit) (g : X -> BAM unit) s S1 :
  I s.1 ->
  (forall x s S1, x ∈ l -> I s.1 -> ast F s S1 -> sim F s S1 (f x) (g x)) ->
  (forall x s s', x ∈ l -> I s.1 -> f x s = Ret tt s' -> I s'.1) ->
  sim F s S1 (mfor l f) (mfor l g).
Proof.
  revert s S1. induction l as [|x l IH]; intros s S1 HI Hs Hp; cbn [mfor]; [apply sim_ret|]. intros Ha.
  apply sim_bind; [|intros [] s' S' Ef Eg|done].
  - intros Ha'. apply Hs; [apply elem_of_list_here|done|done|done].
  - apply IH; [eapply Hp; [apply elem_of_list_here|done|done]|..].
    + intros y t T Hy. apply Hs. by apply elem_of_list_further.
    + intros y t t' Hy. apply Hp. by apply elem_of_list_further.
Qed.

(** ** Cells *)
Lemma load_ok H m id base al bs off n :
  m_blocks m = H -> H !! id = Some (HBlk base al bs) -> off + n <= length bs -> load m (Some (id, off)) n = Rd (take n (drop off bs)).
Proof. intros <- E Hl. unfold load. rewrite E. cbn [hb_bytes]. by rewrite (proj2 (Nat.leb_le _ _) Hl). Qed.
Lemma offset_ok m id base al bs k :
  m_blocks m !! id = Some (HBlk base al bs) -> k <= length bs -> offset m (Some (id, 0)) k = Rd (Some (id, k)).
Proof. intros E Hl. unfold offset. rewrite E. cbn [hb_bytes Nat.add]. by rewrite (proj2 (Nat.leb_le _ _) Hl). Qed.
Definition upd_block (m : mem) (id : N) (base al : N) (bs : list mbyte) : mem :=
  Mem (<[id := HBlk base al bs]> (m_blocks m)) (m_next m) (m_place m) (m_env m).
Lemma store_ok m id base al bs off new :
  m_blocks m !! id = Some (HBlk base al bs) -> off + length new <= length bs ->
  store (Some (id, off)) new m = Ret tt (upd_block m id base al (take off bs ++ new ++ drop (off + length new) bs)).
Proof. intros E Hl. unfold store. rewrite E. cbn [hb_bytes hb_base hb_align]. by rewrite (proj2 (Nat.leb_le _ _) Hl). Qed.

(** A readable cell and the bytes behind it. *)
Lemma cell_here H a A i row c d :
  arel H a A -> a_comps a !! i = Some d -> raw_cell a i row = Rd c ->
  exists id base b, a_ptrs a !! i = Some (Some b) /\ bl_cells b !! row = Some c /\ b_ptrs A !! i = Some (Some (id, 0)) /\
    H !! id = Some (HBlk base (cd_align d) (vcol (dsize d) (bl_cells b))) /\ (cd_align d | base)%N /\
    bl_align b = cd_align d /\ bl_size b = N.of_nat (length (bl_cells b) * dsize d).
Proof.
  intros Ha Hd E. unfold raw_cell in E. destruct (a_ptrs a !! i) as [[b|]|] eqn:Ep; [|done|done].
  destruct (bl_cells b !! row) as [c'|] eqn:Ec; [|done]. injection E as ->.
  destruct (lookup_lt_is_Some_2 (b_ptrs A) i) as [q Eq].
  { rewrite (ar_len _ _ _ Ha). by eapply lookup_lt_Some. }
  pose proof (ar_col _ _ _ Ha _ _ _ _ Hd Ep Eq) as Hp. destruct q as [[id o]|]; cbn in Hp; [|done].
  destruct Hp as (->&?&?&base&?&?). by exists id, base, b.
Qed.
Lemma cell_load m a A i row c d :
  arel (m_blocks m) a A -> a_comps a !! i = Some d -> raw_cell a i row = Rd c ->
  exists id, b_ptrs A !! i = Some (Some (id, 0)) /\ column_at A m i (row * dsize d) = Rd (Some (id, row * dsize d)) /\
    load m (Some (id, row * dsize d)) (dsize d) = Rd (vcell (dsize d) c).
Proof.
  intros Ha Hd E. destruct (cell_here _ _ _ _ _ _ _ Ha Hd E) as (id&base&b&Hp&Hc&Hq&Hb&_). exists id. split; [done|].
  pose proof (col_bound (val_bytes (dsize d)) (dsize d) (val_bytes_length _) _ _ (lookup_lt_Some _ _ _ Hc)) as Hl. split.
  - unfold column_at. rewrite Hq. eapply offset_ok; [done|]. lia.
  - erewrite load_ok; [|done|exact Hb|lia]. by rewrite (col_read _ _ (val_bytes_length _) _ _ _ Hc).
Qed.
Lemma cell_write F s S1 i row c d s' :
  ast F s S1 -> a_comps s.1 !! i = Some d -> write_cell i row c s = Ret tt s' ->
  exists id m', b_ptrs S1.1 !! i = Some (Some (id, 0)) /\ column_at S1.1 S1.2 i (row * dsize d) = Rd (Some (id, row * dsize d)) /\
    store (Some (id, row * dsize d)) (vcell (dsize d) c) S1.2 = Ret tt m' /\
    ast F s' (S1.1, m') /\ kept F S1.2 m'.
Proof.
  intros Ha Hd E. unfold write_cell in E. destruct (a_ptrs s.1 !! i) as [[b|]|] eqn:Ep; [|done|done].
  destruct (Nat.ltb_spec row (length (bl_cells b))) as [Hr|]; [|done]. injection E as <-.
  destruct (lookup_lt_is_Some_2 _ _ Hr) as [c0 Hc0].
  destruct (cell_here _ _ _ _ _ _ _ (as_rel _ _ _ Ha) Hd ltac:(unfold raw_cell; rewrite Ep, Hc0; reflexivity)) as (id&base&b'&Hp&_&Hq&Hb&Hdiv&Hal&Hsz).
  rewrite Ep in Hp. injection Hp as <-.
  pose proof (col_bound (val_bytes (dsize d)) (dsize d) (val_bytes_length _) _ _ Hr) as Hl.
  exists id, (upd_block S1.2 id base (cd_align d) (vcol (dsize d) (<[row := c]> (bl_cells b)))).
  split; [done|]. split; [unfold column_at; rewrite Hq; eapply offset_ok; [done|]; lia|]. split; [|split].
  - erewrite store_ok; [|done|]; rewrite cell_bytes_length by apply val_bytes_length; [|lia].
    by rewrite col_write by (done || apply val_bytes_length).
  - pose proof (as_nd_own _ _ _ Ha) as Hnd. destruct Ha as [[] Hn Hdom Hnext Henv]. split; cbn in *; try done.
    + split; cbn; try done.
      * by rewrite insert_length.
      * intros j d' p q Hd' Hp' Hq'. destruct (decide (j = i)) as [->|Hji].
        -- rewrite list_lookup_insert in Hp' by (by eapply lookup_lt_Some). injection Hp' as <-.
           change (a_comps s.1 !! i = Some d') in Hd'. rewrite Hd in Hd'. injection Hd' as <-. rewrite Hq in Hq'. injection Hq' as <-. cbn.
           split; [done|]. split; [done|]. split; [by rewrite insert_length|]. exists base. by rewrite lookup_insert.
        -- rewrite list_lookup_insert_ne in Hp' by done. eapply prel_frame; [by eapply ar_col0|].
           intros id' o ->. rewrite lookup_insert_ne; [done|]. intros <-. apply Hji. by eapply own_ptr_inj.
      * intros j p q Hd' Hp' Hq'. destruct (decide (j = i)) as [->|Hji]; [|rewrite list_lookup_insert_ne in Hp' by done; by eapply ar_rest0].
        change (a_comps s.1 !! i = None) in Hd'. by rewrite Hd in Hd'.
      * eapply prel_frame; [done|]. intros id' o E. rewrite lookup_insert_ne; [done|]. intros <-. by eapply own_ptr_assoc.
    + intros id'. destruct (decide (id = id')) as [<-|Hne]; [|by rewrite lookup_insert_ne].
      rewrite lookup_insert. split; [intros _|by eexists]. apply elem_of_app. left. by eapply own_ptr.
  - intros id' Hid. cbn. rewrite lookup_insert_ne; [done|]. intros <-.
    eapply as_not_F; [exact Ha| |exact Hid]. by eapply own_ptr.
Qed.

(** ** Entity handles *)
Lemma assoc_here H a A cells :
  arel H a A -> entity_cells a = Rd cells ->
  exists id base b, a_assoc a = Some b /\ cells = take (a_count a) (bl_cells b) /\ a_count a <= length (bl_cells b) /\ b_assoc A = Some (id, 0) /\
    H !! id = Some (HBlk base 4 (hcol (bl_cells b))) /\ (4 | base)%N /\
    bl_align b = 4%N /\ bl_size b = N.of_nat (length (bl_cells b) * 4).
Proof.
  intros Ha E. unfold entity_cells in E. destruct (a_assoc a) as [b|] eqn:Eb; [|done].
  destruct (Nat.leb_spec (a_count a) (length (bl_cells b))); [|done]. injection E as <-.
  pose proof (ar_assoc _ _ _ Ha) as Hp. rewrite Eb in Hp. destruct (b_assoc A) as [[id o]|]; cbn in Hp; [|done].
  destruct Hp as (->&?&?&base&?&?). by exists id, base, b.
Qed.
Lemma aligned_ok m id base al bs off a :
  m_blocks m !! id = Some (HBlk base al bs) -> (a | base)%N -> (a | N.of_nat off)%N -> a <> 0%N -> aligned m (Some (id, off)) a = true.
Proof.
  intros E H1 H2 H3. unfold aligned. rewrite E. cbn [hb_base]. apply N.eqb_eq. apply N.mod_divide; [done|]. by apply N.divide_add_r.
Qed.
Lemma entities_ok_ok m a A cells : arel (m_blocks m) a A -> entity_cells a = Rd cells -> entities_ok A m = true.
Proof.
  intros Ha E. destruct (assoc_here _ _ _ _ Ha E) as (id&base&b&Hb&->&Hl&Hq&HH&Hdiv&_).
  unfold entities_ok, slice_ok. rewrite Hq, (ar_count _ _ _ Ha). apply andb_true_iff. split.
  - eapply aligned_ok; [done|done|apply N.divide_0_r|done].
  - erewrite load_ok; [done|done|done|]. rewrite (col_bytes_length _ _ handle_bytes_length). unfold hsize. lia.
Qed.
Lemma handle_read m a A cells i h : arel (m_blocks m) a A -> entity_cells a = Rd cells -> cells !! i = Some (Some h) ->
  i < b_count A /\ read_handle m (handle_at (b_assoc A) i) = Rd h.
Proof.
  intros Ha E Hi. destruct (assoc_here _ _ _ _ Ha E) as (id&base&b&Hb&->&Hl&Hq&HH&Hdiv&_).
  apply lookup_take_Some in Hi as [Hi Hlt]. rewrite (ar_count _ _ _ Ha). split; [done|].
  unfold read_handle, handle_at. rewrite Hq. cbn [Nat.add].
  erewrite aligned_ok; [|done|done| |done].
  2: { unfold ENTITY_ALIGN, hsize. exists (N.of_nat i). lia. }
  cbn [negb]. erewrite load_ok; [|done|done|]. 
  - unfold hsize. rewrite (col_read _ _ handle_bytes_length _ _ _ Hi). cbn [rbind cell_bytes]. by rewrite bytes_handle_ok.
  - apply (col_bound _ _ handle_bytes_length). lia.
Qed.
Lemma entities_sim m a A es : arel (m_blocks m) a A -> entities a = Rd es -> b_entities A m = Rd es.
Proof.
  intros Ha E. unfold entities in E. destruct (entity_cells a) as [cells| |] eqn:Ec; cbn [rbind] in E; [|done..].
  unfold b_entities. rewrite (entities_ok_ok _ _ _ _ Ha Ec). cbn [negb].
  assert (Hl : length cells = b_count A).
  { destruct (assoc_here _ _ _ _ Ha Ec) as (id&base&b&Hb&->&Hl&_). rewrite take_length, (ar_count _ _ _ Ha). lia. }
  rewrite <- Hl. assert (Hrd : forall i h, cells !! i = Some (Some h) -> read_handle m (handle_at (b_assoc A) i) = Rd h).
  { intros i h Hi. by eapply handle_read. }
  clear Ec Hl. revert es E. assert (forall k es, rmap read_entity_cell (drop k cells) = Rd es ->
    rmap (fun i => read_handle m (handle_at (b_assoc A) i)) (seq k (length cells - k)) = Rd es) as Hg.
  { intros k. remember (length cells - k) as n eqn:En. revert k En. induction n as [|n IH]; intros k En es E.
    - rewrite drop_ge in E by lia. done.
    - destruct (lookup_lt_is_Some_2 cells k) as [c Hc]; [lia|]. rewrite (drop_S _ _ _ Hc) in E. cbn [rmap seq] in *.
      destruct c as [h|]; cbn [read_entity_cell rbind] in E; [|done]. rewrite (Hrd _ _ Hc). cbn [rbind].
      destruct (rmap read_entity_cell (drop (S k) cells)) as [es'| |] eqn:Er; cbn [rbind] in E; [|done..].
      rewrite (IH (S k) ltac:(lia) _ Er). done. }
  intros es E. rewrite <- (Hg 0 es E). by rewrite Nat.sub_0_r.
Qed.
Lemma entity_at_sim m a A i h : arel (m_blocks m) a A -> entity_at a i = Rd h -> b_entity_at A m i = Rd h.
Proof.
  intros Ha E. unfold entity_at in E. destruct (entity_cells a) as [cells| |] eqn:Ec; cbn [rbind] in E; [|done..].
  destruct (cells !! i) as [[h'|]|] eqn:Ei; cbn in E; [|done..]. injection E as ->.
  destruct (handle_read _ _ _ _ _ _ Ha Ec Ei) as [Hlt Hr]. unfold b_entity_at. rewrite (entities_ok_ok _ _ _ _ Ha Ec). cbn [negb].
  by rewrite (proj2 (Nat.ltb_lt _ _) Hlt).
Qed.
Lemma entity_at_unchecked_sim m a A i h : arel (m_blocks m) a A -> entity_at_unchecked a i = Rd h -> b_entity_at_unchecked A m i = Rd h.
Proof.
  intros Ha E. unfold entity_at_unchecked in E. destruct (entity_cells a) as [cells| |] eqn:Ec; cbn [rbind] in E; [|done..].
  destruct (cells !! i) as [[h'|]|] eqn:Ei; cbn in E; [|done..]. injection E as ->.
  destruct (handle_read _ _ _ _ _ _ Ha Ec Ei) as [Hlt Hr]. unfold b_entity_at_unchecked. rewrite (entities_ok_ok _ _ _ _ Ha Ec). cbn [negb].
  by rewrite (proj2 (Nat.ltb_lt _ _) Hlt).
Qed.
(** Overwriting one handle cell. *)
Lemma assoc_write F s S1 i c cells :
  ast F s S1 -> entity_cells s.1 = Rd cells -> i < length cells ->
  exists m', store (handle_at (b_assoc S1.1) i) (hcell c) S1.2 = Ret tt m' /\
    ast F (set_assoc_cell s.1 i c, s.2) (S1.1, m') /\ kept F S1.2 m'.
Proof.
  intros Ha Ec Hi. destruct (assoc_here _ _ _ _ (as_rel _ _ _ Ha) Ec) as (id&base&b&Hb&->&Hl&Hq&HH&Hdiv&Hal&Hsz).
  rewrite take_length in Hi. assert (Hi' : i < length (bl_cells b)) by lia.
  pose proof (col_bound _ _ handle_bytes_length _ _ Hi') as Hbd.
  exists (upd_block S1.2 id base 4 (hcol (<[i := c]> (bl_cells b)))). split; [|split].
  - unfold handle_at. rewrite Hq. cbn [Nat.add]. unfold hsize. erewrite store_ok; [|done|]; rewrite cell_bytes_length by apply handle_bytes_length; [|lia].
    by rewrite col_write by (done || apply handle_bytes_length).
  - pose proof (as_nd_own _ _ _ Ha) as Hnd. destruct Ha as [[] Hn Hdom Hnext Henv]. unfold set_assoc_cell. rewrite Hb. split; cbn in *; try done.
    + split; cbn; try done.
      * intros j d' p q Hd' Hp' Hq'. eapply prel_frame; [by eapply ar_col0|].
        intros id' o ->. rewrite lookup_insert_ne; [done|]. intros <-. by eapply own_ptr_assoc.
      * rewrite Hq. cbn. split; [done|]. split; [done|]. split; [by rewrite insert_length|]. exists base. by rewrite lookup_insert.
    + intros id'. destruct (decide (id = id')) as [<-|Hne]; [|by rewrite lookup_insert_ne].
      rewrite lookup_insert. split; [intros _|by eexists]. apply elem_of_app. left. by eapply own_assoc.
  - intros id' Hid. cbn. rewrite lookup_insert_ne; [done|]. intros <-.
    eapply as_not_F; [exact Ha| |exact Hid]. by eapply own_assoc.
Qed.
Lemma sim_write_entity F s S1 i h : sim F s S1 (write_entity i h) (b_write_entity i h).
Proof.
  intros Ha [] s' E. unfold write_entity in E. destruct (entity_cells s.1) as [cells| |] eqn:Ec; [|done..].
  destruct (Nat.ltb_spec i (length cells)) as [Hi|]; [|done]. injection E as <-.
  destruct (assoc_write _ _ _ _ (Some h) _ Ha Ec Hi) as (m'&Hs&Ha'&Hk). exists (S1.1, m'). split; [|done].
  unfold b_write_entity. rewrite (entities_ok_ok _ _ _ _ (as_rel _ _ _ Ha) Ec). cbn [negb].
  destruct (assoc_here _ _ _ _ (as_rel _ _ _ Ha) Ec) as (id&base&b&Hb&->&Hl&_). rewrite take_length in Hi.
  rewrite (ar_count _ _ _ (as_rel _ _ _ Ha)). rewrite (proj2 (Nat.ltb_lt _ _)) by lia. unfold bm_mem. cbn [cell_bytes] in Hs. by rewrite Hs.
Qed.
Lemma set_assoc_cells a i c cells : entity_cells a = Rd cells -> entity_cells (set_assoc_cell a i c) = Rd (<[i := c]> cells).
Proof.
  unfold entity_cells, set_assoc_cell. destruct (a_assoc a) as [b|]; [|done]. cbn. rewrite insert_length.
  destruct (_ <=? _); [|done]. intros [= <-]. f_equal. apply list_eq. intros j. destruct (decide (j < a_count a)) as [Hj|Hj].
  - rewrite lookup_take by done. destruct (decide (i = j)) as [->|Hij].
    + destruct (decide (j < length (bl_cells b))) as [Hl|Hl].
      * rewrite !list_lookup_insert; [done| |done]. rewrite take_length. lia.
      * rewrite (list_insert_ge (bl_cells b)) by lia. rewrite (list_insert_ge (take _ _)) by (rewrite take_length; lia). by rewrite lookup_take.
    + rewrite !list_lookup_insert_ne by done. by rewrite lookup_take.
  - rewrite lookup_take_ge by lia. symmetry. apply lookup_ge_None. rewrite insert_length, take_length. lia.
Qed.
Lemma handle_load m a A cells i c : arel (m_blocks m) a A -> entity_cells a = Rd cells -> cells !! i = Some c ->
  i < b_count A /\ load m (handle_at (b_assoc A) i) hsize = Rd (hcell c).
Proof.
  intros Ha E Hi. destruct (assoc_here _ _ _ _ Ha E) as (id&base&b&Hb&->&Hl&Hq&HH&Hdiv&_).
  apply lookup_take_Some in Hi as [Hi Hlt]. rewrite (ar_count _ _ _ Ha). split; [done|].
  unfold handle_at. rewrite Hq. cbn [Nat.add]. erewrite load_ok; [|done|done|].
  - unfold hsize. by rewrite (col_read _ _ handle_bytes_length _ _ _ Hi).
  - apply (col_bound _ _ handle_bytes_length). lia.
Qed.
Lemma sim_swap_assoc F s S1 i j : sim F s S1 (swap_assoc i j) (b_swap_assoc i j).
Proof.
  intros Ha [] s' E. unfold swap_assoc in E. destruct (entity_cells s.1) as [cells| |] eqn:Ec; [|done..].
  destruct (cells !! i) as [c1|] eqn:E1; [|done]. destruct (cells !! j) as [c2|] eqn:E2; [|done]. injection E as <-.
  destruct (handle_load _ _ _ _ _ _ (as_rel _ _ _ Ha) Ec E1) as [Hi L1]. destruct (handle_load _ _ _ _ _ _ (as_rel _ _ _ Ha) Ec E2) as [Hj L2].
  destruct (assoc_write _ _ _ i c2 _ Ha Ec (lookup_lt_Some _ _ _ E1)) as (m1&Hs1&Ha1&Hk1).
  destruct (assoc_write _ _ _ j c1 _ Ha1 (set_assoc_cells _ i c2 _ Ec)) as (m2&Hs2&Ha2&Hk2).
  { rewrite insert_length. by eapply lookup_lt_Some. }
  exists (S1.1, m2). split; [|split; [done|by eapply kept_trans]].
  unfold b_swap_assoc. rewrite (entities_ok_ok _ _ _ _ (as_rel _ _ _ Ha) Ec). cbn [negb].
  rewrite (proj2 (Nat.ltb_lt _ _) Hi), (proj2 (Nat.ltb_lt _ _) Hj). cbn [andb]. unfold bm_mem. unfold bind at 1, get_st.
  rewrite L1, L2. unfold bind. cbn [lift_rd]. rewrite Hs1. cbn in Hs2. by rewrite Hs2.
Qed.
End sim.
