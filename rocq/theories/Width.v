(** Proofs for C68: sizes in bytes as the target computes them. *)
From Verif Require Import WidthModel SpecWidth SpecEntity SpecObs SpecClient EntityProofs SearchProofs MonadProofs DescrProofs ArchProofs ArchOps AregProofs RegProofs RegOps Clients Sizes SpecBase SpecWorld.
Local Open Scope nat_scope.

Lemma reach_iff w size align : layout_size_ok w size align = true <-> in_reach w size align.
Proof.
  unfold layout_size_ok, in_reach. rewrite N.leb_le. pose proof (N.neq_0_lt_0 (2 ^ (w - 1))%N) as H.
  assert (2 ^ (w - 1) <> 0)%N by (apply N.pow_nonzero; lia). lia.
Qed.
Lemma cells_of esz n : esz <> 0%N -> cells_in esz (esz * N.of_nat n) = n.
Proof. intros H. unfold cells_in. rewrite N.mul_comm, N.div_mul by done. apply Nat2N.id. Qed.
(** A size is either in reach, and then computed exactly, or, without a
    wrap-around, refused. *)
Lemma w_size_in w c esz align n : (1 <= w)%N -> in_reach w (esz * N.of_nat n) align -> w_size w c esz align n = Rd (esz * N.of_nat n)%N.
Proof.
  intros Hw Hr. unfold w_size, usize_mul. assert (esz * N.of_nat n < 2 ^ w)%N as Hl.
  { unfold in_reach in Hr. assert (2 ^ (w - 1) <= 2 ^ w)%N by (apply N.pow_le_mono_r; lia). lia. }
  rewrite (proj2 (N.ltb_lt _ _) Hl). cbn [rbind]. by rewrite (proj2 (reach_iff _ _ _) Hr).
Qed.
Lemma w_size_out w c esz align n : (esz * N.of_nat n < 2 ^ w)%N -> ~ in_reach w (esz * N.of_nat n) align -> w_size w c esz align n = RdUB.
Proof.
  intros Hl Hr. unfold w_size, usize_mul. rewrite (proj2 (N.ltb_lt _ _) Hl). cbn [rbind].
  destruct (layout_size_ok w _ align) eqn:E; [|done]. by apply reach_iff in E.
Qed.
Global Instance in_reach_dec w s a : Decision (in_reach w s a).
Proof. unfold in_reach. apply _. Defined.

Section width.
  Context (w : N) (Hw : (32 <= w)%N) (c : cfg).
  (** What is known when the two programs part: [False] where they never do. *)
  Context (L : Prop).
  (** Nothing but the descriptor and the capacity of an archetype matters. *)
  Definition okay (d : adesc) (cap : nat) : Prop :=
    genuine d /\ (N.of_nat cap <= 16777215)%N /\ in_reach w (4 * N.of_nat cap) 4 /\
    Forall (fun x => in_reach w (cd_size x * N.of_nat cap) (cd_align x)) (ad_components d).
  Definition oka (a : arch) : Prop := okay (a_desc a) (a_cap a).
  Definition okt (e : env) : Prop := Forall (meets w) (ev_trace e).

  (** ** Archetype methods *)
  Definition aext {A} (m : AM A) : Prop := forall s,
    match m s with Ret _ t | Panic t => ev_trace s.2 `prefix_of` ev_trace t.2 | UB => True end.
  Definition arel (D : adesc) {A} (m1 m2 : AM A) : Prop := aext m2 /\ forall a e, a_desc a = D -> oka a -> okt e ->
    (L /\ m1 (a, e) = UB /\ forall x t, m2 (a, e) = Ret x t -> ~ okt t.2) \/
    (m1 (a, e) = m2 (a, e) /\
     match m2 (a, e) with Ret _ t | Panic t => oka t.1 /\ a_desc t.1 = D /\ okt t.2 | UB => True end).
  Lemma okt_prefix e e' : ev_trace e `prefix_of` ev_trace e' -> okt e' -> okt e.
  Proof. intros [k Hk]. unfold okt. rewrite Hk. intros H. by apply Forall_app in H as [? _]. Qed.
  Lemma arel_bind D {A B} (m1 m2 : AM A) (k1 k2 : A -> AM B) :
    arel D m1 m2 -> (forall x, arel D (k1 x) (k2 x)) -> arel D (bind m1 k1) (bind m2 k2).
  Proof.
    intros [E1 H1] Hk. assert (Hext : forall x, aext (k2 x)) by (intros; apply Hk). split.
    { intros s. unfold bind. specialize (E1 s). destruct (m2 s) as [x t|t|]; [|done|done]. specialize (Hext x t).
      destruct (k2 x t); [..|done]; by etrans. }
    intros a e HD Ha He. unfold bind. destruct (H1 a e HD Ha He) as [(Hl&Hub&Hno)|[Heq Hp]].
    - left. rewrite Hub. split; [done|]. split; [done|]. intros y t. destruct (m2 (a, e)) as [x [a1 e1]| |] eqn:Em; try done.
      intros Ek Ht. pose proof (Hext x (a1, e1)) as Hx. rewrite Ek in Hx. apply (Hno _ _ eq_refl). by eapply okt_prefix.
    - rewrite Heq. destruct (m2 (a, e)) as [x [a1 e1]|t|] eqn:Em; [|right; done|right; done]. destruct Hp as (Ha1&Hd1&He1). cbn in Ha1, Hd1, He1.
      destruct (Hk x) as [_ Hk']. destruct (Hk' a1 e1 Hd1 Ha1 He1) as [Hl|[Heq2 Hp2]]; [by left|]. by right.
  Qed.
  (** Methods that leave the descriptor, the capacity and the trace (except for
      destructor calls) alone. *)
  Definition still {A} (m : AM A) : Prop := forall s,
    match m s with
    | Ret _ t | Panic t => a_desc t.1 = a_desc s.1 /\ a_cap t.1 = a_cap s.1 /\
        exists vs, ev_trace t.2 = ev_trace s.2 ++ map EvDrop vs
    | UB => True
    end.
  Lemma arel_still D {A} (m : AM A) : still m -> arel D m m.
  Proof.
    intros H. split.
    - intros s. specialize (H s). destruct (m s); [..|done]; destruct H as (_&_&vs&->); by eexists.
    - intros a e HD Ha He. right. split; [done|]. specialize (H (a, e)).
      destruct (m (a, e)) as [x t|t|]; [..|done]; destruct H as (Hd&Hc&vs&Et); cbn in Hd, Hc, Et;
        (split; [by unfold oka; rewrite Hd, Hc|]); (split; [congruence|]); unfold okt; rewrite Et; apply Forall_app;
        (split; [done|]); apply Forall_map, Forall_forall; done.
  Qed.
  Lemma still_bind {A B} (m : AM A) (k : A -> AM B) : still m -> (forall x, still (k x)) -> still (bind m k).
  Proof.
    intros Hm Hk s. unfold bind. specialize (Hm s). destruct (m s) as [x t|t|]; [|done|done]. destruct Hm as (H1&H2&vs&H3).
    specialize (Hk x t). destruct (k x t); [..|done]; destruct Hk as (H4&H5&vs'&H6); rewrite H4, H5, H6, H3, <- app_assoc, <- map_app; eauto.
  Qed.
  Lemma still_same {A} (m : AM A) : (forall s, match m s with Ret _ t | Panic t => a_desc t.1 = a_desc s.1 /\ a_cap t.1 = a_cap s.1 /\ t.2 = s.2 | UB => True end) -> still m.
  Proof.
    intros H s. specialize (H s). destruct (m s); [..|done]; destruct H as (H1&H2&H3); (split; [done|]); (split; [done|]); exists []; by rewrite H3, app_nil_r.
  Qed.
  Lemma still_ret {A} (x : A) : still (ret x). Proof. by apply still_same. Qed.
  Lemma still_panic {A} : still (A := A) mpanic. Proof. by apply still_same. Qed.
  Lemma still_ub {A} : still (A := A) mub. Proof. by apply still_same. Qed.
  Lemma still_get : still am_get. Proof. by apply still_same. Qed.
  Lemma still_upd f : (forall a, a_desc (f a) = a_desc a /\ a_cap (f a) = a_cap a) -> still (am_upd f).
  Proof. intros H. apply still_same. intros s. cbn. destruct (H s.1). done. Qed.
  Lemma still_rd {A} (f : arch -> rd A) : still (am_rd f). Proof. apply still_same. intros s. unfold am_rd, lift_rd. by destruct (f s.1). Qed.
  Lemma still_lift {A} (x : rd A) : still (lift_rd x). Proof. apply still_same. intros s. unfold lift_rd. by destruct x. Qed.
  Lemma still_massert b : still (massert b). Proof. destruct b; [apply still_ret|apply still_panic]. Qed.
  Lemma still_mdebug d b : still (mdebug_assert d b). Proof. destruct d; [apply still_massert|apply still_ret]. Qed.
  Lemma still_drop v : still (am_env (emit (EvDrop v))). Proof. intros s. cbn. split; [done|]. split; [done|]. by exists [v]. Qed.
  Lemma still_mfor {A} (l : list A) f : (forall x, still (f x)) -> still (mfor l f).
  Proof. intros H. induction l as [|x l IH]; cbn [mfor]; [apply still_ret|]. apply still_bind; [apply H|done]. Qed.
  Lemma still_write_cell i row v : still (write_cell i row v).
  Proof. apply still_same. intros s. unfold write_cell. destruct (_ !! _) as [[b|]|]; [|done|done]. by destruct (_ <? _). Qed.
  Lemma set_assoc_cell_same a i x : a_desc (set_assoc_cell a i x) = a_desc a /\ a_cap (set_assoc_cell a i x) = a_cap a.
  Proof. unfold set_assoc_cell. by destruct (a_assoc a). Qed.
  Lemma still_write_entity i h : still (write_entity i h).
  Proof.
    apply still_same. intros s. unfold write_entity. destruct (entity_cells s.1) as [cells| |]; [|done|done]. destruct (_ <? _); [|done]. cbn.
    destruct (set_assoc_cell_same s.1 i (Some h)). done.
  Qed.
  Lemma still_swap_assoc i j : still (swap_assoc i j).
  Proof.
    apply still_same. intros s. unfold swap_assoc. destruct (entity_cells s.1) as [cells| |]; [|done|done].
    destruct (cells !! i) as [c1|]; [|done]. destruct (cells !! j) as [c2|]; [|done]. cbn.
    destruct (set_assoc_cell_same (set_assoc_cell s.1 i c2) j c1) as [-> ->]. by destruct (set_assoc_cell_same s.1 i c2).
  Qed.
  Lemma arel_get D {A} (k1 k2 : arch -> AM A) : (forall a, aext (k2 a)) ->
    (forall a, a_desc a = D -> oka a -> arel D (k1 a) (k2 a)) -> arel D (bind am_get k1) (bind am_get k2).
  Proof.
    intros Hx H. split; [intros s; apply (Hx s.1 s)|]. intros a e HD Ha He. destruct (H a HD Ha) as [_ Hr]. by apply Hr.
  Qed.
End width.
Create HintDb still.
#[export] Hint Resolve still_ret still_panic still_ub still_get still_rd still_lift still_massert still_mdebug still_drop
  still_write_cell still_write_entity still_swap_assoc : still.
Ltac still :=
  repeat first
    [ solve [eauto with still]
    | apply still_bind; [|intros]
    | apply still_upd; intros; split; reflexivity
    | apply still_mfor; intros
    | match goal with |- still (let (_, _) := ?x in _) => destruct x end
    | match goal with |- still (match ?x with _ => _ end) => destruct x end
    | match goal with |- still (if ?x then _ else _) => destruct x end ].
Lemma still_copy_in vals row x : still (copy_in vals row x). Proof. unfold copy_in. still. Qed.
#[export] Hint Resolve still_copy_in : still.
Lemma still_write_entity_unchecked c G row h vs : still (write_entity_unchecked c G row h vs). Proof. unfold write_entity_unchecked. cbv zeta. still. Qed.
#[export] Hint Resolve still_write_entity_unchecked : still.
Lemma still_decrement c : still (decrement_len_unchecked c). Proof. unfold decrement_len_unchecked. still. Qed.
#[export] Hint Resolve still_decrement : still.
Lemma still_write_single C row v : still (write_single_component_unchecked C row v). Proof. unfold write_single_component_unchecked. still. Qed.
Lemma still_swap_cells i j x : still (swap_cells i j x). Proof. unfold swap_cells. still. Qed.
#[export] Hint Resolve still_write_single still_swap_cells : still.
Lemma still_swap_entities i j : still (swap_entities i j). Proof. unfold swap_entities. still. Qed.
Lemma still_drop_cell C i row : still (drop_cell C i row). Proof. unfold drop_cell. still. Qed.
#[export] Hint Resolve still_swap_entities still_drop_cell : still.
Lemma still_run_drop d i s n : still (run_drop_handler d i s n). Proof. unfold run_drop_handler. still. Qed.
#[export] Hint Resolve still_run_drop : still.
Lemma still_drop_entity row : still (drop_entity row). Proof. unfold drop_entity. still. Qed.
Lemma still_drop_entities : still drop_entities. Proof. unfold drop_entities. still. Qed.
#[export] Hint Resolve still_drop_entity still_drop_entities : still.
Lemma still_swap_drop c row : still (swap_drop_unchecked c row). Proof. unfold swap_drop_unchecked. still. Qed.
Lemma still_swap_to_last c row : still (swap_to_last_unchecked c row). Proof. unfold swap_to_last_unchecked. still. Qed.
Lemma still_swap_remove c G row : still (swap_remove_unchecked c G row). Proof. unfold swap_remove_unchecked. still. Qed.
Lemma still_copy_common src i j : still (copy_common_components src i j). Proof. unfold copy_common_components. still. Qed.
#[export] Hint Resolve still_swap_drop still_swap_to_last still_swap_remove still_copy_common : still.

Lemma still_aext {A} (m : AM A) : still m -> aext m.
Proof. intros H s. specialize (H s). destruct (m s); [..|done]; destruct H as (_&_&vs&->); by eexists. Qed.
Lemma aext_bind {A B} (m : AM A) (k : A -> AM B) : aext m -> (forall x, aext (k x)) -> aext (bind m k).
Proof.
  intros Hm Hk s. unfold bind. specialize (Hm s). destruct (m s) as [x t|t|]; [|done|done]. specialize (Hk x t).
  destruct (k x t); [..|done]; by etrans.
Qed.
Lemma aext_env {A} (m : M env A) : (forall e, match m e with Ret _ t | Panic t => ev_trace e `prefix_of` ev_trace t | UB => True end) -> aext (am_env m).
Proof. intros H [a e]. specialize (H e). unfold am_env. cbn. by destruct (m e). Qed.
Lemma aext_mfor {A} (l : list A) f : (forall x, aext (f x)) -> aext (mfor l f).
Proof. intros H. induction l as [|x l IH]; cbn [mfor]; [apply still_aext, still_ret|]. apply aext_bind; [apply H|done]. Qed.
Lemma realloc_ext {A} (p : ptr A) o al n k e : match mem_realloc p o al n k e with Ret _ t | Panic t => ev_trace e `prefix_of` ev_trace t | UB => True end.
Proof.
  unfold mem_realloc. destruct p as [b|]; [|done]. destruct (_ && _); [|done]. unfold bind, ask_allocator. destruct (ev_oracle e) as [|[] o']; cbn; try done; by eexists.
Qed.
Lemma dealloc_ext {A} (p : ptr A) s al e : match mem_dealloc p s al e with Ret _ t | Panic t => ev_trace e `prefix_of` ev_trace t | UB => True end.
Proof. unfold mem_dealloc. destruct p as [b|]; [|done]. destruct (_ && _); [|done]. cbn. by eexists. Qed.
Lemma aext_dealloc_columns ds : aext (dealloc_columns ds).
Proof.
  induction ds as [|[i d] ds IH]; cbn [dealloc_columns]; [apply still_aext, still_ret|]. apply aext_bind; [apply still_aext, still_get|]. intros a.
  destruct (a_ptrs a !! i) as [[b|]|]; [|apply still_aext; still..]. apply aext_bind; [apply aext_env, dealloc_ext|]. intros _.
  apply aext_bind; [apply still_aext; still|]. by intros _.
Qed.
Lemma aext_upd f : aext (am_upd f). Proof. intros s. cbn. reflexivity. Qed.
Lemma aext_dealloc : aext a_dealloc.
Proof.
  unfold a_dealloc. apply aext_bind; [apply still_aext, still_get|]. intros a. apply aext_bind; [apply aext_dealloc_columns|]. intros [|]; [|apply still_aext, still_ret].
  apply aext_bind; [apply still_aext, still_get|]. intros a'. apply aext_bind; [apply aext_env, dealloc_ext|]. intros _. apply aext_upd.
Qed.
Lemma aext_realloc_column o n x : aext (realloc_column o n x).
Proof.
  destruct x as [i d]. cbn [realloc_column]. apply aext_bind; [apply still_aext, still_get|]. intros a. destruct (a_ptrs a !! i) as [p|]; [|apply still_aext, still_panic].
  apply aext_bind; [apply aext_env, realloc_ext|]. intros p'. apply aext_bind; [apply aext_upd|]. intros _. apply still_aext, still_massert.
Qed.
Lemma aext_resize z : aext (resize_capacity z).
Proof.
  unfold resize_capacity. apply aext_bind; [apply still_aext, still_get|]. intros a. cbv zeta. destruct (_ || _); [apply aext_dealloc|].
  apply aext_bind; [apply aext_env, realloc_ext|]. intros p. apply aext_bind; [apply aext_upd|]. intros _. apply aext_bind; [apply still_aext, still_massert|]. intros _.
  apply aext_bind; [apply aext_mfor, aext_realloc_column|]. intros _. apply aext_upd.
Qed.

Section memory.
  Context (w : N) (Hw : (32 <= w)%N) (c : cfg) (L : Prop).
  Local Notation arel := (arel w L).
  Local Notation oka := (oka w).
  Local Notation okt := (okt w).
  (** Only one case is not an equation. *)
  Lemma arel_eq D {A} (m1 m2 : AM A) : aext m2 -> (forall a e, a_desc a = D -> oka a -> okt e ->
    m1 (a, e) = m2 (a, e) /\ match m2 (a, e) with Ret _ t | Panic t => oka t.1 /\ a_desc t.1 = D /\ okt t.2 | UB => True end) -> arel D m1 m2.
  Proof. intros Hx H. split; [done|]. intros a e HD Ha He. right. by apply H. Qed.
  Lemma arel_w_dealloc D {A} (p : ptr A) esz align n : in_reach w (esz * N.of_nat n) align ->
    arel D (am_env (w_dealloc w c p esz align n)) (am_env (mem_dealloc p (esz * N.of_nat n)%N align)).
  Proof.
    intros Hr. apply arel_eq; [apply aext_env, dealloc_ext|]. intros a e HD Ha He. unfold am_env, w_dealloc. cbn [snd].
    erewrite bind_Ret; [|rewrite w_size_in by (done || lia); done]. split; [done|].
    unfold mem_dealloc. destruct p as [b|]; [|done]. destruct (_ && _); [|done]. cbn. split; [done|]. split; [done|].
    apply Forall_app. split; [done|]. by repeat constructor.
  Qed.
  (** A reallocation, the new pointer stored, and the check that it is not null. *)
  Definition regrow {A} (m : M env (ptr A)) (f : ptr A -> arch -> arch) : AM unit :=
    let! p := am_env m in am_upd (f p) ;;! massert (match p with Some _ => true | None => false end).
  Lemma regrow_ext {A} (m : M env (ptr A)) f : aext (am_env m) -> aext (regrow m f).
  Proof. intros H. apply aext_bind; [done|]. intros p. apply aext_bind; [apply aext_upd|]. intros _. apply still_aext, still_massert. Qed.
  Lemma arel_regrow (HL : (w < 64)%N -> L) D {A} (p : ptr A) f esz align old new : (forall p a, a_desc (f p a) = a_desc a /\ a_cap (f p a) = a_cap a) ->
    in_reach w (esz * N.of_nat old) align -> (esz * N.of_nat new < 2 ^ w)%N -> (N.of_nat new <= 16777215)%N -> (esz < 65536)%N -> (align < 65536)%N ->
    arel D (regrow (w_realloc w c p esz align old new) f) (regrow (mem_realloc p (esz * N.of_nat old)%N align (esz * N.of_nat new)%N new) f).
  Proof.
    intros Hf Hr Hn Hn' Hs Hal. split; [apply regrow_ext, aext_env, realloc_ext|]. intros a e HD Ha He.
    assert (E0 : forall k : N -> M env (ptr A), bind (lift_rd (w_size w c esz align old)) k e = k (esz * N.of_nat old)%N e).
    { intros k. by rewrite w_size_in by (done || lia). }
    assert (Hok : forall e', okt e' -> forall p, oka (f p a) /\ a_desc (f p a) = D /\ okt e').
    { intros e' He' q. destruct (Hf q a) as [H1 H2]. split; [by unfold Width.oka; rewrite H1, H2|]. by rewrite H1. }
    destruct (decide (in_reach w (esz * N.of_nat new) align)) as [Hr'|Hr'].
    - right. assert (E1 : w_realloc w c p esz align old new e = mem_realloc p (esz * N.of_nat old)%N align (esz * N.of_nat new)%N new e).
      { unfold w_realloc. rewrite E0. rewrite w_size_in by (done || lia). unfold bind, lift_rd, ret.
        destruct (N.eq_dec esz 0) as [->|Hz]; [|by rewrite cells_of].
        unfold mem_realloc. destruct p as [b|]; [|done]. by rewrite !andb_false_r. }
      unfold regrow, bind, am_env. cbn [fst snd]. rewrite E1. split; [done|].
      unfold mem_realloc. destruct p as [b|]; [|done]. destruct (_ && _); [|done]. unfold bind, ask_allocator.
      destruct (ev_oracle e) as [|[] o']; cbn; apply Hok; try done; (apply Forall_app; split; [done|]); by repeat constructor.
    - left. split.
      { apply HL. destruct (N.lt_ge_cases w 64) as [|Hge]; [done|]. exfalso. apply Hr'. unfold in_reach.
        assert (2 ^ 63 <= 2 ^ (w - 1))%N by (apply N.pow_le_mono_r; lia). change (2 ^ 63)%N with 9223372036854775808%N in *.
        assert (esz * N.of_nat new <= 65535 * 16777215)%N by (apply N.mul_le_mono; lia). lia. }
      split.
      + unfold regrow, am_env, bind at 1. cbn [fst snd]. unfold w_realloc. rewrite E0. unfold bind at 1. by rewrite w_size_out.
      + intros x t. unfold regrow, am_env, bind at 1. cbn [fst snd]. unfold mem_realloc. destruct p as [b|]; [|done]. destruct (_ && _); [|done]. unfold bind, ask_allocator.
        destruct (ev_oracle e) as [|[] o']; cbn; try done; intros [= _ <-] [_ Ht]%Forall_app; apply Forall_cons in Ht as [[_ Ht] _]; done.
  Qed.

  (** Sizes of component types. *)
  Lemma genuine_small d x : genuine d -> x ∈ ad_components d -> (cd_size x < 65536)%N /\ (cd_align x < 65536)%N.
  Proof. intros (_&_&H) Hx. destruct (proj1 (Forall_forall _ _) H x Hx) as [C ->]. cbn. split; apply N.mod_lt; lia. Qed.
  Lemma enum_elem {A} (l : list A) i x : (i, x) ∈ enum l -> x ∈ l.
  Proof. unfold enum. apply elem_of_zip_r. Qed.

  Lemma arel_dealloc_columns D ds : (forall i x, (i, x) ∈ ds -> x ∈ ad_components D) ->
    arel D (w_dealloc_columns w c ds) (dealloc_columns ds).
  Proof.
    induction ds as [|[i d] ds IH]; intros Hds; cbn [dealloc_columns w_dealloc_columns]; [apply arel_still, still_ret|].
    apply arel_get; [intros a; destruct (a_ptrs a !! i) as [[b|]|]; [|apply still_aext; still..]; apply aext_bind; [apply aext_env, dealloc_ext|]; intros _;
      apply aext_bind; [apply aext_upd|]; intros _; apply aext_dealloc_columns|].
    intros a HD Ha. destruct (a_ptrs a !! i) as [[b|]|]; [|apply arel_still; still..].
    apply arel_bind; [apply arel_w_dealloc; rewrite <- HD in Hds; destruct Ha as (_&_&_&Hf); apply (proj1 (Forall_forall _ _) Hf), (Hds i), elem_of_list_here|].
    intros _. apply arel_bind; [apply arel_still; still|]. intros _. apply IH. intros j x Hx. apply (Hds j). by apply elem_of_list_further.
  Qed.
  Lemma in_reach_zero align : (align < 65536)%N -> in_reach w 0 align.
  Proof. intros H. unfold in_reach. assert (2 ^ 31 <= 2 ^ (w - 1))%N by (apply N.pow_le_mono_r; lia). change (2 ^ 31)%N with 2147483648%N in *. lia. Qed.
  Lemma arel_drop_cap D : arel D (am_upd (fun a => set_cap (set_assoc a None) 0)) (am_upd (fun a => set_cap (set_assoc a None) 0)).
  Proof.
    apply arel_eq; [apply aext_upd|]. intros a e HD Ha He. split; [done|]. cbn. split; [|done]. destruct Ha as (Hg&_). split; [done|]. split; [done|].
    split; [by apply in_reach_zero|]. apply Forall_forall. intros x Hx. cbn. rewrite N.mul_0_r. apply in_reach_zero. by destruct (genuine_small _ x Hg Hx).
  Qed.
  Lemma arel_dealloc D : arel D (w_dealloc_arch w c) a_dealloc.
  Proof.
    unfold w_dealloc_arch, a_dealloc. apply arel_get.
    { intros a. apply aext_bind; [apply aext_dealloc_columns|]. intros [|]; [|apply still_aext, still_ret].
      apply aext_bind; [apply still_aext, still_get|]. intros a'. apply aext_bind; [apply aext_env, dealloc_ext|]. intros _. apply aext_upd. }
    intros a HD Ha. apply arel_bind.
    - apply arel_dealloc_columns. intros i x Hx. rewrite <- HD. by eapply enum_elem.
    - intros [|]; [|apply arel_still, still_ret]. apply arel_get; [intros a'; apply aext_bind; [apply aext_env, dealloc_ext|]; intros _; apply aext_upd|].
      intros a' _ Ha'. apply arel_bind; [apply arel_w_dealloc; apply Ha'|]. intros _. apply arel_drop_cap.
  Qed.
  Lemma arel_mfor D {A} (l : list A) f1 f2 : (forall x, x ∈ l -> arel D (f1 x) (f2 x)) -> arel D (mfor l f1) (mfor l f2).
  Proof.
    induction l as [|x l IH]; intros H; cbn [mfor]; [apply arel_still, still_ret|]. apply arel_bind; [apply H, elem_of_list_here|]. intros _. apply IH.
    intros y Hy. apply H. by apply elem_of_list_further.
  Qed.
  Lemma arel_pointwise D {A} (m1 m2 n1 n2 : AM A) : (forall s, m1 s = n1 s) -> (forall s, m2 s = n2 s) -> arel D n1 n2 -> arel D m1 m2.
  Proof.
    intros E1 E2 [H1 H2]. split; [intros s; rewrite E2; apply H1|]. intros a e. rewrite E1, E2. apply H2.
  Qed.
  Lemma bind_assoc {S A B C} (m : M S A) (k : A -> M S B) (h : B -> M S C) s : bind (bind m k) h s = bind m (fun x => bind (k x) h) s.
  Proof. unfold bind. by destruct (m s). Qed.
  Lemma arel_bind_q (Q : Prop) D {A B} (m1 m2 : AM A) (k1 k2 : A -> AM B) :
    arel D m1 m2 -> (forall s x t, m1 s = Ret x t -> Q) -> (forall x, aext (k2 x)) -> (Q -> forall x, arel D (k1 x) (k2 x)) -> arel D (bind m1 k1) (bind m2 k2).
  Proof.
    intros [E1 H1] HQ Hx Hk. split; [by apply aext_bind|].
    intros a e HD Ha He. unfold bind. destruct (H1 a e HD Ha He) as [(Hl&Hub&Hno)|[Heq Hp]].
    - left. rewrite Hub. split; [done|]. split; [done|]. intros y t. destruct (m2 (a, e)) as [x [a1 e1]| |] eqn:Em; try done.
      intros Ek Ht. pose proof (Hx x (a1, e1)) as Hx1. rewrite Ek in Hx1. apply (Hno _ _ eq_refl). by eapply okt_prefix.
    - rewrite Heq. destruct (m2 (a, e)) as [x [a1 e1]|t|] eqn:Em; [|right; done|right; done]. destruct Hp as (Ha1&Hd1&He1). cbn in Ha1, Hd1, He1.
      destruct (Hk (HQ _ _ _ Heq) x) as [_ Hk']. by apply Hk'.
  Qed.
  Lemma regrow_reach {A} (p : ptr A) f esz align old new s x t : (esz * N.of_nat new < 2 ^ w)%N ->
    regrow (w_realloc w c p esz align old new) f s = Ret x t -> in_reach w (esz * N.of_nat new) align.
  Proof.
    intros Hn. unfold regrow. intros (p'&t1&E&_)%bind_Ret_inv. unfold am_env in E. destruct (w_realloc w c p esz align old new s.2) as [q e1| |] eqn:Er; try done.
    unfold w_realloc in Er. apply bind_Ret_inv in Er as (o&e2&_&Er). apply bind_Ret_inv in Er as (n&e3&Er&_).
    destruct (decide (in_reach w (esz * N.of_nat new) align)) as [|Hno]; [done|]. by rewrite w_size_out in Er.
  Qed.
  Lemma arel_realloc_column (HL : (w < 64)%N -> L) D old new i d : d ∈ ad_components D -> genuine D -> in_reach w (cd_size d * N.of_nat old) (cd_align d) ->
    (cd_size d * N.of_nat new < 2 ^ w)%N -> (N.of_nat new <= 16777215)%N ->
    arel D (w_realloc_column w c old new (i, d)) (realloc_column old new (i, d)).
  Proof.
    intros Hd Hg Hr Hn Hn'. destruct (genuine_small D d Hg Hd) as [Hs Hal]. cbn [realloc_column w_realloc_column]. apply arel_get.
    - intros a. destruct (a_ptrs a !! i) as [p|]; [|apply still_aext, still_panic]. apply regrow_ext, aext_env, realloc_ext.
    - intros a _ _. destruct (a_ptrs a !! i) as [p|]; [|apply arel_still, still_panic]. by apply arel_regrow.
  Qed.
  Lemma column_reach old new i d s x t : (cd_size d * N.of_nat new < 2 ^ w)%N -> w_realloc_column w c old new (i, d) s = Ret x t ->
    in_reach w (cd_size d * N.of_nat new) (cd_align d).
  Proof.
    intros Hn. cbn [w_realloc_column]. unfold bind at 1, am_get. destruct (a_ptrs s.1 !! i) as [p|]; [|done]. by apply regrow_reach.
  Qed.
  Lemma columns_reach old new l s x t : Forall (fun d => (cd_size d * N.of_nat new < 2 ^ w)%N) (map snd l) -> mfor l (w_realloc_column w c old new) s = Ret x t ->
    Forall (fun d => in_reach w (cd_size d * N.of_nat new) (cd_align d)) (map snd l).
  Proof.
    revert s. induction l as [|[i d] l IH]; intros s Hl; cbn [mfor map snd] in *; [constructor|]. apply Forall_cons in Hl as [H1 Hl].
    intros (y&t1&E1&E2)%bind_Ret_inv. constructor; [by eapply column_reach|by eapply IH].
  Qed.
  Lemma enum_snd {A} (l : list A) : map snd (enum l) = l.
  Proof. unfold enum. apply snd_zip. by rewrite seq_length. Qed.
  (** The capacity after growing. *)
  Definition grown (cap : nat) : Z := (Z.of_nat cap + Z.of_nat (if (cap =? 0)%nat then DEFAULT_ARCHETYPE_ALLOCATION_SIZE else cap))%Z.
  Lemma grown_pos cap : (0 < grown cap)%Z.
  Proof. unfold grown. change DEFAULT_ARCHETYPE_ALLOCATION_SIZE with 128. destruct (Nat.eqb_spec cap 0); lia. Qed.
  Lemma pow_31 : (2147483648 <= 2 ^ (w - 1))%N.
  Proof. change 2147483648%N with (2 ^ 31)%N. apply N.pow_le_mono_r; lia. Qed.
  Lemma pow_w : (2 ^ w = 2 * 2 ^ (w - 1))%N.
  Proof. rewrite <- N.pow_succ_r'. f_equal. lia. Qed.
  (** Doubling what was in reach does not wrap around. *)
  Lemma grown_no_wrap cap esz align : (esz < 65536)%N -> in_reach w (esz * N.of_nat cap) align -> (esz * N.of_nat (Z.to_nat (grown cap)) < 2 ^ w)%N.
  Proof.
    intros Hs Hr. rewrite pow_w. pose proof pow_31. unfold in_reach in Hr. unfold grown. change DEFAULT_ARCHETYPE_ALLOCATION_SIZE with 128.
    destruct (Nat.eqb_spec cap 0) as [->|Hz].
    - change (N.of_nat (Z.to_nat (Z.of_nat 0 + Z.of_nat 128))) with 128%N. lia.
    - replace (N.of_nat (Z.to_nat (Z.of_nat cap + Z.of_nat cap))) with (2 * N.of_nat cap)%N by lia. lia.
  Qed.
  Definition body (wide : bool) (a : arch) (new : nat) : AM unit :=
    regrow (if wide then w_realloc w c (a_assoc a) ENTITY_SIZE ENTITY_ALIGN (a_cap a) new
            else mem_realloc (a_assoc a) (ENTITY_SIZE * N.of_nat (a_cap a))%N ENTITY_ALIGN (ENTITY_SIZE * N.of_nat new)%N new) (fun p a => set_assoc a p) ;;!
    mfor (enum (a_comps a)) (if wide then w_realloc_column w c (a_cap a) new else realloc_column (a_cap a) new) ;;!
    am_upd (fun a => set_cap a new).
  Definition grow (wide : bool) (a : arch) : AM unit :=
    if is_full a then
      if (Z.of_N MAX_ENTITIES_PER_ARCHETYPE <=? grown (a_cap a))%Z then (if wide then w_dealloc_arch w c else a_dealloc)
      else body wide a (Z.to_nat (grown (a_cap a)))
    else ret tt.
  Lemma grow_ideal s : resize_if_necessary s = bind am_get (grow false) s.
  Proof.
    unfold resize_if_necessary, grow, body, bind, am_get. destruct (is_full s.1); [|done].
    unfold resize_capacity, bind, am_get. cbv zeta. pose proof (grown_pos (a_cap s.1)) as Hp. unfold grown in Hp |- *.
    rewrite (proj2 (Z.leb_gt _ _) Hp). cbn [orb]. destruct (_ <=? _)%Z; [done|]. unfold regrow, bind, am_env. by destruct (mem_realloc _ _ _ _ _ s.2).
  Qed.
  Lemma grow_wide s : w_resize_if_necessary w c s = bind am_get (grow true) s.
  Proof.
    unfold w_resize_if_necessary, grow, body, bind, am_get. destruct (is_full s.1); [|done].
    unfold w_resize_capacity, bind, am_get. cbv zeta. pose proof (grown_pos (a_cap s.1)) as Hp. unfold grown in Hp |- *.
    rewrite (proj2 (Z.leb_gt _ _) Hp). cbn [orb]. destruct (_ <=? _)%Z; [done|]. unfold regrow, bind, am_env. by destruct (w_realloc _ _ _ _ _ _ _ s.2).
  Qed.
  Lemma body_ext a new : aext (body false a new).
  Proof.
    unfold body. apply aext_bind; [apply regrow_ext, aext_env, realloc_ext|]. intros _. apply aext_bind; [apply aext_mfor, aext_realloc_column|]. intros _. apply aext_upd.
  Qed.
  Lemma grow_ext a : aext (grow false a).
  Proof. unfold grow. destruct (is_full a); [|apply still_aext, still_ret]. destruct (_ <=? _)%Z; [apply aext_dealloc|apply body_ext]. Qed.
  Lemma arel_resize (HL : (w < 64)%N -> L) D : arel D (w_resize_if_necessary w c) resize_if_necessary.
  Proof.
    eapply arel_pointwise; [apply grow_wide|apply grow_ideal|]. apply arel_get; [apply grow_ext|]. intros a HD Ha. unfold grow.
    destruct (is_full a); [|apply arel_still, still_ret]. destruct (Z.leb_spec (Z.of_N MAX_ENTITIES_PER_ARCHETYPE) (grown (a_cap a))) as [|Hlt]; [apply arel_dealloc|].
    change (Z.of_N MAX_ENTITIES_PER_ARCHETYPE) with 16777215%Z in Hlt.
    destruct Ha as (Hg&Hcap&Hh&Hcs). set (new := Z.to_nat (grown (a_cap a))).
    assert (Hn : (N.of_nat new <= 16777215)%N) by (unfold new; pose proof (grown_pos (a_cap a)); lia).
    assert (Hwrap : Forall (fun d => (cd_size d * N.of_nat new < 2 ^ w)%N) (a_comps a)).
    { apply Forall_forall. intros x Hx. eapply grown_no_wrap; [by eapply genuine_small|]. by apply (proj1 (Forall_forall _ _) Hcs). }
    assert (Hwrap4 : (4 * N.of_nat new < 2 ^ w)%N) by (by eapply grown_no_wrap).
    unfold body. cbn [negb]. apply (arel_bind_q (in_reach w (4 * N.of_nat new) 4)).
    - apply arel_regrow; done.
    - intros s x t. by apply regrow_reach.
    - intros _. apply aext_bind; [apply aext_mfor, aext_realloc_column|]. intros _. apply aext_upd.
    - intros Hr4 _. apply (arel_bind_q (Forall (fun d => in_reach w (cd_size d * N.of_nat new) (cd_align d)) (a_comps a))).
      + apply arel_mfor. intros [i d] Hd%enum_elem. apply arel_realloc_column; [done|by rewrite <- HD|by rewrite <- HD| |by apply (proj1 (Forall_forall _ _) Hwrap)|done].
        by apply (proj1 (Forall_forall _ _) Hcs).
      + intros s x t E. rewrite <- (enum_snd (a_comps a)). eapply columns_reach; [by rewrite enum_snd|exact E].
      + intros _. apply aext_upd.
      + intros Hrs _. apply arel_eq; [apply aext_upd|]. intros a' e' HD' Ha' He'. split; [done|]. cbn. split; [|done].
        split; [apply Ha'|]. split; [done|]. split; [done|]. cbn. rewrite HD', <- HD. done.
  Qed.
  Lemma arel_push (HL : (w < 64)%N -> L) D G h vs : arel D (w_push_entity w c G h vs) (push_entity_unchecked c G h vs).
  Proof.
    unfold w_push_entity, push_entity_unchecked. cbv zeta. apply arel_bind; [apply arel_still, still_get|]. intros a.
    apply arel_bind; [apply arel_still, still_mdebug|]. intros _. apply arel_bind; [apply arel_still, still_mdebug|]. intros _.
    apply arel_bind; [by apply arel_resize|]. intros _. apply arel_still. still.
  Qed.
  Lemma arel_push_uninit (HL : (w < 64)%N -> L) D : arel D (w_push_uninitialized w c) push_uninitialized_entity.
  Proof. unfold w_push_uninitialized, push_uninitialized_entity. apply arel_bind; [by apply arel_resize|]. intros _. apply arel_still. still. Qed.
  Lemma arel_drop D : arel D (w_drop w c) a_drop.
  Proof.
    unfold w_drop, a_drop. apply arel_bind; [apply arel_still, still_get|]. intros a. destruct (a_cap a =? 0); [apply arel_still, still_ret|].
    apply arel_bind; [apply arel_still, still_drop_entities|]. intros _. apply arel_dealloc.
  Qed.
  (** A new archetype. *)
  Lemma w_alloc_eq {A} esz align n e : (1 <= w)%N -> in_reach w (esz * N.of_nat n) align ->
    w_alloc (A := A) w c esz align n e = mem_alloc (esz * N.of_nat n)%N align n e.
  Proof.
    intros H1 Hr. unfold w_alloc. rewrite w_size_in by done. unfold bind, lift_rd, ret. destruct (N.eq_dec esz 0) as [->|Hz]; [|by rewrite cells_of].
    unfold mem_alloc. done.
  Qed.
  Lemma alloc_columns_eq ds cap e : Forall (fun d => in_reach w (cd_size d * N.of_nat cap) (cd_align d)) ds ->
    w_alloc_columns w c ds cap e = alloc_columns ds cap e.
  Proof.
    intros H. revert e. induction H as [|d ds Hd _ IH]; intros e; [done|]. cbn [w_alloc_columns alloc_columns]. unfold bind. rewrite w_alloc_eq by (done || lia).
    destruct (mem_alloc _ _ _ e) as [[b|] e1| |]; try done. by rewrite IH.
  Qed.
  Lemma with_capacity_eq d cap e : in_reach w (4 * N.of_nat cap) 4 -> Forall (fun d => in_reach w (cd_size d * N.of_nat cap) (cd_align d)) (ad_components d) ->
    w_with_capacity w c d cap e = a_with_capacity d cap e.
  Proof.
    intros H4 H. unfold w_with_capacity, a_with_capacity. unfold bind at 1. unfold bind at 3. destruct (massert (ad_is_valid d) e) as [[] e0| |]; try done.
    destruct (_ && _); [|reflexivity]. unfold bind at 1. unfold bind at 2. change ENTITY_SIZE with 4%N. change ENTITY_ALIGN with 4%N. rewrite w_alloc_eq by (done || lia).
    destruct (mem_alloc _ _ _ e0) as [[b|] e1| |]; try done. unfold bind. by rewrite alloc_columns_eq.
  Qed.
  (** A new archetype of a registry has room for 128: always in reach. *)
  Lemma start_okay d : genuine d -> okay w d 128.
  Proof.
    intros Hg. pose proof pow_31. split; [done|]. split; [done|]. split; [unfold in_reach; change (N.of_nat 128) with 128%N; lia|].
    apply Forall_forall. intros x Hx. destruct (genuine_small d x Hg Hx). unfold in_reach. change (N.of_nat 128) with 128%N. lia.
  Qed.
  Lemma alloc_trace {A} s al n e : match mem_alloc (A := A) s al n e with Ret _ t | Panic t => ev_trace e `prefix_of` ev_trace t /\ (in_reach w s al -> okt e -> okt t) | UB => True end.
  Proof.
    unfold mem_alloc. destruct (_ || _); [done|]. unfold bind, ask_allocator. destruct (ev_oracle e) as [|[] o']; cbn; try done.
    - split; [by eexists|]. intros Hr He. apply Forall_app. split; [done|]. by repeat constructor.
    - split; [by eexists|]. intros Hr He. apply Forall_app. split; [done|]. by repeat constructor.
  Qed.
  Lemma columns_trace ds n e : match alloc_columns ds n e with Ret _ t | Panic t => ev_trace e `prefix_of` ev_trace t /\
    (Forall (fun d => in_reach w (cd_size d * N.of_nat n) (cd_align d)) ds -> okt e -> okt t) | UB => True end.
  Proof.
    revert e. induction ds as [|d ds IH]; intros e; cbn [alloc_columns]; [done|]. unfold bind at 1. pose proof (alloc_trace (A := value) (cd_size d * N.of_nat n)%N (cd_align d) n e) as H.
    destruct (mem_alloc _ _ _ e) as [[b|] e1|e1|]; [..|done]; destruct H as [Hp Ht]; [| |split; [done|]; intros [Hd _]%Forall_cons He; by apply Ht].
    - unfold bind. specialize (IH e1). destruct (alloc_columns ds n e1) as [ps e2|e2|]; [..|done]; destruct IH as [Hp2 Ht2];
        (split; [by etrans|]); intros [Hd Hds]%Forall_cons He; apply Ht2; auto.
    - split; [done|]. intros [Hd Hds]%Forall_cons He. by apply Ht.
  Qed.
  Lemma with_capacity_trace d n e : match a_with_capacity d n e with Ret _ t | Panic t => ev_trace e `prefix_of` ev_trace t /\
    (okay w d n -> okt e -> okt t) | UB => True end.
  Proof.
    unfold a_with_capacity. unfold bind at 1. unfold massert. destruct (ad_is_valid d); [|done]. unfold ret at 1. destruct (_ && _); [|done].
    unfold bind at 1. pose proof (alloc_trace (A := N) (ENTITY_SIZE * N.of_nat n)%N ENTITY_ALIGN n e) as H.
    destruct (mem_alloc _ _ _ e) as [[b|] e1|e1|]; [..|done]; destruct H as [Hp Ht]; [| |split; [done|]; intros (_&_&H4&_) He; by apply Ht].
    - unfold bind. pose proof (columns_trace (ad_components d) n e1) as H2. destruct (alloc_columns _ n e1) as [ps e2|e2|]; [..|done]; destruct H2 as [Hp2 Ht2];
        (split; [by etrans|]); intros (_&_&H4&Hcs) He; apply Ht2; auto.
    - split; [done|]. intros (_&_&H4&_) He. by apply Ht.
  Qed.
End memory.
