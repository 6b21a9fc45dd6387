(** Proofs for C46: failing allocations. *)
From Verif Require Import RegModel SpecTrace MonadProofs DescrProofs ArchProofs ArchOps ArchOps2 ArchOps3 AregProofs RegProofs RegOps RegOps2 Refine Observe Crash SpecObs SpecBase SpecWorld SpecCrash SpecAlloc.
Local Open Scope nat_scope.

(** ** Unless an allocation fails, the allocator's answers do not matter *)
Definition quiet (o o' : list bool) : Prop := exists pre, o = pre ++ o' /\ Forall (fun b => b = true) pre.
Lemma quiet_refl o : quiet o o.
Proof. by exists []. Qed.
Lemma quiet_trans o1 o2 o3 : quiet o1 o2 -> quiet o2 o3 -> quiet o1 o3.
Proof. intros (p & -> & H) (q & -> & H'). exists (p ++ q). split; [by rewrite app_assoc|]. by apply Forall_app. Qed.
Lemma quiet_failed o1 o2 o3 : quiet o1 o2 -> refused o2 o3 -> refused o1 o3.
Proof. intros (p & -> & _) (q & -> & H'). exists (p ++ q). split; [by rewrite app_assoc|]. apply elem_of_app. by right. Qed.
Section osim.
  Context {S : Type} (er : S -> S) (orc : S -> list bool).
  Definition osim {A} (m : M S A) : Prop := forall s,
    match m s with
    | Ret x t => m (er s) = Ret x (er t) /\ quiet (orc s) (orc t)
    | Panic t => (m (er s) = Panic (er t) /\ quiet (orc s) (orc t)) \/ refused (orc s) (orc t)
    | UB => m (er s) = UB
    end.
  Hint Resolve quiet_refl : core.
  Lemma osim_ret {A} (x : A) : osim (ret x).
  Proof. done. Qed.
  Lemma osim_panic {A} : osim (mpanic (A := A)).
  Proof. intros s. by left. Qed.
  Lemma osim_ub {A} : osim (mub (A := A)).
  Proof. done. Qed.
  Lemma osim_assert b : osim (massert b).
  Proof. destruct b; [apply osim_ret|apply osim_panic]. Qed.
  Lemma osim_debug d b : osim (mdebug_assert d b).
  Proof. destruct d; [apply osim_assert|apply osim_ret]. Qed.
  Lemma osim_lift {A} (m : rd A) : osim (lift_rd m).
  Proof. intros s. destruct m; [done|by left|done]. Qed.
  Lemma osim_unwrap {A} (o : option A) : osim (unwrap o).
  Proof. destruct o; [apply osim_ret|apply osim_panic]. Qed.
  Lemma osim_bind {A B} (m : M S A) (k : A -> M S B) : osim m -> (forall x, osim (k x)) -> osim (bind m k).
  Proof.
    intros Hm Hk s. unfold bind. specialize (Hm s). destruct (m s) as [x t|t|].
    - destruct Hm as [-> Hq]. specialize (Hk x t). destruct (k x t) as [y u|u|]; [|destruct Hk as [[Hk Hq']|Hk]|done].
      + destruct Hk as [-> Hq']. split; [done|by eapply quiet_trans].
      + left. split; [done|by eapply quiet_trans].
      + right. by eapply quiet_failed.
    - destruct Hm as [[-> Hq]|Hm]; [by left|by right].
    - by rewrite Hm.
  Qed.
  Lemma osim_mfor {A} (l : list A) f : (forall x, osim (f x)) -> osim (mfor l f).
  Proof. intros H. induction l as [|x l IH]; [apply osim_ret|]. apply osim_bind; [apply H|done]. Qed.
  Lemma osim_mmap {A B} (l : list A) (f : A -> M S B) : (forall x, osim (f x)) -> osim (mmap f l).
  Proof. intros H. induction l as [|x l IH]; [apply osim_ret|]. apply osim_bind; [apply H|]. intros y. apply osim_bind; [done|]. intros. apply osim_ret. Qed.
  (** An allocation whose failure makes the rest panic. *)
  Definition maysim {A} (m : M S (option A)) : Prop := forall s,
    match m s with
    | Ret (Some x) t => m (er s) = Ret (Some x) (er t) /\ quiet (orc s) (orc t)
    | Ret None t => refused (orc s) (orc t)
    | Panic _ => False
    | UB => m (er s) = UB
    end.
  Lemma osim_may {A B} (m : M S (option A)) (k : option A -> M S B) :
    maysim m -> (forall x, osim (k (Some x))) -> (forall s, exists t, k None s = Panic t /\ orc t = orc s) -> osim (bind m k).
  Proof.
    intros Hm Hk Hn s. unfold bind. specialize (Hm s). destruct (m s) as [[x|] t| |]; [| |done|by rewrite Hm].
    - destruct Hm as [-> Hq]. specialize (Hk x t). destruct (k (Some x) t) as [y u|u|]; [|destruct Hk as [[Hk Hq']|Hk]|done].
      + destruct Hk as [-> Hq']. split; [done|by eapply quiet_trans].
      + left. split; [done|by eapply quiet_trans].
      + right. by eapply quiet_failed.
    - destruct (Hn t) as (u & -> & ->). by right.
  Qed.
End osim.
Definition er_env (e : env) : env := Env (ev_trace e) [].
Definition er_am (s : arch * env) : arch * env := (s.1, er_env s.2).
Notation esim := (osim er_env ev_oracle).
Notation asim := (osim er_am (fun s => ev_oracle s.2)).
Notation rsim := (osim heal (fun r => ev_oracle (r_env r))).
#[local] Hint Resolve quiet_refl : core.

Lemma esim_emit ev : esim (emit ev).
Proof. done. Qed.
Lemma quiet_true o : quiet (true :: o) o.
Proof. exists [true]. split; [done|]. by constructor. Qed.
Lemma failed_false o : refused (false :: o) o.
Proof. exists [false]. split; [done|]. left. Qed.
#[local] Hint Resolve quiet_true failed_false : core.
Lemma may_alloc {A} s a n : maysim er_env ev_oracle (mem_alloc (A := A) s a n).
Proof. intros e. unfold mem_alloc. destruct (_ || _); [done|]. unfold bind, ask_allocator. destruct e as [tr [|[] o]]; cbn; auto. Qed.
Lemma may_realloc {A} (p : ptr A) o a n k : maysim er_env ev_oracle (mem_realloc p o a n k).
Proof.
  intros e. unfold mem_realloc. destruct p as [b|]; [|done]. destruct (_ && _ && _); [|done]. unfold bind, ask_allocator.
  destruct e as [tr [|[] o']]; cbn; auto.
Qed.
Lemma esim_dealloc {A} (p : ptr A) s a : esim (mem_dealloc p s a).
Proof. unfold mem_dealloc. destruct p as [b|]; [|apply osim_ub]. destruct (_ && _); [apply esim_emit|apply osim_ub]. Qed.
Lemma esim_columns ds cap : esim (alloc_columns ds cap).
Proof.
  induction ds as [|d ds IH]; [apply osim_ret|]. cbn [alloc_columns]. apply osim_may; [apply may_alloc| |by intros ?; eexists].
  intros x. apply osim_bind; [done|]. intros. apply osim_ret.
Qed.
Lemma esim_with_capacity d cap : esim (a_with_capacity d cap).
Proof.
  unfold a_with_capacity. apply osim_bind; [apply osim_assert|]. intros _. destruct (_ && _); [|apply osim_ret].
  apply osim_may; [apply may_alloc| |by intros ?; eexists]. intros x. apply osim_bind; [apply esim_columns|]. intros. apply osim_ret.
Qed.

Lemma asim_get : asim am_get.
Proof. done. Qed.
Lemma asim_upd f : asim (am_upd f).
Proof. done. Qed.
Lemma asim_rd {A} (f : arch -> rd A) : asim (am_rd f).
Proof. intros s. unfold am_rd. cbn [fst er_am]. destruct (f s.1); [done|by left|done]. Qed.
Lemma asim_env {A} (m : M env A) : esim m -> asim (am_env m).
Proof.
  intros H [a e]. unfold am_env. cbn [fst snd er_am]. specialize (H e). destruct (m e) as [x t|t|]; [|destruct H as [[H ?]|H]|by rewrite H].
  - destruct H as [-> ?]. done.
  - left. by rewrite H.
  - by right.
Qed.
Lemma may_env {A} (m : M env (option A)) : maysim er_env ev_oracle m -> maysim er_am (fun s => ev_oracle s.2) (am_env m).
Proof. intros H [a e]. unfold am_env. cbn [fst snd er_am]. specialize (H e). destruct (m e) as [[x|] t| |]; [by destruct H as [-> ?]|done|done|by rewrite H]. Qed.
Lemma asim_write i r v : asim (write_cell i r v).
Proof.
  intros s. unfold write_cell. cbn [fst snd er_am]. destruct (a_ptrs s.1 !! i) as [[b|]|]; [|done|by left]. by destruct (r <? length (bl_cells b)).
Qed.
Lemma asim_write_entity i h : asim (write_entity i h).
Proof. intros s. unfold write_entity. cbn [fst snd er_am]. destruct (entity_cells s.1) as [l| |]; [|by left|done]. destruct (i <? length l); [done|by left]. Qed.
Create HintDb osim discriminated.
Ltac os :=
  repeat first
    [ solve [simple apply osim_ret] | solve [auto 1 with osim nocore] | apply osim_ret | apply osim_panic | apply osim_ub | apply osim_assert | apply osim_debug | apply osim_lift | apply osim_unwrap
    | apply asim_get | apply asim_upd | apply asim_rd | apply asim_write | apply asim_write_entity | apply esim_emit
    | apply asim_env | apply esim_dealloc
    | apply osim_bind; [|intros ?] | apply osim_mfor; intros ? | apply osim_mmap; intros ?
    | match goal with |- osim _ _ (match ?x with _ => _ end) => destruct x end ].
Lemma asim_swap_assoc f s : asim (swap_assoc f s).
Proof. intros [a e]. unfold swap_assoc. cbn [fst snd er_am]. destruct (entity_cells a) as [l| |]; [|by left|done]. destruct (l !! f), (l !! s); [done|by left..]. Qed.
#[export] Hint Resolve asim_swap_assoc : osim.
Lemma asim_swap_cells f s x : asim (swap_cells f s x).
Proof. unfold swap_cells. os. Qed.
#[export] Hint Resolve asim_swap_cells : osim.
Lemma asim_swap f s : asim (swap_entities f s).
Proof. unfold swap_entities. os. Qed.
#[export] Hint Resolve asim_swap : osim.
Lemma asim_drop_handler d i s n : asim (run_drop_handler d i s n).
Proof. unfold run_drop_handler, drop_cell. os. Qed.
#[export] Hint Resolve asim_drop_handler : osim.
Lemma asim_drop_entity r : asim (drop_entity r).
Proof. unfold drop_entity. os. Qed.
#[export] Hint Resolve asim_drop_entity : osim.
Lemma asim_dec c : asim (decrement_len_unchecked c).
Proof. unfold decrement_len_unchecked. os. Qed.
#[export] Hint Resolve asim_dec : osim.
Lemma asim_swap_drop c r : asim (swap_drop_unchecked c r).
Proof. unfold swap_drop_unchecked. os. Qed.
#[export] Hint Resolve asim_swap_drop : osim.
Lemma asim_swap_to_last c r : asim (swap_to_last_unchecked c r).
Proof. unfold swap_to_last_unchecked. os. Qed.
#[export] Hint Resolve asim_swap_to_last : osim.
Lemma asim_swap_remove c G r : asim (swap_remove_unchecked c G r).
Proof. unfold swap_remove_unchecked. os. Qed.
#[export] Hint Resolve asim_swap_remove : osim.
Lemma asim_dealloc_columns ds : asim (dealloc_columns ds).
Proof. induction ds as [|[i d] ds IH]; cbn [dealloc_columns]; os. Qed.
#[export] Hint Resolve asim_dealloc_columns : osim.
Lemma asim_dealloc : asim a_dealloc.
Proof. unfold a_dealloc. os. Qed.
#[export] Hint Resolve asim_dealloc : osim.
Lemma asim_realloc_column o n x : asim (realloc_column o n x).
Proof.
  destruct x as [i d]. unfold realloc_column. apply osim_bind; [apply asim_get|]. intros a.
  destruct (a_ptrs a !! i) as [q|]; [|apply osim_panic]. apply osim_may; [apply may_env, may_realloc| |by intros ?; eexists]. intros x. os.
Qed.
#[export] Hint Resolve asim_realloc_column : osim.
Lemma asim_resize z : asim (resize_capacity z).
Proof.
  unfold resize_capacity. apply osim_bind; [apply asim_get|]. intros a. cbv zeta. destruct (_ || _); [apply asim_dealloc|].
  apply osim_may; [apply may_env, may_realloc| |by intros ?; eexists]. intros x. os.
Qed.
#[export] Hint Resolve asim_resize : osim.
Lemma asim_resize_if : asim resize_if_necessary.
Proof. unfold resize_if_necessary. os. Qed.
#[export] Hint Resolve asim_resize_if : osim.
Lemma asim_push c G h vs : asim (push_entity_unchecked c G h vs).
Proof. unfold push_entity_unchecked, write_entity_unchecked, copy_in. os. Qed.
#[export] Hint Resolve asim_push : osim.
Lemma asim_push_uninit : asim push_uninitialized_entity.
Proof. unfold push_uninitialized_entity. os. Qed.
#[export] Hint Resolve asim_push_uninit : osim.
Lemma asim_copy a i j : asim (copy_common_components a i j).
Proof. unfold copy_common_components. os. Qed.
#[export] Hint Resolve asim_copy : osim.
Lemma asim_write_single C i v : asim (write_single_component_unchecked C i v).
Proof. unfold write_single_component_unchecked. os. Qed.
#[export] Hint Resolve asim_write_single : osim.


Lemma rsim_get {B} (k : reg -> RM B) : (forall s, k (heal s) = k s) -> (forall s, rsim (k s)) -> rsim (bind rm_get k).
Proof. intros Hk H s. rewrite !rm_get_step, Hk. apply H. Qed.
Lemma rsim_rd {A} (f : reg -> rd A) : (forall s, f (heal s) = f s) -> rsim (rm_rd f).
Proof. intros Hf s. unfold rm_rd. rewrite Hf. destruct (f s); [done|by left|done]. Qed.
Lemma rsim_er {A} (m : M er A) : rsim (rm_er m).
Proof. intros s. unfold rm_er. cbn [r_er heal]. destruct (m (r_er s)); [done|by left|done]. Qed.
Lemma rsim_env {A} (m : M env A) : esim m -> rsim (rm_env m).
Proof.
  intros H s. unfold rm_env. cbn [r_env heal]. specialize (H (r_env s)). change (Env (ev_trace (r_env s)) []) with (er_env (r_env s)).
  destruct (m (r_env s)); [|destruct H as [[H ?]|H]|by rewrite H].
  - destruct H as [-> ?]. done.
  - left. by rewrite H.
  - by right.
Qed.
Lemma rsim_arch {A} i (m : AM A) : asim m -> rsim (with_arch i m).
Proof.
  intros H s. unfold with_arch. cbn [r_ar heal]. destruct (ar_archs (r_ar s) !! i) as [a|]; [|done]. specialize (H (a, r_env s)).
  change (a, r_env (heal s)) with (er_am (a, r_env s)). destruct (m (a, r_env s)); [|destruct H as [[H ?]|H]|by rewrite H].
  - destruct H as [-> ?]. done.
  - left. by rewrite H.
  - by right.
Qed.
Lemma rsim_dop {A} vs (m : RM A) : rsim m -> rsim (dropping_on_panic vs m).
Proof.
  intros H s. unfold dropping_on_panic. specialize (H s). destruct (m s); [|destruct H as [[H ?]|H]|by rewrite H].
  - destruct H as [-> ?]. done.
  - left. by rewrite H.
  - by right.
Qed.
Lemma rsim_entry c h f : rsim (update_entry c h f).
Proof. intros s. unfold update_entry. cbn [r_er heal]. destruct (er_update_entry (big c) (r_er s) h f); [done|by left]. Qed.
Lemma rsim_find d : rsim (find_or_create_archetype d).
Proof.
  unfold find_or_create_archetype. destruct (_ || _); [apply osim_ret|]. destruct (ad_len d =? 0); [apply osim_panic|].
  apply rsim_get; [done|]. intros s. destruct (ar_maps (r_ar s) !! (ad_len d - 1)) as [level|]; [|apply osim_panic].
  destruct (binary_search (map k_id level) (ad_id d)) as [f|ins].
  - destruct (level !! f) as [k|]; [|apply osim_panic]. destruct (k_idx k <? _); [apply osim_ret|apply osim_panic].
  - destruct (_ <=? _)%N; [apply osim_ret|]. apply osim_bind; [apply rsim_env, esim_with_capacity|]. intros a s'. done.
Qed.
#[export] Hint Resolve rsim_er rsim_entry rsim_find osim_ret osim_panic osim_ub osim_assert osim_debug osim_lift osim_unwrap asim_dec asim_write asim_write_entity : osim.
Ltac rs :=
  repeat lazymatch goal with
  | |- osim _ _ (bind rm_get _) => apply rsim_get; [reflexivity|intros ?]
  | |- osim _ _ (bind _ _) => apply osim_bind; [|intros ?]
  | |- osim _ _ (mfor _ _) => apply osim_mfor; intros ?
  | |- osim _ _ (mmap _ _) => apply osim_mmap; intros ?
  | |- osim _ _ (rm_rd _) => apply rsim_rd; intros ?; reflexivity
  | |- osim _ _ (with_arch _ _) => apply rsim_arch
  | |- osim _ _ (dropping_on_panic _ _) => apply rsim_dop
  | |- osim _ _ (match ?x with _ => _ end) => destruct x
  | |- osim _ _ (let x := _ in _) => cbv zeta
  | |- osim _ _ _ => solve [auto 1 with osim nocore]
  end.
Lemma rsim_find_add c i d : rsim (find_or_create_archetype_adding_component c i d).
Proof. unfold find_or_create_archetype_adding_component. rs. Qed.
Lemma rsim_find_del c i d : rsim (find_or_create_archetype_removing_component c i d).
Proof. unfold find_or_create_archetype_removing_component. rs. Qed.
Lemma rsim_create c G vs : rsim (create_entity c G vs).
Proof. unfold create_entity. rs. Qed.
Lemma rsim_destroy c h : rsim (destroy_entity c h).
Proof. unfold destroy_entity. rs. Qed.
Lemma rsim_remove_entity c G h : rsim (remove_entity c G h).
Proof. unfold remove_entity. rs. Qed.
Lemma rsim_add c C h v : rsim (add_component c C h v).
Proof. unfold add_component. rs; apply rsim_find_add. Qed.
Lemma rsim_remove c C h : rsim (remove_component c C h).
Proof. unfold remove_component. rs; apply rsim_find_del. Qed.
Lemma rsim_replace l v : rsim (replace_loc l v).
Proof. unfold replace_loc. rs. Qed.
Lemma rsim_replaces ls vs : rsim (replace_locs ls vs).
Proof. revert vs. induction ls as [|l ls IH]; intros [|v vs]; cbn [replace_locs]; rs. apply rsim_replace. Qed.
Lemma rsim_modify f l : rsim (modify_loc f l).
Proof. unfold modify_loc. rs. apply rsim_replace. Qed.
Lemma rsim_item upd x : rsim (modify_item upd x).
Proof. unfold modify_item. rs. apply rsim_modify. Qed.
Lemma rsim_step c o : rsim (step c o).
Proof.
  destruct o; cbn [step]; unfold modify_items, modify_eitems; rs;
    first [apply rsim_create | apply rsim_destroy | apply rsim_remove_entity | apply rsim_add | apply rsim_remove | apply rsim_replace | apply rsim_replaces | apply rsim_item].
Qed.
Lemma rsim_run c ops : rsim (run c ops).
Proof. induction ops as [|o ops IH]; cbn [run]; rs. apply rsim_step. Qed.

(** ** Calls that do not ask for memory *)
Section still.
  Context {S : Type} (orc : S -> list bool).
  Definition still {A} (m : M S A) : Prop := forall s,
    match m s with Ret _ t | Panic t => orc t = orc s | UB => True end.
  Lemma still_ret {A} (x : A) : still (ret x).
  Proof. done. Qed.
  Lemma still_panic {A} : still (mpanic (A := A)).
  Proof. done. Qed.
  Lemma still_ub {A} : still (mub (A := A)).
  Proof. done. Qed.
  Lemma still_assert b : still (massert b).
  Proof. by destruct b. Qed.
  Lemma still_debug d b : still (mdebug_assert d b).
  Proof. destruct d; [apply still_assert|apply still_ret]. Qed.
  Lemma still_lift {A} (m : rd A) : still (lift_rd m).
  Proof. by destruct m. Qed.
  Lemma still_unwrap {A} (o : option A) : still (unwrap o).
  Proof. by destruct o. Qed.
  Lemma still_bind {A B} (m : M S A) (k : A -> M S B) : still m -> (forall x, still (k x)) -> still (bind m k).
  Proof.
    intros Hm Hk s. unfold bind. specialize (Hm s). destruct (m s) as [x t|t|]; [|done|done].
    specialize (Hk x t). destruct (k x t); [congruence|congruence|done].
  Qed.
  Lemma still_mfor {A} (l : list A) f : (forall x, still (f x)) -> still (mfor l f).
  Proof. intros H. induction l as [|x l IH]; [apply still_ret|]. apply still_bind; [apply H|done]. Qed.
End still.
Notation astill := (still (fun s : arch * env => ev_oracle s.2)).
Notation rstill := (still (fun r : reg => ev_oracle (r_env r))).
Lemma refused_irrefl o : ~ refused o o.
Proof.
  intros (a & E & H). assert (length o = length a + length o) as Hl by (rewrite <- app_length; by f_equal).
  destruct a as [|x a]; [by apply elem_of_nil in H|cbn in Hl; lia].
Qed.
(** Where a panic of a sequence comes from. *)
Section split.
  Context {S : Type} (er : S -> S) (orc : S -> list bool).
  Lemma panic_split {A B} (m : M S A) (k : A -> M S B) s t y u :
    osim er orc m -> bind m k (er s) = Ret y u -> bind m k s = Panic t ->
    (m s = Panic t /\ refused (orc s) (orc t)) \/
    exists x s1, m s = Ret x s1 /\ m (er s) = Ret x (er s1) /\ k x s1 = Panic t /\ k x (er s1) = Ret y u.
  Proof.
    intros Hm E1 E2. unfold bind in *. specialize (Hm s). destruct (m s) as [x s1|t'|]; [| |done].
    - right. destruct Hm as [Hm _]. rewrite Hm in E1. by exists x, s1.
    - left. injection E2 as <-. split; [done|]. destruct Hm as [[Hm _]|Hm]; [|done]. by rewrite Hm in E1.
  Qed.
  Lemma no_panic {A} (m : M S A) s t y u : osim er orc m -> still orc m -> m (er s) = Ret y u -> m s <> Panic t.
  Proof.
    intros Hm Hs E1 E2. specialize (Hm s). specialize (Hs s). rewrite E2 in *. destruct Hm as [[Hm _]|Hm]; [congruence|].
    rewrite Hs in Hm. by apply refused_irrefl in Hm.
  Qed.
  (** Nothing is asked for in [m], so the panic is not there. *)
  Lemma panic_later {A B} (m : M S A) (k : A -> M S B) s t y u :
    osim er orc m -> still orc m -> bind m k (er s) = Ret y u -> bind m k s = Panic t ->
    exists x s1, m s = Ret x s1 /\ m (er s) = Ret x (er s1) /\ k x s1 = Panic t /\ k x (er s1) = Ret y u.
  Proof.
    intros Hm Hs E1 E2. destruct (panic_split m k s t y u Hm E1 E2) as [[Hp Hr]|?]; [|done]. exfalso.
    specialize (Hs s). rewrite Hp in Hs. rewrite Hs in Hr. by apply refused_irrefl in Hr.
  Qed.
  Lemma panic_first {A B} (m : M S A) (k : A -> M S B) s t y u :
    osim er orc m -> (forall x, osim er orc (k x)) -> (forall x, still orc (k x)) -> bind m k (er s) = Ret y u -> bind m k s = Panic t ->
    m s = Panic t.
  Proof.
    intros Hm Hk Hs E1 E2. destruct (panic_split m k s t y u Hm E1 E2) as [[Hp Hr]|(x & s1 & _ & _ & E3 & E4)]; [done|]. exfalso.
    by eapply (no_panic (k x)).
  Qed.
End split.
Lemma astill_write i r v : astill (write_cell i r v).
Proof. intros s. unfold write_cell. destruct (a_ptrs s.1 !! i) as [[b|]|]; [|done|done]. by destruct (r <? length (bl_cells b)). Qed.
Lemma astill_write_entity i h : astill (write_entity i h).
Proof. intros s. unfold write_entity. destruct (entity_cells s.1) as [l| |]; [|done|done]. by destruct (i <? length l). Qed.
Lemma astill_rd {A} (f : arch -> rd A) : astill (am_rd f).
Proof. intros s. unfold am_rd. by destruct (f s.1). Qed.
Lemma astill_get : astill am_get.
Proof. done. Qed.
Lemma astill_upd f : astill (am_upd f).
Proof. done. Qed.
Lemma astill_swap_assoc f s : astill (swap_assoc f s).
Proof. intros [a e]. unfold swap_assoc. cbn [fst snd]. destruct (entity_cells a) as [l| |]; [|done|done]. by destruct (l !! f), (l !! s). Qed.
Lemma rstill_get : rstill rm_get.
Proof. done. Qed.
Lemma rstill_rd {A} (f : reg -> rd A) : rstill (rm_rd f).
Proof. intros s. unfold rm_rd. by destruct (f s). Qed.
Lemma rstill_er {A} (m : M er A) : rstill (rm_er m).
Proof. intros s. unfold rm_er. by destruct (m (r_er s)). Qed.
Lemma rstill_arch {A} i (m : AM A) : astill m -> rstill (with_arch i m).
Proof.
  intros H s. unfold with_arch. destruct (ar_archs (r_ar s) !! i) as [a|]; [|done]. specialize (H (a, r_env s)). by destruct (m (a, r_env s)).
Qed.
Lemma rstill_dop {A} vs (m : RM A) : rstill m -> rstill (dropping_on_panic vs m).
Proof. intros H s. unfold dropping_on_panic. specialize (H s). by destruct (m s). Qed.
Lemma rstill_entry c h f : rstill (update_entry c h f).
Proof. intros s. unfold update_entry. by destruct (er_update_entry (big c) (r_er s) h f). Qed.
Create HintDb still discriminated.
#[export] Hint Resolve still_ret still_panic still_ub still_assert still_debug still_lift still_unwrap astill_write astill_write_entity astill_rd
  astill_get astill_upd astill_swap_assoc rstill_get rstill_rd rstill_er rstill_entry : still.
Ltac st :=
  repeat lazymatch goal with
  | |- still _ (bind _ _) => apply still_bind; [|intros ?]
  | |- still _ (mfor _ _) => apply still_mfor; intros ?
  | |- still _ (with_arch _ _) => apply rstill_arch
  | |- still _ (dropping_on_panic _ _) => apply rstill_dop
  | |- still _ (match ?x with _ => _ end) => destruct x
  | |- still _ (let x := _ in _) => cbv zeta
  | |- still _ _ => solve [auto 1 with still nocore]
  end.
Lemma astill_swap_to_last c r : astill (swap_to_last_unchecked c r).
Proof. unfold swap_to_last_unchecked, swap_entities, swap_cells. st. Qed.
Lemma astill_copy a i j : astill (copy_common_components a i j).
Proof. unfold copy_common_components. st. Qed.
Lemma astill_write_single C i v : astill (write_single_component_unchecked C i v).
Proof. unfold write_single_component_unchecked. st. Qed.
Lemma astill_dec c : astill (decrement_len_unchecked c).
Proof. unfold decrement_len_unchecked. st. Qed.
Lemma astill_write_unchecked c G i h vs : astill (write_entity_unchecked c G i h vs).
Proof. unfold write_entity_unchecked, copy_in. st. Qed.
#[export] Hint Resolve astill_swap_to_last astill_copy astill_write_single astill_dec astill_write_unchecked : still.

(** ** A failed growth *)
Definition grown (n : nat) (p p' : ptr value) : Prop :=
  exists b b', p = Some b /\ p' = Some b' /\ bl_cells b' = take n (bl_cells b) ++ replicate (n - length (bl_cells b)) None.
Definition requests (e e' : env) : Prop := exists evs, ev_trace e' = ev_trace e ++ evs /\ Forall asks evs.
Lemma requests_refl e : requests e e.
Proof. exists []. by rewrite app_nil_r. Qed.
Lemma requests_trans e1 e2 e3 : requests e1 e2 -> requests e2 e3 -> requests e1 e3.
Proof. intros (v1 & E1 & H1) (v2 & E2 & H2). exists (v1 ++ v2). rewrite E2, E1, app_assoc. split; [done|by apply Forall_app]. Qed.
Lemma realloc_cases {A} (p : ptr A) o a n k e :
  match mem_realloc p o a n k e with
  | Ret (Some b') e' => requests e e' /\ exists b, p = Some b /\ bl_cells b' = take k (bl_cells b) ++ replicate (k - length (bl_cells b)) None
  | Ret None e' => requests e e'
  | Panic _ => False
  | UB => True
  end.
Proof.
  unfold mem_realloc. destruct p as [b|]; [|done]. destruct (_ && _ && _); [|done]. unfold bind, ask_allocator.
  destruct e as [tr [|[] l]]; cbn.
  - split; [|eauto]. exists [EvRealloc o a n]. split; [done|]. by repeat constructor.
  - split; [|eauto]. exists [EvRealloc o a n]. split; [done|]. by repeat constructor.
  - exists []. by rewrite app_nil_r.
Qed.
Lemma realloc_column_cases o n i d a e : i < length (a_ptrs a) ->
  match realloc_column o n (i, d) (a, e) with
  | Ret _ (a', e') => requests e e' /\ exists p p', a_ptrs a !! i = Some p /\ grown n p p' /\ a' = set_ptrs a (<[i := p']> (a_ptrs a))
  | Panic (a', e') => requests e e' /\ a' = set_ptrs a (<[i := None]> (a_ptrs a))
  | UB => True
  end.
Proof.
  intros Hi. unfold realloc_column. unfold bind at 1, am_get at 1. cbn [fst].
  destruct (lookup_lt_is_Some_2 _ _ Hi) as [p Hp]. rewrite Hp. unfold bind at 1, am_env. cbn [snd fst].
  pose proof (realloc_cases p (cd_size d * N.of_nat o)%N (cd_align d) (cd_size d * N.of_nat n)%N n e) as Hc.
  destruct (mem_realloc _ _ _ _ _ e) as [[b'|] e'| |]; [| |done|done].
  - destruct Hc as (Hr & b & -> & Hb). cbn. split; [done|]. exists (Some b), (Some b'). split; [done|]. split; [|done]. by exists b, b'.
  - cbn. done.
Qed.
Lemma columns_torn o n l k a e a' e' :
  k + length l <= length (a_ptrs a) -> mfor (zip (seq k (length l)) l) (realloc_column o n) (a, e) = Panic (a', e') ->
  requests e e' /\ exists j ps, k <= j < k + length l /\ a' = set_ptrs a ps /\ ps !! j = Some None /\
    (forall i, i < k \/ j < i -> ps !! i = a_ptrs a !! i) /\
    (forall i, k <= i < j -> exists p p', a_ptrs a !! i = Some p /\ ps !! i = Some p' /\ grown n p p').
Proof.
  revert k a e. induction l as [|d l IH]; intros k a e Hk E; [done|]. cbn [length] in *. cbn [seq zip zip_with mfor] in E.
  unfold bind in E at 1. pose proof (realloc_column_cases o n k d a e ltac:(lia)) as Hc.
  destruct (realloc_column o n (k, d) (a, e)) as [[] [a1 e1]|[a1 e1]|]; [| |done].
  - destruct Hc as (Hr & p & p' & Hp & Hg & ->).
    destruct (IH (S k) (set_ptrs a (<[k:=p']> (a_ptrs a))) e1) as (Hr' & j & ps & Hj & -> & Hn & Ho & Hi); [|exact E|].
    { cbn [a_ptrs set_ptrs]. rewrite insert_length. lia. }
    split; [by eapply requests_trans|]. exists j, ps. split; [lia|]. split; [done|]. split; [done|]. cbn [a_ptrs set_ptrs] in *. split.
    + intros i Hik. rewrite Ho by lia. apply list_lookup_insert_ne. lia.
    + intros i Hik. destruct (decide (i = k)) as [->|Hne].
      * exists p, p'. split; [done|]. split; [|done]. rewrite Ho by lia. by apply list_lookup_insert; eapply lookup_lt_Some.
      * destruct (Hi i ltac:(lia)) as (q & q' & Hq & Hq' & Hgq). exists q, q'. rewrite list_lookup_insert_ne in Hq by lia. done.
  - injection E as <- <-. destruct Hc as (Hr & ->). split; [done|]. exists k, (<[k := None]> (a_ptrs a)). split; [lia|]. split; [done|].
    split; [apply list_lookup_insert; eapply Nat.lt_le_trans; [|exact Hk]; lia|]. split; [|intros; lia]. intros i Hi. apply list_lookup_insert_ne. lia.
Qed.

(** The block that failed to grow: the list of handles, or a column. *)
Definition torn_arch (a a' : arch) (lost : option nat) : Prop :=
  a_desc a' = a_desc a /\ a_count a' = a_count a /\ a_cap a' = a_cap a /\
  match lost with
  | None => a_assoc a' = None /\ a_ptrs a' = a_ptrs a
  | Some k => k < length (a_comps a) /\ a_ptrs a' !! k = Some None /\
      forall i, i <> k -> a_ptrs a' !! i = a_ptrs a !! i \/
        exists p p', a_ptrs a !! i = Some p /\ a_ptrs a' !! i = Some p' /\ grown (a_cap a + a_cap a) p p'
  end.
Lemma resize_torn a e a' e' : length (a_comps a) <= length (a_ptrs a) -> 0 < a_cap a -> (N.of_nat (a_cap a + a_cap a) < 16777215)%N ->
  resize_if_necessary (a, e) = Panic (a', e') -> a_count a = a_cap a /\ requests e e' /\ exists lost, torn_arch a a' lost.
Proof.
  intros Hl Hpos Hmax E. unfold resize_if_necessary in E. unfold bind in E at 1. unfold am_get in E at 1. cbn [fst] in E.
  destruct (is_full a) eqn:Ef; [|done]. apply Nat.eqb_eq in Ef. rewrite (proj2 (Nat.eqb_neq _ 0)) in E by lia.
  unfold resize_capacity in E. unfold bind in E at 1. unfold am_get in E at 1. cbn [fst] in E. cbv zeta in E.
  unfold MAX_ENTITIES_PER_ARCHETYPE, MAX_ENTITY_HANDLE_VALUE in E.
  rewrite (proj2 (Z.leb_gt (Z.of_nat (a_cap a) + Z.of_nat (a_cap a)) 0)) in E by lia.
  rewrite (proj2 (Z.leb_gt (Z.of_N 16777215) (Z.of_nat (a_cap a) + Z.of_nat (a_cap a)))) in E by lia. cbn [orb] in E.
  replace (Z.to_nat (Z.of_nat (a_cap a) + Z.of_nat (a_cap a))) with (a_cap a + a_cap a) in E by lia.
  unfold bind in E at 1. unfold am_env in E. cbn [fst snd] in E.
  pose proof (realloc_cases (a_assoc a) (ENTITY_SIZE * N.of_nat (a_cap a))%N ENTITY_ALIGN (ENTITY_SIZE * N.of_nat (a_cap a + a_cap a))%N (a_cap a + a_cap a) e) as Hc.
  destruct (mem_realloc _ _ _ _ _ e) as [[b'|] e1| |]; [| |done|done].
  - destruct Hc as (Hr & b & Hb & _). unfold bind in E at 1. unfold am_upd in E at 1. cbn [fst snd] in E.
    rewrite (bind_Ret _ _ _ _ _ (massert_true _ _ eq_refl)) in E. unfold bind in E at 1.
    change (enum (a_comps a)) with (zip (seq 0 (length (a_comps a))) (a_comps a)) in E.
    destruct (mfor _ _ (set_assoc a (Some b'), e1)) as [[] [a2 e2]|[a2 e2]|] eqn:Em; [done| |done]. injection E as <- <-.
    apply columns_torn in Em; [|done]. destruct Em as (Hr' & j & ps & Hj & -> & Hn & Ho & Hi). split; [done|]. split; [by eapply requests_trans|].
    exists (Some j). split; [done|]. split; [done|]. split; [done|]. split; [lia|]. split; [done|].
    intros i Hne. cbn [a_ptrs set_ptrs set_assoc] in *. destruct (decide (j < i)); [left; apply Ho; lia|]. right. apply Hi. lia.
  - unfold bind in E at 1. unfold am_upd in E at 1. cbn [fst snd] in E. injection E as <- <-. split; [done|]. split; [done|]. by exists None.
Qed.
Lemma raw_cell_ptr a k (p : ptr value) row : a_ptrs a !! k = Some p ->
  raw_cell a k row = match p with None => RdUB | Some b => match bl_cells b !! row with None => RdUB | Some c => Rd c end end.
Proof. intros E. unfold raw_cell. unfold ptr in *. by rewrite E. Qed.
Lemma torn_read a cs rows a' lost k C row : arch_ok a cs rows -> length rows = a_cap a -> torn_arch a a' lost -> cs !! k = Some C ->
  (lost = Some k -> get_component_unchecked C row a' = RdUB) /\
  (lost <> Some k -> row < length rows -> get_component_unchecked C row a' = get_component_unchecked C row a) /\
  get_component_unchecked C (length rows) a' = RdUB.
Proof.
  intros Hok Hfull (Ed & _ & _ & Hl) Hk. pose proof (proj1 Hok) as Hd. destruct Hok as (_ & Hcap & _ & _ & Cl & H & Ea & Hs & _).
  pose proof (capok_pos _ Hcap) as Hpos. pose proof Hs as (HlC & HFc & _).
  assert (Hb : binary_search (ids (a_comps a)) (ct_id C) = inl k) by (rewrite Ea; by apply search_col).
  assert (Hcm : a_comps a' = a_comps a) by (unfold a_comps; by rewrite Ed).
  destruct (lookup_lt_is_Some_2 Cl k) as [col Hcol]. { rewrite HlC. by eapply lookup_lt_Some. }
  assert (Hp : a_ptrs a !! k = Some (colb (a_cap a) C col)) by (rewrite Ea; by apply colbs_lookup).
  pose proof (Forall_lookup_1 _ _ _ _ HFc Hcol) as Hlc. cbn in Hlc.
  assert (Hrd : forall row c, raw_cell a' k row = c -> match c with Rd (Some _) => False | RdPanic => False | _ => True end -> get_component_unchecked C row a' = RdUB).
  { intros rw c E Hc. unfold get_component_unchecked. rewrite Hcm. change (map cd_id (a_comps a)) with (ids (a_comps a)). rewrite Hb. unfold typed_cell. rewrite E. destruct c as [[v|]| |]; done. }
  assert (Hpr : lost <> Some k -> a_ptrs a' !! k = a_ptrs a !! k \/
     exists b', a_ptrs a' !! k = Some (Some b') /\ bl_cells b' = col ++ replicate (a_cap a) None).
  { intros Hne. destruct lost as [k0|]; [|left; by destruct Hl as [_ ->]].
    destruct Hl as (_ & _ & Hl). destruct (Hl k) as [E|(p & p' & E & E' & b & b' & -> & -> & Hbc)]; [congruence|by left|right].
    exists b'. split; [done|]. assert (Some b = colb (a_cap a) C col) as Eb by congruence. injection Eb as ->. cbn [bl_cells] in Hbc. rewrite Hbc.
    rewrite take_ge by lia. do 2 f_equal. lia. }
  split; [|split].
  - intros ->. destruct Hl as (_ & Hl & _). eapply (Hrd _ RdUB); [|done]. by rewrite (raw_cell_ptr _ _ _ _ Hl).
  - intros Hne Hrow. unfold get_component_unchecked. rewrite Hcm. change (map cd_id (a_comps a)) with (ids (a_comps a)). rewrite Hb.
    unfold typed_cell. rewrite Hcm. assert (raw_cell a' k row = raw_cell a k row) as ->; [|done]. rewrite (raw_cell_ptr _ _ _ _ Hp). cbn [colb bl_cells].
    destruct (Hpr Hne) as [E|(b' & E & Hc)].
    + rewrite Hp in E. by rewrite (raw_cell_ptr _ _ _ _ E).
    + rewrite (raw_cell_ptr _ _ _ _ E). rewrite Hc, lookup_app_l by lia. done.
  - destruct (decide (lost = Some k)) as [->|Hne].
    + destruct Hl as (_ & Hl & _). eapply (Hrd _ RdUB); [|done]. by rewrite (raw_cell_ptr _ _ _ _ Hl).
    + destruct (Hpr Hne) as [E|(b' & E & Hc)].
      * eapply (Hrd _ RdUB); [|done]. rewrite Hp in E. rewrite (raw_cell_ptr _ _ _ _ E). cbn [colb bl_cells]. by rewrite lookup_ge_None_2 by lia.
      * eapply (Hrd _ (Rd None)); [|done]. rewrite (raw_cell_ptr _ _ _ _ E). rewrite Hc, lookup_app_r by lia. rewrite lookup_replicate_2 by lia. done.
Qed.

Section torn.
  Context {Fm : family} (c : cfg) (U : list ctype) (HU : universe (big c) U).
  Notation be := (big c).
  Implicit Types (T : list tab) (w : world).

  Lemma loc_entry (r : reg) h i j : loc_of be (r_er r) h = Some (i, j) -> exists en, entry_of c r h = Some en /\ e_arch c en = i /\ e_row en = j.
  Proof. unfold loc_of, entry_of. destruct (er_entity_entry be (r_er r) h) as [en|]; [|done]. cbn. intros [= <- <-]. by exists en. Qed.
  Lemma entry_loc (r : reg) h en : entry_of c r h = Some en -> loc_of be (r_er r) h = Some (e_arch c en, e_row en).
  Proof. unfold loc_of, entry_of. by intros ->. Qed.
  Lemma loc_shows r h i j a t h' m C : loc_of be (r_er r) h = Some (i, j) -> ar_archs (r_ar r) !! i = Some a -> tab_ok be U a t ->
    t_rows t !! j = Some (h', m) -> C ∈ U -> get_component c C h r = Rd (m !! ct_id C).
  Proof. intros (en & En & <- & <-)%loc_entry. by apply placed_shows. Qed.
  Lemma tab_has_new a t C : tab_ok be U a t -> C ∈ U -> ad_has_component (a_desc a) C = true <-> C ∈ t_cs t.
  Proof.
    intros Ht HC. destruct (tab_facts _ _ _ _ Ht) as (Hd&Hs&_).
    assert (E : C ∈ t_cs t <-> ct_id C ∈ ids_of (t_cs t)).
    { split; [intros; apply elem_of_ids; eauto|]. intros (C'&HC'&Eq)%elem_of_ids.
      assert (C' = C) as <-; [|done]. eapply (ids_inj U); [apply (U_nodup _ _ HU)|eapply in_U_elem; [apply Ht|done]|done|done]. }
    rewrite has_component_spec; rewrite (do_comps _ _ Hd), ids_cdesc_of; done.
  Qed.
  Lemma loc_torn r h i j a a' t lost C : loc_of be (r_er r) h = Some (i, j) -> ar_archs (r_ar r) !! i = Some a' -> tab_ok be U a t ->
    length (t_rows t) = a_cap a -> torn_arch a a' lost -> C ∈ U ->
    (C ∉ t_cs t -> get_component c C h r = Rd None) /\
    (forall k, t_cs t !! k = Some C ->
      (lost = Some k \/ j = length (t_rows t) -> get_component c C h r = RdUB) /\
      (lost <> Some k -> forall h' m, t_rows t !! j = Some (h', m) -> get_component c C h r = Rd (m !! ct_id C))).
  Proof.
    intros (en & En & <- & <-)%loc_entry Ha Hta Hf Ht HC. unfold get_component. rewrite En, (arch_at_step _ _ _ Ha). cbn [rbind].
    pose proof (proj1 Ht) as Ed. rewrite Ed. pose proof (tab_has_new _ _ _ Hta HC) as Hh. pose proof Hta as (_ & Hok & _). split.
    - intros Hn. destruct (ad_has_component (a_desc a) C); [|done]. exfalso. tauto.
    - intros k Hk. assert (HCt : C ∈ t_cs t) by (by eapply elem_of_list_lookup_2). rewrite (proj2 Hh HCt). cbn [negb].
      destruct (torn_read a (t_cs t) (t_rows t) a' lost k C (e_row en) Hok Hf Ht Hk) as (H1 & H2 & H3). split.
      + intros [Hl|Hl]; [by rewrite H1|]. rewrite Hl. by rewrite H3.
      + intros Hne h' m Hj. rewrite H2; [|done|by eapply lookup_lt_Some].
        destruct (tab_has c U HU _ _ _ _ _ C Hta Hj HC) as [_ E2]. destruct (proj1 E2 HCt) as [v Hv]. rewrite Hv.
        destruct (get_component_ok (a_desc a) (t_cs t) (proj1 Hok) a _ _ _ _ _ _ eq_refl Hok Hj HCt Hv) as (->&_). done.
  Qed.
End torn.
