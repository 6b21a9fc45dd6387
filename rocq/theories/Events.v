(** The requests to the allocator and the destructor calls of a program are those of SpecEvents.v (C55). *)
From Verif Require Import RegModel Instances SpecTrace SpecEntity EntityProofs EntityTable SearchProofs DescrProofs MonadProofs ArchProofs ArchOps ArchOps2 ArchOps3 AregProofs IterProofs RegProofs RegOps RegOps2 RegOps3 RegIter RegMut RegExact Refine SpecObs Sizes Clients Ref SpecBase SpecWorld SpecRef SpecEvents.
Local Open Scope nat_scope.

(** ** Profiles: what requests depend on *)
Notation prof := (adesc * nat * nat)%type.
Definition pf (a : arch) : prof := (a_desc a, a_count a, a_cap a).
Definition pd (p : prof) : adesc := p.1.1.
Definition pn (p : prof) : nat := p.1.2.
Definition pk (p : prof) : nat := p.2.

Definition cbuy (n : nat) (ds : list cdesc) : list event := map (fun d => EvAlloc (cd_size d * N.of_nat n) (cd_align d)) ds.
Definition cgrow (n m : nat) (ds : list cdesc) : list event :=
  map (fun d => EvRealloc (cd_size d * N.of_nat n) (cd_align d) (cd_size d * N.of_nat m)) ds.
Definition buy (n : nat) (ds : list cdesc) : list event := EvAlloc (4 * N.of_nat n) 4 :: cbuy n ds.
Definition grows (n m : nat) (ds : list cdesc) : list event := EvRealloc (4 * N.of_nat n) 4 (4 * N.of_nat m) :: cgrow n m ds.

Lemma emitted_nil e : emitted e [] = e.
Proof. destruct e. unfold emitted. cbn. by rewrite app_nil_r. Qed.
Lemma emitted_app e l l' : emitted (emitted e l) l' = emitted e (l ++ l').
Proof. unfold emitted. cbn. by rewrite app_assoc. Qed.
Lemma oracle_emitted e l : ev_oracle (emitted e l) = ev_oracle e.
Proof. done. Qed.

(** ** Archetype methods that leave the profile and the world alone *)
Definition still {A} (m : AM A) : Prop := forall s x s', m s = Ret x s' -> pf s'.1 = pf s.1 /\ s'.2 = s.2.
Lemma still_ret {A} (x : A) : still (ret x). Proof. intros s y s' [= _ <-]. done. Qed.
Lemma still_bind {A B} (m : AM A) (k : A -> AM B) : still m -> (forall x, still (k x)) -> still (bind m k).
Proof.
  intros Hm Hk s y s' E. apply bind_Ret_inv in E as (x&s1&E1&E2). apply Hm in E1 as [E1 E3]. apply Hk in E2 as [E2 E4]. split; congruence.
Qed.
Lemma still_get : still am_get. Proof. intros s x s' [= _ <-]. done. Qed.
Lemma still_panic {A} : still (A := A) mpanic. Proof. done. Qed.
Lemma still_ub {A} : still (A := A) mub. Proof. done. Qed.
Lemma still_lift {A} (x : rd A) : still (lift_rd x). Proof. intros s y s'. destruct x; [|done..]. by intros [= _ <-]. Qed.
Lemma still_rd {A} (f : arch -> rd A) : still (am_rd f).
Proof. intros s y s'. unfold am_rd. apply still_lift. Qed.
Lemma still_mdebug d b : still (mdebug_assert d b). Proof. intros s y s'. destruct d, b; try done; by intros [= _ <-]. Qed.
Lemma still_massert b : still (massert b). Proof. intros s y s'. destruct b; [|done]. by intros [= _ <-]. Qed.
Lemma still_mfor {A} (l : list A) (f : A -> AM unit) : (forall x, still (f x)) -> still (mfor l f).
Proof. intros Hf. induction l as [|x l IH]; cbn [mfor]; [apply still_ret|]. by apply still_bind. Qed.
Lemma still_write i row v : still (write_cell i row v).
Proof.
  intros s x s'. unfold write_cell. destruct (a_ptrs s.1 !! i) as [[b|]|]; [|done..]. destruct (row <? _); [|done]. by intros [= _ <-].
Qed.
Lemma set_assoc_pf a i x : pf (set_assoc_cell a i x) = pf a.
Proof. unfold set_assoc_cell. by destruct (a_assoc a). Qed.
Lemma still_write_entity i h : still (write_entity i h).
Proof.
  intros s x s'. unfold write_entity. destruct (entity_cells s.1); [|done..]. destruct (i <? _); [|done]. intros [= _ <-]. cbn [fst snd].
  by rewrite set_assoc_pf.
Qed.
Lemma still_swap_assoc f l : still (swap_assoc f l).
Proof.
  intros s x s'. unfold swap_assoc. destruct (entity_cells s.1) as [cells| |]; [|done..]. destruct (cells !! f), (cells !! l); try done. intros [= _ <-].
  cbn [fst snd]. by rewrite !set_assoc_pf.
Qed.
Ltac still1 :=
  match goal with
  | |- still (ret _) => apply still_ret
  | |- still am_get => apply still_get
  | |- still mpanic => apply still_panic
  | |- still mub => apply still_ub
  | |- still (lift_rd _) => apply still_lift
  | |- still (am_rd _) => apply still_rd
  | |- still (mdebug_assert _ _) => apply still_mdebug
  | |- still (massert _) => apply still_massert
  | |- still (write_cell _ _ _) => apply still_write
  | |- still (write_entity _ _) => apply still_write_entity
  | |- still (swap_assoc _ _) => apply still_swap_assoc
  | |- still (mfor _ _) => apply still_mfor; intros
  | |- still (bind _ _) => apply still_bind; [|intros]
  | |- still (match ?x with _ => _ end) => destruct x
  end.
Ltac still := repeat still1.
Lemma still_swap f l : still (swap_entities f l).
Proof. unfold swap_entities, swap_cells. still. Qed.
Lemma still_to_last c row : still (swap_to_last_unchecked c row).
Proof. unfold swap_to_last_unchecked. still; apply still_swap. Qed.
Lemma still_write_ent c G row h vs : still (write_entity_unchecked c G row h vs).
Proof. unfold write_entity_unchecked, copy_in. still. Qed.
Lemma still_copy src i j : still (copy_common_components src i j).
Proof. unfold copy_common_components. still. Qed.
Lemma still_single C row v : still (write_single_component_unchecked C row v).
Proof. unfold write_single_component_unchecked. still. Qed.

(** ** Shortening and lengthening *)
Lemma decrement_pf c s s' : decrement_len_unchecked c s = Ret tt s' ->
  exists n, a_count s.1 = S n /\ pf s'.1 = (a_desc s.1, n, a_cap s.1) /\ s'.2 = s.2.
Proof.
  unfold decrement_len_unchecked, bind, am_get. destruct (a_count s.1) as [|n]; [by destruct (dbg c)|]. intros [= <-]. by exists n.
Qed.
Lemma swap_remove_pf c G row s x s' : swap_remove_unchecked c G row s = Ret x s' ->
  exists n, a_count s.1 = S n /\ pf s'.1 = (a_desc s.1, n, a_cap s.1) /\ s'.2 = s.2.
Proof.
  intros E. unfold swap_remove_unchecked in E. apply bind_Ret_inv in E as (a&s1&E1&E). injection E1 as <- <-.
  apply bind_Ret_inv in E as (?&s1&E1&E). apply still_mdebug in E1 as [Ep Ee].
  apply bind_Ret_inv in E as (last&s2&E2&E). apply still_lift in E2 as [Ep2 Ee2].


  destruct (row =? last).
  - apply bind_Ret_inv in E as (data&s3&E3&E). apply still_rd in E3 as [Ep3 Ee3]. apply bind_Ret_inv in E as ([]&s4&E4&E). injection E as _ <-.
    apply decrement_pf in E4 as (n&En&Ep4&Ee4). exists n.
    assert (Hp : pf s3.1 = pf s.1) by congruence. injection Hp as Hp1 Hp2 Hp3. rewrite Ep4, Hp1, Hp3. split; [congruence|]. split; [done|congruence].
  - apply bind_Ret_inv in E as ([]&s5&E5&E). apply still_swap in E5 as [Ep5 Ee5].
    apply bind_Ret_inv in E as (data&s3&E3&E). apply still_rd in E3 as [Ep3 Ee3]. apply bind_Ret_inv in E as ([]&s4&E4&E). injection E as _ <-.
    apply decrement_pf in E4 as (n&En&Ep4&Ee4). exists n.
    assert (Hp : pf s3.1 = pf s.1) by congruence. injection Hp as Hp1 Hp2 Hp3. rewrite Ep4, Hp1, Hp3. split; [congruence|]. split; [done|congruence].
Qed.

Lemma mdebug_inv {X} d b (s s' : X) : mdebug_assert d b s = Ret tt s' -> s' = s.
Proof. destruct d, b; try done; by intros [= ->]. Qed.

(** *** Growing *)
Lemma realloc_log {A} (p : ptr A) old al new n e b e' : ev_oracle e = [] -> mem_realloc p old al new n e = Ret b e' ->
  e' = emitted e [EvRealloc old al new].
Proof.
  intros Ho. unfold mem_realloc. destruct p as [bl|]; [|done]. destruct (_ && _); [|done]. unfold bind, ask_allocator. rewrite Ho.
  intros [= _ <-]. done.
Qed.
Lemma realloc_column_log old new i d s s' : ev_oracle s.2 = [] -> realloc_column old new (i, d) s = Ret tt s' ->
  pf s'.1 = pf s.1 /\ s'.2 = emitted s.2 [EvRealloc (cd_size d * N.of_nat old) (cd_align d) (cd_size d * N.of_nat new)].
Proof.
  intros Ho E. unfold realloc_column in E. apply bind_Ret_inv in E as (a&s1&E1&E). injection E1 as <- <-.
  destruct (a_ptrs s.1 !! i) as [p|]; [|done]. apply bind_Ret_inv in E as (p'&s1&E1&E).
  unfold am_env in E1. destruct (mem_realloc p _ _ _ _ s.2) as [b e'|e'|] eqn:Em; [|done|done]. injection E1 as <- <-.
  apply realloc_log in Em; [|done]. subst e'. apply bind_Ret_inv in E as ([]&s2&E2&E). injection E2 as <-. cbn [fst snd] in E.
  apply still_massert in E as [E1 E2]. cbn [fst snd] in E1, E2. split; [by rewrite E1|done].
Qed.
Lemma realloc_columns_log old new l s s' : ev_oracle s.2 = [] -> mfor l (realloc_column old new) s = Ret tt s' ->
  pf s'.1 = pf s.1 /\ s'.2 = emitted s.2 (cgrow old new (map snd l)).
Proof.
  revert s. induction l as [|[i d] l IH]; intros s Ho E; cbn [mfor] in E.
  - injection E as <-. split; [done|]. by rewrite emitted_nil.
  - apply bind_Ret_inv in E as ([]&s1&E1&E). apply realloc_column_log in E1 as [Ep1 Ee1]; [|done].
    apply IH in E as [Ep Ee]; [|by rewrite Ee1]. split; [congruence|]. rewrite Ee, Ee1, emitted_app. done.
Qed.
Lemma dealloc_columns_pf l s b s' : dealloc_columns l s = Ret b s' -> pf s'.1 = pf s.1.
Proof.
  revert s. induction l as [|[i d] l IH]; intros s E; cbn [dealloc_columns] in E; [by injection E as _ <-|].
  apply bind_Ret_inv in E as (a&s1&E1&E). injection E1 as <- <-. destruct (a_ptrs s.1 !! i) as [[p|]|]; [|by injection E as _ <-|done].
  apply bind_Ret_inv in E as ([]&s1&E1&E). unfold am_env in E1. destruct (mem_dealloc _ _ _ s.2); [|done|done]. injection E1 as _ <-.
  apply bind_Ret_inv in E as ([]&s2&E2&E). injection E2 as <-. apply IH in E. by rewrite E.
Qed.
Lemma dealloc_pf s s' : a_dealloc s = Ret tt s' -> a_desc s'.1 = a_desc s.1 /\ a_count s'.1 = a_count s.1 /\ a_cap s'.1 <= a_cap s.1.
Proof.
  intros E. unfold a_dealloc in E. apply bind_Ret_inv in E as (a&s1&E1&E). injection E1 as <- <-.
  apply bind_Ret_inv in E as (all&s1&E1&E). apply dealloc_columns_pf in E1. injection E1 as Ed En Ek.
  destruct all; [|injection E as <-; split_and!; [done..|lia]].
  apply bind_Ret_inv in E as (a&s2&E2&E). injection E2 as <- <-. apply bind_Ret_inv in E as ([]&s2&E2&E).
  unfold am_env in E2. destruct (mem_dealloc _ _ _ s1.2); [|done|done]. injection E2 as _ <-. injection E as <-. cbn. split_and!; [done..|lia].
Qed.
Lemma map_snd_enum {A} (l : list A) : map snd (enum l) = l.
Proof. unfold enum. change (map snd ?x) with (snd <$> x). apply snd_zip. rewrite seq_length. lia. Qed.
(** After a successful resize: nothing, or a doubling, or the failed growth
    that leaves less capacity than entities to come. *)
Lemma resize_log s s' : 0 < a_cap s.1 -> ev_oracle s.2 = [] -> resize_if_necessary s = Ret tt s' ->
  exists k, pf s'.1 = (a_desc s.1, a_count s.1, k) /\
    ((k = (if a_count s.1 =? a_cap s.1 then 2 * a_cap s.1 else a_cap s.1) /\
      s'.2 = emitted s.2 (if a_count s.1 =? a_cap s.1 then grows (a_cap s.1) (2 * a_cap s.1) (a_comps s.1) else [])) \/
     k < S (a_count s.1)).
Proof.
  intros Hk Ho E. unfold resize_if_necessary in E. apply bind_Ret_inv in E as (a&s1&E1&E). injection E1 as <- <-. unfold is_full in E.
  destruct (Nat.eqb_spec (a_count s.1) (a_cap s.1)) as [Efull|Hne].
  2: { injection E as <-. exists (a_cap s.1). split; [done|]. left. split; [done|]. by rewrite emitted_nil. }
  rewrite (proj2 (Nat.eqb_neq _ _)) in E by lia. unfold resize_capacity in E. apply bind_Ret_inv in E as (a&s1&E1&E). injection E1 as <- <-.
  cbv zeta in E. destruct (_ || _).
  { apply dealloc_pf in E as (Ed&En&Ec). exists (a_cap s'.1). split; [unfold pf; congruence|]. right. lia. }
  replace (Z.to_nat (Z.of_nat (a_cap s.1) + Z.of_nat (a_cap s.1))) with (2 * a_cap s.1) in E by lia.
  apply bind_Ret_inv in E as (p&s1&E1&E). unfold am_env in E1. destruct (mem_realloc _ _ _ _ _ s.2) as [b e'|e'|] eqn:Em; [|done|done].
  injection E1 as <- <-. apply realloc_log in Em; [|done]. apply bind_Ret_inv in E as ([]&s2&E2&E). injection E2 as <-. cbn [fst snd] in E.
  apply bind_Ret_inv in E as ([]&s2&E2&E). apply still_massert in E2 as [Ep2 Ee2]. cbn [fst snd] in Ep2, Ee2.
  apply bind_Ret_inv in E as ([]&s3&E3&E). apply realloc_columns_log in E3 as [Ep3 Ee3]; [|by rewrite Ee2, Em].
  injection E as <-. cbn [fst snd]. rewrite Ep2 in Ep3. injection Ep3 as Ed3 En3 Ek3. exists (2 * a_cap s.1). split; [unfold pf; cbn; congruence|].
  left. split; [done|]. rewrite Ee3, Ee2, Em, emitted_app, map_snd_enum. done.
Qed.
Definition pushed (s s' : arch * env) : Prop :=
  exists k, pf s'.1 = (a_desc s.1, S (a_count s.1), k) /\
    ((k = (if a_count s.1 =? a_cap s.1 then 2 * a_cap s.1 else a_cap s.1) /\
      s'.2 = emitted s.2 (if a_count s.1 =? a_cap s.1 then grows (a_cap s.1) (2 * a_cap s.1) (a_comps s.1) else [])) \/
     k < S (a_count s.1)).
Lemma push_uninit_log s x s' : 0 < a_cap s.1 -> ev_oracle s.2 = [] -> push_uninitialized_entity s = Ret x s' -> pushed s s'.
Proof.
  intros Hk Ho E. unfold push_uninitialized_entity in E. apply bind_Ret_inv in E as ([]&s1&E1&E).
  apply resize_log in E1 as (k&Ep&Hor); [|done|done]. apply bind_Ret_inv in E as (a&s2&E2&E). injection E2 as <- <-.
  apply bind_Ret_inv in E as ([]&s2&E2&E). injection E2 as <-. injection E as _ <-. injection Ep as Ed En Ek. exists k.
  split; [unfold pf; cbn; congruence|]. done.
Qed.
Lemma push_log c G h vs s x s' : 0 < a_cap s.1 -> ev_oracle s.2 = [] -> push_entity_unchecked c G h vs s = Ret x s' -> pushed s s'.
Proof.
  intros Hk Ho E. unfold push_entity_unchecked in E. apply bind_Ret_inv in E as (a0&s0&E0&E). injection E0 as <- <-.
  apply bind_Ret_inv in E as ([]&s0&E0&E). apply mdebug_inv in E0. subst s0. apply bind_Ret_inv in E as ([]&s0&E0&E). apply mdebug_inv in E0. subst s0.
  apply bind_Ret_inv in E as ([]&s1&E1&E).
  apply resize_log in E1 as (k&Ep&Hor); [|done|done]. apply bind_Ret_inv in E as (a&s2&E2&E). injection E2 as <- <-.
  apply bind_Ret_inv in E as ([]&s2&E2&E). injection E2 as <-. apply bind_Ret_inv in E as ([]&s3&E3&E). injection E as _ <-.
  apply still_write_ent in E3 as [Ep3 Ee3]. injection Ep as Ed En Ek. exists k. rewrite Ep3, Ee3.
  split; [unfold pf; cbn; congruence|]. done.
Qed.

(** ** Registry calls that leave all profiles and the world alone *)
Definition rpf (r : reg) : list prof := map pf (ar_archs (r_ar r)).
Definition rstill {A} (m : RM A) : Prop := forall r x r', m r = Ret x r' -> rpf r' = rpf r /\ r_env r' = r_env r.
Lemma rstill_ret {A} (x : A) : rstill (ret x). Proof. intros s y s' [= _ <-]. done. Qed.
Lemma rstill_bind {A B} (m : RM A) (k : A -> RM B) : rstill m -> (forall x, rstill (k x)) -> rstill (bind m k).
Proof.
  intros Hm Hk s y s' E. apply bind_Ret_inv in E as (x&s1&E1&E2). apply Hm in E1 as [E1 E3]. apply Hk in E2 as [E2 E4]. split; congruence.
Qed.
Lemma rstill_get : rstill rm_get. Proof. intros s x s' [= _ <-]. done. Qed.
Lemma rstill_panic {A} : rstill (A := A) mpanic. Proof. done. Qed.
Lemma rstill_ub {A} : rstill (A := A) mub. Proof. done. Qed.
Lemma rstill_lift {A} (x : rd A) : rstill (lift_rd x). Proof. intros s y s'. destruct x; [|done..]. by intros [= _ <-]. Qed.
Lemma rstill_rd {A} (f : reg -> rd A) : rstill (rm_rd f).
Proof. intros s y s'. unfold rm_rd. apply rstill_lift. Qed.
Lemma rstill_mdebug d b : rstill (mdebug_assert d b). Proof. intros s y s'. destruct d, b; try done; by intros [= _ <-]. Qed.
Lemma rstill_unwrap {A} (o : option A) : rstill (unwrap o). Proof. intros s y s'. destruct o; [|done]. by intros [= _ <-]. Qed.
Lemma rstill_er {A} (m : M er A) : rstill (rm_er m).
Proof. intros s y s'. unfold rm_er. destruct (m (r_er s)); [|done..]. by intros [= _ <-]. Qed.
Lemma rstill_entry c h f : rstill (update_entry c h f).
Proof. intros s y s'. unfold update_entry. destruct (er_update_entry _ _ _ _); [|done..]. by intros [= _ <-]. Qed.
Lemma rstill_dop {A} vs (m : RM A) : rstill m -> rstill (dropping_on_panic vs m).
Proof. intros Hm s y s'. unfold dropping_on_panic. destruct (m s) eqn:E; [|done..]. intros [= -> ->]. by apply Hm in E. Qed.
Lemma rstill_mmap {A B} (f : A -> RM B) l : (forall x, rstill (f x)) -> rstill (mmap f l).
Proof. intros Hf. induction l as [|x l IH]; cbn [mmap]; [apply rstill_ret|]. apply rstill_bind; [done|]. intros. apply rstill_bind; [done|]. intros. apply rstill_ret. Qed.
Lemma with_inv {A} i (m : AM A) r x r' : with_arch i m r = Ret x r' ->
  exists a a' e', ar_archs (r_ar r) !! i = Some a /\ m (a, r_env r) = Ret x (a', e') /\ rpf r' = <[i := pf a']> (rpf r) /\ r_env r' = e'.
Proof.
  unfold with_arch. destruct (ar_archs (r_ar r) !! i) as [a|] eqn:Ea; [|done]. destruct (m (a, r_env r)) as [y [a' e']|[? ?]|] eqn:Em; [|done..].
  intros [= -> <-]. exists a, a', e'. split_and!; try done. unfold rpf. cbn [r_ar set_archs ar_archs fst]. by rewrite <- list_fmap_insert.
Qed.
Lemma rpf_lookup r i a : ar_archs (r_ar r) !! i = Some a -> rpf r !! i = Some (pf a).
Proof. intros E. unfold rpf. change (map pf ?l) with (pf <$> l). by rewrite list_lookup_fmap, E. Qed.
Lemma rstill_with {A} i (m : AM A) : still m -> rstill (with_arch i m).
Proof.
  intros Hm r x r' E. apply with_inv in E as (a&a'&e'&Ha&E&Ep&Ee). apply Hm in E as [E1 E2]. cbn [fst snd] in *. split; [|congruence].
  rewrite Ep, E1. apply list_insert_id. by apply rpf_lookup.
Qed.
Ltac rstill1 :=
  match goal with
  | |- rstill (ret _) => apply rstill_ret
  | |- rstill rm_get => apply rstill_get
  | |- rstill mpanic => apply rstill_panic
  | |- rstill mub => apply rstill_ub
  | |- rstill (lift_rd _) => apply rstill_lift
  | |- rstill (rm_rd _) => apply rstill_rd
  | |- rstill (mdebug_assert _ _) => apply rstill_mdebug
  | |- rstill (unwrap _) => apply rstill_unwrap
  | |- rstill (rm_er _) => apply rstill_er
  | |- rstill (update_entry _ _ _) => apply rstill_entry
  | |- rstill (dropping_on_panic _ _) => apply rstill_dop
  | |- rstill (mmap _ _) => apply rstill_mmap; intros
  | |- rstill (bind _ _) => apply rstill_bind; [|intros]
  | |- rstill (match ?x with _ => _ end) => destruct x
  | |- rstill (with_arch _ (write_cell _ _ _)) => apply rstill_with, still_write
  | |- rstill (with_arch _ (write_entity _ _)) => apply rstill_with, still_write_entity
  | |- rstill (with_arch _ (swap_to_last_unchecked _ _)) => apply rstill_with, still_to_last
  | |- rstill (with_arch _ (copy_common_components _ _ _)) => apply rstill_with, still_copy
  | |- rstill (with_arch _ (write_single_component_unchecked _ _ _)) => apply rstill_with, still_single
  end.
Ltac rstill := repeat rstill1.
Lemma rstill_replace l v : rstill (replace_loc l v). Proof. unfold replace_loc. rstill. Qed.
Lemma rstill_replaces ls vs : rstill (replace_locs ls vs).
Proof. revert vs. induction ls as [|l ls IH]; intros [|v vs]; cbn [replace_locs]; rstill; [apply rstill_replace|apply IH]. Qed.
Lemma rstill_modify f l : rstill (modify_loc f l). Proof. unfold modify_loc. rstill. apply rstill_replace. Qed.
Lemma rstill_items upd l : rstill (modify_items upd l). Proof. unfold modify_items, modify_item. rstill. apply rstill_modify. Qed.
Lemma rstill_eitems upd l : rstill (modify_eitems upd l). Proof. unfold modify_eitems, modify_item. rstill. apply rstill_modify. Qed.
Definition structural (o : op) : bool :=
  match o with OpCreate _ _ | OpDestroy _ | OpRemoveEntity _ _ | OpAdd _ _ _ | OpRemove _ _ => true | _ => false end.
Lemma step_still c o : structural o = false -> rstill (step c o).
Proof.
  destruct o; cbn [structural]; intros Hs; [done|done|done|..]; try done; cbn [step]; rstill;
    first [apply rstill_replace|apply rstill_replaces|apply rstill_items|apply rstill_eitems].
Qed.

(** ** Opening an archetype *)
Lemma alloc_log {A} size al n e p e' : ev_oracle e = [] -> mem_alloc (A := A) size al n e = Ret p e' -> e' = emitted e [EvAlloc size al].
Proof.
  intros Ho. unfold mem_alloc. destruct (_ || _); [done|]. unfold bind, ask_allocator. rewrite Ho. intros [= _ <-]. done.
Qed.
Lemma alloc_columns_log ds n e ps e' : ev_oracle e = [] -> alloc_columns ds n e = Ret ps e' -> e' = emitted e (cbuy n ds).
Proof.
  revert e ps. induction ds as [|d ds IH]; intros e ps Ho E; cbn [alloc_columns] in E.
  - injection E as _ <-. by rewrite emitted_nil.
  - apply bind_Ret_inv in E as (p&e1&E1&E). apply alloc_log in E1; [|done]. destruct p; [|done]. apply bind_Ret_inv in E as (ps'&e2&E2&E).
    injection E as _ <-. apply IH in E2; [|by subst]. subst. by rewrite emitted_app.
Qed.
Lemma with_any_capacity_log d n e a e' : ev_oracle e = [] -> (0 <? n) && (N.of_nat n <=? MAX_ENTITIES_PER_ARCHETYPE)%N = true ->
  a_with_capacity d n e = Ret a e' -> pf a = (d, 0, n) /\ e' = emitted e (buy n (ad_components d)).
Proof.
  intros Ho Hn E. unfold a_with_capacity in E. apply bind_Ret_inv in E as ([]&e1&E1&E). unfold massert in E1. destruct (ad_is_valid d); [|done]. injection E1 as <-.
  rewrite Hn in E.
  apply bind_Ret_inv in E as (p&e1&E1&E). apply alloc_log in E1; [|done]. destruct p; [|done]. apply bind_Ret_inv in E as (ps&e2&E2&E).
  apply alloc_columns_log in E2; [|by subst]. injection E as <- <-. split; [done|]. subst. by rewrite emitted_app.
Qed.
Lemma with_capacity_log d e a e' : ev_oracle e = [] -> a_with_capacity d 128 e = Ret a e' ->
  pf a = (d, 0, 128) /\ e' = emitted e (buy 128 (ad_components d)).
Proof. intros Ho. by apply with_any_capacity_log. Qed.
Definition fresh_of (l : list adesc) : list prof := map (fun d => (d, 0, 128)) l.
Definition opened (r r' : reg) : Prop := exists new, length new <= 1 /\ rpf r' = rpf r ++ fresh_of new /\
  r_env r' = emitted (r_env r) (concat (map (fun d => buy 128 (ad_components d)) new)).
Lemma opened_refl r r' : rpf r' = rpf r -> r_env r' = r_env r -> opened r r'.
Proof. intros E1 E2. exists []. cbn. split; [lia|]. by rewrite app_nil_r, emitted_nil. Qed.
Lemma find_log d r x r' : ev_oracle (r_env r) = [] -> find_or_create_archetype d r = Ret x r' -> opened r r'.
Proof.
  intros Ho E. unfold find_or_create_archetype in E. cbv zeta in E. destruct (_ || _); [injection E as _ <-; by apply opened_refl|].
  destruct (ad_len d =? 0); [done|]. apply bind_Ret_inv in E as (s&s1&E1&E). injection E1 as <- <-.
  destruct (ar_maps (r_ar r) !! _) as [level|]; [|done]. destruct (binary_search _ _) as [f|ins].
  { destruct (level !! f) as [k|]; [|done]. destruct (_ <? _); [|done]. injection E as _ <-. by apply opened_refl. }
  destruct (_ <=? _)%N; [injection E as _ <-; by apply opened_refl|].
  apply bind_Ret_inv in E as (a&s1&E1&E). unfold rm_env in E1. change DEFAULT_ARCHETYPE_ALLOCATION_SIZE with 128 in E1.
  destruct (a_with_capacity d 128 (r_env r)) as [a1 e1|?|] eqn:Ea; [|done..]. injection E1 as <- <-. apply with_capacity_log in Ea as [Ep Ee]; [|done].
  apply bind_Ret_inv in E as (s&s2&E2&E). injection E2 as <- <-. apply bind_Ret_inv in E as ([]&s2&E2&E). injection E2 as <-. injection E as _ <-.
  exists [d]. cbn [r_env r_ar ar_archs]. split; [done|]. split; [|by rewrite Ee; cbn; rewrite app_nil_r].
  unfold rpf, fresh_of. cbn [r_ar ar_archs map]. by rewrite map_app, <- Ep.
Qed.
Lemma disjoint_ne n i j a b : disjoint_mut n i j = Rd (Some (a, b)) -> a <> b.
Proof.
  unfold disjoint_mut. destruct (Nat.eqb_spec i j); cbn [orb]; [done|]. destruct (_ || _); [done|]. destruct (Nat.ltb_spec i j); cbv zeta; destruct (_ && _); try done;
    intros [= <- <-]; lia.
Qed.
Lemma adding_log c i d r x r' : ev_oracle (r_env r) = [] -> find_or_create_archetype_adding_component c i d r = Ret x r' ->
  opened r r' /\ forall a b, x = Some (a, b) -> a <> b.
Proof.
  intros Ho E. unfold find_or_create_archetype_adding_component in E. apply bind_Ret_inv in E as (s&s1&E1&E). injection E1 as <- <-.
  destruct (_ <? _); [injection E as <- <-; split; [by apply opened_refl|done]|]. destruct (ar_archs (r_ar r) !! i) as [a|]; [|done].
  apply bind_Ret_inv in E as (od&s1&E1&E). apply rstill_lift in E1 as Hs. destruct (ad_add_component _ _ _); try done. injection E1 as <- <-.
  destruct a0 as [nd|]; [|injection E as <- <-; split; [by apply opened_refl|done]].
  apply bind_Ret_inv in E as (oi&s1&E1&E). apply find_log in E1; [|done]. destruct oi as [dst|]; [|injection E as <- <-; done].
  apply bind_Ret_inv in E as (s&s2&E2&E). injection E2 as <- <-. destruct (disjoint_mut _ _ _) as [o| |] eqn:Ed; [|done..]. injection E as <- <-.
  split; [done|]. intros a1 b1 ->. by eapply disjoint_ne.
Qed.
Lemma removing_log c i d r x r' : ev_oracle (r_env r) = [] -> find_or_create_archetype_removing_component c i d r = Ret x r' ->
  opened r r' /\ forall a b, x = Some (a, b) -> a <> b.
Proof.
  intros Ho E. unfold find_or_create_archetype_removing_component in E. apply bind_Ret_inv in E as (s&s1&E1&E). injection E1 as <- <-.
  destruct (_ <? _); [injection E as <- <-; split; [by apply opened_refl|done]|]. destruct (ar_archs (r_ar r) !! i) as [a|]; [|done].
  apply bind_Ret_inv in E as (od&s1&E1&E). apply rstill_lift in E1 as Hs. destruct (ad_remove_component _ _ _); try done. injection E1 as <- <-.
  destruct a0 as [nd|]; [|injection E as <- <-; split; [by apply opened_refl|done]].
  apply bind_Ret_inv in E as (oi&s1&E1&E). apply find_log in E1; [|done]. destruct oi as [dst|]; [|injection E as <- <-; done].
  apply bind_Ret_inv in E as (s&s2&E2&E). injection E2 as <- <-. destruct (disjoint_mut _ _ _) as [o| |] eqn:Ed; [|done..]. injection E as <- <-.
  split; [done|]. intros a1 b1 ->. by eapply disjoint_ne.
Qed.

(** ** The profiles before and after a call *)
Definition full_up (p q : prof) : bool := (pn p =? pk p) && (pk p <? pn q).
Definition next_cap (p q : prof) : nat := if full_up p q then 2 * pk p else pk p.
Definition grow_ev (p q : prof) : list event := if full_up p q then grows (pk p) (2 * pk p) (ad_components (pd p)) else [].
Definition gains (P Q : list prof) (G : list event) : Prop :=
  Forall2 (fun p q => pd q = pd p /\ pk q = next_cap p q) P Q /\ G = concat (zip_with grow_ev P Q).
Definition lowers (P Q : list prof) : Prop := Forall2 (fun p q => pd q = pd p /\ pk q = pk p /\ pn q <= pn p) P Q.
Lemma lowers_refl P : lowers P P.
Proof. induction P; constructor; [done|done]. Qed.
Lemma lowers_insert P i d n n' k : P !! i = Some (d, n, k) -> n' <= n -> lowers P (<[i := (d, n', k)]> P).
Proof.
  intros E Hn. apply Forall2_same_length_lookup. split; [by rewrite insert_length|]. intros j p q Hp Hq.
  destruct (decide (j = i)) as [->|Hne].
  - rewrite list_lookup_insert in Hq by (by eapply lookup_lt_Some). injection Hq as <-. rewrite E in Hp. by injection Hp as <-.
  - rewrite list_lookup_insert_ne in Hq by done. rewrite Hp in Hq. by injection Hq as <-.
Qed.
Lemma low_not_full p q : pn q <= pn p -> full_up p q = false.
Proof. intros Hn. unfold full_up. destruct (Nat.eqb_spec (pn p) (pk p)); [|done]. cbn. apply Nat.ltb_ge. lia. Qed.
Lemma lowers_gains P Q : lowers P Q -> gains P Q [].
Proof.
  intros H. split.
  - eapply Forall2_impl; [exact H|]. intros p q (Hd&Hk&Hn). split; [done|]. unfold next_cap. by rewrite low_not_full.
  - induction H as [|p q P Q (Hd&Hk&Hn) H IH]; [done|]. cbn [zip_with concat]. rewrite <- IH. unfold grow_ev. by rewrite low_not_full.
Qed.
Lemma gains_push P Q i d n k : lowers P Q -> P !! i = Some (d, n, k) -> n <= k ->
  gains P (<[i := (d, S n, if n =? k then 2 * k else k)]> Q) (if n =? k then grows k (2 * k) (ad_components d) else []).
Proof.
  intros H Hi Hnk. assert (Hf : full_up (d, n, k) (d, S n, if n =? k then 2 * k else k) = (n =? k)).
  { unfold full_up, pn, pk. cbn. destruct (Nat.eqb_spec n k); cbn; [|done]. apply Nat.leb_le. lia. }
  revert i Hi. induction H as [|p q P Q (Hd&Hk&Hn) H IH]; intros [|i] Hi; try done.
  - injection Hi as ->. cbn [insert list_insert]. destruct (lowers_gains _ _ H) as [H1 H2]. split.
    + constructor; [|exact H1]. unfold next_cap. rewrite Hf. by destruct (n =? k).
    + cbn [zip_with concat]. rewrite <- H2, app_nil_r. unfold grow_ev. rewrite Hf. done.
  - change (<[S i := ?x]> (q :: Q)) with (q :: <[i := x]> Q). destruct (IH i Hi) as [H1 H2]. split.
    + constructor; [|exact H1]. split; [done|]. unfold next_cap. by rewrite low_not_full.
    + cbn [zip_with concat]. rewrite <- H2. unfold grow_ev at 1. by rewrite low_not_full.
Qed.
(** What a call did: destructors [D], then archetypes opened, then growth. *)
Definition logged (r r' : reg) (D : list event) : Prop := exists new G, length new <= 1 /\ gains (rpf r ++ fresh_of new) (rpf r') G /\
  r_env r' = emitted (r_env r) (D ++ concat (map (fun d => buy 128 (ad_components d)) new) ++ G).
Definition sound (r : reg) : Prop := Forall (fun p => 0 < pk p /\ pn p <= pk p) (rpf r).
Lemma logged_low r r' D : lowers (rpf r) (rpf r') -> r_env r' = emitted (r_env r) D -> logged r r' D.
Proof.
  intros H E. exists [], []. split; [cbn; lia|]. cbn [fresh_of map concat app]. rewrite !app_nil_r. split; [by apply lowers_gains|done].
Qed.
Lemma logged_opened r r' : opened r r' -> logged r r' [].
Proof.
  intros (new&Hl&Ep&Ee). exists new, []. split; [done|]. rewrite app_nil_r. split; [|done]. rewrite Ep. apply lowers_gains, lowers_refl.
Qed.
Lemma logged_push r r1 r' i a k Q : opened r r1 -> ar_archs (r_ar r1) !! i = Some a -> lowers (rpf r1) Q -> sound r1 -> sound r' ->
  rpf r' = <[i := (a_desc a, S (a_count a), k)]> Q ->
  (k = (if a_count a =? a_cap a then 2 * a_cap a else a_cap a) /\
   r_env r' = emitted (r_env r1) (if a_count a =? a_cap a then grows (a_cap a) (2 * a_cap a) (a_comps a) else [])) \/ k < S (a_count a) ->
  logged r r' [].
Proof.
  intros (new&Hl&Ep&Ee) Ha HQ Hs Hs' Ep' Hor. apply rpf_lookup in Ha.
  pose proof (Forall_lookup_1 _ _ _ _ Hs Ha) as [_ Hnk]. unfold pf, pn, pk in Hnk. cbn in Hnk.
  destruct Hor as [[-> Ee']|Hlt].
  - exists new. eexists. split; [done|]. rewrite <- Ep, Ep'. split; [eapply gains_push; [exact HQ|exact Ha|done]|].
    rewrite Ee', Ee, emitted_app. done.
  - exfalso. assert (Hi : rpf r' !! i = Some (a_desc a, S (a_count a), k)).
    { rewrite Ep'. apply list_lookup_insert. rewrite <- (Forall2_length _ _ _ HQ). by eapply lookup_lt_Some. }
    pose proof (Forall_lookup_1 _ _ _ _ Hs' Hi) as [_ Hx]. unfold pn, pk in Hx. cbn in Hx. lia.
Qed.
Lemma opened_sound r r' : opened r r' -> sound r -> sound r'.
Proof.
  intros (new&Hl&Ep&Ee) Hs. unfold sound. rewrite Ep. apply Forall_app. split; [done|]. unfold fresh_of. apply Forall_forall. intros p Hp.
  change (map ?f new) with (f <$> new) in Hp. apply elem_of_list_fmap in Hp as (d&->&_). unfold pk, pn. cbn. lia.
Qed.
Lemma opened_oracle r r' : opened r r' -> ev_oracle (r_env r) = [] -> ev_oracle (r_env r') = [].
Proof. intros (new&_&_&->). done. Qed.
Lemma opened_still r r1 r' : opened r r1 -> rpf r' = rpf r1 -> r_env r' = r_env r1 -> opened r r'.
Proof. intros (new&?&?&?) E1 E2. exists new. rewrite E1, E2. done. Qed.
