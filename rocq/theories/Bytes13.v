(** Proofs for C70: the heap and the events agree, whatever the program does. *)
From Verif Require Import ByteReg SpecFail SpecBase.
Local Open Scope nat_scope.

Section keeps.
  Context {S : Type} (I : S -> Prop).
  Definition keeps {A} (m : M S A) : Prop := forall s, I s -> match m s with Ret _ t | Panic t => I t | UB => True end.
  Lemma keeps_ret {A} (x : A) : keeps (ret x).
  Proof. by intros s. Qed.
  Lemma keeps_panic {A} : keeps (mpanic (A := A)).
  Proof. by intros s. Qed.
  Lemma keeps_ub {A} : keeps (mub (A := A)).
  Proof. by intros s. Qed.
  Lemma keeps_assert b : keeps (massert b).
  Proof. by destruct b; intros s. Qed.
  Lemma keeps_debug d b : keeps (mdebug_assert d b).
  Proof. destruct d; [apply keeps_assert|apply keeps_ret]. Qed.
  Lemma keeps_lift {A} (m : rd A) : keeps (lift_rd m).
  Proof. by destruct m; intros s. Qed.
  Lemma keeps_unwrap {A} (o : option A) : keeps (unwrap o).
  Proof. by destruct o; intros s. Qed.
  Lemma keeps_get : keeps (get_st (S := S)).
  Proof. by intros s. Qed.
  Lemma keeps_bind {A B} (m : M S A) (k : A -> M S B) : keeps m -> (forall x, keeps (k x)) -> keeps (bind m k).
  Proof.
    intros Hm Hk s Hs. unfold bind. specialize (Hm s Hs). destruct (m s) as [x t|t|]; [|done|done]. apply (Hk x t Hm).
  Qed.
  Lemma keeps_mfor {A} (l : list A) f : (forall x, keeps (f x)) -> keeps (mfor l f).
  Proof. intros H. induction l as [|x l IH]; [apply keeps_ret|]. apply keeps_bind; [apply H|done]. Qed.
  Lemma keeps_mmap {A B} (f : A -> M S B) (l : list A) : (forall x, keeps (f x)) -> keeps (mmap f l).
  Proof.
    intros H. induction l as [|x l IH]; [apply keeps_ret|]. cbn. apply keeps_bind; [apply H|intros y]. apply keeps_bind; [done|intros ?; apply keeps_ret].
  Qed.
End keeps.

(** ** The heap *)
Definition sound (m : mem) : Prop := balanced m /\ forall id b, m_blocks m !! id = Some b -> (id < m_next m)%N.
Notation mkeeps := (keeps sound).
Notation akeeps := (keeps (fun s : barch * mem => sound s.2)).
Notation rkeeps := (keeps (fun R : breg => sound (br_mem R))).

Definition layouts (bs : gmap N hblk) : list (N * N) := map layout_of ((map_to_list bs).*2).
Lemma layouts_insert bs id b : bs !! id = None -> layouts (<[id := b]> bs) ≡ₚ layout_of b :: layouts bs.
Proof. intros H. unfold layouts. rewrite (map_to_list_insert _ _ _ H). done. Qed.
Lemma layouts_delete bs id b : bs !! id = Some b -> layouts bs ≡ₚ layout_of b :: layouts (delete id bs).
Proof. intros H. unfold layouts. by rewrite <- (map_to_list_delete _ _ _ H). Qed.
Lemma layouts_swap bs id b b' : bs !! id = Some b -> layout_of b' = layout_of b -> layouts (<[id := b']> bs) ≡ₚ layouts bs.
Proof.
  intros H E. rewrite <- insert_delete_insert, layouts_insert by apply lookup_delete. by rewrite E, <- (layouts_delete _ _ _ H).
Qed.
Lemma balanced_alt m : balanced m <-> allocs_of (ev_trace (m_env m)) ≡ₚ frees_of (ev_trace (m_env m)) ++ layouts (m_blocks m).
Proof. done. Qed.
Lemma fresh_next m : sound m -> m_blocks m !! m_next m = None.
Proof. intros [_ H]. destruct (m_blocks m !! m_next m) eqn:E; [|done]. apply H in E. lia. Qed.

Lemma mkeeps_emit v : mkeeps (mm_env (emit (EvDrop v))).
Proof.
  intros m [Hb Hi]. split; [|done]. cbn. apply balanced_alt. unfold allocs_of, frees_of. cbn. rewrite !omap_app. cbn. by rewrite !app_nil_r.
Qed.
Lemma mkeeps_env_same {A} (f : M env A) :
  (forall e, match f e with Ret _ e' | Panic e' => ev_trace e' = ev_trace e | UB => True end) -> mkeeps (mm_env f).
Proof.
  intros H m [Hb Hi]. unfold mm_env. specialize (H (m_env m)). destruct (f (m_env m)) as [x e|e|]; [| |done];
    (split; [|done]); apply balanced_alt; cbn; by rewrite H.
Qed.
Lemma mkeeps_ask : mkeeps (mm_env ask_allocator).
Proof. apply mkeeps_env_same. intros [tr [|b l]]; done. Qed.
Lemma has_layout_inv m p size align id bs : has_layout m p size align = Some (id, bs) ->
  exists b, m_blocks m !! id = Some b /\ hb_bytes b = bs /\ layout_of b = (size, align).
Proof.
  unfold has_layout. destruct p as [[i [|]]|]; [|done|done]. destruct (m_blocks m !! i) as [b|] eqn:E; [|done].
  destruct ((_ =? _)%N && (_ =? _)%N) eqn:Ec; [|done]. intros [= <- <-]. exists b. split; [done|]. split; [done|].
  apply andb_true_iff in Ec as [E1%N.eqb_eq E2%N.eqb_eq]. unfold layout_of. by rewrite E1, E2.
Qed.
Lemma mkeeps_alloc size align : mkeeps (mm_alloc size align).
Proof.
  unfold mm_alloc. destruct (_ || _); [apply keeps_ub|]. apply keeps_bind; [apply mkeeps_ask|]. intros [|]; [|apply keeps_ret].
  intros m Hm. pose proof (fresh_next _ Hm) as Hf. destruct Hm as [Hb Hi]. cbn. split.
  - apply balanced_alt. cbn. rewrite layouts_insert by done. unfold allocs_of, frees_of. rewrite !omap_app. cbn.
    rewrite app_nil_r. unfold layout_of. cbn. rewrite replicate_length, N2Nat.id. rewrite (Permutation_app_comm _ [_]). cbn. rewrite <- Permutation_middle.
    apply Permutation_skip. by apply balanced_alt.
  - cbn. intros id b. rewrite lookup_insert_Some. intros [[<- _]|[_ H]]; [lia|]. apply Hi in H. lia.
Qed.
Lemma moved (A F L D : list (N * N)) x y : A ≡ₚ F ++ L -> L ≡ₚ y :: D -> A ++ [x] ≡ₚ (F ++ [y]) ++ x :: D.
Proof.
  intros -> ->. rewrite <- !app_assoc. apply Permutation_app_head. cbn. apply Permutation_skip. by rewrite <- Permutation_cons_append.
Qed.
Lemma freed (A F L D : list (N * N)) y : A ≡ₚ F ++ L -> L ≡ₚ y :: D -> A ≡ₚ (F ++ [y]) ++ D.
Proof. intros -> ->. by rewrite <- app_assoc. Qed.
Lemma mkeeps_realloc p o align n : mkeeps (mm_realloc p o align n).
Proof.
  unfold mm_realloc. intros m Hm. unfold bind at 1, get_st. destruct (has_layout m p o align) as [[id bs]|] eqn:Hl; [|done].
  destruct (n =? 0)%N; [done|]. destruct (has_layout_inv _ _ _ _ _ _ Hl) as (b&Hid&Hbs&Hlay).
  pose proof (mkeeps_ask m Hm) as Ha. unfold bind at 1. destruct (mm_env ask_allocator m) as [ok m1|m1|] eqn:Eask; [|done|done].
  assert (exists e, m1 = Mem (m_blocks m) (m_next m) (m_place m) e) as [e ->].
  { unfold mm_env, ask_allocator in Eask. destruct (ev_oracle (m_env m)); injection Eask as _ <-; eauto. }
  assert (Hgo : forall (ok : bool) e, sound (Mem (m_blocks m) (m_next m) (m_place m) e) ->
    match (if ok then mm_env (emit (EvRealloc o align n)) ;;! mm_del id ;;!
          mm_add align (take (N.to_nat n) bs ++ replicate (N.to_nat n - length bs) Poison) else ret None) (Mem (m_blocks m) (m_next m) (m_place m) e)
    with Ret _ t | Panic t => sound t | UB => True end).
  { clear ok e Ha Eask. intros [|] e He; [|done]. pose proof (fresh_next _ He) as Hf. destruct He as [Hb Hi]. cbn in Hf, Hi. cbn. split.
    - apply balanced_alt. cbn. rewrite layouts_insert by (by rewrite lookup_delete_None; right). unfold allocs_of, frees_of. rewrite !omap_app. cbn.
      unfold layout_of. cbn. rewrite app_length, take_length, replicate_length.
      replace (N.of_nat _) with n by lia.
      apply (moved _ _ (layouts (m_blocks m))); [by apply balanced_alt in Hb|]. rewrite <- Hlay. by apply layouts_delete.
    - cbn. intros j b'. rewrite lookup_insert_Some. intros [[<- _]|[_ H]]; [lia|]. apply lookup_delete_Some in H as [_ H]. apply Hi in H. lia. }
  by apply Hgo.
Qed.
Lemma mkeeps_dealloc p size align : mkeeps (mm_dealloc p size align).
Proof.
  unfold mm_dealloc. intros m Hm. unfold bind at 1, get_st. destruct (has_layout m p size align) as [[id bs]|] eqn:Hl; [|done].
  destruct (has_layout_inv _ _ _ _ _ _ Hl) as (b&Hid&Hbs&Hlay). destruct Hm as [Hb Hi]. cbn. split.
  - apply balanced_alt. cbn. unfold allocs_of, frees_of. rewrite !omap_app. cbn. rewrite app_nil_r.
    apply (freed _ _ (layouts (m_blocks m))); [by apply balanced_alt in Hb|]. rewrite <- Hlay. by apply layouts_delete.
  - cbn. intros j b' [_ H]%lookup_delete_Some. by eapply Hi.
Qed.
Lemma mkeeps_store p bs : mkeeps (store p bs).
Proof.
  intros m [Hb Hi]. unfold store. destruct p as [[id off]|]; [|done]. destruct (m_blocks m !! id) as [b|] eqn:E; [|done].
  destruct (_ <=? _) eqn:Hle; [|done]. apply Nat.leb_le in Hle. split.
  - apply balanced_alt. cbn. rewrite (layouts_swap _ _ b); [by apply balanced_alt|done|]. unfold layout_of. cbn. f_equal. f_equal.
    rewrite !app_length, take_length, drop_length. lia.
  - cbn. intros j b'. rewrite lookup_insert_Some. intros [[<- _]|[_ H]]; by eapply Hi.
Qed.
Create HintDb keeps discriminated.
#[export] Hint Resolve keeps_ret keeps_panic keeps_ub keeps_assert keeps_debug keeps_lift keeps_unwrap keeps_get mkeeps_emit mkeeps_ask mkeeps_alloc
  mkeeps_realloc mkeeps_dealloc mkeeps_store : keeps.
Ltac kp :=
  repeat lazymatch goal with
  | |- keeps _ (bind _ _) => apply keeps_bind; [|intros ?]
  | |- keeps _ (mfor _ _) => apply keeps_mfor; intros ?
  | |- keeps _ (mmap _ _) => apply keeps_mmap; intros ?
  | |- keeps _ (match ?x with _ => _ end) => destruct x
  | |- keeps _ (let x := _ in _) => cbv zeta
  | |- keeps _ _ => solve [auto 1 with keeps nocore]
  end.
Lemma mkeeps_copy p q n : mkeeps (copy_bytes p q n).
Proof. unfold copy_bytes. kp. Qed.
Lemma mkeeps_swap p q n : mkeeps (swap_bytes p q n).
Proof. unfold swap_bytes. kp. Qed.
Lemma mkeeps_write C p v : mkeeps (write_as C p v).
Proof. unfold write_as. kp. Qed.
Lemma mkeeps_columns cap ds : mkeeps (b_alloc_columns ds cap).
Proof. induction ds as [|d ds IH]; cbn [b_alloc_columns]; kp. Qed.
#[export] Hint Resolve mkeeps_copy mkeeps_swap mkeeps_write mkeeps_columns : keeps.
Lemma mkeeps_with_capacity d cap : mkeeps (b_with_capacity d cap).
Proof. unfold b_with_capacity. kp. Qed.

(** ** Archetypes *)
Lemma akeeps_mem {A} (f : M mem A) : mkeeps f -> akeeps (bm_mem f).
Proof. intros H [a m] Hs. unfold bm_mem. cbn in *. specialize (H m Hs). by destruct (f m). Qed.
Lemma akeeps_get : akeeps bm_get.
Proof. by intros s. Qed.
Lemma akeeps_upd f : akeeps (bm_upd f).
Proof. by intros s. Qed.
Lemma akeeps_rd {A} (f : barch -> mem -> rd A) : akeeps (bm_rd f).
Proof. intros s Hs. unfold bm_rd. by destruct (f s.1 s.2). Qed.
#[export] Hint Resolve mkeeps_with_capacity akeeps_get akeeps_upd akeeps_rd : keeps.
Ltac ka := repeat (kp; lazymatch goal with |- keeps _ (bm_mem _) => apply akeeps_mem end); kp.
Lemma akeeps_write_entity i h : akeeps (b_write_entity i h).
Proof.
  intros s Hs. unfold b_write_entity. destruct (negb _); [done|]. destruct (i <? _); [|done]. by apply (akeeps_mem (store _ _) (mkeeps_store _ _)).
Qed.
Lemma akeeps_swap_assoc i j : akeeps (b_swap_assoc i j).
Proof.
  intros s Hs. unfold b_swap_assoc. destruct (negb _); [done|]. destruct (_ && _); [|done]. apply akeeps_mem; [|done]. kp.
Qed.
#[export] Hint Resolve akeeps_write_entity akeeps_swap_assoc : keeps.
Lemma akeeps_dealloc_columns ds : akeeps (b_dealloc_columns ds).
Proof. induction ds as [|[i d] ds IH]; cbn [b_dealloc_columns]; ka. Qed.
#[export] Hint Resolve akeeps_dealloc_columns : keeps.
Lemma akeeps_dealloc : akeeps b_dealloc.
Proof. unfold b_dealloc. ka. Qed.
#[export] Hint Resolve akeeps_dealloc : keeps.
Lemma akeeps_realloc_column o n x : akeeps (b_realloc_column o n x).
Proof. unfold b_realloc_column. ka. Qed.
#[export] Hint Resolve akeeps_realloc_column : keeps.
Lemma akeeps_resize k : akeeps (b_resize_capacity k).
Proof. unfold b_resize_capacity. ka. Qed.
#[export] Hint Resolve akeeps_resize : keeps.
Lemma akeeps_resize_if : akeeps b_resize_if_necessary.
Proof. unfold b_resize_if_necessary. ka. Qed.
Lemma akeeps_copy_in vs row x : akeeps (b_copy_in vs row x).
Proof. unfold b_copy_in. ka. Qed.
#[export] Hint Resolve akeeps_resize_if akeeps_copy_in : keeps.
Lemma akeeps_write_unchecked c G row h vs : akeeps (b_write_entity_unchecked c G row h vs).
Proof. unfold b_write_entity_unchecked. ka. Qed.
#[export] Hint Resolve akeeps_write_unchecked : keeps.
Lemma akeeps_push c G h vs : akeeps (b_push_entity c G h vs).
Proof. unfold b_push_entity. ka. Qed.
Lemma akeeps_push_un : akeeps b_push_uninitialized.
Proof. unfold b_push_uninitialized. ka. Qed.
Lemma akeeps_dec c : akeeps (b_decrement_len c).
Proof. unfold b_decrement_len. ka. Qed.
Lemma akeeps_write_single C row v : akeeps (b_write_single C row v).
Proof. unfold b_write_single. ka. Qed.
Lemma akeeps_swap_entities i j : akeeps (b_swap_entities i j).
Proof. unfold b_swap_entities, b_swap_cells. ka. Qed.
Lemma akeeps_handler d p n : akeeps (b_run_drop_handler d p n).
Proof. unfold b_run_drop_handler, b_drop_at. ka. Qed.
#[export] Hint Resolve akeeps_push akeeps_push_un akeeps_dec akeeps_write_single akeeps_swap_entities akeeps_handler : keeps.
Lemma akeeps_drop_entity row : akeeps (b_drop_entity row).
Proof. unfold b_drop_entity. ka. Qed.
Lemma akeeps_drop_entities : akeeps b_drop_entities.
Proof. unfold b_drop_entities. ka. Qed.
#[export] Hint Resolve akeeps_drop_entity akeeps_drop_entities : keeps.
Lemma akeeps_swap_drop c row : akeeps (b_swap_drop c row).
Proof. unfold b_swap_drop. ka. Qed.
Lemma akeeps_swap_to_last c row : akeeps (b_swap_to_last c row).
Proof. unfold b_swap_to_last. ka. Qed.
Lemma akeeps_swap_remove c G row : akeeps (b_swap_remove c G row).
Proof. unfold b_swap_remove. ka. Qed.
Lemma akeeps_copy_common a i j : akeeps (b_copy_common a i j).
Proof. unfold b_copy_common. ka. Qed.
Lemma akeeps_drop : akeeps b_drop.
Proof. unfold b_drop. ka. Qed.
#[export] Hint Resolve akeeps_swap_drop akeeps_swap_to_last akeeps_swap_remove akeeps_copy_common akeeps_drop : keeps.

(** ** The registry *)
Lemma rkeeps_get : rkeeps bq_get.
Proof. by intros s. Qed.
Lemma rkeeps_er {A} (f : M er A) : rkeeps (bq_er f).
Proof. intros s Hs. unfold bq_er. by destruct (f (br_er s)). Qed.
Lemma rkeeps_mem {A} (f : M mem A) : mkeeps f -> rkeeps (bq_mem f).
Proof. intros H s Hs. unfold bq_mem. specialize (H _ Hs). by destruct (f (br_mem s)). Qed.
Lemma rkeeps_with {A} i (f : BAM A) : akeeps f -> rkeeps (b_with_arch i f).
Proof. intros H s Hs. unfold b_with_arch. destruct (br_archs s !! i) as [a|]; [|done]. specialize (H (a, br_mem s) Hs). by destruct (f (a, br_mem s)). Qed.
Lemma rkeeps_rd {A} (f : breg -> rd A) : rkeeps (bq_rd f).
Proof. intros s Hs. unfold bq_rd. by destruct (f s). Qed.
Lemma rkeeps_mrd {A} (f : mem -> rd A) : rkeeps (bq_mrd f).
Proof. intros s Hs. unfold bq_mrd. by destruct (f (br_mem s)). Qed.
Lemma rkeeps_entry c h f : rkeeps (b_update_entry c h f).
Proof. intros s Hs. unfold b_update_entry. by destruct (er_update_entry _ _ _ _). Qed.
Lemma sound_dropped (vs : list value) m : sound m ->
  sound (Mem (m_blocks m) (m_next m) (m_place m) (Env (ev_trace (m_env m) ++ map EvDrop vs) (ev_oracle (m_env m)))).
Proof.
  intros [Hb Hi]. split; [|done]. apply balanced_alt. cbn. unfold allocs_of, frees_of. rewrite !omap_app.
  assert (forall (f : event -> option (N * N)), (forall v, f (EvDrop v) = None) -> omap f (map EvDrop vs) = []) as Hn.
  { intros f Hf. induction vs as [|v vs IH]; [done|]. cbn. by rewrite Hf. }
  rewrite !Hn by done. rewrite !app_nil_r. by apply balanced_alt.
Qed.
Lemma rkeeps_dop {A} vs (f : BRM A) : rkeeps f -> rkeeps (b_dropping_on_panic vs f).
Proof. intros H s Hs. unfold b_dropping_on_panic. specialize (H s Hs). destruct (f s); [done|by apply sound_dropped|done]. Qed.
#[export] Hint Resolve rkeeps_get rkeeps_er rkeeps_rd rkeeps_mrd rkeeps_entry : keeps.
Ltac kr :=
  repeat (kp; lazymatch goal with
  | |- keeps _ (bq_mem _) => apply rkeeps_mem
  | |- keeps _ (b_with_arch _ _) => apply rkeeps_with
  | |- keeps _ (b_dropping_on_panic _ _) => apply rkeeps_dop
  end); kp.
(** [put_st] of a registry with the heap as it is. *)
Lemma rkeeps_put {A} (f : breg -> breg) (k : breg -> BRM A) :
  (forall s, br_mem (f s) = br_mem s) -> (forall s, rkeeps (k s)) -> rkeeps (let! s := bq_get in put_st (f s) ;;! k s).
Proof. intros Hf Hk s Hs. unfold bind, bq_get, get_st, put_st. apply Hk. by rewrite Hf. Qed.
Lemma rkeeps_find_or_create d : rkeeps (b_find_or_create d).
Proof.
  unfold b_find_or_create. cbv zeta. destruct (_ || _); [apply keeps_ret|]. destruct (_ =? 0); [apply keeps_panic|].
  apply keeps_bind; [apply rkeeps_get|intros s]. destruct (br_maps s !! _) as [lv|]; [|apply keeps_panic].
  destruct (binary_search _ _) as [f|ins]; [kp|]. destruct (_ <=? _)%N; [apply keeps_ret|].
  apply keeps_bind; [apply rkeeps_mem, mkeeps_with_capacity|intros a].
  exact (rkeeps_put (fun s => BReg (br_er s) (<[ad_len d - 1 := vec_insert lv ins (AKey (ad_id d) (length (br_archs s)))]> (br_maps s))
    (br_archs s ++ [a]) (br_mem s)) (fun s => ret (Some (length (br_archs s)))) (fun s => eq_refl) (fun s => keeps_ret _ _)).
Qed.
#[export] Hint Resolve rkeeps_find_or_create : keeps.
Lemma rkeeps_adding c i d : rkeeps (b_find_adding c i d).
Proof. unfold b_find_adding. kr. Qed.
Lemma rkeeps_removing c i d : rkeeps (b_find_removing c i d).
Proof. unfold b_find_removing. kr. Qed.
#[export] Hint Resolve rkeeps_adding rkeeps_removing : keeps.
Lemma rkeeps_create c G vs : rkeeps (b_create_entity c G vs).
Proof. unfold b_create_entity. kr. Qed.
Lemma rkeeps_destroy c h : rkeeps (b_destroy_entity c h).
Proof. unfold b_destroy_entity. kr. Qed.
Lemma rkeeps_remove_entity c G h : rkeeps (b_remove_entity c G h).
Proof. unfold b_remove_entity. kr. Qed.
Lemma rkeeps_add c C h v : rkeeps (b_add_component c C h v).
Proof. unfold b_add_component. kr. Qed.
Lemma rkeeps_remove c C h : rkeeps (b_remove_component c C h).
Proof. unfold b_remove_component. kr. Qed.
Lemma rkeeps_replace l v : rkeeps (b_replace l v).
Proof. unfold b_replace. kr. Qed.
#[export] Hint Resolve rkeeps_create rkeeps_destroy rkeeps_remove_entity rkeeps_add rkeeps_remove rkeeps_replace : keeps.
Lemma rkeeps_replaces ls : forall vs, rkeeps (b_replaces ls vs).
Proof. induction ls as [|l ls IH]; intros [|v vs]; cbn [b_replaces]; kr. Qed.
Lemma rkeeps_modify f l : rkeeps (b_modify f l).
Proof. unfold b_modify. kr. Qed.
#[export] Hint Resolve rkeeps_replaces rkeeps_modify : keeps.
Lemma rkeeps_item upd cols : rkeeps (b_modify_item upd cols).
Proof. unfold b_modify_item. kr. Qed.
#[export] Hint Resolve rkeeps_item : keeps.
Lemma rkeeps_items upd l : rkeeps (b_modify_items upd l).
Proof. unfold b_modify_items. kr. Qed.
Lemma rkeeps_eitems upd l : rkeeps (b_modify_eitems upd l).
Proof. unfold b_modify_eitems. kr. Qed.
#[export] Hint Resolve rkeeps_items rkeeps_eitems : keeps.
Lemma rkeeps_step c o : rkeeps (bstep c o).
Proof. destruct o; cbn [bstep]; kr. Qed.
Lemma attempt_sound c ops : forall R l R', sound (br_mem R) -> battempt c ops R = (l, Some R') -> sound (br_mem R').
Proof.
  induction ops as [|o ops IH]; intros R l R' Hs E; cbn [battempt] in E; [congruence|]. pose proof (rkeeps_step c o R Hs) as H1.
  destruct (bstep c o R) as [out R1|R1|]; [| |done]; destruct (battempt c ops R1) as [l1 e1] eqn:E1; injection E as _ ->; by eapply IH.
Qed.
Lemma rkeeps_drop_archs n : forall k p, rkeeps (b_drop_archs k n p).
Proof.
  induction n as [|n IH]; intros k p s Hs; cbn [b_drop_archs]; [by destruct p|].
  pose proof (rkeeps_with k b_drop akeeps_drop s Hs) as H1. destruct (b_with_arch k b_drop s); [by apply IH|by apply IH|done].
Qed.
Lemma rkeeps_drop : rkeeps b_drop_registry.
Proof. unfold b_drop_registry. apply keeps_bind; [apply rkeeps_get|intros s; apply rkeeps_drop_archs]. Qed.
Lemma asking_sound place oracle : sound (br_mem (breg_asking place oracle)).
Proof. split; [|done]. apply balanced_alt. done. Qed.
Lemma attempt_balanced c place oracle ops l R : battempt c ops (breg_asking place oracle) = (l, Some R) -> balanced (br_mem R).
Proof. intros E. eapply attempt_sound in E; [apply E|apply asking_sound]. Qed.
Lemma drop_balanced c place oracle ops l R : battempt c ops (breg_asking place oracle) = (l, Some R) ->
  match b_drop_registry R with Ret _ R' | Panic R' => balanced (br_mem R') | UB => True end.
Proof.
  intros E. eapply attempt_sound in E; [|apply asking_sound]. pose proof (rkeeps_drop R E) as H. destruct (b_drop_registry R); [apply H|apply H|done].
Qed.
