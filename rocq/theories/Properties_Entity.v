(** Properties C16-C22: the entity registry (entity table and free list).

    [er_path be r ls r'] is any sequence of creations, destructions (of any
    handle whatsoever) and row/archetype updates; [er_reach be r] says [r] is
    reached from the empty table by one.  [be] ranges over both endiannesses. *)
From Verif Require Import EntityModel SpecEntity EntityTable.
Local Open Scope N_scope.

(** A small history used by the examples: create three, destroy the second,
    create again. *)
Definition ex_er3 : er :=
  match er_create_entity false 0 0 er_default with
  | Ret _ r1 => match er_create_entity false 1 0 r1 with
    | Ret _ r2 => match er_create_entity false 0 1 r2 with
      | Ret _ r3 => r3 | _ => er_default end | _ => er_default end | _ => er_default end.
Definition ex_er4 : er :=
  match er_destroy_entity false 256 ex_er3 with Ret _ r => r | _ => er_default end.
Lemma ex_er3_reach : er_reach false ex_er3.
Proof.
  eexists. eapply ep_cons. { eapply (es_create _ _ 0 0); [lia|lia|vm_compute; reflexivity]. }
  eapply ep_cons. { eapply (es_create _ _ 1 0); [lia|lia|vm_compute; reflexivity]. }
  eapply ep_cons. { eapply (es_create _ _ 0 1); [lia|lia|vm_compute; reflexivity]. }
  apply ep_nil.
Qed.
Lemma ex_er4_reach : er_reach false ex_er4.
Proof.
  destruct ex_er3_reach as [ls H]. eexists. eapply er_path_snoc; [exact H|].
  apply (es_destroy false _ 256 true). vm_compute. reflexivity.
Qed.

(** C16: a created handle, and its slot index, was not live; afterwards it is,
    and every other handle is looked up as before. Live handles therefore have
    pairwise different slot indices. *)
Theorem C16_created_fresh : forall be r row ai h r',
  er_reach be r -> row < 2 ^ 24 -> ai < 65535 -> er_create_entity be row ai r = Ret (Some h) r' ->
  ~ live be r h /\ (forall h', live be r h' -> ent_index h' <> ent_index h) /\
  live be r' h /\ h < 2 ^ 32 /\
  (forall h', h' <> h -> er_entity_entry be r' h' = er_entity_entry be r h').
Proof. exact created_fresh. Qed.
Print Assumptions C16_created_fresh.
Theorem C16_live_handles_distinct : forall be r h h',
  er_reach be r -> live be r h -> live be r h' -> ent_index h = ent_index h' -> h = h'.
Proof. exact live_handles_distinct. Qed.
Print Assumptions C16_live_handles_distinct.
(** The reused slot 1 comes back as a different handle (version 1). *)
Example C16_example :
  er_reach false ex_er4 /\
  exists r', er_create_entity false 7 2 ex_er4 = Ret (Some 257) r' /\ live false r' 257 /\ ~ live false ex_er4 257 /\
             live false ex_er4 0 /\ live false ex_er4 512.
Proof.
  split; [exact ex_er4_reach|]. eexists. split; [vm_compute; reflexivity|].
  split; [eexists; vm_compute; reflexivity|]. split; [intros [e He]; vm_compute in He; discriminate|].
  split; eexists; vm_compute; reflexivity.
Qed.

(** C17: the invalid handle is never issued; it is rejected by every lookup,
    destruction and update in every table whatsoever. *)
Theorem C17_invalid_never_issued : forall be r row ai h r',
  er_reach be r -> row < 2 ^ 24 -> ai < 65535 -> er_create_entity be row ai r = Ret (Some h) r' -> h <> ent_INVALID.
Proof. exact invalid_never_created. Qed.
Print Assumptions C17_invalid_never_issued.
Theorem C17_invalid_never_accepted : forall be r,
  ~ live be r ent_INVALID /\ er_destroy_entity be ent_INVALID r = Ret false r /\
  (forall f, er_update_entry be r ent_INVALID f = None).
Proof. exact invalid_never_accepted. Qed.
Print Assumptions C17_invalid_never_accepted.
Example C17_example : ent_INVALID = 4294967295 /\ er_destroy_entity false ent_INVALID ex_er3 = Ret false ex_er3.
Proof. vm_compute. auto. Qed.

(** C18: destruction succeeds only on a live handle, kills exactly it, and the
    handle stays dead on every continuation that does not issue it again; a
    dead handle is rejected everywhere and nothing changes. *)
Theorem C18_destroyed_dead : forall be r h r',
  er_reach be r -> er_destroy_entity be h r = Ret true r' ->
  live be r h /\ ~ live be r' h /\ (forall h', h' <> h -> er_entity_entry be r' h' = er_entity_entry be r h').
Proof. exact destroyed_dead. Qed.
Print Assumptions C18_destroyed_dead.
Theorem C18_dead_until_reissued : forall be r ls r' h,
  er_reach be r -> er_path be r ls r' -> ~ live be r h -> LCreate (Some h) ∉ ls -> ~ live be r' h.
Proof. exact dead_until_reissued. Qed.
Print Assumptions C18_dead_until_reissued.
Theorem C18_dead_no_effect : forall be r h,
  er_reach be r -> ~ live be r h ->
  er_entity_entry be r h = None /\ er_destroy_entity be h r = Ret false r /\ (forall f, er_update_entry be r h f = None).
Proof. exact dead_no_effect. Qed.
Print Assumptions C18_dead_no_effect.
Example C18_example :
  er_destroy_entity false 256 ex_er3 = Ret true ex_er4 /\ er_destroy_entity false 256 ex_er4 = Ret false ex_er4.
Proof. vm_compute. auto. Qed.

(** C19: for a destroyed handle to become live again, its slot must have been
    destroyed at least 255 further times. *)
Theorem C19_stale_handles : forall be r h r1 ls r2,
  er_reach be r -> er_destroy_entity be h r = Ret true r1 -> er_path be r1 ls r2 ->
  live be r2 h -> (255 <= destroy_count (ent_index h) ls)%nat.
Proof. exact stale_handles. Qed.
Print Assumptions C19_stale_handles.
(** The bound is tight: after 255 more destroy/create rounds of the slot the
    old handle 0 is live again, one round earlier it is not. *)
Fixpoint churn (n : nat) (r : er) : er :=
  match n with
  | O => r
  | S n' => match er_create_entity false 0 0 r with
            | Ret (Some h) r1 => match er_destroy_entity false h r1 with Ret true r2 => churn n' r2 | _ => r end
            | _ => r
            end
  end.
Definition wakes (n : nat) : bool :=
  match er_create_entity false 0 0 (churn n er_default) with
  | Ret (Some 0) _ => true | _ => false end.
Example C19_tight : wakes 0 = true /\ wakes 1 = false /\ wakes 255 = false /\ wakes 256 = true.
Proof. vm_compute. auto. Qed.

(** C20: the free list visits every dead slot exactly once, and nothing else. *)
Theorem C20_free_list_exact : forall be r,
  er_reach be r -> exists F, free_chain be (er_ents r) (er_next r) F /\ NoDup F /\ (forall i, i ∈ F <-> dead_slot be r i).
Proof. exact free_list_exact. Qed.
Print Assumptions C20_free_list_exact.
(** The table grows only when there is no dead slot; otherwise the head of the
    free list is reused. *)
Theorem C20_create_reuses : forall be r row ai h r',
  er_reach be r -> row < 2 ^ 24 -> ai < 65535 -> er_create_entity be row ai r = Ret (Some h) r' ->
  (length (er_ents r') = length (er_ents r) /\ dead_slot be r (N.to_nat (ent_index h)) /\ er_next r = ent_index h) \/
  (length (er_ents r') = S (length (er_ents r)) /\ ~ (exists i, dead_slot be r i) /\
   ent_index h = N.of_nat (length (er_ents r)) /\ ent_version h = 0).
Proof. exact create_reuses. Qed.
Print Assumptions C20_create_reuses.
(** The most recently destroyed slot is reused, with the next version. *)
Theorem C20_destroy_then_create : forall be r h r1 row ai,
  er_reach be r -> row < 2 ^ 24 -> ai < 65535 -> er_destroy_entity be h r = Ret true r1 ->
  N.of_nat (length (er_ents r)) < 16777215 ->
  exists r2, er_create_entity be row ai r1 = Ret (Some (ent_new_unchecked (ent_index h) ((ent_version h + 1) mod 256))) r2.
Proof. exact destroy_then_create. Qed.
Print Assumptions C20_destroy_then_create.
(** The table is exactly as long as the number of entities that were alive
    together at some earlier moment. *)
Theorem C20_table_is_peak : forall be ls r,
  er_path be er_default ls r ->
  exists ls1 ls2 r0, ls = ls1 ++ ls2 /\ er_path be er_default ls1 r0 /\ er_path be r0 ls2 r /\
    live_count be r0 = length (er_ents r).
Proof. exact table_is_peak. Qed.
Print Assumptions C20_table_is_peak.
Example C20_example :
  er_next ex_er4 = 1 /\ live_count false ex_er4 = 2%nat /\ length (er_ents ex_er4) = 3%nat /\
  free_chain false (er_ents ex_er4) (er_next ex_er4) [1%nat].
Proof.
  split; [vm_compute; reflexivity|]. split; [vm_compute; reflexivity|]. split; [vm_compute; reflexivity|].
  change (er_next ex_er4) with (N.of_nat 1). econstructor; [lia|vm_compute; reflexivity|vm_compute; reflexivity|].
  match goal with |- free_chain _ _ ?n _ => let v := eval vm_compute in n in change n with v end. constructor.
Qed.

(** C21 (partial): creation fails exactly when the TABLE is full, i.e. has
    16,777,215 slots, and then changes nothing; below that it always succeeds.
    Missing from the full statement: that it fails only while that many
    entities are LIVE.  That is false, see [C21_destroying_makes_room_refuted]. *)
Theorem C21_capacity_partial : forall be r row ai,
  er_reach be r -> row < 2 ^ 24 -> ai < 65535 ->
  exists o r', er_create_entity be row ai r = Ret o r' /\ (o = None <-> N.of_nat (length (er_ents r)) = 16777215) /\
    (o = None -> r' = r).
Proof. exact create_result. Qed.
Print Assumptions C21_capacity_partial.
(** A full table can be reached, with all 16,777,215 entities live. *)
Theorem C21_table_can_fill : forall be n,
  N.of_nat n <= 16777215 -> exists r, er_reach be r /\ length (er_ents r) = n /\
    (forall i, (i < n)%nat -> live be r (ent_new_unchecked (N.of_nat i) 0)).
Proof. exact fill_table. Qed.
Print Assumptions C21_table_can_fill.
(** Refuted: once the table was full, destroying an entity does not make room:
    every later creation fails although fewer entities are live. *)
Theorem C21_destroying_makes_room_refuted : forall be,
  exists r h r', er_reach be r /\ er_destroy_entity be h r = Ret true r' /\
    N.of_nat (live_count be r') < 16777215 /\ forall row ai, er_create_entity be row ai r' = Ret None r'.
Proof. exact full_table_stays_full. Qed.
Print Assumptions C21_destroying_makes_room_refuted.
Example C21_example : exists r', er_create_entity false 0 0 ex_er4 = Ret (Some 257) r'.
Proof. eexists. vm_compute. reflexivity. Qed.

(** C22: iteration yields exactly the live handles, in increasing slot order
    (hence each once), and the iterator is fused. *)
Theorem C22_iter_entities : forall be r,
  er_reach be r -> exists l, er_iter be r = Rd (Some l) /\ (forall h, h ∈ l <-> live be r h) /\
    StronglySorted (fun h h' => ent_index h < ent_index h') l.
Proof. exact iter_entities_exact. Qed.
Print Assumptions C22_iter_entities.
Theorem C22_fused : forall be ents cur cur',
  eit_next be ents cur = Rd (None, cur') -> eit_next be ents cur' = Rd (None, cur').
Proof. exact entity_iter_fused. Qed.
Print Assumptions C22_fused.
Example C22_example : er_iter false ex_er4 = Rd (Some [0; 512]) /\ er_iter false ex_er3 = Rd (Some [0; 256; 512]).
Proof. vm_compute. auto. Qed.
