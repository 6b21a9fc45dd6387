(** Proofs about the entity handle, the table entries and the entity table. *)
From Verif Require Import EntityModel.
Local Open Scope N_scope.

(** ** Handles *)
Lemma testbit_small v n : v < 2 ^ n -> forall m, n <= m -> N.testbit v m = false.
Proof.
  intros Hv m Hm. destruct (N.eq_dec v 0) as [->|Hz]; [apply N.bits_0|].
  apply N.bits_above_log2. eapply N.lt_le_trans; [|done]. apply N.log2_lt_pow2; lia.
Qed.
Lemma lor_shiftl8 i v : v < 256 -> N.lor (N.shiftl i 8) v = i * 256 + v.
Proof.
  intros Hv.
  assert (HL : N.land (N.shiftl i 8) v = 0).
  { apply N.bits_inj_0. intros n. rewrite N.land_spec.
    destruct (N.lt_ge_cases n 8).
    - by rewrite N.shiftl_spec_low.
    - by rewrite (testbit_small v 8), andb_false_r. }
  rewrite <- N.lxor_lor, <- N.add_nocarry_lxor, N.shiftl_mul_pow2 by done. reflexivity.
Qed.
Lemma lor_mul256 i v : v < 256 -> N.lor (i * 256) v = i * 256 + v.
Proof. intros. rewrite <- lor_shiftl8 by done. by rewrite N.shiftl_mul_pow2. Qed.

Lemma ent_new_val i v : i < 16777216 -> v < 256 -> ent_new_unchecked i v = i * 256 + v.
Proof.
  intros Hi Hv. unfold ent_new_unchecked, ENTITY_VERSION_BITS.
  rewrite N.shiftl_mul_pow2. change (2 ^ 8) with 256. change (2 ^ 32) with 4294967296.
  rewrite N.mod_small by lia. by apply lor_mul256.
Qed.
Lemma ent_INVALID_val : ent_INVALID = 4294967295.
Proof. reflexivity. Qed.
Lemma ent_index_val h : ent_index h = h / 256.
Proof. unfold ent_index, ENTITY_VERSION_BITS. by rewrite N.shiftr_div_pow2. Qed.
Lemma ent_version_val h : ent_version h = h mod 256.
Proof.
  unfold ent_version. rewrite N.land_comm. change 0xFFFFFF with (N.ones 24).
  rewrite N.land_ones. change (2 ^ 24) with 16777216. lia.
Qed.
Lemma ent_index_new i v : i < 16777216 -> v < 256 -> ent_index (ent_new_unchecked i v) = i.
Proof. intros. rewrite ent_new_val, ent_index_val by done. lia. Qed.
Lemma ent_version_new i v : i < 16777216 -> v < 256 -> ent_version (ent_new_unchecked i v) = v.
Proof. intros. rewrite ent_new_val, ent_version_val by done. lia. Qed.
Lemma ent_eta h : h < 4294967296 -> h = ent_new_unchecked (ent_index h) (ent_version h).
Proof.
  intros. rewrite ent_index_val, ent_version_val, ent_new_val by lia. lia.
Qed.
Lemma ent_set_index_val dbg h i : i < 16777216 ->
  ent_set_index dbg h i = Some (ent_new_unchecked i (ent_version h)).
Proof.
  intros. unfold ent_set_index. change (2 ^ ENTITY_HANDLE_BITS) with 16777216.
  rewrite (proj2 (N.ltb_lt i 16777216)) by done. rewrite andb_false_r. reflexivity.
Qed.
Lemma ent_set_version_val h v : ent_set_version h v = ent_new_unchecked (ent_index h) v.
Proof. reflexivity. Qed.

(** ** IndexInArchetype *)
Lemma iia_bytes v : iia_to_bytes v = ((v / 65536) mod 256, (v / 256) mod 256, v mod 256).
Proof.
  unfold iia_to_bytes.
  assert (H : forall v k, N.shiftr (N.land v (N.shiftl 0xFF (8 * k))) (8 * k) mod 256 = (v / 2 ^ (8 * k)) mod 256).
  { intros w k. rewrite N.shiftr_land, N.shiftr_shiftl_l, N.sub_diag, N.shiftl_0_r by lia.
    rewrite N.shiftr_div_pow2. change 0xFF with (N.ones 8). rewrite N.land_ones.
    change (2 ^ 8) with 256. rewrite N.mod_mod; lia. }
  pose proof (H v 2) as H2. pose proof (H v 1) as H1. pose proof (H v 0) as H0.
  cbn -[N.div N.modulo N.land N.shiftr] in H2, H1, H0.
  f_equal; [f_equal; [exact H2|exact H1]|].
  rewrite N.shiftr_0_r, N.div_1_r in H0. exact H0.
Qed.
Lemma iia_from_bytes_val b : iia_from_bytes b = b.1.1 * 65536 + b.1.2 * 256 + b.2.
Proof. unfold iia_from_bytes. by rewrite !N.shiftl_mul_pow2. Qed.
Lemma iia_roundtrip v : v < 16777216 -> iia_from_bytes (iia_to_bytes v) = v.
Proof. intros. rewrite iia_bytes, iia_from_bytes_val. cbn [fst snd]. lia. Qed.
Lemma iia_new_spec v : iia_new v = (if decide (v < 16777215) then Some v else None).
Proof. unfold iia_new, iia_INVALID_VALUE. destruct (N.leb_spec 16777215 v); case_decide; auto; lia. Qed.
Lemma ai_new_spec v : ai_new v = (if decide (v = 65535) then None else Some v).
Proof. unfold ai_new, INVALID_ARCHETYPE_INDEX. destruct (N.eqb_spec v 65535); case_decide; auto; done. Qed.

(** ** Entries *)
Definition entry_bytes_ok (e : entry) : Prop :=
  eb0 e < 256 /\ eb1 e < 256 /\ eb2 e < 256 /\ eb3 e < 256 /\ eb4 e < 256 /\ eb5 e < 256.

Lemma u16_ne_roundtrip be v : v < 65536 -> u16_from_ne be (u16_to_ne be v) = v.
Proof. intros. destruct be; cbn; lia. Qed.
Lemma u16_to_ne_bytes be v : (u16_to_ne be v).1 < 256 /\ (u16_to_ne be v).2 < 256.
Proof. destruct be; cbn; lia. Qed.
Lemma u16_from_ne_bound be b : b.1 < 256 -> b.2 < 256 -> u16_from_ne be b < 65536.
Proof. destruct be; cbn; lia. Qed.

Lemma entry_default_ok : entry_bytes_ok entry_default.
Proof. repeat split; cbn; lia. Qed.
Lemma entry_set_version_ok e v : entry_bytes_ok e -> v < 256 -> entry_bytes_ok (entry_set_version e v).
Proof. intros (?&?&?&?&?&?) ?. repeat split; cbn; lia. Qed.
Lemma entry_set_row_ok e v : entry_bytes_ok e -> entry_bytes_ok (entry_set_index_in_archetype e v).
Proof.
  intros (?&?&?&?&?&?). unfold entry_set_index_in_archetype. rewrite iia_bytes.
  repeat split; cbn; lia.
Qed.
Lemma entry_set_arch_ok be e v : entry_bytes_ok e -> entry_bytes_ok (entry_set_archetype_index be e v).
Proof.
  intros (?&?&?&?&?&?). unfold entry_set_archetype_index.
  pose proof (u16_to_ne_bytes be v). repeat split; cbn; lia || tauto.
Qed.
Lemma entry_version_lt e : entry_bytes_ok e -> entry_version e < 256.
Proof. intros (?&?); done. Qed.
Lemma entry_row_lt e : entry_bytes_ok e -> entry_index_in_archetype e < 16777216.
Proof. intros (?&?&?&?&?&?). unfold entry_index_in_archetype. rewrite iia_from_bytes_val. cbn. lia. Qed.
Lemma entry_arch_lt be e : entry_bytes_ok e -> entry_archetype_index be e < 65536.
Proof. intros (?&?&?&?&?&?). apply u16_from_ne_bound; done. Qed.

Lemma entry_get_set_version e v : entry_version (entry_set_version e v) = v.
Proof. reflexivity. Qed.
Lemma entry_row_set_version e v : entry_index_in_archetype (entry_set_version e v) = entry_index_in_archetype e.
Proof. reflexivity. Qed.
Lemma entry_arch_set_version be e v : entry_archetype_index be (entry_set_version e v) = entry_archetype_index be e.
Proof. reflexivity. Qed.
Lemma entry_get_set_row e v : v < 16777216 -> entry_index_in_archetype (entry_set_index_in_archetype e v) = v.
Proof.
  intros. unfold entry_index_in_archetype, entry_set_index_in_archetype. cbn [eb1 eb2 eb3].
  transitivity (iia_from_bytes (iia_to_bytes v)); [|by apply iia_roundtrip].
  by destruct (iia_to_bytes v) as [[??]?].
Qed.
Lemma entry_version_set_row e v : entry_version (entry_set_index_in_archetype e v) = entry_version e.
Proof. reflexivity. Qed.
Lemma entry_arch_set_row be e v : entry_archetype_index be (entry_set_index_in_archetype e v) = entry_archetype_index be e.
Proof. reflexivity. Qed.
Lemma entry_get_set_arch be e v : v < 65536 -> entry_archetype_index be (entry_set_archetype_index be e v) = v.
Proof.
  intros. unfold entry_archetype_index, entry_set_archetype_index. cbn [eb4 eb5].
  transitivity (u16_from_ne be (u16_to_ne be v)); [|by apply u16_ne_roundtrip].
  by destruct (u16_to_ne be v).
Qed.
Lemma entry_version_set_arch be e v : entry_version (entry_set_archetype_index be e v) = entry_version e.
Proof. reflexivity. Qed.
Lemma entry_row_set_arch be e v : entry_index_in_archetype (entry_set_archetype_index be e v) = entry_index_in_archetype e.
Proof. reflexivity. Qed.
Lemma entry_is_valid_spec be e : entry_is_valid be e = true <-> entry_archetype_index be e <> 65535.
Proof.
  unfold entry_is_valid, INVALID_ARCHETYPE_INDEX.
  destruct (N.eqb_spec (entry_archetype_index be e) 65535); cbn; split; done.
Qed.
Lemma entry_invalidate_fields be e n : n < 16777216 ->
  entry_archetype_index be (entry_invalidate be e n) = 65535 /\
  entry_index_in_archetype (entry_invalidate be e n) = n /\
  entry_version (entry_invalidate be e n) = entry_version e.
Proof.
  intros. unfold entry_invalidate. split; [|split].
  - by apply entry_get_set_arch.
  - rewrite entry_row_set_arch. by apply entry_get_set_row.
  - reflexivity.
Qed.
Lemma entry_invalidate_ok be e n : entry_bytes_ok e -> entry_bytes_ok (entry_invalidate be e n).
Proof. intros. by apply entry_set_arch_ok, entry_set_row_ok. Qed.

(** ** The claims *)
Lemma handle_packing :
  (forall i v, i < 2 ^ 24 -> v < 2 ^ 8 ->
     ent_index (ent_new_unchecked i v) = i /\
     ent_version (ent_new_unchecked i v) = v /\
     ent_raw (ent_new_unchecked i v) = i * 256 + v) /\
  (forall raw, raw < 2 ^ 32 ->
     ent_index (ent_from_raw raw) < 2 ^ 24 /\ ent_version (ent_from_raw raw) < 2 ^ 8 /\
     ent_new_unchecked (ent_index raw) (ent_version raw) = raw) /\
  (forall dbg h i, h < 2 ^ 32 -> i < 2 ^ 24 ->
     exists h', ent_set_index dbg h i = Some h' /\ ent_index h' = i /\ ent_version h' = ent_version h) /\
  (forall h v, h < 2 ^ 32 -> v < 2 ^ 8 ->
     ent_version (ent_set_version h v) = v /\ ent_index (ent_set_version h v) = ent_index h) /\
  (forall h, ent_is_valid h = true <-> h <> 2 ^ 32 - 1).
Proof.
  change (2 ^ 24) with 16777216. change (2 ^ 8) with 256. change (2 ^ 32) with 4294967296.
  change (4294967296 - 1) with 4294967295.
  split; [|split; [|split; [|split]]].
  - intros. rewrite ent_index_new, ent_version_new by done. unfold ent_raw. by rewrite ent_new_val.
  - intros. unfold ent_from_raw. rewrite <- ent_eta by done. rewrite ent_index_val, ent_version_val. lia.
  - intros. eexists. split; [by apply ent_set_index_val|].
    assert (ent_version h < 256) by (rewrite ent_version_val; lia).
    by rewrite ent_index_new, ent_version_new.
  - intros. rewrite ent_set_version_val.
    assert (ent_index h < 16777216) by (rewrite ent_index_val; lia).
    by rewrite ent_index_new, ent_version_new.
  - intros. unfold ent_is_valid. rewrite ent_INVALID_val. destruct (N.eqb_spec h 4294967295); split; done.
Qed.
Lemma index_in_archetype :
  (forall v, (iia_new v = None <-> 16777215 <= v) /\ (forall w, iia_new v = Some w -> w = v)) /\
  (forall v, v < 2 ^ 24 -> iia_from_bytes (iia_to_bytes v) = v) /\
  (forall v, (iia_to_bytes v).1.1 < 256 /\ (iia_to_bytes v).1.2 < 256 /\ (iia_to_bytes v).2 < 256).
Proof.
  split; [|split].
  - intros v. rewrite iia_new_spec. case_decide; split; try (intros ? [=]; done); split; try done; lia.
  - exact iia_roundtrip.
  - intros v. rewrite iia_bytes. cbn. lia.
Qed.
Lemma entry_fields : forall be e,
  (forall v, entry_version (entry_set_version e v) = v /\
             entry_index_in_archetype (entry_set_version e v) = entry_index_in_archetype e /\
             entry_archetype_index be (entry_set_version e v) = entry_archetype_index be e) /\
  (forall v, v < 2 ^ 24 ->
             entry_index_in_archetype (entry_set_index_in_archetype e v) = v /\
             entry_version (entry_set_index_in_archetype e v) = entry_version e /\
             entry_archetype_index be (entry_set_index_in_archetype e v) = entry_archetype_index be e) /\
  (forall v, v < 2 ^ 16 ->
             entry_archetype_index be (entry_set_archetype_index be e v) = v /\
             entry_version (entry_set_archetype_index be e v) = entry_version e /\
             entry_index_in_archetype (entry_set_archetype_index be e v) = entry_index_in_archetype e) /\
  (entry_is_valid be e = true <-> entry_archetype_index be e <> 65535) /\
  (forall n, n < 2 ^ 24 ->
             entry_is_valid be (entry_invalidate be e n) = false /\
             entry_index_in_archetype (entry_invalidate be e n) = n /\
             entry_version (entry_invalidate be e n) = entry_version e).
Proof.
  intros be e. change (2 ^ 24) with 16777216. change (2 ^ 16) with 65536.
  split; [|split; [|split; [|split]]].
  - done.
  - intros v Hv. by rewrite entry_get_set_row.
  - intros v Hv. by rewrite entry_get_set_arch.
  - apply entry_is_valid_spec.
  - intros n Hn. destruct (entry_invalidate_fields be e n Hn) as (H1&H2&H3). split; [|done].
    apply not_true_is_false. rewrite entry_is_valid_spec. tauto.
Qed.
