(** C47 (partial) and C51: which component sizes and alignments the library
    supports.  [C47_zero_sized_refuted] is in Properties_Defects.v. *)
From Verif Require Import RegModel DescrProofs Clients Sizes Instances Properties_Clients SpecEntity SpecClient SpecBase.
Local Open Scope N_scope.

(** ** C47: zero-sized components.

    Whatever a client does, in or out of contract, and whatever the allocator
    answers: no zero-sized component is ever stored.  A call that would have to
    store one does not return [Ok]. *)
Theorem C47_never_stored : forall c r, reachable c r ->
  (forall G vs h r', create_entity c G vs r = Ret (Ok h) r' -> Forall (fun C => ct_size C <> 0) G) /\
  (forall C h v r', add_component c C h v r = Ret (Ok tt) r' -> ct_size C <> 0) /\
  (forall C h v, get_component c C h r = Rd (Some v) -> ct_size C <> 0).
Proof.
  intros c r H. split; [|split].
  - intros G vs h r' E. eapply Forall_impl; [exact (create_sized c r G vs h r' H E)|]. intros C HC E0. apply HC. change (ct_size C = 0) in E0. by rewrite E0.
  - intros C h v r' E E0. pose proof (add_sized c r C h v r' H E). lia.
  - intros C h v E E0. pose proof (get_sized c r C h v H E). lia.
Qed.
Print Assumptions C47_never_stored.

(** And when the archetype does not exist yet, the allocator's preconditions
    are broken, for every tuple containing such a component. *)
Theorem C47_new_archetype_undefined : forall c r G vs,
  reachable c r -> ev_oracle (r_env r) = [] ->
  gd_is_valid (group_desc (big c) G) = true ->
  (forall k, ~ stands r k (gd_arch (group_desc (big c) G))) -> N.of_nat (length (ar_archs (r_ar r))) < 65534 ->
  Exists (fun C => ct_size C = 0) G -> create_entity c G vs r = UB.
Proof.
  intros c r G vs H Ho Hv Hs Hl Hex. apply (create_unfit c r G vs H Ho); [by apply RegOps.gvalid_iff|done|done|].
  eapply List.Exists_impl; [|exact Hex]. intros C E0. left. change (ct_size C = 0) in E0. by rewrite E0.
Qed.
Print Assumptions C47_new_archetype_undefined.

(** A registry with live entities, and a pair of an ordinary component and a
    zero-sized one: the hypotheses hold. *)
Definition tZ : ctype := CType 77 9 0 1.
Definition absentb (r : reg) (d : adesc) : bool :=
  forallb (fun a => negb ((ad_id (a_desc a) =? ad_id d) && (ad_len (a_desc a) =? ad_len d)%nat)) (ar_archs (r_ar r)).
Lemma absentb_ok r d : absentb r d = true -> forall k, ~ stands r k d.
Proof.
  intros H k (a&Ha&Hi&Hl). unfold absentb in H. rewrite forallb_forall in H.
  specialize (H a (proj1 (elem_of_list_In _ _) (elem_of_list_lookup_2 _ _ _ Ha))). rewrite Hi, Hl, N.eqb_refl, Nat.eqb_refl in H. done.
Qed.
Example C47_example :
  (reachable release rough /\ ev_oracle (r_env rough) = []) /\
  (gd_is_valid (group_desc (big release) [tA; tZ]) = true /\ Exists (fun C => ct_size C = 0) [tA; tZ]) /\
  (forall k, ~ stands rough k (gd_arch (group_desc (big release) [tA; tZ]))) /\ N.of_nat (length (ar_archs (r_ar rough))) < 65534 /\
  is_ub (create_entity release [tA; tZ] [vl tA 1; vl tZ 2] rough) = true.
Proof.
  split; [split; [exact rough_reachable|vm_compute; reflexivity]|]. split; [split; [vm_compute; reflexivity|]|split; [|split]].
  - right. left. reflexivity.
  - apply absentb_ok. vm_compute. reflexivity.
  - vm_compute. reflexivity.
  - vm_compute. reflexivity.
Qed.

(** ** C51: sizes and alignments beyond 16 bits.

    A descriptor keeps 16 bits of each.  It describes the type faithfully
    exactly when both are below 65536. *)
Theorem C51_descriptor_exact : forall C,
  (cd_size (cdesc_of C) = ct_size C <-> ct_size C < 65536) /\ (cd_align (cdesc_of C) = ct_align C <-> ct_align C < 65536).
Proof. intros [t i s a]. cbn. split; (split; intros; [|by rewrite N.mod_small]); [pose proof (N.mod_lt s 65536)|pose proof (N.mod_lt a 65536)]; lia. Qed.
Print Assumptions C51_descriptor_exact.
Example C51_descriptor_example :
  cd_size (cdesc_of (CType 1 5 65535 16)) = 65535 /\ cd_size (cdesc_of (CType 1 5 65536 16)) = 0 /\ cd_size (cdesc_of (CType 1 5 65540 16)) = 4.
Proof. repeat split; vm_compute; reflexivity. Qed.

(** Nothing rejects a larger type.  Every larger type behaves in one of two
    ways on an empty registry: a creation is undefined at once (size or
    alignment a multiple of 65536), or it may return [Ok] although four bytes
    were stored of 65540; then reading, destroying or dropping is undefined. *)
Theorem C51_oversized_refuted : forall c, exists (C : ctype) (v : value),
  65535 < ct_size C /\ v_ty v = ct_ty C /\
  returns c [OpCreate [C] [v]; OpHas C 0] = Some [OutCreate (Ok 0); OutBool true] /\
  is_ub (run c [OpCreate [C] [v]; OpGet C 0] reg_default) = true /\
  is_ub (run c [OpCreate [C] [v]; OpDestroy 0] reg_default) = true.
Proof. intros [[] []]; exists (CType 1 1 65540 4), (Value 1 1 false); repeat split; vm_compute; reflexivity. Qed.
Print Assumptions C51_oversized_refuted.
Theorem C51_overaligned_refuted : forall c, exists (C : ctype) (v : value),
  ct_size C = ct_align C /\ ct_align C = 2 ^ 16 /\ v_ty v = ct_ty C /\ is_ub (run c [OpCreate [C] [v]] reg_default) = true.
Proof. intros [[] []]; exists (CType 1 1 65536 65536), (Value 1 1 false); repeat split; vm_compute; reflexivity. Qed.
Print Assumptions C51_overaligned_refuted.

(** The documented limit is a real one, for every client: a value only ever
    comes back out of the registry, and [add_component] only ever succeeds, if
    the type has between 1 and 65535 bytes; creation succeeds only if no
    truncated size is zero.  (Missing from the full claim: creation with larger
    types is not rejected.) *)
Theorem C51_size_limit_partial : forall c r, reachable c r ->
  (forall C h v, get_component c C h r = Rd (Some v) -> 1 <= ct_size C <= 65535) /\
  (forall C h v r', add_component c C h v r = Ret (Ok tt) r' -> 1 <= ct_size C <= 65535) /\
  (forall G vs h r', create_entity c G vs r = Ret (Ok h) r' -> Forall (fun C => ~ (65536 | ct_size C)) G).
Proof.
  intros c r H. split; [|split].
  - intros C h v E. pose proof (get_sized c r C h v H E). lia.
  - intros C h v r' E. pose proof (add_sized c r C h v r' H E). lia.
  - intros G vs h r' E. eapply Forall_impl; [exact (create_sized c r G vs h r' H E)|].
    intros C HC Hd. apply HC. by apply N.mod_divide.
Qed.
Print Assumptions C51_size_limit_partial.
Theorem C51_new_archetype_undefined : forall c r G vs,
  reachable c r -> ev_oracle (r_env r) = [] ->
  gd_is_valid (group_desc (big c) G) = true ->
  (forall k, ~ stands r k (gd_arch (group_desc (big c) G))) -> N.of_nat (length (ar_archs (r_ar r))) < 65534 ->
  Exists (fun C => (65536 | ct_size C) \/ (65536 | ct_align C)) G -> create_entity c G vs r = UB.
Proof.
  intros c r G vs H Ho Hv Hs Hl Hex. apply (create_unfit c r G vs H Ho); [by apply RegOps.gvalid_iff|done|done|].
  eapply List.Exists_impl; [|exact Hex]. intros C [HC|HC]; [left|right]; by apply N.mod_divide.
Qed.
Print Assumptions C51_new_archetype_undefined.
Definition some_read (r : rd (option value)) : bool := match r with Rd (Some _) => true | _ => false end.
Example C51_example :
  reachable release rough /\ some_read (get_component release tA 256 rough) = true /\
  (exists r', add_component release tB 256 (vl tB 8) rough = Ret (Ok tt) r') /\
  (forall k, ~ stands rough k (gd_arch (group_desc (big release) [tA; CType 78 10 131072 8]))).
Proof.
  split; [exact rough_reachable|]. split; [vm_compute; reflexivity|]. split; [|apply absentb_ok; vm_compute; reflexivity].
  assert (E : match add_component release tB 256 (vl tB 8) rough with Ret (Ok tt) _ => true | _ => false end = true) by (vm_compute; reflexivity).
  destruct (add_component release tB 256 (vl tB 8) rough) as [[[]|e] r'|r'|]; try discriminate. by exists r'.
Qed.
