(** * C62: components that derive [Component] *)
From Verif Require Import Instances DeriveModel Derive SpecBase SpecWorld SpecRef.
Local Open Scope N_scope.

(** Generic instances: [Tag<u8>] and [Tag<u64>] of [struct Tag<T>(T)], and two
    structs [Tag] in different modules. *)
Definition id_Tag : list N := [84; 97; 103].
Definition u8 : rtype := RType [] [117; 56] [].
Definition u64 : rtype := RType [] [117; 54; 52] [].
Definition Tag_u8 : rtype := RType [[97]] id_Tag [u8].
Definition Tag_u64 : rtype := RType [[97]] id_Tag [u64].
Definition Tag_of_b : rtype := RType [[98]] id_Tag [].
Definition tags (t : rtype) : N := if bool_decide (rt_ident t = id_Tag) then match t with RType [[97]] _ [RType _ [117; 56] _] => 1 | RType [[97]] _ _ => 2 | _ => 3 end else 4.
Definition layouts (t : rtype) : N * N := match tags t with 1 => (1, 1) | 2 => (8, 8) | _ => (4, 4) end.

(** C62 is false: deriving uses the identifier alone, so different types can have
    one component id.  Then safe code is undefined: an entity created with a
    [Tag<u8>] has a [Tag<u64>], and reading that reads 8 bytes of a 1-byte column. *)
Theorem C62_derived_types_differ_refuted :
  exists (t1 t2 : rtype) (tag : rtype -> N) (layout : rtype -> N * N) (v : value),
    tag t1 <> tag t2 /\ layout t1 <> layout t2 /\ forall c, c ∈ [release; debug; Cfg false true; Cfg true true] ->
      let C1 := derived_ctype (big c) tag layout t1 in let C2 := derived_ctype (big c) tag layout t2 in
      fits C1 v /\ ct_id C1 = ct_id C2 /\
      returns c [OpCreate [C1] [v]; OpHas C2 0] = Some [OutCreate (Ok 0); OutBool true] /\
      is_ub (run c [OpCreate [C1] [v]; OpGet C2 0] reg_default) = true.
Proof.
  exists Tag_u8, Tag_u64, tags, layouts, (Value 1 7 false). split; [discriminate|]. split; [discriminate|].
  intros c Hc. rewrite !elem_of_cons, elem_of_nil in Hc. destruct Hc as [->|[->|[->|[->|[]]]]].
  all: split; [reflexivity|]; split; [reflexivity|]; split; vm_compute; reflexivity.
Qed.
Print Assumptions C62_derived_types_differ_refuted.

(** Exactly: the id of a derived component is the hash of the identifier, whatever
    the module and the generic arguments; identity, size and alignment are those of
    the type. *)
Theorem C62_id_of_derived : forall be tag layout p1 p2 i a1 a2,
  let C := derived_ctype be tag layout (RType p1 i a1) in
  ct_ty C = tag (RType p1 i a1) /\ (ct_size C, ct_align C) = layout (RType p1 i a1) /\
  ct_id (derived_ctype be tag layout (RType p1 i a1)) = default_component_id be i /\
  ct_id (derived_ctype be tag layout (RType p1 i a1)) = ct_id (derived_ctype be tag layout (RType p2 i a2)).
Proof. intros. split; [done|]. split; [symmetry; apply surjective_pairing|]. exact (conj eq_refl eq_refl). Qed.
Print Assumptions C62_id_of_derived.

(** Two component types with one id, in any reachable state: an entity that has the
    one seems to have the other; reading or borrowing it is undefined; adding it is
    refused, with the registry unchanged. *)
Theorem C62_homonyms : forall (Fm : family) c U r w I O h C1 C2 v1,
  universe (big c) U -> history c U r w I O -> C1 ∈ U -> value_of w h C1 = Some v1 -> ct_id C2 = ct_id C1 -> ct_ty C2 <> ct_ty C1 ->
  has_component c C2 h r = Rd true /\ get_component c C2 h r = RdUB /\ get_component_mut c C2 h r = RdUB /\
  forall v2, add_component c C2 h v2 r = Ret (Err v2) r.
Proof. intros Fm c U r w I O h C1 C2 v1 HU. exact (homonym_reads c U HU r w I O h C1 C2 v1). Qed.
Print Assumptions C62_homonyms.
(** No entity can be created with both. *)
Theorem C62_homonyms_together : forall c G vs r, ~ NoDup (ids_of G) -> create_entity c G vs r = Ret (Err vs) r.
Proof. exact homonym_create. Qed.
Print Assumptions C62_homonyms_together.

(** Declarations whose identifiers have different hashes (and fit in 16 bits of
    size) make a list of component types as the other theorems ask for. *)
Theorem C62_different_names : forall (Fm : family) be tag layout (L : list rtype),
  NoDup (map (fun t => default_component_id be (rt_ident t)) L) -> Forall small (map (derived_ctype be tag layout) L) ->
  exists U, U ≡ₚ map (derived_ctype be tag layout) L /\ strict (ids_of U) /\ Forall small U.
Proof. exact derived_universe. Qed.
Print Assumptions C62_different_names.

(** A registry whose second entity has a [Tag<u8>], read as the [Tag] of module b. *)
Definition u1 : ctype := derived_ctype (big release) tags layouts Tag_u8.
Definition u2 : ctype := derived_ctype (big release) tags layouts Tag_of_b.
Definition names : list rtype := [Tag_u8; RType [] [80; 111; 115] []; RType [[97]] [72; 112] []].
Definition UT : list ctype := [u1].
Definition tag_ops : list op := [OpCreate [u1] [vl u1 1]; OpCreate [u1] [vl u1 2]].
Definition tag_demo := after release UT tag_ops reg_default ∅ [] [].
Example C62_example :
  universe (big release) UT /\ history release UT tag_demo.1.1.1 tag_demo.1.1.2 tag_demo.1.2 tag_demo.2 /\
  u1 ∈ UT /\ value_of tag_demo.1.1.2 256 u1 = Some (vl u1 2) /\ ct_id u2 = ct_id u1 /\ ct_ty u2 <> ct_ty u1 /\
  ~ NoDup (ids_of [u1; u2]) /\
  NoDup (map (fun t => default_component_id (big release) (rt_ident t)) names) /\ Forall small (map (derived_ctype (big release) tags layouts) names).
Proof.
  split; [apply universeb_ok; vm_compute; reflexivity|]. split.
  { eapply (after_history release UT tag_ops reg_default ∅ [] []); [apply h_start| |].
    - apply permitsb_ok. vm_compute. reflexivity.
    - unfold tag_demo. by destruct (after _ _ _ _ _ _ _) as [[[r w] Inn] Out]. }
  split; [apply elem_of_list_singleton; reflexivity|]. split; [vm_compute; reflexivity|]. split; [reflexivity|]. split; [discriminate|].
  split; [intros H; inversion H as [|? ? Hn _]; apply Hn; by left|].
  split; [apply (bool_decide_eq_true_1 _); vm_compute; reflexivity|]. repeat (apply Forall_cons; split; [apply smallb_ok; vm_compute; reflexivity|]). by apply Forall_nil.
Qed.
