(** * Model of src/descriptors/ *)
From Verif Require Export FnvModel.
Local Open Scope N_scope.

(** ** Component types and values

    A Rust component type is modelled by its identity [ct_ty] (two Rust types
    are the same iff these agree), the [ID] its [Component] impl gives
    (component.rs:15, a u16), and its size and alignment in bytes.
    A component value carries its Rust type, an identity token (so a value can
    be followed through moves) and whether its destructor panics. *)
Record ctype := CType { ct_ty : N; ct_id : N; ct_size : N; ct_align : N }.
Record value := Value { v_ty : N; v_tok : Z; v_bomb : bool }.

Global Instance ctype_eq_dec : EqDecision ctype.
Proof. solve_decision. Defined.
Global Instance value_eq_dec : EqDecision value.
Proof. solve_decision. Defined.

(** component.rs:15: the default [Component::ID], from the UTF-8 bytes of [NAME]. *)
Definition default_component_id (be : bool) (name : list N) : N := fnv1a_hash_str_16_xor be name.

(** component_type_id.rs:21: [ComponentTypeId::INVALID] *)
Definition CTID_INVALID : N := 65535.

(** ** ComponentDescriptor (component_descriptor.rs:42-47).  The drop handler
    is modelled by the type it drops; [None] is the dummy handler of
    [ComponentDescriptor::INVALID]. *)
Record cdesc := CDesc { cd_id : N; cd_size : N; cd_align : N; cd_drop : option ctype }.

(** component_descriptor.rs:102-112 *)
Definition cd_INVALID : cdesc := CDesc CTID_INVALID 0 0 None.

(** component_descriptor.rs:8-19, [define_component_descriptor!]: size and
    alignment are cast [as u16]. *)
Definition cdesc_of (c : ctype) : cdesc :=
  CDesc (ct_id c) (ct_size c mod 65536) (ct_align c mod 65536) (Some c).

(** component_descriptor.rs:116-132 [ComponentDescriptor::new] *)
Definition cd_new (id size align : N) (drop_handler : ctype) : cdesc :=
  if id =? CTID_INVALID then cd_INVALID else CDesc id size align (Some drop_handler).

(** Array indexing [a[i]] for an index that is in bounds at every use. *)
Definition cnth (l : list cdesc) (i : nat) : cdesc := default cd_INVALID (l !! i).

(** ** ArchetypeId (archetype_id.rs:17): the newtype is its u32. *)
Definition AID_INVALID : N := 4294967295.
(** archetype_id.rs:19-21 *)
Definition aid_is_valid (id : N) : bool := negb (id =? AID_INVALID).

(** ** ArchetypeDescriptor (archetype_descriptor.rs:11-15) *)
Record adesc := ADesc { ad_id : N; ad_comps : list cdesc; ad_len : nat }.

(** archetype_descriptor.rs:19-23 *)
Definition ad_INVALID : adesc :=
  ADesc AID_INVALID (replicate MAX_COMPONENTS_PER_ENTITY cd_INVALID) 0.
(** archetype_descriptor.rs:28-30 *)
Definition ad_is_valid (d : adesc) : bool := aid_is_valid (ad_id d).
(** archetype_descriptor.rs:33-46 *)
Definition ad_new (id : N) (len : nat) (comps : list cdesc) : adesc :=
  if (len =? 0)%nat || negb (aid_is_valid id) then ad_INVALID else ADesc id comps len.

(** archetype_descriptor.rs:205-207 *)
Definition ad_components (d : adesc) : list cdesc := take (ad_len d) (ad_comps d).

(** archetype_descriptor.rs:57-67: the 28-byte buffer; two native-endian bytes
    per component, zero bytes after the last one. *)
Definition id_bytes (be : bool) (ids : list N) : list N :=
  concat (map (fun i => let b := u16_to_ne be i in [b.1; b.2]) ids).
Definition archetype_id_buffer (be : bool) (ids : list N) : list N :=
  id_bytes be ids ++ replicate (28 - 2 * length ids) 0.

(** archetype_descriptor.rs:49-69; [None]: more than 14 descriptors index past
    the buffer (panic). *)
Definition compute_archetype_id (be : bool) (ds : list cdesc) : option N :=
  match ds with
  | [] => Some AID_INVALID
  | [d] => Some (cd_id d)
  | _ => if (length ds <=? MAX_COMPONENTS_PER_ENTITY)%nat
         then Some (fnv1a_hash_32 (archetype_id_buffer be (map cd_id ds)) (Some 28%nat))
         else None
  end.

(** archetype_descriptor.rs:73-94; the labelled loops are "for every component
    of [d] some component of [self] has the same id". *)
Definition ad_contains_subset (self d : adesc) : bool :=
  if (ad_len self <? ad_len d)%nat then false
  else forallb (fun di => existsb (fun sj => cd_id sj =? cd_id di) (ad_components self))
               (ad_components d).

(** archetype_descriptor.rs:98-115 *)
Definition ad_excludes_subset (self d : adesc) : bool :=
  forallb (fun di => forallb (fun sj => negb (cd_id sj =? cd_id di)) (ad_components self))
          (ad_components d).

(** core's [slice::binary_search_by_key] (the size-halving loop of
    [binary_search_by]); [inl i] is [Ok(i)], [inr i] is [Err(i)]. *)
Fixpoint bsearch_loop (fuel : nat) (keys : list N) (key : N) (left right : nat) : nat + nat :=
  match fuel with
  | O => inr left
  | S fuel' =>
      if (left <? right)%nat then
        let mid := (left + (right - left) / 2)%nat in
        match keys !! mid with
        | None => inr left  (* unreachable: mid < right <= len *)
        | Some k =>
            match k ?= key with
            | Lt => bsearch_loop fuel' keys key (S mid) right
            | Gt => bsearch_loop fuel' keys key left mid
            | Eq => inl mid
            end
        end
      else inr left
  end.
Definition binary_search (keys : list N) (key : N) : nat + nat :=
  bsearch_loop (S (length keys)) keys key 0%nat (length keys).

(** archetype_descriptor.rs:126-151; [RdPanic]: an array index is out of bounds
    (the shifting loop runs to [len + 1] and writes slot [i + 1]). *)
Definition shift_right_loop (comps : list cdesc) (from count : nat) (v : list cdesc) : option (list cdesc) :=
  fold_left (fun (acc : option (list cdesc)) i =>
    match acc with
    | None => None
    | Some v =>
        match comps !! i with
        | None => None
        | Some d => if (S i <? length v)%nat then Some (<[S i := d]> v) else None
        end
    end) (seq from count) (Some v).
Definition ad_add_component (be : bool) (self : adesc) (c : cdesc) : rd (option adesc) :=
  if (ad_len self =? MAX_COMPONENTS_PER_ENTITY)%nat then Rd None
  else
    match binary_search (map cd_id (ad_components self)) (cd_id c) with
    | inl _ => Rd None
    | inr k =>
        match shift_right_loop (ad_comps self) k (ad_len self + 1 - k) (ad_comps self) with
        | None => RdPanic
        | Some v =>
            let v := <[k := c]> v in
            let len := S (ad_len self) in
            match compute_archetype_id be (take len v) with
            | None => RdPanic
            | Some id => Rd (Some (ADesc id v len))
            end
        end
    end.

(** archetype_descriptor.rs:153-173; [RdPanic]: [self.components[i + 1]] is out
    of bounds. *)
Definition shift_left_loop (comps : list cdesc) (from count : nat) (v : list cdesc) : option (list cdesc) :=
  fold_left (fun (acc : option (list cdesc)) i =>
    match acc with
    | None => None
    | Some v =>
        match comps !! S i with
        | None => None
        | Some d => Some (<[i := d]> v)
        end
    end) (seq from count) (Some v).
Definition ad_remove_component (be : bool) (self : adesc) (id : N) : rd (option adesc) :=
  if (ad_len self =? 1)%nat then Rd None
  else
    match binary_search (map cd_id (ad_components self)) id with
    | inr _ => Rd None
    | inl k =>
        match shift_left_loop (ad_comps self) k (ad_len self - k) (ad_comps self) with
        | None => RdPanic
        | Some v =>
            let len := pred (ad_len self) in
            match compute_archetype_id be (take len v) with
            | None => RdPanic
            | Some aid => Rd (Some (ADesc aid v len))
            end
        end
    end.

(** archetype_descriptor.rs:176-181 *)
Definition ad_has_component (self : adesc) (c : ctype) : bool :=
  match binary_search (map cd_id (ad_components self)) (ct_id c) with inl _ => true | inr _ => false end.

(** component_descriptor.rs:49-73 (and :74-97): a single-component descriptor. *)
Definition ad_of_cdesc (c : cdesc) : adesc :=
  ad_new (cd_id c) 1 (c :: replicate (pred MAX_COMPONENTS_PER_ENTITY) cd_INVALID).

(** ** ComponentGroupDescriptor (component_group_descriptor.rs:13-17) *)
Record gdesc := GDesc { gd_arch : adesc; gd_s2u : list nat; gd_u2s : list nat }.
(** component_group_descriptor.rs:20-24 *)
Definition gd_INVALID : gdesc :=
  GDesc ad_INVALID (replicate MAX_COMPONENTS_PER_ENTITY 0%nat) (replicate MAX_COMPONENTS_PER_ENTITY 0%nat).
(** component_group_descriptor.rs:26-28 *)
Definition gd_is_valid (g : gdesc) : bool := ad_is_valid (gd_arch g).
(** component_group_descriptor.rs:50-52 *)
Definition gd_len (g : gdesc) : nat := ad_len (gd_arch g).
(** component_group_descriptor.rs:46-48 *)
Definition gd_unsorted_to_sorted (g : gdesc) (i : nat) : nat := default 0%nat (gd_u2s g !! i).
(** component_group_descriptor.rs:42-44 *)
Definition gd_sorted_to_unsorted (g : gdesc) (i : nat) : nat := default 0%nat (gd_s2u g !! i).

(** component_group_descriptor.rs:82-104; the nested loops look for two equal
    ids at positions [idx < cdx]. *)
Fixpoint has_no_duplicate_ids (ds : list cdesc) : bool :=
  match ds with
  | [] => true
  | d :: ds' => forallb (fun e => negb (cd_id d =? cd_id e)) ds' && has_no_duplicate_ids ds'
  end.
Definition validate_component_descriptors (ds : list cdesc) : bool :=
  if (length ds =? 0)%nat || (MAX_COMPONENTS_PER_ENTITY <? length ds)%nat then false
  else has_no_duplicate_ids ds.

(** component_group_descriptor.rs:109-137; the exchange sort. *)
Definition sort_step (i : nat) (arr : list cdesc) (j : nat) : list cdesc :=
  if cd_id (cnth arr j) <? cd_id (cnth arr i)
  then <[j := cnth arr i]> (<[i := cnth arr j]> arr)
  else arr.
Definition sort_inner (n : nat) (arr : list cdesc) (i : nat) : list cdesc :=
  fold_left (sort_step i) (seq (S i) (n - S i)) arr.
Definition compute_sorted_descriptors (ds : list cdesc) : list cdesc :=
  let n := length ds in
  fold_left (sort_inner n) (seq 0 n)
    (ds ++ replicate (MAX_COMPONENTS_PER_ENTITY - n) cd_INVALID).

(** component_group_descriptor.rs:141-170 *)
Definition sort_mappings_step (unsorted sorted : list cdesc) (i : nat)
    (m : list nat * list nat) (j : nat) : list nat * list nat :=
  let u2s := if cd_id (cnth sorted j) =? cd_id (cnth unsorted i) then <[i := j]> m.1 else m.1 in
  let s2u := if cd_id (cnth unsorted j) =? cd_id (cnth sorted i) then <[i := j]> m.2 else m.2 in
  (u2s, s2u).
Definition compute_sort_mappings (unsorted sorted : list cdesc) : list nat * list nat :=
  let n := length unsorted in
  fold_left (fun m i => fold_left (sort_mappings_step unsorted sorted i) (seq 0 n) m) (seq 0 n)
    (replicate MAX_COMPONENTS_PER_ENTITY 0%nat, replicate MAX_COMPONENTS_PER_ENTITY 0%nat).

(** component_group_descriptor.rs:56-80 *)
Definition gd_new (be : bool) (ds : list cdesc) : gdesc :=
  if negb (validate_component_descriptors ds) then gd_INVALID
  else
    let sorted := compute_sorted_descriptors ds in
    match compute_archetype_id be sorted with
    | None => gd_INVALID  (* unreachable: [sorted] always has 14 entries *)
    | Some id =>
        if negb (aid_is_valid id) then gd_INVALID
        else
          let m := compute_sort_mappings ds sorted in
          let value := GDesc (ad_new id (length ds) sorted) m.2 m.1 in
          if negb (aid_is_valid (ad_id (gd_arch value))) then gd_INVALID else value
    end.

(** ** ComponentGroup (component_group.rs).  A group type [G] (a component or a
    tuple of components) is the list of its component types, in tuple order; a
    group value is the list of its component values, in the same order.
    Tuples exist for 2..14 elements (component_group.rs:396-), so a group has
    1..14 elements. *)
Definition group := list ctype.
(** component_group.rs:87-88, :152-153 *)
Definition group_desc (be : bool) (G : group) : gdesc := gd_new be (map cdesc_of G).
(** Position of tuple element [i] in the sorted order, as the generated tuple
    code uses it (component_group.rs:157, :163, :171, :179, :188, :197); the
    single-component impl uses 0 (:91, :95, :101, :107, :114, :121). *)
Definition group_slot (be : bool) (G : group) (i : nat) : nat :=
  match G with
  | [_] => 0%nat
  | _ => gd_unsorted_to_sorted (group_desc be G) i
  end.
