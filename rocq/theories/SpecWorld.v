(** * The specification of the registry: a map from live handles to component
    maps (C23-C40).  Nothing here calls a function of the model; only its data
    types (values, component types, descriptors, calls and outputs) are used. *)
From Verif Require Export RegModel SpecTrace SpecBase.
Local Open Scope nat_scope.

(** ** Components *)
(** A component type the storage supports: not zero-sized, and its size and
    alignment (a power of two, as always in Rust) fit the u16 fields of its
    descriptor. *)
Definition small (c : ctype) : Prop :=
  (0 < ct_size c < 65536)%N /\ (ct_align c < 65536)%N /\ exists k, ct_align c = (2 ^ k)%N.
(** The value has the type. *)
Definition fits (c : ctype) (v : value) : Prop := v_ty v = ct_ty c.
(** No destructor of these components panics. *)
Definition calm (m : gmap N value) : Prop := forall x v, m !! x = Some v -> v_bomb v = false.
(** The components of a tuple as a map from component id to value. *)
Definition vmap (G : group) (vs : list value) : gmap N value := list_to_map (zip (ids_of G) vs).
(** The values of the tuple type [G] in the component map, in tuple order. *)
Definition tuple_of (m : gmap N value) (G : group) (vs : list value) : Prop :=
  Forall2 (fun c v => m !! ct_id c = Some v) G vs.
(** The map [m] gives a value to exactly the component ids of [cs]. *)
Definition full (cs : list ctype) (m : gmap N value) : Prop := forall x, is_Some (m !! x) <-> x ∈ ids_of cs.

(** ** The world *)
(** An entity: its components, and the 32-bit id of the archetype that holds it
    (which depends on how the component set came about, see C12). *)
Record ent := Ent { en_aid : N; en_vals : gmap N value }.
Notation world := (gmap N ent).
(** All component values of the world. *)
Definition world_values (w : world) : list value :=
  concat (map (fun he : N * ent => (map_to_list (en_vals he.2)).*2) (map_to_list w)).

(** No destructor of any stored component panics. *)
Definition all_calm (w : world) : Prop := forall h e, w !! h = Some e -> calm (en_vals e).

(** The archetypes that a program uses: which archetype ids occur with which
    component sets.  [every]: no restriction; [listed]: the listed ones. *)
Class family := occurs : N -> list N -> Prop.
Definition every : family := fun _ _ => True.
Definition listed (L : list (N * list N)) : family := fun x l => (x, l) ∈ L.

Section spec.
  (** The archetypes used, the endianness of the target, and the component types
      of the program, sorted by id. *)
  Context {Fm : family} (be : bool) (U : list ctype).

  Definition archetype_id_of (l : list N) (x : N) : Prop :=
    occurs x l /\ (x = tuple_archetype_id be l \/ x = derived_archetype_id be l).
  (** No two component sets of the same size that the program uses share an
      archetype id. *)
  Definition collision_free : Prop := forall l1 l2 x,
    l1 `sublist_of` ids_of U -> l2 `sublist_of` ids_of U -> length l1 = length l2 -> 1 <= length l1 <= 14 ->
    x <> 4294967295%N -> archetype_id_of l1 x -> archetype_id_of l2 x -> l1 = l2.
  Definition universe : Prop := strict (ids_of U) /\ Forall small U /\ collision_free.

  (** The component types of a component map, sorted by id. *)
  Definition types (m : gmap N value) : list ctype := filter (fun c => is_Some (m !! ct_id c)) U.
  Definition in_U (G : group) : Prop := Forall (fun c => c ∈ U) G.
  (** A tuple type that names 1 to 14 different components (and does not hash
      to the reserved id). *)
  Definition gvalid (G : group) : Prop :=
    NoDup (ids_of G) /\ 1 <= length G <= 14 /\
    exists l, l ≡ₚ ids_of G /\ strict l /\ tuple_archetype_id be l <> 4294967295%N.

  (** The descriptor a filter closure sees for an entity. *)
  Definition desc_of (e : ent) : adesc :=
    let cs := types (en_vals e) in
    ADesc (en_aid e) (map cdesc_of cs ++ replicate (14 - length cs) cd_INVALID) (length cs).
  (** The closure looks at the id, the length and the listed components only. *)
  Definition respects (f : adesc -> bool) : Prop := forall d d',
    ad_id d = ad_id d' -> ad_len d = ad_len d' -> ad_components d = ad_components d' -> f d = f d'.

  (** Number of entities in the archetype with that id and those component ids. *)
  Definition crowd (w : world) (aid : N) (l : list N) : nat :=
    size (filter (fun he : N * ent => en_aid he.2 = aid /\ ids_of (types (en_vals he.2)) = l) w).
  (** It is one that the program uses, and it is not crowded. *)
  Definition room (w : world) (aid : N) (l : list N) : Prop :=
    (1 <= length l <= 14 -> occurs aid l) /\ (N.of_nat (crowd w aid l) < 8388608)%N.
  Definition known (G : group) : Prop :=
    let l := ids_of (filter (fun C => ct_id C ∈ ids_of G) U) in occurs (tuple_archetype_id be l) l.

  Definition has_all (G : group) (e : ent) : bool :=
    forallb (fun c => bool_decide (is_Some (en_vals e !! ct_id c))) G.
  (** The entity lives in the archetype of the tuple type [G]. *)
  Definition is_exactly (G : group) (e : ent) : bool :=
    bool_decide (en_aid e = tuple_archetype_id be (ids_of (types (en_vals e)))) &&
    has_all G e && (length (types (en_vals e)) =? length G).

  (** Entities that result from creating, adding and removing. *)
  Definition created (G : group) (vs : list value) : ent :=
    Ent (tuple_archetype_id be (ids_of (types (vmap G vs)))) (vmap G vs).
  Definition derived (m : gmap N value) : ent := Ent (derived_archetype_id be (ids_of (types m))) m.

  (** What a mutable iteration over [G] with [upd] does to an entity. *)
  Definition updated (G : group) (upd : nat -> value -> value) (m : gmap N value) : gmap N value :=
    map_imap (fun x v => Some (match list_find (fun c => ct_id c = x) G with Some (i, _) => upd i v | None => v end)) m.
  Definition updated_where (P : ent -> bool) (G : group) (upd : nat -> value -> value) (w : world) : world :=
    (fun e => if P e then Ent (en_aid e) (updated G upd (en_vals e)) else e) <$> w.

  (** ** The contract of a call *)
  Definition keeps_types (G : group) (upd : nat -> value -> value) : Prop :=
    forall i c v, G !! i = Some c -> fits c v -> fits c (upd i v).
  Definition contract (w : world) (o : op) : Prop :=
    match o with
    | OpCreate G vs =>
        in_U G /\ Forall2 fits G vs /\
        (gvalid G -> room w (en_aid (created G vs)) (ids_of (types (vmap G vs))))
    | OpDestroy h => forall e, w !! h = Some e -> calm (en_vals e)
    | OpRemoveEntity G h => in_U G /\ forall e, w !! h = Some e -> gvalid G /\ full G (en_vals e)
    | OpHas C h | OpGet C h => C ∈ U
    | OpHasAll G h | OpGetAll G h => in_U G /\ gvalid G
    | OpSet C h v => C ∈ U /\ fits C v
    | OpSetAll G h vs => in_U G /\ gvalid G /\ Forall2 fits G vs
    | OpAdd C h v => C ∈ U /\ fits C v /\
        forall e, w !! h = Some e -> en_vals e !! ct_id C = None ->
          size (en_vals e) <> 13 /\
          let e' := derived (<[ct_id C := v]> (en_vals e)) in room w (en_aid e') (ids_of (types (en_vals e')))
    | OpRemove C h => C ∈ U /\
        forall e, w !! h = Some e -> is_Some (en_vals e !! ct_id C) ->
          size (en_vals e) <> 14 /\
          let e' := derived (delete (ct_id C) (en_vals e)) in room w (en_aid e') (ids_of (types (en_vals e')))
    | OpIterEntities => True
    | OpIter G | OpIterE G => in_U G /\ gvalid G
    | OpExact G | OpExactE G => in_U G /\ gvalid G /\ known G
    | OpIterF G f | OpIterEF G f => in_U G /\ gvalid G /\ respects f
    | OpIterMut G upd | OpIterEMut G upd => in_U G /\ gvalid G /\ keeps_types G upd
    | OpExactMut G upd | OpExactEMut G upd => in_U G /\ gvalid G /\ known G /\ keeps_types G upd
    | OpIterFMut G f upd | OpIterEFMut G f upd => in_U G /\ gvalid G /\ respects f /\ keeps_types G upd
    end.

  (** ** The results a call may have *)
  Definition value_of (w : world) (h : N) (C : ctype) : option value := w !! h ≫= fun e => en_vals e !! ct_id C.
  Definition values_of (w : world) (h : N) (G : group) : option (list value) :=
    w !! h ≫= fun e => mapM (fun c => en_vals e !! ct_id c) G.
  (** The items visit exactly the entities satisfying [P], each once; column [k]
      of an item holds the current values of [G]'s component [k]. *)
  Definition visits (w : world) (P : ent -> bool) (G : group) (items : list (list N * list (list value))) : Prop :=
    NoDup (concat (map fst items)) /\
    (forall h, h ∈ concat (map fst items) <-> exists e, w !! h = Some e /\ P e = true) /\
    Forall (fun it : list N * list (list value) =>
      Forall2 (fun C col => Forall2 (fun h v => value_of w h C = Some v) it.1 col) G it.2) items.
  Definition visits_anon (w : world) (P : ent -> bool) (G : group) (cols : list (list (list value))) : Prop :=
    exists items, cols = map snd items /\ visits w P G items.

  Definition matching (G : group) (e : ent) : bool := has_all G e.
  Definition filtered (G : group) (f : adesc -> bool) (e : ent) : bool := has_all G e && f (desc_of e).

  Section allowed.
    (** Resource limits that the map does not see: the entity table is full;
        there are 65534 archetypes and none with that id and that many components. *)
    Context (no_slot : Prop) (no_arch : N -> nat -> Prop).
    Definition creatable (G : group) (vs : list value) : Prop :=
      gvalid G /\ ~ no_slot /\ ~ no_arch (en_aid (created G vs)) (length G).
    Definition can_hold (m : gmap N value) : Prop :=
      en_aid (derived m) <> 4294967295%N /\ ~ no_arch (en_aid (derived m)) (size m).
    Definition addable (w : world) (h : N) (C : ctype) (v : value) : Prop :=
      exists e, w !! h = Some e /\ en_vals e !! ct_id C = None /\ size (en_vals e) < 14 /\
        can_hold (<[ct_id C := v]> (en_vals e)).
    Definition removable (w : world) (h : N) (C : ctype) (v : value) : Prop :=
      exists e, w !! h = Some e /\ en_vals e !! ct_id C = Some v /\ 2 <= size (en_vals e) /\
        can_hold (delete (ct_id C) (en_vals e)).

    Definition allowed (w : world) (o : op) (out : output) : Prop :=
      match o with
      | OpCreate G vs =>
          (creatable G vs /\ exists h, out = OutCreate (Ok h) /\ w !! h = None /\ (h < 4294967295)%N) \/
          (~ creatable G vs /\ out = OutCreate (Err vs))
      | OpDestroy h => out = OutBool (bool_decide (is_Some (w !! h)))
      | OpRemoveEntity G h => out = OutVals (values_of w h G)
      | OpHas C h => out = OutBool (bool_decide (is_Some (value_of w h C)))
      | OpHasAll G h => out = OutBool (match w !! h with Some e => has_all G e | None => false end)
      | OpGet C h => out = OutVal (value_of w h C)
      | OpGetAll G h => out = OutVals (values_of w h G)
      | OpSet C h v => out = OutVal (value_of w h C)
      | OpSetAll G h vs => out = OutVals (values_of w h G)
      | OpAdd C h v =>
          (addable w h C v /\ out = OutAdd (Ok tt)) \/ (~ addable w h C v /\ out = OutAdd (Err v))
      | OpRemove C h =>
          (exists v, removable w h C v /\ out = OutRemove (Ok v)) \/
          ((forall v, ~ removable w h C v) /\ out = OutRemove (Err tt))
      | OpIterEntities => exists l, out = OutEntities l /\ NoDup l /\ forall h, h ∈ l <-> is_Some (w !! h)
      | OpIter G | OpIterMut G _ => exists l, out = OutCols l /\ visits_anon w (matching G) G l
      | OpIterE G | OpIterEMut G _ => exists l, out = OutECols l /\ visits w (matching G) G l
      | OpIterF G f | OpIterFMut G f _ => exists l, out = OutCols l /\ visits_anon w (filtered G f) G l
      | OpIterEF G f | OpIterEFMut G f _ => exists l, out = OutECols l /\ visits w (filtered G f) G l
      | OpExact G | OpExactMut G _ => exists l, out = OutCols [l] /\ visits_anon w (is_exactly G) G [l]
      | OpExactE G | OpExactEMut G _ => exists l, out = OutECols [l] /\ visits w (is_exactly G) G [l]
      end.
  End allowed.

  (** ** The world after a call *)
  Definition ledger (w : world) (o : op) (out : output) : world :=
    match o, out with
    | OpCreate G vs, OutCreate (Ok h) => <[h := created G vs]> w
    | OpDestroy h, OutBool true => delete h w
    | OpRemoveEntity G h, OutVals (Some _) => delete h w
    | OpSet C h v, OutVal (Some _) =>
        alter (fun e => Ent (en_aid e) (<[ct_id C := v]> (en_vals e))) h w
    | OpSetAll G h vs, OutVals (Some _) =>
        alter (fun e => Ent (en_aid e) (vmap G vs ∪ en_vals e)) h w
    | OpAdd C h v, OutAdd (Ok _) => alter (fun e => derived (<[ct_id C := v]> (en_vals e))) h w
    | OpRemove C h, OutRemove (Ok _) => alter (fun e => derived (delete (ct_id C) (en_vals e))) h w
    | OpIterMut G upd, _ | OpIterEMut G upd, _ => updated_where (matching G) G upd w
    | OpIterFMut G f upd, _ | OpIterEFMut G f upd, _ => updated_where (filtered G f) G upd w
    | OpExactMut G upd, _ | OpExactEMut G upd, _ => updated_where (is_exactly G) G upd w
    | _, _ => w
    end.
End spec.

(** ** Ownership: component values given to the registry by a call, and handed
    back by it.  A mutable iteration hands back every old value and takes in
    its replacement. *)
Definition replacements (upd : nat -> value -> value) (cols : list (list value)) : list value :=
  concat (imap (fun i col => map (upd i) col) cols).
Definition ins (o : op) (out : output) : list value :=
  match o, out with
  | OpCreate _ vs, _ => vs
  | OpSet _ _ v, OutVal (Some _) => [v]
  | OpSetAll _ _ vs, OutVals (Some _) => vs
  | OpAdd _ _ v, _ => [v]
  | OpIterMut _ upd, OutCols l | OpIterFMut _ _ upd, OutCols l | OpExactMut _ upd, OutCols l =>
      concat (map (replacements upd) l)
  | OpIterEMut _ upd, OutECols l | OpIterEFMut _ _ upd, OutECols l | OpExactEMut _ upd, OutECols l =>
      concat (map (fun it => replacements upd it.2) l)
  | _, _ => []
  end.
Definition outs (o : op) (out : output) : list value :=
  match o, out with
  | OpCreate _ _, OutCreate (Err vs) => vs
  | OpRemoveEntity _ _, OutVals (Some vs) => vs
  | OpSet _ _ _, OutVal (Some v) => [v]
  | OpSetAll _ _ _, OutVals (Some vs) => vs
  | OpAdd _ _ _, OutAdd (Err v) => [v]
  | OpRemove _ _, OutRemove (Ok v) => [v]
  | OpIterMut _ _, OutCols l | OpIterFMut _ _ _, OutCols l | OpExactMut _ _, OutCols l => concat (concat l)
  | OpIterEMut _ _, OutECols l | OpIterEFMut _ _ _, OutECols l | OpExactEMut _ _, OutECols l =>
      concat (concat (map snd l))
  | _, _ => []
  end.

(** ** Histories: every registry reachable by calls within the contract, with
    the world it should represent, the values given to it and handed back. *)
Inductive history {Fm : family} (c : cfg) (U : list ctype) : reg -> world -> list value -> list value -> Prop :=
| h_start : history c U reg_default ∅ [] []
| h_call r w I O o out r' :
    history c U r w I O -> contract (big c) U w o -> step c o r = Ret out r' ->
    history c U r' (ledger (big c) U w o out) (I ++ ins o out) (O ++ outs o out).
Definition table_full (r : reg) : Prop := (16777215 <= N.of_nat (length (er_ents (r_er r))))%N.
Definition archetypes_full (r : reg) (aid : N) (len : nat) : Prop :=
  (65534 <= N.of_nat (length (ar_archs (r_ar r))))%N /\
  Forall (fun a => ~ (ad_id (a_desc a) = aid /\ ad_len (a_desc a) = len)) (ar_archs (r_ar r)).
