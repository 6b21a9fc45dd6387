(** * What a client can observe of a registry (C23-C40): which handles are
    live, and the components each has. *)
From Verif Require Export RegModel.

(** The handle is live. *)
Definition alive (c : cfg) (r : reg) (h : N) : Prop := is_Some (entry_of c r h).
(** The entity shows the value for the component type; [None]: it lacks it. *)
Definition shows (c : cfg) (r : reg) (h : N) (C : ctype) (v : option value) : Prop := get_component c C h r = Rd v.
(** Nothing about the handle changed from [r] to [r']: neither whether it is
    live nor any of its components. *)
Definition same (c : cfg) (U : list ctype) (r r' : reg) (h : N) : Prop :=
  (alive c r' h <-> alive c r h) /\ forall C v, C ∈ U -> shows c r' h C v <-> shows c r h C v.
Definition all_same (c : cfg) (U : list ctype) (r r' : reg) : Prop := forall h, same c U r r' h.
(** Nothing about any other handle changed. *)
Definition others_same (c : cfg) (U : list ctype) (r r' : reg) (h : N) : Prop := forall h', h' <> h -> same c U r r' h'.
(** The live handle [h] has exactly the components [G], with the values [vs]. *)
Definition consists (c : cfg) (U : list ctype) (r : reg) (h : N) (G : group) (vs : list value) : Prop :=
  alive c r h /\
  (forall i C v, G !! i = Some C -> vs !! i = Some v -> shows c r h C (Some v)) /\
  (forall C, C ∈ U -> C ∉ G -> shows c r h C None).
(** The live handle has all components of [G] (possibly more). *)
Definition has_each (c : cfg) (r : reg) (h : N) (G : group) : Prop :=
  alive c r h /\ forall C, C ∈ G -> exists v, shows c r h C (Some v).
(** It has exactly the components of [G]. *)
Definition has_exactly (c : cfg) (U : list ctype) (r : reg) (h : N) (G : group) : Prop :=
  has_each c r h G /\ forall C, C ∈ U -> C ∉ G -> shows c r h C None.
(** The items visit exactly the handles in [P], each once; column [k] of an
    item holds the values that the item's entities show for component [k]. *)
Definition iterates (c : cfg) (r : reg) (P : N -> Prop) (G : group) (items : list (list N * list (list value))) : Prop :=
  NoDup (concat (map fst items)) /\ (forall h, h ∈ concat (map fst items) <-> P h) /\
  forall it, it ∈ items ->
    Forall2 (fun C col => Forall2 (fun h v => shows c r h C (Some v)) it.1 col) G it.2.
(** The output reports failure. *)
Definition failed (out : output) : Prop :=
  match out with
  | OutCreate (Err _) | OutBool false | OutVals None | OutVal None | OutAdd (Err _) | OutRemove (Err _) => True
  | _ => False
  end.
(** From [r] to [r'], component [i] of [G] of every handle in [P] was mapped
    through [upd i]; nothing else changed. *)
Definition rewrites (c : cfg) (U : list ctype) (r r' : reg) (P : N -> Prop) (G : group) (upd : nat -> value -> value) : Prop :=
  (forall h, alive c r' h <-> alive c r h) /\
  (forall h i C v, P h -> G !! i = Some C -> shows c r h C (Some v) -> shows c r' h C (Some (upd i v))) /\
  (forall h C v, C ∈ U -> C ∉ G \/ ~ P h -> shows c r' h C v <-> shows c r h C v).
