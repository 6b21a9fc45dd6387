(** * A reference implementation of the registry (C52).

    The world map of SpecWorld.v together with everything the map leaves open:
    the next handle and the order in which iterations visit entities.  No
    function of the model is used.  It has no memory, no columns, no entity
    table and no hash lookup: a list of archetypes, each a list of handles. *)
From Verif Require Export SpecWorld.
Local Open Scope nat_scope.

(** An archetype: its id, its component types, and its entities in order. *)
Record sheet := Sheet { sh_id : N; sh_types : list ctype; sh_ents : list N }.
(** The registry: the world, the archetypes in order of creation, the version of
    every slot ever used, and the free slots, the next one to reuse first. *)
Record book := Book { bk_world : world; bk_sheets : list sheet; bk_versions : list N; bk_free : list nat }.
Definition book_empty : book := Book ∅ [] [] [].

(** ** Archetypes *)
(** The archetype with that id and number of components; a missing one is
    appended, unless there are 65534 already. *)
Definition find_sheet (S : list sheet) (aid : N) (n : nat) : option nat :=
  fst <$> list_find (fun s => sh_id s = aid /\ length (sh_types s) = n) S.
Definition open_sheet (S : list sheet) (aid : N) (cs : list ctype) : option (nat * list sheet) :=
  match find_sheet S aid (length cs) with
  | Some i => Some (i, S)
  | None => if (65534 <=? N.of_nat (length S))%N then None else Some (length S, S ++ [Sheet aid cs []])
  end.
(** A new entity goes to the end. *)
Definition put_in (h : N) (i : nat) (S : list sheet) : list sheet :=
  alter (fun s => Sheet (sh_id s) (sh_types s) (sh_ents s ++ [h])) i S.
(** A leaving entity is replaced by the last one. *)
Definition swap_out (h : N) (l : list N) : list N :=
  match last l with
  | Some x => take (length l - 1) (map (fun y => if decide (y = h) then x else y) l)
  | None => []
  end.
Definition take_out (h : N) (S : list sheet) : list sheet :=
  map (fun s => if decide (h ∈ sh_ents s) then Sheet (sh_id s) (sh_types s) (swap_out h (sh_ents s)) else s) S.

(** ** Handles: 256 * slot + version *)
Definition next_handle (b : book) : option N :=
  if (16777215 <=? N.of_nat (length (bk_versions b)))%N then None
  else match bk_free b with
       | [] => Some (256 * N.of_nat (length (bk_versions b)))%N
       | i :: _ => Some (256 * N.of_nat i + default 0 (bk_versions b !! i))%N
       end.
Definition versions_created (b : book) : list N :=
  match bk_free b with [] => bk_versions b ++ [0%N] | _ => bk_versions b end.
Definition slot (h : N) : nat := N.to_nat (h / 256).
Definition versions_destroyed (h : N) (b : book) : list N := alter (fun v => ((v + 1) mod 256)%N) (slot h) (bk_versions b).

(** ** Iteration: archetypes by number of components, then by id *)
Definition sheet_le (s1 s2 : sheet) : Prop :=
  length (sh_types s1) < length (sh_types s2) \/
  (length (sh_types s1) = length (sh_types s2) /\ (sh_id s1 <= sh_id s2)%N).
Global Instance sheet_le_dec s1 s2 : Decision (sheet_le s1 s2) := _.
Definition item_of (w : world) (G : group) (s : sheet) : list N * list (list value) :=
  (sh_ents s, map (fun C => omap (fun h => value_of w h C) (sh_ents s)) G).
Definition sheet_has (G : group) (s : sheet) : bool :=
  forallb (fun C => bool_decide (ct_id C ∈ ids_of (sh_types s))) G.
Definition sheet_desc (s : sheet) : adesc :=
  ADesc (sh_id s) (map cdesc_of (sh_types s) ++ replicate (14 - length (sh_types s)) cd_INVALID) (length (sh_types s)).
Definition items (w : world) (S : list sheet) (G : group) (f : adesc -> bool) : list (list N * list (list value)) :=
  map (item_of w G) (merge_sort sheet_le (filter (fun s => sheet_has G s && f (sheet_desc s) = true) S)).
(** The one archetype of the tuple type, or nothing. *)
Definition item_exact (be : bool) (U : list ctype) (w : world) (S : list sheet) (G : group) : list N * list (list value) :=
  match find_sheet S (tuple_archetype_id be (ids_of (filter (fun C => ct_id C ∈ ids_of G) U))) (length G) with
  | Some i => match S !! i with Some s => item_of w G s | None => ([], map (fun _ => []) G) end
  | None => ([], map (fun _ => []) G)
  end.

(** ** One call *)
Section ref.
  Context {Fm : family} (be : bool) (U : list ctype).
  Definition valid_tuple (G : group) (aid : N) : bool :=
    bool_decide (NoDup (ids_of G)) && (1 <=? length G) && (length G <=? 14) && negb (aid =? 4294967295)%N.
  (** Only the world changes. *)
  Definition keep (b : book) (o : op) (out : output) : output * book :=
    (out, Book (ledger be U (bk_world b) o out) (bk_sheets b) (bk_versions b) (bk_free b)).
  (** The entity leaves, or moves to the archetype of its new components. *)
  Definition leave (b : book) (h : N) (o : op) (out : output) : output * book :=
    (out, Book (ledger be U (bk_world b) o out) (take_out h (bk_sheets b)) (versions_destroyed h b) (slot h :: bk_free b)).
  Definition move_to (b : book) (h : N) (e : ent) (o : op) (good bad : output) : output * book :=
    if (en_aid e =? 4294967295)%N then (bad, b)
    else match open_sheet (bk_sheets b) (en_aid e) (types U (en_vals e)) with
         | None => (bad, b)
         | Some (i, S1) => (good, Book (ledger be U (bk_world b) o good) (put_in h i (take_out h S1)) (bk_versions b) (bk_free b))
         end.
  Definition ref (b : book) (o : op) : output * book :=
    let w := bk_world b in
    match o with
    | OpCreate G vs =>
        let e := created be U G vs in
        if valid_tuple G (en_aid e) then
          match open_sheet (bk_sheets b) (en_aid e) (types U (en_vals e)) with
          | None => (OutCreate (Err vs), b)
          | Some (i, S1) =>
              match next_handle b with
              | None => (OutCreate (Err vs), Book w S1 (bk_versions b) (bk_free b))
              | Some h => (OutCreate (Ok h), Book (<[h := e]> w) (put_in h i S1) (versions_created b) (tail (bk_free b)))
              end
          end
        else (OutCreate (Err vs), b)
    | OpDestroy h => match w !! h with Some _ => leave b h o (OutBool true) | None => (OutBool false, b) end
    | OpRemoveEntity G h => match w !! h with Some _ => leave b h o (OutVals (values_of w h G)) | None => (OutVals None, b) end
    | OpHas C h => (OutBool (bool_decide (is_Some (value_of w h C))), b)
    | OpHasAll G h => (OutBool (match w !! h with Some e => has_all G e | None => false end), b)
    | OpGet C h => (OutVal (value_of w h C), b)
    | OpGetAll G h => (OutVals (values_of w h G), b)
    | OpSet C h v => keep b o (OutVal (value_of w h C))
    | OpSetAll G h vs => keep b o (OutVals (values_of w h G))
    | OpAdd C h v =>
        match w !! h with
        | Some e =>
            match en_vals e !! ct_id C with
            | None => if size (en_vals e) <? 14 then move_to b h (derived be U (<[ct_id C := v]> (en_vals e))) o (OutAdd (Ok tt)) (OutAdd (Err v))
                      else (OutAdd (Err v), b)
            | Some _ => (OutAdd (Err v), b)
            end
        | None => (OutAdd (Err v), b)
        end
    | OpRemove C h =>
        match w !! h with
        | Some e =>
            match en_vals e !! ct_id C with
            | Some v => if 2 <=? size (en_vals e) then move_to b h (derived be U (delete (ct_id C) (en_vals e))) o (OutRemove (Ok v)) (OutRemove (Err tt))
                        else (OutRemove (Err tt), b)
            | None => (OutRemove (Err tt), b)
            end
        | None => (OutRemove (Err tt), b)
        end
    | OpIterEntities =>
        (OutEntities (filter (fun h => is_Some (w !! h)) (imap (fun i v => 256 * N.of_nat i + v)%N (bk_versions b))), b)
    | OpIter G => (OutCols (map snd (items w (bk_sheets b) G (fun _ => true))), b)
    | OpIterE G => (OutECols (items w (bk_sheets b) G (fun _ => true)), b)
    | OpIterF G f => (OutCols (map snd (items w (bk_sheets b) G f)), b)
    | OpIterEF G f => (OutECols (items w (bk_sheets b) G f), b)
    | OpIterMut G _ => keep b o (OutCols (map snd (items w (bk_sheets b) G (fun _ => true))))
    | OpIterEMut G _ => keep b o (OutECols (items w (bk_sheets b) G (fun _ => true)))
    | OpIterFMut G f _ => keep b o (OutCols (map snd (items w (bk_sheets b) G f)))
    | OpIterEFMut G f _ => keep b o (OutECols (items w (bk_sheets b) G f))
    | OpExact G => (OutCols [(item_exact be U w (bk_sheets b) G).2], b)
    | OpExactE G => (OutECols [item_exact be U w (bk_sheets b) G], b)
    | OpExactMut G _ => keep b o (OutCols [(item_exact be U w (bk_sheets b) G).2])
    | OpExactEMut G _ => keep b o (OutECols [item_exact be U w (bk_sheets b) G])
    end.
  (** A program. *)
  Fixpoint ref_run (ops : list op) (b : book) : list output * book :=
    match ops with
    | [] => ([], b)
    | o :: ops' => let (out, b1) := ref b o in let (outs, b2) := ref_run ops' b1 in (out :: outs, b2)
    end.
  (** Every call of the program is within the contract. *)
  Fixpoint within (ops : list op) (b : book) : Prop :=
    match ops with
    | [] => True
    | o :: ops' => contract be U (bk_world b) o /\ within ops' (ref b o).2
    end.
End ref.
