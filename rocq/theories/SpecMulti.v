(** * What a program with several registries observes (C72)

    Each registry has its own book (SpecRef.v) and its own capacities
    (SpecEvents.v); a call looks at and changes those of the registry it is made
    on, and no others.  No function of the model is used. *)
From Verif Require Import MultiModel SpecEvents SpecBytes SpecBase SpecWorld SpecRef.
Local Open Scope nat_scope.

(** What a variable holds: a registry, or none since it was dropped. *)
Notation cell := (option (book * list nat)) (only parsing).
Section multi.
  Context (be : bool) (U : list ctype).
  (** Calls on a registry that is there, within its contract; a registry that is
      dropped holds no value whose destructor panics. *)
  Definition mallowed {Fm : family} (s : list cell) (o : mcall) : Prop :=
    match o with
    | MNew => True
    | MCall k o => exists b caps, s !! k = Some (Some (b, caps)) /\ contract be U (bk_world b) o
    | MDrop k => exists b caps, s !! k = Some (Some (b, caps)) /\ all_calm (bk_world b)
    | MSwap i j => exists x y, s !! i = Some (Some x) /\ s !! j = Some (Some y)
    end.
  (** What is returned, the memory requests and destructor calls, and what the
      variables hold afterwards. *)
  Definition mref (s : list cell) (o : mcall) : (option output * list event) * list cell :=
    match o with
    | MNew => (None, [], s ++ [Some (book_empty, [])])
    | MCall k o =>
        match s !! k with
        | Some (Some (b, caps)) => (Some (ref be U b o).1, (call_log be U b caps o).1, <[k := Some ((ref be U b o).2, (call_log be U b caps o).2)]> s)
        | _ => (None, [], s)
        end
    | MDrop k =>
        match s !! k with
        | Some (Some (b, caps)) => (None, final_log b caps, <[k := None]> s)
        | _ => (None, [], s)
        end
    | MSwap i j =>
        match s !! i, s !! j with
        | Some x, Some y => (None, [], <[j := x]> (<[i := y]> s))
        | _, _ => (None, [], s)
        end
    end.
  Fixpoint mwithin {Fm : family} (ops : list mcall) (s : list cell) : Prop :=
    match ops with
    | [] => True
    | o :: ops' => mallowed s o /\ mwithin ops' (mref s o).2
    end.
  Fixpoint mref_run (ops : list mcall) (s : list cell) : list (option output * list event) * list cell :=
    match ops with
    | [] => ([], s)
    | o :: ops' => let (x, s1) := mref s o in let (xs, s2) := mref_run ops' s1 in (x :: xs, s2)
    end.
End multi.

(** ** One registry among the others *)
(** The calls a program makes on registry [k], in order. *)
Definition calls_on (k : nat) : list mcall -> list op :=
  omap (fun o => match o with MCall i o => if decide (i = k) then Some o else None | _ => None end).
Definition on (k : nat) (o : mcall) : bool :=
  match o with MCall i _ => bool_decide (i = k) | MDrop i => bool_decide (i = k) | _ => false end.
(** Of one item for each step of the program, those of the steps on [k]. *)
Fixpoint those_on {X} (k : nat) (ops : list mcall) (xs : list X) : list X :=
  match ops, xs with
  | o :: ops, x :: xs => (if on k o then [x] else []) ++ those_on k ops xs
  | _, _ => []
  end.
Definition swaps (o : mcall) : bool := match o with MSwap _ _ => true | _ => false end.

(** ** References *)
(** What one call of the API hands out as [&mut] into a registry. *)
Definition hands_out (c : cfg) (R : breg) (ls : list bloc) : Prop :=
  (exists G items, b_iter_matching_mut c G R = Rd (Some items) /\ ls = concat (concat items)) \/
  (exists G items, b_iter_entity_matching_mut c G R = Rd (Some items) /\ ls = concat (concat (map snd items))) \/
  (exists G f items, b_iter_filtered_mut c G f R = Rd (Some items) /\ ls = concat (concat items)) \/
  (exists G f items, b_iter_entity_filtered_mut c G f R = Rd (Some items) /\ ls = concat (concat (map snd items))) \/
  (exists G cols, b_exact_mut c G R = Rd cols /\ ls = concat cols) \/
  (exists G es cols, b_entity_exact_mut c G R = Rd (es, cols) /\ ls = concat cols) \/
  (exists G h, b_get_all_mut c G h R = Rd (Some ls)) \/
  (exists C h l, b_get_mut c C h R = Rd (Some l) /\ ls = [l]).
(** The references of the two lists share no byte. *)
Definition apart (ls ls' : list bloc) : Prop := forall l l' id k, l ∈ ls -> l' ∈ ls' -> covers_byte l id k -> covers_byte l' id k -> False.
