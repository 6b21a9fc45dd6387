(** * What client code holding a mutable iterator does (C61), on plain lists. *)
From Verif Require Export LazyModel SpecCode.
Local Open Scope nat_scope.

(** [vs] are the values handed out so far, [rest] the items still to come: the
    handles of an item and its columns.  The result is what the code observes, and
    all values afterwards. *)
Fixpoint on_items {O} (shown : list N -> O) (vs : list value) (rest : list (list N * list (list value))) (cd : lcode O)
    : list (sight O) * list value :=
  match cd with
  | LStop => ([], vs ++ concat (concat (map snd rest)))
  | LNext k =>
      match rest with
      | [] => let x := on_items shown vs [] (k None) in (Got None :: x.1, x.2)
      | it :: rest' => let x := on_items shown (vs ++ concat it.2) rest' (k (Some (shown it.1))) in (Got (Some (shown it.1)) :: x.1, x.2)
      end
  | LLook p k =>
      match vs !! p with
      | Some v => let x := on_items shown vs rest (k v) in (Saw v :: x.1, x.2)
      | None => ([], vs ++ concat (concat (map snd rest)))
      end
  | LReplace p v k =>
      match vs !! p with
      | Some old => let x := on_items shown (<[p := v]> vs) rest (k old) in (Swapped old v :: x.1, x.2)
      | None => ([], vs ++ concat (concat (map snd rest)))
      end
  end.
(** The values that go in and out of the registry. *)
Definition put_in {O} (l : list (sight O)) : list value := omap (fun s => match s with Swapped _ new => Some new | _ => None end) l.
Definition got_out {O} (l : list (sight O)) : list value := omap (fun s => match s with Swapped old _ => Some old | _ => None end) l.

(** It compiles: an item with the handles [es] adds one reference of type [C] for
    each handle, for each component [C] of [G]. *)
Definition item_types (G : group) (es : list N) : list ctype := concat (map (fun C => map (fun _ => C) es) G).
Fixpoint typed_lcode {O} (shown : list N -> O) (G : group) (Cs : list ctype) (cd : lcode O) : Prop :=
  match cd with
  | LStop => True
  | LNext k => typed_lcode shown G Cs (k None) /\ forall es, typed_lcode shown G (Cs ++ item_types G es) (k (Some (shown es)))
  | LLook p k => exists C, Cs !! p = Some C /\ forall v, fits C v -> typed_lcode shown G Cs (k v)
  | LReplace p v k => exists C, Cs !! p = Some C /\ fits C v /\ forall old, fits C old -> typed_lcode shown G Cs (k old)
  end.

(** The calls that have the same effect; [who] says whose components the references
    are. *)
Fixpoint writes_of {O} (shown : list N -> O) (G : group) (who : list (N * ctype)) (vs : list value)
    (rest : list (list N * list (list value))) (cd : lcode O) : list op :=
  match cd with
  | LStop => []
  | LNext k =>
      match rest with
      | [] => writes_of shown G who vs [] (k None)
      | it :: rest' => writes_of shown G (who ++ owners G it.1) (vs ++ concat it.2) rest' (k (Some (shown it.1)))
      end
  | LLook p k => match vs !! p with Some v => writes_of shown G who vs rest (k v) | None => [] end
  | LReplace p v k =>
      match vs !! p, who !! p with
      | Some old, Some x => OpSet x.2 x.1 v :: writes_of shown G who (<[p := v]> vs) rest (k old)
      | _, _ => []
      end
  end.

(** What is said of an iterator that is made in state [r]/[w] and has [items]
    before it: any code that compiles runs as on plain lists; afterwards exactly
    those components have the new values, and the registry is in a state that calls
    lead to as well. *)
Definition lazy_like_list {Fm : family} {O} (c : cfg) (U : list ctype) (r : reg) (w : world) (Inn Out : list value) (G : group)
    (next : areg -> itst -> rd (option (O * list (list loc)) * itst)) (shown : list N -> O) (items : list (list N * list (list value))) : Prop :=
  forall cd, typed_lcode shown G [] cd -> exists r', let x := on_items shown [] items cd in
    lazily c G next cd r = Ret x.1 r' /\
    run c (writes_of shown G [] [] items cd) r = Ret (map (fun v => OutVal (Some v)) (got_out x.1)) r' /\
    history c U r' (put_all (concat (map (owners G) (map fst items))) x.2 w) (Inn ++ put_in x.1) (Out ++ got_out x.1).
(** The same over bytes, after the program [ops] with the outputs [out]. *)
Definition lazy_like_list_bytes {Fm : family} {O} (c : cfg) (U : list ctype) (place : N -> N) (ops : list op) (out : list output) (R : breg) (G : group)
    (next : breg -> itst -> rd (option (O * list (list bloc)) * itst)) (shown : list N -> O) (items : list (list N * list (list value))) : Prop :=
  forall cd, typed_lcode shown G [] cd -> exists R', let x := on_items shown [] items cd in
    b_lazily c G next cd R = Ret x.1 R' /\
    within (big c) U (ops ++ writes_of shown G [] [] items cd) book_empty /\
    brun c (ops ++ writes_of shown G [] [] items cd) (breg_default place) = Ret (out ++ map (fun v => OutVal (Some v)) (got_out x.1)) R'.
