(** * What client code holding mutable references does (C59), on plain lists. *)
From Verif Require Export CodeModel SpecWorld SpecRef.
Local Open Scope nat_scope.

(** [vs] are the values behind the references: what the code sees, and the
    values afterwards. *)
Fixpoint on_list (vs : list value) (cd : code) : list value * list value :=
  match cd with
  | Stop => ([], vs)
  | Look p k => match vs !! p with Some v => let x := on_list vs (k v) in (v :: x.1, x.2) | None => ([], vs) end
  | Replace p v k => match vs !! p with Some old => let x := on_list (<[p := v]> vs) (k old) in (old :: x.1, x.2) | None => ([], vs) end
  end.
(** The values it puts in, and those it takes out. *)
Fixpoint given (vs : list value) (cd : code) : list value :=
  match cd with
  | Stop => []
  | Look p k => match vs !! p with Some v => given vs (k v) | None => [] end
  | Replace p v k => match vs !! p with Some old => v :: given (<[p := v]> vs) (k old) | None => [] end
  end.
Fixpoint taken (vs : list value) (cd : code) : list value :=
  match cd with
  | Stop => []
  | Look p k => match vs !! p with Some v => taken vs (k v) | None => [] end
  | Replace p v k => match vs !! p with Some old => old :: taken (<[p := v]> vs) (k old) | None => [] end
  end.
(** It compiles: reference [p] has type [Cs !! p]. *)
Fixpoint typed_code (Cs : list ctype) (cd : code) : Prop :=
  match cd with
  | Stop => True
  | Look p k => exists C, Cs !! p = Some C /\ forall v, fits C v -> typed_code Cs (k v)
  | Replace p v k => exists C, Cs !! p = Some C /\ fits C v /\ forall old, fits C old -> typed_code Cs (k old)
  end.

(** Whose components the references are: handle and component. *)
Definition put1 (x : N * ctype) (v : value) (w : world) : world :=
  alter (fun e => Ent (en_aid e) (<[ct_id x.2 := v]> (en_vals e))) x.1 w.
Fixpoint put_all (who : list (N * ctype)) (vs : list value) (w : world) : world :=
  match who, vs with
  | x :: who', v :: vs' => put_all who' vs' (put1 x v w)
  | _, _ => w
  end.
(** The references of one item of an iteration over [G]: column by column. *)
Definition owners (G : group) (es : list N) : list (N * ctype) := concat (map (fun C => map (fun h => (h, C)) es) G).

(** The calls that have the same effect. *)
Fixpoint writes (who : list (N * ctype)) (vs : list value) (cd : code) : list op :=
  match cd with
  | Stop => []
  | Look p k => match vs !! p with Some v => writes who vs (k v) | None => [] end
  | Replace p v k =>
      match vs !! p, who !! p with
      | Some old, Some x => OpSet x.2 x.1 v :: writes who (<[p := v]> vs) (k old)
      | _, _ => []
      end
  end.

(** What is said of references [ls] that were handed out in state [r]/[w] for the
    components [who] with the values [vs]: any code that compiles runs as on a
    list of values; afterwards exactly those components have the new values, and
    the registry is in a state that calls lead to as well. *)
Definition like_list {Fm : family} (c : cfg) (U : list ctype) (r : reg) (w : world) (I O : list value)
    (ls : list loc) (who : list (N * ctype)) (vs : list value) : Prop :=
  NoDup who /\ Forall2 (fun x v => value_of w x.1 x.2 = Some v) who vs /\
  forall cd, typed_code (map snd who) cd -> exists r',
    serve ls cd r = Ret (on_list vs cd).1 r' /\
    run c (writes who vs cd) r = Ret (map (fun v => OutVal (Some v)) (taken vs cd)) r' /\
    history c U r' (put_all who (on_list vs cd).2 w) (I ++ given vs cd) (O ++ taken vs cd).
(** The same over bytes, for references that were handed out after the program
    [ops] with the outputs [out]. *)
Definition like_list_bytes {Fm : family} (c : cfg) (U : list ctype) (place : N -> N) (ops : list op) (out : list output) (R : breg)
    (ls : list bloc) (who : list (N * ctype)) (vs : list value) : Prop :=
  forall cd, typed_code (map snd who) cd -> exists R',
    b_serve ls cd R = Ret (on_list vs cd).1 R' /\
    within (big c) U (ops ++ writes who vs cd) book_empty /\
    brun c (ops ++ writes who vs cd) (breg_default place) = Ret (out ++ map (fun v => OutVal (Some v)) (taken vs cd)) R'.
