(** * What iterations with a stateful, possibly panicking filter closure do (C63). *)
From Verif Require Export SiftModel SpecLazy.
Local Open Scope nat_scope.

(** One [next] over the offers that are left: the closure is asked once for each, in
    order, until it accepts or panics. *)
Fixpoint sift {St X} (f : closure St) (s : St) (offers : list (adesc * X)) : turn X * list (adesc * X) * St :=
  match offers with
  | [] => (Done, [], s)
  | x :: rest =>
      match f x.1 s with
      | Says true s' => (Item x.2, rest, s')
      | Says false s' => sift f s' rest
      | Panics s' => (Crashed, rest, s')
      end
  end.
(** [n] of them. *)
Fixpoint sifts {St X} (f : closure St) (n : nat) (s : St) (offers : list (adesc * X)) : list (turn X) * St :=
  match n with
  | O => ([], s)
  | S n' => let x := sift f s offers in let y := sifts f n' x.2 x.1.2 in (x.1.1 :: y.1, y.2)
  end.

(** Client code on plain lists: [who] and [vs] are the components handed out so far
    and their values.  The result is what the code observes, the calls of
    [get_component_mut] that do the same, the components handed out, their values, and
    the state of the closure. *)
Record aftermath St O := After { af_seen : list (fsight O); af_ops : list op; af_who : list (N * ctype); af_vals : list value; af_state : St }.
Global Arguments After {St O} _ _ _ _ _.
Global Arguments af_seen {St O} _.
Global Arguments af_ops {St O} _.
Global Arguments af_who {St O} _.
Global Arguments af_vals {St O} _.
Global Arguments af_state {St O} _.
Definition saw {St O} (x : fsight O) (os : list op) (a : aftermath St O) : aftermath St O := After (x :: af_seen a) (os ++ af_ops a) (af_who a) (af_vals a) (af_state a).
Fixpoint on_offers {St O} (f : closure St) (shown : list N -> O) (G : group) (s : St) (who : list (N * ctype)) (vs : list value)
    (offers : list (adesc * (list N * list (list value)))) (cd : fcode O) : aftermath St O :=
  match cd with
  | FStop => After [] [] who vs s
  | FNext k =>
      let x := sift f s offers in
      match x.1.1 with
      | Done => saw (FTurn Done) [] (on_offers f shown G x.2 who vs x.1.2 (k Done))
      | Crashed => saw (FTurn Crashed) [] (on_offers f shown G x.2 who vs x.1.2 (k Crashed))
      | Item it => saw (FTurn (Item (shown it.1))) []
          (on_offers f shown G x.2 (who ++ owners G it.1) (vs ++ concat it.2) x.1.2 (k (Item (shown it.1))))
      end
  | FLook p k => match vs !! p with Some v => saw (FSaw v) [] (on_offers f shown G s who vs offers (k v)) | None => After [] [] who vs s end
  | FReplace p v k =>
      match vs !! p, who !! p with
      | Some old, Some x => saw (FSwapped old v) [OpSet x.2 x.1 v] (on_offers f shown G s who (<[p := v]> vs) offers (k old))
      | _, _ => After [] [] who vs s
      end
  end.
Definition f_put_in {O} (l : list (fsight O)) : list value := omap (fun x => match x with FSwapped _ new => Some new | _ => None end) l.
Definition f_got_out {O} (l : list (fsight O)) : list value := omap (fun x => match x with FSwapped old _ => Some old | _ => None end) l.
Fixpoint typed_fcode {O} (shown : list N -> O) (G : group) (Cs : list ctype) (cd : fcode O) : Prop :=
  match cd with
  | FStop => True
  | FNext k => typed_fcode shown G Cs (k Done) /\ typed_fcode shown G Cs (k Crashed) /\ forall es, typed_fcode shown G (Cs ++ item_types G es) (k (Item (shown es)))
  | FLook p k => exists C, Cs !! p = Some C /\ forall v, fits C v -> typed_fcode shown G Cs (k v)
  | FReplace p v k => exists C, Cs !! p = Some C /\ fits C v /\ forall old, fits C old -> typed_fcode shown G Cs (k old)
  end.

(** The offer's descriptor is that of its entities and lists the components asked for. *)
Definition described {Fm : family} (U : list ctype) (w : world) (G : group) (x : adesc * (list N * list (list value))) : Prop :=
  (forall C, C ∈ G -> cdesc_of C ∈ ad_components x.1) /\
  forall h, h ∈ x.2.1 -> exists e, w !! h = Some e /\
    ad_id x.1 = ad_id (desc_of U e) /\ ad_len x.1 = ad_len (desc_of U e) /\ ad_components x.1 = ad_components (desc_of U e).
Definition sift_like_list {Fm : family} {St O} (c : cfg) (U : list ctype) (r : reg) (w : world) (Inn Out : list value) (G : group)
    (next : areg -> itst -> St -> rd (turn (O * list (list loc)) * itst * St)) (f : closure St) (shown : list N -> O)
    (offers : list (adesc * (list N * list (list value)))) : Prop :=
  forall s cd, typed_fcode shown G [] cd -> exists r', let x := on_offers f shown G s [] [] offers cd in
    sifting c G next s cd r = Ret (af_seen x, af_state x) r' /\ NoDup (af_who x) /\
    run c (af_ops x) r = Ret (map (fun v => OutVal (Some v)) (f_got_out (af_seen x))) r' /\
    history c U r' (put_all (af_who x) (af_vals x) w) (Inn ++ f_put_in (af_seen x)) (Out ++ f_got_out (af_seen x)).
