(** * C66: any program, whatever the hashes *)
From Verif Require Import RegModel Instances Total Used Brim Clash SpecClient SpecBase SpecWorld SpecRef SpecTotal SpecUsed SpecBrim SpecClash.
Local Open Scope N_scope.

(** [follow] (SpecClash.v) computes from the program alone what it returns up to the
    first call that finds the archetype of other components.  Nothing is assumed
    about hashes; the number of entities is not bounded. *)
Theorem C66_any_program : forall c U ops,
  plain U -> NoDup (map ct_ty U) -> fair_all (dbg c) (big c) U ops book_empty ->
  match follow (dbg c) (big c) U ops book_empty with
  | (l, Ends (Completes _)) => (attempt c ops reg_default).1 = l /\ is_Some (attempt c ops reg_default).2
  | (l, Ends Faults) => attempt c ops reg_default = (l, None)
  | (l, Ends Wrecks) | (l, Clash _ _) => l `prefix_of` (attempt c ops reg_default).1
  end.
Proof.
  intros c U ops HU Hnt Hf. pose proof (followed c U HU Hnt ops Hf) as Hm. unfold met in Hm.
  destruct (follow (dbg c) (big c) U ops book_empty) as [l [[b| |]|b o]]; cbn [fst snd] in Hm; [|by destruct (attempt c ops reg_default), Hm; cbn in *; subst|done|done].
  destruct Hm as (E&r&Er&_). by rewrite E, Er.
Qed.
Print Assumptions C66_any_program.
(** Without a clash the prediction is that of C65. *)
Theorem C66_no_clash : forall (d be : bool) U ops l f,
  follow d be U ops book_empty = (l, Ends f) -> foresee d be U ops book_empty = (l, f).
Proof. intros d be U ops l f. exact (follow_foresee d be U ops book_empty l f). Qed.
Print Assumptions C66_no_clash.
(** With one, a first part of the program completes; the next call looks up an
    archetype that is not there, and there is another one with the same id and the
    same number of components. *)
Theorem C66_first_clash : forall (d be : bool) U ops l b o,
  follow d be U ops book_empty = (l, Clash b o) ->
  exists ops1 ops2 p s, ops = ops1 ++ o :: ops2 /\ follow d be U ops1 book_empty = (l, Ends (Completes b)) /\
    seeks be U b o = Some p /\ s ∈ bk_sheets b /\ mistaken p s = true.
Proof.
  intros d be U ops l b o H. destruct (follow_clash d be U ops book_empty l b o H) as (ops1&ops2&E1&E2&Hc).
  destruct (clash_found be U b o Hc) as (p&s&H1&H2&H3). by exists ops1, ops2, p, s.
Qed.
Print Assumptions C66_first_clash.

(** What the call does then.  Creating an entity, if the components found have the
    sizes of those given: the entity has the components of the archetype found; a
    value is right where the component is at its own position, and everything else
    cannot be read without undefined behaviour. *)
Theorem C66_create : forall c U, plain U -> NoDup (map ct_ty U) -> forall ops l b,
  fair_all (dbg c) (big c) U ops book_empty -> follow (dbg c) (big c) U ops book_empty = (l, Ends (Completes b)) ->
  forall G vs s h, in_U U G -> Forall2 fits G vs -> valid (big c) U G = true ->
  s ∈ bk_sheets b -> mistaken (place_of U (created (big c) U G vs)) s = true -> N.of_nat (length (sh_ents s)) < 8388608 -> next_handle b = Some h ->
  map ct_size (sorted U G) = map ct_size (sh_types s) -> forall C, C ∈ U ->
  (attempt c (ops ++ [OpCreate G vs; OpHas C h]) reg_default).1 = l ++ [Some (OutCreate (Ok h)); Some (OutBool (bool_decide (C ∈ sh_types s)))] /\
  (C ∉ sh_types s -> (attempt c (ops ++ [OpCreate G vs; OpGet C h]) reg_default).1 = l ++ [Some (OutCreate (Ok h)); Some (OutVal None)]) /\
  (forall k, sh_types s !! k = Some C -> sorted U G !! k = Some C ->
    (attempt c (ops ++ [OpCreate G vs; OpGet C h]) reg_default).1 = l ++ [Some (OutCreate (Ok h)); Some (OutVal (vmap G vs !! ct_id C))]) /\
  (forall k, sh_types s !! k = Some C -> sorted U G !! k <> Some C ->
    attempt c (ops ++ [OpCreate G vs; OpGet C h]) reg_default = (l ++ [Some (OutCreate (Ok h))], None)).
Proof. exact clash_create. Qed.
Print Assumptions C66_create.
(** There always is such a component. *)
Theorem C66_create_undefined : forall c U, plain U -> NoDup (map ct_ty U) -> forall ops l b,
  fair_all (dbg c) (big c) U ops book_empty -> follow (dbg c) (big c) U ops book_empty = (l, Ends (Completes b)) ->
  forall G vs s h, in_U U G -> Forall2 fits G vs -> valid (big c) U G = true ->
  s ∈ bk_sheets b -> mistaken (place_of U (created (big c) U G vs)) s = true -> N.of_nat (length (sh_ents s)) < 8388608 -> next_handle b = Some h ->
  map ct_size (sorted U G) = map ct_size (sh_types s) ->
  exists C, C ∈ sh_types s /\ attempt c (ops ++ [OpCreate G vs; OpGet C h]) reg_default = (l ++ [Some (OutCreate (Ok h))], None).
Proof. exact clash_create_undefined. Qed.
Print Assumptions C66_create_undefined.
(** Iterating over exactly a set of components: undefined as soon as the archetype
    found has an entity; before that, empty columns. *)
Theorem C66_exact : forall c U, plain U -> NoDup (map ct_ty U) -> forall ops l b,
  fair_all (dbg c) (big c) U ops book_empty -> follow (dbg c) (big c) U ops book_empty = (l, Ends (Completes b)) ->
  forall G s upd o, in_U U G -> valid (big c) U G = true -> s ∈ bk_sheets b -> mistaken (exact_place (big c) U G) s = true ->
  o ∈ [OpExact G; OpExactE G; OpExactMut G upd; OpExactEMut G upd] ->
  attempt c (ops ++ [o]) reg_default =
    match sh_ents s with
    | [] => (l ++ [Some (match o with OpExact _ | OpExactMut _ _ => OutCols [map (fun _ => []) G] | _ => OutECols [([], map (fun _ => []) G)] end)],
             (attempt c ops reg_default).2)
    | _ => (l, None)
    end.
Proof. exact clash_exact. Qed.
Print Assumptions C66_exact.
(** Adding a component: a panic if the archetype found does not have it; otherwise
    the entity has the components found, with its own values where it had one (the
    others are lost). *)
Theorem C66_add : forall c U, plain U -> NoDup (map ct_ty U) -> forall ops l b,
  fair_all (dbg c) (big c) U ops book_empty -> follow (dbg c) (big c) U ops book_empty = (l, Ends (Completes b)) ->
  forall C h v e s, C ∈ U -> fits C v -> bk_world b !! h = Some e -> en_vals e !! ct_id C = None ->
  size (en_vals e) <> 13%nat -> s ∈ bk_sheets b -> mistaken (place_of U (derived (big c) U (<[ct_id C := v]> (en_vals e)))) s = true ->
  N.of_nat (length (sh_ents s)) < 8388608 ->
  if bool_decide (C ∈ sh_types s) then
    forall D, D ∈ U ->
      (attempt c (ops ++ [OpAdd C h v; OpHas D h]) reg_default).1 = l ++ [Some (OutAdd (Ok tt)); Some (OutBool (bool_decide (D ∈ sh_types s)))] /\
      (D ∉ sh_types s -> (attempt c (ops ++ [OpAdd C h v; OpGet D h]) reg_default).1 = l ++ [Some (OutAdd (Ok tt)); Some (OutVal None)]) /\
      (forall u, D ∈ sh_types s -> <[ct_id C := v]> (en_vals e) !! ct_id D = Some u ->
        (attempt c (ops ++ [OpAdd C h v; OpGet D h]) reg_default).1 = l ++ [Some (OutAdd (Ok tt)); Some (OutVal (Some u))])
  else (attempt c (ops ++ [OpAdd C h v]) reg_default).1 = l ++ [None].
Proof. intros c U HU Hnt. exact (clash_add c U HU Hnt). Qed.
Print Assumptions C66_add.
(** Removing one: the value is returned; the entity has the components found, with
    its own values where it had one - also the removed one, which then exists twice. *)
Theorem C66_remove : forall c U, plain U -> NoDup (map ct_ty U) -> forall ops l b,
  fair_all (dbg c) (big c) U ops book_empty -> follow (dbg c) (big c) U ops book_empty = (l, Ends (Completes b)) ->
  forall C h v e s, C ∈ U -> bk_world b !! h = Some e -> en_vals e !! ct_id C = Some v ->
  size (en_vals e) <> 14%nat -> s ∈ bk_sheets b -> mistaken (place_of U (derived (big c) U (delete (ct_id C) (en_vals e)))) s = true ->
  N.of_nat (length (sh_ents s)) < 8388608 -> forall D, D ∈ U ->
  (attempt c (ops ++ [OpRemove C h; OpHas D h]) reg_default).1 = l ++ [Some (OutRemove (Ok v)); Some (OutBool (bool_decide (D ∈ sh_types s)))] /\
  (D ∉ sh_types s -> (attempt c (ops ++ [OpRemove C h; OpGet D h]) reg_default).1 = l ++ [Some (OutRemove (Ok v)); Some (OutVal None)]) /\
  (forall u, D ∈ sh_types s -> en_vals e !! ct_id D = Some u ->
    (attempt c (ops ++ [OpRemove C h; OpGet D h]) reg_default).1 = l ++ [Some (OutRemove (Ok v)); Some (OutVal (Some u))]).
Proof. exact clash_remove. Qed.
Print Assumptions C66_remove.

(** Two sets of two components with the same id, as tuples and as made by adding or
    removing: {1234, 1291} and {1291, 62024}.  The program ends with six entities, of
    which the last is [(A, B)], and the first became (A, B) by adding. *)
Definition cA : ctype := CType 1 1234 4 4.
Definition cB : ctype := CType 2 1291 4 4.
Definition cC : ctype := CType 3 62024 4 4.
Definition cD : ctype := CType 4 9 4 4.
Definition UC : list ctype := [cD; cA; cB; cC].
Definition mixed : list op :=
  [ OpCreate [cA] [vl cA 1]; OpAdd cB 0 (vl cB 2); OpCreate [cC] [vl cC 3]; OpCreate [cB] [vl cB 4];
    OpCreate [cD; cB; cC] [vl cD 5; vl cB 6; vl cC 7]; OpCreate [cA; cD; cB] [vl cA 8; vl cD 9; vl cB 10]; OpCreate [cB; cA] [vl cB 11; vl cA 12] ].
Definition mixed_l : list (option output) :=
  [ Some (OutCreate (Ok 0)); Some (OutAdd (Ok tt)); Some (OutCreate (Ok 256)); Some (OutCreate (Ok 512)); Some (OutCreate (Ok 768)); Some (OutCreate (Ok 1024));
    Some (OutCreate (Ok 1280)) ].
(** In the state [b], some archetype of the types [T] with [n] entities is found instead of the archetype [p]. *)
Definition found (b : book) (p : N * list N) (T : list ctype) (n : nat) : bool :=
  existsb (fun s => mistaken p s && bool_decide (sh_types s = T) && (length (sh_ents s) =? n)%nat) (bk_sheets b).
Definition val_at (b : book) (h : N) : gmap N value := match bk_world b !! h with Some e => en_vals e | None => ∅ end.
Definition clash_at (b : book) : bool :=
  (** creating a [(C, B)], and iterating over [(B, C)] *)
  found b (place_of UC (created false UC [cC; cB] [vl cC 13; vl cB 14])) [cA; cB] 1 && found b (exact_place false UC [cB; cC]) [cA; cB] 1 &&
  (** adding B to the C, C to the B, removing D from the (D, B, C) *)
  found b (place_of UC (derived false UC (<[1291 := vl cB 15]> (val_at b 256)))) [cA; cB] 1 &&
  found b (place_of UC (derived false UC (<[62024 := vl cC 16]> (val_at b 512)))) [cA; cB] 1 &&
  found b (place_of UC (derived false UC (delete 9 (val_at b 768)))) [cA; cB] 1 &&
  bool_decide (next_handle b = Some 1536).
Definition all_found (x : list (option output) * ending) : bool := match x.2 with Ends (Completes b) => clash_at b | _ => false end.
Lemma completed (x : list (option output) * ending) l : x.1 = l -> all_found x = true -> exists b, x = (l, Ends (Completes b)) /\ clash_at b = true.
Proof. unfold all_found. destruct x as [l' [[b| |]|b o]]; cbn; [|done..]. intros -> H. by exists b. Qed.
Example C66_example :
  plain UC /\ NoDup (map ct_ty UC) /\ fair_all (dbg release) (big release) UC mixed book_empty /\
  (exists b, follow (dbg release) (big release) UC mixed book_empty = (mixed_l, Ends (Completes b)) /\ clash_at b = true) /\
  in_U UC [cC; cB] /\ Forall2 fits [cC; cB] [vl cC 13; vl cB 14] /\ valid (big release) UC [cC; cB] = true /\
  map ct_size (sorted UC [cC; cB]) = map ct_size [cA; cB].
Proof.
  split; [apply plainb_ok; vm_compute; reflexivity|]. split; [apply (bool_decide_unpack _); vm_compute; exact I|].
  split; [apply fair_allb_ok; vm_compute; reflexivity|]. split; [apply completed; vm_compute; reflexivity|].
  split; [apply in_Ub_ok; vm_compute; reflexivity|]. split; [repeat constructor|]. split; vm_compute; reflexivity.
Qed.
(** What happens (release and debug builds, little endian): the entity created as
    (C, B) is reported to have A and not C, and reading its A is undefined; adding B
    to the C makes its C vanish; adding C to the B panics; removing D makes C vanish,
    and A appear, which was never written. *)
Definition seen (c : cfg) (ops : list op) : list (option output) * bool :=
  let x := attempt c (mixed ++ ops) reg_default in (drop 7 x.1, match x.2 with Some _ => true | None => false end).
Definition shows (c : cfg) : list (list (option output) * bool) :=
  [ seen c [OpCreate [cC; cB] [vl cC 13; vl cB 14]; OpHas cA 1536; OpHas cC 1536; OpGet cC 1536];
    seen c [OpCreate [cC; cB] [vl cC 13; vl cB 14]; OpGet cA 1536];
    seen c [OpExact [cB; cC]];
    seen c [OpDestroy 1280; OpExact [cB; cC]];
    seen c [OpAdd cB 256 (vl cB 15); OpGet cC 256; OpHas cA 256; OpGet cB 256];
    seen c [OpAdd cC 512 (vl cC 16)];
    seen c [OpRemove cD 768; OpGet cC 768; OpGet cB 768; OpGet cA 768] ].
Definition shown : list (list (option output) * bool) :=
  [ ([Some (OutCreate (Ok 1536)); Some (OutBool true); Some (OutBool false); Some (OutVal None)], true);
    ([Some (OutCreate (Ok 1536))], false);
    ([], false);
    ([Some (OutBool true); Some (OutCols [[[]; []]])], true);
    ([Some (OutAdd (Ok tt)); Some (OutVal None); Some (OutBool true); Some (OutVal (Some (vl cB 15)))], true);
    ([None], true);
    ([Some (OutRemove (Ok (vl cD 5))); Some (OutVal None); Some (OutVal (Some (vl cB 6)))], false) ].
(** (Checked at compile time; see Tests.v for why not a lemma.) *)
Check (eq_refl shown <: shows release = shown).
Check (eq_refl shown <: shows debug = shown).
