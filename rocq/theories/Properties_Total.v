(** * C57: the outcome of every program is predicted, misuse included.

    SpecTotal.v extends the reference implementation of C52 to the calls outside
    the contract: tuple types with a repeated component, [remove_entity] with the
    wrong tuple type, [add_component] at 13 and [remove_component] at 14
    components.  Every call returns, panics, or is undefined behaviour. *)
From Verif Require Import RegModel Instances Instances2 Total SpecBase SpecWorld SpecRef SpecEvents SpecTotal.
Local Open Scope N_scope.

(** A program that catches panics and goes on returns and panics, call by call,
    as predicted; it runs into undefined behaviour iff predicted, at that call.
    [NoDup (map ct_ty U)]: the universe lists each Rust type once. *)
Theorem C57_every_program : forall (Fm : family) c U ops,
  universe (big c) U -> NoDup (map ct_ty U) -> lawful_all (dbg c) (big c) U ops book_empty ->
  (attempt c ops reg_default).1 = (predict (dbg c) (big c) U ops book_empty).1 /\
  ((attempt c ops reg_default).2 = None <-> (predict (dbg c) (big c) U ops book_empty).2 = None).
Proof. intros Fm c U ops HU Hnt. exact (attempt_predicted c U HU Hnt ops). Qed.
Print Assumptions C57_every_program.
(** Memory requests, destructor calls and capacities are predicted as well, also
    when the registry is dropped at the end. *)
Theorem C57_requests : forall (Fm : family) c U ops r,
  universe (big c) U -> NoDup (map ct_ty U) -> lawful_all (dbg c) (big c) U ops book_empty ->
  (attempt c ops reg_default).2 = Some r ->
  ev_trace (r_env r) = (predict_log (dbg c) (big c) U ops book_empty []).1 /\
  map a_cap (ar_archs (r_ar r)) = (predict_log (dbg c) (big c) U ops book_empty []).2.
Proof. intros Fm c U ops r HU Hnt. exact (attempt_requests c U HU Hnt ops r). Qed.
Print Assumptions C57_requests.
Theorem C57_dropping : forall (Fm : family) c U ops r b,
  universe (big c) U -> NoDup (map ct_ty U) -> lawful_all (dbg c) (big c) U ops book_empty ->
  (attempt c ops reg_default).2 = Some r -> (predict (dbg c) (big c) U ops book_empty).2 = Some b -> all_calm (bk_world b) ->
  exists r', drop_registry r = Ret tt r' /\
    ev_trace (r_env r') = ((predict_log (dbg c) (big c) U ops book_empty []).1 ++
      final_log b (predict_log (dbg c) (big c) U ops book_empty []).2)%list.
Proof. intros Fm c U ops r b HU Hnt. exact (attempt_drop c U HU Hnt ops r b). Qed.
Print Assumptions C57_dropping.
(** Only [remove_entity], and in release builds [get_components] and
    [get_components_mut] with a tuple type that is not valid, can be undefined. *)
Theorem C57_undefined : forall (Fm : family) c U ops,
  universe (big c) U -> NoDup (map ct_ty U) -> lawful_all (dbg c) (big c) U ops book_empty ->
  (attempt c ops reg_default).2 = None ->
  exists o, o ∈ ops /\ match o with
    | OpRemoveEntity _ _ => True
    | OpGetAll G _ | OpSetAll G _ _ => valid (big c) U G = false /\ dbg c = false
    | _ => False
    end.
Proof. intros Fm c U ops HU Hnt. exact (attempt_undefined c U HU Hnt ops). Qed.
Print Assumptions C57_undefined.

(** Over fourteen component types: an entity with 13 components is given a
    fourteenth (panics, the value is dropped, the entity stays); one with 14
    loses one (panics); tuples with a repeated component are used; an entity is
    taken out by a prefix of its components, another one twice the same value.
    In the end [remove_entity] asks for a component that is not the first. *)
Definition rough : list op :=
  [ OpCreate (take 13 U14) (map (fun C => vl C 1) (take 13 U14)); OpAdd (ty 14) 0 (vl (ty 14) 9);
    OpCreate U14 (map (fun C => vl C 2) U14); OpRemove (ty 3) 256;
    OpCreate [tB; tA] [vl tB 3; vl tA 4]; OpCreate [tA; tA] [vl tA 5; vl tA 6]; OpCreate [tA; tB] [vl tA 7; vl tB 8];
    OpIter [tA; tA]; OpExactE [tB; tB]; OpHasAll [tC; tC] 512; OpHasAll [tC; tC] 4;
    OpRemoveEntity [tA] 512; OpRemoveEntity [tA; tA] 768; OpDestroy 0; OpGetAll [tB; tB] 256 ].
Example C57_example :
  universe (big release) U14 /\ universe (big debug) U14 /\ NoDup (map ct_ty U14) /\
  lawful_all (dbg release) (big release) U14 rough book_empty /\ lawful_all (dbg debug) (big debug) U14 rough book_empty /\
  drop 1 (predict (dbg debug) (big debug) U14 rough book_empty).1 =
    [ None; Some (OutCreate (Ok 256)); None; Some (OutCreate (Ok 512)); Some (OutCreate (Err [vl tA 5; vl tA 6])); Some (OutCreate (Ok 768));
      None; Some (OutECols [([], [[]; []])]); Some (OutBool true); Some (OutBool false);
      Some (OutVals (Some [vl tA 4])); Some (OutVals (Some [vl tA 7; vl tA 7])); Some (OutBool true); None ] /\
  predict (dbg release) (big release) U14 rough book_empty =
    ((take 7 (predict (dbg debug) (big debug) U14 rough book_empty).1 ++ Some (OutCols []) ::
      take 6 (drop 8 (predict (dbg debug) (big debug) U14 rough book_empty).1))%list, None) /\
  filter (fun e => match e with EvDrop _ => true | _ => false end = true) (predict_log (dbg debug) (big debug) U14 rough book_empty []).1 =
    (EvDrop (vl (ty 14) 9) :: map (fun C => EvDrop (vl C 1)) (take 13 U14))%list /\
  predict (dbg release) (big release) U14 [OpCreate [tB; tA] [vl tB 3; vl tA 4]; OpRemoveEntity [tB] 0] book_empty =
    ([Some (OutCreate (Ok 0))], None).
Proof.
  split; [apply U14_ok|]. split; [exact U14_ok|].
  split; [apply (bool_decide_unpack _); vm_compute; exact I|].
  split; [apply lawful_allb_ok; vm_compute; reflexivity|]. split; [apply lawful_allb_ok; vm_compute; reflexivity|].
  split; [vm_compute; reflexivity|]. split; [vm_compute; reflexivity|]. split; vm_compute; reflexivity.
Qed.
