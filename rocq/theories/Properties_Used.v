(** * C58: programs are predicted whatever the hashes of the archetypes they do
    not use; collisions between all possible archetypes cannot be avoided.

    The theorems about histories and programs are stated for any family of
    archetypes ([Fm : family] in SpecWorld.v): only archetypes of the family have
    to be told apart by their ids, and the contract keeps the program to the
    family.  Here the family is the list of the archetypes that the program
    itself looks up ([asked], [asked_any] in SpecUsed.v).  Nothing at all is
    assumed about the hashes of other component sets ([plain] says nothing about
    hashes, and every archetype is allowed by the contract over [every]). *)
From Verif Require Import RegModel ByteReg Instances Instances2 Ref Bytes8 Events2 Events3 Total Used.
From Verif Require Import SpecClient SpecBase SpecWorld SpecBytes SpecRef SpecEvents SpecTotal SpecUsed.
Local Open Scope N_scope.

(** As C52, C53 and C55: the outputs, at the level of objects and of bytes, and
    the memory requests and destructor calls. *)
Theorem C58_every_program : forall c U ops,
  plain U -> @within every (big c) U ops book_empty -> unambiguous (asked (big c) U ops book_empty) ->
  exists r, run c ops reg_default = Ret (ref_run (big c) U ops book_empty).1 r /\
    ev_trace (r_env r) = (run_log (big c) U ops book_empty []).1 /\
    map a_cap (ar_archs (r_ar r)) = (run_log (big c) U ops book_empty []).2.
Proof. exact used_program. Qed.
Print Assumptions C58_every_program.
Theorem C58_bytes : forall c U place ops,
  plain U -> laid_out U -> @within every (big c) U ops book_empty -> unambiguous (asked (big c) U ops book_empty) ->
  exists R, brun c ops (breg_default place) = Ret (ref_run (big c) U ops book_empty).1 R /\
    ev_trace (m_env (br_mem R)) = (run_log (big c) U ops book_empty []).1.
Proof. exact used_bytes. Qed.
Print Assumptions C58_bytes.
(** As C57: programs that leave the contract, panic by panic. *)
Theorem C58_any_program : forall c U ops,
  plain U -> NoDup (map ct_ty U) -> @lawful_all every (dbg c) (big c) U ops book_empty ->
  unambiguous (asked_any (big c) U (dbg c) ops book_empty) ->
  (attempt c ops reg_default).1 = (predict (dbg c) (big c) U ops book_empty).1 /\
  ((attempt c ops reg_default).2 = None <-> (predict (dbg c) (big c) U ops book_empty).2 = None).
Proof. exact used_any. Qed.
Print Assumptions C58_any_program.

(** Why all archetypes over a set of components cannot be assumed to be told
    apart: from 39 components on there are always two sets of 14 with the same
    usable id, whatever their (16-bit) ids are... *)
Theorem C58_collisions_unavoidable : forall be U,
  plain U -> Forall (fun C => ct_id C < 65536) U -> (39 <= length U)%nat -> ~ @collision_free every be U.
Proof. exact never_collision_free. Qed.
Print Assumptions C58_collisions_unavoidable.
(** ... so that in no state can the registry keep both: of two entities created
    one after the other with them, one is reported wrongly. *)
Theorem C58_confusion : forall c U,
  plain U -> Forall (fun C => ct_id C < 65536) U -> (39 <= length U)%nat ->
  exists G1 G2 P, in_U U G1 /\ in_U U G2 /\ gvalid (big c) G1 /\ gvalid (big c) G2 /\ P ∈ G1 /\ ct_id P ∉ ids_of G2 /\
    forall r vs1 h1 r1 vs2 h2 r2, reachable c r ->
      create_entity c G1 vs1 r = Ret (Ok h1) r1 -> create_entity c G2 vs2 r1 = Ret (Ok h2) r2 ->
      has_component c P h1 r2 = has_component c P h2 r2.
Proof. exact confused. Qed.
Print Assumptions C58_confusion.

(** 39 components.  The sets [K1] and [K2] collide; a program that uses [K1], but
    not [K2], is predicted all the same.  If it goes on with [K2], the new entity
    is said to have component 3, and not to have component 4. *)
Definition U39 : list ctype := map (fun i => ty (N.of_nat i)) (seq 1 39).
Definition K1 : group := map ty [2; 3; 11; 13; 15; 16; 19; 26; 27; 28; 31; 32; 34; 36].
Definition K2 : group := map ty [2; 4; 6; 7; 14; 15; 19; 21; 24; 25; 30; 33; 38; 39].
Definition wide : list op :=
  [ OpCreate K1 (map (fun C => vl C 1) K1); OpCreate (take 3 K2) (map (fun C => vl C 2) (take 3 K2)); OpAdd (ty 39) 256 (vl (ty 39) 5);
    OpCreate K1 (map (fun C => vl C 3) K1); OpRemove (ty 4) 256; OpDestroy 0; OpIterE [ty 2]; OpExactE [ty 6; ty 2; ty 39]; OpHas (ty 3) 512 ].
Lemma U39_plain : plain U39.
Proof. apply plainb_ok. vm_compute. reflexivity. Qed.
Lemma wide_unambiguous : unambiguous (asked (big release) U39 wide book_empty).
Proof. apply unambiguousb_ok. vm_compute. reflexivity. Qed.
Example C58_example :
  plain U39 /\ laid_out U39 /\ NoDup (map ct_ty U39) /\ Forall (fun C => ct_id C < 65536) U39 /\ (39 <= length U39)%nat /\
  @within every (big release) U39 wide book_empty /\ unambiguous (asked (big release) U39 wide book_empty) /\
  @lawful_all every (dbg debug) (big debug) U39 wide book_empty /\ unambiguous (asked_any (big debug) U39 (dbg debug) wide book_empty) /\
  drop 4 (ref_run (big release) U39 wide book_empty).1 =
    [ OutRemove (Ok (vl (ty 4) 2)); OutBool true; OutECols [([], [[]]); ([256], [[vl (ty 2) 2]]); ([], [[]]); ([512], [[vl (ty 2) 3]])];
      OutECols [([], [[]; []; []])]; OutBool true ] /\
  tuple_archetype_id (big release) (ids_of K1) = tuple_archetype_id (big release) (ids_of K2) /\
  (drop 9 <$> returns release (wide ++ [OpCreate K2 (map (fun C => vl C 4) K2); OpHas (ty 3) 1; OpHas (ty 4) 1])) =
    Some [OutCreate (Ok 1); OutBool true; OutBool false].
Proof.
  split; [exact U39_plain|].
  split; [apply Forall_forall; intros C HC; apply elem_of_list_fmap in HC as (i&->&_); by exists 1|].
  split; [apply (bool_decide_unpack _); vm_compute; exact I|].
  split; [apply (bool_decide_unpack _); vm_compute; exact I|]. split; [vm_compute; lia|].
  split; [apply withinb_ok; vm_compute; reflexivity|]. split; [exact wide_unambiguous|].
  split; [apply lawful_allb_ok; vm_compute; reflexivity|]. split; [apply unambiguousb_ok; vm_compute; reflexivity|].
  split; [vm_compute; reflexivity|]. split; vm_compute; reflexivity.
Qed.
