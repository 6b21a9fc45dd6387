(** * C53 and C54: the storage down to bytes

    ByteModel.v and ByteReg.v model the registry once more: pointers are blocks
    and byte offsets, all archetypes share one heap, and offsets, strides, copy
    lengths, overlap, bounds, alignment and liveness of blocks are checked at
    every access (a violation is [UB]).  [place] is where the allocator puts
    blocks. *)
From Verif Require Import Instances ByteReg Ref Bytes7 Bytes8 SpecBytes SpecBase SpecWorld SpecRef.
Local Open Scope N_scope.

(** ** C53 *)
(** No program within the contract runs into [UB] or a panic, every call returns
    what the reference implementation of C52 returns, and allocations and
    destructor calls happen as in the model of C23-C40. *)
Theorem C53_every_program : forall (Fm : family) c U place ops,
  universe (big c) U -> laid_out U -> within (big c) U ops book_empty ->
  exists R r, brun c ops (breg_default place) = Ret (ref_run (big c) U ops book_empty).1 R /\
    run c ops reg_default = Ret (ref_run (big c) U ops book_empty).1 r /\ m_env (br_mem R) = r_env r.
Proof. intros Fm c U place ops HU Hla. exact (bytes_program c U HU Hla place ops). Qed.
Print Assumptions C53_every_program.
(** Dropping the registry afterwards frees every block. *)
Theorem C53_dropping : forall (Fm : family) c U place ops out R,
  universe (big c) U -> laid_out U -> within (big c) U ops book_empty -> all_calm (bk_world (ref_run (big c) U ops book_empty).2) ->
  brun c ops (breg_default place) = Ret out R ->
  exists R', b_drop_registry R = Ret tt R' /\ m_blocks (br_mem R') = ∅ /\
    exists r r', run c ops reg_default = Ret out r /\ drop_registry r = Ret tt r' /\ m_env (br_mem R') = r_env r'.
Proof. intros Fm c U place ops out R HU Hla. exact (bytes_drop c U HU Hla place ops out R). Qed.
Print Assumptions C53_dropping.
(** Components of 1, 12 and 16 bytes; 130 entities of one archetype (its columns
    are reallocated once), moves between archetypes, a row swap. *)
Definition wA := CType 1 1 1 1. Definition wB := CType 2 2 12 4. Definition wC := CType 3 3 16 8.
Definition UW : list ctype := [wA; wB; wC].
Definition growth : list op :=
  map (fun k => OpCreate [wB; wA] [vl wB (Z.of_nat k); vl wA (- Z.of_nat k)]) (seq 0 130) ++
  [ OpAdd wC 256 (vl wC 7); OpDestroy 0; OpRemove wB 512; OpSetAll [wA; wC] 256 [vl wA 8; vl wC 9]; OpIterE [wC; wA];
    OpGetAll [wA; wB] 33024; OpGet wA 512 ].
Definition somewhere (id : N) : N := id * 5.
Definition grown : breg := match brun release growth (breg_default somewhere) with Ret _ R => R | _ => breg_default somewhere end.
Lemma UW_ok : universe (big release) UW. Proof. apply universeb_ok. vm_compute. reflexivity. Qed.
Lemma UW_laid_out : laid_out UW.
Proof. repeat constructor; [exists 1|exists 3|exists 2]; reflexivity. Qed.
Lemma growth_within : within (big release) UW growth book_empty.
Proof. apply withinb_ok. vm_compute. reflexivity. Qed.
Definition outputs_of {S A} (r : res S A) : option A := match r with Ret x _ => Some x | _ => None end.
Example C53_example :
  universe (big release) UW /\ laid_out UW /\ within (big release) UW growth book_empty /\
  all_calm (bk_world (ref_run (big release) UW growth book_empty).2) /\
  drop 130 <$> outputs_of (brun release growth (breg_default somewhere)) =
    Some [ OutAdd (Ok tt); OutBool true; OutRemove (Ok (vl wB 2)); OutVals (Some [vl wA (-1); vl wC 7]);
           OutECols [([256], [[vl wC 9]; [vl wA 8]])]; OutVals (Some [vl wA (-129); vl wB 129]); OutVal (Some (vl wA (-2))) ] /\
  size (m_blocks (br_mem grown)) = 9%nat.
Proof.
  split; [apply UW_ok|]. split; [apply UW_laid_out|]. split; [apply growth_within|].
  split; [apply all_calm_dec; vm_compute; reflexivity|]. split; vm_compute; reflexivity.
Qed.

(** ** C54 *)
(** The references a mutable iteration hands out (all items together) and those
    of one tuple access: each is a sound [&mut], and no two share a byte. *)
Theorem C54_matching : forall (Fm : family) c U place ops out R G,
  universe (big c) U -> laid_out U -> within (big c) U ops book_empty -> brun c ops (breg_default place) = Ret out R ->
  in_U U G -> gvalid (big c) G ->
  refs_ok (br_mem R) G (b_iter_matching_mut c G R) (b_iter_entity_matching_mut c G R).
Proof. intros Fm c U place ops out R G HU Hla. exact (matching_refs c U HU Hla place ops out R G). Qed.
Print Assumptions C54_matching.
Theorem C54_filtered : forall (Fm : family) c U place ops out R G f,
  universe (big c) U -> laid_out U -> within (big c) U ops book_empty -> brun c ops (breg_default place) = Ret out R ->
  in_U U G -> gvalid (big c) G -> respects f ->
  refs_ok (br_mem R) G (b_iter_filtered_mut c G f R) (b_iter_entity_filtered_mut c G f R).
Proof. intros Fm c U place ops out R G f HU Hla. exact (filtered_refs c U HU Hla place ops out R G f). Qed.
Print Assumptions C54_filtered.
Theorem C54_exact : forall (Fm : family) c U place ops out R G,
  universe (big c) U -> laid_out U -> within (big c) U ops book_empty -> brun c ops (breg_default place) = Ret out R ->
  in_U U G -> gvalid (big c) G -> known (big c) U G ->
  exists es cols, b_exact_mut c G R = Rd cols /\ b_entity_exact_mut c G R = Rd (es, cols) /\
    sound_columns (br_mem R) G (length es) cols /\ exclusive (concat cols).
Proof. intros Fm c U place ops out R G HU Hla. exact (exact_refs c U HU Hla place ops out R G). Qed.
Print Assumptions C54_exact.
Theorem C54_tuple : forall (Fm : family) c U place ops out R G h,
  universe (big c) U -> laid_out U -> within (big c) U ops book_empty -> brun c ops (breg_default place) = Ret out R ->
  in_U U G -> gvalid (big c) G ->
  exists res, b_get_all_mut c G h R = Rd res /\ forall ls, res = Some ls -> Forall2 (sound_ref (br_mem R)) G ls /\ exclusive ls.
Proof. intros Fm c U place ops out R G h HU Hla. exact (tuple_refs c U HU Hla place ops out R G h). Qed.
Print Assumptions C54_tuple.
Theorem C54_single : forall (Fm : family) c U place ops out R C h,
  universe (big c) U -> laid_out U -> within (big c) U ops book_empty -> brun c ops (breg_default place) = Ret out R ->
  C ∈ U ->
  exists res, b_get_mut c C h R = Rd res /\ forall l, res = Some l -> sound_ref (br_mem R) C l.
Proof. intros Fm c U place ops out R C h HU Hla. exact (single_ref c U HU Hla place ops out R C h). Qed.
Print Assumptions C54_single.
(** Entity 512 (third of its archetype) lost its [wB]; 256 now has all three. *)
Example C54_example :
  in_U UW [wC; wA] /\ gvalid (big release) [wC; wA] /\ wB ∈ UW /\
  b_iter_matching_mut release [wC; wA] grown = Rd (Some [[[(Some (9, 0%nat), 16%nat)]; [(Some (7, 0%nat), 1%nat)]]]) /\
  b_get_mut release wB 768 grown = Rd (Some (Some (5, 36%nat), 12%nat)).
Proof.
  split; [apply in_Ub_ok; vm_compute; reflexivity|]. split; [apply (gvalid_dec release); vm_compute; reflexivity|].
  split; [right; left|]. split; vm_compute; reflexivity.
Qed.
