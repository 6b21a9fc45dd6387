(** * C59: client code that holds mutable references *)
From Verif Require Import Instances ByteReg Ref Bytes7 Bytes8 Codes2 Properties_Bytes SpecBytes SpecBase SpecWorld SpecRef SpecCode.
Local Open Scope N_scope.

(** Every reference that a mutable iteration hands out belongs to one entity and
    component, no two to the same, and holds the value that the immutable
    iteration shows.  Whatever code a client runs that looks at and replaces values
    through all of them at once, in any order and depending on what it sees: it sees
    what it would see in a plain list of these values, afterwards exactly these
    components have the values of that list, and the registry is where
    [get_component_mut] calls would have led, so that all other theorems continue
    to apply. *)
Theorem C59_matching : forall (Fm : family) c U r w I O G,
  universe (big c) U -> history c U r w I O -> in_U U G -> gvalid (big c) G ->
  exists refs items, iter_entity_components_matching_mut c G r = Rd (Some refs) /\ iter_components_matching_mut c G r = Rd (Some (map snd refs)) /\
    iter_entity_components_matching c G r = Rd (Some items) /\ map fst refs = map fst items /\ visits w (matching G) G items /\
    like_list c U r w I O (concat (concat (map snd refs))) (concat (map (owners G) (map fst items))) (concat (concat (map snd items))).
Proof. intros Fm c U r w I O G HU Hh. exact (matching_like c U HU r w I O Hh G). Qed.
Print Assumptions C59_matching.
Theorem C59_filtered : forall (Fm : family) c U r w I O G f,
  universe (big c) U -> history c U r w I O -> in_U U G -> gvalid (big c) G -> respects f ->
  exists refs items, iter_filtered_entity_components_matching_mut c G f r = Rd (Some refs) /\
    iter_filtered_components_matching_mut c G f r = Rd (Some (map snd refs)) /\
    iter_filtered_entity_components_matching c G f r = Rd (Some items) /\ map fst refs = map fst items /\ visits w (filtered U G f) G items /\
    like_list c U r w I O (concat (concat (map snd refs))) (concat (map (owners G) (map fst items))) (concat (concat (map snd items))).
Proof. intros Fm c U r w I O G f HU Hh. exact (filtered_like c U HU r w I O Hh G f). Qed.
Print Assumptions C59_filtered.
Theorem C59_exact : forall (Fm : family) c U r w I O G,
  universe (big c) U -> history c U r w I O -> in_U U G -> gvalid (big c) G -> known (big c) U G ->
  exists refs it, iter_entity_components_exact_mut c G r = Rd refs /\ iter_components_exact_mut c G r = Rd refs.2 /\
    iter_entity_components_exact c G r = Rd it /\ refs.1 = it.1 /\ visits w (is_exactly (big c) U G) G [it] /\
    like_list c U r w I O (concat refs.2) (owners G it.1) (concat it.2).
Proof. intros Fm c U r w I O G HU Hh. exact (exact_like c U HU r w I O Hh G). Qed.
Print Assumptions C59_exact.
Theorem C59_tuple : forall (Fm : family) c U r w I O G h,
  universe (big c) U -> history c U r w I O -> in_U U G -> gvalid (big c) G ->
  exists res, get_components_mut c G h r = Rd res /\ get_components c G h r = Rd (values_of w h G) /\
    match res, values_of w h G with
    | Some ls, Some vs => like_list c U r w I O ls (map (fun C => (h, C)) G) vs
    | None, None => True
    | _, _ => False
    end.
Proof. intros Fm c U r w I O G h HU Hh. exact (tuple_like c U HU r w I O Hh G h). Qed.
Print Assumptions C59_tuple.
Theorem C59_single : forall (Fm : family) c U r w I O C h,
  universe (big c) U -> history c U r w I O -> C ∈ U ->
  exists res, get_component_mut c C h r = Rd res /\ get_component c C h r = Rd (value_of w h C) /\
    match res, value_of w h C with
    | Some l, Some v => like_list c U r w I O [l] [(h, C)] [v]
    | None, None => True
    | _, _ => False
    end.
Proof. intros Fm c U r w I O C h HU Hh. exact (single_like c U HU r w I O Hh C h). Qed.
Print Assumptions C59_single.

(** The same for programs over bytes: the code reads and writes the bytes of the
    references, and ends in the very memory that the calls end in. *)
Theorem C59_bytes : forall (Fm : family) c U place ops out R G,
  universe (big c) U -> laid_out U -> within (big c) U ops book_empty -> brun c ops (breg_default place) = Ret out R ->
  in_U U G -> gvalid (big c) G ->
  exists refs items, b_iter_entity_matching_mut c G R = Rd (Some refs) /\ b_iter_matching_mut c G R = Rd (Some (map snd refs)) /\
    b_iter_entity_matching c G R = Rd (Some items) /\ map fst refs = map fst items /\
    like_list_bytes c U place ops out R (concat (concat (map snd refs))) (concat (map (owners G) (map fst items))) (concat (concat (map snd items))).
Proof. intros Fm c U place ops out R G HU Hla Hw Er. exact (matching_bytes c U HU Hla place ops out R Hw Er G). Qed.
Print Assumptions C59_bytes.
Theorem C59_bytes_filtered : forall (Fm : family) c U place ops out R G f,
  universe (big c) U -> laid_out U -> within (big c) U ops book_empty -> brun c ops (breg_default place) = Ret out R ->
  in_U U G -> gvalid (big c) G -> respects f ->
  exists refs items, b_iter_entity_filtered_mut c G f R = Rd (Some refs) /\ b_iter_filtered_mut c G f R = Rd (Some (map snd refs)) /\
    b_iter_entity_filtered c G f R = Rd (Some items) /\ map fst refs = map fst items /\
    like_list_bytes c U place ops out R (concat (concat (map snd refs))) (concat (map (owners G) (map fst items))) (concat (concat (map snd items))).
Proof. intros Fm c U place ops out R G f HU Hla Hw Er. exact (filtered_bytes c U HU Hla place ops out R Hw Er G f). Qed.
Print Assumptions C59_bytes_filtered.
Theorem C59_bytes_exact : forall (Fm : family) c U place ops out R G,
  universe (big c) U -> laid_out U -> within (big c) U ops book_empty -> brun c ops (breg_default place) = Ret out R ->
  in_U U G -> gvalid (big c) G -> known (big c) U G ->
  exists refs it, b_entity_exact_mut c G R = Rd refs /\ b_exact_mut c G R = Rd refs.2 /\ b_entity_exact c G R = Rd it /\ refs.1 = it.1 /\
    like_list_bytes c U place ops out R (concat refs.2) (owners G it.1) (concat it.2).
Proof. intros Fm c U place ops out R G HU Hla Hw Er. exact (exact_bytes c U HU Hla place ops out R Hw Er G). Qed.
Print Assumptions C59_bytes_exact.
Theorem C59_bytes_tuple : forall (Fm : family) c U place ops out R G h,
  universe (big c) U -> laid_out U -> within (big c) U ops book_empty -> brun c ops (breg_default place) = Ret out R ->
  in_U U G -> gvalid (big c) G ->
  exists res vals, b_get_all_mut c G h R = Rd res /\ b_get_all c G h R = Rd vals /\
    match res, vals with
    | Some ls, Some vs => like_list_bytes c U place ops out R ls (map (fun C => (h, C)) G) vs
    | None, None => True
    | _, _ => False
    end.
Proof. intros Fm c U place ops out R G h HU Hla Hw Er. exact (tuple_bytes c U HU Hla place ops out R Hw Er G h). Qed.
Print Assumptions C59_bytes_tuple.
Theorem C59_bytes_single : forall (Fm : family) c U place ops out R C h,
  universe (big c) U -> laid_out U -> within (big c) U ops book_empty -> brun c ops (breg_default place) = Ret out R -> C ∈ U ->
  exists res val, b_get_mut c C h R = Rd res /\ b_get c C h R = Rd val /\
    match res, val with
    | Some l, Some v => like_list_bytes c U place ops out R [l] [(h, C)] [v]
    | None, None => True
    | _, _ => False
    end.
Proof. intros Fm c U place ops out R C h HU Hla Hw Er. exact (single_bytes c U HU Hla place ops out R Hw Er C h). Qed.
Print Assumptions C59_bytes_single.

(** Two entities with the components A and B in one archetype, a third with A, B
    and C in another.  Iterating over (B, A) gives the references 0-1 (B) and 2-3 (A)
    of the first item and 4 (B) and 5 (A) of the second.  The client adds the B of
    the first entity to its A, and swaps the B of the second with the B of the third
    if the third is smaller. *)
Definition trio : list op :=
  [ OpCreate [wA; wB] [vl wA 10; vl wB 1]; OpCreate [wB; wA] [vl wB 5; vl wA 20]; OpCreate [wA; wB; wC] [vl wA 30; vl wB 3; vl wC 0] ].
Definition system : code :=
  Look 0 (fun b => Look 2 (fun a => Replace 2 (Value (v_ty a) (v_tok a + v_tok b) false) (fun _ =>
  Look 1 (fun x => Look 4 (fun y => if (v_tok y <? v_tok x)%Z then Replace 1 y (fun x' => Replace 4 x' (fun _ => Stop)) else Stop))))).
Definition after_trio : breg := match brun release trio (breg_default somewhere) with Ret _ R => R | _ => breg_default somewhere end.
Definition trio_refs : list bloc := match b_iter_entity_matching_mut release [wB; wA] after_trio with Rd (Some l) => concat (concat (map snd l)) | _ => [] end.
Definition after_system : breg := match b_serve trio_refs system after_trio with Ret _ R => R | _ => breg_default somewhere end.
Lemma system_typed : typed_code [wB; wB; wA; wA; wB; wA] system.
Proof.
  exists wB. split; [reflexivity|]. intros b Hb. exists wA. split; [reflexivity|]. intros a Ha. exists wA. split; [reflexivity|]. split; [exact Ha|]. intros _ _.
  exists wB. split; [reflexivity|]. intros x Hx. exists wB. split; [reflexivity|]. intros y Hy. destruct (_ <? _)%Z; [|exact I].
  exists wB. split; [reflexivity|]. split; [exact Hy|]. intros x' Hx'. exists wB. split; [reflexivity|]. split; [exact Hx'|]. intros _ _. exact I.
Qed.
Example C59_example :
  universe (big release) UW /\ laid_out UW /\ within (big release) UW trio book_empty /\ in_U UW [wB; wA] /\ gvalid (big release) [wB; wA] /\
  typed_code [wB; wB; wA; wA; wB; wA] system /\
  b_iter_entity_matching release [wB; wA] after_trio =
    Rd (Some [([0; 256], [[vl wB 1; vl wB 5]; [vl wA 10; vl wA 20]]); ([512], [[vl wB 3]; [vl wA 30]])]) /\
  outputs_of (b_serve trio_refs system after_trio) = Some [vl wB 1; vl wA 10; vl wA 10; vl wB 5; vl wB 3; vl wB 5; vl wB 3] /\
  b_iter_entity_matching release [wB; wA] after_system =
    Rd (Some [([0; 256], [[vl wB 1; vl wB 3]; [vl wA 11; vl wA 20]]); ([512], [[vl wB 5]; [vl wA 30]])]).
Proof.
  split; [apply UW_ok|]. split; [apply UW_laid_out|]. split; [apply withinb_ok; vm_compute; reflexivity|].
  split; [apply in_Ub_ok; vm_compute; reflexivity|]. split; [apply (gvalid_dec release); vm_compute; reflexivity|].
  split; [exact system_typed|]. split; [vm_compute; reflexivity|]. split; vm_compute; reflexivity.
Qed.
