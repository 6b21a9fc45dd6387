(** * C61: client code that advances a mutable iterator while it holds references *)
From Verif Require Import Instances ByteReg Ref Lazy Lazy2 LazyModel Properties_Bytes Properties_Codes SpecBytes SpecBase SpecWorld SpecRef SpecCode SpecLazy.
Local Open Scope N_scope.

(** A client makes one of the mutable iterators and from then on calls [next],
    looks at values and replaces them through any of the references it has received
    so far, in any order and depending on what it has seen; it may stop early and
    may call [next] again after the end.  The items it receives are those that the
    immutable iteration showed at the start, in that order, with the handles (or the
    length) shown then; the end is reported from the first time on for ever; every
    value is as in a plain list of values, whether its item had been handed out
    before or after a replacement elsewhere; and afterwards exactly the replaced
    components have new values, in the very registry that the same replacements by
    [get_component_mut] lead to, so that all other theorems continue to apply. *)
Theorem C61_matching : forall (Fm : family) c U r w Inn Out G,
  universe (big c) U -> history c U r w Inn Out -> in_U U G -> gvalid (big c) G ->
  exists items, iter_entity_components_matching c G r = Rd (Some items) /\ visits w (matching G) G items /\
    lazy_like_list c U r w Inn Out G (next_entity_matching_mut c G) id items /\
    lazy_like_list c U r w Inn Out G (next_matching_mut c G) length items.
Proof. intros Fm c U r w Inn Out G HU. exact (matching_lazy c U HU r w Inn Out G). Qed.
Print Assumptions C61_matching.
Theorem C61_filtered : forall (Fm : family) c U r w Inn Out G f,
  universe (big c) U -> history c U r w Inn Out -> in_U U G -> gvalid (big c) G -> respects f ->
  exists items, iter_filtered_entity_components_matching c G f r = Rd (Some items) /\ visits w (filtered U G f) G items /\
    lazy_like_list c U r w Inn Out G (next_entity_filtered_mut c G f) id items /\
    lazy_like_list c U r w Inn Out G (next_filtered_mut c G f) length items.
Proof. intros Fm c U r w Inn Out G f HU. exact (filtered_lazy c U HU r w Inn Out G f). Qed.
Print Assumptions C61_filtered.

(** The same for programs over bytes: the code reads and writes the bytes of the
    references, and ends in the very memory that the calls end in. *)
Theorem C61_bytes : forall (Fm : family) c U place ops out R G,
  universe (big c) U -> laid_out U -> within (big c) U ops book_empty -> brun c ops (breg_default place) = Ret out R ->
  in_U U G -> gvalid (big c) G ->
  exists items, b_iter_entity_matching c G R = Rd (Some items) /\
    lazy_like_list_bytes c U place ops out R G (b_next_entity_matching_mut c G) id items /\
    lazy_like_list_bytes c U place ops out R G (b_next_matching_mut c G) length items.
Proof. intros Fm c U place ops out R G HU Hla. exact (matching_lazy_bytes c U HU Hla place ops out R G). Qed.
Print Assumptions C61_bytes.
Theorem C61_bytes_filtered : forall (Fm : family) c U place ops out R G f,
  universe (big c) U -> laid_out U -> within (big c) U ops book_empty -> brun c ops (breg_default place) = Ret out R ->
  in_U U G -> gvalid (big c) G -> respects f ->
  exists items, b_iter_entity_filtered c G f R = Rd (Some items) /\
    lazy_like_list_bytes c U place ops out R G (b_next_entity_filtered_mut c G f) id items /\
    lazy_like_list_bytes c U place ops out R G (b_next_filtered_mut c G f) length items.
Proof. intros Fm c U place ops out R G f HU Hla. exact (filtered_lazy_bytes c U HU Hla place ops out R G f). Qed.
Print Assumptions C61_bytes_filtered.

(** Two entities with A and B, a third with A, B and C, iterated over (B, A).  The
    client takes the first item, replaces the B of the first entity, takes the
    second item, copies the A of its last row over the A of the second entity of the
    first item, and calls [next] twice more. *)
Definition walk : lcode (list N) :=
  LNext (fun o =>
    match o with
    | Some [_; _] =>
        LReplace 0 (vl wB 7) (fun _ =>
        LNext (fun o' =>
          match o' with
          | Some [_] => LLook 5 (fun a => LReplace 3 a (fun _ => LNext (fun _ => LNext (fun _ => LLook 3 (fun _ => LStop)))))
          | _ => LStop
          end))
    | _ => LStop
    end).
Lemma walk_typed : typed_lcode id [wB; wA] [] walk.
Proof.
  split; [exact I|]. intros [|h [|h' [|? ?]]]; try exact I. exists wB. split; [reflexivity|]. split; [exact eq_refl|]. intros _ _. split; [exact I|].
  intros [|h2 [|? ?]]; try exact I. exists wA. split; [reflexivity|]. intros a Ha. exists wA. split; [reflexivity|]. split; [exact Ha|]. intros _ _.
  assert (Hin : forall Cs, Cs !! 3%nat = Some wA -> typed_lcode (O := list N) id [wB; wA] Cs (LLook 3 (fun _ => LStop))).
  { intros Cs HC. exists wA. split; [exact HC|]. intros v Hv. exact I. }
  split; [split; [|intros es3]|intros es3; split; [|intros es4]]; apply Hin; reflexivity.
Qed.
Definition trio_demo := after release UW trio reg_default ∅ [] [].
Definition after_trio_v : reg := trio_demo.1.1.1.
Definition after_walk : reg := match lazily release [wB; wA] (next_entity_matching_mut release [wB; wA]) walk after_trio_v with Ret _ r => r | _ => reg_default end.
Example C61_example :
  universe (big release) UW /\ history release UW after_trio_v trio_demo.1.1.2 trio_demo.1.2 trio_demo.2 /\ in_U UW [wB; wA] /\ gvalid (big release) [wB; wA] /\
  typed_lcode id [wB; wA] [] walk /\ laid_out UW /\ within (big release) UW trio book_empty /\
  iter_entity_components_matching release [wB; wA] after_trio_v =
    Rd (Some [([0; 256], [[vl wB 1; vl wB 5]; [vl wA 10; vl wA 20]]); ([512], [[vl wB 3]; [vl wA 30]])]) /\
  outputs_of (lazily release [wB; wA] (next_entity_matching_mut release [wB; wA]) walk after_trio_v) =
    Some [Got (Some [0; 256]); Swapped (vl wB 1) (vl wB 7); Got (Some [512]); Saw (vl wA 30); Swapped (vl wA 20) (vl wA 30); Got None; Got None; Saw (vl wA 30)] /\
  iter_entity_components_matching release [wB; wA] after_walk =
    Rd (Some [([0; 256], [[vl wB 7; vl wB 5]; [vl wA 10; vl wA 30]]); ([512], [[vl wB 3]; [vl wA 30]])]) /\
  outputs_of (b_lazily release [wB; wA] (b_next_entity_matching_mut release [wB; wA]) walk after_trio) =
    Some [Got (Some [0; 256]); Swapped (vl wB 1) (vl wB 7); Got (Some [512]); Saw (vl wA 30); Swapped (vl wA 20) (vl wA 30); Got None; Got None; Saw (vl wA 30)].
Proof.
  split; [apply UW_ok|]. split.
  { eapply (after_history release UW trio reg_default ∅ [] []); [apply h_start| |].
    - apply permitsb_ok. vm_compute. reflexivity.
    - unfold after_trio_v, trio_demo. by destruct (after _ _ _ _ _ _ _) as [[[r w] Inn] Out]. }
  split; [apply in_Ub_ok; vm_compute; reflexivity|]. split; [apply (gvalid_dec release); vm_compute; reflexivity|].
  split; [exact walk_typed|]. split; [apply UW_laid_out|].
  split; [apply withinb_ok; vm_compute; reflexivity|]. split; [vm_compute; reflexivity|]. split; [vm_compute; reflexivity|]. split; vm_compute; reflexivity.
Qed.
