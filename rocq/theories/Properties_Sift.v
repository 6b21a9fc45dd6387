(** * C63: filter closures with a state, and filter closures that panic *)
From Verif Require Import Instances Ref Sift SiftModel Properties_Bytes Properties_Codes Properties_Lazy SpecBase SpecWorld SpecRef SpecCode SpecLazy SpecSift.
Local Open Scope N_scope.

(** For every state and component tuple there is one list of offers (a descriptor and
    an item each): the items are those of the unfiltered iteration, each offer comes
    with the descriptor of its entities, and no archetype is offered twice.  Whatever
    state the filter closure has and whether or not it panics, each of the four
    filtered iterators asks it about the offers in this order, each at most once ever
    and only as far as needed; hands out exactly those it accepts; goes on with the
    next offer after a panic that the client has caught; and reports the end for ever
    without asking again.  Client code that uses the references received, also after
    a panic, acts as on plain lists, and its replacements are those of
    [get_component_mut].  A closure without state selects its offers. *)
Theorem C63_filter_closures : forall (Fm : family) c U r w Inn Out G,
  universe (big c) U -> history c U r w Inn Out -> in_U U G -> gvalid (big c) G ->
  exists offers, iter_entity_components_matching c G r = Rd (Some (map snd offers)) /\ visits w (matching G) G (map snd offers) /\
    Forall (described U w G) offers /\ NoDup (map (fun x : adesc * (list N * list (list value)) => (ad_id x.1, ad_len x.1)) offers) /\
    (forall p, iter_filtered_entity_components_matching c G p r = Rd (Some (map snd (filter (fun x => p x.1 = true) offers)))) /\
    forall (St : Type) (f : closure St),
      sift_like_list c U r w Inn Out G (f_next_entity_matching_mut c G f) f id offers /\
      sift_like_list c U r w Inn Out G (f_next_matching_mut c G f) f length offers /\
      forall n s, pulls c G (f_next_entity_matching c G f) n s r = Rd (sifts f n s offers) /\
        pulls c G (f_next_matching c G f) n s r = Rd (sifts f n s (map (fun x => (x.1, x.2.2)) offers)).
Proof. intros Fm c U r w Inn Out G HU. exact (sift_all c U HU r w Inn Out G). Qed.
Print Assumptions C63_filter_closures.

(** The registry of C61, iterated over (B): two entities with A and B, a third with A,
    B and C.  The closure counts its calls; it panics at the first, accepts at the
    second.  The client catches the panic, receives the second archetype, replaces its
    B, and calls [next] twice more. *)
Definition moody : closure N := fun _ s => if N.eqb s 0 then Panics 1 else Says true (s + 1).
Definition hunt : fcode (list N) :=
  FNext (fun t =>
    match t with
    | Crashed => FNext (fun t' =>
        match t' with
        | Item [_] => FReplace 0 (vl wB 9) (fun _ => FNext (fun _ => FNext (fun _ => FLook 0 (fun _ => FStop))))
        | _ => FStop
        end)
    | _ => FStop
    end).
Lemma hunt_typed : typed_fcode id [wB] [] hunt.
Proof.
  split; [exact I|]. split; [|intros es; exact I]. split; [exact I|]. split; [exact I|]. intros [|h [|? ?]]; try exact I.
  exists wB. split; [reflexivity|]. split; [exact eq_refl|]. intros _ _.
  assert (Hin : forall Cs, Cs !! 0%nat = Some wB -> typed_fcode (O := list N) id [wB] Cs (FLook 0 (fun _ => FStop))).
  { intros Cs HC. exists wB. split; [exact HC|]. intros v Hv. exact I. }
  split; [|split; [|intros es3]]; (split; [|split; [|intros es4]]); apply Hin; reflexivity.
Qed.
Definition after_hunt : reg := match sifting release [wB] (f_next_entity_matching_mut release [wB] moody) 0 hunt after_trio_v with Ret _ r => r | _ => reg_default end.
Example C63_example :
  universe (big release) UW /\ history release UW after_trio_v trio_demo.1.1.2 trio_demo.1.2 trio_demo.2 /\ in_U UW [wB] /\ gvalid (big release) [wB] /\
  typed_fcode id [wB] [] hunt /\
  outputs_of (sifting release [wB] (f_next_entity_matching_mut release [wB] moody) 0 hunt after_trio_v) =
    Some ([FTurn Crashed; FTurn (Item [512]); FSwapped (vl wB 3) (vl wB 9); FTurn Done; FTurn Done; FSaw (vl wB 9)], 2) /\
  iter_entity_components_matching release [wB] after_hunt = Rd (Some [([0; 256], [[vl wB 1; vl wB 5]]); ([512], [[vl wB 9]])]) /\
  pulls release [wB] (f_next_entity_matching release [wB] moody) 4 0 after_trio_v = Rd ([Crashed; Item ([512], [[vl wB 3]]); Done; Done], 2) /\
  pulls release [wB] (f_next_matching release [wB] moody) 4 7 after_trio_v = Rd ([Item [[vl wB 1; vl wB 5]]; Item [[vl wB 3]]; Done; Done], 9).
Proof.
  split; [apply UW_ok|]. split.
  { eapply (after_history release UW trio reg_default ∅ [] []); [apply h_start| |].
    - apply permitsb_ok. vm_compute. reflexivity.
    - unfold after_trio_v, trio_demo. by destruct (after _ _ _ _ _ _ _) as [[[r w] Inn] Out]. }
  split; [apply in_Ub_ok; vm_compute; reflexivity|]. split; [apply (gvalid_dec release); vm_compute; reflexivity|].
  split; [exact hunt_typed|]. split; [vm_compute; reflexivity|]. split; [vm_compute; reflexivity|]. split; vm_compute; reflexivity.
Qed.
