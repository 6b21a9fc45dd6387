(** * C64: an [EntityRegistry] used directly is a table of slots with a free stack. *)
From Verif Require Import EntityModel EntityClient SpecSlots Slots.
Local Open Scope N_scope.

(** Any program over the public API of [EntityRegistry], on either byte order, neither
    panics nor has undefined behaviour, and gets the answers that the table gives. *)
Theorem C64_direct_use : forall be ops, Forall eop_ok ops -> exists r, erun be ops er_default = Ret (all_on_slots ops (Table [] [])).1 r.
Proof. exact erun_default. Qed.
Print Assumptions C64_direct_use.

(** A client that sets the archetype index of an entry to 65535 through
    [entity_entry_mut] loses the slot: no later call issues or lists it. *)
Theorem C64_lost_slot : forall be pre h l post v row os r,
  Forall eop_ok (pre ++ EEdit h l :: post) -> erun be (pre ++ EEdit h l :: post) er_default = Ret os r ->
  os !! length pre = Some (EoFields (Some (v, row, 65535))) -> Forall (fun o => ~ mentions (N.to_nat (h / 256)) o) (drop (S (length pre)) os).
Proof. exact lost_slot. Qed.
Print Assumptions C64_lost_slot.

(** Three entities; one destroyed and its slot used again; a stale handle; an entry
    moved, given version 7, and in the end lost. *)
Definition slots_demo : list eop :=
  [ERoom; ECreate 0 3; ECreate 1 3; ECreate 0 4; EDestroy 256; EDestroy 256; EDestroy 0; EAll; ECreate 9 5; ELook 1; ELook 0; ECreate 10 5; ELook 257;
   EEdit 512 [EVersion 7; ERow 77]; ELook 512; ELook 519].
Definition slots_lose : eop := EEdit 519 [EArch 65535].
Definition slots_after : list eop := [ELook 519; EDestroy 519; EAll; ECreate 1 1; EAll].
Lemma all_eop_ok : Forall eop_ok (slots_demo ++ slots_lose :: slots_after).
Proof. repeat (constructor; [cbn; repeat (constructor; cbn; try done)|]). constructor. Qed.
Example C64_direct_use_example :
  Forall eop_ok (slots_demo ++ slots_lose :: slots_after) /\
  (all_on_slots (slots_demo ++ slots_lose :: slots_after) (Table [] [])).1 =
  [EoBool true; EoHandle (Some 0); EoHandle (Some 256); EoHandle (Some 512); EoBool true; EoBool false; EoBool true; EoHandles [512];
   EoHandle (Some 1); EoFields (Some (1, 9, 5)); EoFields None; EoHandle (Some 257); EoFields (Some (1, 10, 5));
   EoFields (Some (7, 77, 4)); EoFields None; EoFields (Some (7, 77, 4));
   EoFields (Some (7, 77, 65535));
   EoFields None; EoBool false; EoHandles [1; 257]; EoHandle (Some 768); EoHandles [1; 257; 768]].
Proof. split; [exact all_eop_ok|]. vm_compute. reflexivity. Qed.
Example C64_lost_slot_example : exists os r,
  Forall eop_ok (slots_demo ++ slots_lose :: slots_after) /\ erun false (slots_demo ++ slots_lose :: slots_after) er_default = Ret os r /\
  os !! length slots_demo = Some (EoFields (Some (7, 77, 65535))) /\ length (drop (S (length slots_demo)) os) = 5%nat.
Proof. eexists _, _. split; [exact all_eop_ok|]. split; [vm_compute; reflexivity|]. split; reflexivity. Qed.
