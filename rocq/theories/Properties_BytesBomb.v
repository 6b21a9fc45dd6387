(** * C73: destructors that panic, down to bytes

    C45 and C34 (Properties_Crash.v) say what a panicking destructor does to the
    registry; here the same for the storage itself (ByteReg.v): which values are
    dropped in which order, which blocks are given back, and which are lost. *)
From Verif Require Import Instances ByteReg Ref Bytes17 Properties_Bytes SpecFail SpecBytes SpecBase SpecWorld SpecRef SpecBomb.
Local Open Scope N_scope.

(** Dropping the registry after any program within the contract: it panics
    exactly if a live component's destructor does.  No archetype is skipped;
    each drops its values column by column until the first destructor that
    panics, and gives its arrays back if none does.  Nothing undefined happens,
    and the blocks still live afterwards are those of the abandoned archetypes.
    (As in C34: when a second archetype panics, too, the real process aborts at
    that point; the model goes on, so the log holds up to there.) *)
Theorem C73_dropping : forall (Fm : family) c U place ops out R,
  universe (big c) U -> laid_out U -> within (big c) U ops book_empty -> brun c ops (breg_default place) = Ret out R ->
  let b := (ref_run (big c) U ops book_empty).2 in
  let log := run_log (big c) U ops book_empty [] in
  exists R', b_drop_registry R = (if existsb v_bomb (world_values (bk_world b)) then Panic R' else Ret tt R') /\
    ev_trace (m_env (br_mem R')) = (log.1 ++ abandon_log b log.2)%list /\
    map layout_of (map_to_list (m_blocks (br_mem R'))).*2 ≡ₚ lost b log.2.
Proof. intros Fm c U place ops out R HU Hla. exact (bytes_drop_bombs c U HU Hla place ops out R). Qed.
Print Assumptions C73_dropping.
(** Destroying an entity with such a component: its values are dropped by
    component id up to and including the first whose destructor panics, and the
    panic leaves through the call.  Every handle is what it was; every entity
    shows its own components, except that the entity and the last one of its
    archetype show each other's.  Dropping the registry then panics again, and
    drops the values once more, in the exchanged order. *)
Theorem C73_destroying : forall (Fm : family) c U place ops out R h C v,
  universe (big c) U -> laid_out U -> within (big c) U ops book_empty -> brun c ops (breg_default place) = Ret out R ->
  C ∈ U -> value_of (bk_world (ref_run (big c) U ops book_empty).2) h C = Some v -> v_bomb v = true ->
  let b := (ref_run (big c) U ops book_empty).2 in
  let log := run_log (big c) U ops book_empty [] in
  exists R' hl, bstep c (OpDestroy h) R = Panic R' /\ last_of b h hl /\
    ev_trace (m_env (br_mem R')) = (log.1 ++ map EvDrop (until_bomb (omap (value_of (bk_world b) h) U)))%list /\ br_er R' = br_er R /\
    (forall x C', C' ∈ U -> b_get c C' x R' = Rd (value_of (bk_world b) (swapped_with h hl x) C')) /\
    exists R'', b_drop_registry R' = Panic R'' /\
      ev_trace (m_env (br_mem R'')) = (ev_trace (m_env (br_mem R')) ++ abandon_log (exchange h hl b) log.2)%list /\
      map layout_of (map_to_list (m_blocks (br_mem R''))).*2 ≡ₚ lost (exchange h hl b) log.2.
Proof. intros Fm c U place ops out R h C v HU Hla. exact (bytes_destroy_bomb c U HU Hla place ops out R h C v). Qed.
Print Assumptions C73_destroying.

(** Three archetypes; the first and the last have a value whose destructor
    panics, the second gives its memory back. *)
Definition mined : list op :=
  [ OpCreate [wB; wA] [bomb wB 2; vl wA 1]; OpCreate [wA; wB] [vl wA 3; vl wB 4]; OpCreate [wC] [vl wC 5]; OpCreate [wA] [bomb wA 6] ].
Definition mined_book : book := (ref_run (big release) UW mined book_empty).2.
Definition mined_log := run_log (big release) UW mined book_empty [].
Definition mined_reg : breg := match brun release mined (breg_default somewhere) with Ret _ R => R | _ => breg_default somewhere end.
Definition panicked {A} (r : res breg A) : option (list event * list (N * N)) :=
  match r with Panic R => Some (ev_trace (m_env (br_mem R)), map layout_of (map_to_list (m_blocks (br_mem R))).*2) | _ => None end.
Definition after_panic {A} (r : res breg A) : breg := match r with Panic R => R | _ => breg_default somewhere end.
Example C73_example :
  universe (big release) UW /\ laid_out UW /\ within (big release) UW mined book_empty /\
  outputs_of (brun release mined (breg_default somewhere)) = Some [OutCreate (Ok 0); OutCreate (Ok 256); OutCreate (Ok 512); OutCreate (Ok 768)] /\
  existsb v_bomb (world_values (bk_world mined_book)) = true /\
  abandon_log mined_book mined_log.2 =
    [ EvDrop (vl wA 1); EvDrop (vl wA 3); EvDrop (bomb wB 2); EvDrop (vl wC 5); EvDealloc 2048 8; EvDealloc 512 4; EvDrop (bomb wA 6) ] /\
  lost mined_book mined_log.2 = [(512, 4); (128, 1); (1536, 4); (512, 4); (128, 1)] /\
  wB ∈ UW /\ value_of (bk_world mined_book) 0 wB = Some (bomb wB 2) /\ last_of mined_book 0 256 /\
  until_bomb (omap (value_of (bk_world mined_book) 0) UW) = [vl wA 1; bomb wB 2] /\
  abandon_log (exchange 0 256 mined_book) mined_log.2 =
    [ EvDrop (vl wA 3); EvDrop (vl wA 1); EvDrop (vl wB 4); EvDrop (bomb wB 2); EvDrop (vl wC 5); EvDealloc 2048 8; EvDealloc 512 4; EvDrop (bomb wA 6) ].
Proof.
  split; [apply UW_ok|]. split; [apply UW_laid_out|]. split; [apply withinb_ok; vm_compute; reflexivity|].
  split; [vm_compute; reflexivity|]. split; [vm_compute; reflexivity|]. split; [vm_compute; reflexivity|]. split; [vm_compute; reflexivity|].
  split; [apply (bool_decide_unpack _); vm_compute; reflexivity|]. split; [vm_compute; reflexivity|]. split.
  { assert (E : bk_sheets mined_book !! 0%nat = Some (Sheet (sh_id (nth 0 (bk_sheets mined_book) (Sheet 0 [] []))) [wA; wB] [0; 256])) by (vm_compute; reflexivity).
    eexists. split; [exact (elem_of_list_lookup_2 _ _ _ E)|]. split; [apply elem_of_list_here|reflexivity]. }
  split; vm_compute; reflexivity.
Qed.
(** The model, run on it. *)
Example C73_runs :
  panicked (b_drop_registry mined_reg) =
    Some ((mined_log.1 ++ abandon_log mined_book mined_log.2)%list, [(512, 4); (128, 1); (512, 4); (1536, 4); (128, 1)]) /\
  panicked (b_drop_registry (after_panic (bstep release (OpDestroy 0) mined_reg))) =
    Some ((mined_log.1 ++ [EvDrop (vl wA 1); EvDrop (bomb wB 2)] ++ abandon_log (exchange 0 256 mined_book) mined_log.2)%list,
          [(512, 4); (128, 1); (512, 4); (1536, 4); (128, 1)]) /\
  (fun C => b_get release C 0 (after_panic (bstep release (OpDestroy 0) mined_reg))) <$> [wA; wB] = [Rd (Some (vl wA 3)); Rd (Some (vl wB 4))].
Proof. split; [vm_compute; reflexivity|]. split; vm_compute; reflexivity. Qed.
