(** Registry claims C23-C38 and C40: for every history of calls within the
    contract (see [history] and [contract] in SpecWorld.v).

    [alive], [shows], [same], [consists], [has_each], [iterates] and
    [rewrites] are in SpecObs.v and only say what [get_component] and the entity
    table return. *)
From Verif Require Import RegModel SpecTrace Refine Observe Instances SpecObs SpecBase SpecWorld.
Local Open Scope nat_scope.

(** ** C23: creating an entity *)
Theorem C23_create_entity : forall (Fm : family) c U r w I O G vs,
  universe (big c) U -> history c U r w I O -> contract (big c) U w (OpCreate G vs) ->
  exists res r', create_entity c G vs r = Ret res r' /\
    ((exists h, res = Ok h /\ creatable (big c) U (table_full r) (archetypes_full r) G vs /\
        ~ alive c r h /\ consists c U r' h G vs /\ others_same c U r r' h) \/
     (res = Err vs /\ ~ creatable (big c) U (table_full r) (archetypes_full r) G vs /\ all_same c U r r')).
Proof. intros Fm c U r w I O G vs HU Hh. exact (create_observed c U HU r w I O Hh G vs). Qed.
Print Assumptions C23_create_entity.
(** The hypotheses hold with entities already present, for a tuple given out of
    order, and the call succeeds. *)
Example C23_example :
  universe (big release) UABC /\
  history release UABC (demo_reg release) (demo_world release) (demo_in release) (demo_out release) /\
  contract (big release) UABC (demo_world release) (OpCreate [tC; tA] [vl tC 51; vl tA 50]) /\
  returns release (demo_ops ++ [OpCreate [tC; tA] [vl tC 51; vl tA 50]; OpGet tA 513; OpGet tC 513; OpGet tB 513; OpGet tA 0]) =
    Some [OutCreate (Ok 0%N); OutCreate (Ok 256%N); OutCreate (Ok 512%N); OutAdd (Ok tt); OutCreate (Ok 768%N); OutBool true;
          OutCreate (Ok 513%N); OutVal (Some (vl tA 50)); OutVal (Some (vl tC 51)); OutVal None; OutVal (Some (vl tA 11))].
Proof.
  split; [apply UABC_ok|]. split; [apply demo_history|]. split; [apply (contractb_ok release); vm_compute; reflexivity|].
  vm_compute. reflexivity.
Qed.

(** ** C24: destroying an entity *)
Theorem C24_destroy_entity : forall (Fm : family) c U r w I O h,
  universe (big c) U -> history c U r w I O -> (forall C v, C ∈ U -> shows c r h C (Some v) -> v_bomb v = false) ->
  exists b r', destroy_entity c h r = Ret b r' /\ (b = true <-> alive c r h) /\ ~ alive c r' h /\
    others_same c U r r' h /\ (b = false -> all_same c U r r').
Proof. intros Fm c U r w I O h HU Hh. exact (destroy_observed c U HU r w I O Hh h). Qed.
Print Assumptions C24_destroy_entity.
(** Destroying the first of two rows moves the second one; it keeps its values. *)
Example C24_example :
  history release UABC (demo_reg release) (demo_world release) (demo_in release) (demo_out release) /\
  (forall C v, C ∈ UABC -> shows release (demo_reg release) 0%N C (Some v) -> v_bomb v = false) /\
  returns release [OpCreate [tA; tB] [vl tA 1; vl tB 2]; OpCreate [tA; tB] [vl tA 3; vl tB 4]; OpDestroy 0; OpDestroy 0; OpGet tB 256; OpGet tA 0] =
    Some [OutCreate (Ok 0%N); OutCreate (Ok 256%N); OutBool true; OutBool false; OutVal (Some (vl tB 4)); OutVal None].
Proof.
  split; [apply demo_history|]. split; [|vm_compute; reflexivity].
  intros C v HC. apply elem_of_list_In in HC.
  assert (H : forallb (fun C => match get_component release C 0%N (demo_reg release) with Rd (Some v) => negb (v_bomb v) | _ => true end) UABC = true)
    by (vm_compute; reflexivity).
  rewrite forallb_forall in H. specialize (H C HC). unfold shows. intros E. rewrite E in H. exact (proj1 (negb_true_iff _) H).
Qed.

(** ** C25 (partial: the tuple type names exactly the entity's components;
    without that the claim is false, see [C25_exact_match_refuted]) *)
Theorem C25_remove_entity_partial : forall (Fm : family) c U r w I O G h,
  universe (big c) U -> history c U r w I O -> contract (big c) U w (OpRemoveEntity G h) ->
  exists res r', remove_entity c G h r = Ret res r' /\ ~ alive c r' h /\ others_same c U r r' h /\
    ((exists vs, res = Some vs /\ has_exactly c U r h G /\ Forall2 (fun C v => shows c r h C (Some v)) G vs) \/
     (res = None /\ ~ alive c r h /\ all_same c U r r')).
Proof. intros Fm c U r w I O G h HU Hh. exact (remove_entity_observed c U HU r w I O Hh G h). Qed.
Print Assumptions C25_remove_entity_partial.
Example C25_example :
  contract (big release) UABC (demo_world release) (OpRemoveEntity [tC; tA] 256) /\
  contract (big release) UABC (demo_world release) (OpRemoveEntity [tC; tA] 512) /\
  (exists s, step release (OpRemoveEntity [tC; tA] 256) (demo_reg release) = Ret (OutVals (Some [vl tC 21; vl tA 20])) s) /\
  (exists s, step release (OpRemoveEntity [tC; tA] 512) (demo_reg release) = Ret (OutVals None) s).
Proof.
  split; [apply (contractb_ok release); vm_compute; reflexivity|]. split; [apply (contractb_ok release); vm_compute; reflexivity|].
  split; eexists; vm_compute; reflexivity.
Qed.

(** ** C26, C27 (partial: tuples of 1 to 14 different component types; the
    claims are false for repeated types, see [C26_has_components_refuted]) *)
Theorem C26_presence_partial : forall (Fm : family) c U r w I O h,
  universe (big c) U -> history c U r w I O ->
  (forall C, C ∈ U -> exists v, shows c r h C v /\ has_component c C h r = Rd (bool_decide (is_Some v)) /\ (is_Some v -> alive c r h)) /\
  (forall G, in_U U G -> gvalid (big c) G -> exists b, has_components c G h r = Rd b /\ (b = true <-> has_each c r h G)).
Proof.
  intros Fm c U r w I O h HU Hh. split; [exact (fun C => get_observed c U HU r w I O Hh C h)|exact (fun G => has_all_observed c U HU r w I O Hh G h)].
Qed.
Print Assumptions C26_presence_partial.
(** What an entity shows is what the specification's map holds. *)
Theorem C26_shows_current : forall (Fm : family) c U r w I O h C,
  universe (big c) U -> history c U r w I O -> C ∈ U ->
  get_component c C h r = Rd (value_of w h C) /\ (alive c r h <-> is_Some (w !! h)).
Proof.
  intros Fm c U r w I O h C HU Hh HC. destruct (history_ok c U HU _ _ _ _ Hh) as (T&D&H&_).
  split; [by apply (obs_shows c U HU _ _ _ _ _ _ H HC)|exact (obs_alive c U _ _ _ _ H)].
Qed.
Print Assumptions C26_shows_current.
Theorem C27_get_components_partial : forall (Fm : family) c U r w I O G h,
  universe (big c) U -> history c U r w I O -> in_U U G -> gvalid (big c) G ->
  exists res, get_components c G h r = Rd res /\ (is_Some res <-> has_each c r h G) /\
    forall vs, res = Some vs -> Forall2 (fun C v => shows c r h C (Some v)) G vs.
Proof. intros Fm c U r w I O G h HU Hh. exact (get_all_observed c U HU r w I O Hh G h). Qed.
Print Assumptions C27_get_components_partial.
Example C26_C27_example :
  in_U UABC [tC; tA] /\ gvalid (big release) [tC; tA] /\
  has_components release [tC; tA] 256 (demo_reg release) = Rd true /\
  has_components release [tC; tA] 0 (demo_reg release) = Rd false /\
  get_components release [tC; tA] 768 (demo_reg release) = Rd (Some [vl tC 40; vl tA 42]) /\
  get_components release [tC; tA] 512 (demo_reg release) = Rd None.
Proof.
  split; [apply in_Ub_ok; vm_compute; reflexivity|]. split; [apply (gvalid_dec release); vm_compute; reflexivity|].
  repeat split; vm_compute; reflexivity.
Qed.

(** ** C28: writing through mutable references *)
Theorem C28_set_component : forall (Fm : family) c U r w I O C h v,
  universe (big c) U -> history c U r w I O -> contract (big c) U w (OpSet C h v) ->
  exists res, get_component_mut c C h r = Rd res /\
    match res with
    | None => shows c r h C None
    | Some l => exists old r', replace_loc l v r = Ret old r' /\ shows c r h C (Some old) /\ shows c r' h C (Some v) /\
        (alive c r' h <-> alive c r h) /\ (forall C' v', C' ∈ U -> C' <> C -> shows c r' h C' v' <-> shows c r h C' v') /\
        others_same c U r r' h
    end.
Proof. intros Fm c U r w I O C h v HU Hh. exact (set_observed c U HU r w I O Hh C h v). Qed.
Print Assumptions C28_set_component.
Theorem C28_set_components : forall (Fm : family) c U r w I O G h vs,
  universe (big c) U -> history c U r w I O -> contract (big c) U w (OpSetAll G h vs) ->
  exists res, get_components_mut c G h r = Rd res /\
    match res with
    | None => ~ has_each c r h G
    | Some ls => exists olds r', replace_locs ls vs r = Ret olds r' /\
        Forall2 (fun C v => shows c r h C (Some v)) G olds /\ Forall2 (fun C v => shows c r' h C (Some v)) G vs /\
        (alive c r' h <-> alive c r h) /\ (forall C' v', C' ∈ U -> C' ∉ G -> shows c r' h C' v' <-> shows c r h C' v') /\
        others_same c U r r' h
    end.
Proof. intros Fm c U r w I O G h vs HU Hh. exact (set_all_observed c U HU r w I O Hh G h vs). Qed.
Print Assumptions C28_set_components.
(** The references of one call are pairwise different cells. *)
Theorem C28_distinct_references : forall (Fm : family) c U r w I O G h,
  universe (big c) U -> history c U r w I O -> in_U U G -> gvalid (big c) G ->
  exists res, get_components_mut c G h r = Rd res /\ forall ls, res = Some ls -> NoDup ls.
Proof. intros Fm c U r w I O G h HU Hh. exact (get_all_mut_distinct c U HU r w I O Hh G h). Qed.
Print Assumptions C28_distinct_references.
Example C28_example :
  contract (big release) UABC (demo_world release) (OpSet tB 768 (vl tB 99)) /\
  contract (big release) UABC (demo_world release) (OpSetAll [tC; tA] 768 [vl tC 97; vl tA 98]) /\
  returns release (demo_ops ++ [OpSet tB 768 (vl tB 99); OpSetAll [tC; tA] 768 [vl tC 97; vl tA 98]; OpGetAll [tA; tB; tC] 768; OpGetAll [tA; tB] 0]) =
    Some [OutCreate (Ok 0%N); OutCreate (Ok 256%N); OutCreate (Ok 512%N); OutAdd (Ok tt); OutCreate (Ok 768%N); OutBool true;
          OutVal (Some (vl tB 41)); OutVals (Some [vl tC 40; vl tA 42]); OutVals (Some [vl tA 98; vl tB 99; vl tC 97]); OutVals (Some [vl tA 11; vl tB 10])].
Proof.
  split; [apply (contractb_ok release); vm_compute; reflexivity|]. split; [apply (contractb_ok release); vm_compute; reflexivity|].
  vm_compute. reflexivity.
Qed.

(** ** C29, C30: adding and removing a component (partial: the contract leaves
    out adding to 13 and removing from 14 components, which panic, see
    [C29_add_fourteenth_refuted] and [C30_remove_from_fourteen_refuted]) *)
Theorem C29_add_component_partial : forall (Fm : family) c U r w I O C h v,
  universe (big c) U -> history c U r w I O -> contract (big c) U w (OpAdd C h v) ->
  exists res r', add_component c C h v r = Ret res r' /\
    ((res = Ok tt /\ addable (big c) U (archetypes_full r) w h C v /\ shows c r h C None /\ alive c r h /\ alive c r' h /\ shows c r' h C (Some v) /\
        (forall C' v', C' ∈ U -> C' <> C -> shows c r' h C' v' <-> shows c r h C' v') /\ others_same c U r r' h) \/
     (res = Err v /\ ~ addable (big c) U (archetypes_full r) w h C v /\ all_same c U r r')).
Proof. intros Fm c U r w I O C h v HU Hh. exact (add_observed c U HU r w I O Hh C h v). Qed.
Print Assumptions C29_add_component_partial.
Theorem C30_remove_component_partial : forall (Fm : family) c U r w I O C h,
  universe (big c) U -> history c U r w I O -> contract (big c) U w (OpRemove C h) ->
  exists res r', remove_component c C h r = Ret res r' /\
    ((exists v, res = Ok v /\ removable (big c) U (archetypes_full r) w h C v /\ shows c r h C (Some v) /\ alive c r h /\ alive c r' h /\ shows c r' h C None /\
        (forall C' v', C' ∈ U -> C' <> C -> shows c r' h C' v' <-> shows c r h C' v') /\ others_same c U r r' h) \/
     (res = Err tt /\ (forall v, ~ removable (big c) U (archetypes_full r) w h C v) /\ all_same c U r r')).
Proof. intros Fm c U r w I O C h HU Hh. exact (remove_observed c U HU r w I O Hh C h). Qed.
Print Assumptions C30_remove_component_partial.
Example C29_C30_example :
  contract (big release) UABC (demo_world release) (OpAdd tC 0 (vl tC 60)) /\
  contract (big release) UABC (demo_world release) (OpRemove tB 768) /\
  returns release (demo_ops ++ [OpAdd tC 0 (vl tC 60); OpAdd tC 0 (vl tC 61); OpRemove tB 768; OpRemove tB 768; OpGetAll [tC; tB; tA] 0; OpGet tA 768]) =
    Some [OutCreate (Ok 0%N); OutCreate (Ok 256%N); OutCreate (Ok 512%N); OutAdd (Ok tt); OutCreate (Ok 768%N); OutBool true;
          OutAdd (Ok tt); OutAdd (Err (vl tC 61)); OutRemove (Ok (vl tB 41)); OutRemove (Err tt);
          OutVals (Some [vl tC 60; vl tB 10; vl tA 11]); OutVal (Some (vl tA 42))].
Proof.
  split; [apply (contractb_ok release); vm_compute; reflexivity|]. split; [apply (contractb_ok release); vm_compute; reflexivity|].
  vm_compute. reflexivity.
Qed.

(** ** C31: the registry behaves like a map *)
(** Whatever happened before, a call within the contract returns, its result is
    one the map allows, and the map moves on as specified. *)
Theorem C31_registry_is_a_map : forall (Fm : family) c U r w I O o,
  universe (big c) U -> history c U r w I O -> contract (big c) U w o ->
  exists out r', step c o r = Ret out r' /\ allowed (big c) U (table_full r) (archetypes_full r) w o out /\
    history c U r' (ledger (big c) U w o out) (I ++ ins o out) (O ++ outs o out).
Proof. intros Fm c U r w I O o HU Hh Hc. exact (history_step c U HU r w I O o Hh Hc). Qed.
Print Assumptions C31_registry_is_a_map.
(** ** C32: no undefined behaviour, no panic *)
Theorem C32_programs_return : forall (Fm : family) c U ops,
  universe (big c) U ->
  (forall ops1 o ops2 outs r w I O, ops = ops1 ++ o :: ops2 -> run c ops1 reg_default = Ret outs r ->
     history c U r w I O -> contract (big c) U w o) ->
  exists outs r w I O, run c ops reg_default = Ret outs r /\ history c U r w I O.
Proof. intros Fm c U ops HU. exact (run_safe c U HU ops). Qed.
Print Assumptions C32_programs_return.
Theorem C32_no_ub_no_panic : forall (Fm : family) c U r w I O o,
  universe (big c) U -> history c U r w I O -> contract (big c) U w o ->
  step c o r <> UB /\ (forall r', step c o r <> Panic r') /\
  (all_calm w -> drop_registry r <> UB /\ (forall r', drop_registry r <> Panic r')).
Proof.
  intros Fm c U r w I O o HU Hh Hc. destruct (history_step c U HU r w I O o Hh Hc) as (out&r'&->&_).
  split; [done|]. split; [done|]. intros Hcalm. destruct (history_drop c U HU r w I O Hh Hcalm) as (r2&->&_). done.
Qed.
Print Assumptions C32_no_ub_no_panic.
Example C31_C32_example :
  universe (big release) UABC /\
  history release UABC (demo_reg release) (demo_world release) (demo_in release) (demo_out release) /\
  (exists e, demo_world release !! 256%N = Some e /\ en_vals e !! 3%N = Some (vl tC 21)) /\ size (demo_world release) = 3 /\
  contract (big release) UABC (demo_world release) (OpAdd tC 0 (vl tC 60)).
Proof.
  split; [apply UABC_ok|]. split; [apply demo_history|]. split; [|split; [vm_compute; reflexivity|apply (contractb_ok release); vm_compute; reflexivity]].
  destruct (demo_world release !! 256%N) as [e|] eqn:E; [|exfalso; revert E; vm_compute; discriminate]. exists e. split; [done|].
  assert (H : (demo_world release !! 256%N ≫= fun e => en_vals e !! 3%N) = Some (vl tC 21)) by (vm_compute; reflexivity).
  by rewrite E in H.
Qed.

(** ** C33: every component is dropped or handed back exactly once *)
Theorem C33_ownership : forall (Fm : family) c U r w I O,
  universe (big c) U -> history c U r w I O -> I ≡ₚ O ++ drops_of (ev_trace (r_env r)) ++ world_values w.
Proof. intros Fm c U r w I O HU. exact (history_owned c U HU r w I O). Qed.
Print Assumptions C33_ownership.
(** ** C34: dropping the registry releases everything *)
Theorem C34_drop_registry : forall (Fm : family) c U r w I O,
  universe (big c) U -> history c U r w I O -> all_calm w ->
  exists r', drop_registry r = Ret tt r' /\ I ≡ₚ O ++ drops_of (ev_trace (r_env r')) /\
    allocs_of (ev_trace (r_env r')) ≡ₚ frees_of (ev_trace (r_env r')).
Proof. intros Fm c U r w I O HU. exact (history_drop c U HU r w I O). Qed.
Print Assumptions C34_drop_registry.
Example C33_C34_example :
  history release UABC (demo_reg release) (demo_world release) (demo_in release) (demo_out release) /\
  length (demo_in release) = 9 /\ drops_of (ev_trace (r_env (demo_reg release))) = [vl tA 30; vl tB 31] /\
  length (world_values (demo_world release)) = 7 /\ all_calm (demo_world release).
Proof. split; [apply demo_history|]. do 3 (split; [vm_compute; reflexivity|]). apply all_calm_dec. vm_compute. reflexivity. Qed.

(** ** C35, C36: read-only iteration *)
Theorem C35_matching_iteration : forall (Fm : family) c U r w I O G,
  universe (big c) U -> history c U r w I O -> in_U U G -> gvalid (big c) G ->
  exists items, iter_entity_components_matching c G r = Rd (Some items) /\ iter_components_matching c G r = Rd (Some (map snd items)) /\
    iterates c r (fun h => has_each c r h G) G items.
Proof. intros Fm c U r w I O G HU Hh. exact (iter_observed c U HU r w I O Hh G). Qed.
Print Assumptions C35_matching_iteration.
(** [desc_of U e] is the descriptor of the entity's archetype. *)
Theorem C36_filtered_iteration : forall (Fm : family) c U r w I O G f,
  universe (big c) U -> history c U r w I O -> in_U U G -> gvalid (big c) G -> respects f ->
  exists items, iter_filtered_entity_components_matching c G f r = Rd (Some items) /\
    iter_filtered_components_matching c G f r = Rd (Some (map snd items)) /\
    iterates c r (fun h => has_each c r h G /\ exists e, w !! h = Some e /\ f (desc_of U e) = true) G items.
Proof. intros Fm c U r w I O G f HU Hh. exact (filter_observed c U HU r w I O Hh G f). Qed.
Print Assumptions C36_filtered_iteration.
(** A closure that looks at the number of components. *)
Definition of_two (d : adesc) : bool := (ad_len d =? 2).
Lemma of_two_respects : respects of_two.
Proof. intros d d' _ E _. unfold of_two. by rewrite E. Qed.
Example C35_C36_example :
  in_U UABC [tC; tA] /\ gvalid (big release) [tC; tA] /\ respects of_two /\
  iter_entity_components_matching release [tC; tA] (demo_reg release) =
    Rd (Some [([256%N], [[vl tC 21]; [vl tA 20]]); ([768%N], [[vl tC 40]; [vl tA 42]])]) /\
  iter_filtered_entity_components_matching release [tC; tA] of_two (demo_reg release) = Rd (Some [([256%N], [[vl tC 21]; [vl tA 20]])]).
Proof.
  split; [apply in_Ub_ok; vm_compute; reflexivity|]. split; [apply (gvalid_dec release); vm_compute; reflexivity|].
  split; [apply of_two_respects|]. repeat split; vm_compute; reflexivity.
Qed.

(** ** C37: mutable iteration *)
Theorem C37_matching_mut : forall (Fm : family) c U r w I O G upd,
  universe (big c) U -> history c U r w I O -> in_U U G -> gvalid (big c) G -> keeps_types G upd ->
  exists items, iter_entity_components_matching_mut c G r = Rd (Some items) /\ iter_components_matching_mut c G r = Rd (Some (map snd items)) /\
    NoDup (concat (concat (map snd items))) /\
    exists olds r', modify_items upd (map snd items) r = Ret (map snd olds) r' /\
      modify_eitems upd items r = Ret olds r' /\ map fst olds = map fst items /\
      iterates c r (fun h => has_each c r h G) G olds /\ rewrites c U r r' (fun h => has_each c r h G) G upd.
Proof. intros Fm c U r w I O G upd HU Hh. exact (iter_mut_observed c U HU r w I O Hh G upd). Qed.
Print Assumptions C37_matching_mut.
Theorem C37_filtered_mut : forall (Fm : family) c U r w I O G f upd,
  universe (big c) U -> history c U r w I O -> in_U U G -> gvalid (big c) G -> respects f -> keeps_types G upd ->
  let P := fun h => has_each c r h G /\ exists e, w !! h = Some e /\ f (desc_of U e) = true in
  exists items, iter_filtered_entity_components_matching_mut c G f r = Rd (Some items) /\
    iter_filtered_components_matching_mut c G f r = Rd (Some (map snd items)) /\
    NoDup (concat (concat (map snd items))) /\
    exists olds r', modify_items upd (map snd items) r = Ret (map snd olds) r' /\
      modify_eitems upd items r = Ret olds r' /\ map fst olds = map fst items /\ iterates c r P G olds /\ rewrites c U r r' P G upd.
Proof. intros Fm c U r w I O G f upd HU Hh. exact (filter_mut_observed c U HU r w I O Hh G f upd). Qed.
Print Assumptions C37_filtered_mut.
Definition next_tok (_ : nat) (v : value) : value := Value (v_ty v) (v_tok v + 1) (v_bomb v).
Lemma next_tok_keeps G : keeps_types G next_tok.
Proof. intros i C v _ H. exact H. Qed.
Example C37_example :
  in_U UABC [tC; tA] /\ gvalid (big release) [tC; tA] /\ keeps_types [tC; tA] next_tok /\
  (exists s, run release [OpIterMut [tC; tA] next_tok; OpGetAll [tC; tB; tA] 768; OpGetAll [tA; tC] 256; OpGet tA 0] (demo_reg release) =
    Ret [OutCols [[[vl tC 21]; [vl tA 20]]; [[vl tC 40]; [vl tA 42]]];
         OutVals (Some [vl tC 41; vl tB 41; vl tA 43]); OutVals (Some [vl tA 21; vl tC 22]); OutVal (Some (vl tA 11))] s).
Proof.
  split; [apply in_Ub_ok; vm_compute; reflexivity|]. split; [apply (gvalid_dec release); vm_compute; reflexivity|].
  split; [apply next_tok_keeps|]. eexists. vm_compute. reflexivity.
Qed.

(** ** C38 (partial: exact iteration visits only entities with exactly those
    components, but of these only the ones stored in the archetype of the tuple
    type; see [C38_exact_iteration_refuted]) *)
Theorem C38_exact_iteration_partial : forall (Fm : family) c U r w I O G,
  universe (big c) U -> history c U r w I O -> in_U U G -> gvalid (big c) G -> known (big c) U G ->
  let P := fun h => has_exactly c U r h G /\ exists e, w !! h = Some e /\ en_aid e = tuple_archetype_id (big c) (ids_of (types U (en_vals e))) in
  exists it, iter_entity_components_exact c G r = Rd it /\ iter_components_exact c G r = Rd it.2 /\ iterates c r P G [it].
Proof. intros Fm c U r w I O G HU Hh. exact (exact_observed c U HU r w I O Hh G). Qed.
Print Assumptions C38_exact_iteration_partial.
Theorem C38_exact_mut_partial : forall (Fm : family) c U r w I O G upd,
  universe (big c) U -> history c U r w I O -> in_U U G -> gvalid (big c) G -> known (big c) U G -> keeps_types G upd ->
  let P := fun h => has_exactly c U r h G /\ exists e, w !! h = Some e /\ en_aid e = tuple_archetype_id (big c) (ids_of (types U (en_vals e))) in
  exists it, iter_entity_components_exact_mut c G r = Rd it /\ iter_components_exact_mut c G r = Rd it.2 /\
    NoDup (concat it.2) /\ exists cols r', modify_items upd [it.2] r = Ret [cols] r' /\ iterates c r P G [(it.1, cols)] /\ rewrites c U r r' P G upd.
Proof. intros Fm c U r w I O G upd HU Hh. exact (exact_mut_observed c U HU r w I O Hh G upd). Qed.
Print Assumptions C38_exact_mut_partial.
Example C38_example :
  in_U UABC [tB; tA] /\ gvalid (big release) [tB; tA] /\ known (big release) UABC [tB; tA] /\
  iter_entity_components_exact release [tB; tA] (demo_reg release) = Rd ([0%N], [[vl tB 10]; [vl tA 11]]) /\
  iter_entity_components_exact release [tB; tC; tA] (demo_reg release) = Rd ([768%N], [[vl tB 41]; [vl tC 40]; [vl tA 42]]).
Proof.
  split; [apply in_Ub_ok; vm_compute; reflexivity|]. split; [apply (gvalid_dec release); vm_compute; reflexivity|].
  split; [done|]. split; vm_compute; reflexivity.
Qed.

(** ** C40: failed calls change nothing *)
Theorem C40_failed_calls : forall (Fm : family) c U r w I O o,
  universe (big c) U -> history c U r w I O -> contract (big c) U w o ->
  exists out r', step c o r = Ret out r' /\ (failed out -> all_same c U r r').
Proof. intros Fm c U r w I O o HU Hh. exact (failed_observed c U HU r w I O Hh o). Qed.
Print Assumptions C40_failed_calls.
Example C40_example :
  Forall (fun o => contract (big release) UABC (demo_world release) o /\
    exists out s, step release o (demo_reg release) = Ret out s /\ failed out)
    [OpCreate [tA; tA] [vl tA 1; vl tA 2]; OpDestroy 512; OpRemoveEntity [tA] 512; OpSet tC 0 (vl tC 1);
     OpAdd tA 0 (vl tA 1); OpRemove tC 0; OpHas tC 0; OpGetAll [tA; tC] 0].
Proof.
  repeat (apply Forall_cons; split; [split; [apply (contractb_ok release); vm_compute; reflexivity|do 2 eexists; split; [vm_compute; reflexivity|exact Logic.I]]|]).
  apply Forall_nil_2.
Qed.
