(** Property C69: descriptors used directly. *)
From Verif Require Import DescrProofs DescrApi SpecDescr.
Local Open Scope nat_scope.

Definition Tc (i : N) : ctype := CType i i 4 4.
Definition Td (i : N) : cdesc := cdesc_of (Tc i).

(** C69, programs: any sequence of calls on archetype descriptors gives the
    answers that finite sets of components give, panics included. *)
Theorem C69_programs : forall be os,
  Forall call_ok os -> drun be [] os = set_run be [] os.
Proof. exact descr_programs. Qed.
Print Assumptions C69_programs.
Definition C69_calls : list dcall :=
  [DGroup [Td 9; Td 3; Td 5]; DAdd 0 (Td 4); DAddFrom 1 (Tc 7); DRemove 2 3; DComponents 3; DContains 0 3; DContains 2 3;
   DRemove 2 1; DAdd 2 (Td 7); DLen 2; DExcludes 0 1; DInvalid; DAdd 4 (Td 8); DId 5; DValid 5; DInto (Td 8);
   DExcludes 6 0; DNew 77 2 (Td 1 :: Td 2 :: replicate 12 cd_INVALID); DHas 7 (Tc 2); DHas 7 (Tc 3);
   DGroup (map (fun n => Td (N.of_nat n)) (seq 1 13)); DAdd 8 (Td 50); DAdd 8 (Td 5); DLen 8].
Example C69_programs_example :
  Forall call_ok C69_calls /\
  drun false [] C69_calls =
    [AMade; AMade; AMade; AMade; AList [Td 4; Td 5; Td 7; Td 9]; ABool false; ABool true;
     ANone; ANone; ALen 5; ABool false; AMade; AMade; AId 8; ABool true; AMade;
     ABool true; AMade; ABool true; ABool false;
     AMade; APanic; ANone; ALen 13].
Proof.
  split; [|by vm_compute].
  unfold C69_calls. repeat (apply Forall_cons; split; [try exact I|]); [| |by apply Forall_nil].
  - reflexivity.
  - split; [done|]. split; [lia|]. cbn. repeat constructor.
Qed.

(** C69, [as_unsorted]: the sorted components are looked up through the mapping
    from sorted to tuple order, so the mapping is applied twice. *)
Theorem C69_as_unsorted : forall be (G : list ctype), let g := group_desc be G in
  gd_is_valid g = true ->
  (forall k, k < length G -> exists c,
     G !! gd_sorted_to_unsorted g (gd_sorted_to_unsorted g k) = Some c /\ gd_as_unsorted g k = Rd (cdesc_of c)) /\
  (forall k, length G <= k < 14 -> exists c,
     G !! gd_sorted_to_unsorted g 0 = Some c /\ gd_as_unsorted g k = Rd (cdesc_of c)) /\
  (forall k, 14 <= k -> gd_as_unsorted g k = RdPanic).
Proof. exact as_unsorted_spec. Qed.
Print Assumptions C69_as_unsorted.
(** It gives the [k]-th component of the tuple exactly for tuples whose sorting
    permutation is its own inverse, and the [k]-th of the sorted components
    exactly for sorted tuples. *)
Theorem C69_as_unsorted_exact : forall be (G : list ctype), let g := group_desc be G in
  gd_is_valid g = true ->
  ((forall k c, G !! k = Some c -> gd_as_unsorted g k = Rd (cdesc_of c)) <->
   (forall i, i < length G -> gd_unsorted_to_sorted g (gd_unsorted_to_sorted g i) = i)) /\
  ((forall k d, ad_components (gd_arch g) !! k = Some d -> gd_as_unsorted g k = Rd d) <->
   strict (ids_of G)).
Proof. exact as_unsorted_exact. Qed.
Print Assumptions C69_as_unsorted_exact.
Example C69_as_unsorted_example :
  let g := group_desc false [Tc 20; Tc 30; Tc 10] in
  gd_is_valid g = true /\ map (gd_as_unsorted g) [0; 1; 2; 3; 13; 14]
    = [Rd (Td 30); Rd (Td 10); Rd (Td 20); Rd (Td 10); Rd (Td 10); RdPanic].
Proof. by vm_compute. Qed.
(** Full claim: [as_unsorted(k)] is the [k]-th component of the tuple (or, read
    differently, the [k]-th in sorted order).  False for the tuple (B, C, A). *)
Theorem C69_as_unsorted_refuted :
  exists be (G : list ctype) k c, gd_is_valid (group_desc be G) = true /\ G !! k = Some c /\
    gd_as_unsorted (group_desc be G) k <> Rd (cdesc_of c) /\
    (forall d, ad_components (gd_arch (group_desc be G)) !! k = Some d -> gd_as_unsorted (group_desc be G) k <> Rd d).
Proof. exact as_unsorted_refuted. Qed.
Print Assumptions C69_as_unsorted_refuted.

(** C69, [is_valid]: full claim (archetype_descriptor.rs:25-27): a descriptor that
    [is_valid] accepts has 1..14 components, without duplicates.  False for what
    [ArchetypeDescriptor::new] accepts: duplicates, components in the wrong
    order (which membership then misses), lengths past the array. *)
Theorem C69_new_refuted :
  (exists id len comps, length comps = 14 /\ ad_is_valid (ad_new id len comps) = true /\
     ~ NoDup (ids (ad_components (ad_new id len comps)))) /\
  (exists id len comps c, length comps = 14 /\ ad_is_valid (ad_new id len comps) = true /\
     NoDup (ids (ad_components (ad_new id len comps))) /\
     cdesc_of c ∈ ad_components (ad_new id len comps) /\ ad_has_component (ad_new id len comps) c = false) /\
  (exists id len comps, length comps = 14 /\ ad_is_valid (ad_new id len comps) = true /\ 14 < ad_len (ad_new id len comps)).
Proof. exact new_refuted. Qed.
Print Assumptions C69_new_refuted.
