(** * C60: an archetype registry on its own is a list of tables with keys

    [ArchetypeRegistry] is public (lib.rs:6).  SpecAreg.v describes it as a list of
    tables, each with an archetype id and its component types; tables are found by
    id and number of components. *)
From Verif Require Import AregClient Instances Aregs SpecBase SpecWorld SpecRows SpecAreg.
Local Open Scope nat_scope.

(** Every program that uses the archetypes as documented, in debug and release
    builds: lookups, creation, deriving archetypes, indexing, all eight iterators
    and the methods of the archetypes return what the list of tables says (and
    panic where it says so), with its memory requests and destructor calls.  No
    two tables have the same key.  Nothing is assumed about collisions of ids.
    Dropping the registry drops every value once, table by table. *)
Theorem C60_every_program : forall c ops, all_gproper (dbg c) (big c) ops [] ->
  let '(outs, l, evs) := gcalls (dbg c) (big c) ops [] in
  exists r, grun c ops reg_default = Some (outs, r) /\ ev_trace (r_env r) = evs /\ r_er r = er_default /\
    Forall2 (fun a s => ad_id (a_desc a) = sf_id s /\ ad_components (a_desc a) = map cdesc_of (sf_types s) /\
                        a_len a = length (tb_rows (sf_table s)) /\ a_cap a = tb_cap (sf_table s)) (ar_archs (r_ar r)) l /\
    NoDup (map (fun s => (sf_id s, length (sf_types s))) l) /\
    (Forall (fun s => Forall (fun x : N * gmap N value => calm x.2) (tb_rows (sf_table s))) l ->
     exists r', drop_registry r = Ret tt r' /\ ev_trace (r_env r') = evs ++ drop_shelves l).
Proof. exact registry_of_archetypes. Qed.
Print Assumptions C60_every_program.

(** Two archetypes are made, one is derived by adding a component and filled, one
    is derived by removing one; rows are read and written through iterators, with
    and without a closure and handles; tuple types with a repeated component are
    refused; indices out of range panic. *)
Definition gA := CType 1 1 1 1. Definition gB := CType 2 2 12 4. Definition gC := CType 3 3 16 8.
Definition two_or_less (d : adesc) : bool := ad_len d <=? 2.
Definition errands : list gop :=
  [ GFind [gB; gA] []; GMake [gB; gA] [APush [gB; gA] 5 [vl gB 1; vl gA 2]; APush [gA; gB] 6 [vl gA 3; vl gB 4]; ALen];
    GMake [gC] [APush [gC] 7 [vl gC 5]]; GMake [gA; gA] []; GFind [gA; gB] [AEntities; ASlices Exact [gB; gA]];
    GAdding 0 gC [(false, AGetAll [gB; gA] 1); (true, ACapacity); (true, ALen)];
    GAdding 1 gC []; GAdding 3 gA []; GAdding 9 gA [];
    GRemoving 0 gB [(true, ALen); (false, AToLast 0)]; GRemoving 1 gC [];
    GMake [gA] [APush [gA] 8 [vl gA 6]]; GIter true None [gA]; GIter false (Some two_or_less) [gC];
    GStore true None [gA] [[[]]; [[vl gA 7]]; [[vl gA 8; vl gA 9]]; [[]]];
    GStore false (Some two_or_less) [gC] [[[vl gC 10]]]; GStore false None [gB; gB] [];
    GIndex 0 [ASlices With_handles [gA; gB]; ASwapDrop 0; AEntities]; GIndex 9 [ALen]; GUnchecked 1 [ARead gC 0];
    GIter false None [gB; gB]; GIter false None [gB; gA] ].
Definition g_log (c : cfg) (ops : list gop) : option (list (option gout) * list event) :=
  match grun c ops reg_default with
  | Some (xs, r) => match drop_registry r with Ret _ r' => Some (xs, ev_trace (r_env r')) | _ => None end
  | None => None
  end.
Example C60_example :
  all_gproper (dbg release) (big release) errands [] /\ all_gproper (dbg debug) (big debug) errands [] /\
  (let '(outs, l, evs) := gcalls (dbg release) (big release) errands [] in g_log release errands = Some (outs, evs ++ drop_shelves l)) /\
  (let '(outs, l, evs) := gcalls (dbg debug) (big debug) errands [] in g_log debug errands = Some (outs, evs ++ drop_shelves l)) /\
  (gcalls (dbg debug) (big debug) errands []).1.1 =
    [ Some GoNone; Some (GoMade 0 [AoNat 0; AoNat 1; AoNat 2]); Some (GoMade 1 [AoNat 0]); Some GoNone;
      Some (GoRan [AoHandles [5%N; 6%N]; AoCols [] [[vl gB 1; vl gB 4]; [vl gA 2; vl gA 3]]]);
      Some (GoPair 2 [AoVals [vl gB 4; vl gA 3]; AoNat 128; AoNat 0]);
      Some GoNone; None; Some GoNone; Some (GoPair 3 [AoNat 0; AoBool true]); Some GoNone; Some (GoMade 4 [AoNat 0]);
      Some (GoItems [([], [[]]); ([8%N], [[vl gA 6]]); ([6%N; 5%N], [[vl gA 3; vl gA 2]]); ([], [[]])]);
      Some (GoItems [([], [[vl gC 5]])]);
      Some (GoItems [([], [[]]); ([8%N], [[vl gA 6]]); ([6%N; 5%N], [[vl gA 3; vl gA 2]]); ([], [[]])]);
      Some (GoItems [([], [[vl gC 5]])]); None;
      Some (GoRan [AoCols [6%N; 5%N] [[vl gA 8; vl gA 9]; [vl gB 4; vl gB 1]]; AoBool true; AoHandles [5%N]]); None;
      Some (GoRan [AoVal (vl gC 10)]); None; Some (GoItems [([], [[vl gB 1]; [vl gA 9]]); ([], [[]; []])]) ].
Proof.
  assert (Hc : Forall closure_ok errands).
  { repeat constructor. all: intros d d' _ E _; unfold two_or_less; by rewrite E. }
  split; [apply all_gproperb_ok; [exact Hc|vm_compute; reflexivity]|].
  split; [apply all_gproperb_ok; [exact Hc|vm_compute; reflexivity]|].
  split; [vm_compute; reflexivity|]. split; vm_compute; reflexivity.
Qed.

(** The two references that deriving an archetype returns can be exchanged by
    safe code ([mem::swap]).  The lookup lists then lead to the wrong archetypes:
    an iteration no longer finds the entity it found before, and asking for the
    archetype of two components gives the one of one component. *)
Theorem C60_swap_refuted : exists c ops G x, all_gproper (dbg c) (big c) ops [] /\
  match grun c ops reg_default with
  | Some (xs, r) =>
      last xs = Some (Some (GoPair 1 [])) /\
      iter_items c true None G r = Rd (Some [x]) /\ iter_items c true None G (swap_archs 0 1 r) = Rd (Some []) /\
      find_archetype (desc_of_tuple c G) (r_ar (swap_archs 0 1 r)) = Rd (Some 0) /\
      (fun a => ad_len (a_desc a)) <$> ar_archs (r_ar (swap_archs 0 1 r)) !! 0 = Some 1 /\ length G = 2
  | None => False
  end.
Proof.
  exists release, [GMake [gA; gB] [APush [gA; gB] 5 [vl gA 1; vl gB 2]]; GRemoving 0 gB []], [gB; gA], ([5%N], [[vl gB 2]; [vl gA 1]]).
  split; [apply all_gproperb_ok; [repeat constructor|vm_compute; reflexivity]|]. vm_compute. repeat split; reflexivity.
Qed.
Print Assumptions C60_swap_refuted.
