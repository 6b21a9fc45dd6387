(** * Which memory requests and destructor calls a program causes, in order (C55).

    On top of the reference implementation of SpecRef.v: every archetype has a
    capacity, and the log lists the requests to the allocator and the destructor
    calls.  No function of the model is used. *)
From Verif Require Export SpecRef.
Local Open Scope nat_scope.

(** Size and alignment of the elements of an archetype's arrays: the handles
    first, then one array per component type. *)
Definition elements (s : sheet) : list (N * N) := (4, 4)%N :: map (fun C => (ct_size C, ct_align C)) (sh_types s).
Definition bytes (size : N) (n : nat) : N := (size * N.of_nat n)%N.
(** Obtaining arrays for [n] entities; growing them to [m]; releasing them (the
    handles last). *)
Definition obtain (n : nat) (s : sheet) : list event := map (fun x => EvAlloc (bytes x.1 n) x.2) (elements s).
Definition grow_to (n m : nat) (s : sheet) : list event := map (fun x => EvRealloc (bytes x.1 n) x.2 (bytes x.1 m)) (elements s).
Definition free_arrays (n : nat) (s : sheet) : list event :=
  map (fun x => EvDealloc (bytes x.1 n) x.2) (tail (elements s) ++ take 1 (elements s)).
(** The values of one entity, by component id; those of one archetype, column by
    column. *)
Definition drop_one (U : list ctype) (w : world) (h : N) : list event := map EvDrop (omap (value_of w h) U).
Definition drop_all (w : world) (s : sheet) : list event :=
  concat (map (fun C => map EvDrop (omap (fun h => value_of w h C) (sh_ents s))) (sh_types s)).

(** An archetype doubles when it is full and receives an entity. *)
Definition outgrows (n : nat) (s s' : sheet) : bool := (length (sh_ents s) =? n) && (n <? length (sh_ents s')).
Fixpoint growths (caps : list nat) (old new : list sheet) : list event :=
  match caps, old, new with
  | n :: caps, s :: old, s' :: new => (if outgrows n s s' then grow_to n (2 * n) s else []) ++ growths caps old new
  | _, _, _ => []
  end.
(** New archetypes start at 128. *)
Fixpoint new_caps (caps : list nat) (old new : list sheet) : list nat :=
  match caps, old, new with
  | n :: caps, s :: old, s' :: new => (if outgrows n s s' then 2 * n else n) :: new_caps caps old new
  | _, _, _ => map (fun _ => 128) new
  end.

Section log.
  Context (be : bool) (U : list ctype).
  (** One call: only [destroy_entity] runs destructors; only new archetypes and
      full ones ask for memory; nothing is released. *)
  Definition call_log (b : book) (caps : list nat) (o : op) : list event * list nat :=
    let old := bk_sheets b in
    let new := bk_sheets (ref be U b o).2 in
    (match o with OpDestroy h => drop_one U (bk_world b) h | _ => [] end ++
     concat (map (obtain 128) (drop (length old) new)) ++ growths caps old new,
     new_caps caps old new).
  (** A program, from a given state on. *)
  Fixpoint run_log (ops : list op) (b : book) (caps : list nat) : list event * list nat :=
    match ops with
    | [] => ([], caps)
    | o :: ops' =>
        let (evs, caps1) := call_log b caps o in
        let (evs', caps2) := run_log ops' (ref be U b o).2 caps1 in
        (evs ++ evs', caps2)
    end.
  (** The most entities each archetype ever held. *)
  Fixpoint raise (peaks : list nat) (sheets : list sheet) : list nat :=
    match peaks, sheets with
    | p :: peaks, s :: sheets => Nat.max p (length (sh_ents s)) :: raise peaks sheets
    | _, _ => map (fun s => length (sh_ents s)) sheets
    end.
  Fixpoint run_peaks (ops : list op) (b : book) (peaks : list nat) : list nat :=
    match ops with
    | [] => peaks
    | o :: ops' => run_peaks ops' (ref be U b o).2 (raise peaks (bk_sheets (ref be U b o).2))
    end.
End log.
(** Dropping the registry: archetype after archetype, first the values, then
    the memory. *)
Definition final_log (b : book) (caps : list nat) : list event :=
  concat (zip_with (fun s n => drop_all (bk_world b) s ++ free_arrays n s) (bk_sheets b) caps).
(** The smallest 128, 256, 512, ... with room for [p] entities. *)
Definition fitting (p n : nat) : Prop :=
  exists k, N.of_nat n = (128 * 2 ^ k)%N /\ p <= n /\ (k = 0%N \/ n < 2 * p).
