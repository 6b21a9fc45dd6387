(** * Several registries in one program, down to bytes

    ByteReg.v follows one registry that has the heap to itself.  Here a program
    owns any number of registries; all of them take their memory from one
    allocator.  A registry is a plain Rust value without shared state
    (src/registry/registry.rs:10-14, src/entity_registry/mod.rs:15-18,
    src/archetype_registry/mod.rs:40-44), so the only thing registries have in
    common is that heap.

    Simplified: a registry is named by the position of the variable that holds
    it; using a variable that holds none (it was dropped) does not compile in
    Rust and is [UB] here. *)
From Verif Require Export ByteReg.
Local Open Scope nat_scope.

(** src/registry/registry.rs:10-14 without the heap its pointers point into. *)
Record hollow := Hollow { hw_er : er; hw_maps : list (list akey); hw_archs : list barch }.
(** The variables of the program, and the heap. *)
Record multi := Multi { mu_regs : list (option hollow); mu_mem : mem }.
(** A program without registries; [place] are the allocator's choices. *)
Definition multi_default (place : N -> N) : multi := Multi [] (Mem ∅ 0 place env_init).
(** src/registry/registry.rs:10 (`Default`): nothing is allocated. *)
Definition hollow_default : hollow := Hollow er_default (replicate MAX_COMPONENTS_PER_ENTITY []) [].
Definition filled (h : hollow) (m : mem) : breg := BReg (hw_er h) (hw_maps h) (hw_archs h) m.
Definition emptied (R : breg) : hollow := Hollow (br_er R) (br_maps R) (br_archs R).

(** What the program does: a new registry in a new variable; any call of the
    API (src/registry/registry.rs:16-524) on the [k]th; dropping the [k]th
    (src/archetype/mod.rs:78-89); [core::mem::swap] of two of them. *)
Inductive mcall :=
| MNew
| MCall (k : nat) (o : op)
| MDrop (k : nat)
| MSwap (i j : nat).

Definition MM (A : Type) := M multi A.
(** [f] on the registry in variable [k]; the variable holds none afterwards
    unless [keep]. *)
Definition mu_with {A} (k : nat) (keep : bool) (f : BRM A) : MM A := fun s =>
  match mu_regs s !! k with
  | Some (Some h) =>
      let back R := Multi (<[k := if keep then Some (emptied R) else None]> (mu_regs s)) (br_mem R) in
      match f (filled h (mu_mem s)) with
      | Ret x R => Ret x (back R)
      | Panic R => Panic (back R)
      | UB => UB
      end
  | _ => UB
  end.
Definition mstep (c : cfg) (o : mcall) : MM (option output) :=
  match o with
  | MNew => fun s => Ret None (Multi (mu_regs s ++ [Some hollow_default]) (mu_mem s))
  | MCall k o => let! x := mu_with k true (bstep c o) in ret (Some x)
  | MDrop k => let! _ := mu_with k false b_drop_registry in ret None
  | MSwap i j => fun s =>
      match mu_regs s !! i, mu_regs s !! j with
      | Some (Some x), Some (Some y) => Ret None (Multi (<[j := Some x]> (<[i := Some y]> (mu_regs s))) (mu_mem s))
      | _, _ => UB
      end
  end.
Fixpoint mrun (c : cfg) (ops : list mcall) : MM (list (option output)) :=
  match ops with
  | [] => ret []
  | o :: ops' => let! x := mstep c o in let! xs := mrun c ops' in ret (x :: xs)
  end.
