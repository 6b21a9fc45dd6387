(** * What an event trace says happened: destructors run, memory obtained and
    released (C33, C34). *)
From Verif Require Export ArchModel.

Definition drops_of (tr : list event) : list value :=
  omap (fun ev => match ev with EvDrop v => Some v | _ => None end) tr.
(** Layouts obtained; a reallocation obtains the new and releases the old one. *)
Definition allocs_of (tr : list event) : list (N * N) :=
  omap (fun ev => match ev with EvAlloc s a => Some (s, a) | EvRealloc _ a n => Some (n, a) | _ => None end) tr.
Definition frees_of (tr : list event) : list (N * N) :=
  omap (fun ev => match ev with EvDealloc s a => Some (s, a) | EvRealloc o a _ => Some (o, a) | _ => None end) tr.
