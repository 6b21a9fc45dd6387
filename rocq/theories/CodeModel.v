(** * Client code that holds mutable references.

    Not code of the library: what a Rust program can do with the [&mut C] that
    the mutable accessors and iterators return (registry.rs:176-214 and 363-524):
    look at the values and replace them, in any order, as often as it likes,
    depending on what it has seen.  ([mem::swap] is one look and two
    replacements; [*r = v] is a replacement whose old value is dropped by the
    client.)  The references are numbered from 0. *)
From Verif Require Export RegModel ByteReg.
Local Open Scope nat_scope.

Inductive code :=
| Stop
| Look (p : nat) (k : value -> code)
| Replace (p : nat) (v : value) (k : value -> code).

(** A missing cell is UB, as in [replace_loc]. *)
Definition look_loc (l : loc) : RM value :=
  let! a := rm_rd (arch_at l.1.1) in
  let! old := lift_rd (raw_cell a l.1.2 l.2) in
  match old with
  | None => mub
  | Some v => ret v
  end.
(** Returns what the code sees, in order.  A number without a reference is a slice
    index out of bounds (panics). *)
Fixpoint serve (ls : list loc) (cd : code) : RM (list value) :=
  match cd with
  | Stop => ret []
  | Look p k =>
      match ls !! p with
      | None => mpanic
      | Some l => let! v := look_loc l in let! seen := serve ls (k v) in ret (v :: seen)
      end
  | Replace p v k =>
      match ls !! p with
      | None => mpanic
      | Some l => let! old := replace_loc l v in let! seen := serve ls (k old) in ret (old :: seen)
      end
  end.

(** The same over bytes: looking reads the bytes of the reference, which must
    represent a value. *)
Definition b_look (l : bloc) : BRM value :=
  let! bs := bq_mrd (fun m => load m l.1 l.2) in
  match bytes_val bs with
  | None => mub
  | Some v => ret v
  end.
Fixpoint b_serve (ls : list bloc) (cd : code) : BRM (list value) :=
  match cd with
  | Stop => ret []
  | Look p k =>
      match ls !! p with
      | None => mpanic
      | Some l => let! v := b_look l in let! seen := b_serve ls (k v) in ret (v :: seen)
      end
  | Replace p v k =>
      match ls !! p with
      | None => mpanic
      | Some l => let! old := b_replace l v in let! seen := b_serve ls (k old) in ret (old :: seen)
      end
  end.
