(** * Sizes that a target can handle (C68)

    [isize::MAX] on a target whose pointers have [w] bits is 2^(w-1) - 1.  A
    layout is admissible if its size, rounded up to its alignment, is not larger.
    No function of the model is used. *)
From Verif Require Export SpecEvents.
Local Open Scope N_scope.

Definition in_reach (w size align : N) : Prop := size + (align - 1) < 2 ^ (w - 1).
Definition meets (w : N) (x : event) : Prop :=
  match x with
  | EvAlloc size align | EvDealloc size align => in_reach w size align
  | EvRealloc old align new => in_reach w old align /\ in_reach w new align
  | EvDrop _ => True
  end.
(** All arrays of an archetype with room for [n] entities. *)
Definition sheet_in_reach (w : N) (s : sheet) (n : nat) : Prop := Forall (fun x => in_reach w (bytes x.1 n) x.2) (elements s).
