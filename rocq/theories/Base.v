(** * Base: outcomes, effects and machine-integer helpers shared by the model.

    Nothing in this file models a particular function of the crate; it fixes
    how Rust's outcomes are represented.

    - [Ret a s]   : the call returned [a], leaving state [s];
    - [Panic s]   : the call panicked; [s] is the state the unwinding leaves
                    behind (what a caller of [catch_unwind] could observe);
    - [UB]        : the call did something whose behaviour Rust does not
                    define (null / dangling / out-of-bounds / uninitialised /
                    wrongly typed access, or a broken allocator contract). *)
From stdpp Require Export prelude list gmap sorting.
From Coq Require Export NArith ZArith Lia.
From Coq Require Export ZifyBool ZifyNat ZifyN.
Ltac Zify.zify_post_hook ::= Z.div_mod_to_equations.

Inductive res (S A : Type) : Type :=
| Ret (a : A) (s : S)
| Panic (s : S)
| UB.
Global Arguments Ret {S A} a s.
Global Arguments Panic {S A} s.
Global Arguments UB {S A}.

Definition M (S A : Type) : Type := S -> res S A.

Definition ret {S A} (a : A) : M S A := fun s => Ret a s.
Definition bind {S A B} (m : M S A) (k : A -> M S B) : M S B := fun s =>
  match m s with
  | Ret a s' => k a s'
  | Panic s' => Panic s'
  | UB => UB
  end.
Definition mpanic {S A} : M S A := fun s => Panic s.
Definition mub {S A} : M S A := fun _ => UB.
Definition get_st {S} : M S S := fun s => Ret s s.
Definition put_st {S} (s : S) : M S unit := fun _ => Ret tt s.

Notation "'let!' x := m 'in' k" := (bind m (fun x => k))
  (at level 200, x pattern, m at level 100, k at level 200, right associativity).
Notation "m ;;! k" := (bind m (fun _ => k)) (at level 199, right associativity).

(** [assert!(b)] / [debug_assert!(b)] (the latter only when [dbg] is on). *)
Definition massert {S} (b : bool) : M S unit := if b then ret tt else mpanic.
Definition mdebug_assert {S} (dbg b : bool) : M S unit :=
  if dbg then massert b else ret tt.

(** Read-only computations: no state to thread, so purity shows in the type. *)
Inductive rd (A : Type) : Type :=
| Rd (a : A)
| RdPanic
| RdUB.
Global Arguments Rd {A} a.
Global Arguments RdPanic {A}.
Global Arguments RdUB {A}.

Definition rbind {A B} (m : rd A) (k : A -> rd B) : rd B :=
  match m with Rd a => k a | RdPanic => RdPanic | RdUB => RdUB end.
Notation "'letr' x := m 'in' k" := (rbind m (fun x => k))
  (at level 200, x pattern, m at level 100, k at level 200, right associativity).
Definition rdebug_assert (dbg b : bool) : rd unit :=
  if dbg then (if b then Rd tt else RdPanic) else Rd tt.
Definition lift_rd {S A} (m : rd A) : M S A := fun s =>
  match m with Rd a => Ret a s | RdPanic => Panic s | RdUB => UB end.

(** [for x in l { f x }] *)
Fixpoint mfor {S A} (l : list A) (f : A -> M S unit) : M S unit :=
  match l with
  | [] => ret tt
  | x :: l' => f x ;;! mfor l' f
  end.
(** Build a vector by running [f] on each element in order. *)
Fixpoint rmap {A B} (f : A -> rd B) (l : list A) : rd (list B) :=
  match l with
  | [] => Rd []
  | x :: l' => letr y := f x in letr ys := rmap f l' in Rd (y :: ys)
  end.

(** Build configuration.  [dbg]: debug assertions and overflow checks are on
    (a debug build); [big]: the target is big-endian.  The model assumes a
    64-bit target ([usize]/[isize] arithmetic in the crate never exceeds
    2^24 * 2^16, so it cannot overflow there). *)
Record cfg := Cfg { dbg : bool; big : bool }.

(** [u16::to_ne_bytes] / [u16::from_ne_bytes]. *)
Definition u16_to_ne (be : bool) (v : N) : N * N :=
  if be then ((v / 256) mod 256, v mod 256)%N else (v mod 256, (v / 256) mod 256)%N.
Definition u16_from_ne (be : bool) (b : N * N) : N :=
  if be then (b.1 * 256 + b.2)%N else (b.1 + b.2 * 256)%N.

(** An iterator driven to exhaustion by its [next]; [None] = out of fuel
    (excluded by the theorems about it). *)
Fixpoint collect {S A} (next : S -> rd (option A * S)) (fuel : nat) (s : S) : rd (option (list A)) :=
  match fuel with
  | O => Rd None
  | Datatypes.S fuel' =>
      letr (o, s') := next s in
      match o with
      | None => Rd (Some [])
      | Some a => letr l := collect next fuel' s' in Rd (option_map (cons a) l)
      end
  end.
