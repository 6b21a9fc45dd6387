(** * Programs that catch panics, over the byte-level registry (C67) *)
From Verif Require Export ByteReg SpecTotal.
Local Open Scope nat_scope.

(** [attempt] of SpecTotal.v with the registry of ByteReg.v. *)
Fixpoint battempt (c : cfg) (ops : list op) (R : breg) : list (option output) * option breg :=
  match ops with
  | [] => ([], Some R)
  | o :: ops' =>
      match bstep c o R with
      | Ret out R1 => let (l, e) := battempt c ops' R1 in (Some out :: l, e)
      | Panic R1 => let (l, e) := battempt c ops' R1 in (None :: l, e)
      | UB => ([], None)
      end
  end.
