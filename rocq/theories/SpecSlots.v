(** * What an [EntityRegistry] is for its users (C64): a table of slots.

    A slot has a version and, while it is in use, a row and an archetype index; the
    slots that were freed by [destroy_entity] are on a stack. *)
From Verif Require Export EntityClient.
Local Open Scope N_scope.

Record slot := Slot { sl_version : N; sl_at : option (N * N) }.
Record table := Table { tb_slots : list slot; tb_free : list nat }.
Definition handle_of (i : nat) (v : N) : N := N.of_nat i * 256 + v.
(** The slot that a handle names: in use, with the same version. *)
Definition named (t : table) (h : N) : option (nat * (N * N * N)) :=
  match tb_slots t !! N.to_nat (h / 256) with
  | Some (Slot v (Some (row, ai))) => if v =? h mod 256 then Some (N.to_nat (h / 256), (v, row, ai)) else None
  | _ => None
  end.
Definition set_slot (t : table) (i : nat) (s : slot) : list slot := <[i := s]> (tb_slots t).
Definition change (x : N * N * N) (e : edit) : N * N * N :=
  match e with EVersion v => (v, x.1.2, x.2) | ERow row => (x.1.1, row, x.2) | EArch ai => (x.1.1, x.1.2, ai) end.
(** Archetype index 65535 means "not in use". *)
Definition as_slot (x : N * N * N) : slot := Slot x.1.1 (if x.2 =? 65535 then None else Some (x.1.2, x.2)).

Definition on_slots (x : eop) (t : table) : eout * table :=
  match x with
  | ERoom => (EoBool (N.of_nat (length (tb_slots t)) <? 16777215), t)
  | ECreate row ai =>
      if N.of_nat (length (tb_slots t)) <? 16777215 then
        match tb_free t with
        | [] => (EoHandle (Some (handle_of (length (tb_slots t)) 0)), Table (tb_slots t ++ [Slot 0 (Some (row, ai))]) [])
        | i :: free =>
            let v := match tb_slots t !! i with Some s => sl_version s | None => 0 end in
            (EoHandle (Some (handle_of i v)), Table (set_slot t i (Slot v (Some (row, ai)))) free)
        end
      else (EoHandle None, t)
  | EDestroy h =>
      match named t h with
      | Some (i, (v, _, _)) => (EoBool true, Table (set_slot t i (Slot ((v + 1) mod 256) None)) (i :: tb_free t))
      | None => (EoBool false, t)
      end
  | ELook h => (EoFields (snd <$> named t h), t)
  | EEdit h l =>
      match named t h with
      | Some (i, x) => let y := fold_left change l x in (EoFields (Some y), Table (set_slot t i (as_slot y)) (tb_free t))
      | None => (EoFields None, t)
      end
  | EAll => (EoHandles (concat (imap (fun i s => match sl_at s with Some _ => [handle_of i (sl_version s)] | None => [] end) (tb_slots t))), t)
  end.
Fixpoint all_on_slots (l : list eop) (t : table) : list eout * table :=
  match l with
  | [] => ([], t)
  | x :: l' => let y := on_slots x t in let z := all_on_slots l' y.2 in (y.1 :: z.1, z.2)
  end.

(** The values that the Rust types allow: an [ArchetypeIndex] is not 65535, a [u16]
    may be; an [IndexInArchetype] made by safe code has 24 bits. *)
Definition edit_ok (x : edit) : Prop := match x with EVersion v => v < 256 | ERow row => row < 2 ^ 24 | EArch ai => ai < 65536 end.
Definition eop_ok (x : eop) : Prop :=
  match x with
  | ERoom | EAll => True
  | ECreate row ai => row < 2 ^ 24 /\ ai < 65535
  | EDestroy h | ELook h => h < 2 ^ 32
  | EEdit h l => h < 2 ^ 32 /\ Forall edit_ok l
  end.

(** An answer that shows the slot [i]: a handle issued or iterated over. *)
Definition mentions (i : nat) (o : eout) : Prop :=
  match o with EoHandle (Some h) => h / 256 = N.of_nat i | EoHandles l => exists h, h ∈ l /\ h / 256 = N.of_nat i | _ => False end.
