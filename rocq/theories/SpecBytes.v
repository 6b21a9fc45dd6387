(** * What C53 assumes of component types, and what C54 says of references *)
From Verif Require Export ByteModel SpecWorld.
Local Open Scope nat_scope.

(** Rust: the size of a type is a multiple of its alignment. *)
Definition laid_out (U : list ctype) : Prop := Forall (fun C => (ct_align C | ct_size C)%N) U.

(** A [&mut C] that may exist: it covers [size_of::<C>()] bytes, all inside one
    live block, at an address that is a multiple of [C]'s alignment,
    and these bytes represent one [C]. *)
Definition sound_ref (m : mem) (C : ctype) (l : bloc) : Prop :=
  exists id off b v, l = (Some (id, off), N.to_nat (ct_size C)) /\ m_blocks m !! id = Some b /\
    off + N.to_nat (ct_size C) <= length (hb_bytes b) /\ (ct_align C | hb_base b + N.of_nat off)%N /\
    v_ty v = ct_ty C /\ forall k, k < N.to_nat (ct_size C) -> hb_bytes b !! (off + k) = Some (VByte v k).
(** The references share no byte. *)
Definition covers_byte (l : bloc) (id : N) (k : nat) : Prop := exists off, l.1 = Some (id, off) /\ off <= k < off + l.2.
Definition exclusive (ls : list bloc) : Prop := forall i j l l' id k,
  ls !! i = Some l -> ls !! j = Some l' -> covers_byte l id k -> covers_byte l' id k -> i = j.
(** One column of [n] references per component of the tuple. *)
Definition sound_columns (m : mem) (G : group) (n : nat) (cols : list (list bloc)) : Prop :=
  Forall2 (fun C col => length col = n /\ Forall (sound_ref m C) col) G cols.
(** What the two mutable iterators over [G] hand out; all of it may be held at once. *)
Definition refs_ok (m : mem) (G : group) (it : rd (option (list (list (list bloc))))) (eit : rd (option (list (list N * list (list bloc))))) : Prop :=
  exists items eitems,
    it = Rd (Some items) /\ Forall (fun cols => exists n, sound_columns m G n cols) items /\ exclusive (concat (concat items)) /\
    eit = Rd (Some eitems) /\ Forall (fun x => sound_columns m G (length x.1) x.2) eitems /\ exclusive (concat (concat (map snd eitems))).
