(** * Threads that share out the references of one call

    [Archetype] is declared [Send] and [Sync] (archetype/mod.rs:20-21) and
    components are (descriptors/component.rs:11), so client code may give the
    references it got from one call to several scoped threads.  Each thread runs
    code as in CodeModel.v.  Accesses are not atomic: every step of a thread moves
    one byte, and the steps of different threads may come in any order. *)
From Verif Require Export CodeModel.
Local Open Scope nat_scope.

(** What the thread has seen, the code left, the bytes it has read for the access
    under way, and how many bytes of it are written. *)
Record thread := Thr { th_seen : list value; th_code : code; th_read : list mbyte; th_put : nat }.
Definition byte_ptr (l : bloc) (i : nat) : bptr := match l.1 with None => None | Some (id, off) => Some (id, off + i) end.
Definition read_byte (l : bloc) (th : thread) : M mem thread :=
  let! m := get_st in
  let! bs := lift_rd (load m (byte_ptr l (length (th_read th))) 1) in
  ret (Thr (th_seen th) (th_code th) (th_read th ++ bs) (th_put th)).
Definition write_byte (l : bloc) (v : value) (th : thread) : M mem thread :=
  match val_bytes l.2 v !! th_put th with
  | None => mub
  | Some b => store (byte_ptr l (th_put th)) [b] ;;! ret (Thr (th_seen th) (th_code th) (th_read th) (S (th_put th)))
  end.
(** The bytes must represent a value. *)
Definition access_done (k : value -> code) (th : thread) : M mem thread :=
  match bytes_val (th_read th) with
  | None => mub
  | Some v => ret (Thr (th_seen th ++ [v]) (k v) [] 0)
  end.
Definition ref_at (ls : list bloc) (p : nat) : option bloc := ls !! p.
Definition th_step (ls : list bloc) (th : thread) : M mem thread :=
  match th_code th with
  | Stop => ret th
  | Look p k =>
      match ref_at ls p with
      | None => mpanic
      | Some l => if length (th_read th) <? l.2 then read_byte l th else access_done k th
      end
  | Replace p v k =>
      match ref_at ls p with
      | None => mpanic
      | Some l =>
          if length (th_read th) <? l.2 then read_byte l th
          else if th_put th <? l.2 then write_byte l v th
          else access_done k th
      end
  end.
(** [sched] says whose turn it is. *)
Fixpoint weave (ls : list bloc) (sched : list nat) (ths : list thread) : M mem (list thread) :=
  match sched with
  | [] => ret ths
  | t :: sched' =>
      match ths !! t with
      | None => weave ls sched' ths
      | Some th => let! th' := th_step ls th in weave ls sched' (<[t := th']> ths)
      end
  end.
Definition spawn (cds : list code) : list thread := map (fun cd => Thr [] cd [] 0) cds.
Definition finished (th : thread) : Prop := th_code th = Stop.
