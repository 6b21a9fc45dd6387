(** * Threads that share out references (C71) *)
From Verif Require Export ThreadModel SpecCode.
Local Open Scope nat_scope.

(** [share p]: the thread that has reference [p] to itself, or [None] if all may
    look through it.  The code of thread [t] compiles and keeps to its share. *)
Fixpoint threaded (Cs : list ctype) (share : nat -> option nat) (t : nat) (cd : code) : Prop :=
  match cd with
  | Stop => True
  | Look p k => exists C, Cs !! p = Some C /\ (share p = Some t \/ share p = None) /\ forall v, fits C v -> threaded Cs share t (k v)
  | Replace p v k => exists C, Cs !! p = Some C /\ share p = Some t /\ fits C v /\ forall old, fits C old -> threaded Cs share t (k old)
  end.
(** The codes one after the other. *)
Fixpoint and_then (a b : code) : code :=
  match a with
  | Stop => b
  | Look p k => Look p (fun v => and_then (k v) b)
  | Replace p v k => Replace p v (fun old => and_then (k old) b)
  end.
Definition in_turn (cds : list code) : code := foldr and_then Stop cds.
Fixpoint turns (t : nat) (sched : list nat) : nat :=
  match sched with [] => 0 | t' :: s => (if t' =? t then 1 else 0) + turns t s end.

(** The references [ls] were handed out after the program [ops]; [vs] are the values
    behind them.  However the threads are scheduled, nothing undefined
    happens; every thread sees what it would see alone; who gets enough turns
    finishes; and when all have finished, the memory is that after the calls
    which do the same for one thread after the other, where each reference has the
    value that its owner alone would have left. *)
Definition like_alone {Fm : family} (c : cfg) (U : list ctype) (place : N -> N) (ops : list op) (out : list output) (R : breg)
    (ls : list bloc) (who : list (N * ctype)) (vs : list value) : Prop :=
  forall share cds, (forall t cd, cds !! t = Some cd -> threaded (map snd who) share t cd) ->
  (forall sched, exists ths m, weave ls sched (spawn cds) (br_mem R) = Ret ths m /\
    Forall2 (fun th cd => th_seen th `prefix_of` (on_list vs cd).1) ths cds /\
    (Forall finished ths ->
      map th_seen ths = map (fun cd => (on_list vs cd).1) cds /\
      exists R', br_mem R' = m /\ within (big c) U (ops ++ writes who vs (in_turn cds)) book_empty /\
        brun c (ops ++ writes who vs (in_turn cds)) (breg_default place)
          = Ret (out ++ map (fun v => OutVal (Some v)) (taken vs (in_turn cds))) R')) /\
  (forall t cd, cds !! t = Some cd -> exists n, forall sched ths m,
    weave ls sched (spawn cds) (br_mem R) = Ret ths m -> n <= turns t sched -> exists th, ths !! t = Some th /\ finished th) /\
  (forall p, (on_list vs (in_turn cds)).2 !! p =
    match share p with
    | Some t => match cds !! t with Some cd => (on_list vs cd).2 !! p | None => vs !! p end
    | None => vs !! p
    end).
