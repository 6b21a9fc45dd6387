(** The requests of the byte-level model are those of SpecEvents.v, too (C55). *)
From Verif Require Import RegModel ByteReg Bytes7 Ref Events Events2 SpecBytes SpecBase SpecWorld SpecRef SpecEvents.
Local Open Scope nat_scope.

Lemma bytes_requests {Fm : family} c U (HU : universe (big c) U) (Hla : laid_out U) place ops out R :
  within (big c) U ops book_empty -> brun c ops (breg_default place) = Ret out R ->
  ev_trace (m_env (br_mem R)) = (run_log (big c) U ops book_empty []).1.
Proof.
  intros Hw E. destruct (bytes_program c U HU Hla place ops Hw) as (R'&r&E1&E2&Ee). rewrite E1 in E. injection E as _ <-.
  destruct (run_requests c U HU ops Hw) as (r'&E3&Et&_). rewrite E2 in E3. injection E3 as <-. by rewrite Ee.
Qed.
Lemma bytes_drop_requests {Fm : family} c U (HU : universe (big c) U) (Hla : laid_out U) place ops out R :
  within (big c) U ops book_empty -> all_calm (bk_world (ref_run (big c) U ops book_empty).2) -> brun c ops (breg_default place) = Ret out R ->
  exists R', b_drop_registry R = Ret tt R' /\ m_blocks (br_mem R') = ∅ /\
    ev_trace (m_env (br_mem R')) =
      (run_log (big c) U ops book_empty []).1 ++ final_log (ref_run (big c) U ops book_empty).2 (run_log (big c) U ops book_empty []).2.
Proof.
  intros Hw Hcalm E. destruct (bytes_drop c U HU Hla place ops out R Hw Hcalm E) as (R'&E'&Hm&r&r'&E1&E2&Ee). exists R'. split; [done|]. split; [done|].
  destruct (run_drop_requests c U HU ops Hw Hcalm) as (s&s'&E3&E4&Et). rewrite E1 in E3. injection E3 as _ <-. rewrite E2 in E4. injection E4 as <-. by rewrite Ee.
Qed.
