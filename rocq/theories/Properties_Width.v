(** * C68: sizes of memory requests on a target with [w]-bit pointers

    The code computes sizes as [usize] products.  WidthModel.v does so for
    pointers of [w] bits; ArchModel.v computes with mathematical integers.  With
    64 bits the two agree for every client.  With fewer (at least 32) they agree
    until some array reaches [isize::MAX] bytes, and then the call is undefined;
    which programs this concerns is decided by the capacities of their archetypes
    (C55). *)
From Verif Require Import WidthModel Instances Ref Clients Width Width2 Width3 Width4 SpecClient SpecBase SpecWorld SpecRef SpecEvents SpecTotal SpecWidth.
Local Open Scope nat_scope.

(** 64 bits: every call in every state that a client can reach, whatever the
    allocator answers, with calls that panicked before or not; whole programs;
    dropping the registry. *)
Theorem C68_64_bits : forall w c r,
  (64 <= w)%N -> reachable c r -> (forall o, w_step w c o r = step c o r) /\ w_drop_registry w c r = drop_registry r.
Proof. intros w c r Hw Hr. split; [intros o; exact (step_64 w c o r Hw Hr)|exact (drop_64 w c r Hw Hr)]. Qed.
Print Assumptions C68_64_bits.
Theorem C68_64_bits_programs : forall w c ops oracle,
  (64 <= w)%N -> let r := Reg er_default areg_default (Env [] oracle) in w_run w c ops r = run c ops r.
Proof. intros w c ops oracle Hw. exact (run_64 w c ops oracle Hw). Qed.
Print Assumptions C68_64_bits_programs.

(** At least 32 bits, any program, any allocator: the program does the same, or
    it is undefined. *)
Theorem C68_same_or_undefined : forall w c ops oracle,
  (32 <= w)%N -> let r := Reg er_default areg_default (Env [] oracle) in w_run w c ops r = UB \/ w_run w c ops r = run c ops r.
Proof. intros w c ops oracle Hw r. destruct (run_any w c ops oracle Hw) as [H|[H _]]; [by left|by right]. Qed.
Print Assumptions C68_same_or_undefined.
(** It is undefined exactly if one of its requests is out of reach. *)
Theorem C68_exact : forall w c ops oracle out r',
  (32 <= w)%N -> let r := Reg er_default areg_default (Env [] oracle) in run c ops r = Ret out r' ->
  (Forall (meets w) (ev_trace (r_env r')) /\ w_run w c ops r = Ret out r') \/
  (~ Forall (meets w) (ev_trace (r_env r')) /\ w_run w c ops r = UB).
Proof. intros w c ops oracle out r' Hw r E. destruct (run_exactly w c ops oracle out r' Hw E) as [(H&_&E')|H]; [by left|by right]. Qed.
Print Assumptions C68_exact.
(** Programs within the contract: the capacities at the end decide. *)
Theorem C68_contract : forall (Fm : family) w c U ops,
  (32 <= w)%N -> universe (big c) U -> within (big c) U ops book_empty ->
  let small_enough := Forall2 (sheet_in_reach w) (bk_sheets (ref_run (big c) U ops book_empty).2) (run_log (big c) U ops book_empty []).2 in
  (small_enough /\ exists r, run c ops reg_default = Ret (ref_run (big c) U ops book_empty).1 r /\
     w_run w c ops reg_default = Ret (ref_run (big c) U ops book_empty).1 r /\ w_drop_registry w c r = drop_registry r) \/
  (~ small_enough /\ w_run w c ops reg_default = UB).
Proof.
  intros Fm w c U ops Hw HU Hwi. destruct (run_contract c U HU w Hw ops Hwi) as [(H&r&E1&E2&Hok)|H]; [left|by right].
  split; [exact H|]. exists r. split; [exact E1|]. split; [exact E2|exact (drop_registry_eq w c r Hw Hok)].
Qed.
Print Assumptions C68_contract.
(** As long as no archetype ever holds more than 32768 entities, they do. *)
Theorem C68_roomy : forall (Fm : family) w c U ops,
  (32 <= w)%N -> universe (big c) U -> within (big c) U ops book_empty ->
  Forall (fun p => p <= N.to_nat 32768) (run_peaks (big c) U ops book_empty []) ->
  exists r, run c ops reg_default = Ret (ref_run (big c) U ops book_empty).1 r /\
    w_run w c ops reg_default = Ret (ref_run (big c) U ops book_empty).1 r /\ w_drop_registry w c r = drop_registry r.
Proof. intros Fm w c U ops Hw HU Hwi Hp. exact (run_roomy w c U ops Hw HU Hwi Hp). Qed.
Print Assumptions C68_roomy.
(** Creating [n] entities of one tuple type is undefined if the array of one of its
    components, at the smallest of 128, 256, ... that holds [n], is out of reach. *)
Theorem C68_too_large : forall (Fm : family) w c U G vs n cap C,
  (32 <= w)%N -> universe (big c) U -> in_U U G -> Forall2 fits G vs -> valid (big c) U G = true -> known (big c) U G ->
  0 < n -> (N.of_nat n <= 8388608)%N -> fitting n cap -> C ∈ G -> ~ in_reach w (ct_size C * N.of_nat cap) (ct_align C) ->
  within (big c) U (repeat (OpCreate G vs) n) book_empty /\
  (exists r, run c (repeat (OpCreate G vs) n) reg_default = Ret (map (fun k => OutCreate (Ok (256 * N.of_nat k)%N)) (seq 0 n)) r) /\
  w_run w c (repeat (OpCreate G vs) n) reg_default = UB.
Proof. intros Fm w c U G vs n cap C Hw HU HG HF Hv Hk. exact (flood_width c U HU G vs HG HF Hv Hk w n cap C Hw). Qed.
Print Assumptions C68_too_large.

(** The claim that a program within the contract is never undefined is false for
    32 bits: 32769 entities with one component of 65535 bytes. *)
Definition fat := CType 1 1 65535 1.
Definition UF : list ctype := [fat].
Lemma fat_universe : universe false UF. Proof. apply universeb_ok. vm_compute. reflexivity. Qed.
Lemma fat_fits n : N.of_nat n = 32769%N -> exists cap, N.of_nat cap = 65536%N /\ fitting n cap.
Proof.
  intros Hn. exists (N.to_nat 65536). split; [apply N2Nat.id|]. exists 9%N. split; [rewrite N2Nat.id; reflexivity|]. split; [lia|right; lia].
Qed.
Theorem C68_32_bits_refuted : exists (Fm := every) U ops out r,
  universe (big release) U /\ within (big release) U ops book_empty /\ run release ops reg_default = Ret out r /\ w_run 32 release ops reg_default = UB.
Proof.
  assert (Hex : exists n, N.of_nat n = 32769%N) by (exists (N.to_nat 32769); apply N2Nat.id). destruct Hex as [n Hn].
  destruct (fat_fits n Hn) as (cap&Hcap&Hf).
  destruct (C68_too_large every 32 release UF [fat] [vl fat 7] n cap fat) as (Hwi&[r E]&Eu).
  - reflexivity.
  - exact fat_universe.
  - apply in_Ub_ok. vm_compute. reflexivity.
  - by repeat constructor.
  - vm_compute. reflexivity.
  - exact Logic.I.
  - lia.
  - by rewrite Hn.
  - exact Hf.
  - apply elem_of_list_here.
  - rewrite Hcap. unfold in_reach. vm_compute. intros H. discriminate H.
  - exists UF, (repeat (OpCreate [fat] [vl fat 7]) n), (map (fun k => OutCreate (Ok (256 * N.of_nat k)%N)) (seq 0 n)), r.
    split; [exact fat_universe|]. split; [exact Hwi|]. split; [exact E|exact Eu].
Qed.
Print Assumptions C68_32_bits_refuted.
(** [Archetype::with_capacity] called directly can even wrap around.  With 32 bits,
    no overflow checks, components of 512 bytes and a capacity of 8388609 (which
    the function accepts) it requests 512 bytes; the second of two entities pushed
    into the archetype is written past the end. *)
Theorem C68_wrap_refuted : exists cap a e s,
  N.of_nat cap = 8388609%N /\ w_with_capacity 32 release c512_desc cap env_init = Ret a e /\ a_cap a = cap /\
  ev_trace e = [EvAlloc 33554436 4; EvAlloc 512 1] /\
  w_push_entity 32 release [c512] 0 [vl c512 1] (a, e) = Ret 0 s /\ w_push_entity 32 release [c512] 256 [vl c512 2] s = UB.
Proof.
  assert (Hex : exists n, N.of_nat n = 8388609%N) by (exists (N.to_nat 8388609); apply N2Nat.id). destruct Hex as [n Hn].
  destruct (c512_32 n Hn) as (a&e&s&H). exists n, a, e, s. split; [exact Hn|exact H].
Qed.
Print Assumptions C68_wrap_refuted.
(** With 64 bits it requests 4294967808 bytes and both pushes return; with overflow
    checks it panics. *)
Theorem C68_no_wrap : forall cap, N.of_nat cap = 8388609%N ->
  (exists a e s s', w_with_capacity 64 release c512_desc cap env_init = Ret a e /\ a_cap a = cap /\
     ev_trace e = [EvAlloc 33554436 4; EvAlloc 4294967808 1] /\
     w_push_entity 64 release [c512] 0 [vl c512 1] (a, e) = Ret 0 s /\ w_push_entity 64 release [c512] 256 [vl c512 2] s = Ret 1 s') /\
  exists e, w_with_capacity 32 debug c512_desc cap env_init = Panic e.
Proof. intros cap Hc. split; [exact (c512_64 cap Hc)|exact (c512_debug cap Hc)]. Qed.
Print Assumptions C68_no_wrap.

(** 130 entities of 16 and 65535 bytes, one destroyed: with 32 bits as with 64;
    with a component of 65535 bytes there are programs on either side of the line. *)
Definition UH : list ctype := [CType 1 1 65535 1; CType 2 2 16 8].
Definition heavy : list op := map (fun k => OpCreate UH [vl fat (Z.of_nat k); vl (CType 2 2 16 8) 1]) (seq 0 130) ++ [OpDestroy 256; OpRemove fat 512; OpGet fat 768].
Definition ret_of {A} (x : res reg A) : option A := match x with Ret a _ => Some a | _ => None end.
Example C68_example :
  universe (big release) UH /\ within (big release) UH heavy book_empty /\
  run_peaks (big release) UH heavy book_empty [] = [130; 1] /\ (run_log (big release) UH heavy book_empty []).2 = [256; 128] /\
  Forall (fun p => p <= N.to_nat 32768) (run_peaks (big release) UH heavy book_empty []) /\
  ret_of (w_run 32 release heavy reg_default) = Some (ref_run (big release) UH heavy book_empty).1 /\
  Exists (fun x => x = EvRealloc 8388480 1 16776960) (run_log (big release) UH heavy book_empty []).1 /\
  in_reach 32 (65535 * 32768) 32768 /\ ~ in_reach 32 (65535 * 65536) 1 /\ in_reach 64 (65535 * 16777215) 32768.
Proof.
  split; [apply universeb_ok; vm_compute; reflexivity|]. split; [apply withinb_ok; vm_compute; reflexivity|].
  split; [vm_compute; reflexivity|]. split; [vm_compute; reflexivity|].
  split. { replace (run_peaks (big release) UH heavy book_empty []) with [130; 1] by (vm_compute; reflexivity). apply Forall_cons. split; [lia|]. apply Forall_cons. split; [lia|]. by apply Forall_nil. }
  split; [vm_compute; reflexivity|]. split. { apply Exists_exists. exists (EvRealloc 8388480 1 16776960). split; [|reflexivity].
    apply elem_of_list_lookup. exists 4. vm_compute. reflexivity. }
  split; [vm_compute; reflexivity|]. split; [vm_compute; intros H; discriminate H|vm_compute; reflexivity].
Qed.
