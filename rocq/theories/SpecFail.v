(** * Refused allocations over the byte-level registry (C70) *)
From Verif Require Export SpecBytes2 SpecAlloc.
Local Open Scope nat_scope.

(** New registries of both models whose allocator gives the answers [oracle];
    [place] are the addresses it picks. *)
Definition reg_asking (oracle : list bool) : reg := Reg er_default areg_default (Env [] oracle).
Definition breg_asking (place : N -> N) (oracle : list bool) : breg :=
  BReg er_default (replicate MAX_COMPONENTS_PER_ENTITY []) [] (Mem ∅ 0 place (Env [] oracle)).

(** Every call is within its contract, and after a call that left something
    broken behind the program makes no further call.  [intact]: no call did. *)
Fixpoint luckless {Fm : family} (intact : bool) (c : cfg) (U : list ctype) (ops : list op) (r : reg) (w : world) : Prop :=
  match ops with
  | [] => True
  | o :: ops' => contract (big c) U w o /\
      match step c o r with
      | Ret out r' => luckless intact c U ops' r' (ledger (big c) U w o out)
      | Panic r' => (untouched r r' /\ luckless intact c U ops' r' w) \/ (intact = false /\ ops' = [])
      | UB => True
      end
  end.
(** The entities at the end of such a program. *)
Fixpoint survivors (c : cfg) (U : list ctype) (ops : list op) (r : reg) (w : world) : world :=
  match ops with
  | [] => w
  | o :: ops' =>
      match step c o r with
      | Ret out r' => survivors c U ops' r' (ledger (big c) U w o out)
      | Panic r' => survivors c U ops' r' w
      | UB => w
      end
  end.

(** The live blocks are those that the events say were obtained and not given
    back: as multisets of (size, alignment). *)
Definition layout_of (b : hblk) : N * N := (N.of_nat (length (hb_bytes b)), hb_align b).
Definition balanced (m : mem) : Prop :=
  allocs_of (ev_trace (m_env m)) ≡ₚ frees_of (ev_trace (m_env m)) ++ map layout_of ((map_to_list (m_blocks m)).*2).
