(** The table Fp::preInv reads. *)
From Coq Require Import ZArith.
From Verif Require Import Base Cfg X64 JitSpec JitFpSpec.
Local Open Scope Z_scope.

(** s_pTbl[1] and s_pTbl[2] (src/zm2.cpp:1896, 1969), eight words at [T]: p and 2p *)
Definition table2 (c : cfg) (k : nat) (s : state) (T : Z) : Prop :=
  int_at (mem s) T 4 (cp c) /\ int_at (mem s) (T + 32) 4 (2 * cp c) /\ place k s T 8.
