(** The machine code of Fp::preInv (src/zm2.cpp, make_Fp_preInv), instruction by instruction: the
    loop of Fp::inv.  Conventions as in P_JitFp.v; [table2]: p and 2p at [T] (JitInvSpec.v). The
    output may overlap the operand and the table. *)
From Coq Require Import ZArith List.
From Verif Require Import X64 JitSpec JitFpSpec JitInv JitInvSpec JitFpEnd JitInvEnd.
From Verif Require Import Base Prim Cfg FpM.
Import ListNotations.
Local Open Scope Z_scope.

(** For 0 < x < p the call comes back; it leaves a number r of at most 2p and returns in rax a
    number k of at most 508 with x r = 2^k modulo p. *)
Theorem C19_code_preInv c T s x : call1 (make_Fp_preInv T) 10 4 4 s -> table2 c 10 s T -> int_at (mem s) (rsi (rg s)) 4 x -> 0 < x < cp c ->
  calls (make_Fp_preInv T) s (fun s' => (exists r k, rax (rg s') = k /\ int_at (mem s') (rdi (rg s)) 4 r /\ 0 <= r <= 2 * cp c /\ 0 <= k <= 508 /\
    (x * r) mod cp c = 2 ^ k mod cp c) /\ only 10 (rdi (rg s)) 4 s s').
Proof. exact (preInv_end c T s x). Qed.
(** x = 0: the call comes back with 2p and 0 *)
Theorem C19_code_preInv_zero c T s : call1 (make_Fp_preInv T) 10 4 4 s -> table2 c 10 s T -> int_at (mem s) (rsi (rg s)) 4 0 ->
  calls (make_Fp_preInv T) s (fun s' => (rax (rg s') = 0 /\ int_at (mem s') (rdi (rg s)) 4 (2 * cp c)) /\ only 10 (rdi (rg s)) 4 s s').
Proof. exact (preInv_zero c T s). Qed.
(** What the call leaves is what the integer model of Fp::preInv computes, on which Fp::inv (C19_inv) is built. *)
Theorem C19_code_preInv_model c T s x r k : call1 (make_Fp_preInv T) 10 4 4 s -> table2 c 10 s T -> int_at (mem s) (rsi (rg s)) 4 x -> 0 <= x < cp c ->
  fp_preInv c x = Ok (r, k) ->
  calls (make_Fp_preInv T) s (fun s' => (rax (rg s') = k /\ int_at (mem s') (rdi (rg s)) 4 r) /\ only 10 (rdi (rg s)) 4 s s').
Proof. exact (preInv_api c T s x r k). Qed.
Example C19_code_some c : exists s, s = ex_inv c /\ call1 (make_Fp_preInv ex_T) 10 4 4 s /\ table2 c 10 s ex_T /\ int_at (mem s) (rsi (rg s)) 4 ex_x /\ 0 < ex_x < cp c.
Proof. exact (ex_intro _ (ex_inv c) (conj eq_refl (ex_inv_ok c))). Qed.

(** One query covers all theorems of this file. *)
Definition all_theorems_P_JitInv :=
  (@C19_code_preInv,
   @C19_code_preInv_zero,
   @C19_code_preInv_model).
Print Assumptions all_theorems_P_JitInv.
