(** The machine code of FpDbl::neg and Fp2Dbl::neg (src/zm2.cpp:1546-1589), instruction by instruction;
    the notions of P_JitFp.v and P_JitFp2.v.  The test for zero includes the address of the output
    (gp1) instead of the lowest word (gt1): for every output address but 0 the branch for zero is not
    taken and 0 is negated to p 2^256, which is not below p 2^256. *)
From Coq Require Import ZArith List.
From Verif Require Import X64 JitSpec JitFpSpec JitFp JitFpEnd JitFp2 JitFp2Spec JitFp2End JitNeg.
From Verif Require Import Base Prim FpSpec Cfg FpM FpProofs TowerSpec.
Local Open Scope Z_scope.

Theorem C18_code_neg c il T s x : call1 (make_FpDbl_neg il T) 0 8 8 s -> rdi (rg s) <> 0 -> same_or_apart (rdi (rg s)) (rsi (rg s)) 8 ->
  p_table c (mem s) T -> place 0 s (T - 32) 40 -> apart (rdi (rg s)) 8 (T - 32) 40 ->
  int_at (mem s) (rsi (rg s)) 8 x -> 0 <= x < cp c * W ->
  calls (make_FpDbl_neg il T) s (fun s' => (exists z, int_at (mem s') (rdi (rg s)) 8 z /\
    0 <= z <= cp c * W /\ dv c z = fopp (dv c x) /\ (z = cp c * W <-> x = 0)) /\ only 0 (rdi (rg s)) 8 s s').
Proof. exact (FpDbl_neg_end c il T s x). Qed.
Theorem C25_code_dbl_neg c il T s x : call1 (make_Fp2Dbl_neg il T) 0 16 16 s -> rdi (rg s) <> 0 -> same_or_apart (rdi (rg s)) (rsi (rg s)) 16 ->
  p_table c (mem s) T -> place 0 s (T - 32) 40 -> apart (rdi (rg s)) 16 (T - 32) 40 ->
  pair 8 (mem s) (rsi (rg s)) x -> 0 <= a2 x < cp c * W -> 0 <= b2 x < cp c * W ->
  calls (make_Fp2Dbl_neg il T) s (leaves 0 8 (fun z =>
    (0 <= a2 z <= cp c * W /\ dv c (a2 z) = fopp (dv c (a2 x)) /\ (a2 z = cp c * W <-> a2 x = 0)) /\
    (0 <= b2 z <= cp c * W /\ dv c (b2 z) = fopp (dv c (b2 x)) /\ (b2 z = cp c * W <-> b2 x = 0))) s).
Proof. exact (Fp2Dbl_neg_end c il T s x). Qed.
(** A state meeting the hypotheses, with one component that is zero. *)
Example C18_code_neg_some c il : exists x, 0 < a2 x < cp c * W /\ b2 x = 0 /\ let s := ex2 c 12288 8 x x in
  call1 (make_FpDbl_neg il ex_T) 0 8 8 s /\ call1 (make_Fp2Dbl_neg il ex_T) 0 16 16 s /\ rdi (rg s) <> 0 /\ same_or_apart (rdi (rg s)) (rsi (rg s)) 16 /\ same_or_apart (rdi (rg s)) (rsi (rg s)) 8 /\
  p_table c (mem s) ex_T /\ place 0 s (ex_T - 32) 40 /\ apart (rdi (rg s)) 8 (ex_T - 32) 40 /\ apart (rdi (rg s)) 16 (ex_T - 32) 40 /\ int_at (mem s) (rsi (rg s)) 8 (a2 x) /\ pair 8 (mem s) (rsi (rg s)) x.
Proof. exact (neg_some c il). Qed.

(** One query covers all theorems of this file. *)
Definition all_theorems_P_JitNeg :=
  (@C18_code_neg,
   @C25_code_dbl_neg).
Print Assumptions all_theorems_P_JitNeg.
