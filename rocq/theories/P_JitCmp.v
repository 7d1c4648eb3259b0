(** The machine code of Compress::square_n (src/zm2.cpp:2346-2530, make_Compress_square_n and the
    subroutines it calls), instruction by instruction, its loop included; the notions of P_JitFp6.v, and
    JitCmpSpec.v: [callC c C k T NT HF z s]: a call f(obj, n) of the code [C], the object at rdi refers to
    the element of Fp12 at [z], n is in rsi; [parts c x y w]: the components g2, g3, g4, g5 of [y] are
    those of [w], the two others are left as in [x].  On the curves other than SNARK. *)
From Coq Require Import ZArith List.
From Verif Require Import X64 JitSpec JitFpSpec JitFpEnd JitFp2Spec JitFp2End JitFp6Spec JitFp12Api JitFp6End JitCmpSpec JitCmp JitCmpEnd.
From Verif Require Import Base Prim FpSpec Cfg FpM FpProofs TowerSpec TowerField TowerM Fp2Proofs Fp6Proofs ParamM FinalM Frob.
Local Open Scope Z_scope.

(** n squarings, for every n from 1 to 2^64 - 1: every call returns *)
Theorem C31_code_square_n c il mx T NT HF s z x (v : K12 c) : snark c = false ->
  callC c (make_Compress_square_n il mx false T (cpp c) HF NT) 104 T NT HF z s -> twelve (mem s) z x -> rep12 c x v -> cyclo c v -> rsi (rg s) <> 0 ->
  calls (make_Compress_square_n il mx false T (cpp c) HF NT) s (fun s' =>
    (exists y, twelve (mem s') z y /\ parts c x y (rpz v (2 ^ rsi (rg s)))) /\ only 104 z 48 s s').
Proof. exact (square_n_end c il mx T NT HF s z x v). Qed.
(** ... and with n = 0 the code squares 2^64 times *)
Theorem C31_code_square_n_0_wraps c il mx T NT HF s z x (v : K12 c) : snark c = false ->
  callC c (make_Compress_square_n il mx false T (cpp c) HF NT) 104 T NT HF z s -> twelve (mem s) z x -> rep12 c x v -> cyclo c v -> rsi (rg s) = 0 ->
  calls (make_Compress_square_n il mx false T (cpp c) HF NT) s (fun s' =>
    (exists y, twelve (mem s') z y /\ parts c x y (rpz v (2 ^ (2 ^ 64)))) /\ only 104 z 48 s s').
Proof. exact (square_0_end c il mx T NT HF s z x v). Qed.
(** what is left decompresses (C++) to the power *)
Theorem C31_code_parts_decompress c x P y (w : K12 c) : paramInit (snark c) (curveOf c) = Ok P -> cyclo c w -> parts c x y w ->
  exists y', cmp_decompress c P (compress y) = Ok y' /\ rep12 c y' w.
Proof. exact (parts_decompress c x P y w). Qed.
Example C31_code_some c il mx n : snark c = false -> 0 <= n < 2 ^ 64 -> exists x v, rep12 c x v /\ cyclo c v /\ v <> ro /\
  let s := exC c (l12 x) n in twelve (mem s) 4096 x /\ rsi (rg s) = n /\ callC c (make_Compress_square_n il mx false ex_T (cpp c) ex_HF ex_NT) 104 ex_T ex_NT ex_HF 4096 s.
Proof. exact (exC_some c il mx n). Qed.

(** One query covers all theorems of this file. *)
Definition all_theorems_P_JitCmp :=
  (@C31_code_square_n,
   @C31_code_square_n_0_wraps,
   @C31_code_parts_decompress).
Print Assumptions all_theorems_P_JitCmp.
