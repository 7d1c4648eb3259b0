(** The machine code of the field functions (src/zm2.cpp, struct PairingCode), instruction by
    instruction, on the default and the SNARK curves [c]; [il] and [mx] are the two properties
    of the processor the generator looks at, [T] the address of the modulus, [cpp c] the
    constant -1/p mod 2^64.
    Specification: JitSpec.v ([calls]: the call comes back, with the callee-saved registers and
    the stack pointer of the caller), JitFpSpec.v (where operands may lie, what memory may
    change), FpSpec.v (the field).  [can c z]: z is reduced; [fv c z] the residue represented by
    z (Montgomery form), [dv c z] that of a double-width z. *)
From Coq Require Import ZArith List.
From Verif Require Import X64 JitSpec JitFpSpec JitFp JitFpEnd.
From Verif Require Import Base Prim FpSpec Cfg FpM FpProofs.
Import ListNotations.
Local Open Scope Z_scope.

(** Fp::add (n = 1) and Fp2::add (n = 2), componentwise; reduced operands, the output may be an operand *)
Theorem C16_code_add c il T s n x y : call2 (make_Fp_add il T n) 3 (4 * n) (4 * n) s -> table c 3 s T -> apart (rdi (rg s)) (4 * n) T 4 -> aliased (4 * n) s ->
  ints (mem s) (rsi (rg s)) 4 n x -> ints (mem s) (rdx (rg s)) 4 n y -> (forall i, 0 <= i < Z.of_nat n -> can c (x i) /\ can c (y i)) ->
  calls (make_Fp_add il T n) s (fun s' => result s s' 4 n (fun i z => can c z /\ fv c z = fadd (fv c (x i)) (fv c (y i))) /\ only 3 (rdi (rg s)) (4 * n) s s').
Proof. exact (Fp_add_end c il T s n x y). Qed.
(** Fp::sub, Fp2::sub *)
Theorem C16_code_sub c il T s n x y : call2 (make_Fp_sub il T n) 3 (4 * n) (4 * n) s -> table c 3 s T -> apart (rdi (rg s)) (4 * n) T 4 -> aliased (4 * n) s ->
  ints (mem s) (rsi (rg s)) 4 n x -> ints (mem s) (rdx (rg s)) 4 n y -> (forall i, 0 <= i < Z.of_nat n -> can c (x i) /\ can c (y i)) ->
  calls (make_Fp_sub il T n) s (fun s' => result s s' 4 n (fun i z => can c z /\ fv c z = fsub (fv c (x i)) (fv c (y i))) /\ only 3 (rdi (rg s)) (4 * n) s s').
Proof. exact (Fp_sub_end c il T s n x y). Qed.
(** Fp::neg; any overlap of operand and output *)
Theorem C16_code_neg c il T s x : call1 (make_Fp_neg il T) 0 4 4 s -> table c 0 s T -> int_at (mem s) (rsi (rg s)) 4 x -> can c x ->
  calls (make_Fp_neg il T) s (fun s' => (exists z, int_at (mem s') (rdi (rg s)) 4 z /\ can c z /\ fv c z = fopp (fv c x)) /\ only 0 (rdi (rg s)) 4 s s').
Proof. exact (Fp_neg_end c il T s x). Qed.
(** Fp::addNC, Fp2::addNC: the sum modulo 2^256 *)
Theorem C16_code_addNC il s n x y : call2 (make_Fp_addNC il n) 0 (4 * n) (4 * n) s -> aliased (4 * n) s ->
  ints (mem s) (rsi (rg s)) 4 n x -> ints (mem s) (rdx (rg s)) 4 n y ->
  calls (make_Fp_addNC il n) s (fun s' => ints (mem s') (rdi (rg s)) 4 n (fun i => (x i + y i) mod 2 ^ 256) /\ only 0 (rdi (rg s)) (4 * n) s s').
Proof. exact (Fp_addNC_end il s n x y). Qed.
(** Fp::subNC; any overlap *)
Theorem C16_code_subNC il s x y : call2 (make_Fp_subNC il) 0 4 4 s -> int_at (mem s) (rsi (rg s)) 4 x -> int_at (mem s) (rdx (rg s)) 4 y ->
  calls (make_Fp_subNC il) s (fun s' => int_at (mem s') (rdi (rg s)) 4 ((x - y) mod 2 ^ 256) /\ only 0 (rdi (rg s)) 4 s s').
Proof. exact (Fp_subNC_end il s x y). Qed.
(** Fp::mul, with and without mulx; any overlap of operands, output and table *)
Theorem C17_code_mul c mx T s x y : call2 (make_Fp_mul mx T (cpp c)) 7 4 4 s -> table c 7 s T -> int_at (mem s) (rsi (rg s)) 4 x -> int_at (mem s) (rdx (rg s)) 4 y ->
  x + cp c < 2 ^ 256 -> x * y < cp c * 2 ^ 256 ->
  calls (make_Fp_mul mx T (cpp c)) s (fun s' => (exists z, int_at (mem s') (rdi (rg s)) 4 z /\ can c z /\ fv c z = fmul (fv c x) (fv c y)) /\ only 7 (rdi (rg s)) 4 s s').
Proof. exact (Fp_mul_end c mx T s x y). Qed.
(** FpDbl::mul: the exact product *)
Theorem C18_code_mul mx s x y : call2 (make_FpDbl_mul mx) 6 8 4 s -> apart (rdi (rg s)) 8 (rsi (rg s)) 4 -> apart (rdi (rg s)) 8 (rdx (rg s)) 4 -> int_at (mem s) (rsi (rg s)) 4 x -> int_at (mem s) (rdx (rg s)) 4 y ->
  calls (make_FpDbl_mul mx) s (fun s' => int_at (mem s') (rdi (rg s)) 8 (x * y) /\ only 6 (rdi (rg s)) 8 s s').
Proof. exact (Dbl_mul_end mx s x y). Qed.
(** FpDbl::mod; the output may overlap the operand *)
Theorem C18_code_mod c mx T s x : call1 (make_FpDbl_mod mx T (cpp c)) 7 4 8 s -> table c 7 s T -> int_at (mem s) (rsi (rg s)) 8 x -> x < cp c * 2 ^ 256 ->
  calls (make_FpDbl_mod mx T (cpp c)) s (fun s' => (exists z, int_at (mem s') (rdi (rg s)) 4 z /\ can c z /\ fv c z = dv c x) /\ only 7 (rdi (rg s)) 4 s s').
Proof. exact (Dbl_mod_end c mx T s x). Qed.
(** FpDbl::add (n = 1), Fp2Dbl::add (n = 2) *)
Theorem C18_code_add c il T s n x y : call2 (make_FpDbl_add il T n) 3 (8 * n) (8 * n) s -> table c 3 s T -> apart (rdi (rg s)) (8 * n) T 4 -> aliased (8 * n) s ->
  ints (mem s) (rsi (rg s)) 8 n x -> ints (mem s) (rdx (rg s)) 8 n y -> (forall i, 0 <= i < Z.of_nat n -> 0 <= x i < cp c * W /\ 0 <= y i < cp c * W) ->
  calls (make_FpDbl_add il T n) s (fun s' => result s s' 8 n (fun i z => 0 <= z < cp c * W /\ dv c z = fadd (dv c (x i)) (dv c (y i))) /\ only 3 (rdi (rg s)) (8 * n) s s').
Proof. exact (Dbl_add_end c il T s n x y). Qed.
(** FpDbl::sub, Fp2Dbl::sub *)
Theorem C18_code_sub c il T s n x y : call2 (make_FpDbl_sub il T n) 3 (8 * n) (8 * n) s -> table c 3 s T -> apart (rdi (rg s)) (8 * n) T 4 -> aliased (8 * n) s ->
  ints (mem s) (rsi (rg s)) 8 n x -> ints (mem s) (rdx (rg s)) 8 n y -> (forall i, 0 <= i < Z.of_nat n -> 0 <= x i < cp c * W /\ 0 <= y i < cp c * W) ->
  calls (make_FpDbl_sub il T n) s (fun s' => result s s' 8 n (fun i z => 0 <= z < cp c * W /\ dv c z = fsub (dv c (x i)) (dv c (y i))) /\ only 3 (rdi (rg s)) (8 * n) s s').
Proof. exact (Dbl_sub_end c il T s n x y). Qed.
(** FpDbl::addNC (n = 1), Fp2Dbl::addNC (n = 2): modulo 2^512 *)
Theorem C18_code_addNC il s n x y : n = 1%nat \/ n = 2%nat -> call2 (make_FpDbl_addNC il n) 4 (8 * n) (8 * n) s -> aliased (8 * n) s ->
  ints (mem s) (rsi (rg s)) 8 n x -> ints (mem s) (rdx (rg s)) 8 n y ->
  calls (make_FpDbl_addNC il n) s (fun s' => ints (mem s') (rdi (rg s)) 8 n (fun i => (x i + y i) mod 2 ^ 512) /\ only 4 (rdi (rg s)) (8 * n) s s').
Proof. exact (Dbl_addNC_end il s n x y). Qed.
(** FpDbl::subNC, Fp2Dbl::subNC *)
Theorem C18_code_subNC il s n x y : call2 (make_FpDbl_subNC il n) 3 (8 * n) (8 * n) s -> aliased (8 * n) s ->
  ints (mem s) (rsi (rg s)) 8 n x -> ints (mem s) (rdx (rg s)) 8 n y ->
  calls (make_FpDbl_subNC il n) s (fun s' => ints (mem s') (rdi (rg s)) 8 n (fun i => (x i - y i) mod 2 ^ 512) /\ only 3 (rdi (rg s)) (8 * n) s s').
Proof. exact (Dbl_subNC_end BNb il 0 s n x y). Qed.
(** Fp::shr1 (n = 1), Fp::shr2 (n = 2) *)
Theorem C20_code_shr s x n : 0 < n < 64 -> call1 (make_Fp_shr n) 0 4 4 s -> int_at (mem s) (rsi (rg s)) 4 x ->
  calls (make_Fp_shr n) s (fun s' => int_at (mem s') (rdi (rg s)) 4 (x / 2 ^ n) /\ only 0 (rdi (rg s)) 4 s s').
Proof. exact (Fp_shr_end s x n). Qed.

(** A call that meets the hypotheses of all of them (state JitFpEnd.ex_fp: two Fp2 operands and
    two Fp2Dbl operands with non-zero, different components, output on the first operand). *)
Example C16_code_some c il mx : exists s, s = ex_fp c 4096 /\ table c 7 s ex_T /\
  ints (mem s) (rsi (rg s)) 4 2 (fun _ => ex_x) /\ ints (mem s) (rdx (rg s)) 4 2 (fun _ => ex_y) /\
  ints (mem s) (rsi (rg s)) 8 2 (fun _ => ex_x + W * ex_x) /\ ints (mem s) (rdx (rg s)) 8 2 (fun _ => ex_y + W * ex_y) /\
  (forall k n, (k <= 7)%nat -> (n <= 16)%nat -> table c k s ex_T /\ aliased n s /\
     call2 (make_Fp_add il ex_T 2) k n n s /\ call2 (make_Fp_sub il ex_T 2) k n n s /\ call1 (make_Fp_neg il ex_T) k n n s /\
     call2 (make_Fp_mul mx ex_T (cpp c)) k n n s /\ call1 (make_FpDbl_mod mx ex_T (cpp c)) k 4 8 s /\
     call2 (make_FpDbl_add il ex_T 2) k n n s /\ call2 (make_FpDbl_sub il ex_T 2) k n n s /\ call2 (make_FpDbl_subNC il 2) k n n s /\ call2 (make_FpDbl_addNC il 2) k n n s /\
     call2 (make_Fp_addNC il 2) k n n s /\ call2 (make_Fp_subNC il) k n n s /\ call1 (make_Fp_shr 1) k n n s /\
     call2 (make_FpDbl_mul mx) k 8 4 (ex_fp c 12288)) /\
  apart (rdi (rg s)) 16 ex_T 4 /\ apart (rdi (rg s)) 8 ex_T 4 /\ apart 12288 8 4096 4 /\ apart 12288 8 8192 4.
Proof. exact (ex_all c il mx). Qed.
Example C17_code_some c : can c ex_x /\ can c ex_y /\ fv c ex_x <> fv c ex_y /\
  0 <= ex_x + W * ex_x < cp c * W /\ 0 <= ex_y + W * ex_y < cp c * W /\
  ex_x + cp c < 2 ^ 256 /\ ex_x * ex_y < cp c * 2 ^ 256.
Proof. exact (let (a, r) := ex_can c in let (b, r) := r in let (d, r) := r in let (e, f) := r in conj a (conj b (conj d (conj e (conj f (ex_small c)))))). Qed.

(** One query covers all theorems of this file. *)
Definition all_theorems_P_JitFp :=
  (@C16_code_add,
   @C16_code_sub,
   @C16_code_neg,
   @C16_code_addNC,
   @C16_code_subNC,
   @C17_code_mul,
   @C18_code_mul,
   @C18_code_mod,
   @C18_code_add,
   @C18_code_sub,
   @C18_code_addNC,
   @C18_code_subNC,
   @C20_code_shr).
Print Assumptions all_theorems_P_JitFp.
