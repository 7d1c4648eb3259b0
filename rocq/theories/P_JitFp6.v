(** The machine code of the functions on Fp6 and Fp12 (src/zm2.cpp, struct PairingCode), instruction by
    instruction, with all the subroutines they call; the notions of P_JitFp2.v, and JitFp6Spec.v:
    [six w m a x]: the six integers of [x] lie in [w] words each from [a] on; [twelve m a x]: the same
    for the twelve integers of an element of Fp12 (four words each); [consts c k s T NT HF o n]: the
    constants the code reads are in memory, apart from the [k] words of stack and from the [n] words of
    output at [o]; [leaves6], [leaves12]: the call leaves at its first argument a value with the given
    property and changes nothing else but [k] words below the stack pointer.  [aliased n s]: the output
    is one of the operands or apart from it. *)
From Coq Require Import ZArith List.
From Verif Require Import X64 JitSpec JitFpSpec JitFp JitFpEnd JitFp2 JitFp2Spec JitFp2End JitFp6Spec JitFp6 JitFp6Sub JitFp12Api JitFp6End.
From Verif Require Import Base Prim FpSpec Cfg FpM FpProofs TowerSpec TowerField TowerM Fp2Proofs Fp6Proofs SnarkPow.
Import ListNotations.
Local Open Scope Z_scope.

(** Fp6::add, Fp6::sub *)
Theorem C26_code_add c il mx T NT HF s (x y : F3 (F2 Z)) (v w : K6 c) : rep6 c x v -> rep6 c y w -> six 4 (mem s) (rsi (rg s)) x -> six 4 (mem s) (rdx (rg s)) y ->
  call2 (make_Fp6_add il mx (snark c) T (cpp c) NT) 4 24 24 s -> aliased 24 s -> consts c 4 s T NT HF (rdi (rg s)) 24 ->
  calls (make_Fp6_add il mx (snark c) T (cpp c) NT) s (leaves6 4 4 (fun z => rep6 c z (radd v w)) s).
Proof. exact (Fp6_add_end c il mx T NT HF s x y v w). Qed.
Theorem C26_code_sub c il mx T NT HF s (x y : F3 (F2 Z)) (v w : K6 c) : rep6 c x v -> rep6 c y w -> six 4 (mem s) (rsi (rg s)) x -> six 4 (mem s) (rdx (rg s)) y ->
  call2 (make_Fp6_sub il mx (snark c) T (cpp c) NT) 4 24 24 s -> aliased 24 s -> consts c 4 s T NT HF (rdi (rg s)) 24 ->
  calls (make_Fp6_sub il mx (snark c) T (cpp c) NT) s (leaves6 4 4 (fun z => rep6 c z (rsub v w)) s).
Proof. exact (Fp6_sub_end c il mx T NT HF s x y v w). Qed.
(** Fp6::mul on the curves other than SNARK *)
Theorem C26_code_mul c il mx T NT HF s (x y : F3 (F2 Z)) (v w : K6 c) : rep6 c x v -> rep6 c y w -> six 4 (mem s) (rsi (rg s)) x -> six 4 (mem s) (rdx (rg s)) y ->
  snark c = false -> call2 (make_Fp6_mul il mx (snark c) T (cpp c) NT) 137 24 24 s -> aliased 24 s -> consts c 137 s T NT HF (rdi (rg s)) 24 ->
  calls (make_Fp6_mul il mx (snark c) T (cpp c) NT) s (leaves6 137 4 (fun z => rep6 c z (rmul v w)) s).
Proof. exact (Fp6_mul_end c il mx T NT HF s x y v w). Qed.
(** ... and on all curves: the residues are right, one component may be unreduced *)
Theorem C26_code_mul_value c il mx T NT HF s (x y : F3 (F2 Z)) (v w : K6 c) : rep6 c x v -> rep6 c y w -> six 4 (mem s) (rsi (rg s)) x -> six 4 (mem s) (rdx (rg s)) y ->
  call2 (make_Fp6_mul il mx (snark c) T (cpp c) NT) 137 24 24 s -> aliased 24 s -> consts c 137 s T NT HF (rdi (rg s)) 24 ->
  calls (make_Fp6_mul il mx (snark c) T (cpp c) NT) s (leaves6 137 4 (fun z =>
    rep2 c (a3 z) (a3 (rmul v w)) /\ rep2 c (b3 z) (b3 (rmul v w)) /\ rep1 c (a2 (c3 z)) (a2 (c3 (rmul v w))) /\ fv c (b2 (c3 z)) = b2 (c3 (rmul v w)) /\ 0 <= b2 (c3 z) < 2 * cp c) s).
Proof. exact (Fp6_mul_value_end c il mx T NT HF s x y v w). Qed.
(** Fp6Dbl::mul: the double-width product *)
Theorem C26_code_dbl_mul c il mx T NT HF s (x y : F3 (F2 Z)) (v w : K6 c) : rep6 c x v -> rep6 c y w -> six 4 (mem s) (rsi (rg s)) x -> six 4 (mem s) (rdx (rg s)) y ->
  snark c = false -> call2 (make_Fp6Dbl_mul il mx (snark c) T (cpp c) NT) 88 48 24 s -> apart (rdi (rg s)) 48 (rsi (rg s)) 24 -> apart (rdi (rg s)) 48 (rdx (rg s)) 24 -> consts c 88 s T NT HF (rdi (rg s)) 48 ->
  calls (make_Fp6Dbl_mul il mx (snark c) T (cpp c) NT) s (leaves6 88 8 (fun z => drep6 c z (rmul v w)) s).
Proof. exact (Fp6Dbl_mul_end c il mx T NT HF s x y v w). Qed.
(** A state meeting the hypotheses above. *)
Example C26_code_some : forall c il mx, exists x y v w, rep6 c x v /\ rep6 c y w /\ v <> rz /\ v <> ro /\ w <> v /\
  let s := ex6 c 12288 4096 (l6 x) (l6 y) in
  six 4 (mem s) (rsi (rg s)) x /\ six 4 (mem s) (rdx (rg s)) y /\ aliased 24 s /\ apart (rdi (rg s)) 48 (rsi (rg s)) 24 /\ apart (rdi (rg s)) 48 (rdx (rg s)) 24 /\
  call2 (make_Fp6_add il mx (snark c) ex_T (cpp c) ex_NT) 4 24 24 s /\ call2 (make_Fp6_sub il mx (snark c) ex_T (cpp c) ex_NT) 4 24 24 s /\ consts c 4 s ex_T ex_NT ex_HF (rdi (rg s)) 24 /\
  call2 (make_Fp6_mul il mx (snark c) ex_T (cpp c) ex_NT) 137 24 24 s /\ consts c 137 s ex_T ex_NT ex_HF (rdi (rg s)) 24 /\
  call2 (make_Fp6Dbl_mul il mx (snark c) ex_T (cpp c) ex_NT) 88 48 24 s /\ consts c 88 s ex_T ex_NT ex_HF (rdi (rg s)) 48.
Proof. exact ex6_some. Qed.

(** Fp12::mul on the curves other than SNARK *)
Theorem C27_code_mul c il mx T NT HF s (x y : F2 (F3 (F2 Z))) (v w : K12 c) : rep12 c x v -> rep12 c y w ->
  snark c = false -> call2 (make_Fp12_mul il mx (snark c) T (cpp c) NT) 379 48 48 s -> aliased 48 s -> consts c 379 s T NT HF (rdi (rg s)) 48 ->
  twelve (mem s) (rsi (rg s)) x -> twelve (mem s) (rdx (rg s)) y ->
  calls (make_Fp12_mul il mx (snark c) T (cpp c) NT) s (leaves12 379 (fun z => rep12 c z (rmul v w)) s).
Proof. exact (Fp12_mul_end c il mx T NT HF s x y v w). Qed.
(** ... on all curves as long as the double-size Fp6 products stay below p 2^256 ([in12], P_Snark.v) *)
Theorem C27_code_mul_in_range c il mx T NT HF s (x y : F2 (F3 (F2 Z))) (v w : K12 c) : rep12 c x v -> rep12 c y w ->
  in12 c x y -> call2 (make_Fp12_mul il mx (snark c) T (cpp c) NT) 379 48 48 s -> aliased 48 s -> consts c 379 s T NT HF (rdi (rg s)) 48 ->
  twelve (mem s) (rsi (rg s)) x -> twelve (mem s) (rdx (rg s)) y ->
  calls (make_Fp12_mul il mx (snark c) T (cpp c) NT) s (leaves12 379 (fun z => rep12 c z (rmul v w)) s).
Proof. exact (Fp12_mul_in_end c il mx T NT HF s x y v w). Qed.
(** ... which they need not: a call on a SNARK curve whose result is wrong *)
Theorem C27_code_mul_snark_refuted c il mx : snark c = true -> exists s x y v w, call2 (make_Fp12_mul il mx (snark c) ex_T (cpp c) ex_NT) 379 48 48 s /\ aliased 48 s /\ consts c 379 s ex_T ex_NT ex_HF (rdi (rg s)) 48 /\
  twelve (mem s) (rsi (rg s)) x /\ twelve (mem s) (rdx (rg s)) y /\ rep12 c x v /\ rep12 c y w /\
  calls (make_Fp12_mul il mx (snark c) ex_T (cpp c) ex_NT) s (leaves12 379 (fun z => fv c (a2 (a3 (a2 z))) <> a2 (a3 (a2 (rmul v w)))) s).
Proof. exact (Fp12_mul_wrong_end c il mx). Qed.
(** Fp12::square, in place *)
Theorem C27_code_square c il mx T NT HF s (x : F2 (F3 (F2 Z))) (v : K12 c) : rep12 c x v ->
  snark c = false -> called (make_Fp12_square il mx (snark c) T (cpp c) NT) s -> stack 186 s -> place 186 s (rdi (rg s)) 48 -> mapped (mem s) (rdi (rg s)) 48 -> consts c 186 s T NT HF (rdi (rg s)) 48 ->
  twelve (mem s) (rdi (rg s)) x ->
  calls (make_Fp12_square il mx (snark c) T (cpp c) NT) s (leaves12 186 (fun z => rep12 c z (rmul v v)) s).
Proof. exact (Fp12_square_end c il mx T NT HF s x v). Qed.
(** ... on all curves as long as the double-size Fp6 products stay below p 2^256 ([in12sq], P_Snark.v) *)
Theorem C27_code_square_in_range c il mx T NT HF s (x : F2 (F3 (F2 Z))) (v : K12 c) : rep12 c x v ->
  in12sq c x -> called (make_Fp12_square il mx (snark c) T (cpp c) NT) s -> stack 186 s -> place 186 s (rdi (rg s)) 48 -> mapped (mem s) (rdi (rg s)) 48 -> consts c 186 s T NT HF (rdi (rg s)) 48 ->
  twelve (mem s) (rdi (rg s)) x ->
  calls (make_Fp12_square il mx (snark c) T (cpp c) NT) s (leaves12 186 (fun z => rep12 c z (rmul v v)) s).
Proof. exact (Fp12_square_in_end c il mx T NT HF s x v). Qed.
Example C27_code_some : forall c il mx, exists x y v w, rep12 c x v /\ rep12 c y w /\ v <> rz /\ v <> ro /\ w <> v /\
  let s := ex6 c 12288 4096 (l12 x) (l12 y) in
  twelve (mem s) (rsi (rg s)) x /\ twelve (mem s) (rdx (rg s)) y /\ aliased 48 s /\
  call2 (make_Fp12_mul il mx (snark c) ex_T (cpp c) ex_NT) 379 48 48 s /\ consts c 379 s ex_T ex_NT ex_HF (rdi (rg s)) 48.
Proof. exact ex12_some. Qed.

(** Fp12::Dbl::mul_Fp2_024: the product by a line (C28_mul_024), in place *)
Theorem C28_code_mul_024 c il mx T NT HF s x u (v : K12 c) (w : K6 c) :
  call1 (make_Fp12Dbl_mul_Fp2_024 il mx (snark c) T (cpp c) NT) 151 48 24 s -> apart (rdi (rg s)) 48 (rsi (rg s)) 24 -> consts c 151 s T NT HF (rdi (rg s)) 48 ->
  twelve (mem s) (rdi (rg s)) x -> six 4 (mem s) (rsi (rg s)) u -> rep12 c x v -> rep6 c u w ->
  calls (make_Fp12Dbl_mul_Fp2_024 il mx (snark c) T (cpp c) NT) s (leaves12 151 (fun z => rep12 c z (rmul v (mk2 (mk3 (a3 w) rz (c3 w)) (mk3 rz (b3 w) rz) : K12 c))) s).
Proof. exact (mul_024_end c il mx T NT HF s x u v w). Qed.
(** A state meeting the hypotheses of mul_024 and square. *)
Example C28_code_some : forall c il mx, exists x u v w, rep12 c x v /\ rep6 c u w /\ v <> rz /\ v <> ro /\ w <> rz /\ w <> ro /\ in12sq c x /\
  let s := ex6 c 4096 8192 (l12 x) (l6 u) in
  twelve (mem s) (rdi (rg s)) x /\ six 4 (mem s) (rsi (rg s)) u /\ apart (rdi (rg s)) 48 (rsi (rg s)) 24 /\
  call1 (make_Fp12Dbl_mul_Fp2_024 il mx (snark c) ex_T (cpp c) ex_NT) 151 48 24 s /\ consts c 151 s ex_T ex_NT ex_HF (rdi (rg s)) 48 /\
  called (make_Fp12_square il mx (snark c) ex_T (cpp c) ex_NT) s /\ stack 186 s /\ place 186 s (rdi (rg s)) 48 /\ mapped (mem s) (rdi (rg s)) 48 /\ consts c 186 s ex_T ex_NT ex_HF (rdi (rg s)) 48.
Proof. exact ex12_inplace. Qed.

(** One query covers all theorems of this file. *)
Definition all_theorems_P_JitFp6 :=
  (@C26_code_add,
   @C26_code_sub,
   @C26_code_mul,
   @C26_code_mul_value,
   @C26_code_dbl_mul,
   @C27_code_mul,
   @C27_code_mul_in_range,
   @C27_code_mul_snark_refuted,
   @C27_code_square,
   @C27_code_square_in_range,
   @C28_code_mul_024).
Print Assumptions all_theorems_P_JitFp6.
