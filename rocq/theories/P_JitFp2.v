(** The machine code of the functions on Fp2 (src/zm2.cpp, struct PairingCode), instruction by
    instruction; the notions of JitSpec.v and JitFpSpec.v as in P_JitFp.v, and JitFp2Spec.v:
    [pair w m a x]: the two components of [x] lie in [w] words each from [a] on; [leaves k w R s]:
    the call leaves at its first argument a pair [z] with [R z] and changes nothing else but [k]
    words below the stack pointer.  [rep2 c z v]: z has reduced components and represents v in
    Fp[u]/(u^2+1); [drep2]: the same for double-width components below p 2^256.
    [p_table], [n_table], [half_table]: the constants the code reads, at the addresses [T] (the
    multiples of p from T - 32 on), [NT] (p 2^256 / 4), [HF] (0 and (p+1)/2). *)
From Coq Require Import ZArith List.
From Verif Require Import X64 JitSpec JitFpSpec JitFp JitFpEnd JitFp2 JitFp2Spec JitFp2End.
From Verif Require Import Base Prim FpSpec Cfg FpM FpProofs TowerSpec TowerField TowerM Fp2Proofs.
Import ListNotations.
Local Open Scope Z_scope.

(** Fp2::mul; the output may overlap the operands in any way *)
Theorem C25_code_mul c il mx T s (x y : F2 Z) (v w : K2 c) : call2 (make_Fp2_mul il mx T (cpp c)) 40 8 8 s -> table c 40 s T -> apart (rdi (rg s)) 8 T 4 -> pair 4 (mem s) (rsi (rg s)) x -> pair 4 (mem s) (rdx (rg s)) y -> rep2 c x v -> rep2 c y w -> calls (make_Fp2_mul il mx T (cpp c)) s (leaves 40 4 (fun z => rep2 c z (rmul v w)) s).
Proof. exact (Fp2_mul_end c il mx T s x y v w). Qed.
(** Fp2::square; the output is the operand or apart from it *)
Theorem C25_code_square c il mx T s (x : F2 Z) (v : K2 c) : call1 (make_Fp2_square il mx (snark c) T (cpp c)) 28 8 8 s -> table c 28 s T -> apart (rdi (rg s)) 8 T 4 -> same_or_apart (rdi (rg s)) (rsi (rg s)) 8 -> pair 4 (mem s) (rsi (rg s)) x -> rep2 c x v -> calls (make_Fp2_square il mx (snark c) T (cpp c)) s (leaves 28 4 (fun z => rep2 c z (rmul v v)) s).
Proof. exact (Fp2_square_end c il mx T s x v). Qed.
(** Fp2::mul_Fp_0: the product by an element of Fp *)
Theorem C25_code_mul_Fp_0 c mx T s (x : F2 Z) (v : K2 c) b (u : FpR (cp c)) : call2 (make_Fp2_mul_Fp_0 mx T (cpp c)) 7 8 8 s -> table c 7 s T -> apart (rdi (rg s)) 8 T 4 -> same_or_apart (rdi (rg s)) (rsi (rg s)) 8 -> apart (rdi (rg s)) 8 (rdx (rg s)) 4 -> pair 4 (mem s) (rsi (rg s)) x -> int_at (mem s) (rdx (rg s)) 4 b -> rep2 c x v -> rep1 c b u -> calls (make_Fp2_mul_Fp_0 mx T (cpp c)) s (leaves 7 4 (fun z => rep2 c z (rmul v (mk2 u rz : K2 c))) s).
Proof. exact (Fp2_mul_Fp_0_end c mx T s x v b u). Qed.
(** Fp2::divBy2 *)
Theorem C25_code_divBy2 c T s (x : F2 Z) (v : K2 c) HF : call1 (make_Fp2_divBy2 T HF) 4 8 8 s -> half_table c (mem s) HF -> place 4 s HF 8 -> 0 <= T < B -> apart (rdi (rg s)) 8 HF 8 -> same_or_apart (rdi (rg s)) (rsi (rg s)) 8 -> pair 4 (mem s) (rsi (rg s)) x -> rep2 c x v -> calls (make_Fp2_divBy2 T HF) s (leaves 4 4 (fun z => exists h, rep2 c z h /\ radd h h = v) s).
Proof. exact (Fp2_divBy2_end c T s x v HF). Qed.
(** Fp2::mul_xi with the output apart from the operand *)
Theorem C25_code_mul_xi c il mx T s (x : F2 Z) (v : K2 c) : call1 (make_Fp2_mul_xi il mx (snark c) T) 3 8 8 s -> p_table c (mem s) T -> place 3 s (T - 32) 40 -> apart (rdi (rg s)) 8 (T - 32) 40 -> apart (rdi (rg s)) 8 (rsi (rg s)) 8 -> pair 4 (mem s) (rsi (rg s)) x -> rep2 c x v -> calls (make_Fp2_mul_xi il mx (snark c) T) s (leaves 3 4 (fun z => rep2 c z (rmul (xi c) v)) s).
Proof. exact (Fp2_mul_xi_end c il mx T s x v). Qed.
(** Fp2Dbl::mulOpt1 and mulOpt2 *)
Theorem C25_code_dbl_mul c il mx T s (x y : F2 Z) (v w : K2 c) NT mode1 : call2 (make_Fp2Dbl_mulOpt il mx T NT mode1) 23 16 8 s -> table c 23 s T -> n_table c (mem s) NT -> place 23 s NT 8 -> apart (rdi (rg s)) 16 T 4 -> apart (rdi (rg s)) 16 NT 8 -> apart (rdi (rg s)) 16 (rsi (rg s)) 8 -> apart (rdi (rg s)) 16 (rdx (rg s)) 8 -> pair 4 (mem s) (rsi (rg s)) x -> pair 4 (mem s) (rdx (rg s)) y -> rep2 c x v -> rep2 c y w -> calls (make_Fp2Dbl_mulOpt il mx T NT mode1) s (leaves 23 8 (fun z => drep2 c z (rmul v w)) s).
Proof. exact (Fp2Dbl_mulOpt_end c il mx T s x y v w NT mode1). Qed.
(** Fp2Dbl::square *)
Theorem C25_code_dbl_square c il mx T s (x : F2 Z) (v : K2 c) : call1 (make_Fp2Dbl_square il mx T) 14 16 8 s -> table c 14 s T -> apart (rdi (rg s)) 16 T 4 -> apart (rdi (rg s)) 16 (rsi (rg s)) 8 -> pair 4 (mem s) (rsi (rg s)) x -> rep2 c x v -> calls (make_Fp2Dbl_square il mx T) s (leaves 14 8 (fun z => drep2 c z (rmul v v)) s).
Proof. exact (Fp2Dbl_square_end c il mx T s x v). Qed.
(** Fp2Dbl::mul_xi *)
Theorem C25_code_dbl_mul_xi c il T s (x : F2 Z) (v : K2 c) : call1 (make_Fp2Dbl_mul_xi il (snark c) T) 4 16 16 s -> table c 4 s T -> apart (rdi (rg s)) 16 T 4 -> apart (rdi (rg s)) 16 (rsi (rg s)) 16 -> pair 8 (mem s) (rsi (rg s)) x -> drep2 c x v -> calls (make_Fp2Dbl_mul_xi il (snark c) T) s (leaves 4 8 (fun z => drep2 c z (rmul (xi c) v)) s).
Proof. exact (Fp2Dbl_mul_xi_end c il T s x v). Qed.
(** Fp2Dbl::mod; the output may start at the operand *)
Theorem C25_code_dbl_mod c mx T s (x : F2 Z) (v : K2 c) : call1 (make_Fp2Dbl_mod mx T (cpp c)) 7 8 16 s -> table c 7 s T -> apart (rdi (rg s)) 8 T 4 -> apart (rdi (rg s)) 8 (rsi (rg s)) 16 \/ rdi (rg s) = rsi (rg s) -> pair 8 (mem s) (rsi (rg s)) x -> drep2 c x v -> calls (make_Fp2Dbl_mod mx T (cpp c)) s (leaves 7 4 (fun z => rep2 c z v) s).
Proof. exact (Fp2Dbl_mod_end c mx T s x v). Qed.
(** mul_xi with the output on the operand: a call whose result is not the product *)
Theorem C25_code_mul_xi_alias_refuted c il mx : exists s x v, call1 (make_Fp2_mul_xi il mx (snark c) ex_T) 3 8 8 s /\ p_table c (mem s) ex_T /\ place 3 s (ex_T - 32) 40 /\ apart (rdi (rg s)) 8 (ex_T - 32) 40 /\ rdi (rg s) = rsi (rg s) /\ pair 4 (mem s) (rsi (rg s)) x /\ rep2 c x v /\ calls (make_Fp2_mul_xi il mx (snark c) ex_T) s (leaves 3 4 (fun z => ~ rep2 c z (rmul (xi c) v)) s).
Proof. exact (mul_xi_alias_end c il mx). Qed.
(** A state meeting all hypotheses above. *)
Example C25_code_some : forall c il mx, exists x y v w, rep2 c x v /\ rep2 c y w /\ v <> rz /\ v <> ro /\ w <> v /\
  let s := ex2 c 12288 4 x y in
  pair 4 (mem s) (rsi (rg s)) x /\ pair 4 (mem s) (rdx (rg s)) y /\ int_at (mem s) (rdx (rg s)) 4 (a2 y) /\ rep1 c (a2 y) (a2 w) /\
  table c 40 s ex_T /\ table c 28 s ex_T /\ table c 23 s ex_T /\ table c 14 s ex_T /\ table c 7 s ex_T /\
  p_table c (mem s) ex_T /\ place 3 s (ex_T - 32) 40 /\ n_table c (mem s) ex_NT /\ place 23 s ex_NT 8 /\ half_table c (mem s) ex_HF /\ place 4 s ex_HF 8 /\
  call2 (make_Fp2_mul il mx ex_T (cpp c)) 40 8 8 s /\ call1 (make_Fp2_square il mx (snark c) ex_T (cpp c)) 28 8 8 s /\
  call2 (make_Fp2_mul_Fp_0 mx ex_T (cpp c)) 7 8 8 s /\ call1 (make_Fp2_divBy2 ex_T ex_HF) 4 8 8 s /\ call1 (make_Fp2_mul_xi il mx (snark c) ex_T) 3 8 8 s /\
  (forall mode1, call2 (make_Fp2Dbl_mulOpt il mx ex_T ex_NT mode1) 23 16 8 s) /\ call1 (make_Fp2Dbl_square il mx ex_T) 14 16 8 s /\
  apart 12288 16 ex_T 4 /\ apart 12288 16 (ex_T - 32) 40 /\ apart 12288 16 ex_NT 8 /\ apart 12288 16 ex_HF 8 /\ apart 12288 16 4096 8 /\ apart 12288 16 8192 8 /\ rdi (rg s) = 12288 /\ rsi (rg s) = 4096 /\ rdx (rg s) = 8192.
Proof. exact ex2_some. Qed.
Example C25_code_dbl_some : forall c il mx, exists x v, drep2 c x v /\
  let s := ex2 c 12288 8 x x in
  pair 8 (mem s) (rsi (rg s)) x /\ table c 4 s ex_T /\ table c 7 s ex_T /\
  call1 (make_Fp2Dbl_mul_xi il (snark c) ex_T) 4 16 16 s /\ call1 (make_Fp2Dbl_mod mx ex_T (cpp c)) 7 8 16 s /\
  apart 12288 16 ex_T 4 /\ apart 12288 8 ex_T 4 /\ apart 12288 16 4096 16 /\ apart 12288 8 4096 16 /\ rdi (rg s) = 12288 /\ rsi (rg s) = 4096.
Proof. exact ex2_dsome. Qed.

(** One query covers all theorems of this file. *)
Definition all_theorems_P_JitFp2 :=
  (@C25_code_mul,
   @C25_code_square,
   @C25_code_mul_Fp_0,
   @C25_code_divBy2,
   @C25_code_mul_xi,
   @C25_code_dbl_mul,
   @C25_code_dbl_square,
   @C25_code_dbl_mul_xi,
   @C25_code_dbl_mod,
   @C25_code_mul_xi_alias_refuted).
Print Assumptions all_theorems_P_JitFp2.
