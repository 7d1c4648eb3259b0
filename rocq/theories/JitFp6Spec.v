(** Operands of the generated functions on Fp6 and Fp12, and the tables of constants, in memory. *)
From Coq Require Import ZArith.
From Verif Require Import Base Prim Cfg X64 JitSpec JitFpSpec JitFp2Spec TowerSpec.
Local Open Scope Z_scope.

(** three pairs of integers of [w] words: an element of Fp6 ([w] = 4) or a double-width one ([w] = 8) *)
Definition six (w : nat) (m : memory) (a : Z) (x : F3 (F2 Z)) : Prop :=
  let e := 16 * Z.of_nat w in pair w m a (a3 x) /\ pair w m (a + e) (b3 x) /\ pair w m (a + 2 * e) (c3 x).
(** an element of Fp12 *)
Definition twelve (m : memory) (a : Z) (x : F2 (F3 (F2 Z))) : Prop := six 4 m a (a2 x) /\ six 4 m (a + 192) (b2 x).
(** the constants of the library in memory (s_pTbl around [T], pNTbl_[2] at [NT], halfTbl_ at [HF]), apart
    from the stack and from the [n] words of output at [out] *)
Definition consts (c : cfg) (k : nat) (s : state) (T NT HF out : Z) (n : nat) : Prop :=
  p_table c (mem s) T /\ place k s (T - 32) 40 /\ apart out n (T - 32) 40 /\
  n_table c (mem s) NT /\ place k s NT 8 /\ apart out n NT 8 /\
  half_table c (mem s) HF /\ place k s HF 8 /\ apart out n HF 8.
(** the call leaves at the output a value with the property [R] and changes no other memory than
    the output and the [k] words of stack *)
Definition leaves6 (k w : nat) (R : F3 (F2 Z) -> Prop) (s s' : state) : Prop :=
  (exists z, six w (mem s') (rdi (rg s)) z /\ R z) /\ only k (rdi (rg s)) (6 * w) s s'.
Definition leaves12 (k : nat) (R : F2 (F3 (F2 Z)) -> Prop) (s s' : state) : Prop :=
  (exists z, twelve (mem s') (rdi (rg s)) z /\ R z) /\ only k (rdi (rg s)) 48 s s'.
