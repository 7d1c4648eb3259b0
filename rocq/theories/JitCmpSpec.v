(** The operand of the generated Compress::square_n in memory. *)
From Coq Require Import ZArith.
From Verif Require Import Base Prim Cfg X64 JitSpec JitFpSpec JitFp6Spec FpSpec FpM TowerSpec TowerField Fp2Proofs.
Local Open Scope Z_scope.

(** a call f(z, n): the object at rdi starts with the address [z] of an element of Fp12 (bn.h:2126-2130);
    object, element, stack and constants do not overlap, the count in rsi is a 64 bit number *)
Definition callC (c : cfg) (C : code) (k : nat) (T NT HF z : Z) (s : state) : Prop :=
  let g := rg s in called C s /\ stack k s /\ place k s (rdi g) 1 /\ mem s (rdi g) = Some z /\ place k s z 48 /\ consts c k s T NT HF z 48 /\ 0 <= rsi g < 2 ^ 64.
(** the element at [z] has in its components g2, g3, g4, g5 those of [w], in the other two still those of [x] *)
Definition parts (c : cfg) (x y : F2 (F3 (F2 Z))) (w : K12 c) : Prop :=
  rep2 c (a3 (b2 y)) (a3 (b2 w)) /\ rep2 c (c3 (a2 y)) (c3 (a2 w)) /\ rep2 c (b3 (a2 y)) (b3 (a2 w)) /\ rep2 c (c3 (b2 y)) (c3 (b2 w)) /\
  a3 (a2 y) = a3 (a2 x) /\ b3 (b2 y) = b3 (b2 x).
