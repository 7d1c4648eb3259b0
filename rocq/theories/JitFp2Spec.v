(** Operands and tables of the generated functions on Fp2, in memory. *)
From Coq Require Import ZArith.
From Verif Require Import Base Prim Cfg X64 JitSpec JitFpSpec TowerSpec.
Local Open Scope Z_scope.

(** two integers of [w] words, one behind the other: an element of Fp2 ([w] = 4) or a
    double-width pair ([w] = 8) *)
Definition pair (w : nat) (m : memory) (a : Z) (x : F2 Z) : Prop :=
  int_at m a w (a2 x) /\ int_at m (a + 8 * Z.of_nat w) w (b2 x).
(** Fp::halfTbl_: 0 and 1/2, i.e. (p + 1) / 2 *)
Definition half_table (c : cfg) (m : memory) (HF : Z) : Prop := int_at m HF 4 0 /\ int_at m (HF + 32) 4 ((cp c + 1) / 2).
(** s_pTbl: the multiples 0, p, ..., 9 p modulo W = 2^256; [T] the address of p *)
Definition p_table (c : cfg) (m : memory) (T : Z) : Prop := forall i, 0 <= i <= 9 -> int_at m (T - 32 + 32 * i) 4 ((i * cp c) mod W).
(** Fp::Dbl::pNTbl_[2]: p W / 4 *)
Definition n_table (c : cfg) (m : memory) (NT : Z) : Prop := int_at m NT 8 (cp c * W / 4).
(** the call leaves at the output a pair with the property [R] and changes no other memory than
    the output and the [k] words of stack *)
Definition leaves (k w : nat) (R : F2 Z -> Prop) (s s' : state) : Prop :=
  (exists z, pair w (mem s') (rdi (rg s)) z /\ R z) /\ only k (rdi (rg s)) (2 * w) s s'.
