(** Operands of the generated line functions in memory. *)
From Coq Require Import ZArith.
From Verif Require Import Base Prim Cfg X64 JitSpec JitFpSpec JitFp2Spec JitFp6Spec TowerSpec.
Local Open Scope Z_scope.

(** the call changes only the [n] words at [out], the [n'] words at [out'] and [k] words of stack *)
Definition only2 (k : nat) (out : Z) (n : nat) (out' : Z) (n' : nat) (s s' : state) : Prop :=
  let sp := rsp (rg s) in
  forall b, b < out \/ out + 8 * Z.of_nat n <= b -> b < out' \/ out' + 8 * Z.of_nat n' <= b -> b < sp - 8 * Z.of_nat k \/ sp <= b -> mem s' b = mem s b.
(** a call f(l, R, ...): l (rdi) receives six elements of Fp, R (rsi) holds a point, three elements
    of Fp2, and receives a point; l, R, the stack and the constants do not overlap *)
Definition callL (C : code) (k : nat) (s : state) : Prop :=
  let g := rg s in called C s /\ stack k s /\ place k s (rdi g) 24 /\ place k s (rsi g) 24 /\ mapped (mem s) (rdi g) 24 /\ apart (rdi g) 24 (rsi g) 24.
(** the operand of [n] words in rdx is apart from both outputs *)
Definition operL (k n : nat) (s : state) : Prop :=
  let g := rg s in place k s (rdx g) n /\ apart (rdi g) 24 (rdx g) n /\ apart (rsi g) 24 (rdx g) n.
Definition constsL (c : cfg) (k : nat) (s : state) (T NT HF : Z) : Prop :=
  consts c k s T NT HF (rdi (rg s)) 24 /\ consts c k s T NT HF (rsi (rg s)) 24.
(** two elements of Fp in memory that the call reads but does not change *)
Definition const2 (k : nat) (s : state) (a : Z) (v : F2 Z) : Prop :=
  let g := rg s in pair 4 (mem s) a v /\ place k s a 8 /\ apart (rdi g) 24 a 8 /\ apart (rsi g) 24 a 8.
(** the call leaves a line value and a point with the property [Q] and changes no other memory *)
Definition leavesL (k : nat) (Q : F3 (F2 Z) -> F3 (F2 Z) -> Prop) (s s' : state) : Prop :=
  (exists l r, six 4 (mem s') (rdi (rg s)) l /\ six 4 (mem s') (rsi (rg s)) r /\ Q l r) /\ only2 k (rdi (rg s)) 24 (rsi (rg s)) 24 s s'.
