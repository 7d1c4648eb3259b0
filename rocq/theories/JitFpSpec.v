(** How generated field functions are called: the stack they may use, where operands may lie,
    which memory a call changes. *)
From Coq Require Import ZArith List Bool.
From Verif Require Import Base Cfg X64 JitSpec.
Import ListNotations.
Local Open Scope Z_scope.

(** [k] words below the return address can be used *)
Definition stack (k : nat) (s : state) : Prop :=
  let sp := rsp (rg s) in 8 * Z.of_nat k <= sp /\ mapped (mem s) (sp - 8 * Z.of_nat k) k.
(** [n] words at [a] that lie below the end of the address space and do not touch the stack:
    neither the return address nor the [k] words below it *)
Definition place (k : nat) (s : state) (a : Z) (n : nat) : Prop :=
  area a n /\ apart (rsp (rg s) - 8 * Z.of_nat k) (S k) a n.
(** p, as four words at [T] *)
Definition table (c : cfg) (k : nat) (s : state) (T : Z) : Prop :=
  int_at (mem s) T 4 (cp c) /\ place k s T 4.
(** the call changes only the [n] words at [out] and the [k] words below the return address *)
Definition only (k : nat) (out : Z) (n : nat) (s s' : state) : Prop :=
  let sp := rsp (rg s) in
  forall b, b < out \/ out + 8 * Z.of_nat n <= b -> b < sp - 8 * Z.of_nat k \/ sp <= b -> mem s' b = mem s b.
(** two operands of [n] words are the same or do not overlap *)
Definition same_or_apart (a b : Z) (n : nat) : Prop := a = b \/ apart a n b n.
(** A call of a function of two operands (pointers in rsi and rdx, output in rdi) of the
    generated code [C]: [no] words of output, [n] words of operand each; of one operand. *)
Definition call2 (C : code) (k no n : nat) (s : state) : Prop :=
  called C s /\ stack k s /\ place k s (rdi (rg s)) no /\ place k s (rsi (rg s)) n /\ place k s (rdx (rg s)) n /\
  mapped (mem s) (rdi (rg s)) no.
Definition call1 (C : code) (k no n : nat) (s : state) : Prop :=
  called C s /\ stack k s /\ place k s (rdi (rg s)) no /\ place k s (rsi (rg s)) n /\ mapped (mem s) (rdi (rg s)) no.
(** the output is one of the operands or apart from them *)
Definition aliased (n : nat) (s : state) : Prop :=
  same_or_apart (rdi (rg s)) (rsi (rg s)) n /\ same_or_apart (rdi (rg s)) (rdx (rg s)) n.
(** [cnt] integers of [w] words each, at [a] *)
Definition ints (m : memory) (a : Z) (w cnt : nat) (x : Z -> Z) : Prop :=
  forall i, 0 <= i < Z.of_nat cnt -> int_at m (a + 8 * Z.of_nat w * i) w (x i).
(** what the call leaves: [cnt] integers of [w] words, each with the property [R i] *)
Definition result (s s' : state) (w cnt : nat) (R : Z -> Z -> Prop) : Prop :=
  exists z, ints (mem s') (rdi (rg s)) w cnt z /\ forall i, 0 <= i < Z.of_nat cnt -> R i (z i).
