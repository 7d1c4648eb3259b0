(** What a caller of generated code sees: vectors of 64-bit words in memory, the memory that
    a call leaves alone, the registers it must preserve (System V AMD64 calling convention). *)
From Coq Require Import ZArith List Bool Lia.
From Verif Require Import Base X64.
Import ListNotations.
Local Open Scope Z_scope.

(** the words [l] lie in memory from address [a] on *)
Fixpoint words (m : memory) (a : Z) (l : list Z) : Prop :=
  match l with
  | [] => True
  | v :: l' => m a = Some v /\ words m (a + 8) l'
  end.
(** [n] words from address [a] on are accessible *)
Fixpoint mapped (m : memory) (a : Z) (n : nat) : Prop :=
  match n with
  | O => True
  | S n' => (exists v, m a = Some v) /\ mapped m (a + 8) n'
  end.
(** the memory is the same outside the [n] words from [a] on *)
Definition same_but (m m' : memory) (a : Z) (n : nat) : Prop :=
  forall b, b < a \/ a + 8 * Z.of_nat n <= b -> m' b = m b.
(** an area of [n] words at [a] lies below the end of the address space *)
Definition area (a : Z) (n : nat) : Prop := 0 <= a /\ a + 8 * Z.of_nat n < B.
(** two areas do not overlap *)
Definition apart (a : Z) (n : nat) (b : Z) (k : nat) : Prop :=
  a + 8 * Z.of_nat n <= b \/ b + 8 * Z.of_nat k <= a.
(** the output area is not ahead of the input area it overlaps: equal, before it, or apart *)
Definition behind (out x : Z) (n : nat) : Prop := out <= x \/ x + 8 * Z.of_nat n <= out.
Definition ahead (out x : Z) (n : nat) : Prop := x <= out \/ out + 8 * Z.of_nat n <= x.
(** registers a function must give back unchanged *)
Definition callee_saved (g g' : regs) : Prop :=
  rbx g' = rbx g /\ rbp g' = rbp g /\ r12 g' = r12 g /\ r13 g' = r13 g /\ r14 g' = r14 g /\ r15 g' = r15 g.
(** the call returns to the address [ra] found on top of the stack, pops it and preserves the
    registers *)
Definition returned (s : state) (t : Z) (s' : state) : Prop :=
  mem s (rsp (rg s)) = Some t /\ rsp (rg s') = rsp (rg s) + 8 /\ callee_saved (rg s) (rg s').
(** the code at [c], called in state [s], comes back in a state satisfying [Q] *)
Definition calls (c : code) (s : state) (Q : state -> Prop) : Prop :=
  exists n t s', run n c 0 s = Ok (t, s') /\ returned s t s' /\ Q s'.
(** the top of the stack holds a return address outside the code *)
Definition called (c : code) (s : state) : Prop :=
  (exists t, mem s (rsp (rg s)) = Some t /\ fetch c t = None) /\ area (rsp (rg s)) 1.

(** the [n] words at [a] hold the integer [x], least significant word first *)
Definition int_at (m : memory) (a : Z) (n : nat) (x : Z) : Prop :=
  exists l, length l = n /\ limbs l /\ words m a l /\ lv l = x.
