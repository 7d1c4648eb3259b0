(** C08: the machine code zmInit installs for addN, add1, subN, mul1, div1 and mod1 does what
    the portable kernels do, for vectors of any length, whatever the other registers, flags and
    memory hold, and also when the output lies on top of an input. *)
From Coq Require Import ZArith List Bool.
From Verif Require Import Base Prim X64 JitSpec JitZm JitZmApi.
Import ListNotations.
Local Open Scope Z_scope.

(** bool addN(Unit *out, const Unit *x, const Unit *y, size_t n):
    out = rdi, x = rsi, y = rdx, n = rcx, result in rax. *)
Theorem C08_addN s xs ys : let g := rg s in let n := length xs in
  (1 <= n)%nat -> length ys = n -> limbs xs -> limbs ys ->
  rcx g = Z.of_nat n -> words (mem s) (rsi g) xs -> words (mem s) (rdx g) ys -> mapped (mem s) (rdi g) n ->
  area (rdi g) n -> area (rsi g) n -> area (rdx g) n ->
  behind (rdi g) (rsi g) n -> behind (rdi g) (rdx g) n ->
  called jit_addN s -> apart (rsp g) 1 (rdi g) n ->
  calls jit_addN s (fun s' => exists zs carry,
    length zs = n /\ limbs zs /\ lv zs + B ^ Z.of_nat n * Z.b2z carry = lv xs + lv ys /\
    in_addN xs ys = (zs, carry) /\
    rax (rg s') = Z.b2z carry /\ words (mem s') (rdi g) zs /\ same_but (mem s) (mem s') (rdi g) n).
Proof. exact (jit_addN_ok s xs ys). Qed.

(** bool subN(Unit *out, const Unit *x, const Unit *y, size_t n) *)
Theorem C08_subN s xs ys : let g := rg s in let n := length xs in
  (1 <= n)%nat -> length ys = n -> limbs xs -> limbs ys ->
  rcx g = Z.of_nat n -> words (mem s) (rsi g) xs -> words (mem s) (rdx g) ys -> mapped (mem s) (rdi g) n ->
  area (rdi g) n -> area (rsi g) n -> area (rdx g) n ->
  behind (rdi g) (rsi g) n -> behind (rdi g) (rdx g) n ->
  called jit_subN s -> apart (rsp g) 1 (rdi g) n ->
  calls jit_subN s (fun s' => exists zs borrow,
    length zs = n /\ limbs zs /\ lv zs = lv xs - lv ys + B ^ Z.of_nat n * Z.b2z borrow /\
    in_subN xs ys = (zs, borrow) /\
    rax (rg s') = Z.b2z borrow /\ words (mem s') (rdi g) zs /\ same_but (mem s) (mem s') (rdi g) n).
Proof. exact (jit_subN_ok s xs ys). Qed.

(** bool add1(Unit *out, const Unit *x, size_t n, Unit y): out = rdi, x = rsi, n = rdx, y = rcx *)
Theorem C08_add1 s xs : let g := rg s in let n := length xs in let y := rcx g in
  (1 <= n)%nat -> limbs xs -> isU y ->
  rdx g = Z.of_nat n -> words (mem s) (rsi g) xs -> mapped (mem s) (rdi g) n ->
  area (rdi g) n -> area (rsi g) n -> behind (rdi g) (rsi g) n ->
  called jit_add1 s -> apart (rsp g) 1 (rdi g) n ->
  calls jit_add1 s (fun s' => exists zs carry,
    length zs = n /\ limbs zs /\ lv zs + B ^ Z.of_nat n * Z.b2z carry = lv xs + y /\
    in_add xs y = (zs, carry) /\
    rax (rg s') = Z.b2z carry /\ words (mem s') (rdi g) zs /\ same_but (mem s) (mem s') (rdi g) n).
Proof. exact (jit_add1_ok s xs). Qed.

(** void mul1(Unit *out, const Unit *x, size_t n, Unit y): out has n + 1 units *)
Theorem C08_mul1 s xs : let g := rg s in let n := length xs in let y := rcx g in
  (1 <= n)%nat -> limbs xs -> isU y ->
  rdx g = Z.of_nat n -> words (mem s) (rsi g) xs -> mapped (mem s) (rdi g) (S n) ->
  area (rdi g) (S n) -> area (rsi g) n -> behind (rdi g) (rsi g) n ->
  called jit_mul1 s -> apart (rsp g) 1 (rdi g) (S n) ->
  calls jit_mul1 s (fun s' => exists zs,
    length zs = S n /\ limbs zs /\ lv zs = lv xs * y /\ in_mul xs y = zs /\
    words (mem s') (rdi g) zs /\ same_but (mem s) (mem s') (rdi g) (S n)).
Proof. exact (jit_mul1_ok s xs). Qed.

(** Unit div1(Unit *q, const Unit *x, size_t n, Unit y), y <> 0; the quotient may lie on top of
    x (the code runs from the most significant unit down) *)
Theorem C08_div1 s xs : let g := rg s in let n := length xs in let y := rcx g in
  (1 <= n)%nat -> limbs xs -> isU y -> y <> 0 ->
  rdx g = Z.of_nat n -> words (mem s) (rsi g) xs -> mapped (mem s) (rdi g) n ->
  area (rdi g) n -> area (rsi g) n -> ahead (rdi g) (rsi g) n ->
  called jit_div1 s -> apart (rsp g) 1 (rdi g) n ->
  calls jit_div1 s (fun s' => exists qs,
    length qs = n /\ limbs qs /\ lv qs = lv xs / y /\ rax (rg s') = lv xs mod y /\
    in_div xs y = (qs, rax (rg s')) /\
    words (mem s') (rdi g) qs /\ same_but (mem s) (mem s') (rdi g) n).
Proof. exact (jit_div1_ok s xs). Qed.

(** Unit mod1(const Unit *x, size_t n, Unit y), y <> 0: x = rdi, n = rsi, y = rdx; no word of
    memory changes *)
Theorem C08_mod1 s xs : let g := rg s in let n := length xs in let y := rdx g in
  (1 <= n)%nat -> limbs xs -> isU y -> y <> 0 ->
  rsi g = Z.of_nat n -> words (mem s) (rdi g) xs -> area (rdi g) n ->
  called jit_mod1 s ->
  calls jit_mod1 s (fun s' => rax (rg s') = lv xs mod y /\ in_mod xs y = rax (rg s') /\ (forall a, mem s' a = mem s a)).
Proof. exact (jit_mod1_ok s xs). Qed.

(** A call that meets the hypotheses of C08_addN, with the output on top of x: five limbs, a
    carry through all of them (the state is JitZmApi.ex_st). *)
Example C08_addN_some : let g := rg ex_st in let xs := repeat (2 ^ 64 - 1) 5 in let ys := [1; 0; 0; 0; 0] in let n := length xs in
  (1 <= n)%nat /\ length ys = n /\ limbs xs /\ limbs ys /\
  rcx g = Z.of_nat n /\ words (mem ex_st) (rsi g) xs /\ words (mem ex_st) (rdx g) ys /\ mapped (mem ex_st) (rdi g) n /\
  area (rdi g) n /\ area (rsi g) n /\ area (rdx g) n /\
  behind (rdi g) (rsi g) n /\ behind (rdi g) (rdx g) n /\
  called jit_addN ex_st /\ apart (rsp g) 1 (rdi g) n /\
  in_addN xs ys = ([0; 0; 0; 0; 0], true).
Proof. exact ex_addN. Qed.

(** One query covers all theorems of this file. *)
Definition all_theorems_P_Jit :=
  (@C08_addN,
   @C08_subN,
   @C08_add1,
   @C08_mul1,
   @C08_div1,
   @C08_mod1).
Print Assumptions all_theorems_P_Jit.
