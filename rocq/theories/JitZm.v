(** The code generator of src/zm.cpp:197-560 (class Code), Linux register assignment, as a
    function from its arguments to the instructions it emits.  [align] is omitted.  Local
    labels: .main = 1, .lp = 2, .exit = 3, the anonymous "@@" labels 11, 12, ... in order of
    their appearance. *)
From Coq Require Import ZArith List Bool.
From Verif Require Import Base X64.
Import ListNotations.
Local Open Scope Z_scope.

Definition w8 (r : reg) (k : Z) : opd := M (Ad r (8 * k)).
Definition addsub (isAdd : bool) (d s : opd) : instr := if isAdd then Add d s else Sub d s.
Definition adcsbb (isAdd : bool) (d s : opd) : instr := if isAdd then Adc d s else Sbb d s.

(** genAddSub (src/zm.cpp:197-367): bool addN(Unit *out, const Unit *x, const Unit *y, size_t n) *)
Definition genAddSub (isAdd : bool) : code :=
  let out := RDI in let x := RSI in let y := RDX in let n := RCX in
  let a := RAX in let t0 := R8 in let t1 := R9 in let t2 := R10 in
  let op0 := addsub isAdd in let opc := adcsbb isAdd in
  [ Cmp (R n) (Im 4); Jcc CGE 1;
    Cmp (R n) (Im 1); Jcc CNZ 11;
    (* n == 1 *)
    Mov (R a) (w8 x 0); op0 (R a) (w8 y 0); Mov (w8 out 0) (R a); Mov (R a) (Im 0); SetcAl; Ret;
    Lab 11;
    Cmp (R n) (Im 2); Jcc CNZ 12;
    (* n == 2 *)
    Mov (R a) (w8 x 0); Mov (R t0) (w8 x 1);
    op0 (R a) (w8 y 0); opc (R t0) (w8 y 1);
    Mov (w8 out 0) (R a); Mov (w8 out 1) (R t0); Mov (R a) (Im 0); SetcAl; Ret;
    Lab 12;
    (* n == 3 *)
    Mov (R a) (w8 x 0); Mov (R t0) (w8 x 1); Mov (R t1) (w8 x 2);
    op0 (R a) (w8 y 0); opc (R t0) (w8 y 1); opc (R t1) (w8 y 2);
    Mov (w8 out 0) (R a); Mov (w8 out 1) (R t0); Mov (w8 out 2) (R t1); Mov (R a) (Im 0); SetcAl; Ret;
    Lab 1;
    (* n >= 4 *)
    Mov (R a) (R n); Shr n 2; And (R a) (Im 3); Jcc CZ 2;
    Cmp (R a) (Im 1); Jcc CNZ 13;
    (* 4x + 1 *)
    Mov (R a) (w8 x 0); op0 (R a) (w8 y 0); Mov (w8 out 0) (R a);
    Lea x (Ad x 8); Lea y (Ad y 8); Lea out (Ad out 8); Jmp 2;
    Lab 13;
    Cmp (R a) (Im 2); Jcc CNZ 14;
    (* 4x + 2 *)
    Mov (R a) (w8 x 0); Mov (R t0) (w8 x 1);
    op0 (R a) (w8 y 0); opc (R t0) (w8 y 1);
    Mov (w8 out 0) (R a); Mov (w8 out 1) (R t0);
    Lea x (Ad x (8 * 2)); Lea y (Ad y (8 * 2)); Lea out (Ad out (8 * 2)); Jmp 2;
    Lab 14;
    (* 4x + 3 *)
    Mov (R a) (w8 x 0); Mov (R t0) (w8 x 1); Mov (R t1) (w8 x 2);
    op0 (R a) (w8 y 0); opc (R t0) (w8 y 1); opc (R t1) (w8 y 2);
    Mov (w8 out 0) (R a); Mov (w8 out 1) (R t0); Mov (w8 out 2) (R t1);
    Lea x (Ad x (8 * 3)); Lea y (Ad y (8 * 3)); Lea out (Ad out (8 * 3));
    Lab 2;
    Mov (R a) (w8 x 0); Mov (R t0) (w8 x 1); Mov (R t1) (w8 x 2); Mov (R t2) (w8 x 3);
    opc (R a) (w8 y 0); opc (R t0) (w8 y 1); opc (R t1) (w8 y 2); opc (R t2) (w8 y 3);
    Mov (w8 out 0) (R a); Mov (w8 out 1) (R t0); Mov (w8 out 2) (R t1); Mov (w8 out 3) (R t2);
    Lea x (Ad x (8 * 4)); Lea y (Ad y (8 * 4)); Lea out (Ad out (8 * 4));
    Dec n; Jcc CNZ 2;
    Lab 3;
    Mov (R a) (Im 0); SetcAl; Ret ].

(** genAddSub1 (src/zm.cpp:369-417): bool add1(Unit *out, const Unit *x, size_t n, Unit y) *)
Definition genAddSub1 (isAdd : bool) : code :=
  let a := RAX in let c := RCX in let out := RDI in let x := RSI in let y := R10 in let t := R8 in
  [ Mov (R R10) (R c); Mov (R c) (R RDX);
    Lea out (AdI out c 8 0); Lea x (AdI x c 8 0); Xor (R a) (R a); Neg c;
    Mov (R t) (M (AdI x c 8 0)); addsub isAdd (R t) (R y); Mov (M (AdI out c 8 0)) (R t); Inc c;
    Jcc CZ 3;
    Lab 2;
    Mov (R t) (M (AdI x c 8 0)); adcsbb isAdd (R t) (R a); Mov (M (AdI out c 8 0)) (R t); Inc c;
    Jcc CNZ 2;
    Lab 3;
    SetcAl; Ret ].

(** genMul (src/zm.cpp:419-460): void mul1(Unit *out, const Unit *x, size_t n, Unit y) *)
Definition genMul : code :=
  let a := RAX in let d := RDX in let t := R11 in
  let out := RDI in let x := RSI in let n := R10 in let y := RCX in
  [ Mov (R R10) (R RDX);
    Xor (R d) (R d);
    Lab 2;
    Mov (R t) (R d); Mov (R a) (w8 x 0); Mul (R y);
    Add (R t) (R a); Adc (R d) (Im 0); Mov (w8 out 0) (R t);
    Add (R x) (Im 8); Add (R out) (Im 8); Sub (R n) (Im 1); Jcc CNZ 2;
    Mov (w8 out 0) (R d);
    Ret ].

(** genDiv (src/zm.cpp:461-498): Unit div1(Unit *q, const Unit *x, size_t xn, Unit y) *)
Definition genDiv : code :=
  let a := RAX in let d := RDX in let q := RDI in let x := RSI in let n := R10 in let y := RCX in
  [ Mov (R R10) (R RDX);
    Lea x (AdI x n 8 (-8)); Lea q (AdI q n 8 (-8)); Xor (R d) (R d);
    Lab 2;
    Mov (R a) (w8 x 0); Div y; Mov (w8 q 0) (R a);
    Sub (R x) (Im 8); Sub (R q) (Im 8); Sub (R n) (Im 1); Jcc CNZ 2;
    Mov (R a) (R d); Ret ].

(** genMod (src/zm.cpp:499-533): Unit mod1(const Unit *x, size_t n, Unit y) *)
Definition genMod : code :=
  let a := RAX in let d := RDX in let x := RDI in let n := RSI in let y := R10 in
  [ Mov (R R10) (R RDX);
    Lea x (AdI x n 8 (-8)); Xor (R d) (R d);
    Lab 2;
    Mov (R a) (w8 x 0); Div y;
    Sub (R x) (Im 8); Sub (R n) (Im 1); Jcc CNZ 2;
    Mov (R a) (R d); Ret ].

(** what zmInit installs (src/zm.cpp:535-560) *)
Definition jit_addN : code := genAddSub true.
Definition jit_add1 : code := genAddSub1 true.
Definition jit_subN : code := genAddSub false.
Definition jit_mul1 : code := genMul.
Definition jit_div1 : code := genDiv.
Definition jit_mod1 : code := genMod.
