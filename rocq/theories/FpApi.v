(** mie::Fp as the user sees it: conversion from int, Vuint and text, conversion back,
    square root (include/zm2.h), and the C functions that the function pointers hold until
    Fp::setModulo installs the generated code (src/zm2.cpp:62-212). *)
From Coq Require Import ZArith List Bool.
From Verif Require Import Base Prim Loop Vuint VDiv VuintProofs VStr ZmZ Power Cfg FpM.
Import ListNotations.
Local Open Scope Z_scope.

(** The four units of an Fp object, the eight units of a Dbl object. *)
Definition units4 (x : Z) : list Z := to_limbs 4 x.
Definition units8 (x : Z) : list Z := to_limbs 8 x.
(** Fp::setDirect (include/zm2.h:237-249): missing units are 0, units from the fifth on ignored. *)
Definition setDirect4 (l : vuint) : Z := lv (firstn 4 l).
(** Dbl::setDirect (include/zm2.h:311-321). *)
Definition setDirect8 (l : vuint) : Z := lv (firstn 8 l).

Section Api.
Variable c : cfg.
(** Fp::p_, montgomeryR_ as Vuint objects. *)
Definition pV : vuint := vOf (cp c).
Definition RV : vuint := vOf (cR c).

(** Fp::set(int) (include/zm2.h:47-65). For INT_MIN the negation overflows. *)
Definition fp_setInt (x : Z) : res Z :=
  if x =? 0 then Ok 0
  else if x =? 1 then Ok (setDirect4 RV)
  else if 0 <? x then Ok (fp_mul c x (cR2 c))
  else if x =? - 2 ^ 31 then UB
  else Ok (fp_neg c (fp_mul c (- x) (cR2 c))).
(** Fp::set(const Vuint&) (include/zm2.h:70-78); the assertion x < p is compiled out. *)
Definition fp_setV (x : vuint) : res Z :=
  let! y := vmul x RV in
  let! y := zmod pV y in
  Ok (setDirect4 y).
(** Fp::set(const std::string&) (include/zm2.h:66-69). *)
Definition fp_setStr (s : list Z) : res Z := let! v := vsetStr s 0 in fp_setV v.
(** Fp::fromMont, toMont (include/zm2.h:139-146). *)
Definition fp_fromMont (x : Z) : Z := fp_mul c x 1.
Definition fp_toMont (x : Z) : Z := fp_mul c x (cR2 c).
(** Fp::get (include/zm2.h:158-164). *)
Definition fp_get (x : Z) : res vuint := vset64 (units4 (fp_fromMont x)).
(** Fp::getLow, isOdd (include/zm2.h:147-157). *)
Definition fp_getLow (x : Z) : Z := fp_fromMont x mod B.
Definition fp_isOdd (x : Z) : bool := Z.odd (fp_getLow x).
(** Fp::toString (include/zm2.h:250). *)
Definition fp_toString (base x : Z) : res (list Z) := let! v := fp_get x in vtoString base v.
(** operator<< in decimal mode, operator>> (include/zm2.h:116-126). *)
Definition fp_write (x : Z) : res (list Z) := fp_toString 10 x.
Definition fp_read (ws : bool) (s : list Z) : res (Z * list Z) :=
  let '(d, r) := getDigits false ws s in
  let! x := fp_setStr d in Ok (x, r).

(** The element 1 that mie::power starts from: T(1). *)
Definition fp_1 : Z := setDirect4 RV.
(** p_add1_div4_ (zm2.cpp:3632), Fp::squareRoot (include/zm2.h:297-304). *)
Definition p14V : vuint := vOf ((cp c + 1) / 4).
Definition fp_pow (x : Z) (y : vuint) : Z := power_v (fp_mul c) fp_1 x y.
Definition fp_sqrt (x : Z) : option Z :=
  let t := fp_pow x p14V in
  if fp_eqb (fp_mul c t t) x then Some t else None.

(** Dbl(const Fp&) (include/zm2.h:352-355). *)
Definition dbl_ofFp (x : Z) : Z := dbl_mul x (cR2 c).

(** ** The C functions *)
(** Vuint(&x[0], N) *)
Definition vfp (x : Z) : res vuint := vset64 (units4 x).
Definition vdbl (x : Z) : res vuint := vset64 (units8 x).

(** Fp_addC (zm2.cpp:63-72). *)
Definition Fp_addC (x y : Z) : res Z :=
  let! a := vfp x in let! b := vfp y in
  let! a := vadd a b in
  let! a := (if negb (vlt a pV) then vsub a pV else Ok a) in
  Ok (setDirect4 a).
(** Fp_addNC_C, Fp_subNC_C (zm2.cpp:74-86). *)
Definition Fp_addNC_C (x y : Z) : res Z :=
  let! a := vfp x in let! b := vfp y in let! a := vadd a b in Ok (setDirect4 a).
Definition Fp_subNC_C (x y : Z) : res Z :=
  let! a := vfp x in let! b := vfp y in let! a := vsub a b in Ok (setDirect4 a).
(** Fp_subC (zm2.cpp:88-98), with the subtraction of p in the else branch as written. *)
Definition Fp_subC (x y : Z) : res Z :=
  let! a := vfp x in let! b := vfp y in
  let! a := (if vlt a b then (let! t := vadd a pV in vsub t b) else vsub a pV) in
  Ok (setDirect4 a).
(** FpDbl_addC ... FpDbl_modC (zm2.cpp:133-211). pN = p << 256. *)
Definition pNV : vuint := vOf (pN c).
Definition FpDbl_addC (x y : Z) : res Z :=
  let! a := vdbl x in let! b := vdbl y in
  let! a := vadd a b in
  let! a := (if negb (vlt a pNV) then vsub a pNV else Ok a) in
  Ok (setDirect8 a).
Definition FpDbl_addNC_C (x y : Z) : res Z :=
  let! a := vdbl x in let! b := vdbl y in let! a := vadd a b in Ok (setDirect8 a).
Definition FpDbl_negC (x : Z) : res Z :=
  let! a := vdbl x in
  if visZero a then Ok (setDirect8 a) else (let! t := vsub pNV a in Ok (setDirect8 t)).
Definition FpDbl_subC (x y : Z) : res Z :=
  let! a := vdbl x in let! b := vdbl y in
  let! a := (if vlt a b then vadd a pNV else Ok a) in
  let! a := vsub a b in Ok (setDirect8 a).
Definition FpDbl_subNC_C (x y : Z) : res Z :=
  let! a := vdbl x in let! b := vdbl y in let! a := vsub a b in Ok (setDirect8 a).
Definition FpDbl_mulC (x y : Z) : res Z :=
  let! a := vfp x in let! b := vfp y in let! a := vmul a b in Ok (setDirect8 a).
Definition modC_round (a : vuint) : res vuint :=
  let q := (nth 0 a 0 * cpp c) mod B in
  let! qp := vmul (vset q) pV in
  let! a := vadd a qp in
  vshr a 64.
Definition FpDbl_modC (x : Z) : res Z :=
  let! a := vdbl x in
  let! a := modC_round a in let! a := modC_round a in
  let! a := modC_round a in let! a := modC_round a in
  let! a := (if negb (vlt a pV) then vsub a pV else Ok a) in
  Ok (setDirect4 a).
End Api.

(** Fp_mulC (zm2.cpp:100-105) while Fp::mul still points to it: x.get() calls fromMont,
    that is Fp::mul, that is Fp_mulC again. [n] bounds the depth of the recursion. *)
Fixpoint Fp_mulC (c : cfg) (n : nat) (x y : Z) : res Z :=
  match n with
  | O => Diverge
  | S n' =>
      let! t := Fp_mulC c n' x 1 in let! a := vfp t in          (* x.get() *)
      let! t := Fp_mulC c n' y 1 in let! b := vfp t in          (* y.get() *)
      let! ab := zmul (pV c) a b in
      fp_setV c ab
  end.
