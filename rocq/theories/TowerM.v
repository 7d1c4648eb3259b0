(** The extension fields of include/bn.h: Fp2T (347-772), Fp6T (836-1335), Fp12T (1363-2116),
    with the run-time generated versions of src/zm2.cpp that Fp::setModulo installs
    (zm2.cpp:3306-3530). Where the generated code and the C++ member differ, the generated
    one is the unmarked definition and the C++ fallback carries the suffix C.

    Objects: Fp2 = pair of Fp contents, Fp6 = triple of Fp2, Fp12 = pair of Fp6; the Dbl
    classes have the same shape over 512-bit contents.
    Simplification: operations return a new object; all arguments are read before the
    result is written. Calls where that matters (z aliasing x) are treated separately. *)
From Coq Require Import ZArith Lia Bool.
From Verif Require Import Base Prim Loop Cfg TowerSpec FpM.
Local Open Scope Z_scope.

Definition fp2 := F2 Z.
Definition fp6 := F3 (F2 Z).
Definition fp12 := F2 (F3 (F2 Z)).
Definition dbl2 := F2 Z.
Definition dbl6 := F3 (F2 Z).
Definition dbl12 := F2 (F3 (F2 Z)).

Section TowerModel.
Variable c : cfg.
Local Notation p := (cp c).

(** ** Fp2 *)
(** add, addNC, subNC, sub, neg (bn.h:382-409; make_Fp_add(2), make_Fp_addNC(2), make_Fp_sub(2)
    zm2.cpp:994-1003). *)
Definition f2_add (x y : fp2) : fp2 := mk2 (fp_add c (a2 x) (a2 y)) (fp_add c (b2 x) (b2 y)).
Definition f2_addNC (x y : fp2) : fp2 := mk2 (fp_addNC (a2 x) (a2 y)) (fp_addNC (b2 x) (b2 y)).
Definition f2_subNC (x y : fp2) : fp2 := mk2 (fp_subNC (a2 x) (a2 y)) (fp_subNC (b2 x) (b2 y)).
Definition f2_sub (x y : fp2) : fp2 := mk2 (fp_sub c (a2 x) (a2 y)) (fp_sub c (b2 x) (b2 y)).
Definition f2_neg (x : fp2) : fp2 := mk2 (fp_neg c (a2 x)) (fp_neg c (b2 x)).
(** mul (bn.h:411-428, set_p_Fp2_mul zm2.cpp:1816-1858: the same sequence). *)
Definition f2_mul (x y : fp2) : fp2 :=
  let s := fp_addNC (a2 x) (b2 x) in
  let t := fp_addNC (a2 y) (b2 y) in
  let d0 := dbl_mul s t in
  let d1 := dbl_mul (a2 x) (a2 y) in
  let d2 := dbl_mul (b2 x) (b2 y) in
  let d0 := dbl_subNC d0 d1 in
  let d0 := dbl_subNC d0 d2 in
  let d1 := dbl_sub c d1 d2 in
  mk2 (dbl_mod c d1) (dbl_mod c d0).
(** divBy2, divBy4 (bn.h:430-440; set_p_Fp2_divBy2 zm2.cpp:1096-1106). *)
Definition f2_divBy2 (x : fp2) : fp2 := mk2 (fp_divBy2 c (a2 x)) (fp_divBy2 c (b2 x)).
Definition f2_divBy4 (x : fp2) : fp2 := mk2 (fp_divBy4 c (a2 x)) (fp_divBy4 c (b2 x)).
(** in_Fp_mul_xi_addsub (zm2.cpp:1468-1507, BN_SUPPORT_SNARK): 9x + y or 9x + p - y, reduced
    with an approximate quotient f(x) = ((x >> 193) * pRev) >> 124. d is one 64-bit register,
    shld(d, gt4, 63) keeps 64 bits. *)
Definition pRev : Z := 0xa948e8c4c474094e.
Definition fp_mul9 (x y : Z) (doAdd : bool) : Z :=
  let t := (9 * x) mod (B * W) in
  let t := if doAdd then (t + y) mod (B * W) else (t + p - y) mod (B * W) in
  let q := (((t / 2 ^ 193) mod B) * pRev) / 2 ^ 124 in
  add_modp c ((t mod W - pTbl c q) mod W).
(** mul_xi (bn.h:442-481; in_Fp2_mul_xi zm2.cpp:1509-1537): xi = 9 + u or 1 + u. *)
Definition f2_mul_xi (x : fp2) : fp2 :=
  if snark c then mk2 (fp_mul9 (a2 x) (b2 x) false) (fp_mul9 (b2 x) (a2 x) true)
  else mk2 (fp_sub c (a2 x) (b2 x)) (fp_add c (a2 x) (b2 x)).
(** mul_xiC of the SNARK build (bn.h:449-464): additions only. *)
Definition f2_mul_xiC (x : fp2) : fp2 :=
  if snark c then
    let za := fp_add c (a2 x) (a2 x) in
    let za := fp_add c za za in
    let za := fp_add c za za in
    let za := fp_add c za (a2 x) in
    let za := fp_sub c za (b2 x) in
    let zb := fp_add c (b2 x) (b2 x) in
    let zb := fp_add c zb zb in
    let zb := fp_add c zb zb in
    let zb := fp_add c zb (b2 x) in
    let zb := fp_add c zb (a2 x) in
    mk2 za zb
  else mk2 (fp_sub c (a2 x) (b2 x)) (fp_add c (a2 x) (b2 x)).
(** mul_xi called with z and x the same object: z.a_ is written before x.a_ is read again. *)
Definition f2_mul_xi_alias (x : fp2) : fp2 :=
  if snark c then
    let za := fp_mul9 (a2 x) (b2 x) false in mk2 za (fp_mul9 (b2 x) za true)
  else
    let za := fp_sub c (a2 x) (b2 x) in mk2 za (fp_add c za (b2 x)).
(** square (in_Fp2_square zm2.cpp:1717-1770). *)
Definition f2_square (x : fp2) : fp2 :=
  let t := if snark c then fp_add c (b2 x) (b2 x) else fp_addNC (b2 x) (b2 x) in
  let d0 := dbl_mul t (a2 x) in
  let t := fp_subNC (fp_addNC (a2 x) p) (b2 x) in
  let za := if snark c then fp_add c (a2 x) (b2 x) else fp_addNC (a2 x) (b2 x) in
  let d1 := dbl_mul t za in
  mk2 (dbl_mod c d1) (dbl_mod c d0).
(** squareC (bn.h:483-506); the non-SNARK branch adds x.a_ to itself at line 496. *)
Definition f2_squareC (x : fp2) : fp2 :=
  if snark c then
    let t := fp_mul c (fp_add c (b2 x) (b2 x)) (a2 x) in
    let tt := fp_sub c (a2 x) (b2 x) in
    mk2 (fp_mul c (fp_add c (a2 x) (b2 x)) tt) t
  else
    let t := fp_mul c (fp_addNC (b2 x) (b2 x)) (a2 x) in
    let tt := fp_sub c (a2 x) (b2 x) in
    mk2 (fp_mul c (fp_addNC (a2 x) (a2 x)) tt) t.
(** inverse (bn.h:508-521). *)
Definition f2_inverse (x : fp2) : res fp2 :=
  let t := fp_mul c (b2 x) (b2 x) in
  let aa := fp_mul c (a2 x) (a2 x) in
  let t := fp_add c t aa in
  let! t := fp_inv c t in
  Ok (mk2 (fp_mul c (a2 x) t) (fp_mul c (fp_neg c (b2 x)) t)).
(** isZero, operator==, clear, Fp2T(int) (bn.h:354-370, 522-526, 546-550). *)
Definition f2_isZero (x : fp2) : bool := fp_isZero (a2 x) && fp_isZero (b2 x).
Definition f2_eqb (x y : fp2) : bool := fp_eqb (a2 x) (a2 y) && fp_eqb (b2 x) (b2 y).
Definition f2_0 : fp2 := mk2 0 0.
(** Fp2T(1): the Fp 1 is montgomeryR (zm2.h:40-66). *)
Definition f2_1 : fp2 := mk2 (cR c) 0.
(** mul_Fp_0, mul_x, mul_Fp_1 (bn.h:558-595). *)
Definition f2_mul_Fp_0 (x : fp2) (b : Z) : fp2 := mk2 (fp_mul c (a2 x) b) (fp_mul c (b2 x) b).
Definition f2_mul_x (x : fp2) : fp2 := mk2 (fp_neg c (b2 x)) (a2 x).
Definition f2_mul_Fp_1 (z : fp2) (y : Z) : fp2 :=
  let t := fp_mul c (b2 z) y in mk2 (fp_neg c t) (fp_mul c (a2 z) y).

(** ** Fp2::Dbl (bn.h:597-740) *)
Definition d2_add (x y : dbl2) : dbl2 := mk2 (dbl_add c (a2 x) (a2 y)) (dbl_add c (b2 x) (b2 y)).
Definition d2_addNC (x y : dbl2) : dbl2 := mk2 (dbl_addNC (a2 x) (a2 y)) (dbl_addNC (b2 x) (b2 y)).
Definition d2_neg (x : dbl2) : dbl2 := mk2 (dbl_neg c (a2 x)) (dbl_neg c (b2 x)).
Definition d2_sub (x y : dbl2) : dbl2 := mk2 (dbl_sub c (a2 x) (a2 y)) (dbl_sub c (b2 x) (b2 y)).
Definition d2_subNC (x y : dbl2) : dbl2 := mk2 (dbl_subNC (a2 x) (a2 y)) (dbl_subNC (b2 x) (b2 y)).
(** mul_xi (bn.h:679-712; set_p_Fp2Dbl_mul_xi zm2.cpp:2063-2087: the same sequence). *)
Definition d2_mul_xi (x : dbl2) : dbl2 :=
  if snark c then
    let za := dbl_add c (a2 x) (a2 x) in
    let za := dbl_add c za za in
    let za := dbl_add c za za in
    let za := dbl_add c za (a2 x) in
    let za := dbl_sub c za (b2 x) in
    let zb := dbl_add c (b2 x) (b2 x) in
    let zb := dbl_add c zb zb in
    let zb := dbl_add c zb zb in
    let zb := dbl_add c zb (b2 x) in
    let zb := dbl_add c zb (a2 x) in
    mk2 za zb
  else mk2 (dbl_sub c (a2 x) (b2 x)) (dbl_add c (b2 x) (a2 x)).
(** mulOpt1, mulOpt2 (sub_Fp2Dbl_mulOpt zm2.cpp:2003-2047): the real part is finished with
    subOpt1 (adds pN/4) or with the modular subtraction. *)
Definition d2_mulOpt (mode1 : bool) (x y : fp2) : dbl2 :=
  let s := fp_addNC (a2 x) (b2 x) in
  let t := fp_addNC (a2 y) (b2 y) in
  let d0 := dbl_mul (b2 x) (b2 y) in
  let za := dbl_mul (a2 x) (a2 y) in
  let zb := dbl_mul s t in
  let zb := dbl_subNC zb za in
  let zb := dbl_subNC zb d0 in
  mk2 (if mode1 then dbl_subOpt1 c za d0 else dbl_sub c za d0) zb.
Definition d2_mulOpt1 := d2_mulOpt true.
Definition d2_mulOpt2 := d2_mulOpt false.
(** square (bn.h:750-760; set_p_Fp2Dbl_square zm2.cpp:2965-3002: the same sequence). *)
Definition d2_square (x : fp2) : dbl2 :=
  let t0 := fp_addNC (b2 x) (b2 x) in
  let zb := dbl_mul t0 (a2 x) in
  let t1 := fp_addNC (a2 x) p in
  let t1 := fp_subNC t1 (b2 x) in
  let t0 := fp_addNC (a2 x) (b2 x) in
  mk2 (dbl_mul t0 t1) zb.
(** mod (bn.h:762-766; in_Fp2Dbl_mod zm2.cpp:1664-1673). *)
Definition d2_mod (x : dbl2) : fp2 := mk2 (dbl_mod c (a2 x)) (dbl_mod c (b2 x)).

(** ** Fp6 *)
Definition f6_add (x y : fp6) : fp6 := mk3 (f2_add (a3 x) (a3 y)) (f2_add (b3 x) (b3 y)) (f2_add (c3 x) (c3 y)).
Definition f6_sub (x y : fp6) : fp6 := mk3 (f2_sub (a3 x) (a3 y)) (f2_sub (b3 x) (b3 y)) (f2_sub (c3 x) (c3 y)).
Definition f6_neg (x : fp6) : fp6 := mk3 (f2_neg (a3 x)) (f2_neg (b3 x)) (f2_neg (c3 x)).
Definition f6_0 : fp6 := mk3 f2_0 f2_0 f2_0.
Definition f6_1 : fp6 := mk3 f2_1 f2_0 f2_0.
Definition f6_isZero (x : fp6) : bool := f2_isZero (a3 x) && f2_isZero (b3 x) && f2_isZero (c3 x).
Definition f6_eqb (x y : fp6) : bool := f2_eqb (a3 x) (a3 y) && f2_eqb (b3 x) (b3 y) && f2_eqb (c3 x) (c3 y).
(** Fp6::Dbl::add, sub, mod (bn.h:1202-1238, 1305-1310). *)
Definition d6_add (x y : dbl6) : dbl6 := mk3 (d2_add (a3 x) (a3 y)) (d2_add (b3 x) (b3 y)) (d2_add (c3 x) (c3 y)).
Definition d6_sub (x y : dbl6) : dbl6 := mk3 (d2_sub (a3 x) (a3 y)) (d2_sub (b3 x) (b3 y)) (d2_sub (c3 x) (c3 y)).
Definition d6_mod (x : dbl6) : fp6 := mk3 (d2_mod (a3 x)) (d2_mod (b3 x)) (d2_mod (c3 x)).
(** Fp6::Dbl::mul (bn.h:1246-1304, set_p_Fp6Dbl_mul zm2.cpp:2103-2252). z.a_, z.b_, z.c_ are
    updated in place; each update is a new name here. *)
Definition d6_mul (x y : fp6) : dbl6 :=
  let T0 := d2_mulOpt1 (a3 x) (a3 y) in
  let T1 := d2_mulOpt1 (b3 x) (b3 y) in
  let T2 := d2_mulOpt1 (c3 x) (c3 y) in
  let t0 := f2_addNC (b3 x) (c3 x) in
  let t1 := f2_addNC (b3 y) (c3 y) in
  let zc := d2_mulOpt2 t0 t1 in
  let zb := d2_addNC T1 T2 in
  let zc := mk2 (dbl_sub c (a2 zc) (a2 zb)) (dbl_subNC (b2 zc) (b2 zb)) in
  let zb := d2_mul_xi zc in
  let za := d2_add zb T0 in
  let t0 := f2_addNC (a3 x) (b3 x) in
  let t1 := f2_addNC (a3 y) (b3 y) in
  let zc := d2_mulOpt2 t0 t1 in
  let zb := d2_addNC T0 T1 in
  let zc := mk2 (dbl_sub c (a2 zc) (a2 zb)) (dbl_subNC (b2 zc) (b2 zb)) in
  let zb := if snark c then d2_mul_xi T2
            else mk2 (dbl_subOpt1 c (a2 T2) (b2 T2)) (dbl_add c (a2 T2) (b2 T2)) in
  let zb := d2_add zb zc in
  let t0 := f2_addNC (a3 x) (c3 x) in
  let t1 := f2_addNC (a3 y) (c3 y) in
  let zc := d2_mulOpt2 t0 t1 in
  let T2 := d2_addNC T2 T0 in
  let zca := dbl_sub c (a2 zc) (a2 T2) in
  let zca := dbl_add c zca (a2 T1) in
  let zcb := dbl_subNC (b2 zc) (b2 T2) in
  let zcb := dbl_addNC zcb (b2 T1) in
  mk3 za zb (mk2 zca zcb).
(** Fp6::mul (bn.h:900-906, set_p_Fp6_mul zm2.cpp:2275-2302). *)
Definition f6_mul (x y : fp6) : fp6 := d6_mod (d6_mul x y).
(** Fp6::square (bn.h:911-932). *)
Definition f6_square (x : fp6) : fp6 :=
  let v4 := f2_add (a3 x) (a3 x) in
  let v4 := f2_mul v4 (b3 x) in
  let v5 := f2_square (c3 x) in
  let zb := f2_mul_xi v5 in
  let zb := f2_add zb v4 in
  let zc := f2_sub v4 v5 in
  let v3 := f2_square (a3 x) in
  let v4 := f2_sub (a3 x) (b3 x) in
  let v4 := f2_add v4 (c3 x) in
  let v5 := f2_add (b3 x) (b3 x) in
  let v5 := f2_mul v5 (c3 x) in
  let v4 := f2_square v4 in
  let za := f2_mul_xi v5 in
  let za := f2_add za v3 in
  let zc := f2_add zc v4 in
  let zc := f2_add zc v5 in
  let zc := f2_sub zc v3 in
  mk3 za zb zc.
(** Fp6::inverse (bn.h:934-962). *)
Definition f6_inverse (x : fp6) : res fp6 :=
  let a_ := a3 x in let b_ := b3 x in let c_ := c3 x in
  let t0 := f2_mul b_ c_ in
  let za := f2_mul_xi t0 in
  let t0 := f2_square a_ in
  let za := f2_sub t0 za in
  let t1 := f2_square b_ in
  let t5 := f2_mul a_ c_ in
  let zc := f2_sub t1 t5 in
  let t2 := f2_square c_ in
  let t4 := f2_mul a_ b_ in
  let zb := f2_mul_xi t2 in
  let zb := f2_sub zb t4 in
  let t1 := f2_mul a_ za in
  let t5 := f2_mul c_ zb in
  let t4 := f2_mul_xi t5 in
  let t1 := f2_add t1 t4 in
  let t5 := f2_mul b_ zc in
  let t4 := f2_mul_xi t5 in
  let t1 := f2_add t1 t4 in
  let! t1 := f2_inverse t1 in
  Ok (mk3 (f2_mul za t1) (f2_mul zb t1) (f2_mul zc t1)).

(** ** Fp12 *)
Definition f12_add (x y : fp12) : fp12 := mk2 (f6_add (a2 x) (a2 y)) (f6_add (b2 x) (b2 y)).
Definition f12_sub (x y : fp12) : fp12 := mk2 (f6_sub (a2 x) (a2 y)) (f6_sub (b2 x) (b2 y)).
Definition f12_neg (x : fp12) : fp12 := mk2 (f6_neg (a2 x)) (f6_neg (b2 x)).
Definition f12_0 : fp12 := mk2 f6_0 f6_0.
Definition f12_1 : fp12 := mk2 f6_1 f6_0.
Definition f12_isZero (x : fp12) : bool := f6_isZero (a2 x) && f6_isZero (b2 x).
Definition f12_eqb (x y : fp12) : bool := f6_eqb (a2 x) (a2 y) && f6_eqb (b2 x) (b2 y).
(** mul_gamma_add (bn.h:333-340) for Fp6Dbl and for Fp6 (sub_Fp2_mul_gamma_add zm2.cpp:2559-2568). *)
Definition d6_mul_gamma_add (x y : dbl6) : dbl6 :=
  mk3 (d2_add (d2_mul_xi (c3 x)) (a3 y)) (d2_add (a3 x) (b3 y)) (d2_add (b3 x) (c3 y)).
Definition f6_mul_gamma_add (x y : fp6) : fp6 :=
  mk3 (f2_add (f2_mul_xi (c3 x)) (a3 y)) (f2_add (a3 x) (b3 y)) (f2_add (b3 x) (c3 y)).
(** Fp12::mul (bn.h:1446-1464, make_Fp12_mul zm2.cpp:2613-2693). *)
Definition f12_mul (x y : fp12) : fp12 :=
  let T0 := d6_mul (a2 x) (a2 y) in
  let T1 := d6_mul (b2 x) (b2 y) in
  let t0 := f6_add (a2 x) (b2 x) in
  let t1 := f6_add (a2 y) (b2 y) in
  let zda := d6_mul t0 t1 in
  let T2 := d6_add T0 T1 in
  let zdb := d6_sub zda T2 in
  let zda := d6_mul_gamma_add T1 T0 in
  mk2 (d6_mod zda) (d6_mod zdb).
(** Fp12::square (bn.h:1471-1486, make_Fp12_square zm2.cpp:2570-2611). *)
Definition f12_square (z : fp12) : fp12 :=
  let t0 := f6_add (a2 z) (b2 z) in
  let t1 := f6_mul_gamma_add (b2 z) (a2 z) in
  let zb := f6_mul (b2 z) (a2 z) in
  let za := f6_mul t0 t1 in
  let t1 := f6_mul_gamma_add zb zb in
  let za := f6_sub za t1 in
  let zb := f6_add zb zb in
  mk2 za zb.
(** Fp12::inverse (bn.h:1618-1632). *)
Definition f12_inverse (x : fp12) : res fp12 :=
  let tmp0 := f6_square (a2 x) in
  let tmp1 := f6_square (b2 x) in
  let tmp2 := f2_mul_xi (c3 tmp1) in
  let tmp0 := mk3 (f2_sub (a3 tmp0) tmp2) (f2_sub (b3 tmp0) (a3 tmp1)) (f2_sub (c3 tmp0) (b3 tmp1)) in
  let! tmp0 := f6_inverse tmp0 in
  let za := f6_mul (a2 x) tmp0 in
  let zb := f6_mul (b2 x) tmp0 in
  Ok (mk2 za (f6_neg zb)).
(** sq_Fp4UseDbl (bn.h:1504-1519). *)
Definition sq_Fp4 (x0 x1 : fp2) : fp2 * fp2 :=
  let T0 := d2_square x0 in
  let T1 := d2_square x1 in
  let T2 := d2_mul_xi T1 in
  let T2 := d2_add T2 T0 in
  let z1 := f2_add x0 x1 in
  let z0 := d2_mod T2 in
  let T2 := d2_square z1 in
  let T2 := d2_sub T2 T0 in
  let T2 := d2_sub T2 T1 in
  (z0, d2_mod T2).
(** The two update patterns of sqru: 3t - 2z and 3t + 2z. *)
Definition f2_3t_sub_2z (t z : fp2) : fp2 :=
  let z := f2_sub t z in let z := f2_add z z in f2_add z t.
Definition f2_3t_add_2z (t z : fp2) : fp2 :=
  let z := f2_add t z in let z := f2_add z z in f2_add z t.
(** Fp12::sqru (bn.h:1561-1608). *)
Definition f12_sqru (x : fp12) : fp12 :=
  let z0 := a3 (a2 x) in let z4 := b3 (a2 x) in let z3 := c3 (a2 x) in
  let z2 := a3 (b2 x) in let z1 := b3 (b2 x) in let z5 := c3 (b2 x) in
  let '(t0, t1) := sq_Fp4 z0 z1 in
  let z0 := f2_3t_sub_2z t0 z0 in
  let z1 := f2_3t_add_2z t1 z1 in
  let '(t0, t1) := sq_Fp4 z2 z3 in
  let '(t2, t3) := sq_Fp4 z4 z5 in
  let z4 := f2_3t_sub_2z t0 z4 in
  let z5 := f2_3t_add_2z t1 z5 in
  let t0 := f2_mul_xi t3 in
  let z2 := f2_3t_add_2z t0 z2 in
  let z3 := f2_3t_sub_2z t2 z3 in
  mk2 (mk3 z0 z4 z3) (mk3 z2 z1 z5).

(** Fp12::Dbl::mul_Fp2_024 (bn.h:1940-2001, make_Fp12Dbl_mul_Fp2_024 zm2.cpp:2697-2958):
    z *= x.a_ + x.c_ v^2 + x.b_ v w. *)
Definition f12_mul_024 (z : fp12) (x : fp6) : fp12 :=
  let z0 := a3 (a2 z) in let z1 := b3 (a2 z) in let z2 := c3 (a2 z) in
  let z3 := a3 (b2 z) in let z4 := b3 (b2 z) in let z5 := c3 (b2 z) in
  let x0 := a3 x in let x2 := c3 x in let x4 := b3 x in
  let D0 := d2_mulOpt2 z0 x0 in
  let D2 := d2_mulOpt2 z2 x2 in
  let D4 := d2_mulOpt2 z4 x4 in
  let t2 := f2_add z0 z4 in
  let t1 := f2_add z0 z2 in
  let s0 := f2_add z1 z3 in
  let s0 := f2_add s0 z5 in
  let S1 := d2_mulOpt2 z1 x2 in
  let T3 := d2_add S1 D4 in
  let T4 := d2_mul_xi T3 in
  let T4 := d2_add T4 D0 in
  let z0' := d2_mod T4 in
  let T3 := d2_mulOpt2 z5 x4 in
  let S1 := d2_add S1 T3 in
  let T3 := d2_add T3 D2 in
  let T4 := d2_mul_xi T3 in
  let T3 := d2_mulOpt2 z1 x0 in
  let S1 := d2_add S1 T3 in
  let T4 := d2_add T4 T3 in
  let z1' := d2_mod T4 in
  let t0 := f2_add x0 x2 in
  let T3 := d2_mulOpt2 t1 t0 in
  let T3 := d2_sub T3 D0 in
  let T3 := d2_sub T3 D2 in
  let T4 := d2_mulOpt2 z3 x4 in
  let S1 := d2_add S1 T4 in
  let T3 := d2_add T3 T4 in
  let t0 := f2_add z2 z4 in
  let z2' := d2_mod T3 in
  let t1 := f2_add x2 x4 in
  let T3 := d2_mulOpt2 t0 t1 in
  let T3 := d2_sub T3 D2 in
  let T3 := d2_sub T3 D4 in
  let T4 := d2_mul_xi T3 in
  let T3 := d2_mulOpt2 z3 x0 in
  let S1 := d2_add S1 T3 in
  let T4 := d2_add T4 T3 in
  let z3' := d2_mod T4 in
  let T3 := d2_mulOpt2 z5 x2 in
  let S1 := d2_add S1 T3 in
  let T4 := d2_mul_xi T3 in
  let t0 := f2_add x0 x4 in
  let T3 := d2_mulOpt2 t2 t0 in
  let T3 := d2_sub T3 D0 in
  let T3 := d2_sub T3 D4 in
  let T4 := d2_add T4 T3 in
  let z4' := d2_mod T4 in
  let t0 := f2_add x0 x2 in
  let t0 := f2_add t0 x4 in
  let T3 := d2_mulOpt2 s0 t0 in
  let T3 := d2_sub T3 S1 in
  let z5' := d2_mod T3 in
  mk2 (mk3 z0' z1' z2') (mk3 z3' z4' z5').
(** Fp12::Dbl::mul_Fp2_024_Fp2_024 (bn.h:2038-2087). *)
Definition f12_mul_024_024 (cv2 cv3 : fp6) : fp12 :=
  let x0 := a3 cv2 in let x2 := c3 cv2 in let x4 := b3 cv2 in
  let y0 := a3 cv3 in let y2 := c3 cv3 in let y4 := b3 cv3 in
  let T00 := d2_mulOpt2 x0 y0 in
  let T22 := d2_mulOpt2 x2 y2 in
  let T44 := d2_mulOpt2 x4 y4 in
  let z0 := f2_add x0 x2 in
  let z1 := f2_add y0 y2 in
  let T02 := d2_mulOpt2 z0 z1 in
  let T02 := d2_sub T02 T00 in
  let T02 := d2_sub T02 T22 in
  let z2' := d2_mod T02 in
  let z0 := f2_add x2 x4 in
  let z1 := f2_add y2 y4 in
  let T24 := d2_mulOpt2 z0 z1 in
  let T24 := d2_sub T24 T22 in
  let T24 := d2_sub T24 T44 in
  let T02 := d2_mul_xi T24 in
  let z3' := d2_mod T02 in
  let z0 := f2_add x4 x0 in
  let z1 := f2_add y4 y0 in
  let T40 := d2_mulOpt2 z0 z1 in
  let T40 := d2_sub T40 T00 in
  let T40 := d2_sub T40 T44 in
  let z4' := d2_mod T40 in
  let T02 := d2_mul_xi T22 in
  let z1' := d2_mod T02 in
  let T02 := d2_mul_xi T44 in
  let T02 := d2_add T02 T00 in
  let z0' := d2_mod T02 in
  mk2 (mk3 z0' z1' z2') (mk3 z3' z4' f2_0).
End TowerModel.
