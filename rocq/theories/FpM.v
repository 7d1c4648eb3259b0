(** mie::Fp and mie::Fp::Dbl: the run-time generated functions (src/zm2.cpp) and the
    inline functions of include/zm2.h built from them.

    An Fp object is its 256-bit content (four units, little endian) as an integer in
    [0, 2^256); a Dbl object is its 512-bit content. Every function is the integer
    function computed by the instruction sequence, with carries out of the top unit
    dropped exactly where the code drops them (the reductions modulo W, W*W, 2^320 ...).
    Simplification at this level: register allocation, loads and stores are abstracted;
    the argument objects are read before the result is written (the instruction-level
    files check this, including aliasing). *)
From Coq Require Import ZArith Lia Bool.
From Verif Require Import Base Prim Loop Cfg.
Local Open Scope Z_scope.

Section FpModel.
Variable c : cfg.
Local Notation p := (cp c).

(** Fp::addNC / subNC: no modular correction (make_Fp_addNC zm2.cpp:655-700, make_Fp_subNC 702-719). *)
Definition fp_addNC (x y : Z) : Z := (x + y) mod W.
Definition fp_subNC (x y : Z) : Z := (x - y) mod W.

(** in_Fp_add_modp (zm2.cpp:726-747): subtract p, keep the old value on borrow. *)
Definition add_modp (s : Z) : Z := if s <? p then s else s - p.
(** Fp::add (in_Fp_add zm2.cpp:752-758, make_Fp_add 994-998). *)
Definition fp_add (x y : Z) : Z := add_modp ((x + y) mod W).
(** Fp::sub (in_Fp_sub zm2.cpp:764-802): on borrow add p. *)
Definition fp_sub (x y : Z) : Z :=
  let d := (x - y) mod W in if x <? y then (d + p) mod W else d.
(** Fp::neg (make_Fp_neg zm2.cpp:1029-1054; in_Fp_neg 855-866). *)
Definition fp_neg (x : Z) : Z := if x =? 0 then 0 else (p - x) mod W.

(** montgomery1 (zm2.cpp:1195-1226): c += x * y; q = c0 * pp; c = (c + q * p) >> 64.
    The accumulator has five units. *)
Definition mont1 (acc x y : Z) : Z :=
  let a := (acc + x * y) mod (B * W) in
  let q := ((a mod B) * cpp c) mod B in
  (a + q * p) / B.
(** Fp::mul (Fp_mul zm2.cpp:1228-1276): four rounds, then one conditional subtraction on
    the low 256 bits. *)
Definition fp_mul (x y : Z) : Z :=
  let t := mont1 0 x (y mod B) in
  let t := mont1 t x ((y / B) mod B) in
  let t := mont1 t x ((y / (B * B)) mod B) in
  let t := mont1 t x ((y / (B * B * B)) mod B) in
  add_modp (t mod W).
(** Fp::square (include/zm2.h:287). *)
Definition fp_sqr (x : Z) : Z := fp_mul x x.

(** Fp::shr1, shr2 (make_Fp_shr zm2.cpp:1125-1143). *)
Definition fp_shr1 (x : Z) : Z := x / 2.
Definition fp_shr2 (x : Z) : Z := x / 4.
(** halfTbl_, quarterTbl_ (zm2.cpp:3576-3590). *)
Definition halfTbl (i : Z) : Z := if i =? 0 then 0 else (p + 1) / 2.
Definition quarterTbl (i : Z) : Z := i * ((p + 1) / 4).
(** Fp::divBy2, divBy4 (include/zm2.h:216-228; sub_Fp_divBy2 zm2.cpp:1083-1094). *)
Definition fp_divBy2 (x : Z) : Z := fp_addNC (fp_shr1 x) (halfTbl (x mod 2)).
Definition fp_divBy4 (x : Z) : Z := fp_addNC (fp_shr2 x) (quarterTbl (x mod 4)).

(** s_pTbl[i] = i * p, cut to 256 bits by setDirect (zm2.cpp:3668-3670). *)
Definition pTbl (i : Z) : Z := (i * p) mod W.
(** Fp::fast_modp (include/zm2.h:230-235): z -= pTbl[z >> 253]. The generated version
    (zm2.cpp:1686-1705) computes the same. *)
Definition fp_fast_modp (z : Z) : Z := fp_sub z (pTbl (z / 2 ^ 253)).
(** Fp::_3z_add_2xC, _2z_add_3x (include/zm2.h:98-114). *)
Definition fp_3z_add_2x (z x : Z) : Z :=
  let z := fp_addNC z x in let z := fp_addNC z z in let z := fp_addNC z x in fp_fast_modp z.
Definition fp_2z_add_3x (z x : Z) : Z :=
  let z := fp_addNC x z in let z := fp_addNC z z in let z := fp_addNC z x in fp_fast_modp z.

(** Fp::preInv (make_Fp_preInv zm2.cpp:1870-1977): one iteration of the loop at .lp.
    State (u, v, r, s, k). *)
Definition preInv_body (st : Z * Z * Z * Z * Z) : step (Z * Z * Z * Z * Z) (Z * Z) :=
  let '(u, v, r, s, k) := st in
  if v =? 0 then Done ((pTbl 2 - r) mod W, k)
  else if u mod 2 =? 0 then                                   (* .u_even *)
    Next (u / 2, v, r, (s + s) mod W, k + 1)
  else if v mod 2 =? 0 then                                   (* .v_even *)
    Next (u, v / 2, (r + r) mod W, s, k + 1)
  else if v <? u then                                         (* .next3 *)
    Next ((u - v) / 2, v, (r + s) mod W, (s + s) mod W, k + 1)
  else
    Next (u, (v - u) / 2, (r + r) mod W, (s + r) mod W, k + 1).
Definition fp_preInv (x : Z) : res (Z * Z) :=
  match loop2 10 preInv_body (p, x, 0, 1, 0) with Done r => Ok r | Next _ => Diverge end.
(** invTbl_[511 - i] = 2^(i + 1) as an Fp (zm2.cpp:3682-3687). *)
Definition invTbl (k : Z) : Z := (2 ^ (512 - k) * W) mod p.
(** Fp::inv (include/zm2.h:165-207, MIE_USE_X64ASM branch). *)
Definition fp_inv (x : Z) : res Z :=
  let! (r, k) := fp_preInv x in
  if (0 <=? k) && (k <? 512) then Ok (fp_mul r (invTbl k)) else UB.

(** Fp::isZero, clear, compare (include/zm2.h:79-82, 126-138): comparison of the contents. *)
Definition fp_isZero (x : Z) : bool := x =? 0.
Definition fp_lt (x y : Z) : bool := x <? y.
Definition fp_eqb (x y : Z) : bool := x =? y.

(** ** Fp::Dbl *)
Definition W2 : Z := W * W.
Definition pN : Z := p * W.
Definition dbl_addNC (x y : Z) : Z := (x + y) mod W2.
Definition dbl_subNC (x y : Z) : Z := (x - y) mod W2.
(** FpDbl::add (in_FpDbl_add zm2.cpp:807-814): the modular correction acts on the high half. *)
Definition dbl_add (x y : Z) : Z :=
  let s := (x + y) mod W2 in add_modp (s / W) * W + s mod W.
(** FpDbl::sub (sub_FpDbl_sub zm2.cpp:818-825). *)
Definition dbl_sub (x y : Z) : Z :=
  let d := (x - y) mod W2 in
  if x <? y then ((d / W + p) mod W) * W + d mod W else d.
(** FpDbl::neg (in_FpDbl_neg zm2.cpp:1546-1581). The zero test ORs the pointer register gp1
    instead of gt1, so it never succeeds ([z] is the address of the result, never 0):
    the result is always pN - x. *)
Definition dbl_neg (x : Z) : Z := (pN - x) mod W2.
(** pNTbl_[h] = pN >> h (zm2.cpp:3676-3679). *)
Definition pNTbl (h : Z) : Z := pN / 2 ^ h.
(** FpDbl::subOpt1 of include/zm2.h:381-387 (pNTbl_[1]) and the generated
    in_FpDbl_subOpt1 (zm2.cpp:1802-1813, pNTbl_[2]). *)
Definition dbl_subOpt1_h (x y : Z) : Z := dbl_subNC (dbl_addNC x (pNTbl 1)) y.
Definition dbl_subOpt1 (x y : Z) : Z := dbl_subNC (dbl_addNC x (pNTbl 2)) y.
(** FpDbl::mul (mul4x4 zm2.cpp:1302-1374). *)
Definition dbl_mul (x y : Z) : Z := x * y.
(** FpDbl::mod (mont_mod zm2.cpp:1381-1466): round i keeps 8 - i units. *)
Definition modround (wd x : Z) : Z :=
  let q := ((x mod B) * cpp c) mod B in ((x + q * p) mod wd) / B.
Definition dbl_mod (x : Z) : Z :=
  let t := modround W2 x in
  let t := modround (W * B * B * B) t in
  let t := modround (W * B * B) t in
  let t := modround (W * B) t in
  add_modp t.
End FpModel.
