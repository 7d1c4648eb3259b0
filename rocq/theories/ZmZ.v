(** Model of mie::ZmZ<Vuint> (include/zm.h:1168-1339).  The static modulus m_ is a
    parameter [m]; a value is its member v_.  Aliasing of output and operands: sub
    treats it explicitly (lines 1256-1262) and computes the same value both ways;
    the other functions read each operand before the output is overwritten. *)
From Verif Require Import Base Prim Loop Vuint VDiv.

(** modulo(): v_ %= m_ (include/zm.h:1179-1182, 147); with m_ = 0 div returns false
    and v_ stays. *)
Definition zmod (m x : vuint) : res vuint :=
  let! o := vmod x m in Ok (match o with Some r => r | None => x end).

(** set(int) (include/zm.h:1203-1216). *)
Definition zset_int (m : vuint) (x : Z) : res vuint :=
  if x =? 0 then Ok (vset 0)
  else if 0 <? x then Ok (vset x)
  else if (x =? - 2 ^ 31) then Exit
  else if vlt m (vset (- x)) then Exit
  else vsub m (vset (- x)).

(** add (include/zm.h:1244-1250). *)
Definition zadd (m x y : vuint) : res vuint :=
  let! s := vadd x y in
  if negb (vlt s m) then vsub s m else Ok s.

(** sub (include/zm.h:1251-1265). *)
Definition zsub (m x y : vuint) : res vuint :=
  if vlt x y then (let! t := vadd x m in vsub t y) else vsub x y.

(** neg (include/zm.h:1266-1273). *)
Definition zneg (m x : vuint) : res vuint :=
  if visZero x then Ok x else vsub m x.

(** mul (include/zm.h:1274-1290). *)
Definition zmul (m x y : vuint) : res vuint :=
  let! t := vmul x y in zmod m t.

(** V::div(&q, r, x, y) as a statement: nothing is assigned when y is zero. *)
Definition zdivs (q r x y : vuint) : res (vuint * vuint) :=
  let! o := vdiv x y in Ok (match o with Some qr => qr | None => (q, r) end).

(** State of the loop of inv: (a, b, s, t, q). *)
Definition zinv_state := (vuint * vuint * vuint * vuint * vuint)%type.

(** loop body of inv (include/zm.h:1309-1322). *)
Definition zinv_body (m : vuint) (st : zinv_state) : res (step zinv_state vuint) :=
  let '(a, b, s, t, q) := st in
  let! (q, s) := zdivs q s s t in
  if visZero s then Ok (Done b) else
  let! bq := zmul m b q in
  let! a := zsub m a bq in
  let! (q, t) := zdivs q t t s in
  if visZero t then Ok (Done a) else
  let! aq := zmul m a q in
  let! b := zsub m b aq in
  Ok (Next (a, b, s, t, q)).

(** inv (include/zm.h:1292-1323); the assertions are compiled out. *)
Definition zinv (m x : vuint) : res vuint :=
  let a := vset 1 in
  if veq a x then Ok a else
  let! (q, t) := zdivs (vset 0) (vset 0) m x in
  let s := x in
  let! b := zneg m q in
  loopR 600 (zinv_body m) (a, b, s, t, q).
