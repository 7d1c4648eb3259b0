(** final_exp (bn.h:1774-1849, BN_SUPPORT_SNARK) run with a check at every product: the run stops
    ([None]) as soon as the last coefficient of a double-size Fp6 product is not below p 2^256.  The
    sequence of operations is that of [f12_final_exp] (FinalM.v), [f12_pow_neg_t], [f12_mapToCyclo] and
    [f12_inverse] (TowerM.v), with [f12_mul] and [f6_mul] replaced by [cmul] and [cmul6]. *)
From Coq Require Import ZArith List.
From Verif Require Import Base Cfg FpM TowerSpec TowerM ParamM FinalM EcM PairM.
Import ListNotations.
Local Open Scope Z_scope.

Notation "'let?' x := e 'in' k" := (match e with Some x => k | None => None end) (at level 200, x pattern, k at level 200).
Section Run.
Variables (c : cfg) (P : param).
Definition in6b (x y : fp6) : bool := b2 (c3 (d6_mul c x y)) <? cp c * W.
Definition in12b (x y : fp12) : bool :=
  (in6b (a2 x) (a2 y) && in6b (b2 x) (b2 y) && in6b (f6_add c (a2 x) (b2 x)) (f6_add c (a2 y) (b2 y)))%bool.
Definition cmul6 (x y : fp6) : option fp6 := if in6b x y then Some (f6_mul c x y) else None.
Definition cmul (x y : fp12) : option fp12 := if in12b x y then Some (f12_mul c x y) else None.
(** Fp12::inverse (bn.h:1618-1632) *)
Definition cinverse (x : fp12) : option fp12 :=
  let tmp0 := f6_square c (a2 x) in
  let tmp1 := f6_square c (b2 x) in
  let tmp2 := f2_mul_xi c (c3 tmp1) in
  let tmp0 := mk3 (f2_sub c (a3 tmp0) tmp2) (f2_sub c (b3 tmp0) (a3 tmp1)) (f2_sub c (c3 tmp0) (b3 tmp1)) in
  match f6_inverse c tmp0 with
  | Ok tmp0 =>
      let? za := cmul6 (a2 x) tmp0 in
      let? zb := cmul6 (b2 x) tmp0 in
      Some (mk2 za (f6_neg c zb))
  | _ => None
  end.
(** Fp12::mapToCyclo (bn.h:1728-1741) *)
Definition cmapToCyclo (x : fp12) : option fp12 :=
  let z := f12_conj c x in
  let? t := cinverse x in
  let? z := cmul z t in
  let t := f12_frob2 c P z in
  cmul z t.
(** pow_neg_t (bn.h:1754-1771) *)
Fixpoint cpow_loop (l : list Z) (x xc out : fp12) : option fp12 :=
  match l with
  | [] => Some out
  | d :: l =>
      let out := f12_sqru c out in
      let? out := (if 0 <? d then cmul out x else if d <? 0 then cmul out xc else Some out) in
      cpow_loop l x xc out
  end.
Definition cpow (x : fp12) : option fp12 :=
  let? z := cpow_loop (tl (par_zr P)) x (f12_conj c x) x in Some (f12_conj c z).
(** Fp12::final_exp (bn.h:1774-1849) *)
Definition cfinal (x : fp12) : option fp12 :=
  let? f := cmapToCyclo x in
  let? f2z := cpow f in
  let f2z := f12_sqru c f2z in
  let f6z := f12_sqru c f2z in
  let? f6z := cmul f6z f2z in
  let? f6z2 := cpow f6z in
  let a := f12_sqru c f6z2 in
  let? f12z3 := cpow a in
  let f6z := f12_conj c f6z in
  let f12z3 := f12_conj c f12z3 in
  let? a := cmul f12z3 f6z2 in
  let? a := cmul a f6z in
  let? b := cmul a f2z in
  let? z := cmul a f6z2 in
  let? z := cmul z f in
  let f2z := f12_frob c P b in
  let? z := cmul z f2z in
  let f2z := f12_frob2 c P a in
  let? z := cmul z f2z in
  let f := f12_conj c f in
  let? b := cmul b f in
  let f2z := f12_frob3 c P b in
  cmul z f2z.

(** millerLoop (bn.h:3060-3106) and millerLoop2 (bn.h:3108-3178) with a check at every product and
    square; the two Fp6 products of Fp12::square are those of [f12_square] *)
Definition in12sqb (x : fp12) : bool :=
  (in6b (b2 x) (a2 x) && in6b (f6_add c (a2 x) (b2 x)) (f6_mul_gamma_add c (b2 x) (a2 x)))%bool.
Definition csquare (x : fp12) : option fp12 := if in12sqb x then Some (f12_square c x) else None.
Definition cline (v : list fp6) (i : nat) (xp yp : Z) : option fp6 :=
  let? l := nth_error v i in Some (mulFp6_24 c l xp yp).
Fixpoint cmloop (v : list fp6) (xp yp : Z) (ds : list Z) (f : fp12) (i : nat) : option (fp12 * nat) :=
  match ds with
  | [] => Some (f, i)
  | d :: ds =>
      let? l := cline v i xp yp in
      let? f := csquare f in
      let f := f12_mul_024 c f l in
      if d =? 0 then cmloop v xp yp ds f (S i)
      else let? l := cline v (S i) xp yp in cmloop v xp yp ds (f12_mul_024 c f l) (S (S i))
  end.
Definition cmillerLoop (v : list fp6) (xp yp : Z) : option fp12 :=
  let? d := cline v 0 xp yp in
  let? e := cline v 1 xp yp in
  let? (f, i) := cmloop v xp yp (skipn 2 (par_si P)) (f12_mul_024_024 c d e) 2 in
  let? d := cline v i xp yp in
  let? e := cline v (S i) xp yp in
  cmul f (f12_mul_024_024 c d e).
(** opt_atePairing through precomputeG2; an output 0 of the loop is turned away *)
Definition cpairing (v : list fp6) (xp yp : Z) : option fp12 :=
  let? f := cmillerLoop v xp yp in
  if f12_isZero f then None else cfinal f.
Fixpoint cmloop2 (v1 : list fp6) (xp1 yp1 : Z) (v2 : list fp6) (xp2 yp2 : Z) (ds : list Z) (f : fp12) (i : nat) : option (fp12 * nat) :=
  match ds with
  | [] => Some (f, i)
  | d :: ds =>
      let? l1 := cline v1 i xp1 yp1 in
      let? l2 := cline v2 i xp2 yp2 in
      let? f := csquare f in
      let? f := cmul f (f12_mul_024_024 c l1 l2) in
      if d =? 0 then cmloop2 v1 xp1 yp1 v2 xp2 yp2 ds f (S i)
      else
        let? l1 := cline v1 (S i) xp1 yp1 in
        let? l2 := cline v2 (S i) xp2 yp2 in
        let? f := cmul f (f12_mul_024_024 c l1 l2) in
        cmloop2 v1 xp1 yp1 v2 xp2 yp2 ds f (S (S i))
  end.
Definition cmillerLoop2 (v1 : list fp6) (xp1 yp1 : Z) (v2 : list fp6) (xp2 yp2 : Z) : option fp12 :=
  let? d1 := cline v1 0 xp1 yp1 in
  let? d2 := cline v2 0 xp2 yp2 in
  let? e1 := cline v1 1 xp1 yp1 in
  let? e2 := cline v2 1 xp2 yp2 in
  let? f := cmul (f12_mul_024_024 c d1 e1) (f12_mul_024_024 c d2 e2) in
  let? (f, i) := cmloop2 v1 xp1 yp1 v2 xp2 yp2 (skipn 2 (par_si P)) f 2 in
  let? d1 := cline v1 i xp1 yp1 in
  let? d2 := cline v2 i xp2 yp2 in
  let? e1 := cline v1 (S i) xp1 yp1 in
  let? e2 := cline v2 (S i) xp2 yp2 in
  let? f := cmul f (f12_mul_024_024 c d1 e1) in
  cmul f (f12_mul_024_024 c d2 e2).
End Run.
