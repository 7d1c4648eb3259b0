(** The optimal ate pairing: line evaluation (include/bn.h:985-1148, src/zm2.cpp:3012-3225),
    opt_atePairing (bn.h:2720-2807, 2966-2975), precomputed coefficients (bn.h:2997-3178).
    Outputs l, R and inputs Q, P are different objects in every call of the library; the
    line functions are modelled as functions from the contents of R to those of (l, R). *)
From Coq Require Import ZArith List Bool.
From Verif Require Import Base Cfg FpM TowerSpec TowerM ParamM FinalM EcM.
Import ListNotations.
Local Open Scope Z_scope.

Section PairM.
Variable c : cfg.
Variable P : param.

(** 3 b' z^2, b' the coefficient of the twist.  SNARK build: b = 82 selects
    (9a + b, 9b - a), i.e. multiplication by 9 - u (zm2.cpp:3078-3089, generated code).
    ParamT::b is tested when the code is generated, b_invxi is read when it runs: [c] is the
    curve of the first call of init, [P] holds the parameters of the last one (InitM.v). *)
Definition mul_binvxi (t0 : fp2) : fp2 :=
  if snark c then
    if cb c =? 82 then mk2 (fp_mul9 c (a2 t0) (b2 t0) true) (fp_mul9 c (b2 t0) (a2 t0) false)
    else f2_mul c t0 (par_binvxi P)
  else mk2 (fp_add c (a2 t0) (b2 t0)) (fp_sub c (b2 t0) (a2 t0)).
(** the same step of the C++ fallback (bn.h:1024-1040) *)
Definition mul_binvxiC (t0 : fp2) : fp2 :=
  if snark c then
    if par_b P =? 82 then
      let t3 := mk2 (b2 t0) (a2 t0) in
      let t0 := f2_mul_xi c t3 in
      mk2 (b2 t0) (a2 t0)
    else f2_mul c t0 (par_binvxi P)
  else mk2 (fp_add c (a2 t0) (b2 t0)) (fp_sub c (b2 t0) (a2 t0)).

(** pointDblLineEvalWithoutP (bn.h:1001-1075; make_pointDblLineEval(true): the same sequence).
    [mb] is the multiplication by b'. *)
Definition dblLine_gen (mb : fp2 -> fp2) (R : F3 fp2) : fp6 * F3 fp2 :=
  let t0 := f2_square c (c3 R) in
  let t4 := f2_mul c (a3 R) (b3 R) in
  let t1 := f2_square c (b3 R) in
  let t3 := f2_add c t0 t0 in
  let t4 := f2_divBy2 c t4 in
  let t5 := f2_add c t0 t1 in
  let t0 := f2_add c t0 t3 in
  let t2 := mb t0 in
  let t0 := f2_square c (a3 R) in
  let t3 := f2_add c t2 t2 in
  let t3 := f2_add c t3 t2 in
  let lc := f2_addNC t0 t0 in
  let r0 := f2_sub c t1 t3 in
  let lc := f2_addNC lc t0 in
  let t3 := f2_add c t3 t1 in
  let r0 := f2_mul c r0 t4 in
  let t3 := f2_divBy2 c t3 in
  let d0 := d2_square c t3 in
  let d1 := d2_square c t2 in
  let d2 := d2_addNC d1 d1 in
  let t3 := f2_add c (b3 R) (c3 R) in
  let d2 := if snark c then d2_add c d2 d1 else d2_addNC d2 d1 in
  let t3 := f2_square c t3 in
  let t3 := f2_sub c t3 t5 in
  let d0 := d2_sub c d0 d2 in
  let r1 := d2_mod c d0 in
  let r2 := f2_mul c t1 t3 in
  let t2 := f2_sub c t2 t1 in
  let la := f2_mul_xi c t2 in
  let lb := f2_neg c t3 in
  (mk3 la lb lc, mk3 r0 r1 r2).
Definition dblLineWP : F3 fp2 -> fp6 * F3 fp2 := dblLine_gen mul_binvxi.
Definition dblLineWPC : F3 fp2 -> fp6 * F3 fp2 := dblLine_gen mul_binvxiC.

(** mulFp6_24_Fp_01 (bn.h:1076-1080): l.c_ *= P[0], l.b_ *= P[1]. *)
Definition mulFp6_24 (l : fp6) (xp yp : Z) : fp6 :=
  let lc := f2_mul_Fp_0 c (c3 l) xp in
  let lb := f2_mul_Fp_0 c (b3 l) yp in
  mk3 (a3 l) lb lc.
(** pointDblLineEval (bn.h:1081-1086; make_pointDblLineEval(false)) *)
Definition dblLine (R : F3 fp2) (xp yp : Z) : fp6 * F3 fp2 :=
  let '(l, R) := dblLineWP R in (mulFp6_24 l xp yp, R).

(** pointAddLineEvalWithoutP (bn.h:1097-1141) *)
Definition addLineWP (R : F3 fp2) (xq yq : fp2) : fp6 * F3 fp2 :=
  let t1 := f2_mul c (c3 R) xq in
  let t2 := f2_mul c (c3 R) yq in
  let t1 := f2_sub c (a3 R) t1 in
  let t2 := f2_sub c (b3 R) t2 in
  let t3 := f2_square c t1 in
  let r0 := f2_mul c t3 (a3 R) in
  let t4 := f2_square c t2 in
  let t3 := f2_mul c t3 t1 in
  let t4 := f2_mul c t4 (c3 R) in
  let t4 := f2_add c t4 t3 in
  let t4 := f2_sub c t4 r0 in
  let t4 := f2_sub c t4 r0 in
  let r0 := f2_sub c r0 t4 in
  let d1 := d2_mulOpt1 c t2 r0 in
  let d2 := d2_mulOpt1 c t3 (b3 R) in
  let d2 := d2_sub c d1 d2 in
  let r1 := d2_mod c d2 in
  let r0 := f2_mul c t1 t4 in
  let r2 := f2_mul c t3 (c3 R) in
  let lc := f2_neg c t2 in
  let d1 := d2_mulOpt1 c t2 xq in
  let d2 := d2_mulOpt1 c t1 yq in
  let d1 := d2_sub c d1 d2 in
  let t2 := d2_mod c d1 in
  let la := f2_mul_xi c t2 in
  let lb := t1 in
  (mk3 la lb lc, mk3 r0 r1 r2).
(** pointAddLineEval (bn.h:1142-1147) *)
Definition addLine (R : F3 fp2) (xq yq : fp2) (xp yp : Z) : fp6 * F3 fp2 :=
  let '(l, R) := addLineWP R xq yq in (mulFp6_24 l xp yp, R).

(** The loop over siTbl[2..] (bn.h:2745-2763). *)
Definition miller_step (xq yq yqn : fp2) (xp yp : Z) (s : fp12 * F3 fp2) (d : Z) : fp12 * F3 fp2 :=
  let '(f, T) := s in
  let '(l, T) := dblLine T xp yp in
  let f := f12_square c f in
  let f := f12_mul_024 c f l in
  if d >? 0 then let '(l, T) := addLine T xq yq xp yp in (f12_mul_024 c f l, T)
  else if d <? 0 then let '(l, T) := addLine T xq yqn xp yp in (f12_mul_024 c f l, T)
  else (f, T).
(** opt_atePairing without the final exponentiation (bn.h:2720-2782).  Qneg is initialised
    only if useNAF; otherwise it is not read (no digit is negative). *)
Definition miller (xq yq : fp2) (xp yp : Z) : fp12 :=
  let T := mk3 xq yq (f2_1 c) in
  let yqn := f2_neg c yq in
  let '(d, T) := dblLine T xp yp in
  let '(e, T) := addLine T xq yq xp yp in
  let f := f12_mul_024_024 c d e in
  let '(f, T) := fold_left (miller_step xq yq yqn xp yp) (skipn 2 (par_si P)) (f, T) in
  let '(xq1, yq1) := FrobEnd1 c P xq yq in
  let '(xq2, yq2) := if snark c then let '(x, y) := FrobEnd2 c P xq yq in (x, f2_neg c y) else FrobEnd8 c P xq yq in
  let '(f, T) := if snark c then (f, T) else (mk2 (a2 f) (f6_neg c (b2 f)), mk3 (a3 T) (f2_neg c (b3 T)) (c3 T)) in
  let '(d, T) := addLine T xq1 yq1 xp yp in
  let '(e, T) := addLine T xq2 yq2 xp yp in
  let ft := f12_mul_024_024 c d e in
  f12_mul c f ft.
(** opt_atePairing (bn.h:2720-2785) *)
Definition opt_ate (xq yq : fp2) (xp yp : Z) : res fp12 := f12_final_exp c P (miller xq yq xp yp).
(** opt_atePairingJac (bn.h:2795-2807); the local arrays Q and P are at [Loc 0]. *)
Definition opt_ateJac (m2 : mem (fp2O c)) (q : ptr) (m1 : mem (fpO c)) (pp : ptr) : res fp12 :=
  if f2_eqb (c3 (m2 q)) f2_0 || fp_eqb (c3 (m1 pp)) 0 then Ok (f12_1 c)
  else
    let! m2 := NormalizeJac (fp2O c) m2 (Loc 0) q in
    let! m1 := NormalizeJac (fpO c) m1 (Loc 0) pp in
    opt_ate (a3 (m2 (Loc 0))) (b3 (m2 (Loc 0))) (a3 (m1 (Loc 0))) (b3 (m1 (Loc 0))).
(** opt_atePairing on Ec2, Ec1 objects (bn.h:2966-2975); it normalizes the (const, mutable)
    arguments. *)
Definition opt_ateEc (m2 : mem (fp2O c)) (q : ptr) (m1 : mem (fpO c)) (pp : ptr) : res (fp12 * mem (fp2O c) * mem (fpO c)) :=
  let! m2 := ec_normalize (fp2O c) m2 q in
  let! m1 := ec_normalize (fpO c) m1 pp in
  if f2_isZero (c3 (m2 q)) || fp_isZero (c3 (m1 pp)) then Ok (f12_1 c, m2, m1)
  else
    let! f := opt_ate (a3 (m2 q)) (b3 (m2 q)) (a3 (m1 pp)) (b3 (m1 pp)) in
    Ok (f, m2, m1).

(** components::precomputeG2 after normalization (bn.h:3002-3054): the vector of lines. *)
Definition pre_step (xq yq yqn : fp2) (s : list fp6 * F3 fp2) (d : Z) : list fp6 * F3 fp2 :=
  let '(v, T) := s in
  let '(l, T) := dblLineWP T in
  let v := v ++ [l] in
  if d >? 0 then let '(l, T) := addLineWP T xq yq in (v ++ [l], T)
  else if d <? 0 then let '(l, T) := addLineWP T xq yqn in (v ++ [l], T)
  else (v, T).
Definition preG2 (xq yq : fp2) : list fp6 :=
  let T := mk3 xq yq (f2_1 c) in
  let yqn := f2_neg c yq in
  let '(d, T) := dblLineWP T in
  let '(e, T) := addLineWP T xq yq in
  let '(v, T) := fold_left (pre_step xq yq yqn) (skipn 2 (par_si P)) ([d; e], T) in
  let '(xq1, yq1) := FrobEnd1 c P xq yq in
  let '(xq2, yq2) := if snark c then let '(x, y) := FrobEnd2 c P xq yq in (x, f2_neg c y) else FrobEnd8 c P xq yq in
  let T := if snark c then T else mk3 (a3 T) (f2_neg c (b3 T)) (c3 T) in
  let '(d, T) := addLineWP T xq1 yq1 in
  let v := v ++ [d] in
  let '(e, T) := addLineWP T xq2 yq2 in
  v ++ [e].
(** precomputeG2 (bn.h:2997-3055): also stores the normalized point at [o]. *)
Definition precomputeG2 (m : mem (fp2O c)) (o i : ptr) : res (list fp6 * mem (fp2O c)) :=
  let! m := NormalizeJac (fp2O c) m o i in
  Ok (preG2 (a3 (m o)) (b3 (m o)), m).
(** Qcoeff[idx]: reading beyond the vector is undefined. *)
Definition at_ (v : list fp6) (idx : nat) : res fp6 := match nth_error v idx with Some l => Ok l | None => UB end.
(** millerLoop (bn.h:3060-3106) *)
Definition mloop_step (v : list fp6) (xp yp : Z) (s : fp12 * nat) (d : Z) : res (fp12 * nat) :=
  let '(f, idx) := s in
  let! l := at_ v idx in
  let idx := S idx in
  let f := f12_square c f in
  let l := mulFp6_24 l xp yp in
  let f := f12_mul_024 c f l in
  if d =? 0 then Ok (f, idx)
  else
    let! l := at_ v idx in
    let idx := S idx in
    let l := mulFp6_24 l xp yp in
    Ok (f12_mul_024 c f l, idx).
Fixpoint foldR {S} (step : S -> Z -> res S) (l : list Z) (s : S) : res S :=
  match l with [] => Ok s | d :: l => let! s := step s d in foldR step l s end.
Definition millerLoop (v : list fp6) (xp yp : Z) : res fp12 :=
  let! d := at_ v 0 in
  let d := mulFp6_24 d xp yp in
  let! e := at_ v 1 in
  let e := mulFp6_24 e xp yp in
  let f := f12_mul_024_024 c d e in
  let! s := foldR (mloop_step v xp yp) (skipn 2 (par_si P)) (f, 2%nat) in
  let '(f, idx) := s in
  let f := if snark c then f else mk2 (a2 f) (f6_neg c (b2 f)) in
  let! d := at_ v idx in
  let d := mulFp6_24 d xp yp in
  let idx := S idx in
  let! e := at_ v idx in
  let e := mulFp6_24 e xp yp in
  let ft := f12_mul_024_024 c d e in
  Ok (f12_mul c f ft).
(** millerLoop2 (bn.h:3108-3178) *)
Definition mloop2_step (v1 : list fp6) (xp1 yp1 : Z) (v2 : list fp6) (xp2 yp2 : Z) (s : fp12 * nat) (d : Z) : res (fp12 * nat) :=
  let '(f, idx) := s in
  let! l1 := at_ v1 idx in
  let! l2 := at_ v2 idx in
  let idx := S idx in
  let f := f12_square c f in
  let l1 := mulFp6_24 l1 xp1 yp1 in
  let l2 := mulFp6_24 l2 xp2 yp2 in
  let f1 := f12_mul_024_024 c l1 l2 in
  let f := f12_mul c f f1 in
  if d =? 0 then Ok (f, idx)
  else
    let! l1 := at_ v1 idx in
    let! l2 := at_ v2 idx in
    let idx := S idx in
    let l1 := mulFp6_24 l1 xp1 yp1 in
    let l2 := mulFp6_24 l2 xp2 yp2 in
    let f1 := f12_mul_024_024 c l1 l2 in
    Ok (f12_mul c f f1, idx).
Definition millerLoop2 (v1 : list fp6) (xp1 yp1 : Z) (v2 : list fp6) (xp2 yp2 : Z) : res fp12 :=
  let! d1 := at_ v1 0 in
  let d1 := mulFp6_24 d1 xp1 yp1 in
  let! d2 := at_ v2 0 in
  let d2 := mulFp6_24 d2 xp2 yp2 in
  let! e1 := at_ v1 1 in
  let e1 := mulFp6_24 e1 xp1 yp1 in
  let f1 := f12_mul_024_024 c d1 e1 in
  let! e2 := at_ v2 1 in
  let e2 := mulFp6_24 e2 xp2 yp2 in
  let f2 := f12_mul_024_024 c d2 e2 in
  let f := f12_mul c f1 f2 in
  let! s := foldR (mloop2_step v1 xp1 yp1 v2 xp2 yp2) (skipn 2 (par_si P)) (f, 2%nat) in
  let '(f, idx) := s in
  let f := if snark c then f else mk2 (a2 f) (f6_neg c (b2 f)) in
  let! d1 := at_ v1 idx in
  let d1 := mulFp6_24 d1 xp1 yp1 in
  let! d2 := at_ v2 idx in
  let d2 := mulFp6_24 d2 xp2 yp2 in
  let idx := S idx in
  let! e1 := at_ v1 idx in
  let e1 := mulFp6_24 e1 xp1 yp1 in
  let! e2 := at_ v2 idx in
  let e2 := mulFp6_24 e2 xp2 yp2 in
  let f1 := f12_mul_024_024 c d1 e1 in
  let f2 := f12_mul_024_024 c d2 e2 in
  let f := f12_mul c f f1 in
  Ok (f12_mul c f f2).
End PairM.
