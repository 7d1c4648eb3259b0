(** opt_atePairing (bn.h:2720-2785, BN_SUPPORT_SNARK) run with a check at every product and square, as in
    SnarkRun.v: [miller_step], [miller], [opt_ate] of PairM.v with [f12_mul], [f12_square] and
    [f12_final_exp] replaced by [cmul], [csquare] and [cfinal]. *)
From Coq Require Import ZArith List.
From Verif Require Import Base Cfg FpM TowerSpec TowerM ParamM FinalM EcM PairM SnarkRun.
Import ListNotations.
Local Open Scope Z_scope.

Section Ate.
Variables (c : cfg) (P : param).
(** one round of the loop (bn.h:2738-2759) *)
Definition cmstep (xq yq yqn : fp2) (xp yp : Z) (s : fp12 * F3 fp2) (d : Z) : option (fp12 * F3 fp2) :=
  let '(f, T) := s in
  let '(l, T) := dblLine c P T xp yp in
  let? f := csquare c f in
  let f := f12_mul_024 c f l in
  if d >? 0 then let '(l, T) := addLine c T xq yq xp yp in Some (f12_mul_024 c f l, T)
  else if d <? 0 then let '(l, T) := addLine c T xq yqn xp yp in Some (f12_mul_024 c f l, T)
  else Some (f, T).
Fixpoint cmrun (xq yq yqn : fp2) (xp yp : Z) (ds : list Z) (s : fp12 * F3 fp2) : option (fp12 * F3 fp2) :=
  match ds with
  | [] => Some s
  | d :: ds => let? s := cmstep xq yq yqn xp yp s d in cmrun xq yq yqn xp yp ds s
  end.
Definition cmiller (xq yq : fp2) (xp yp : Z) : option fp12 :=
  let '(d, T) := dblLine c P (mk3 xq yq (f2_1 c)) xp yp in
  let '(e, T) := addLine c T xq yq xp yp in
  let? (f, T) := cmrun xq yq (f2_neg c yq) xp yp (skipn 2 (par_si P)) (f12_mul_024_024 c d e, T) in
  let '(xq1, yq1) := FrobEnd1 c P xq yq in
  let '(xq2, yq2) := FrobEnd2 c P xq yq in
  let '(d, T) := addLine c T xq1 yq1 xp yp in
  let '(e, T) := addLine c T xq2 (f2_neg c yq2) xp yp in
  cmul c f (f12_mul_024_024 c d e).
Definition cate (xq yq : fp2) (xp yp : Z) : option fp12 :=
  let? f := cmiller xq yq xp yp in cfinal c P f.
End Ate.
