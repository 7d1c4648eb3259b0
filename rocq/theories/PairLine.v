(** The line functions: what they compute, for both builds. *)
From Coq Require Import ZArith Znumtheory Lia Ring List Bool.
From Verif Require Import Base Prim FpSpec Pock Primes Cfg FpProofs FpM TowerSpec TowerField TowerM Fp2Proofs Fp6Proofs Frob ParamM ParamProofs FinalM FinalProofs Poly EcSpec EcGroup EcM EcProofs EcInst EcFrob EcApi PairM PairProofs PairE PairH PairStep.
Import ListNotations.

Section Line.
Local Open Scope r_scope.
Variable c : cfg.
Variable P : param.
Hypothesis HP : par_ok c P.
Local Notation p := (cp c).
Add Ring FRl : (rth (FpR (cp c))).
Add Ring KRl : (rth (K2 c)).
Add Ring KR6l : (rth (K6 c)).
Add Ring KR12l : (rth (K12 c)).
Local Notation w := (iw c).
Local Notation e212 := (e212 c).
Local Notation onT := (on_curve (K2F c) (cb2 c)).
(** the line of slope [l] through the twist point (x, y), on E(Fp12) after untwisting, at (xp, yp) *)
Definition lineAt (l x y : K2 c) (xp yp : FpR p) : K12 c :=
  e212 (e2 c yp) - uty c y - e212 l * w * (e212 (e2 c xp) - utx c x).
Ltac k6 := cbn [radd rmul rsub ropp rz ro K6 cubic kadd ksub kopp kmul k0 k1 kgen a3 b3 c3].
Ltac k12 := cbn [radd rmul rsub ropp rz ro K12 quad qadd qsub qopp qmul q0 q1 a2 b2].
Lemma lval_line l m x y xp yp : y = l * x + m -> lval c xp yp l m * (w * w * w) = lineAt l x y xp yp.
Proof using.
  intros ->. unfold lineAt, uty, utx, lval, mk12, iw, EcFrob.e212, e12, e6. pose proof (ix_l c) as L. set (i := ix c) in *. set (X := e2 c xp). set (Y := e2 c yp). set (u := xi c) in *. clearbody X Y i.
  apply F2_eq; apply F3_eq; k12; k6; fold u; clearbody u; try ring.
  - transitivity (Y * (i * u)); [ring|]. rewrite L. ring.
  - transitivity (- (l * X) * (i * u)); [ring|]. rewrite L. ring.
Qed.
Lemma hom_affine X Y Z (x y : K2 c) : hom (K2F c) (mk3 X Y Z) = @EAff (K2F c) x y -> Z <> 0 /\ X = x * Z /\ Y = y * Z.
Proof using.
  intros H. assert (HZ : Z <> 0). { intros F. rewrite F in H. rewrite (hom_0 (K2F c)) in H. discriminate H. }
  split; [exact HZ|]. destruct (hom_aff (K2F c) X Y Z HZ) as (x' & y' & E & EX & EY). rewrite E in H. injection H as -> ->. split; [exact EX|exact EY].
Qed.
Theorem dblLine_ok R X Y Z (x y : K2 c) xc yc (xp yp : FpR p) : repR c R (mk3 X Y Z) -> hom (K2F c) (mk3 X Y Z) = @EAff (K2F c) x y -> onT (@EAff (K2F c) x y) -> y <> 0 ->
  rep1 c xc xp -> rep1 c yc yp ->
  exists lc lv k l, fst (dblLine c P R xc yc) = lc /\ rep6 c lc lv /\ l * ((1 + 1) * y) = (1 + 1 + 1) * (x * x) /\ k <> 0 /\
    line12 c lv * (w * w * w) = e212 k * lineAt l x y xp yp /\
  exists X' Y' Z', repR c (snd (dblLine c P R xc yc)) (mk3 X' Y' Z') /\ hom (K2F c) (mk3 X' Y' Z') = ec_add (K2F c) (@EAff (K2F c) x y) (@EAff (K2F c) x y).
Proof using HP.
  intros HR HA Hc Hy0 Hx Hy. destruct (hom_affine X Y Z x y HA) as (HZ & EX & EY).
  destruct (dblLine_rep c P HP R _ xc yc xp yp HR Hx Hy) as (lv & Rl & El & RT). cbn [a3 b3 c3] in *.
  set (l := rdiv (K2F c) ((1 + 1 + 1) * (x * x)) ((1 + 1) * y) : K2 c).
  assert (L : l * ((1 + 1) * y) = (1 + 1 + 1) * (x * x)) by (apply (rdiv_mul (K2F c)); apply mul2_nz; [exact (two2 c)|exact Hy0]). clearbody l.
  exists (fst (dblLine c P R xc yc)), lv, (- ((1 + 1) * (y * Z * Z)) * xi c), l. split; [reflexivity|]. split; [exact Rl|]. split; [exact L|]. split.
  { apply mul2_nz; [apply opp2_nz, mul2_nz; [exact (two2 c)|apply mul2_nz; [apply mul2_nz|]; assumption]|exact (xi_nz c)]. }
  split.
  - assert (Hm : y = l * x + (y - l * x)) by ring. rewrite El, EX, EY. rewrite (dbl_line c xp yp x y Z l _ Hc L Hm). rewrite <- (lval_line l _ x y xp yp Hm). ring.
  - pose proof (dblG_ok (K2F c) (cb2 c) (hf c) (two2 c) (hf_2 c) X Y Z HZ) as G. assert (HA' : hom (K2F c) (@mk3 (K2F c) X Y Z) = @EAff (K2F c) x y) by exact HA. rewrite HA' in G. specialize (G Hc).
    exists (a3 (dblV c X Y Z)), (b3 (dblV c X Y Z)), (c3 (dblV c X Y Z)). split; [exact RT|exact G].
Qed.
Lemma addV_ok X Y Z (x y vx vy : K2 c) : hom (K2F c) (mk3 X Y Z) = @EAff (K2F c) x y -> onT (@EAff (K2F c) x y) -> onT (@EAff (K2F c) vx vy) -> @EAff (K2F c) x y <> @EAff (K2F c) vx vy ->
  exists X' Y' Z', addV c X Y Z vx vy = mk3 X' Y' Z' /\ hom (K2F c) (mk3 X' Y' Z') = ec_add (K2F c) (@EAff (K2F c) x y) (@EAff (K2F c) vx vy).
Proof using.
  intros HA Hc HcQ N. destruct (hom_affine X Y Z x y HA) as (HZ & EX & EY). pose proof (addG_ok (K2F c) (cb2 c) X Y Z vx vy HZ) as G. assert (HA' : hom (K2F c) (@mk3 (K2F c) X Y Z) = @EAff (K2F c) x y) by exact HA. rewrite HA' in G. specialize (G Hc HcQ N).
  exists (a3 (addV c X Y Z vx vy)), (b3 (addV c X Y Z vx vy)), (c3 (addV c X Y Z vx vy)). split; [reflexivity|exact G].
Qed.
Theorem addLine_ok R X Y Z (x y vx vy : K2 c) xq yq xc yc (xp yp : FpR p) : repR c R (mk3 X Y Z) -> hom (K2F c) (mk3 X Y Z) = @EAff (K2F c) x y -> onT (@EAff (K2F c) x y) -> onT (@EAff (K2F c) vx vy) -> x <> vx ->
  rep2 c xq vx -> rep2 c yq vy -> rep1 c xc xp -> rep1 c yc yp ->
  exists lc lv k l, fst (addLine c R xq yq xc yc) = lc /\ rep6 c lc lv /\ l * (vx - x) = vy - y /\ k <> 0 /\
    line12 c lv * (w * w * w) = e212 k * lineAt l x y xp yp /\
  exists X' Y' Z', repR c (snd (addLine c R xq yq xc yc)) (mk3 X' Y' Z') /\ hom (K2F c) (mk3 X' Y' Z') = ec_add (K2F c) (@EAff (K2F c) x y) (@EAff (K2F c) vx vy).
Proof using.
  intros HR HA Hc HcQ Nx Hxq Hyq Hx Hy. destruct (hom_affine X Y Z x y HA) as (HZ & EX & EY).
  destruct (addLine_rep c R _ xq yq vx vy xc yc xp yp HR Hxq Hyq Hx Hy) as (lv & Rl & El & RT). cbn [a3 b3 c3] in *.
  assert (D : vx - x <> 0). { intros F. apply Nx. transitivity (vx - (vx - x)); [ring|]. rewrite F. ring. }
  set (l := rdiv (K2F c) (vy - y) (vx - x) : K2 c). assert (L : l * (vx - x) = vy - y) by (apply (rdiv_mul (K2F c)); exact D). clearbody l.
  exists (fst (addLine c R xq yq xc yc)), lv, ((x * Z - Z * vx) * xi c), l. split; [reflexivity|]. split; [exact Rl|]. split; [exact L|]. split; [exact (add_nz c x vx Z Nx HZ)|]. split.
  - assert (Hm : y = l * x + (y - l * x)) by ring. rewrite El, EX, EY. rewrite (add_line c xp yp x y Z vx vy l _ L Hm). rewrite <- (lval_line l _ x y xp yp Hm). ring.
  - destruct (addV_ok X Y Z x y vx vy HA Hc HcQ) as (X' & Y' & Z' & EV & G). { intros F. injection F as F _. contradiction. }
    exists X', Y', Z'. rewrite EV in RT. split; [exact RT|exact G].
Qed.
(** Q = -R: the vertical line *)
Theorem addLine_vert R X Y Z (x y : K2 c) xq yq xc yc (xp yp : FpR p) : repR c R (mk3 X Y Z) -> hom (K2F c) (mk3 X Y Z) = @EAff (K2F c) x y -> onT (@EAff (K2F c) x y) -> y <> 0 ->
  rep2 c xq x -> rep2 c yq (- y) -> rep1 c xc xp -> rep1 c yc yp ->
  exists lc lv k, fst (addLine c R xq yq xc yc) = lc /\ rep6 c lc lv /\ k <> 0 /\
    line12 c lv * (w * w) = e212 k * (e212 (e2 c xp) - utx c x) /\
  exists X' Y' Z', repR c (snd (addLine c R xq yq xc yc)) (mk3 X' Y' Z') /\ hom (K2F c) (mk3 X' Y' Z') = EInf.
Proof using.
  intros HR HA Hc Hy0 Hxq Hyq Hx Hy. destruct (hom_affine X Y Z x y HA) as (HZ & EX & EY).
  destruct (addLine_rep c R _ xq yq x (- y) xc yc xp yp HR Hxq Hyq Hx Hy) as (lv & Rl & El & RT). cbn [a3 b3 c3] in *.
  exists (fst (addLine c R xq yq xc yc)), lv, (- ((1 + 1) * (y * Z)) * xi c). split; [reflexivity|]. split; [exact Rl|]. split.
  { apply mul2_nz; [apply opp2_nz, mul2_nz; [exact (two2 c)|apply mul2_nz; assumption]|exact (xi_nz c)]. }
  split.
  - rewrite El, EX, EY. unfold evl, addL, line12. cbv zeta. cbn [a3 b3 c3]. unfold utx, iw, EcFrob.e212, e12, e6. set (X1 := e2 c xp). set (Y1 := e2 c yp). set (u := xi c) in *. clearbody X1 Y1.
    apply F2_eq; apply F3_eq; k12; k6; fold u; clearbody u; ring.
  - exists (a3 (addV c X Y Z x (- y))), (b3 (addV c X Y Z x (- y))), (c3 (addV c X Y Z x (- y))). split; [exact RT|].
    assert (T : c3 (addV c X Y Z x (- y)) = 0). { unfold addV. cbv zeta. cbn [c3]. rewrite EX. ring. } rewrite T. exact (hom_0 (K2F c) _ _).
Qed.
(** Q = R: the function returns the zero element and (0, 0, 0) *)
Theorem addLine_same R X Y Z (x y : K2 c) xq yq xc yc (xp yp : FpR p) : repR c R (mk3 X Y Z) -> hom (K2F c) (mk3 X Y Z) = @EAff (K2F c) x y ->
  rep2 c xq x -> rep2 c yq y -> rep1 c xc xp -> rep1 c yc yp ->
  rep6 c (fst (addLine c R xq yq xc yc)) 0 /\ repR c (snd (addLine c R xq yq xc yc)) (mk3 0 0 0).
Proof using.
  intros HR HA Hxq Hyq Hx Hy. destruct (hom_affine X Y Z x y HA) as (HZ & EX & EY).
  destruct (addLine_rep c R _ xq yq x y xc yc xp yp HR Hxq Hyq Hx Hy) as (lv & Rl & El & RT). cbn [a3 b3 c3] in *.
  rewrite EX, EY in El, RT.
  assert (T : addV c (x * Z) (y * Z) Z x y = mk3 0 0 0). { unfold addV. cbv zeta. apply (F3_eq (K2 c)); cbn [a3 b3 c3]; ring. } rewrite T in RT. split; [|exact RT].
  assert (Q : line12 c lv = 0). { rewrite El. unfold evl, addL, line12. cbv zeta. cbn [a3 b3 c3]. apply F2_eq; apply F3_eq; k12; k6; ring. }
  assert (lv = 0) as <-; [|exact Rl]. apply F3_eq; [exact (f_equal (fun t => a3 (a2 t)) Q)|exact (f_equal (fun t => b3 (b2 t)) Q)|exact (f_equal (fun t => c3 (a2 t)) Q)].
Qed.
(** the library's C++ version of the doubling function *)
Theorem dblLineC_same R v : repR c R v -> dblLineWPC c P R = dblLineWP c P R.
Proof using HP. exact (dblLineWPC_eq c P HP R v). Qed.
End Line.
