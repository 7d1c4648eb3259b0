(** The line functions compute what they should: values, in all three configurations. *)
From Coq Require Import ZArith Lia Bool Ring List.
From Verif Require Import Base Prim Loop FpSpec Cfg TowerSpec FpM FpProofs FpApiProofs TowerField TowerM Fp2Proofs Fp6Proofs Frob ParamM ParamProofs FinalM FinalProofs Poly EcSpec EcGroup EcM EcProofs EcInst EcFrob PairM.
Import ListNotations.
Local Open Scope Z_scope.

Lemma cp_4_c c : 4 * cp c < W. Proof. pose proof (cp_lt_W c). pose proof (cp_pos c). lia. Qed.
Section PP.
Variable c : cfg.
Variable P : param.
Hypothesis HP : par_ok c P.
Local Notation p := (cp c).
Local Notation rep1 := (rep1 c).
Local Notation drep1 := (drep1 c).
Local Notation rep2 := (rep2 c).
Local Notation drep2 := (drep2 c).
Local Notation rep6 := (rep6 c).
Local Notation rep12 := (rep12 c).
Add Ring FRp : (rth (FpR (cp c))).
Add Ring KRp : (rth (K2 c)).
Add Ring KR6p : (rth (K6 c)).
Add Ring KR12p : (rth (K12 c)).
Local Open Scope r_scope.
Ltac kk := cbn [radd rmul rsub ropp rz ro K2 quad qadd qsub qopp qmul q0 q1 a2 b2].
Ltac k6 := cbn [radd rmul rsub ropp rz ro K6 cubic kadd ksub kopp kmul k0 k1 kgen a3 b3 c3].
Ltac k12 := cbn [radd rmul rsub ropp rz ro K12 quad qadd qsub qopp qmul q0 q1 a2 b2].

(** a half *)
Definition hf : K2 c := finvr (K2F c) (1 + 1 : K2 c).
Lemma hf_2 : hf + hf = 1.
Proof using. transitivity (hf * (1 + 1)); [ring|]. exact (Poly.finv_l (K2F c) _ (two2 c)). Qed.
Lemma divBy2_rep x v : rep2 x v -> rep2 (f2_divBy2 c x) (hf * v).
Proof using.
  intros H. destruct (f2_divBy2_rep c x v H) as (w & Hw & E). eapply (rep2_eq c); [exact Hw|].
  rewrite <- E. transitivity ((hf + hf) * w); [rewrite hf_2; ring|ring].
Qed.
(** unreduced contents (below 3p) *)
Definition rep2u (x : fp2) (v : K2 c) : Prop :=
  (0 <= a2 x <= 3 * p)%Z /\ (0 <= b2 x <= 3 * p)%Z /\ fv c (a2 x) = a2 v /\ fv c (b2 x) = b2 v.
Lemma rep2_u x v : rep2 x v -> rep2u x v.
Proof using. intros [[H1 H2] [H3 H4]]. unfold can in *. pose proof (cp_pos c). repeat split; try lia; assumption. Qed.
Lemma triple_rep x v : rep2 x v -> rep2u (f2_addNC (f2_addNC x x) x) ((1 + 1 + 1) * v).
Proof using.
  intros [[H1 H2] [H3 H4]]. unfold can in *. pose proof (cp_4_c c). unfold f2_addNC. cbn [a2 b2].
  rewrite !fp_addNC_small by (rewrite ?fp_addNC_small by lia; lia). unfold rep2u. cbn [a2 b2].
  split; [lia|]. split; [lia|]. rewrite !fv_add, H2, H4. split; kk.
  - change (a2 v + a2 v + a2 v = (1 + 1 + 1) * a2 v + - (1) * ((0 + 0 + 0) * b2 v) :> FpR p). ring.
  - change (b2 v + b2 v + b2 v = (1 + 1 + 1) * b2 v + (0 + 0 + 0) * a2 v :> FpR p). ring.
Qed.
Lemma mulFp0_u x b v w : rep2u x v -> rep1 b w -> rep2 (f2_mul_Fp_0 c x b) (v * (mk2 w 0 : K2 c)).
Proof using.
  intros (H1 & H2 & E1 & E2) [H3 E3]. unfold f2_mul_Fp_0. unfold can in H3. pose proof (cp_4_c c). pose proof (cp_pos c). pose proof (pp_W c).
  destruct (fp_mul_gen c (a2 x) b) as [A1 A2]; [nia..|]. destruct (fp_mul_gen c (b2 x) b) as [B1 B2]; [nia..|].
  apply rep2_mk; (split; [assumption|]).
  - rewrite A2, E1, E3. kk. change (a2 v * w = a2 v * w + - (1) * (b2 v * 0) :> FpR p). ring.
  - rewrite B2, E2, E3. kk. change (b2 v * w = a2 v * 0 + b2 v * w :> FpR p). ring.
Qed.
(** 3 t^2 in double precision *)
Lemma sq_bd x v : rep2 x v -> (0 <= a2 (d2_square c x) /\ 4 * a2 (d2_square c x) <= 9 * (p * p) /\ 0 <= b2 (d2_square c x) <= 2 * (p * p))%Z.
Proof using.
  intros [[X1 _] [X2 _]]. unfold d2_square, dbl_mul. cbv zeta. unfold can in X1, X2. pose proof (cp_lt_W c). pose proof (cp_pos c).
  rewrite (fp_addNC_small (b2 x) (b2 x)) by lia. rewrite (fp_addNC_small (a2 x) p) by lia.
  rewrite (fp_addNC_small (a2 x) (b2 x)) by lia. rewrite fp_subNC_small by lia. cbn [a2 b2].
  set (a := a2 x) in *. set (b := b2 x) in *. clearbody a b.
  split; [nia|]. split; [|nia].
  pose proof (Z.square_nonneg (p - 2 * b)) as S1. assert (S2 : (0 <= (p - a) * (2 * p + a))%Z) by (apply Z.mul_nonneg_nonneg; lia).
  assert (S3 : (9 * (p * p) - 4 * ((a + b) * (a + p - b)) = (p - 2 * b) * (p - 2 * b) + 4 * ((p - a) * (2 * p + a)))%Z) by ring. lia.
Qed.
Lemma bnb_7 : snark c = false -> (27 * (p * p) < 4 * (p * W))%Z.
Proof using. intros Es. rewrite (is_BNb c Es). pose proof (cp_pos BNb). assert (27 * cp BNb < 4 * W)%Z by (rewrite W_val; vm_compute; reflexivity). nia. Qed.
Lemma dtriple_rep x v : rep2 x v -> drep2 (let d := d2_square c x in let e := d2_addNC d d in if snark c then d2_add c e d else d2_addNC e d) ((1 + 1 + 1) * (v * v)).
Proof using.
  intros H. pose proof (sq_bd x v H) as Bd. pose proof (d2_square_rep c x v H) as D. cbv zeta. clear H.
  set (d := d2_square c x) in *. clearbody d. pose proof D as [[_ D1] [_ D2]]. destruct Bd as (B1 & B2 & B3).
  pose proof (pW_W2' c) as W5. pose proof (pp_W c) as W6. assert (W7 : (0 <= p * p)%Z) by (pose proof (cp_pos c); nia).
  assert (E : d2_addNC d d = mk2 (a2 d + a2 d)%Z (b2 d + b2 d)%Z) by (unfold d2_addNC; rewrite !dbl_addNC_small by (unfold W2 in *; lia); reflexivity).
  rewrite E. destruct (snark c) eqn:Es.
  - eapply drep2_eq; [eapply d2_add_rep; [|exact D]; apply (drep2_mk c _ _ (v * v + v * v)); (split; [lia|]); rewrite !dv_add, ?D1, ?D2; reflexivity|]. ring.
  - pose proof (bnb_7 Es) as W8. unfold d2_addNC. cbn [a2 b2]. rewrite !dbl_addNC_small by (unfold W2 in *; lia).
    apply (drep2_eq c _ (v * v + v * v + v * v)); [|ring].
    apply drep2_mk; (split; [lia|]); rewrite !dv_add, ?D1, ?D2; reflexivity.
Qed.
Lemma dtriple_rep' x d e v : d = d2_square c x -> e = d2_addNC d d -> rep2 x v -> drep2 (if snark c then d2_add c e d else d2_addNC e d) ((1 + 1 + 1) * (v * v)).
Proof using. intros -> -> H. exact (dtriple_rep x v H). Qed.
Lemma mulOpt1_rep x y v w : rep2 x v -> rep2 y w -> drep2 (d2_mulOpt1 c x y) (v * w).
Proof using. intros Hx Hy. eapply tpart_rep; [eassumption..|]. apply tpart_ok; eapply rep2_can; eassumption. Qed.

(** the coefficient of the twist: 1 - u, 9 - u *)
Lemma cb2_is (w : K2 c) : w * xi c = e2 c (mk p (cb c)) -> (cb2 c : K2 c) = w.
Proof using.
  intros E. symmetry. apply (fcancel (K2F c) w (cb2 c) (xi c) (xi_nz c)). change (@rmul (K2 c) w (xi c) = @rmul (K2 c) (cb2 c) (xi c)). rewrite E, cb2_xi. reflexivity.
Qed.
Lemma cb2_B : snark c = false -> (cb2 c : K2 c) = mk2 1 (- (1)).
Proof using.
  intros Es. apply cb2_is. rewrite (xi_B c Es). unfold e2. replace (mk p (cb c)) with (1 + 1 : FpR p).
  - apply F2_eq; kk; change (@f1 p) with (1 : FpR p); ring.
  - rewrite (is_BNb c Es). change (fadd (mk (cp BNb) 1) (mk (cp BNb) 1) = mk (cp BNb) 2). rewrite <- mk_add. reflexivity.
Qed.
Lemma cb2_S : snark c = true -> cb c = 82%Z -> (cb2 c : K2 c) = mk2 (mk p 9 : FpR p) (- (1)).
Proof using.
  intros Es Eb. apply cb2_is. rewrite (xi_S c Es). unfold e2. rewrite Eb. replace (mk p 82) with (@radd (FpR p) (@rmul (FpR p) (mk p 9) (mk p 9)) 1).
  - apply F2_eq; kk; change (@f1 p) with (1 : FpR p); ring.
  - change (fadd (fmul (mk p 9) (mk p 9)) (mk p 1) = mk p 82). rewrite <- mk_mul, <- mk_add. reflexivity.
Qed.
Lemma mul_binvxi_rep x v : rep2 x v -> rep2 (mul_binvxi c P x) ((cb2 c : K2 c) * v).
Proof using HP.
  intros H. unfold mul_binvxi. destruct (snark c) eqn:Es.
  - destruct (Z.eqb_spec (cb c) 82) as [Eb|_].
    + rewrite (cb2_S Es Eb). destruct H as [H1 H2]. apply rep2_mk; kk.
      * eapply rep1_eq; [apply mul9_add_rep; eassumption|]. set (n9 := mk p 9 : FpR p); change (n9 * a2 v + b2 v = n9 * a2 v + - (1) * (- (1) * b2 v) :> FpR p). ring.
      * eapply rep1_eq; [apply mul9_sub_rep; eassumption|]. set (n9 := mk p 9 : FpR p); change (n9 * b2 v - a2 v = n9 * b2 v + - (1) * a2 v :> FpR p). ring.
    + eapply (rep2_eq c); [apply f2_mul_rep; [exact H|apply binvxi_rep, HP]|]. apply (Rmul_comm (rth (K2 c))).
  - rewrite (cb2_B Es). destruct H as [H1 H2]. apply rep2_mk; kk.
    + eapply rep1_eq; [apply add_rep1; eassumption|]. ring.
    + eapply rep1_eq; [apply sub_rep1; eassumption|]. ring.
Qed.
Lemma mul_binvxiC_eq x v : rep2 x v -> mul_binvxiC c P x = mul_binvxi c P x.
Proof using HP.
  intros H. unfold mul_binvxi, mul_binvxiC. rewrite (ok_b c P HP). destruct (snark c) eqn:Es; [|reflexivity].
  destruct (Z.eqb_spec (cb c) 82) as [Eb|_]; [|reflexivity].
  cbv zeta. unfold f2_mul_xi. rewrite Es. reflexivity.
Qed.

(** ** Values of the line functions *)
Ltac stepD Q :=
  letI Q;
  let t := fresh "t" in let E := fresh "E" in
  intros t E; cbv beta;
  let H := fresh "R" in
  lazymatch type of E with
  | _ = f2_divBy2 _ _ => eassert (H : rep2 t _) by (rewrite E; apply divBy2_rep; hyp_rep)
  | _ = mul_binvxi _ _ _ => eassert (H : rep2 t _) by (rewrite E; apply mul_binvxi_rep; hyp_rep)
  | _ = f2_addNC ?a ?a => idtac
  | _ = f2_addNC ?d ?a => match goal with E1 : d = f2_addNC a a |- _ => eassert (H : rep2u t _) by (rewrite E, E1; apply triple_rep; hyp_rep) end
  | _ = d2_addNC ?a ?a => idtac
  | context [d2_addNC ?e ?d] =>
      match goal with E1 : e = d2_addNC d d, E2 : d = d2_square _ ?x |- _ =>
        match goal with R1 : Fp2Proofs.rep2 _ x _ |- _ => pose proof (dtriple_rep' x d e _ E2 E1 R1) as H; rewrite <- E in H end end
  | _ = d2_mulOpt1 _ _ _ => eassert (H : drep2 t _) by (rewrite E; apply mulOpt1_rep; hyp_rep)
  | _ => first [eassert (H : rep2 t _) by (rewrite E; rep_solve) | eassert (H : drep2 t _) by (rewrite E; rep_solve)]
  end.
(** (R doubled; coefficients of the line) *)
Definition dblV (X Y Z : K2 c) : F3 (K2 c) :=
  let b := (cb2 c : K2 c) in let b9 := (1 + 1 + 1) * (1 + 1 + 1) * b in let t := hf * (Y * Y + b9 * (Z * Z)) in
  mk3 ((Y * Y - b9 * (Z * Z)) * (hf * (X * Y))) (t * t - (1 + 1 + 1) * (((1 + 1 + 1) * b * (Z * Z)) * ((1 + 1 + 1) * b * (Z * Z)))) ((1 + 1) * (Y * Y * (Y * Z))).
Definition dblL (X Y Z : K2 c) : F3 (K2 c) :=
  mk3 (xi c * ((1 + 1 + 1) * (cb2 c : K2 c) * (Z * Z) - Y * Y)) (- ((1 + 1) * (Y * Z))) ((1 + 1 + 1) * (X * X)).
Definition rep6u (l : fp6) (v : F3 (K2 c)) : Prop := rep2 (a3 l) (a3 v) /\ rep2 (b3 l) (b3 v) /\ rep2u (c3 l) (c3 v).
Definition repR (R : F3 fp2) (v : F3 (K2 c)) : Prop := rep2 (a3 R) (a3 v) /\ rep2 (b3 R) (b3 v) /\ rep2 (c3 R) (c3 v).
Lemma dblLineWP_rep R v : repR R v -> rep6u (fst (dblLineWP c P R)) (dblL (a3 v) (b3 v) (c3 v)) /\ repR (snd (dblLineWP c P R)) (dblV (a3 v) (b3 v) (c3 v)).
Proof using HP.
  destruct R as [Rx Ry Rz], v as [X Y Z]. intros (HX & HY & HZ). cbn [a3 b3 c3] in *.
  set (Q := fun r : fp6 * F3 fp2 => rep6u (fst r) (dblL X Y Z) /\ repR (snd r) (dblV X Y Z)).
  change (Q (dblLineWP c P (mk3 Rx Ry Rz))). cbv beta iota delta [dblLineWP dblLine_gen a3 b3 c3].
  repeat stepD Q. subst Q. cbv beta. cbn [fst snd].
  split; (split; [|split]); cbn [a3 b3 c3 dblL dblV].
  3: match goal with H : rep2u ?t _ |- rep2u ?t _ => exact H end.
  all: eapply (rep2_eq c); [hyp_rep|]; ring.
Qed.
Lemma dblLineWPC_eq R v : repR R v -> dblLineWPC c P R = dblLineWP c P R.
Proof using HP.
  destruct R as [Rx Ry Rz], v as [X Y Z]. intros (HX & HY & HZ). cbn [a3 b3 c3] in *.
  unfold dblLineWPC, dblLineWP, dblLine_gen. cbn [a3 b3 c3].
  assert (E : mul_binvxiC c P (f2_add c (f2_square c Rz) (f2_add c (f2_square c Rz) (f2_square c Rz))) = mul_binvxi c P (f2_add c (f2_square c Rz) (f2_add c (f2_square c Rz) (f2_square c Rz)))).
  { eapply mul_binvxiC_eq. rep_solve. }
  rewrite E. reflexivity.
Qed.
Lemma mulFp6_24_rep l v x y xp yp : rep6u l v -> rep1 x xp -> rep1 y yp ->
  rep6 (mulFp6_24 c l x y) (mk3 (a3 v) (b3 v * e2 c yp) (c3 v * e2 c xp)).
Proof using.
  intros (H1 & H2 & H3) Hx Hy. unfold mulFp6_24. apply rep6_mk; cbn [a3 b3 c3].
  - exact H1.
  - apply f2_mul_Fp_0_rep; assumption.
  - apply mulFp0_u; assumption.
Qed.
(** the sum R + Q, and the coefficients of the line *)
Definition addV (X Y Z xq yq : K2 c) : F3 (K2 c) :=
  let t1 := X - Z * xq in let t2 := Y - Z * yq in
  let t3 := t1 * t1 * t1 in let s := t1 * t1 * X in
  let t4 := t2 * t2 * Z + t3 - s - s in
  mk3 (t1 * t4) (t2 * (s - t4) - t3 * Y) (t3 * Z).
Definition addL (X Y Z xq yq : K2 c) : F3 (K2 c) :=
  let t1 := X - Z * xq in let t2 := Y - Z * yq in mk3 (xi c * (t2 * xq - t1 * yq)) t1 (- t2).
Lemma addLineWP_rep R v x y xq yq : repR R v -> rep2 x xq -> rep2 y yq ->
  rep6 (fst (addLineWP c R x y)) (addL (a3 v) (b3 v) (c3 v) xq yq) /\ repR (snd (addLineWP c R x y)) (addV (a3 v) (b3 v) (c3 v) xq yq).
Proof using.
  destruct R as [Rx Ry Rz], v as [X Y Z]. intros (HX & HY & HZ) Hx Hy. cbn [a3 b3 c3] in *.
  set (Q := fun r : fp6 * F3 fp2 => rep6 (fst r) (addL X Y Z xq yq) /\ repR (snd r) (addV X Y Z xq yq)).
  change (Q (addLineWP c (mk3 Rx Ry Rz) x y)). cbv beta iota delta [addLineWP a3 b3 c3].
  repeat stepD Q. subst Q. cbv beta. cbn [fst snd].
  split; (split; [|split]); cbn [a3 b3 c3 addL addV]; (eapply (rep2_eq c); [hyp_rep|]; ring).
Qed.
Lemma rep6_6u l v : rep6 l v -> rep6u l v.
Proof using. intros (H1 & H2 & H3). split; [exact H1|]. split; [exact H2|apply rep2_u, H3]. Qed.
Definition evl (l : F3 (K2 c)) (xp yp : FpR p) : K12 c := line12 c (mk3 (a3 l) (b3 l * e2 c yp) (c3 l * e2 c xp) : K6 c).
Lemma dblLine_rep R v x y xp yp : repR R v -> rep1 x xp -> rep1 y yp ->
  exists l, rep6 (fst (dblLine c P R x y)) l /\ line12 c l = evl (dblL (a3 v) (b3 v) (c3 v)) xp yp /\ repR (snd (dblLine c P R x y)) (dblV (a3 v) (b3 v) (c3 v)).
Proof using HP.
  intros HR Hx Hy. unfold dblLine. destruct (dblLineWP_rep R v HR) as [H1 H2]. destruct (dblLineWP c P R) as [l T]. cbn [fst snd] in *.
  eexists. split; [apply mulFp6_24_rep; eassumption|]. split; [reflexivity|exact H2].
Qed.
Lemma addLine_rep R v xq yq vx vy x y xp yp : repR R v -> rep2 xq vx -> rep2 yq vy -> rep1 x xp -> rep1 y yp ->
  exists l, rep6 (fst (addLine c R xq yq x y)) l /\ line12 c l = evl (addL (a3 v) (b3 v) (c3 v) vx vy) xp yp /\ repR (snd (addLine c R xq yq x y)) (addV (a3 v) (b3 v) (c3 v) vx vy).
Proof using.
  intros HR Hxq Hyq Hx Hy. unfold addLine. destruct (addLineWP_rep R v xq yq vx vy HR Hxq Hyq) as [H1 H2]. destruct (addLineWP c R xq yq) as [l T]. cbn [fst snd] in *.
  eexists. split; [apply mulFp6_24_rep; [apply rep6_6u|..]; eassumption|]. split; [reflexivity|exact H2].
Qed.
End PP.

(** ** The geometry: points in homogeneous coordinates over a field *)
Section Geo.
Local Open Scope r_scope.
Variables (K : fld) (b h : K).
Hypothesis H2 : (1 + 1 : K) <> 0.
Hypothesis Hh : h + h = 1.
Add Ring KRg : (rth K).
Lemma rdivE (x y z : K) : y <> 0 -> x = z * y -> rdiv K x y = z.
Proof using. apply rdiv_eq. Qed.
Lemma hom_aff X Y Z : Z <> 0 -> exists x y, hom K (mk3 X Y Z) = EAff x y /\ X = x * Z /\ Y = y * Z.
Proof using.
  intros HZ. unfold hom. cbn [a3 b3 c3]. destruct (fdec K Z 0) as [E|_]; [contradiction|]. eexists _, _. split; [reflexivity|].
  split; symmetry; apply rdiv_mul, HZ.
Qed.
Lemma hom_is X Y Z x y : Z <> 0 -> X = x * Z -> Y = y * Z -> hom K (mk3 X Y Z) = EAff x y.
Proof using.
  intros HZ EX EY. unfold hom. cbn [a3 b3 c3]. destruct (fdec K Z 0) as [E|_]; [contradiction|]. f_equal; apply rdivE; assumption.
Qed.
Lemma hom_0 X Y : hom K (mk3 X Y 0) = EInf.
Proof using. unfold hom. cbn [c3]. destruct (fdec K 0 0) as [_|N]; [reflexivity|contradiction N; reflexivity]. Qed.
Definition dblG (X Y Z : K) : F3 K :=
  let b9 := (1 + 1 + 1) * (1 + 1 + 1) * b in let t := h * (Y * Y + b9 * (Z * Z)) in
  mk3 ((Y * Y - b9 * (Z * Z)) * (h * (X * Y))) (t * t - (1 + 1 + 1) * (((1 + 1 + 1) * b * (Z * Z)) * ((1 + 1 + 1) * b * (Z * Z)))) ((1 + 1) * (Y * Y * (Y * Z))).
Definition addG (X Y Z xq yq : K) : F3 K :=
  let t1 := X - Z * xq in let t2 := Y - Z * yq in
  let t3 := t1 * t1 * t1 in let s := t1 * t1 * X in
  let t4 := t2 * t2 * Z + t3 - s - s in
  mk3 (t1 * t4) (t2 * (s - t4) - t3 * Y) (t3 * Z).
Lemma cancel2 (x y : K) : x + x = y + y -> x = y.
Proof using Hh. intros E. transitivity ((h + h) * x); [rewrite Hh; ring|]. transitivity (h * (x + x)); [ring|]. rewrite E. transitivity ((h + h) * y); [ring|rewrite Hh; ring]. Qed.
Lemma h1 (x : K) : h * x + h * x = x.
Proof using Hh. transitivity ((h + h) * x); [ring|rewrite Hh; ring]. Qed.
Lemma dblG_ok X Y Z : Z <> 0 -> on_curve K b (hom K (mk3 X Y Z)) -> hom K (dblG X Y Z) = ec_add K (hom K (mk3 X Y Z)) (hom K (mk3 X Y Z)).
Proof using H2 Hh.
  intros HZ. destruct (hom_aff X Y Z HZ) as (x & y & -> & -> & ->). cbn [on_curve]. intros E.
  assert (Eb : b = y * y - x * x * x) by (rewrite E; ring). clear E. unfold dblG. rewrite Eb. clear Eb.
  cbn [ec_add]. destruct (fdec K x x) as [_|N]; [|contradiction N; reflexivity].
  destruct (fdec K y 0) as [->|Ny].
  - destruct (fdec K 0 (- 0)) as [_|N]; [|exfalso; apply N; ring]. cbv zeta.
    replace ((1 + 1) * (0 * Z * (0 * Z) * (0 * Z * Z))) with (0 : K) by ring. apply hom_0.
  - destruct (fdec K y (- y)) as [E|_]; [exfalso; apply (mul_nz K (1 + 1) y H2 Ny); transitivity (y + y); [ring|]; rewrite E at 2; ring|].
    set (l := rdiv K ((1 + 1 + 1) * (x * x)) ((1 + 1) * y)). assert (L : l * ((1 + 1) * y) = (1 + 1 + 1) * (x * x)) by (apply rdiv_mul, mul_nz; assumption).
    clearbody l. unfold ec_chord. cbv zeta. apply hom_is.
    + repeat apply mul_nz; assumption.
    + apply cancel2.
      transitivity (((1 + 1 + 1) * (x * x) * ((1 + 1 + 1) * (x * x)) - (1 + 1) * (1 + 1) * (1 + 1) * x * (y * y)) * y * (Z * Z * (Z * Z))).
      * transitivity ((y * Z * (y * Z) - (1 + 1 + 1) * (1 + 1 + 1) * (y * y - x * x * x) * (Z * Z)) * (h * (x * Z * (y * Z)) + h * (x * Z * (y * Z)))); [ring|].
        rewrite h1. ring.
      * rewrite <- L. ring.
    + apply cancel2, cancel2. set (q := y * Z * (y * Z) + (1 + 1 + 1) * (1 + 1 + 1) * (y * y - x * x * x) * (Z * Z)).
      transitivity ((h * q + h * q) * (h * q + h * q) - (1 + 1) * (1 + 1) * ((1 + 1 + 1) * ((1 + 1 + 1) * (y * y - x * x * x) * (Z * Z) * ((1 + 1 + 1) * (y * y - x * x * x) * (Z * Z))))); [ring|].
      rewrite h1. subst q.
      transitivity (((1 + 1 + 1) * (x * x) * ((1 + 1 + 1) * x * ((1 + 1) * (1 + 1) * (y * y)) - (1 + 1 + 1) * (x * x) * ((1 + 1 + 1) * (x * x))) - (1 + 1) * (1 + 1) * (1 + 1) * (y * y * (y * y))) * (Z * Z * (Z * Z))); [ring|].
      rewrite <- L. ring.
Qed.
Lemma addG_ok X Y Z xq yq : Z <> 0 -> on_curve K b (hom K (mk3 X Y Z)) -> on_curve K b (EAff xq yq) -> hom K (mk3 X Y Z) <> EAff xq yq ->
  hom K (addG X Y Z xq yq) = ec_add K (hom K (mk3 X Y Z)) (EAff xq yq).
Proof using.
  intros HZ. destruct (hom_aff X Y Z HZ) as (x & y & -> & -> & ->). cbn [on_curve]. intros E Eq Ne. unfold addG. cbn [ec_add].
  destruct (fdec K x xq) as [->|Nx].
  - assert (y = - yq) as ->.
    { assert (D : (y - yq) * (y + yq) = 0) by (transitivity (y * y - yq * yq); [ring|]; rewrite E, Eq; ring).
      destruct (fdec K (y - yq) 0) as [D1|D1]; [exfalso; apply Ne; f_equal; transitivity (y - yq + yq); [ring|rewrite D1; ring]|].
      destruct (fdec K (y + yq) 0) as [D2|D2]; [transitivity (y + yq - yq); [ring|rewrite D2; ring]|]. exfalso. exact (mul_nz K _ _ D1 D2 D). }
    destruct (fdec K (- yq) (- yq)) as [_|N]; [|contradiction N; reflexivity]. cbv zeta.
    replace ((xq * Z - Z * xq) * (xq * Z - Z * xq) * (xq * Z - Z * xq) * Z) with (0 : K) by ring. apply hom_0.
  - assert (D : xq - x <> 0) by (intros D; apply Nx; transitivity (xq - (xq - x)); [ring|rewrite D; ring]).
    set (l := rdiv K (yq - y) (xq - x)). assert (L : l * (xq - x) = yq - y) by (apply rdiv_mul, D). clearbody l.
    unfold ec_chord. cbv zeta.
    assert (D' : x * Z - Z * xq <> 0).
    { replace (x * Z - Z * xq) with (- (xq - x) * Z) by ring. apply mul_nz; [|exact HZ]. intros F. apply D. transitivity (- - (xq - x)); [ring|rewrite F; ring]. }
    assert (Ey : y * Z - Z * yq = l * (x * Z - Z * xq)).
    { transitivity (- (yq - y) * Z); [ring|]. rewrite <- L. ring. }
    rewrite Ey. apply hom_is.
    + repeat apply mul_nz; assumption.
    + ring.
    + ring.
Qed.
End Geo.
