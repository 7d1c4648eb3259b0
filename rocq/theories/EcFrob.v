(** The Frobenius endomorphism of the twist. *)
From Coq Require Import ZArith Znumtheory Lia List Bool Ring.
From Verif Require Import Base Cfg FpM FpSpec FpProofs TowerSpec TowerField TowerM Fp2Proofs Frob ParamM ParamProofs Poly EcSpec EcGroup EcM EcProofs EcInst.
Import ListNotations.
Local Open Scope Z_scope.

(** (x, y) -> (f x k^2, f y k^3) for a ring endomorphism f commutes with the group law *)
Section Hom.
Local Open Scope r_scope.
Variables (K : fld) (b : K) (f : K -> K) (k : K).
Add Ring KRh : (rth K).
Hypothesis f_add : forall x y, f (x + y) = f x + f y.
Hypothesis f_mul : forall x y, f (x * y) = f x * f y.
Hypothesis f_1 : f 1 = 1.
Hypothesis k_nz : k <> 0.
Hypothesis H2 : (1 + 1 : K) <> 0.
Definition hm (P : ecpt K) : ecpt K := match P with EInf => EInf | EAff x y => EAff (f x * (k * k)) (f y * (k * k * k)) end.
Lemma f_0 : f 0 = 0.
Proof. transitivity (f 0 + f 0 - f 0); [ring|]. rewrite <- f_add. replace (0 + 0) with (0 : K) by ring. ring. Qed.
Lemma f_opp x : f (- x) = - f x.
Proof. transitivity (f (- x) + f x - f x); [ring|]. rewrite <- f_add. replace (- x + x) with (0 : K) by ring. rewrite f_0. ring. Qed.
Lemma f_sub x y : f (x - y) = f x - f y.
Proof. replace (x - y) with (x + - y) by ring. rewrite f_add, f_opp. ring. Qed.
Lemma f_nz x : x <> 0 -> f x <> 0.
Proof.
  intros Hx E. pose proof (Poly.finv_l K x Hx) as L. apply (fnz K). rewrite <- f_1, <- L, f_mul, E. ring.
Qed.
Lemma f_inj x y : f x = f y -> x = y.
Proof.
  intros E. destruct (fdec K (x - y) 0) as [D|D]; [transitivity (x - y + y); [ring|rewrite D; ring]|]. exfalso. apply (f_nz _ D). rewrite f_sub, E. ring.
Qed.
Lemma rdiv_eq x y z : y <> 0 -> x = z * y -> rdiv K x y = z.
Proof. intros Hy ->. unfold rdiv. pose proof (Poly.finv_l K y Hy) as L. transitivity (z * (finvr K y * y)); [ring|rewrite L; ring]. Qed.
Lemma rdiv_mul x y : y <> 0 -> rdiv K x y * y = x.
Proof. intros Hy. unfold rdiv. pose proof (Poly.finv_l K y Hy) as L. transitivity (x * (finvr K y * y)); [ring|rewrite L; ring]. Qed.
Lemma hm_add P Q : on_curve K b P -> on_curve K b Q -> hm (ec_add K P Q) = ec_add K (hm P) (hm Q).
Proof.
  intros HP HQ. destruct P as [|x1 y1]; [reflexivity|]. destruct Q as [|x2 y2]; [reflexivity|]. unfold on_curve in HP, HQ.
  assert (Kc : forall x y, k * k * x = k * k * y -> x = y).
  { intros x y E. apply (fcancel K x y (k * k)); [apply mul_nz; assumption|]. transitivity (k * k * x); [ring|rewrite E; ring]. }
  assert (Kc3 : forall x y, k * k * k * x = k * k * k * y -> x = y).
  { intros x y E. apply (fcancel K x y (k * k * k)); [repeat apply mul_nz; assumption|]. transitivity (k * k * k * x); [ring|rewrite E; ring]. }
  cbn [ec_add hm]. destruct (fdec K x1 x2) as [Ex|Nx].
  - destruct (fdec K (f x1 * (k * k)) (f x2 * (k * k))) as [_|N]; [|exfalso; apply N; rewrite Ex; reflexivity].
    destruct (fdec K y1 (- y2)) as [Ey|Ny]; destruct (fdec K (f y1 * (k * k * k)) (- (f y2 * (k * k * k)))) as [Ey'|Ny'].
    + reflexivity.
    + exfalso. apply Ny'. rewrite Ey, f_opp. ring.
    + exfalso. apply Ny, f_inj. rewrite f_opp. apply Kc3. transitivity (f y1 * (k * k * k)); [ring|]. rewrite Ey'. ring.
    + subst x2. assert (Y : y1 <> 0).
      { intros Y. apply Ny. assert (E0 : y2 * y2 = 0) by (rewrite HQ, <- HP, Y; ring).
        destruct (fdec K y2 0) as [->|N2]; [rewrite Y; ring|]. exfalso. apply (mul_nz K y2 y2 N2 N2 E0). }
      set (l := rdiv K ((1 + 1 + 1) * (x1 * x1)) ((1 + 1) * y1)).
      assert (L : l * ((1 + 1) * y1) = (1 + 1 + 1) * (x1 * x1)) by (apply rdiv_mul, mul_nz; assumption).
      assert (L' : rdiv K ((1 + 1 + 1) * (f x1 * (k * k) * (f x1 * (k * k)))) ((1 + 1) * (f y1 * (k * k * k))) = f l * k).
      { apply rdiv_eq; [repeat apply mul_nz; try assumption; apply f_nz, Y|]. apply (f_equal f) in L. rewrite !f_mul, !f_add, !f_1 in L.
        transitivity ((1 + 1 + 1) * (f x1 * f x1) * (k * k * (k * k))); [ring|]. rewrite <- L. ring. }
      rewrite L'. clear L'. clearbody l. unfold ec_chord. cbn [hm]. f_equal; rewrite ?f_sub, ?f_mul, ?f_sub, ?f_mul; ring.
  - destruct (fdec K (f x1 * (k * k)) (f x2 * (k * k))) as [E|_].
    { exfalso. apply Nx, f_inj, Kc. transitivity (f x1 * (k * k)); [ring|]. rewrite E. ring. }
    assert (D : x2 - x1 <> 0) by (intros D; apply Nx; transitivity (x2 - (x2 - x1)); [ring|rewrite D; ring]).
    set (l := rdiv K (y2 - y1) (x2 - x1)). assert (L : l * (x2 - x1) = y2 - y1) by (apply rdiv_mul, D).
    assert (L' : rdiv K (f y2 * (k * k * k) - f y1 * (k * k * k)) (f x2 * (k * k) - f x1 * (k * k)) = f l * k).
    { apply rdiv_eq.
      - replace (f x2 * (k * k) - f x1 * (k * k)) with (f (x2 - x1) * (k * k)) by (rewrite f_sub; ring). repeat apply mul_nz; try assumption. apply f_nz, D.
      - apply (f_equal f) in L. rewrite f_mul, !f_sub in L. transitivity ((f y2 - f y1) * (k * k * k)); [ring|]. rewrite <- L. ring. }
    rewrite L'. clear L'. clearbody l. unfold ec_chord. cbn [hm]. f_equal; rewrite ?f_sub, ?f_mul, ?f_sub, ?f_mul; ring.
Qed.
Lemma hm_on P : f b * (k * k * k * (k * k * k)) = b -> on_curve K b P -> on_curve K b (hm P).
Proof.
  intros Hb. destruct P as [|x y]; [auto|]. unfold on_curve. cbn [hm]. intros E.
  transitivity (f (y * y) * (k * k * k * (k * k * k))); [rewrite f_mul; ring|]. rewrite E, f_add, !f_mul. rewrite <- Hb at 2. ring.
Qed.
End Hom.
Lemma cxi_bn c : snark c = false -> cxi_a c = 1. Proof. destruct c; intros H; [reflexivity|discriminate H|discriminate H]. Qed.
Lemma cxi_bn' c : snark c = false -> cxi_b c = 1. Proof. destruct c; intros H; [reflexivity|discriminate H|discriminate H]. Qed.
Section EcFrob.
Local Open Scope r_scope.
Variable c : cfg.
Local Notation p := (cp c).
Add Ring FRt : (rth (FpR (cp c))).
Add Ring KRt : (rth (K2 c)).
Add Ring KR6t : (rth (K6 c)).
Add Ring KR12t : (rth (K12 c)).
Ltac kk := cbn [radd rmul rsub ropp rz ro K2 quad qadd qsub qopp qmul q0 q1 a2 b2].
Ltac k6 := cbn [radd rmul rsub ropp rz ro K6 cubic kadd ksub kopp kmul k0 k1 kgen a3 b3 c3].
Ltac k12 := cbn [radd rmul rsub ropp rz ro K12 quad qadd qsub qopp qmul q0 q1 a2 b2].
(** The twist E' : y^2 = x^3 + b/xi is mapped to E : y^2 = x^3 + b over Fp12 by
    (x, y) -> (x w^2, y w^3), where w^6 = xi. *)
Definition e212 (x : K2 c) : K12 c := e12 c (e6 c x).
Definition utx (x : K2 c) : K12 c := e212 x * (iw c * iw c).
Definition uty (y : K2 c) : K12 c := e212 y * (iw c * iw c * iw c).
Lemma utx_inj x x' : utx x = utx x' -> x = x'.
Proof.
  assert (V : forall x, b3 (a2 (utx x)) = x) by (intros y; unfold utx, e212, e12, e6, iw; k12; k6; ring).
  intros E. rewrite <- (V x), <- (V x'), E. reflexivity.
Qed.
Lemma uty_inj x x' : uty x = uty x' -> x = x'.
Proof.
  assert (V : forall x, b3 (b2 (uty x)) = x) by (intros y; unfold uty, e212, e12, e6, iw; k12; k6; ring).
  intros E. rewrite <- (V x), <- (V x'), E. reflexivity.
Qed.
Lemma e212_mul x y : e212 (x * y) = e212 x * e212 y.
Proof. apply F2_eq; apply F3_eq; unfold e212, e12, e6; k12; k6; ring. Qed.
Lemma e212_add x y : e212 (x + y) = e212 x + e212 y.
Proof. apply F2_eq; apply F3_eq; unfold e212, e12, e6; k12; k6; ring. Qed.
Lemma e212_pow x n : rpz (e212 x) n = e212 (rpz x n).
Proof. unfold rpz, e212. rewrite e12_pow, e6_pow. reflexivity. Qed.
Lemma w6 : (iw c * iw c * iw c) * (iw c * iw c * iw c) = e212 (xi c).
Proof. apply F2_eq; apply F3_eq; unfold iw, e212, e12, e6; k12; k6; ring. Qed.
(** it is a map between the curves *)
Lemma untwist_on (x y : K2 c) : on_curve (K2F c) (cb2 c) (EAff (x : K2F c) (y : K2F c)) ->
  uty y * uty y = utx x * utx x * utx x + e212 (e2 c (mk p (cb c))).
Proof.
  unfold on_curve. intros E. change (@rmul (K2 c) y y = @rmul (K2 c) (@rmul (K2 c) x x) x + (cb2 c : K2 c)) in E.
  unfold utx, uty. rewrite <- cb2_xi. rewrite e212_mul, <- w6.
  transitivity (e212 (y * y) * (iw c * iw c * iw c * (iw c * iw c * iw c))); [rewrite e212_mul; ring|]. rewrite E, e212_add, !e212_mul. ring.
Qed.
Definition fx (x : K2 c) : K2 c := cj c x * (g1 c * g1 c).
Definition fy (y : K2 c) : K2 c := cj c y * (g1 c * g1 c * g1 c).
Lemma utx_fr x : utx (fx x) = rpz (utx x) p.
Proof.
  unfold utx, fx. rewrite !rpz_mulb, iw_pow, e212_pow, fr2, !e212_mul. fold (e212 (g1 c)). ring.
Qed.
Lemma uty_fr y : uty (fy y) = rpz (uty y) p.
Proof.
  unfold uty, fy. rewrite !rpz_mulb, iw_pow, e212_pow, fr2, !e212_mul. fold (e212 (g1 c)). ring.
Qed.

(** xi^((p-1)/3) = g1^2, xi^((p-1)/2) = g1^3; the former is purely imaginary for xi = 1 + u *)
Lemma pow3 : rpz (xi c) ((p - 1) / 3) = g1 c * g1 c.
Proof.
  pose proof (p6 c). pose proof (p6_pos c). unfold g1. rewrite <- rpz_add by lia. f_equal.
  symmetry. apply Z.div_unique_exact; lia.
Qed.
Lemma pow2 : rpz (xi c) ((p - 1) / 2) = g1 c * g1 c * g1 c.
Proof.
  pose proof (p6 c). pose proof (p6_pos c). unfold g1. rewrite <- !rpz_add by lia. f_equal.
  symmetry. apply Z.div_unique_exact; lia.
Qed.
Lemma g1g1_im : snark c = false -> a2 (g1 c * g1 c) = 0.
Proof.
  intros Hs. pose proof (p6 c). pose proof (p6_pos c). pose proof (cp_mod4 c) as H4. pose proof (cp_pos c). pose proof (Z.div_mod p 4 ltac:(lia)) as E.
  unfold g1. rewrite <- rpz_mulb.
  set (n := ((p - 1) / 6)%Z) in *. assert (On : (n mod 2 = 1)%Z).
  { rewrite H4 in E. pose proof (Z.mod_pos_bound n 2 ltac:(lia)). pose proof (Z.div_mod n 2 ltac:(lia)). lia. }
  pose proof (Z.div_mod n 2 ltac:(lia)) as En. rewrite On in En. assert (0 <= n / 2)%Z by (apply Z.div_pos; lia). rewrite En. clearbody n.
  rewrite rpz_add, rpz_mul, rpz_1 by lia. rewrite rpz_2.
  assert (X : xi c * xi c = (mk2 0 (1 + 1) : K2 c)).
  { unfold xi. rewrite (cxi_bn c Hs), (cxi_bn' c Hs). change (mk p 1) with (1 : FpR p). apply F2_eq; kk; ring. }
  rewrite X. replace ((mk2 0 (1 + 1) : K2 c) * (mk2 0 (1 + 1) : K2 c)) with (e2 c (- ((1 + 1) * (1 + 1)))) by (apply F2_eq; unfold e2; kk; ring).
  unfold rpz. rewrite e2_pow. unfold e2. kk. ring.
Qed.
Lemma cj_rep x v : rep2 c x v -> rep2 c (mk2 (a2 x) (fp_neg c (b2 x))) (cj c v).
Proof. intros [Ra Rb]. split; [exact Ra|]. exact (neg_rep1 c _ _ Rb). Qed.
Lemma FrobEnd1_rep P x y v w : par_ok c P -> rep2 c x v -> rep2 c y w ->
  rep2 c (fst (FrobEnd1 c P x y)) (fx v) /\ rep2 c (snd (FrobEnd1 c P x y)) (fy w).
Proof.
  intros HP Rx Ry. unfold FrobEnd1. pose proof (cj_rep x v Rx) as Cx. pose proof (cj_rep y w Ry) as Cy.
  destruct (snark c) eqn:Hs; cbn [fst snd].
  - destruct (ok_g c P HP) as [_ G]. pose proof (G 1%nat ltac:(lia)) as G1. pose proof (G 2%nat ltac:(lia)) as G2.
    unfold fx, fy. rewrite rpw_2 in G1. replace (rpw (g1 c) 3) with (g1 c * g1 c * g1 c) in G2 by (rewrite !rpw_S, rpw_0; ring).
    split; apply f2_mul_rep; assumption.
  - split.
    + pose proof (ok_W2 c P HP) as [_ RW]. rewrite pow3 in RW. pose proof (f2_mul_Fp_1_rep c _ _ _ _ Cx RW) as R. unfold fx.
      replace (g1 c * g1 c) with (mk2 0 (b2 (g1 c * g1 c)) : K2 c) at 1; [exact R|]. apply F2_eq; cbn [a2 b2]; [symmetry; apply g1g1_im, Hs|reflexivity].
    + pose proof (ok_W3 c P HP) as RW. rewrite pow2 in RW. unfold fy. apply f2_mul_rep; assumption.
Qed.
Lemma fx_fx v : fx (fx v) = v * e2 c (hh c * hh c).
Proof.
  unfold fx. rewrite !cj_mul, cj_cj. transitivity (v * ((cj c (g1 c) * g1 c) * (cj c (g1 c) * g1 c))); [ring|]. rewrite cj_g1.
  f_equal. apply F2_eq; unfold e2; kk; ring.
Qed.
Lemma hh3 : hh c * hh c * hh c = - (1).
Proof. transitivity (hh c * (hh c * hh c)); [ring|]. rewrite hh_rel. transitivity (hh c * hh c - hh c); [ring|]. rewrite hh_rel. ring. Qed.
Lemma fy_fy v : fy (fy v) = - v.
Proof.
  unfold fy. rewrite !cj_mul, cj_cj. transitivity (v * ((cj c (g1 c) * g1 c) * (cj c (g1 c) * g1 c) * (cj c (g1 c) * g1 c))); [ring|]. rewrite cj_g1.
  replace (e2 c (hh c) * e2 c (hh c) * e2 c (hh c)) with (e2 c (hh c * hh c * hh c)) by (apply F2_eq; unfold e2; kk; ring).
  rewrite hh3. apply F2_eq; unfold e2; kk; ring.
Qed.
Lemma FrobEnd2_rep P x y v w : par_ok c P -> rep2 c x v -> rep2 c y w ->
  rep2 c (fst (FrobEnd2 c P x y)) (fx (fx v)) /\ rep2 c (snd (FrobEnd2 c P x y)) (fy (fy w)).
Proof.
  intros HP Rx Ry. unfold FrobEnd2. destruct (snark c) eqn:Hs.
  - destruct (FrobEnd1_rep P x y v w HP Rx Ry) as [R1 R2]. destruct (FrobEnd1 c P x y) as [x1 y1]. cbn [fst snd] in R1, R2.
    exact (FrobEnd1_rep P x1 y1 _ _ HP R1 R2).
  - cbn [fst snd]. rewrite fx_fx, fy_fy. split.
    + exact (f2_mul_Fp_0_rep c _ _ _ _ Rx (ok_Z c P HP)).
    + exact (f2_neg_rep c _ _ Ry).
Qed.
Definition fx8 v := fx (fx (fx (fx (fx (fx (fx (fx v))))))).
Definition fy8 v := fy (fy (fy (fy (fy (fy (fy (fy v))))))).
Lemma FrobEnd8_rep P x y v w : par_ok c P -> rep2 c x v -> rep2 c y w ->
  rep2 c (fst (FrobEnd8 c P x y)) (fx8 v) /\ rep2 c (snd (FrobEnd8 c P x y)) (fy8 w).
Proof.
  intros HP Rx Ry. unfold FrobEnd8, fx8, fy8. destruct (snark c) eqn:Hs.
  - destruct (FrobEnd2_rep P x y v w HP Rx Ry) as [R1 R2]. destruct (FrobEnd2 c P x y) as [x1 y1]. cbn [fst snd] in R1, R2.
    destruct (FrobEnd2_rep P x1 y1 _ _ HP R1 R2) as [R3 R4]. destruct (FrobEnd2 c P x1 y1) as [x2 y2]. cbn [fst snd] in R3, R4.
    destruct (FrobEnd2_rep P x2 y2 _ _ HP R3 R4) as [R5 R6]. destruct (FrobEnd2 c P x2 y2) as [x3 y3]. cbn [fst snd] in R5, R6.
    exact (FrobEnd2_rep P x3 y3 _ _ HP R5 R6).
  - cbn [fst snd]. rewrite !fx_fx, !fy_fy. split.
    + assert (E : v * e2 c (hh c * hh c) * e2 c (hh c * hh c) * e2 c (hh c * hh c) * e2 c (hh c * hh c) = v * e2 c (hh c * hh c)).
      { transitivity (v * e2 c ((hh c * hh c * hh c) * (hh c * hh c * hh c) * (hh c * hh c))).
        - apply F2_eq; unfold e2; kk; ring.
        - rewrite hh3. apply F2_eq; unfold e2; kk; ring. }
      rewrite E. exact (f2_mul_Fp_0_rep c _ _ _ _ Rx (ok_Z c P HP)).
    + replace (- - - - w) with w by ring. exact Ry.
Qed.
Lemma utx_fr2 x : utx (fx (fx x)) = rpz (utx x) (p ^ 2).
Proof. pose proof (cp_pos c). rewrite !utx_fr, Z.pow_2_r, rpz_mul by lia. reflexivity. Qed.
Lemma uty_fr2 x : uty (fy (fy x)) = rpz (uty x) (p ^ 2).
Proof. pose proof (cp_pos c). rewrite !uty_fr, Z.pow_2_r, rpz_mul by lia. reflexivity. Qed.
Lemma utx_fr8 x : utx (fx8 x) = rpz (utx x) (p ^ 8).
Proof.
  unfold fx8. rewrite !utx_fr2. assert (0 <= p ^ 2)%Z by (apply ppos; lia). replace (p ^ 8)%Z with (p ^ 2 * p ^ 2 * p ^ 2 * p ^ 2)%Z by (rewrite <- !Z.pow_add_r by lia; reflexivity).
  set (q := (p ^ 2)%Z) in *. clearbody q. rewrite !rpz_mul by nia. reflexivity.
Qed.
Lemma uty_fr8 x : uty (fy8 x) = rpz (uty x) (p ^ 8).
Proof.
  unfold fy8. rewrite !uty_fr2. assert (0 <= p ^ 2)%Z by (apply ppos; lia). replace (p ^ 8)%Z with (p ^ 2 * p ^ 2 * p ^ 2 * p ^ 2)%Z by (rewrite <- !Z.pow_add_r by lia; reflexivity).
  set (q := (p ^ 2)%Z) in *. clearbody q. rewrite !rpz_mul by nia. reflexivity.
Qed.
(** the map preserves the twist and its group law *)
Definition psi (P : ecpt (K2F c)) : ecpt (K2F c) := match P with EInf => EInf | EAff x y => EAff (fx x : K2F c) (fy y : K2F c) end.
Lemma g1_nz : g1 c <> 0.
Proof.
  intros E. pose proof (cj_g1 c) as L. rewrite E in L. assert (H0 : e2 c (hh c) = 0) by (rewrite <- L; ring).
  assert (H1 : hh c = 0) by exact (f_equal a2 H0). pose proof (hh3) as H. rewrite H1 in H. apply (field_nz _ (K1_field c)).
  transitivity (- - (1 : FpR p)); [ring|]. rewrite <- H. ring.
Qed.
Lemma cb2_fr : cj c (cb2 c) * (g1 c * g1 c * g1 c * (g1 c * g1 c * g1 c)) = (cb2 c : K2 c).
Proof.
  apply (fcancel (K2F c) _ (cb2 c) (xi c) (xi_nz c)). change (@rmul (K2 c) (cj c (cb2 c) * (g1 c * g1 c * g1 c * (g1 c * g1 c * g1 c))) (xi c) = @rmul (K2 c) (cb2 c) (xi c)).
  rewrite cb2_xi. rewrite <- (cj_e2 c (mk p (cb c))), <- cb2_xi, cj_mul. rewrite <- (fr2 c (xi c)).
  pose proof (p6 c). pose proof (p6_pos c). replace (rpz (xi c) p) with (rpz (xi c) (1 + (((p - 1) / 6) + (p - 1) / 6 + (p - 1) / 6 + ((p - 1) / 6 + (p - 1) / 6 + (p - 1) / 6)))%Z) by (f_equal; lia).
  rewrite !rpz_add, rpz_1 by lia. fold (g1 c). set (B2 := cj c (cb2 c) : K2 c). clearbody B2. ring.
Qed.
Lemma cj_1 : cj c 1 = 1. Proof. apply F2_eq; [reflexivity|]. unfold cj, qconj. kk. ring. Qed.
Lemma psi_hm P : psi P = hm (K2F c) (cj c) (g1 c : K2F c) P. Proof. reflexivity. Qed.
Lemma psi_on P : on_curve (K2F c) (cb2 c) P -> on_curve (K2F c) (cb2 c) (psi P).
Proof. rewrite psi_hm. apply hm_on; [apply cj_add|apply cj_mul|exact cb2_fr]. Qed.
Lemma psi_add P Q : on_curve (K2F c) (cb2 c) P -> on_curve (K2F c) (cb2 c) Q -> psi (ec_add (K2F c) P Q) = ec_add (K2F c) (psi P) (psi Q).
Proof. rewrite !psi_hm. apply hm_add; [apply cj_add|apply cj_mul|apply cj_1|exact g1_nz|exact (two2 c)]. Qed.
End EcFrob.
