(** Correctness of the Frobenius maps, cyclotomic squaring, compression, final exponentiation. *)
From Coq Require Import ZArith Znumtheory List Lia Ring.
From Verif Require Import Base Prim Loop Power Alg FpSpec Cfg FpM FpProofs FpApi FpApiProofs FpWit TowerSpec TowerField TowerM Fp2Proofs Fp6Proofs Frob ParamM ParamProofs FinalM.
Import ListNotations.
Local Open Scope Z_scope.

Section Small.
Variable K : cring.
Add Ring KKx : (rth K).
Local Open Scope r_scope.
Lemma rpw_3 (x : K) : rpw x 3 = x * x * x.
Proof. unfold rpw. cbn [npow]. ring. Qed.
Lemma rpw_4 (x : K) : rpw x 4 = x * x * (x * x).
Proof. unfold rpw. cbn [npow]. ring. Qed.
Lemma rpw_5 (x : K) : rpw x 5 = x * x * x * x * x.
Proof. unfold rpw. cbn [npow]. ring. Qed.
End Small.

Lemma is_BNb c : snark c = false -> c = BNb.
Proof. destruct c; [reflexivity|discriminate|discriminate]. Qed.
Lemma two3_c c z x : snark c = false -> can c z -> can c x ->
  can c (fp_2z_add_3x c z x) /\ fv c (fp_2z_add_3x c z x) = fadd (fmul (mk (cp c) 2) (fv c z)) (fmul (mk (cp c) 3) (fv c x)).
Proof. intros ->%is_BNb. apply fp_2z_add_3x_BNb. Qed.
Lemma three2_c c z x : snark c = false -> can c z -> can c x ->
  can c (fp_3z_add_2x c z x) /\ fv c (fp_3z_add_2x c z x) = fadd (fmul (mk (cp c) 2) (fv c z)) (fmul (mk (cp c) 3) (fv c x)).
Proof. intros ->%is_BNb. apply fp_3z_add_2x_BNb. Qed.
Lemma fast_modp_c c z : snark c = false -> 0 <= z <= 6 * cp c ->
  can c (fp_fast_modp c z) /\ fv c (fp_fast_modp c z) = fv c z.
Proof. intros ->%is_BNb. apply fast_modp_BNb. Qed.
Lemma cp_6_c c : snark c = false -> 6 * cp c < W.
Proof. intros ->%is_BNb. apply cp_6. Qed.

Section FP.
Variable c : cfg.
Local Notation p := (cp c).
Local Notation rep1 := (rep1 c).
Local Notation rep2 := (rep2 c).
Local Notation drep2 := (drep2 c).
Local Notation rep6 := (rep6 c).
Local Notation rep12 := (rep12 c).
Add Ring FRd : (rth (FpR (cp c))).
Add Ring KRd : (rth (K2 c)).
Add Ring KR6d : (rth (K6 c)).
Add Ring KR12d : (rth (K12 c)).
Local Open Scope r_scope.
Ltac k2 := cbn [radd rmul rsub ropp rz ro K2 quad qadd qsub qopp qmul q0 q1 a2 b2 qconj].
Ltac k6 := cbn [radd rmul rsub ropp rz ro K6 cubic kadd ksub kopp kmul k0 k1 kgen a3 b3 c3].
Ltac k12 := cbn [radd rmul rsub ropp rz ro K12 quad qadd qsub qopp qmul q0 q1 a2 b2].

(** ** BNb: special values of the Frobenius constants *)
Lemma iu_k : snark c = false -> rpz (iu c) ((p - 1) / 6) = - iu c.
Proof.
  intros S. assert (E : ((p - 1) / 6 = 4 * ((p - 1) / 24) + 3)%Z) by (clear -S; destruct c; [vm_compute; reflexivity|discriminate|discriminate]).
  pose proof (p6_pos c). assert (0 <= (p - 1) / 24)%Z by lia.
  rewrite E. rewrite rpz_add by lia. rewrite rpz_mul by lia.
  replace (rpz (iu c) 4) with (1 : K2 c).
  2:{ unfold rpz, rpw. change (Z.to_nat 4) with 4%nat. cbn [npow]. apply F2_eq; unfold iu; k2; ring. }
  rewrite rpz_one. unfold rpz, rpw. change (Z.to_nat 3) with 3%nat. cbn [npow]. apply F2_eq; unfold iu; k2; ring.
Qed.
Lemma g1_sq : snark c = false -> g1 c * g1 c = - (e2 c (hh c) * iu c).
Proof.
  intros S. pose proof (p6_pos c).
  assert (X : xi c * xi c = e2 c (1 + 1) * iu c) by (rewrite (xi_B c S); change (@f1 p) with (1 : FpR p); apply F2_eq; unfold e2, iu; k2; ring).
  assert (HH : e2 c (hh c) = rpz (e2 c (1 + 1)) ((p - 1) / 6)).
  { unfold rpz. rewrite e2_pow. f_equal. unfold hh, g1, rpz. rewrite n2_pow. f_equal. rewrite (xi_B c S). unfold n2. k2. change (@f1 p) with (1 : FpR p). ring. }
  unfold g1. rewrite <- rpz_mulb, X, rpz_mulb, iu_k by assumption. rewrite <- HH. ring.
Qed.
Lemma h3 : e2 c (hh c) * e2 c (hh c) * e2 c (hh c) = - (1).
Proof. rewrite hrel. transitivity (e2 c (hh c) * e2 c (hh c) - e2 c (hh c)); [ring|]. rewrite hrel. ring. Qed.
Lemma hg1_sq : snark c = false -> e2 c (hh c) * g1 c * (e2 c (hh c) * g1 c) = iu c.
Proof.
  intros S. transitivity (e2 c (hh c) * e2 c (hh c) * (g1 c * g1 c)); [ring|]. rewrite g1_sq by assumption.
  transitivity (- (e2 c (hh c) * e2 c (hh c) * e2 c (hh c)) * iu c); [ring|]. rewrite h3. ring.
Qed.
Lemma two_ne0 : (1 + 1 : K2 c) <> 0.
Proof.
  intros E. apply (f_equal a2) in E. change (fadd (mk p 1) (mk p 1) = mk p 0) in E. rewrite <- mk_add in E.
  apply mk_eq in E. pose proof (cp_bounds c). rewrite Zmod_0_l, Z.mod_small in E by lia. lia.
Qed.
Section WithP.
Variable P : param.
Hypothesis HP : par_ok c P.

Lemma f2_conj_rep x v : rep2 x v -> rep2 (f2_conj c x) (cj c v).
Proof. intros [H1 H2]. split; [exact H1|apply neg_rep1; exact H2]. Qed.

Lemma gam_rep i : (i < 5)%nat -> rep2 (gam P i) (rpw (g1 c) (S i)).
Proof. apply (ok_g c P HP). Qed.
Lemma gam2_rep i : (i < 5)%nat -> rep2 (gam2 P i) (rpw (e2 c (hh c)) (S i)).
Proof. apply (ok_g2 c P HP). Qed.
Lemma gam3_rep i : (i < 5)%nat -> rep2 (gam3 P i) (rpw (e2 c (hh c) * g1 c) (S i)).
Proof. apply (ok_g3 c P HP). Qed.

Lemma f12_frob_rep x v : rep12 x v -> rep12 (f12_frob c P x) (rpz v p).
Proof.
  intros [(Xa & Xb & Xc) (Xd & Xe & Xf)]. rewrite fr12. unfold twist, mk12, f12_frob. cbv zeta.
  apply rep12_mk; apply rep6_mk; cbn [a2 b2 a3 b3 c3].
  - apply f2_conj_rep; exact Xa.
  - pose proof (f2_conj_rep _ _ Xb) as C. pose proof (gam_rep 1 ltac:(lia)) as G. rewrite rpw_2 in G.
    destruct (snark c) eqn:S; [eapply rep2_eq; [exact (f2_mul_rep c _ _ _ _ C G)|ring]|].
    destruct G as [_ G]. eapply rep2_eq; [exact (f2_mul_Fp_1_rep c _ _ _ _ C G)|]. f_equal.
    rewrite (g1_sq S). apply F2_eq; unfold e2, iu; k2; ring.
  - pose proof (f2_conj_rep _ _ Xc) as C. pose proof (gam_rep 3 ltac:(lia)) as G. rewrite rpw_4 in G.
    destruct (snark c) eqn:S; [eapply rep2_eq; [exact (f2_mul_rep c _ _ _ _ C G)|ring]|].
    destruct G as [G _]. eapply rep2_eq; [exact (f2_mul_Fp_0_rep c _ _ _ _ C G)|]. f_equal.
    rewrite (g1_sq S). apply F2_eq; unfold e2, iu; k2; ring.
  - pose proof (gam_rep 0 ltac:(lia)) as G. rewrite rpw_1 in G. exact (f2_mul_rep c _ _ _ _ (f2_conj_rep _ _ Xd) G).
  - pose proof (gam_rep 2 ltac:(lia)) as G. rewrite rpw_3 in G. exact (f2_mul_rep c _ _ _ _ (f2_conj_rep _ _ Xe) G).
  - pose proof (gam_rep 4 ltac:(lia)) as G. rewrite rpw_5 in G. exact (f2_mul_rep c _ _ _ _ (f2_conj_rep _ _ Xf) G).
Qed.
Lemma e2_real n : rpw (e2 c (hh c)) n = mk2 (a2 (rpw (e2 c (hh c)) n)) 0.
Proof. rewrite e2_pow. reflexivity. Qed.
Lemma f12_frob2_rep x v : rep12 x v -> rep12 (f12_frob2 c P x) (rpz v (p ^ 2)).
Proof.
  intros [(Xa & Xb & Xc) (Xd & Xe & Xf)]. rewrite fr12_2. unfold twist, mk12, f12_frob2, idf.
  assert (M : forall i y w, (i < 5)%nat -> rep2 y w -> rep2 (f2_mul_Fp_0 c y (a2 (gam2 P i))) (w * rpw (e2 c (hh c)) (S i))).
  { intros i y w Hi Hy. destruct (gam2_rep i Hi) as [G _]. rewrite e2_real. exact (f2_mul_Fp_0_rep c _ _ _ _ Hy G). }
  apply rep12_mk; apply rep6_mk; cbn [a2 b2 a3 b3 c3].
  - exact Xa.
  - rewrite <- rpw_2. apply M; [lia|exact Xb].
  - rewrite <- rpw_4. apply M; [lia|exact Xc].
  - rewrite <- (rpw_1 _ (e2 c (hh c))). apply M; [lia|exact Xd].
  - rewrite <- rpw_3. apply M; [lia|exact Xe].
  - rewrite <- rpw_5. apply M; [lia|exact Xf].
Qed.
Lemma f12_frob3_rep x v : rep12 x v -> rep12 (f12_frob3 c P x) (rpz v (p ^ 3)).
Proof.
  intros [(Xa & Xb & Xc) (Xd & Xe & Xf)]. rewrite fr12_3. unfold twist, mk12, f12_frob3. cbv zeta.
  apply rep12_mk; apply rep6_mk; cbn [a2 b2 a3 b3 c3].
  - apply f2_conj_rep; exact Xa.
  - pose proof (f2_conj_rep _ _ Xb) as C. pose proof (gam3_rep 1 ltac:(lia)) as G. rewrite rpw_2 in G.
    destruct (snark c) eqn:S; [eapply rep2_eq; [exact (f2_mul_rep c _ _ _ _ C G)|ring]|].
    rewrite (hg1_sq S). exact (f2_mul_x_rep c _ _ C).
  - pose proof (f2_conj_rep _ _ Xc) as C. pose proof (gam3_rep 3 ltac:(lia)) as G. rewrite rpw_4 in G.
    destruct (snark c) eqn:S; [eapply rep2_eq; [exact (f2_mul_rep c _ _ _ _ C G)|ring]|].
    rewrite (hg1_sq S) in *.
    destruct G as [G _]. eapply rep2_eq; [exact (f2_mul_Fp_0_rep c _ _ _ _ C G)|]. f_equal.
    apply F2_eq; unfold e2, iu; k2; ring.
  - pose proof (gam3_rep 0 ltac:(lia)) as G. rewrite rpw_1 in G. exact (f2_mul_rep c _ _ _ _ (f2_conj_rep _ _ Xd) G).
  - pose proof (gam3_rep 2 ltac:(lia)) as G. rewrite rpw_3 in G. exact (f2_mul_rep c _ _ _ _ (f2_conj_rep _ _ Xe) G).
  - pose proof (gam3_rep 4 ltac:(lia)) as G. rewrite rpw_5 in G. exact (f2_mul_rep c _ _ _ _ (f2_conj_rep _ _ Xf) G).
Qed.
Lemma f12_conj_rep x v : rep12 x v -> rep12 (f12_conj c x) (conj12 c v).
Proof. intros [H1 H2]. apply rep12_mk; [exact H1|apply f6_neg_rep; exact H2]. Qed.

(** ** sqru *)
Lemma f12_sqru_rep x v : rep12 x v -> cyclo c v -> rep12 (f12_sqru c x) (v * v).
Proof.
  destruct x as [[x0 x4 x3] [x2 x1 x5]], v as [[v0 v4 v3] [v2 v1 v5]].
  intros [(X0 & X4 & X3) (X2 & X1 & X5)] Cy. cbn [a2 b2 a3 b3 c3] in *.
  destruct (cyclo_eqs c v0 v1 v2 v3 v4 v5 Cy) as (R0 & R1 & R2 & R3 & R4 & R5).
  unfold f12_sqru. cbv zeta. cbn [a2 b2 a3 b3 c3].
  destruct (sq_Fp4_rep c _ _ _ _ X0 X1) as [A1 A2]. destruct (sq_Fp4 c x0 x1) as [t0 t1].
  destruct (sq_Fp4_rep c _ _ _ _ X2 X3) as [B1 B2]. destruct (sq_Fp4 c x2 x3) as [t2 t3].
  destruct (sq_Fp4_rep c _ _ _ _ X4 X5) as [C1 C2]. destruct (sq_Fp4 c x4 x5) as [t4 t5].
  cbn [fst snd] in *. set (X := xi c) in *.
  apply rep12_mk; apply rep6_mk.
  - eapply rep2_eq; [exact (f2_3t_sub_2z_rep c _ _ _ _ A1 X0)|]. unfold two, three. k12. k6. fold X.
    apply (rsub_eq (K2 c)). transitivity ((1 + 1) * ((v0 * v0 + X * (v1 * v1) - v0) - X * (v2 * v5 + v3 * v4))); [ring|]. rewrite R0. ring.
  - eapply rep2_eq; [exact (f2_3t_sub_2z_rep c _ _ _ _ B1 X4)|]. unfold two, three. k12. k6. fold X.
    apply (rsub_eq (K2 c)). transitivity ((1 + 1) * ((v2 * v2 + X * (v3 * v3) - v4) - (v0 * v4 + X * (v1 * v5)))); [ring|]. rewrite R4. ring.
  - eapply rep2_eq; [exact (f2_3t_sub_2z_rep c _ _ _ _ C1 X3)|]. unfold two, three. k12. k6. fold X.
    apply (rsub_eq (K2 c)). transitivity ((1 + 1) * (- v3 - (v0 * v3 + v1 * v2 - v4 * v4 - X * (v5 * v5)))); [ring|]. rewrite R3. ring.
  - eapply rep2_eq; [exact (f2_3t_add_2z_rep c _ _ _ _ (f2_mul_xi_rep c _ _ C2) X2)|]. unfold two, three. k12. k6. fold X.
    apply (rsub_eq (K2 c)). transitivity ((1 + 1) * (v2 - (v0 * v2 + X * (v1 * v3) - X * (v4 * v5 + v4 * v5)))); [ring|]. rewrite R2. ring.
  - eapply rep2_eq; [exact (f2_3t_add_2z_rep c _ _ _ _ A2 X1)|]. unfold two, three. k12. k6. fold X.
    apply (rsub_eq (K2 c)). transitivity ((1 + 1) * (v0 * v1 + v0 * v1 + v1 - (v2 * v4 + X * (v3 * v5)))); [ring|]. rewrite R1. ring.
  - eapply rep2_eq; [exact (f2_3t_add_2z_rep c _ _ _ _ B2 X5)|]. unfold two, three. k12. k6. fold X.
    apply (rsub_eq (K2 c)). transitivity ((1 + 1) * (v2 * v3 + v2 * v3 + v5 - (v0 * v5 + v1 * v4))); [ring|]. rewrite R5. ring.
Qed.

(** ** Relations of an element and its conjugate *)
Section Unit.
Variables (r0 r1 r2 r3 r4 r5 : K2 c).
Let x := mk12 c r0 r4 r3 r2 r1 r5.
Let X := xi c.
Hypothesis Hx : cyclo c x.
Lemma unit_eqs :
  r0 * r0 + (X * (r3 * r4) + X * (r3 * r4)) - X * (r1 * r1 + (r2 * r5 + r2 * r5)) = 1 /\
  r0 * r4 + r0 * r4 + X * (r3 * r3) = r2 * r2 + (X * (r1 * r5) + X * (r1 * r5)) /\
  r4 * r4 + (r0 * r3 + r0 * r3) = r1 * r2 + r1 * r2 + X * (r5 * r5).
Proof.
  pose proof (cyclo_unit c x Hx) as E. unfold conj12, x, mk12 in E. cbn [a2 b2] in E.
  apply (f_equal a2) in E. cbn [rmul ro K12 quad qmul q1 a2 b2] in E.
  pose proof (f_equal a3 E) as E0. pose proof (f_equal b3 E) as E1. pose proof (f_equal c3 E) as E2. clear E.
  cbn [radd rmul ropp ro K6 cubic kadd kmul kopp k1 kgen a3 b3 c3] in E0, E1, E2. fold X in E0, E1, E2.
  split; [|split].
  - etransitivity; [|exact E0]. ring.
  - apply (rsub_eq (K2 c)). etransitivity; [|exact E1]. ring.
  - apply (rsub_eq (K2 c)). etransitivity; [|exact E2]. ring.
Qed.
(** the compressed form determines the element *)
Lemma dec_g1 : (r1 * r2 + r1 * r2) + (r1 * r2 + r1 * r2) = X * (r5 * r5) + (r4 * r4 + r4 * r4 + r4 * r4 - (r3 + r3)).
Proof.
  destruct (cyclo_eqs c r0 r1 r2 r3 r4 r5 Hx) as (_ & _ & _ & R3 & _). destruct unit_eqs as (_ & _ & U2). fold X in R3.
  apply (rsub_eq (K2 c)).
  transitivity ((1 + 1) * (r0 * r3 + r1 * r2 - r4 * r4 - X * (r5 * r5) - - r3) - (r4 * r4 + (r0 * r3 + r0 * r3) - (r1 * r2 + r1 * r2 + X * (r5 * r5)))); [ring|].
  rewrite R3, U2. ring.
Qed.
Lemma dec_g1' : r2 = 0 -> r1 * r3 = (r4 + r4) * r5.
Proof.
  intros E. destruct (cyclo_eqs c r0 r1 r2 r3 r4 r5 Hx) as (_ & _ & R2 & _). fold X in R2. rewrite E in R2.
  apply (field_cancel _ (K2_field c) X); [exact (xi_nz (K2 c) (xi c) (xi_noncube c))|].
  apply (rsub_eq (K2 c)). transitivity (r0 * 0 + X * (r1 * r3) - X * (r4 * r5 + r4 * r5)); [ring|]. rewrite R2. reflexivity.
Qed.
Lemma dec_g0 : r0 = X * (r1 * r1 + r1 * r1 - (r3 * r4 + r3 * r4 + r3 * r4) + r2 * r5) + 1.
Proof.
  destruct (cyclo_eqs c r0 r1 r2 r3 r4 r5 Hx) as (R0 & _). destruct unit_eqs as (U0 & _). fold X in R0.
  apply (rsub_eq (K2 c)).
  transitivity ((r0 * r0 + (X * (r3 * r4) + X * (r3 * r4)) - X * (r1 * r1 + (r2 * r5 + r2 * r5)) - 1) - (r0 * r0 + X * (r1 * r1) - r0 - X * (r2 * r5 + r3 * r4))); [ring|].
  rewrite R0, U0. ring.
Qed.
Lemma xi_ratio a b : a * a = X * (b * b) -> b = 0.
Proof.
  intros E. destruct (K2_field c) as (H1 & Hi & Hd). destruct (Hd b 0) as [|N]; [assumption|].
  exfalso. destruct (Hi b N) as (i & Hb). apply (xi_nonsquare c (a * i)).
  transitivity (a * a * (i * i)); [ring|]. rewrite E. transitivity (X * ((b * i) * (b * i))); [ring|].
  replace (b * i) with (1 : K2 c); [unfold X; ring|]. rewrite <- Hb. ring.
Qed.
Lemma dec_one : r2 = 0 -> r3 = 0 -> x = 1.
Proof.
  intros E2 E3. destruct (cyclo_eqs c r0 r1 r2 r3 r4 r5 Hx) as (R0 & R1 & _ & R3 & _). destruct unit_eqs as (U0 & _).
  fold X in R0, R1, R3. rewrite E2, E3 in *.
  assert (E5 : r5 = 0).
  { apply (xi_ratio (iu c * r4)). apply (rsub_eq (K2 c)).
    transitivity (iu c * iu c * (r4 * r4) - X * (r5 * r5)); [ring|].
    replace (iu c * iu c) with (- (1) : K2 c) by (apply F2_eq; unfold iu; k2; ring).
    transitivity (r0 * 0 + r1 * 0 - r4 * r4 - X * (r5 * r5)); [ring|]. rewrite R3. ring. }
  rewrite E5 in *.
  assert (E4 : r4 = 0).
  { assert (Q : r4 * r4 = 0). { apply (rsub_eq (K2 c)). transitivity (- (r0 * 0 + r1 * 0 - r4 * r4 - X * (0 * 0))); [ring|]. rewrite R3. ring. }
    destruct (field_integral _ (K2_field c) _ _ Q); assumption. }
  rewrite E4 in *.
  assert (E1 : r1 = 0).
  { assert (Q : (r0 + r0 + 1) * r1 = 0). { transitivity (r0 * r1 + r0 * r1 + r1); [ring|]. rewrite R1. ring. }
    destruct (field_integral _ (K2_field c) _ _ Q) as [Q0|Q0]; [|assumption].
    assert (B1 : (1 + 1) * r1 = 0).
    { set (h := e2 c (hh c)). apply (xi_ratio (h + h - 1)). apply (rsub_eq (K2 c)).
      transitivity ((1 + 1) * (1 + 1) * (h * h) - (1 + 1) * (1 + 1) * h + 1 - (1 + 1) * (1 + 1) * (X * (r1 * r1))); [ring|].
      unfold h. rewrite hrel. fold h.
      transitivity ((1 + 1) * (1 + 1) * ((r0 * r0 + (X * (0 * 0) + X * (0 * 0)) - X * (r1 * r1 + (0 * 0 + 0 * 0))) - 1) - (r0 + r0 + 1) * (r0 + r0 - 1)); [ring|].
      rewrite U0, Q0. ring. }
    destruct (field_integral _ (K2_field c) _ _ B1) as [B2|B2]; [|assumption].
    exfalso. exact (two_ne0 B2). }
  rewrite E1 in *.
  assert (E0 : r0 = 1).
  { apply (rsub_eq (K2 c)). transitivity ((r0 * r0 + (X * (0 * 0) + X * (0 * 0)) - X * (0 * 0 + (0 * 0 + 0 * 0)) - 1) - (r0 * r0 + X * (0 * 0) - r0 - X * (0 * 0 + 0 * 0))); [ring|].
    rewrite U0, R0. ring. }
  unfold x, mk12. rewrite E0, E1, E2, E3, E4, E5. reflexivity.
Qed.
End Unit.

(** ** Compressed elements *)
Record repC (z : cmp) (v : K12 c) : Prop := {
  rc2 : rep2 (cg2 z) (a3 (b2 v)); rc3 : rep2 (cg3 z) (c3 (a2 v));
  rc4 : rep2 (cg4 z) (b3 (a2 v)); rc5 : rep2 (cg5 z) (c3 (b2 v)) }.
Lemma compress_rep x v : rep12 x v -> repC (compress x) v.
Proof. intros [(Xa & Xb & Xc) (Xd & Xe & Xf)]. constructor; assumption. Qed.

Lemma f2_divBy4_rep x v : rep2 x v -> exists w, rep2 (f2_divBy4 c x) w /\ (w + w) + (w + w) = v.
Proof.
  intros [[H1 E1] [H2 E2]]. destruct (fp_divBy4_ok c _ H1) as [A1 A2]. destruct (fp_divBy4_ok c _ H2) as [B1 B2].
  exists (mk2 (fv c (fp_divBy4 c (a2 x))) (fv c (fp_divBy4 c (b2 x))) : K2 c). split; [split; split; (assumption || reflexivity)|].
  assert (M4 : mk p 4 = fadd (fadd (mk p 1) (mk p 1)) (fadd (mk p 1) (mk p 1))) by (rewrite <- !mk_add; reflexivity).
  rewrite M4 in A2, B2.
  apply F2_eq.
  - rewrite <- E1, <- A2. set (q := fv c (fp_divBy4 c (a2 x)) : FpR p). change ((q + q) + (q + q) = ((1 + 1) + (1 + 1)) * q :> FpR p). ring.
  - rewrite <- E2, <- B2. set (q := fv c (fp_divBy4 c (b2 x)) : FpR p). change ((q + q) + (q + q) = ((1 + 1) + (1 + 1)) * q :> FpR p). ring.
Qed.

Lemma cmp_before_rep z v : repC z v -> cyclo c v ->
  exists nv dv, rep2 (fst (cmp_before c z)) nv /\ rep2 (snd (cmp_before c z)) dv /\ nv = b3 (b2 v) * dv /\ (dv = 0 -> v = 1).
Proof.
  destruct v as [[v0 v4 v3] [v2 v1 v5]]. intros [Z2 Z3 Z4 Z5] Cy. cbn [a2 b2 a3 b3 c3] in *.
  unfold cmp_before. cbv zeta. destruct (f2_isZero (cg2 z)) eqn:EZ; cbn [fst snd].
  - apply (f2_isZero_rep c _ _ Z2) in EZ. exists ((v4 + v4) * v5), v3. split; [rep_solve|]. split; [exact Z3|]. split.
    + symmetry. apply (dec_g1' v0 v1 v2 v3 v4 v5 Cy EZ).
    + intros E3. exact (dec_one v0 v1 v2 v3 v4 v5 Cy EZ E3).
  - assert (N2 : v2 <> 0). { intros E. apply (f2_isZero_rep c _ _ Z2) in E. congruence. }
    match goal with |- exists _ _, rep2 (f2_divBy4 c ?e) _ /\ _ => eassert (RN : rep2 e _) by rep_solve end.
    destruct (f2_divBy4_rep _ _ RN) as (w & Rw & Ew). exists w, v2. split; [exact Rw|]. split; [exact Z2|]. split.
    + pose proof (dec_g1 v0 v1 v2 v3 v4 v5 Cy) as D.
      apply (field_cancel _ (K2_field c) ((1 + 1) * (1 + 1))).
      * intros E. destruct (field_integral _ (K2_field c) _ _ E) as [E'|E']; exact (two_ne0 E').
      * transitivity (w + w + (w + w)); [ring|]. rewrite Ew. transitivity (v1 * v2 + v1 * v2 + (v1 * v2 + v1 * v2)); [|ring]. rewrite D. ring.
    + intros E. exfalso. exact (N2 E).
Qed.
Lemma cmp_after_rep z g v : repC z v -> cyclo c v -> rep2 g (b3 (b2 v)) -> rep12 (cmp_after c P z g) v.
Proof.
  destruct v as [[v0 v4 v3] [v2 v1 v5]]. intros [Z2 Z3 Z4 Z5] Cy Hg. cbn [a2 b2 a3 b3 c3] in *.
  unfold cmp_after. cbv zeta. apply rep12_mk; apply rep6_mk; cbn [a2 b2 a3 b3 c3]; try assumption.
  match goal with |- rep2 (mk2 (fp_add c (a2 ?e) _) (b2 _)) _ => eassert (RN : rep2 e _) by rep_solve; set (gg := e) in *; clearbody gg end.
  rewrite (dec_g0 v0 v1 v2 v3 v4 v5 Cy).
  match type of RN with rep2 _ ?a => set (q := a) in * end.
  assert (RQ : rep2 (mk2 (fp_add c (a2 gg) (par_i1 P)) (b2 gg)) (q + 1)).
  { destruct RN as [N1 N2]. split; cbn [a2 b2]; [apply add_rep1; [exact N1|apply (ok_i c P HP)]|].
    eapply rep1_eq; [exact N2|]. k2. ring. }
  eapply rep2_eq; [exact RQ|]. unfold q. ring.
Qed.
Lemma cmp_decompress_rep z v : repC z v -> cyclo c v -> exists y, cmp_decompress c P z = Ok y /\ rep12 y v.
Proof.
  intros Hz Cy. unfold cmp_decompress. destruct (cmp_before_rep z v Hz Cy) as (nv & dv & R1 & R2 & E & D).
  destruct (cmp_before c z) as [n d]. cbn [fst snd] in *.
  destruct (f2_inverse_rep c d dv R2) as (i & iv & -> & Ri & I1 & I2). cbn [bind].
  eexists. split; [reflexivity|]. apply cmp_after_rep; try assumption.
  eapply rep2_eq; [exact (f2_mul_rep c _ _ _ _ R1 Ri)|]. rewrite E.
  destruct (K2_field c) as (_ & _ & Hd). destruct (Hd dv 0) as [Z|N].
  - rewrite (I2 Z), (D Z). k12. k6. ring.
  - transitivity (b3 (b2 v) * (iv * dv)); [ring|]. rewrite (I1 N). ring.
Qed.

(** squaring: only correct where 5p fits the approximate reduction, i.e. for BNb *)
Hypothesis HB : snark c = false.
Lemma mk23 : mk p 2 = (1 + 1 : FpR p) /\ mk p 3 = (1 + 1 + 1 : FpR p).
Proof. change (mk p 2 = fadd (mk p 1) (mk p 1) /\ mk p 3 = fadd (fadd (mk p 1) (mk p 1)) (mk p 1)). rewrite <- !mk_add. split; reflexivity. Qed.
Lemma f2_2z_add_3x_rep z x v w : rep2 z v -> rep2 x w -> rep2 (f2_2z_add_3x c z x) (two c * v + three c * w).
Proof using HB.
  assert (L : forall z x v w, rep1 z v -> rep1 x w -> rep1 (fp_2z_add_3x c z x) ((1 + 1) * v + (1 + 1 + 1) * w)).
  { intros z0 x0 v0 w0 [H1 E1] [H2 E2]. destruct mk23 as [M2 M3]. change ((1 + 1) * v0 + (1 + 1 + 1) * w0) with (fadd (fmul (1 + 1 : FpR p) v0) (fmul (1 + 1 + 1 : FpR p) w0)).
    rewrite <- M3, <- M2, <- E1, <- E2. apply two3_c; assumption. }
  intros [Z1 Z2] [X1 X2]. split; cbn [f2_2z_add_3x a2 b2]; (eapply rep1_eq; [apply L; eassumption|unfold two, three; k2; ring]).
Qed.
Lemma f2_3z_add_2x_rep z x v w : rep2 z v -> rep2 x w -> rep2 (f2_3z_add_2x c z x) (two c * v + three c * w).
Proof using HB.
  assert (L : forall z x v w, rep1 z v -> rep1 x w -> rep1 (fp_3z_add_2x c z x) ((1 + 1) * v + (1 + 1 + 1) * w)).
  { intros z0 x0 v0 w0 [H1 E1] [H2 E2]. destruct mk23 as [M2 M3]. change ((1 + 1) * v0 + (1 + 1 + 1) * w0) with (fadd (fmul (1 + 1 : FpR p) v0) (fmul (1 + 1 + 1 : FpR p) w0)).
    rewrite <- M3, <- M2, <- E1, <- E2. apply three2_c; assumption. }
  intros [Z1 Z2] [X1 X2]. split; cbn [f2_3z_add_2x a2 b2]; (eapply rep1_eq; [apply L; eassumption|unfold two, three; k2; ring]).
Qed.
Lemma f2_3t_sub_2zF_rep t z v w : rep2 t v -> rep2 z w -> rep2 (f2_3t_sub_2zF c t z) (three c * v - two c * w).
Proof using HB.
  assert (L : forall t z v w, rep1 t v -> rep1 z w -> rep1 (fp_3t_sub_2z c t z) (v + v + v - (w + w))).
  { intros t0 z0 v0 w0 [Ht E1] [Hz E2]. pose proof Ht as Ht'. pose proof Hz as Hz'. unfold can in Ht', Hz'. pose proof (cp_6_c c HB). unfold fp_3t_sub_2z, pTbl.
    rewrite Z.mul_1_l, Z.mod_small by lia. rewrite (fp_addNC_small t0 p) by lia. rewrite fp_subNC_small by lia.
    rewrite (fp_addNC_small (t0 + p - z0)) by lia. rewrite fp_addNC_small by lia.
    destruct (fast_modp_c c (t0 + p - z0 + (t0 + p - z0) + t0)%Z HB ltac:(lia)) as [A1 A2]. split; [exact A1|]. rewrite A2.
    rewrite !fv_add, !fv_sub, !fv_add, fv_p, E1, E2.
    change (v0 + 0 - w0 + (v0 + 0 - w0) + v0 = v0 + v0 + v0 - (w0 + w0) :> FpR p). ring. }
  intros [Z1 Z2] [X1 X2]. split; cbn [f2_3t_sub_2zF a2 b2]; (eapply rep1_eq; [apply L; eassumption|unfold two, three; k2; ring]).
Qed.
(** T2 = addNC(T2, T1) on two squares stays below pN *)
Lemma d2_sq_sq_rep x y v w : rep2 x v -> rep2 y w -> drep2 (d2_addNC (d2_square c x) (d2_square c y)) (v * v + w * w).
Proof.
  assert (Bd : forall x v, rep2 x v -> (0 <= a2 (d2_square c x) /\ 4 * a2 (d2_square c x) <= 9 * (p * p) /\ 0 <= b2 (d2_square c x) <= 2 * (p * p))%Z).
  { intros x0 v0 [[X1 _] [X2 _]]. unfold d2_square, dbl_mul. cbv zeta. unfold can in X1, X2. pose proof (cp_lt_W c). pose proof (cp_pos c).
    rewrite (fp_addNC_small (b2 x0) (b2 x0)) by lia. rewrite (fp_addNC_small (a2 x0) p) by lia.
    rewrite (fp_addNC_small (a2 x0) (b2 x0)) by lia. rewrite fp_subNC_small by lia. cbn [a2 b2].
    set (a := a2 x0) in *. set (b := b2 x0) in *. clearbody a b.
    split; [nia|]. split; [|nia].
    pose proof (Z.square_nonneg (p - 2 * b)) as S1. assert (S2 : (0 <= (p - a) * (2 * p + a))%Z) by (apply Z.mul_nonneg_nonneg; lia).
    assert (S3 : (9 * (p * p) - 4 * ((a + b) * (a + p - b)) = (p - 2 * b) * (p - 2 * b) + 4 * ((p - a) * (2 * p + a)))%Z) by ring. lia. }
  intros Hx Hy. destruct (Bd x v Hx) as (A1 & A2 & A3). destruct (Bd y w Hy) as (B1 & B2 & B3).
  destruct (d2_square_rep c x v Hx) as [[_ C1] [_ C2]]. destruct (d2_square_rep c y w Hy) as [[_ D1] [_ D2]].
  set (sx := d2_square c x) in *. set (sy := d2_square c y) in *. clearbody sx sy. clear Bd Hx Hy.
  pose proof (pp_W c). pose proof (pW_W2' c). pose proof (cp_pos c). pose proof W_pos.
  assert (0 <= p * p)%Z by nia.
  unfold d2_addNC. rewrite !dbl_addNC_small by (unfold W2 in *; lia).
  split; cbn [a2 b2]; (split; [lia|]); rewrite dv_add; [rewrite C1, D1|rewrite C2, D2]; reflexivity.
Qed.
Lemma d2_sq_sq_rep' x y tx ty v w : tx = d2_square c x -> ty = d2_square c y -> rep2 x v -> rep2 y w -> drep2 (d2_addNC tx ty) (v * v + w * w).
Proof. intros -> ->. apply d2_sq_sq_rep. Qed.
Ltac stepK Q :=
  letI Q;
  let t := fresh "t" in let E := fresh "E" in
  intros t E; cbv beta;
  let H := fresh "R" in
  lazymatch type of E with
  | _ = f2_2z_add_3x _ _ _ => eassert (H : rep2 t _) by (rewrite E; apply f2_2z_add_3x_rep; hyp_rep)
  | _ = f2_3z_add_2x _ _ _ => eassert (H : rep2 t _) by (rewrite E; apply f2_3z_add_2x_rep; hyp_rep)
  | _ = f2_3t_sub_2zF _ _ _ => eassert (H : rep2 t _) by (rewrite E; apply f2_3t_sub_2zF_rep; hyp_rep)
  | _ = d2_addNC ?u ?v =>
      lazymatch goal with E1 : u = d2_square _ ?x, E2 : v = d2_square _ ?y, X1 : Fp2Proofs.rep2 _ ?x _, X2 : Fp2Proofs.rep2 _ ?y _ |- _ =>
        pose proof (d2_sq_sq_rep' _ _ _ _ _ _ E1 E2 X1 X2) as H; rewrite <- E in H end
  | _ => first [eassert (H : rep2 t _) by (rewrite E; rep_solve) | eassert (H : drep2 t _) by (rewrite E; rep_solve)]
  end.
Lemma cmp_square_rep z v : repC z v -> cyclo c v -> repC (cmp_square c z) (v * v).
Proof using HB.
  destruct z as [z2 z3 z4 z5], v as [[v0 v4 v3] [v2 v1 v5]]. intros [Z2 Z3 Z4 Z5] Cy. cbn [cg2 cg3 cg4 cg5 a2 b2 a3 b3 c3] in *.
  destruct (cyclo_eqs c v0 v1 v2 v3 v4 v5 Cy) as (R0 & R1 & R2 & R3 & R4 & R5).
  set (Q := fun r => repC r ((mk2 (mk3 v0 v4 v3) (mk3 v2 v1 v5) : K12 c) * mk2 (mk3 v0 v4 v3) (mk3 v2 v1 v5))).
  change (Q (cmp_square c (mkC z2 z3 z4 z5))).
  cbv beta iota delta [cmp_square cg2 cg3 cg4 cg5].
  do 4 (letI Q; intros ? ->; cbv beta).
  do 27 (stepK Q). subst Q. cbv beta. set (X := xi c) in *.
  constructor; cbn [cg2 cg3 cg4 cg5]; (eapply (rep2_eq c); [hyp_rep|]); unfold two, three; k12; k6; fold X; apply (rsub_eq (K2 c)).
  - transitivity ((1 + 1) * (v2 - (v0 * v2 + X * (v1 * v3) - X * (v4 * v5 + v4 * v5)))); [ring|]. rewrite R2. ring.
  - transitivity ((1 + 1) * (- v3 - (v0 * v3 + v1 * v2 - v4 * v4 - X * (v5 * v5)))); [ring|]. rewrite R3. ring.
  - transitivity ((1 + 1) * ((v2 * v2 + X * (v3 * v3) - v4) - (v0 * v4 + X * (v1 * v5)))); [ring|]. rewrite R4. ring.
  - transitivity ((1 + 1) * (v2 * v3 + v2 * v3 + v5 - (v0 * v5 + v1 * v4))); [ring|]. rewrite R5. ring.
Qed.
Lemma cmp_squareC_eq z v : repC z v -> cyclo c v -> repC (cmp_squareC c z) (v * v).
Proof using HB.
  destruct z as [z2 z3 z4 z5], v as [[v0 v4 v3] [v2 v1 v5]]. intros [Z2 Z3 Z4 Z5] Cy. cbn [cg2 cg3 cg4 cg5 a2 b2 a3 b3 c3] in *.
  destruct (cyclo_eqs c v0 v1 v2 v3 v4 v5 Cy) as (R0 & R1 & R2 & R3 & R4 & R5).
  set (Q := fun r => repC r ((mk2 (mk3 v0 v4 v3) (mk3 v2 v1 v5) : K12 c) * mk2 (mk3 v0 v4 v3) (mk3 v2 v1 v5))).
  change (Q (cmp_squareC c (mkC z2 z3 z4 z5))).
  cbv beta iota delta [cmp_squareC cg2 cg3 cg4 cg5].
  do 4 (letI Q; intros ? ->; cbv beta).
  do 29 (stepK Q). subst Q. cbv beta. set (X := xi c) in *.
  constructor; cbn [cg2 cg3 cg4 cg5]; (eapply (rep2_eq c); [hyp_rep|]); unfold two, three; k12; k6; fold X; apply (rsub_eq (K2 c)).
  - transitivity ((1 + 1) * (v2 - (v0 * v2 + X * (v1 * v3) - X * (v4 * v5 + v4 * v5)))); [ring|]. rewrite R2. ring.
  - transitivity ((1 + 1) * (- v3 - (v0 * v3 + v1 * v2 - v4 * v4 - X * (v5 * v5)))); [ring|]. rewrite R3. ring.
  - transitivity ((1 + 1) * ((v2 * v2 + X * (v3 * v3) - v4) - (v0 * v4 + X * (v1 * v5)))); [ring|]. rewrite R4. ring.
  - transitivity ((1 + 1) * (v2 * v3 + v2 * v3 + v5 - (v0 * v5 + v1 * v4))); [ring|]. rewrite R5. ring.
Qed.
End WithP.
End FP.
