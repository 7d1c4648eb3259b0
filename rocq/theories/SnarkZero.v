(** final_exp(0) = 0 on the SNARK curves: the inverse of 0 is taken as 0 and no step leaves 0. *)
From Coq Require Import ZArith Lia Ring List Bool.
From Verif Require Import Base FpSpec Cfg FpM FpProofs TowerSpec TowerField TowerM Fp2Proofs Fp6Proofs Frob ParamM ParamProofs FinalM FinalProofs FinalExp TowerApi SnarkPow SnarkRun SnarkSmall SnarkFinal.
Import ListNotations.
Local Open Scope Z_scope.

Section Zero.
Variable c : cfg.
Add Ring KRz2 : (rth (K2 c)).
Add Ring KRz12 : (rth (K12 c)).
Lemma zero12 x v : rep12 c x v -> v = rz -> x = f12_0.
Proof using. intros H ->. exact (rep12_inj c _ _ _ H (f12_0_rep c)). Qed.
Lemma half_0 : half6 c (a2 f12_0) /\ half6 c (b2 f12_0).
Proof using. assert (H : 25 * 0 <= 11 * cp c) by (pose proof (cp_pos c); lia). repeat split; exact H. Qed.
Lemma mul_00 : f12_mul c f12_0 f12_0 = f12_0.
Proof using. apply (zero12 _ _ (f12_mul_half c _ _ _ _ (f12_0_rep c) (f12_0_rep c) (or_introl half_0))). ring. Qed.
Lemma conj_0 : f12_conj c f12_0 = f12_0.
Proof using. apply (zero12 _ _ (f12_conj_rep c _ _ (f12_0_rep c))). rewrite <- fr12_6. apply rpz_zero. apply Z.pow_pos_nonneg; [apply cp_pos|discriminate]. Qed.
Lemma zero2 x v : rep2 c x v -> v = rz -> rep2 c x rz.
Proof using. intros H ->. exact H. Qed.
Lemma sqru_0 : f12_sqru c f12_0 = f12_0.
Proof using.
  apply (zero12 _ rz); [|reflexivity]. pose proof (f12_0_rep c) as H. revert H. generalize f12_0. intros x.
  destruct x as [[x0 x4 x3] [x2 x1 x5]]. intros [(X0 & X4 & X3) (X2 & X1 & X5)]. cbn [a2 b2 a3 b3 c3] in *.
  unfold f12_sqru. cbv zeta. cbn [a2 b2 a3 b3 c3].
  destruct (sq_Fp4_rep c _ _ _ _ X0 X1) as [A1 A2]. destruct (sq_Fp4 c x0 x1) as [t0 t1].
  destruct (sq_Fp4_rep c _ _ _ _ X2 X3) as [B1 B2]. destruct (sq_Fp4 c x2 x3) as [t2 t3].
  destruct (sq_Fp4_rep c _ _ _ _ X4 X5) as [C1 C2]. destruct (sq_Fp4 c x4 x5) as [t4 t5].
  cbn [fst snd] in *.
  apply rep12_mk; apply rep6_mk.
  - eapply (zero2 _ _ (f2_3t_sub_2z_rep c _ _ _ _ A1 X0)). unfold two, three. change (a3 (a2 (rz : K12 c))) with (rz : K2 c). change (b3 (b2 (rz : K12 c))) with (rz : K2 c). ring.
  - eapply (zero2 _ _ (f2_3t_sub_2z_rep c _ _ _ _ B1 X4)). unfold two, three. change (b3 (a2 (rz : K12 c))) with (rz : K2 c). change (a3 (b2 (rz : K12 c))) with (rz : K2 c). change (c3 (a2 (rz : K12 c))) with (rz : K2 c). ring.
  - eapply (zero2 _ _ (f2_3t_sub_2z_rep c _ _ _ _ C1 X3)). unfold two, three. change (b3 (a2 (rz : K12 c))) with (rz : K2 c). change (c3 (b2 (rz : K12 c))) with (rz : K2 c). change (c3 (a2 (rz : K12 c))) with (rz : K2 c). ring.
  - eapply (zero2 _ _ (f2_3t_add_2z_rep c _ _ _ _ (f2_mul_xi_rep c _ _ C2) X2)). unfold two, three. change (b3 (a2 (rz : K12 c))) with (rz : K2 c). change (c3 (b2 (rz : K12 c))) with (rz : K2 c). change (a3 (b2 (rz : K12 c))) with (rz : K2 c). ring.
  - eapply (zero2 _ _ (f2_3t_add_2z_rep c _ _ _ _ A2 X1)). unfold two, three. change (a3 (a2 (rz : K12 c))) with (rz : K2 c). change (b3 (b2 (rz : K12 c))) with (rz : K2 c). ring.
  - eapply (zero2 _ _ (f2_3t_add_2z_rep c _ _ _ _ B2 X5)). unfold two, three. change (a3 (b2 (rz : K12 c))) with (rz : K2 c). change (c3 (a2 (rz : K12 c))) with (rz : K2 c). change (c3 (b2 (rz : K12 c))) with (rz : K2 c). ring.
Qed.
Lemma last6_0 x : last6 f6_0 x = 0. Proof using. reflexivity. Qed.
Lemma pw0 : 0 < cp c * W. Proof using. rewrite W_val. pose proof (cp_pos c). lia. Qed.
Lemma inv_0 : f12_inverse c f12_0 = Ok f12_0.
Proof using.
  pose proof (nrm_rep c _ _ (f12_0_rep c)) as RN. destruct (f6_inverse_rep c _ _ RN) as (n & wn & En & Rn & _ & _).
  assert (I : in6 c f6_0 n) by (apply (in6_iff c _ _ _ _ (proj1 (f12_0_rep c)) Rn); change (last6 f6_0 n < cp c * W); rewrite last6_0; exact pw0).
  apply in6b_ok in I.
  assert (C : exists y, cinverse c f12_0 = Some y).
  { unfold cinverse. cbv zeta. unfold nrm in En. cbv zeta in En. rewrite En. unfold cmul6. change (a2 f12_0) with f6_0. change (b2 f12_0) with f6_0. rewrite I. eexists. reflexivity. }
  destruct C as (y & Ey). destruct (cinverse_ok c _ _ _ (f12_0_rep c) Ey) as (w & E & R & _ & Hw). rewrite E. f_equal. exact (zero12 _ _ R (Hw eq_refl)).
Qed.
Lemma loop_0 l : pow_neg_loop c l f12_0 f12_0 f12_0 = f12_0.
Proof using.
  induction l as [|d l IH]; [reflexivity|]. cbn [pow_neg_loop]. rewrite sqru_0, mul_00. destruct (0 <? d), (d <? 0); exact IH.
Qed.
Variable P : param.
Hypothesis HI : paramInit (snark c) (curveOf c) = Ok P.
Hypothesis HS : snark c = true.
Lemma of_rep x n : rep12 c x (rpz rz n) -> 0 < n -> x = f12_0.
Proof using. intros H N. rewrite rpz_zero in H by exact N. exact (rep12_inj c _ _ _ H (f12_0_rep c)). Qed.
Lemma frob_0 : f12_frob c P f12_0 = f12_0.
Proof using HI. apply (of_rep _ _ (f12_frob_rep c P (param_par_ok c P HI) _ _ (f12_0_rep c))). exact (cp_pos c). Qed.
Lemma frob2_0 : f12_frob2 c P f12_0 = f12_0.
Proof using HI. apply (of_rep _ _ (f12_frob2_rep c P (param_par_ok c P HI) _ _ (f12_0_rep c))). apply Z.pow_pos_nonneg; [apply cp_pos|discriminate]. Qed.
Lemma frob3_0 : f12_frob3 c P f12_0 = f12_0.
Proof using HI. apply (of_rep _ _ (f12_frob3_rep c P (param_par_ok c P HI) _ _ (f12_0_rep c))). apply Z.pow_pos_nonneg; [apply cp_pos|discriminate]. Qed.
Lemma powz_0 : f12_powz c P f12_0 = Ok f12_0.
Proof using HS. unfold f12_powz. rewrite HS. unfold f12_pow_neg_t. rewrite conj_0, loop_0, conj_0. reflexivity. Qed.
Lemma sfexp_zero x : rep12 c x rz -> f12_final_exp c P x = Ok x.
Proof using HI HS.
  intros Hx. rewrite (rep12_inj c _ _ _ Hx (f12_0_rep c)). unfold f12_final_exp, f12_mapToCyclo. rewrite conj_0, inv_0. cbn [bind].
  rewrite mul_00, frob2_0, mul_00, powz_0. cbn [bind]. rewrite !sqru_0, mul_00, powz_0. cbn [bind]. rewrite sqru_0, powz_0. cbn [bind].
  rewrite conj_0. rewrite !mul_00, frob_0, !mul_00, frob2_0, !mul_00, frob3_0, mul_00. reflexivity.
Qed.
End Zero.
