(** A checked run of final_exp that goes through: the element 2 on either SNARK curve. *)
From Coq Require Import ZArith Znumtheory List Bool Lia Ring.
From Verif Require Import Base Prim Loop Power Alg FpSpec Cfg FpM FpProofs TowerSpec TowerField TowerM Fp2Proofs Fp6Proofs Frob ParamM ParamProofs FinalM FinalProofs FinalExp TowerApi TowerWit SnarkPow SnarkRun SnarkFinal EcSpec EcM EcInst EcApi.
Import ListNotations.
Local Open Scope Z_scope.

Definition i6 (c : cfg) (a : Z) : fp6 := mk3 (mk2 (rr c a) 0%Z) f2_0 f2_0.
Definition i12 (c : cfg) (a : Z) : fp12 := mk2 (i6 c a) f6_0.
Definition hf (c : cfg) : Z := ((cp c + 1) / 2)%Z.
Section Two.
Variables (c : cfg) (P : param).
Hypothesis HI : paramInit (snark c) (curveOf c) = Ok P.
Hypothesis HS : snark c = true.
Let HP : par_ok c P := param_par_ok c P HI.
Add Ring KRw2 : (rth (K2 c)).
Add Ring KRw1 : (rth (FpR (cp c))).
Add Ring KRw : (rth (K12 c)).
Local Open Scope r_scope.
Local Notation i6 := (i6 c). Local Notation i12 := (i12 c). Local Notation hf := (hf c).
Definition e6 (a : FpR (cp c)) : K6 c := mk3 (mk2 a 0 : K2 c) 0 0.
Definition e12 (a : FpR (cp c)) : K12 c := mk2 (e6 a) 0.
Lemma i6_rep a : rep6 c (i6 a) (e6 (mk (cp c) a)).
Proof.
  apply rep6_mk; [|apply f2_0_rep|apply f2_0_rep]. apply rep2_can2.
  split; [split; [apply can_rr|unfold can; cbn; pose proof (cp_pos c); lia]|]. unfold f2v. cbn [a2 b2]. rewrite fv_rr, fv_0. reflexivity.
Qed.
Lemma i12_rep a : rep12 c (i12 a) (e12 (mk (cp c) a)).
Proof. apply rep12_mk; [apply i6_rep|apply f6_0_rep]. Qed.
Lemma e2_mul (a b : FpR (cp c)) : (mk2 a 0 : K2 c) * mk2 b 0 = mk2 (a * b) 0.
Proof. apply F2_eq; cbn [rmul K2 quad qmul a2 b2]; ring. Qed.
Lemma e6_mul a b : e6 a * e6 b = e6 (a * b).
Proof.
  unfold e6. rewrite <- e2_mul. generalize (mk2 a 0 : K2 c), (mk2 b 0 : K2 c). intros u v.
  apply F3_eq; cbn [radd rmul rsub ropp rz ro K6 cubic kadd ksub kopp kmul k0 k1 kgen a3 b3 c3]; ring.
Qed.
Add Ring KRw6 : (rth (K6 c)).
Lemma e12_mul a b : e12 a * e12 b = e12 (a * b).
Proof. unfold e12. rewrite <- e6_mul. generalize (e6 a), (e6 b). intros u v. apply F2_eq; cbn [rmul K12 quad qmul a2 b2]; ring. Qed.
Lemma nrmv_e a : nrmv c (e12 a) = e6 (a * a).
Proof. unfold nrmv, e12. cbn [a2 b2]. rewrite e6_mul. ring. Qed.
Lemma e12_1 : e12 (mk (cp c) 1) = 1. Proof. reflexivity. Qed.
Lemma e6_1 : e6 (mk (cp c) 1) = 1. Proof. reflexivity. Qed.
Lemma hf2 : (2 * hf = cp c + 1)%Z.
Proof. unfold SnarkWit.hf. clear HP HI. destruct c; [discriminate HS| |]; vm_compute; reflexivity. Qed.
Lemma mul_hf x y : (x * y = (cp c + 1) \/ x * y = (cp c + 1) * (cp c + 1))%Z -> (mk (cp c) x : FpR (cp c)) * mk (cp c) y = mk (cp c) 1.
Proof.
  intros H. cbn [rmul FpR]. rewrite <- mk_mul. apply mk_eq. pose proof (cp_bounds c) as Bd. destruct H as [-> | ->].
  - replace (cp c + 1)%Z with (1 + 1 * cp c)%Z by ring. apply Z_mod_plus_full.
  - replace ((cp c + 1) * (cp c + 1))%Z with (1 + (cp c + 2) * cp c)%Z by ring. apply Z_mod_plus_full.
Qed.
Notation o := (f12_1 c).
Notation x2 := (i12 2).
Lemma o_in : in12 c o o.
Proof. unfold in12, in6. rewrite <- !Z.ltb_lt. clear HP HI. split; [|split]; (destruct c; [discriminate HS| |]; vm_compute; reflexivity). Qed.
Lemma o_mul : cmul c o o = Some o.
Proof.
  pose proof o_in as I. unfold cmul. rewrite (proj2 (in12b_ok c o o) I). f_equal.
  apply (rep12_inj c _ _ _ (f12_mul_in c _ _ _ _ I (f12_1_rep c) (f12_1_rep c))). rewrite one_one. apply f12_1_rep.
Qed.
Lemma o_conj : f12_conj c o = o.
Proof. apply (rep12_inj c _ _ _ (f12_conj_rep c _ _ (f12_1_rep c))). rewrite conj12_1. apply f12_1_rep. Qed.
Lemma o_sqru : f12_sqru c o = o.
Proof. apply (rep12_inj c _ _ _ (f12_sqru_rep c _ _ (f12_1_rep c) (cyclo_1 c))). rewrite one_one. apply f12_1_rep. Qed.
Lemma o_frob x n : rep12 c x (rpz 1 n) -> x = o.
Proof. intros H. apply (rep12_inj c _ _ _ H). rewrite rpz_one. apply f12_1_rep. Qed.
Lemma o_pow : cpow c P o = Some o.
Proof.
  unfold cpow. rewrite o_conj. assert (L : forall l, cpow_loop c l o o o = Some o).
  { induction l as [|d l IH]; [reflexivity|]. cbn [cpow_loop]. cbv zeta. rewrite o_sqru, o_mul. destruct (0 <? d)%Z, (d <? 0)%Z; exact IH. }
  rewrite L, o_conj. reflexivity.
Qed.
Lemma x2_map : cmapToCyclo c P x2 = Some o.
Proof.
  pose proof (i12_rep 2) as R2. pose proof hf2 as H2.
  assert (I1 : in6 c (a2 x2) (i6 (hf * hf)) /\ in6 c (b2 x2) (i6 (hf * hf)) /\ in12 c x2 (i12 hf)).
  { unfold in12, in6. rewrite <- !Z.ltb_lt. clear -HS. split; [|split; [|split; [|split]]]; (destruct c; [discriminate HS| |]; vm_compute; reflexivity). }
  destruct I1 as (I1 & I2 & I3).
  assert (E4 : e6 (mk (cp c) (hf * hf)) * nrmv c (e12 (mk (cp c) 2)) = 1).
  { rewrite nrmv_e, e6_mul. rewrite <- e6_1. f_equal. change ((mk (cp c) 2 : FpR (cp c)) * mk (cp c) 2) with (fmul (mk (cp c) 2) (mk (cp c) 2)). rewrite <- mk_mul.
    apply mul_hf. right. rewrite <- H2. ring. }
  destruct (cinverse_some c x2 _ _ _ R2 (i6_rep (hf * hf)) E4 I1 I2) as (y & Ey).
  destruct (cinverse_ok c x2 _ y R2 Ey) as (w & _ & Ry & Hw & _).
  assert (E2 : e12 (mk (cp c) hf) * e12 (mk (cp c) 2) = 1) by (rewrite e12_mul, <- e12_1; f_equal; apply mul_hf; left; rewrite <- H2; ring).
  assert (N : e12 (mk (cp c) 2) <> 0) by (intros F; rewrite F in E2; apply (field_nz _ (K12_field c)); rewrite <- E2; ring).
  assert (w = e12 (mk (cp c) hf)). { apply (field_cancel _ (K12_field c) _ _ _ N). transitivity (w * e12 (mk (cp c) 2)); [ring|]. rewrite (Hw N), <- E2. ring. }
  subst w. assert (y = i12 hf) by exact (rep12_inj c _ _ _ Ry (i12_rep hf)). subst y.
  assert (C2 : f12_conj c x2 = x2).
  { apply (rep12_inj c _ _ _ (f12_conj_rep c _ _ R2)). eapply (rep12_eq c); [exact R2|]. unfold conj12, e12. cbn [a2 b2]. f_equal. }
  unfold cmapToCyclo. cbv zeta. rewrite Ey, C2. unfold cmul at 1. rewrite (proj2 (in12b_ok c _ _) I3).
  assert (M : f12_mul c x2 (i12 hf) = o).
  { apply (rep12_inj c _ _ _ (f12_mul_in c _ _ _ _ I3 R2 (i12_rep hf))). eapply (rep12_eq c); [apply f12_1_rep|]. rewrite <- E2. ring. }
  rewrite M. rewrite (o_frob _ _ (f12_frob2_rep c P HP _ _ (f12_1_rep c))). exact o_mul.
Qed.
Lemma x2_final : cfinal c P x2 = Some o.
Proof.
  pose proof (o_frob _ _ (f12_frob_rep c P HP _ _ (f12_1_rep c))) as F1. pose proof (o_frob _ _ (f12_frob2_rep c P HP _ _ (f12_1_rep c))) as F2.
  pose proof (o_frob _ _ (f12_frob3_rep c P HP _ _ (f12_1_rep c))) as F3.
  unfold cfinal. rewrite x2_map. cbv zeta.
  repeat first [rewrite o_pow | rewrite o_sqru | rewrite o_mul | rewrite o_conj | rewrite F1 | rewrite F2 | rewrite F3].
  reflexivity.
Qed.
Lemma o_final : cfinal c P (i12 1) = Some o.
Proof.
  pose proof (i12_rep 1) as R1. rewrite e12_1 in R1. assert (Eo : i12 1 = o) by exact (rep12_inj c _ _ _ R1 (f12_1_rep c)).
  assert (I1 : in6 c (a2 (i12 1)) (i6 1) /\ in6 c (b2 (i12 1)) (i6 1)).
  { unfold in6. rewrite <- !Z.ltb_lt. clear -HS. split; (destruct c; [discriminate HS| |]; vm_compute; reflexivity). }
  destruct I1 as (I1 & I2).
  assert (E4 : e6 (mk (cp c) 1) * nrmv c (e12 (mk (cp c) 1)) = 1).
  { rewrite nrmv_e, e6_mul. rewrite <- e6_1. f_equal. change (mk (cp c) 1) with (1 : FpR (cp c)). ring. }
  pose proof (i12_rep 1) as R1'.
  destruct (cinverse_some c (i12 1) _ _ _ R1' (i6_rep 1) E4 I1 I2) as (y & Ey).
  destruct (cinverse_ok c (i12 1) _ y R1 Ey) as (w & _ & Ry & Hw & _).
  assert (w = 1) by (rewrite <- (Hw (field_nz _ (K12_field c))); ring). subst w.
  assert (y = o) by exact (rep12_inj c _ _ _ Ry (f12_1_rep c)). subst y. rewrite Eo in *.
  pose proof (o_frob _ _ (f12_frob_rep c P HP _ _ (f12_1_rep c))) as F1. pose proof (o_frob _ _ (f12_frob2_rep c P HP _ _ (f12_1_rep c))) as F2.
  pose proof (o_frob _ _ (f12_frob3_rep c P HP _ _ (f12_1_rep c))) as F3.
  unfold cfinal, cmapToCyclo. cbv zeta. rewrite Ey.
  repeat first [rewrite o_pow | rewrite o_sqru | rewrite o_mul | rewrite o_conj | rewrite F1 | rewrite F2 | rewrite F3].
  reflexivity.
Qed.
End Two.
Lemma cfinal_ex c P : paramInit (snark c) (curveOf c) = Ok P -> snark c = true -> exists x v y, rep12 c x v /\ v <> rz /\ v <> ro /\ cfinal c P x = Some y.
Proof.
  intros HI HS. exists (i12 c 2), (e12 c (mk (cp c) 2)), (f12_1 c). split; [apply i12_rep; assumption|]. pose proof (cp_bounds c) as Bd.
  pose proof (x2_final c P HI HS) as XF.
  split; [|split; [|exact XF]]; intros F; apply (f_equal (fun v => a2 (a3 (a2 v)))) in F.
  - change (mk (cp c) 2 = mk (cp c) 0) in F. apply mk_eq in F. rewrite !Z.mod_small in F by lia. discriminate F.
  - change (mk (cp c) 2 = mk (cp c) 1) in F. apply mk_eq in F. rewrite !Z.mod_small in F by lia. discriminate F.
Qed.
