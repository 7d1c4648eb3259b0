(** The map x -> x^N computed by the final exponentiation, as a homomorphism that kills
    proper subfields. *)
From Coq Require Import ZArith Znumtheory Lia Ring List.
From Verif Require Import Base FpSpec Cfg FpProofs TowerSpec TowerField Frob FinalProofs TowerApi Poly EcInst EcFrob.
Local Open Scope Z_scope.

Definition NN (c : cfg) : Z := (cp c ^ 12 - 1) / cr c * fexp_mult c.
Definition NM (c : cfg) : Z := (cp c ^ 6 + 1) / cr c * fexp_mult c.
Lemma cr_dvd6 c : cr c * ((cp c ^ 6 + 1) / cr c) = cp c ^ 6 + 1.
Proof.
  symmetry. apply Z_div_exact_full_2; [pose proof (cr_prime c) as [? _]; lia|]. destruct c; vm_compute; reflexivity.
Qed.
Lemma cp6_pos c : 1 <= cp c ^ 6. Proof. pose proof (cp_pos c). pose proof (Z.pow_pos_nonneg (cp c) 6). lia. Qed.
Lemma cr_pos c : 0 < cr c. Proof. pose proof (cr_prime c) as [? _]. lia. Qed.
Lemma NM_pos c : 0 <= NM c.
Proof.
  unfold NM. pose proof (cr_pos c). pose proof (cp6_pos c). apply Z.mul_nonneg_nonneg; [apply Z.div_pos; lia|]. pose proof (fexp_mult_range c). lia.
Qed.
Lemma NN_eq c : NN c = (cp c ^ 6 - 1) * NM c.
Proof.
  unfold NN, NM. pose proof (cr_dvd c) as D. pose proof (cr_dvd6 c) as D6. pose proof (cr_pos c).
  assert (E : (cp c ^ 12 - 1) / cr c = (cp c ^ 6 - 1) * ((cp c ^ 6 + 1) / cr c)).
  { apply (Z.mul_reg_l _ _ (cr c)); [lia|]. rewrite D. replace (cr c * ((cp c ^ 6 - 1) * ((cp c ^ 6 + 1) / cr c))) with ((cp c ^ 6 - 1) * (cr c * ((cp c ^ 6 + 1) / cr c))) by ring.
    rewrite D6. replace (cp c ^ 12) with (cp c ^ 6 * cp c ^ 6) by (rewrite <- Z.pow_add_r by lia; reflexivity). ring. }
  rewrite E. ring.
Qed.
Lemma NN_pos c : 0 <= NN c.
Proof. rewrite NN_eq. pose proof (NM_pos c). pose proof (cp6_pos c). apply Z.mul_nonneg_nonneg; lia. Qed.
Lemma NN_r c : NN c * cr c = (cp c ^ 12 - 1) * fexp_mult c.
Proof. unfold NN. pose proof (cr_dvd c) as D. rewrite <- D at 2. ring. Qed.

Lemma cr_odd c : cr c mod 2 = 1. Proof. destruct c; vm_compute; reflexivity. Qed.
Section PairE.
Local Open Scope r_scope.
Variable c : cfg.
Local Notation p := (cp c).
Add Ring KRq : (rth (K2 c)).
Add Ring KR6q : (rth (K6 c)).
Add Ring KR12q : (rth (K12 c)).
Ltac k6 := cbn [radd rmul rsub ropp rz ro K6 cubic kadd ksub kopp kmul k0 k1 kgen a3 b3 c3].
Ltac k12 := cbn [radd rmul rsub ropp rz ro K12 quad qadd qsub qopp qmul q0 q1 a2 b2].
Definition E (x : K12 c) : K12 c := rpz x (NN c).
Lemma E_mul x y : E (x * y) = E x * E y. Proof. apply rpz_mulb. Qed.
Lemma E_1 : E 1 = 1. Proof. apply rpz_one. Qed.
Lemma mul12_nz (x y : K12 c) : x <> 0 -> y <> 0 -> x * y <> 0.
Proof. intros Hx Hy F. apply (field_integral _ (K12_field c)) in F as [F|F]; contradiction. Qed.
Lemma rpow12 (v : K12 c) : v <> 0 -> rpz v (p ^ 12 - 1)%Z = 1.
Proof.
  intros N. assert (1 <= p ^ 12)%Z. { pose proof (cp_pos c). pose proof (Z.pow_pos_nonneg p 12). lia. }
  apply (field_cancel _ (K12_field c) v); [exact N|]. rewrite <- (rpz_1 _ v) at 1. rewrite <- rpz_add by lia.
  replace (1 + (p ^ 12 - 1))%Z with (p ^ 12)%Z by ring. rewrite fr12_12. ring.
Qed.
Lemma E_r x : x <> 0 -> rpz (E x) (cr c) = 1.
Proof.
  intros Hx. unfold E. pose proof (cr_pos c). rewrite <- rpz_mul by (try apply NN_pos; lia). rewrite NN_r.
  pose proof (fexp_mult_range c). assert (1 <= p ^ 12)%Z. { pose proof (cp_pos c). pose proof (Z.pow_pos_nonneg p 12). lia. }
  rewrite rpz_mul by lia. rewrite rpow12 by exact Hx. apply rpz_one.
Qed.
Lemma e12_mul x y : e12 c (x * y) = e12 c x * e12 c y.
Proof. apply F2_eq; unfold e12; k12; ring. Qed.
Lemma E_6 k : k <> 0 -> E (e12 c k) = 1.
Proof.
  intros Hk. unfold E. rewrite NN_eq. pose proof (cp6_pos c). rewrite rpz_mul by (try apply NM_pos; lia).
  assert (T : rpz (e12 c k) (p ^ 6 - 1)%Z = 1); [|rewrite T; apply rpz_one].
  assert (N : e12 c k <> 0) by (intros F; apply Hk; exact (f_equal a2 F)).
  apply (field_cancel _ (K12_field c) (e12 c k) _ _ N). rewrite <- (rpz_1 _ (e12 c k)) at 1. rewrite <- rpz_add by lia.
  replace (1 + (p ^ 6 - 1))%Z with (p ^ 6)%Z by ring. rewrite fr12_6. apply F2_eq; unfold conj12, e12; k12; ring.
Qed.
Lemma e6_nz k : k <> 0 -> e6 c k <> 0. Proof. intros H F. apply H. exact (f_equal a3 F). Qed.
Lemma E_2 k : k <> 0 -> E (e212 c k) = 1.
Proof. intros H. apply E_6, e6_nz, H. Qed.
Lemma E_conj x : x <> 0 -> E x * E (conj12 c x) = 1.
Proof.
  intros Hx. rewrite <- E_mul. set (n := qnorm (K6 c) (kgen (K2 c)) x).
  assert (En : x * conj12 c x = e12 c n). { apply F2_eq; unfold conj12, e12, n, qnorm; k12; ring. }
  rewrite En. apply E_6. intros F. rewrite F in En. assert (Z : x * conj12 c x = 0) by (rewrite En; reflexivity).
  apply (field_integral _ (K12_field c)) in Z as [Z|Z]; [contradiction|]. apply Hx. apply F2_eq; [exact (f_equal a2 Z)|].
  pose proof (f_equal b2 Z) as Y. cbn [b2 conj12] in Y. change (- b2 x = 0 :> K6 c) in Y. change (b2 x = 0 :> K6 c). transitivity (- - b2 x); [ring|rewrite Y; ring].
Qed.
Lemma E_fr x : E (rpz x p) = rpz (E x) p.
Proof. unfold E. pose proof (cp_pos c). rewrite <- !rpz_mul by (try apply NN_pos; lia). f_equal. ring. Qed.
Lemma E_nz x : x <> 0 -> E x <> 0.
Proof. intros H. apply (field_pow_nz _ (K12_field c)), H. Qed.
(** a square root of something killed is killed, r being odd *)
Lemma E_sq x : x <> 0 -> E (x * x) = 1 -> E x = 1.
Proof.
  intros Hx H. pose proof (E_r x Hx) as R. rewrite E_mul in H. pose proof (cr_pos c).
  assert (O : (cr c = 2 * (cr c / 2) + 1)%Z). { pose proof (Z.div_mod (cr c) 2). pose proof (cr_odd c). lia. }
  assert (0 <= cr c / 2)%Z by (apply Z.div_pos; lia). rewrite O in R. rewrite rpz_add, rpz_mul, rpz_2, rpz_1 in R by lia.
  rewrite H, rpz_one in R. transitivity (1 * E x); [ring|exact R].
Qed.
Lemma iw_nz : iw c <> 0.
Proof. intros F. pose proof (f_equal b2 F) as G. apply (field_nz _ (K6_field c)). exact G. Qed.
Definition w3 : K12 c := iw c * iw c * iw c.
Lemma w3_nz : w3 <> 0. Proof. unfold w3. auto using mul12_nz, iw_nz. Qed.
Lemma E_w3 : E w3 = 1.
Proof. apply E_sq; [exact w3_nz|]. unfold w3. rewrite w6. apply E_2, xi_nz. Qed.
Lemma E_w : E (iw c) = 1 .
Proof. apply E_sq; [exact iw_nz|]. replace (iw c * iw c) with (e12 c (iv c)) by (apply F2_eq; apply F3_eq; unfold iw, e12, iv; k12; k6; ring). apply E_6.
  intros F. apply (field_nz _ (K2_field c)). exact (f_equal b3 F).
Qed.
End PairE.
