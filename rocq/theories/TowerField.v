(** The tower Fp2 = Fp[u]/(u^2+1), Fp6 = Fp2[v]/(v^3-xi), Fp12 = Fp6[w]/(w^2-v) of each curve,
    and the fact that every level is a field. Independent of the code. *)
From Coq Require Import ZArith Znumtheory Zpow_facts Lia Ring.
From Verif Require Import Base Power PowerProofs Alg FpSpec Pock Cfg TowerSpec FpWit FpApiProofs.
Local Open Scope Z_scope.

(** u^2 = -1 *)
Definition K2 (c : cfg) : cring := quad (FpR (cp c)) (ropp ro).
(** xi = xi_a + xi_b u *)
Definition xi (c : cfg) : K2 c := mk2 (mk (cp c) (cxi_a c)) (mk (cp c) (cxi_b c)).
Definition K6 (c : cfg) : cring := cubic (K2 c) (xi c).
(** w^2 = v *)
Definition K12 (c : cfg) : cring := quad (K6 c) (kgen (K2 c)).

Section Norm.
Local Open Scope r_scope.
Variable c : cfg.
Local Notation K := (FpR (cp c)).
Add Ring FR : (rth (FpR (cp c))).
Definition n2 (x : K2 c) : FpR (cp c) := (a2 x * a2 x + b2 x * b2 x).
Lemma n2_mul (x y : K2 c) : n2 (x * y) = n2 x * n2 y.
Proof. destruct x as [xa xb], y as [ya yb]. unfold n2. cbn [rmul K2 quad qmul a2 b2]. ring. Qed.
End Norm.

(** N(xi)^((p-1)/6) is a primitive 6th root of unity: xi is neither a square nor a cube. *)
Definition nxi (c : cfg) : Z := cxi_a c * cxi_a c + 1.
Lemma h6_check c :
  let p := cp c in
  let h := powm (nxi c) p (Z.to_pos ((p - 1) / 6)) in
  (h * h) mod p <> 1 /\ (h * h * h) mod p <> 1 /\ 6 * ((p - 1) / 6) = p - 1.
Proof. destruct c; vm_compute; repeat split; discriminate. Qed.

Section Field.
Local Open Scope r_scope.
Variable c : cfg.
Local Notation p := (cp c).
Add Ring FR2 : (rth (FpR (cp c))).
Add Ring KR2 : (rth (K2 c)).

Lemma nxi_pow k : (0 < (p - 1) / 6)%Z -> (0 <= k)%Z ->
  (powm (nxi c) p (Z.to_pos ((p - 1) / 6)) ^ k) mod p = (nxi c ^ (k * ((p - 1) / 6))) mod p.
Proof.
  intros H Hk. rewrite powm_spec. rewrite Z2Pos.id by exact H.
  rewrite <- Zpower_mod by (pose proof (cp_pos c); lia). rewrite <- Z.pow_mul_r by lia. f_equal. f_equal. lia.
Qed.
Lemma n2_xi : n2 c (xi c) = mk p (nxi c).
Proof.
  unfold n2, xi, nxi. cbn [a2 b2 FpR radd rmul car]. unfold cxi_b.
  rewrite <- !mk_mul, <- mk_add. reflexivity.
Qed.
Lemma xi_not_power (n k : Z) (x : K2 c) : (0 < n)%Z -> (n * k = 6)%Z ->
  (powm (nxi c) p (Z.to_pos ((p - 1) / 6)) ^ k) mod p <> 1%Z -> rpw x (Z.to_nat n) <> xi c.
Proof.
  intros Hn Hk Hne E. apply Hne. destruct (h6_check c) as (_ & _ & H6).
  pose proof (cp_bounds c) as Hb. assert (H60 : (0 < (p - 1) / 6)%Z) by (apply Z.div_str_pos; lia).
  assert (Hk0 : (0 < k)%Z) by lia.
  rewrite nxi_pow by lia.
  assert (N : forall m, n2 c (rpw x m) = npow fmul f1 (n2 c x) m).
  { induction m as [|m IH].
    - unfold n2, rpw. cbn [npow ro K2 quad q1 a2 b2]. transitivity (1 : FpR p); [cbn [ro]; ring|reflexivity].
    - rewrite rpw_S, n2_mul, IH. reflexivity. }
  pose proof (N (Z.to_nat n)) as N1. rewrite E, n2_xi in N1.
  assert (Ep : mk p (nxi c ^ (k * ((p - 1) / 6))) = f1).
  { rewrite mk_pow by lia. rewrite N1, npow_npow.
    replace (Z.to_nat n * Z.to_nat (k * ((p - 1) / 6)))%nat with (Z.to_nat (p - 1)).
    2:{ rewrite <- Z2Nat.inj_mul by lia. f_equal. rewrite Z.mul_assoc, Hk. lia. }
    apply (fermat1 p (cp_prime c)). intros E0. rewrite E0 in N1.
    replace (Z.to_nat n) with (S (Z.to_nat (n - 1))) in N1 by lia.
    cbn [npow] in N1. unfold f0 in N1. rewrite <- (mk_zv _ (npow fmul f1 (mk p 0) (Z.to_nat (n - 1)))) in N1.
    rewrite <- mk_mul in N1. apply mk_eq in N1. rewrite Z.mul_0_l, Zmod_0_l in N1.
    unfold nxi, cxi_a in N1. rewrite Z.mod_small in N1 by (destruct c; lia). destruct c; lia. }
  apply mk_eq in Ep. rewrite Ep. apply Z.mod_small. lia.
Qed.
Lemma xi_nonsquare (x : K2 c) : x * x <> xi c.
Proof.
  intros E. apply (xi_not_power 2 3 x); [lia|lia| |].
  - destruct (h6_check c) as (_ & H & _). intros E2. apply H. etransitivity; [|exact E2]. f_equal. ring.
  - change (Z.to_nat 2) with 2%nat. rewrite rpw_2. exact E.
Qed.
Lemma xi_noncube (x : K2 c) : x * x * x <> xi c.
Proof.
  intros E. apply (xi_not_power 3 2 x); [lia|lia| |].
  - destruct (h6_check c) as (H & _ & _). intros E2. apply H. etransitivity; [|exact E2]. f_equal. ring.
  - change (Z.to_nat 3) with 3%nat. rewrite <- E. unfold rpw. cbn [npow]. ring.
Qed.

Lemma K1_field : is_field (FpR p).
Proof. apply FpR_field, cp_prime. Qed.
Lemma K2_field : is_field (K2 c).
Proof.
  apply quad_field; [apply K1_field|]. intros x. apply (m1_nonsquare c).
Qed.
Lemma K6_field : is_field (K6 c).
Proof. apply cubic_field; [apply K2_field|apply xi_noncube]. Qed.
Lemma K12_field : is_field (K12 c).
Proof.
  apply quad_field; [apply K6_field|]. intros x. apply kgen_nonsquare. apply xi_nonsquare.
Qed.
End Field.
