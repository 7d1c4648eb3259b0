(** E has no points of order two; scalar multiplication by a negative int. *)
From Coq Require Import ZArith Znumtheory Lia List Bool Ring.
From Verif Require Import Base Vuint Power Alg FpSpec Pock Cfg FpM FpProofs TowerSpec TowerField TowerM Fp2Proofs Frob ParamM Poly EcSpec EcGroup EcM EcProofs EcInst EcApi.
Import ListNotations.
Local Open Scope Z_scope.

Lemma nb_check c : powm (cp c - cb c) (cp c) (Z.to_pos ((cp c - 1) / 3)) mod cp c <> 1.
Proof. destruct c; vm_compute; intros E; discriminate E. Qed.
Section Tors.
Variable c : cfg.
Local Notation p := (cp c).
Add Ring FRv : (rth (FpR (cp c))).
Local Open Scope r_scope.
(** -b is not a cube *)
Lemma nb_noncube (x : FpR p) : x * x * x <> - (mk p (cb c) : FpR p).
Proof.
  intros E. apply (nb_check c). pose proof (p6 c). pose proof (p6_pos c). set (k := ((p - 1) / 6)%Z) in *.
  assert (E3 : ((p - 1) / 3 = 2 * k)%Z) by (symmetry; apply Z.div_unique_exact; lia). rewrite E3.
  rewrite powm_spec, Z2Pos.id, Zmod_mod by lia.
  assert (X : mk p (p - cb c) = rpw x 3).
  { transitivity (- (mk p (cb c) : FpR p)).
    - change (mk p (p - cb c) = fopp (mk p (cb c))). rewrite <- mk_opp. apply mk_eq. replace (p - cb c)%Z with (- cb c + 1 * p)%Z by ring. apply Z.mod_add. pose proof (cp_pos c). lia.
    - rewrite <- E. rewrite !rpw_S, rpw_0. change ((x * x * x : FpR p) = x * (x * (x * 1))). ring. }
  assert (Y : mk p ((p - cb c) ^ (2 * k)) = f1).
  { rewrite mk_pow by lia. change (rpw (mk p (p - cb c) : FpR p) (Z.to_nat (2 * k)) = (1 : FpR p)). rewrite X, <- rpw_mul. replace (3 * Z.to_nat (2 * k))%nat with (Z.to_nat (p - 1)) by lia.
    apply (fermat1 p (cp_prime c)). intros E0. change (x = (0 : FpR p)) in E0. rewrite E0 in E. apply (cb1_nz c). unfold cb1. revert E. generalize (mk p (cb c)). clear. intros b. change (car (FpR p)) in b. intros E. change (@eq (FpR p) b 0).
    transitivity (- - (b : FpR p)); [ring|]. rewrite <- E. ring. }
  apply mk_eq in Y. rewrite Y. apply Z.mod_small. pose proof (cp_bounds c). lia.
Qed.
Lemma opp_2 (y : FpR p) : y = - y -> (1 + 1) * y = 0.
Proof. intros E. transitivity (y + y); [ring|]. rewrite E at 2. ring. Qed.
Lemma cube_b (x y b : FpR p) : y = 0 -> y * y = x * x * x + b -> x * x * x = - b.
Proof. intros -> E. transitivity (x * x * x + b - b); [ring|]. rewrite <- E. ring. Qed.
Local Notation K := (FpF c).
Local Notation onE := (onE G1 c).
Lemma no_2tors (P : ecpt K) : onE P -> ec_add K P P = EInf -> P = EInf.
Proof.
  destruct P as [|x y]; [reflexivity|]. intros H E. exfalso. cbn [ec_add] in E. destruct (fdec K x x) as [_|N]; [|contradiction].
  destruct (fdec K y (- y)) as [Ey|N]; [|unfold ec_chord in E; discriminate E]. unfold EcApi.onE, on_curve in H. cbn [gK gb] in H.
  assert (Y : y = (0 : FpR p)).
  { destruct (fdec K y 0) as [Z|Z]; [exact Z|]. exfalso. apply (mul_nz K (1 + 1) y (two1 c) Z). exact (opp_2 y Ey). }
  apply (nb_noncube x). exact (cube_b x y _ Y H).
Qed.
Lemma mul_2 P : ec_mul K 2 P = ec_add K P P. Proof. cbn [ec_mul]. rewrite ec_add_0_r. reflexivity. Qed.
Lemma no_2ktors n : forall P : ecpt K, onE P -> ec_mul K (2 ^ n) P = EInf -> P = EInf.
Proof.
  pose proof (g2 G1 c) as A2. pose proof (g3 G1 c) as A3. pose proof (gbnz G1 c) as Ab.
  induction n as [|n IH]; intros P HP E.
  - cbn [Nat.pow ec_mul] in E. rewrite ec_add_0_r in E. exact E.
  - cbn [Nat.pow] in E. rewrite Nat.mul_comm in E. rewrite (ec_mul_mul K (gb G1 c)) in E by assumption.
    rewrite mul_2 in E. apply IH in E; [apply no_2tors in E; assumption|]. apply ec_add_on; assumption.
Qed.
(** (2^32 + k) P is never -(|k| P) *)
Lemma nint_wrong (P : ecpt K) k : (- 2 ^ 31 <= k < 0)%Z -> onE P -> P <> EInf ->
  ec_mul K (Z.to_nat (2 ^ 32 + k)) P <> ec_neg K (ec_mul K (Z.to_nat (- k)) P).
Proof.
  pose proof (g2 G1 c) as A2. pose proof (g3 G1 c) as A3. pose proof (gbnz G1 c) as Ab.
  intros Hk HP N E. apply N. apply (no_2ktors 32 P HP). 
  assert (En : (2 ^ 32 = Z.to_nat (2 ^ 32 + k) + Z.to_nat (- k))%nat).
  { rewrite <- Z2Nat.inj_add by (change (2 ^ 32)%Z with 4294967296%Z; change (2 ^ 31)%Z with 2147483648%Z in Hk; lia).
    replace (2 ^ 32 + k + - k)%Z with (2 ^ 32)%Z by ring. apply Nat2Z.inj. rewrite Nat2Z.inj_pow, Z2Nat.id by (apply Z.pow_nonneg; lia). reflexivity. }
  rewrite En. rewrite (ec_mul_add K (gb G1 c)) by assumption. rewrite E.
  rewrite (ec_add_comm K (gb G1 c)) by (try assumption; try apply ec_neg_on; apply (ec_mul_on K (gb G1 c)); assumption). apply ec_add_neg.
Qed.
End Tors.
