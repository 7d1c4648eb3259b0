(** Integer multiples of a point, and the endomorphism psi of the twist. *)
From Coq Require Import ZArith Lia Ring List.
From Verif Require Import Base FpSpec Cfg FpProofs TowerSpec TowerField Poly Frob EcSpec EcGroup EcInst EcFrob.
Local Open Scope Z_scope.

Section EcZ.
Variables (K : fld) (b : K).
Hypothesis H2 : (radd ro ro : K) <> rz.
Hypothesis H3 : (radd (radd ro ro) ro : K) <> rz.
Hypothesis Hb : b <> rz.
Local Notation onc := (on_curve K b).
Local Notation "A +++ B" := (ec_add K A B) (at level 50, left associativity).
Local Notation neg := (ec_neg K).
Lemma z_on A B : onc A -> onc B -> onc (A +++ B). Proof using H2 H3 Hb. apply ec_add_on; assumption. Qed.
Lemma z_non A : onc A -> onc (neg A). Proof using. apply ec_neg_on. Qed.
Lemma z_assoc A B C : onc A -> onc B -> onc C -> A +++ B +++ C = A +++ (B +++ C). Proof using H2 H3 Hb. apply (ec_add_assoc K b); assumption. Qed.
Lemma z_comm A B : onc A -> onc B -> A +++ B = B +++ A. Proof using H2 H3 Hb. apply (ec_add_comm K b); assumption. Qed.
Lemma z_neg A : A +++ neg A = EInf. Proof using. apply ec_add_neg. Qed.
Lemma z_0l A : EInf +++ A = A. Proof using. reflexivity. Qed.
Lemma z_0r A : A +++ EInf = A. Proof using. apply ec_add_0_r. Qed.
Local Hint Resolve z_on z_non : zz.
Lemma z_uniq A B : onc A -> onc B -> A +++ B = EInf -> B = neg A.
Proof using H2 H3 Hb.
  intros HA HB E. transitivity (neg A +++ A +++ B).
  - rewrite (z_comm (neg A) A), z_neg by auto with zz. reflexivity.
  - rewrite z_assoc, E, z_0r by auto with zz. reflexivity.
Qed.
Lemma z4 A B C D : onc A -> onc B -> onc C -> onc D -> (A +++ B) +++ (C +++ D) = (A +++ C) +++ (B +++ D).
Proof using H2 H3 Hb.
  intros. rewrite !z_assoc by auto with zz. f_equal. rewrite <- !z_assoc by auto with zz. f_equal. apply z_comm; assumption.
Qed.
Lemma z_nadd A B : onc A -> onc B -> neg (A +++ B) = neg A +++ neg B.
Proof using H2 H3 Hb.
  intros HA HB. symmetry. apply z_uniq; auto with zz. rewrite z4, !z_neg by auto with zz. reflexivity.
Qed.
Lemma z_nneg A : onc A -> neg (neg A) = A.
Proof using H2 H3 Hb. intros HA. symmetry. apply z_uniq; auto with zz. rewrite z_comm by auto with zz. apply z_neg. Qed.
(** n P for an integer n *)
Definition zmul (n : Z) (P : ecpt K) : ecpt K := if n <? 0 then neg (ec_mul K (Z.to_nat (- n)) P) else ec_mul K (Z.to_nat n) P.
Lemma zmul_pos n P : 0 <= n -> zmul n P = ec_mul K (Z.to_nat n) P.
Proof using. intros H. unfold zmul. destruct (Z.ltb_spec n 0); [lia|reflexivity]. Qed.
Lemma mul_on n P : onc P -> onc (ec_mul K n P).
Proof using H2 H3 Hb. intros H. apply ec_mul_on; assumption. Qed.
Lemma zmul_on n P : onc P -> onc (zmul n P).
Proof using H2 H3 Hb. intros H. unfold zmul. destruct (n <? 0); auto using mul_on with zz. Qed.
Local Hint Resolve zmul_on mul_on : zz.
Lemma zmul_0 P : zmul 0 P = EInf. Proof using. reflexivity. Qed.
Lemma zmul_1 P : zmul 1 P = P. Proof using. unfold zmul. cbn [Z.ltb Z.compare]. change (Z.to_nat 1) with 1%nat. cbn [ec_mul]. apply z_0r. Qed.
Lemma zmul_S n P : onc P -> zmul (Z.succ n) P = P +++ zmul n P.
Proof using H2 H3 Hb.
  intros H. unfold zmul. destruct (Z.ltb_spec n 0) as [Hn|Hn]; destruct (Z.ltb_spec (Z.succ n) 0) as [Hs|Hs]; try lia.
  - replace (Z.to_nat (- n)) with (S (Z.to_nat (- Z.succ n))) by lia. cbn [ec_mul]. rewrite z_nadd by auto with zz. rewrite <- z_assoc by auto with zz. rewrite z_neg. reflexivity.
  - replace (Z.succ n) with 0 by lia. replace (- n) with 1 by lia. change (Z.to_nat 1) with 1%nat. change (Z.to_nat 0) with 0%nat. cbn [ec_mul]. rewrite z_0r. symmetry. apply z_neg.
  - replace (Z.to_nat (Z.succ n)) with (S (Z.to_nat n)) by lia. reflexivity.
Qed.
Lemma zmul_P n P : onc P -> zmul (Z.pred n) P = neg P +++ zmul n P.
Proof using H2 H3 Hb.
  intros H. rewrite <- (Z.succ_pred n) at 2. rewrite zmul_S by exact H. rewrite <- z_assoc, (z_comm (neg P) P), z_neg by auto with zz. reflexivity.
Qed.
Lemma zmul_add m n P : onc P -> zmul (m + n) P = zmul m P +++ zmul n P.
Proof using H2 H3 Hb.
  intros H. induction m as [|m IH|m IH] using Z.peano_ind.
  - reflexivity.
  - rewrite Z.add_succ_l, !zmul_S, IH by exact H. symmetry. apply z_assoc; auto with zz.
  - rewrite Z.add_pred_l, !zmul_P, IH by exact H. symmetry. apply z_assoc; auto with zz.
Qed.
Lemma zmul_neg n P : onc P -> zmul (- n) P = neg (zmul n P).
Proof using H2 H3 Hb. intros H. apply z_uniq; auto with zz. rewrite <- zmul_add, Z.add_opp_diag_r by exact H. reflexivity. Qed.
Lemma zmul_mul m n P : onc P -> zmul (m * n) P = zmul m (zmul n P).
Proof using H2 H3 Hb.
  intros H. induction m as [|m IH|m IH] using Z.peano_ind.
  - reflexivity.
  - rewrite Z.mul_succ_l, zmul_add, IH, zmul_S by auto with zz. apply z_comm; auto with zz.
  - rewrite Z.mul_pred_l. unfold Z.sub. rewrite zmul_add, IH, zmul_P, zmul_neg by auto with zz. apply z_comm; auto with zz.
Qed.
Lemma zmul_dist n P Q : onc P -> onc Q -> zmul n (P +++ Q) = zmul n P +++ zmul n Q.
Proof using H2 H3 Hb.
  intros HP HQ. induction n as [|n IH|n IH] using Z.peano_ind.
  - reflexivity.
  - rewrite !zmul_S, IH by auto with zz. apply z4; auto with zz.
  - rewrite !zmul_P, IH, z_nadd by auto with zz. apply z4; auto with zz.
Qed.
Lemma zmul_O n : zmul n EInf = EInf.
Proof using H2 H3 Hb. rewrite <- (zmul_0 EInf), <- zmul_mul by exact I. rewrite Z.mul_0_r. reflexivity. Qed.
(** integer combinations of four points *)
Section L.
Variables Q0 Q1 Q2 Q3 : ecpt K.
Hypotheses (O0 : onc Q0) (O1 : onc Q1) (O2 : onc Q2) (O3 : onc Q3).
Definition Lc (v : Z * Z * Z * Z) : ecpt K := let '(x, y, z, t) := v in zmul x Q0 +++ zmul y Q1 +++ (zmul z Q2 +++ zmul t Q3).
Definition vadd (v w : Z * Z * Z * Z) := let '(x, y, z, t) := v in let '(x', y', z', t') := w in (x + x', y + y', z + z', t + t').
Definition vsc (k : Z) (v : Z * Z * Z * Z) := let '(x, y, z, t) := v in (k * x, k * y, k * z, k * t).
Lemma Lc_on v : onc (Lc v). Proof using H2 H3 Hb O0 O1 O2 O3. destruct v as [[[x y] z] t]. cbn [Lc]. auto with zz. Qed.
Lemma Lc_add v w : Lc (vadd v w) = Lc v +++ Lc w.
Proof using H2 H3 Hb O0 O1 O2 O3.
  destruct v as [[[x y] z] t], w as [[[x' y'] z'] t']. cbn [Lc vadd]. rewrite !zmul_add by assumption.
  rewrite (z4 (zmul x Q0)), (z4 (zmul z Q2)) by auto with zz. apply z4; auto with zz.
Qed.
Lemma Lc_sc k v : Lc (vsc k v) = zmul k (Lc v).
Proof using H2 H3 Hb O0 O1 O2 O3.
  destruct v as [[[x y] z] t]. cbn [Lc vsc]. rewrite !zmul_mul, !zmul_dist by auto with zz. reflexivity.
Qed.
Lemma Lc_comb k0 k1 k2 k3 v0 v1 v2 v3 : Lc v0 = EInf -> Lc v1 = EInf -> Lc v2 = EInf -> Lc v3 = EInf ->
  Lc (vadd (vadd (vsc k0 v0) (vsc k1 v1)) (vadd (vsc k2 v2) (vsc k3 v3))) = EInf.
Proof using H2 H3 Hb O0 O1 O2 O3. intros E0 E1 E2 E3. rewrite !Lc_add, !Lc_sc, E0, E1, E2, E3, !zmul_O. reflexivity. Qed.
End L.
End EcZ.

Section Psi.
Variable c : cfg.
Local Notation onT := (on_curve (K2F c) (cb2 c)).
Local Notation "A +++ B" := (ec_add (K2F c) A B) (at level 50, left associativity).
Local Notation neg := (ec_neg (K2F c)).
Local Notation zm := (zmul (K2F c)).
Local Notation psi := (psi c).
Add Ring FRz : (rth (FpR (cp c))).
Add Ring KRz : (rth (K2 c)).
Let z_uniq' := z_uniq (K2F c) (cb2 c) (two2 c) (three2 c) (cb2_nz c).
Lemma psi_neg A : onT A -> psi (neg A) = neg (psi A).
Proof using.
  intros HA. apply z_uniq'; [apply psi_on, HA|apply psi_on, ec_neg_on, HA|]. rewrite <- psi_add; [|exact HA|apply ec_neg_on, HA]. rewrite ec_add_neg. reflexivity.
Qed.
Lemma psi_zmul n A : onT A -> psi (zm n A) = zm n (psi A).
Proof using.
  intros HA. pose proof (psi_on c A HA) as HpA. pose proof (zmul_on (K2F c) (cb2 c) (two2 c) (three2 c) (cb2_nz c)) as ON.
  induction n as [|n IH|n IH] using Z.peano_ind.
  - reflexivity.
  - rewrite !(zmul_S (K2F c) (cb2 c) (two2 c) (three2 c) (cb2_nz c)), psi_add, IH by auto. reflexivity.
  - rewrite !(zmul_P (K2F c) (cb2 c) (two2 c) (three2 c) (cb2_nz c)), psi_add, IH, psi_neg by (auto; apply ec_neg_on; auto). reflexivity.
Qed.
(** psi^4 - psi^2 + 1 = 0 *)
Local Open Scope r_scope.
Lemma n4 : (e2 c (hh c * hh c) : K2 c) * e2 c (hh c * hh c) = - e2 c (hh c * hh c) - 1.
Proof using.
  apply F2_eq; unfold e2; cbn [radd rmul rsub ropp rz ro K2 quad qadd qsub qopp qmul q0 q1 a2 b2].
  - transitivity ((hh c * hh c) * (hh c * hh c)); [ring|]. rewrite (hh_rel c). transitivity (hh c * hh c - hh c - hh c + 1); [ring|]. rewrite (hh_rel c). ring.
  - ring.
Qed.
Lemma n2_ne1 : (e2 c (hh c * hh c) : K2 c) <> 1.
Proof using.
  intros E. pose proof n4 as H. rewrite E in H. apply (three2 c). change ((1 + 1 + 1 : K2 c) = 0). transitivity ((1 : K2 c) * 1 + 1 + 1); [ring|]. rewrite H. ring.
Qed.
Lemma b_aux (b : K2 c) : (0 : K2 c) * 0 = 0 * 0 * 0 + b -> b = 0.
Proof using. intros H. transitivity ((0 : K2 c) * 0 * 0 + b); [ring|]. rewrite <- H. ring. Qed.
Lemma rdiv_0 (u v : K2 c) : u = 0 -> rdiv (K2F c) u v = (0 : K2 c).
Proof using. intros ->. unfold rdiv. change ((0 : K2 c) * (finvr (K2F c) v : K2 c) = 0). generalize (finvr (K2F c) v). intros w. change (car (K2 c)) in w. ring. Qed.
Lemma psi4_aux (x y s : K2 c) : s * s = - s - 1 -> s <> 1 -> onT (@EAff (K2F c) x y) ->
  @EAff (K2F c) (x * s * s) (- - y) = @EAff (K2F c) (x * s) (- y) +++ @EAff (K2F c) x (- y).
Proof using.
  intros Hs Ns HA. change (y * y = x * x * x + (cb2 c : K2 c)) in HA. cbn [ec_add].
  destruct (fdec (K2F c) (x * s) x) as [E|N].
  - assert (X0 : x = 0).
    { assert (Q : x * (s - 1) = 0) by (transitivity (x * s - x); [ring|]; rewrite E; ring). apply (field_integral _ (K2_field c)) in Q as [Q|Q]; [exact Q|]. exfalso. apply Ns. transitivity (s - 1 + 1); [ring|]. rewrite Q. ring. }
    assert (Y0 : y <> 0). { intros F. rewrite X0, F in HA. apply (cb2_nz c). exact (b_aux _ HA). }
    match goal with |- context [fdec (K2F c) ?u ?v] => destruct (fdec (K2F c) u v) as [F|_] end.
    { exfalso. assert (T : (1 + 1) * y = 0). { change (- y = - - y) in F. transitivity (- - y - - y); [ring|]. rewrite <- F. ring. } apply (field_integral _ (K2_field c)) in T as [T|T]; [exact (two2 c T)|contradiction]. }
    unfold ec_chord. set (l := rdiv (K2F c) _ _). assert (L : (l : K2 c) = 0).
    { apply rdiv_0. change ((1 + 1 + 1) * (x * s * (x * s)) = (0 : K2 c)). rewrite X0. ring. }
    rewrite L. rewrite X0. cbv zeta. f_equal; (change (car (fk (K2F c))) with (car (K2 c))).
    + change ((0 : K2 c) * s * s = 0 * 0 - 0 * s - 0). ring.
    + change (- - y = (0 : K2 c) * (0 * s - (0 * 0 - 0 * s - 0)) - - y). ring.
  - unfold ec_chord. set (l := rdiv (K2F c) _ _). assert (L : (l : K2 c) = 0).
    { apply rdiv_0. change (- y - - y = (0 : K2 c)). ring. }
    rewrite L. cbv zeta. f_equal.
    + change (x * s * s = (0 : K2 c) * 0 - x * s - x). transitivity (x * (s * s)); [ring|]. rewrite Hs. ring.
    + change (- - y = (0 : K2 c) * (x * s - (0 * 0 - x * s - x)) - - y). ring.
Qed.
Lemma psi4 A : onT A -> psi (psi (psi (psi A))) = psi (psi A) +++ neg A.
Proof using.
  destruct A as [|x y]; intros HA; [reflexivity|]. cbn [EcFrob.psi]. rewrite !fx_fx, !fy_fy. exact (psi4_aux x y _ n4 n2_ne1 HA).
Qed.
Local Open Scope Z_scope.
Lemma psi_Lc Q a0 b0 c0 d0 : onT Q ->
  psi (Lc (K2F c) Q (psi Q) (psi (psi Q)) (psi (psi (psi Q))) (a0, b0, c0, d0)) = Lc (K2F c) Q (psi Q) (psi (psi Q)) (psi (psi (psi Q))) (- d0, a0, b0 + d0, c0).
Proof using.
  intros HQ. pose proof (psi_on c) as PO. pose proof (zmul_on (K2F c) (cb2 c) (two2 c) (three2 c) (cb2_nz c)) as ON.
  pose proof (z_on (K2F c) (cb2 c) (two2 c) (three2 c) (cb2_nz c)) as AO. pose proof (z_non (K2F c) (cb2 c)) as NO.
  pose proof (z_assoc (K2F c) (cb2 c) (two2 c) (three2 c) (cb2_nz c)) as AS. pose proof (z_comm (K2F c) (cb2 c) (two2 c) (three2 c) (cb2_nz c)) as CO.
  cbn [Lc]. rewrite !psi_add, !psi_zmul by auto 8. rewrite psi4 by exact HQ.
  rewrite (zmul_dist (K2F c) (cb2 c) (two2 c) (three2 c) (cb2_nz c)), (zmul_add (K2F c) (cb2 c) (two2 c) (three2 c) (cb2_nz c)) by auto 8.
  assert (EN : zm d0 (neg Q) = zm (- d0) Q).
  { transitivity (zm d0 (zm (- (1)) Q)).
    - f_equal. rewrite (zmul_neg (K2F c) (cb2 c) (two2 c) (three2 c) (cb2_nz c)) by exact HQ. rewrite zmul_1. reflexivity.
    - rewrite <- (zmul_mul (K2F c) (cb2 c) (two2 c) (three2 c) (cb2_nz c)) by exact HQ. f_equal. ring. }
  rewrite EN. generalize (ON (- d0) Q HQ) (ON a0 (psi Q) (PO _ HQ)) (ON b0 _ (PO _ (PO _ HQ))) (ON d0 _ (PO _ (PO _ HQ))) (ON c0 _ (PO _ (PO _ (PO _ HQ)))).
  generalize (zm (- d0) Q) (zm a0 (psi Q)) (zm b0 (psi (psi Q))) (zm d0 (psi (psi Q))) (zm c0 (psi (psi (psi Q)))). intros D A B D' C HD HA HB HD' HC.
  (* (A + B) + (C + (D' + D)) = (D + A) + ((B + D') + C) *)
  rewrite (CO D A HD HA), !AS by auto. f_equal. rewrite (CO C (D' +++ D)) by auto. rewrite <- !AS by auto.
  rewrite (AS (B +++ D') D C), (CO (B +++ D')) by auto. rewrite (AS D C), (CO C (B +++ D')) by auto. rewrite <- !AS by auto. reflexivity.
Qed.
End Psi.
