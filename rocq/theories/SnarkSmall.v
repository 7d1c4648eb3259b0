(** The range condition of a double-size Fp6 product in terms of the operands: the six products of
    components of which the last coefficient is the sum; small operands meet it. *)
From Coq Require Import ZArith Znumtheory List Lia Ring.
From Verif Require Import Base Prim Loop Alg FpSpec Cfg FpM FpProofs TowerSpec TowerField TowerM Fp2Proofs Fp6Proofs TowerWit SnarkPow.
Local Open Scope Z_scope.

(** the u-part of the coefficient of v^2 of the product of [x] and [y], over the integers *)
Definition last6 (x y : fp6) : Z :=
  a2 (a3 x) * b2 (c3 y) + b2 (a3 x) * a2 (c3 y) + (a2 (b3 x) * b2 (b3 y) + b2 (b3 x) * a2 (b3 y)) +
  (a2 (c3 x) * b2 (a3 y) + b2 (c3 x) * a2 (a3 y)).
(** every component of [x] is at most 22/25 of p *)
Definition small6 (c : cfg) (x : fp6) : Prop :=
  let le a := 25 * a <= 22 * cp c in
  (le (a2 (a3 x)) /\ le (b2 (a3 x))) /\ (le (a2 (b3 x)) /\ le (b2 (b3 x))) /\ (le (a2 (c3 x)) /\ le (b2 (c3 x))).

Section SS.
Variable c : cfg.
Local Notation p := (cp c).
Lemma d6_mul_last x y v w : rep6 c x v -> rep6 c y w -> b2 (c3 (d6_mul c x y)) = last6 x y.
Proof.
  destruct x as [xa xb xc], y as [ya yb yc], v as [va vb vc], w as [wa wb wc].
  intros (Xa & Xb & Xc) (Ya & Yb & Yc). cbn [a3 b3 c3] in Xa, Xb, Xc, Ya, Yb, Yc.
  set (L := last6 (mk3 xa xb xc) (mk3 ya yb yc)).
  set (Q := fun z : dbl6 => b2 (c3 z) = L).
  change (Q (d6_mul c (mk3 xa xb xc) (mk3 ya yb yc))).
  cbv beta iota delta [d6_mul a3 b3 c3].
  letI Q. intros T0 E0. cbv beta. letI Q. intros T1 E1. cbv beta. letI Q. intros T2 E2. cbv beta.
  assert (P0 : tpart c xa ya T0) by (rewrite E0; apply tpart_ok; eapply rep2_can; eassumption).
  assert (P1 : tpart c xb yb T1) by (rewrite E1; apply tpart_ok; eapply rep2_can; eassumption).
  assert (P2 : tpart c xc yc T2) by (rewrite E2; apply tpart_ok; eapply rep2_can; eassumption).
  clear E0 E1 E2.
  pose proof (cross_ok c _ _ _ _ _ _ _ _ _ _ Xa Xc Ya Yc P0 P2) as (C1 & C2 & C3 & C4).
  cbv zeta in C2 |- *. cbn [a2 b2] in *. subst Q. cbv beta. cbn [a3 b3 c3].
  replace (d2_addNC T2 T0) with (d2_addNC T0 T2).
  2:{ unfold d2_addNC, dbl_addNC. f_equal; f_equal; lia. }
  rewrite C2. destruct P1 as [_ P1]. rewrite P1.
  destruct (rep2_can c _ _ Xb) as [Z1 Z2], (rep2_can c _ _ Yb) as [Z3 Z4].
  pose proof (canb c _ _ Z1 Z4). pose proof (canb c _ _ Z2 Z3). pose proof (cp_pos c). pose proof W_pos. pose proof (pW_W2' c). pose proof (pp_W c).
  rewrite dbl_addNC_small by lia. cbn [b2]. unfold L, last6, crossZ. cbn [a3 b3 c3]. ring.
Qed.
Lemma in6_iff x y v w : rep6 c x v -> rep6 c y w -> (in6 c x y <-> last6 x y < p * W).
Proof. intros Hx Hy. unfold in6. rewrite (d6_mul_last _ _ _ _ Hx Hy). reflexivity. Qed.
Lemma f6_mul_in x y v w : rep6 c x v -> rep6 c y w -> last6 x y < p * W -> rep6 c (f6_mul c x y) (rmul v w).
Proof.
  intros Hx Hy HL. apply (in6_iff _ _ _ _ Hx Hy) in HL. exact (d6_mod_rep c _ _ (d6_mul_in c _ _ _ _ HL Hx Hy)).
Qed.
Lemma p132 : 132 * p < 25 * W.
Proof. apply Z.ltb_lt. destruct c; vm_compute; reflexivity. Qed.
Lemma sm a b : 0 <= a -> 25 * a <= 22 * p -> can c b -> 25 * (a * b) <= 22 * (p * p).
Proof. unfold can. intros. nia. Qed.
Lemma sm2 a b : 0 <= a -> 25 * a <= 22 * p -> can c b -> 25 * (b * a) <= 22 * (p * p).
Proof. intros. rewrite (Z.mul_comm b a). apply sm; assumption. Qed.
Lemma last6_small x y v w : rep6 c x v -> rep6 c y w -> small6 c x \/ small6 c y -> last6 x y < p * W.
Proof.
  intros (Xa & Xb & Xc) (Ya & Yb & Yc) HS. unfold last6, small6 in *. cbv zeta in HS.
  destruct (rep2_can c _ _ Xa) as [A1 A2], (rep2_can c _ _ Xb) as [A3 A4], (rep2_can c _ _ Xc) as [A5 A6],
    (rep2_can c _ _ Ya) as [B1 B2], (rep2_can c _ _ Yb) as [B3 B4], (rep2_can c _ _ Yc) as [B5 B6].
  assert (HP : 132 * (p * p) < 25 * (p * W)) by (pose proof p132; pose proof (cp_pos c); nia).
  destruct HS as [((S1 & S2) & (S3 & S4) & (S5 & S6))|((S1 & S2) & (S3 & S4) & (S5 & S6))].
  - pose proof (sm _ _ (proj1 A1) S1 B6). pose proof (sm _ _ (proj1 A2) S2 B5).
    pose proof (sm _ _ (proj1 A3) S3 B4). pose proof (sm _ _ (proj1 A4) S4 B3).
    pose proof (sm _ _ (proj1 A5) S5 B2). pose proof (sm _ _ (proj1 A6) S6 B1). lia.
  - pose proof (sm2 _ _ (proj1 B1) S1 A6). pose proof (sm2 _ _ (proj1 B2) S2 A5).
    pose proof (sm2 _ _ (proj1 B3) S3 A4). pose proof (sm2 _ _ (proj1 B4) S4 A3).
    pose proof (sm2 _ _ (proj1 B5) S5 A2). pose proof (sm2 _ _ (proj1 B6) S6 A1). lia.
Qed.
Lemma f6_mul_small x y v w : rep6 c x v -> rep6 c y w -> small6 c x \/ small6 c y -> rep6 c (f6_mul c x y) (rmul v w).
Proof. intros Hx Hy HS. exact (f6_mul_in _ _ _ _ Hx Hy (last6_small _ _ _ _ Hx Hy HS)). Qed.
(** Fp12 operands with small halves, also after the reduced addition *)
Definition small12 (x : fp12) : Prop := small6 c (a2 x) /\ small6 c (b2 x) /\ small6 c (f6_add c (a2 x) (b2 x)).
Lemma in12_small x y v w : rep12 c x v -> rep12 c y w -> small12 x \/ small12 y -> in12 c x y.
Proof.
  intros [Xa Xb] [Ya Yb] HS. pose proof (f6_add_rep c _ _ _ _ Xa Xb) as X3. pose proof (f6_add_rep c _ _ _ _ Ya Yb) as Y3.
  split; [|split]; (eapply in6_iff; [eassumption|eassumption|]); (eapply last6_small; [eassumption|eassumption|]); destruct HS as [(?&?&?)|(?&?&?)]; auto.
Qed.
Lemma f12_mul_small x y v w : rep12 c x v -> rep12 c y w -> small12 x \/ small12 y -> rep12 c (f12_mul c x y) (rmul v w).
Proof. intros Hx Hy HS. exact (f12_mul_in c _ _ _ _ (in12_small _ _ _ _ Hx Hy HS) Hx Hy). Qed.
(** below half of p the sums are small too *)
Definition half1 (a : Z) : Prop := 25 * a <= 11 * p.
Definition half6 (x : fp6) : Prop := (half1 (a2 (a3 x)) /\ half1 (b2 (a3 x))) /\ (half1 (a2 (b3 x)) /\ half1 (b2 (b3 x))) /\ (half1 (a2 (c3 x)) /\ half1 (b2 (c3 x))).
Lemma half_add a b : can c a -> can c b -> half1 a -> half1 b -> 25 * fp_add c a b <= 22 * p.
Proof.
  intros Ha Hb H1 H2. destruct (fp_add_ok c a b Ha Hb) as (H3 & H4). rewrite <- (fv_add c) in H4.
  apply fv_inj in H4; [rewrite H4|exact H3|]; unfold can, half1 in *; lia.
Qed.
Lemma half_small a : can c a -> half1 a -> 25 * a <= 22 * p.
Proof. unfold can, half1. lia. Qed.
Lemma half12_small x v : rep12 c x v -> half6 (a2 x) -> half6 (b2 x) -> small12 x.
Proof.
  intros [(A1 & A2 & A3) (B1 & B2 & B3)] ((H1 & H2) & (H3 & H4) & (H5 & H6)) ((G1 & G2) & (G3 & G4) & (G5 & G6)).
  destruct (rep2_can c _ _ A1) as [? ?], (rep2_can c _ _ A2) as [? ?], (rep2_can c _ _ A3) as [? ?],
   (rep2_can c _ _ B1) as [? ?], (rep2_can c _ _ B2) as [? ?], (rep2_can c _ _ B3) as [? ?].
  split; [|split].
  - split; [|split]; split; apply half_small; assumption.
  - split; [|split]; split; apply half_small; assumption.
  - split; [|split]; split; apply half_add; assumption.
Qed.
Lemma f12_mul_half x y v w : rep12 c x v -> rep12 c y w -> (half6 (a2 x) /\ half6 (b2 x)) \/ (half6 (a2 y) /\ half6 (b2 y)) -> rep12 c (f12_mul c x y) (rmul v w).
Proof.
  intros Hx Hy HS. apply f12_mul_small; [exact Hx|exact Hy|].
  destruct HS as [[H1 H2]|[H1 H2]]; [left; exact (half12_small _ _ Hx H1 H2)|right; exact (half12_small _ _ Hy H1 H2)].
Qed.
End SS.
Lemma half_ex c : exists x v, rep12 c x v /\ v <> rz /\ v <> ro /\ half6 c (a2 x) /\ half6 c (b2 x).
Proof.
  exists (w12 10 20), (v12 c (w12 10 20)). split; [exact (w12_rep c)|]. split; [apply w12_ne; reflexivity|]. split; [apply w12_ne; reflexivity|].
  unfold half6, half1. rewrite <- !Z.leb_le. repeat split; destruct c; vm_compute; reflexivity.
Qed.
