(** Specification: commutative rings, quadratic and cubic extensions, powers.
    Independent of the code. *)
From Coq Require Import ZArith Znumtheory Lia Bool Ring Field.
From Verif Require Import Power Alg FpSpec.
Local Open Scope Z_scope.

(** A commutative ring with its laws. *)
Record cring := CRing {
  car :> Type;
  rz : car; ro : car;
  radd : car -> car -> car; rmul : car -> car -> car; rsub : car -> car -> car; ropp : car -> car;
  rth : ring_theory rz ro radd rmul rsub ropp eq }.
Arguments rz {c}.
Arguments ro {c}.
Arguments radd {c} _ _.
Arguments rmul {c} _ _.
Arguments rsub {c} _ _.
Arguments ropp {c} _.
Declare Scope r_scope.
Delimit Scope r_scope with r.
Infix "+" := radd : r_scope.
Infix "*" := rmul : r_scope.
Infix "-" := rsub : r_scope.
Notation "- x" := (ropp x) : r_scope.
Notation "0" := rz : r_scope.
Notation "1" := ro : r_scope.

(** x^n *)
Definition rpw {K : cring} (x : K) (n : nat) : K := npow rmul ro x n.
(** x^n for an integer n >= 0 *)
Definition rpz {K : cring} (x : K) (n : Z) : K := rpw x (Z.to_nat n).

(** Non-zero elements are invertible and equality is decidable. *)
Definition is_field (K : cring) : Prop :=
  (ro : K) <> rz /\ (forall x : K, x <> rz -> exists y, rmul y x = ro) /\ (forall x y : K, x = y \/ x <> y).

(** The prime field as a ring. *)
Definition FpR (p : Z) : cring := CRing (Fp p) f0 f1 fadd fmul fsub fopp (Fp_ring p).

(** Pairs and triples. *)
Record F2 (A : Type) := mk2 { a2 : A; b2 : A }.
Arguments mk2 {A} _ _.
Arguments a2 {A} _.
Arguments b2 {A} _.
Record F3 (A : Type) := mk3 { a3 : A; b3 : A; c3 : A }.
Arguments mk3 {A} _ _ _.
Arguments a3 {A} _.
Arguments b3 {A} _.
Arguments c3 {A} _.

Lemma F2_eq A (x y : F2 A) : a2 x = a2 y -> b2 x = b2 y -> x = y.
Proof. destruct x, y; cbn [a2 b2]. congruence. Qed.
Lemma F3_eq A (x y : F3 A) : a3 x = a3 y -> b3 x = b3 y -> c3 x = c3 y -> x = y.
Proof. destruct x, y; cbn [a3 b3 c3]. congruence. Qed.

Section Quad.
Local Open Scope r_scope.
Variable K : cring.
Variable beta : K.
Add Ring KR : (rth K).
(** K[u] / (u^2 - beta) *)
Definition q0 : F2 K := mk2 0 0.
Definition q1 : F2 K := mk2 1 0.
Definition qadd (x y : F2 K) : F2 K := mk2 (a2 x + a2 y) (b2 x + b2 y).
Definition qsub (x y : F2 K) : F2 K := mk2 (a2 x - a2 y) (b2 x - b2 y).
Definition qopp (x : F2 K) : F2 K := mk2 (- a2 x) (- b2 x).
Definition qmul (x y : F2 K) : F2 K :=
  mk2 (a2 x * a2 y + beta * (b2 x * b2 y)) (a2 x * b2 y + b2 x * a2 y).
Lemma quad_ring : ring_theory q0 q1 qadd qmul qsub qopp eq.
Proof.
  constructor; intros; apply F2_eq; cbn [a2 b2 q0 q1 qadd qsub qopp qmul]; ring.
Qed.
Definition quad : cring := CRing (F2 K) q0 q1 qadd qmul qsub qopp quad_ring.
(** The norm a^2 - beta b^2 *)
Definition qnorm (x : F2 K) : K := a2 x * a2 x - beta * (b2 x * b2 x).
Definition qemb (a : K) : F2 K := mk2 a 0.
Definition qconj (x : F2 K) : F2 K := mk2 (a2 x) (- b2 x).
End Quad.

Section Cubic.
Local Open Scope r_scope.
Variable K : cring.
Variable xi : K.
Add Ring KR3 : (rth K).
(** K[v] / (v^3 - xi) *)
Definition k0 : F3 K := mk3 0 0 0.
Definition k1 : F3 K := mk3 1 0 0.
Definition kadd (x y : F3 K) : F3 K := mk3 (a3 x + a3 y) (b3 x + b3 y) (c3 x + c3 y).
Definition ksub (x y : F3 K) : F3 K := mk3 (a3 x - a3 y) (b3 x - b3 y) (c3 x - c3 y).
Definition kopp (x : F3 K) : F3 K := mk3 (- a3 x) (- b3 x) (- c3 x).
Definition kmul (x y : F3 K) : F3 K :=
  mk3 (a3 x * a3 y + xi * (b3 x * c3 y + c3 x * b3 y))
      (a3 x * b3 y + b3 x * a3 y + xi * (c3 x * c3 y))
      (a3 x * c3 y + b3 x * b3 y + c3 x * a3 y).
Lemma cubic_ring : ring_theory k0 k1 kadd kmul ksub kopp eq.
Proof.
  constructor; intros; apply F3_eq; cbn [a3 b3 c3 k0 k1 kadd ksub kopp kmul]; ring.
Qed.
Definition cubic : cring := CRing (F3 K) k0 k1 kadd kmul ksub kopp cubic_ring.
Definition kgen : F3 K := mk3 0 1 0.
Definition kemb (a : K) : F3 K := mk3 a 0 0.
(** The norm of a + b v + c v^2 and the adjugate element *)
Definition kadj (x : F3 K) : F3 K :=
  mk3 (a3 x * a3 x - xi * (b3 x * c3 x)) (xi * (c3 x * c3 x) - a3 x * b3 x) (b3 x * b3 x - a3 x * c3 x).
Definition knorm (x : F3 K) : K :=
  a3 x * a3 (kadj x) + xi * (c3 x * b3 (kadj x)) + xi * (b3 x * c3 (kadj x)).
End Cubic.

(** Facts about any commutative ring. *)
Section RingFacts.
Local Open Scope r_scope.
Variable K : cring.
Add Ring KRf : (rth K).
Lemma rpw_0 (x : K) : rpw x 0 = 1. Proof. reflexivity. Qed.
Lemma rpw_S (x : K) n : rpw x (S n) = x * rpw x n. Proof. reflexivity. Qed.
Lemma rpw_1 (x : K) : rpw x 1 = x. Proof. unfold rpw. cbn [npow]. ring. Qed.
Lemma rpw_2 (x : K) : rpw x 2 = x * x. Proof. unfold rpw. cbn [npow]. ring. Qed.
Lemma rpw_add (x : K) a b : rpw x (a + b)%nat = rpw x a * rpw x b.
Proof. apply (pw_add _ _ _ _ _ _ _ (rth K)). Qed.
Lemma rpw_mul (x : K) a b : rpw x (a * b)%nat = rpw (rpw x a) b.
Proof. apply (pw_mul _ _ _ _ _ _ _ (rth K)). Qed.
Lemma rpw_one n : rpw (1 : K) n = 1.
Proof. apply (pw_1 _ _ _ _ _ _ _ (rth K)). Qed.
Lemma rpw_zero n : rpw (0 : K) (S n) = 0.
Proof. apply (pw_0 _ _ _ _ _ _ _ (rth K)). Qed.
Lemma rpw_mulb (x y : K) n : rpw (x * y) n = rpw x n * rpw y n.
Proof. apply (pw_mulb _ _ _ _ _ _ _ (rth K)). Qed.
Lemma rpw_comm (x : K) a b : rpw (rpw x a) b = rpw (rpw x b) a.
Proof. rewrite <- !rpw_mul. f_equal. apply Nat.mul_comm. Qed.

Lemma rpz_0 (x : K) : rpz x 0%Z = 1. Proof. reflexivity. Qed.
Lemma rpz_1 (x : K) : rpz x 1%Z = x. Proof. apply rpw_1. Qed.
Lemma rpz_2 (x : K) : rpz x 2%Z = x * x. Proof. apply rpw_2. Qed.
Lemma rpz_add (x : K) a b : (0 <= a)%Z -> (0 <= b)%Z -> rpz x (a + b)%Z = rpz x a * rpz x b.
Proof. intros. unfold rpz. rewrite Z2Nat.inj_add by auto. apply rpw_add. Qed.
Lemma rpz_mul (x : K) a b : (0 <= a)%Z -> (0 <= b)%Z -> rpz x (a * b)%Z = rpz (rpz x a) b.
Proof. intros. unfold rpz. rewrite Z2Nat.inj_mul by auto. apply rpw_mul. Qed.
Lemma rpz_one n : rpz (1 : K) n = 1.
Proof. apply rpw_one. Qed.
Lemma rpz_mulb (x y : K) n : rpz (x * y) n = rpz x n * rpz y n.
Proof. apply rpw_mulb. Qed.
Lemma rpz_zero n : (0 < n)%Z -> rpz (0 : K) n = 0.
Proof. intros H. unfold rpz. replace (Z.to_nat n) with (S (Z.to_nat (n - 1))) by lia. apply rpw_zero. Qed.
Lemma rpz_succ (x : K) n : (0 <= n)%Z -> rpz x (n + 1)%Z = x * rpz x n.
Proof. intros. rewrite rpz_add by lia. rewrite rpz_1. ring. Qed.

Lemma rsub_eq (x y : K) : x - y = 0 -> x = y.
Proof. intros H. replace x with (x - y + y) by ring. rewrite H. ring. Qed.

Hypothesis HF : is_field K.
Lemma field_nz : (1 : K) <> 0. Proof. apply HF. Qed.
Lemma field_integral (x y : K) : x * y = 0 -> x = 0 \/ y = 0.
Proof.
  intros H. destruct HF as (_ & Hi & Hd). destruct (Hd x 0) as [E|E]; [auto|right].
  destruct (Hi x E) as (z & Hz). replace y with (z * x * y) by (rewrite Hz; ring).
  transitivity (z * (x * y)); [ring|]. rewrite H. ring.
Qed.
Lemma field_cancel (x y z : K) : x <> 0 -> x * y = x * z -> y = z.
Proof.
  intros Hx H. apply rsub_eq. destruct (field_integral x (y - z)) as [E|E]; auto.
  - transitivity (x * y - x * z); [ring|]. rewrite H. ring.
  - contradiction.
Qed.
Lemma field_pow_nz (x : K) n : x <> 0 -> rpw x n <> 0.
Proof.
  intros Hx. induction n as [|n IH]; [apply field_nz|]. rewrite rpw_S.
  intros E. destruct (field_integral _ _ E); auto.
Qed.
Lemma field_inv_unique (x y z : K) : y * x = 1 -> z * x = 1 -> y = z.
Proof.
  intros Hy Hz. replace y with (y * (z * x)) by (rewrite Hz; ring).
  transitivity (y * x * z); [ring|]. rewrite Hy. ring.
Qed.
End RingFacts.

(** The prime field is a field. *)
Lemma Fp_dec p (x y : Fp p) : x = y \/ x <> y.
Proof.
  destruct (Z.eq_dec (zv x) (zv y)) as [E|E]; [left; apply Fp_eq; auto|right; congruence].
Qed.
Lemma FpR_field p : prime p -> is_field (FpR p).
Proof.
  intros Hp. split; [apply (f1_neq_0 p Hp)|split].
  - intros x Hx. exists (finv x). apply (finv_l p Hp). exact Hx.
  - apply Fp_dec.
Qed.

Section QuadField.
Local Open Scope r_scope.
Variable K : cring.
Variable beta : K.
Add Ring KRq : (rth K).
Hypothesis HF : is_field K.
Hypothesis Hns : forall x : K, x * x <> beta.
Lemma qnorm_nz (x : F2 K) : x <> q0 K -> qnorm K beta x <> 0.
Proof.
  intros Hx E. destruct HF as (H1 & Hi & Hd). unfold qnorm in E.
  destruct (Hd (b2 x) 0) as [Eb|Eb].
  - assert (Ea : a2 x * a2 x = 0) by (rewrite Eb in E; transitivity (a2 x * a2 x - beta * (0 * 0)); [ring|exact E]).
    apply (field_integral K HF) in Ea. apply Hx. apply F2_eq; cbn [a2 b2 q0]; tauto.
  - destruct (Hi _ Eb) as (z & Hz). apply (Hns (a2 x * z)).
    apply (rsub_eq K).
    transitivity (z * z * (a2 x * a2 x - beta * (b2 x * b2 x)) + beta * ((z * b2 x) * (z * b2 x) - 1)); [ring|].
    rewrite E, Hz. ring.
Qed.
Lemma quad_field : is_field (quad K beta).
Proof.
  pose proof HF as (H1 & Hi & Hd). split; [|split].
  - intros E. apply H1. exact (f_equal a2 E).
  - intros x Hx. destruct (Hi _ (qnorm_nz x Hx)) as (z & Hz).
    exists (mk2 (a2 x * z) (- (b2 x * z))). apply F2_eq; cbn [a2 b2 rmul ro quad qmul q1].
    + rewrite <- Hz. unfold qnorm. ring.
    + ring.
  - intros x y. destruct (Hd (a2 x) (a2 y)) as [E|E]; [|right; congruence].
    destruct (Hd (b2 x) (b2 y)) as [E'|E']; [left; apply F2_eq; auto|right; congruence].
Qed.
End QuadField.

Section CubicField.
Local Open Scope r_scope.
Variable K : cring.
Variable xi : K.
Add Ring KRc : (rth K).
Hypothesis HF : is_field K.
Hypothesis Hnc : forall x : K, x * x * x <> xi.
Lemma xi_nz : xi <> 0.
Proof. intros E. apply (Hnc 0). rewrite E. ring. Qed.
(** xi c^3 = b^3 only for b = c = 0. *)
Lemma cube_ratio b c : xi * (c * c * c) = b * b * b -> b = 0 /\ c = 0.
Proof.
  intros E. destruct HF as (H1 & Hi & Hd). destruct (Hd c 0) as [Ec|Ec].
  - split; [|exact Ec]. rewrite Ec in E.
    assert (E0 : b * (b * b) = 0) by (transitivity (b * b * b); [ring|]; rewrite <- E; ring).
    apply (field_integral K HF) in E0. destruct E0 as [E0|E0]; [exact E0|].
    apply (field_integral K HF) in E0. tauto.
  - exfalso. destruct (Hi _ Ec) as (z & Hz). apply (Hnc (b * z)).
    transitivity (b * b * b * (z * z * z)); [ring|]. rewrite <- E.
    transitivity (xi * ((z * c) * (z * c) * (z * c))); [ring|]. rewrite Hz. ring.
Qed.
Lemma knorm_nz (x : F3 K) : x <> k0 K -> knorm K xi x <> 0.
Proof.
  destruct x as [a b c]. intros Hx E.
  set (A := a * a - xi * (b * c)). set (Bb := xi * (c * c) - a * b). set (C := b * b - a * c).
  assert (E1 : Bb * Bb * Bb - xi * (C * C * C) = (xi * (c * c * c) - b * b * b) * knorm K xi (mk3 a b c)).
  { unfold Bb, C, knorm, kadj. cbn [a3 b3 c3]. ring. }
  rewrite E in E1.
  assert (E2 : xi * (C * C * C) = Bb * Bb * Bb).
  { apply (rsub_eq K). transitivity (- (Bb * Bb * Bb - xi * (C * C * C))); [ring|]. rewrite E1. ring. }
  apply cube_ratio in E2. destruct E2 as [EB EC].
  (* then b^3 = a b c = xi c^3 *)
  assert (E3 : xi * (c * c * c) = b * b * b).
  { apply (rsub_eq K). transitivity (c * Bb - b * C); [unfold Bb, C; ring|]. rewrite EB, EC. ring. }
  apply cube_ratio in E3. destruct E3 as [-> ->].
  assert (E4 : a * (a * a) = 0) by (rewrite <- E; unfold knorm, kadj; cbn [a3 b3 c3]; ring).
  apply Hx. apply F3_eq; cbn [a3 b3 c3 k0]; auto.
  apply (field_integral K HF) in E4. destruct E4 as [E4|E4]; [exact E4|].
  apply (field_integral K HF) in E4. tauto.
Qed.
Lemma kadj_mul (x : F3 K) : kmul K xi (kadj K xi x) x = kemb K (knorm K xi x).
Proof. destruct x. apply F3_eq; unfold knorm; cbn [a3 b3 c3 kmul kadj kemb]; ring. Qed.
Lemma cubic_field : is_field (cubic K xi).
Proof.
  pose proof HF as (H1 & Hi & Hd). split; [|split].
  - intros E. apply H1. exact (f_equal a3 E).
  - intros x Hx. destruct (Hi _ (knorm_nz x Hx)) as (z & Hz).
    exists (kmul K xi (kemb K z) (kadj K xi x)).
    transitivity (kmul K xi (kemb K z) (kmul K xi (kadj K xi x) x)).
    + apply F3_eq; cbn [a3 b3 c3 kmul rmul cubic kemb kadj]; ring.
    + rewrite kadj_mul. apply F3_eq; cbn [a3 b3 c3 kmul kemb ro cubic k1]; rewrite <- ?Hz; ring.
  - intros x y. destruct (Hd (a3 x) (a3 y)) as [E|E]; [|right; congruence].
    destruct (Hd (b3 x) (b3 y)) as [E'|E']; [|right; congruence].
    destruct (Hd (c3 x) (c3 y)) as [E''|E'']; [left; apply F3_eq; auto|right; congruence].
Qed.
(** The generator v is not a square when xi is not: norms are multiplicative. *)
Hypothesis Hns : forall x : K, x * x <> xi.
Lemma knorm_mul (x y : F3 K) : knorm K xi (kmul K xi x y) = knorm K xi x * knorm K xi y.
Proof. destruct x, y. unfold knorm, kadj. cbn [a3 b3 c3 kmul]. ring. Qed.
Lemma kgen_nonsquare (x : cubic K xi) : x * x <> (kgen K : cubic K xi).
Proof.
  intros E. apply (Hns (knorm K xi x)). rewrite <- knorm_mul.
  change (kmul K xi x x) with ((x * x : cubic K xi)). rewrite E.
  unfold knorm, kadj, kgen. cbn [a3 b3 c3]. ring.
Qed.
End CubicField.
