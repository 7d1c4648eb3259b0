(** Specification: the field of integers modulo p, independent of the code. *)
From Coq Require Import ZArith Znumtheory Lia Bool Eqdep_dec Ring Field.
From Verif Require Import Power Alg.
Local Open Scope Z_scope.

(** An element is an integer in [0, p). *)
Record Fp (p : Z) := MkFp { zv : Z; zin : (zv mod p =? zv) = true }.
Arguments zv {p} _.
Arguments zin {p} _.

Lemma Fp_eq p (a b : Fp p) : zv a = zv b -> a = b.
Proof.
  destruct a as [a Ha], b as [b Hb]; cbn [zv]. intros ->. f_equal. apply UIP_dec, bool_dec.
Qed.

Lemma modmod p x : ((x mod p) mod p =? x mod p) = true.
Proof. apply Z.eqb_eq. apply Zmod_mod. Qed.

(** The residue class of an integer. *)
Definition mk (p x : Z) : Fp p := {| zv := x mod p; zin := modmod p x |}.
Definition fadd {p} (a b : Fp p) : Fp p := mk p (zv a + zv b).
Definition fmul {p} (a b : Fp p) : Fp p := mk p (zv a * zv b).
Definition fsub {p} (a b : Fp p) : Fp p := mk p (zv a - zv b).
Definition fopp {p} (a : Fp p) : Fp p := mk p (- zv a).
Definition f0 {p} : Fp p := mk p 0.
Definition f1 {p} : Fp p := mk p 1.
(** Inverse by Fermat's theorem: a^(p-2). *)
Definition finv {p} (a : Fp p) : Fp p := npow fmul f1 a (Z.to_nat (p - 2)).
Definition fdiv {p} (a b : Fp p) : Fp p := fmul a (finv b).

Lemma mk_eq p x y : mk p x = mk p y <-> x mod p = y mod p.
Proof.
  split; intros H; [exact (f_equal zv H)|]. apply Fp_eq. exact H.
Qed.
Lemma mk_zv p (a : Fp p) : mk p (zv a) = a.
Proof. apply Fp_eq. cbn [zv mk]. apply Z.eqb_eq, zin. Qed.
Lemma mk_add p x y : mk p (x + y) = fadd (mk p x) (mk p y).
Proof. apply mk_eq. cbn [zv mk]. symmetry. rewrite <- Zplus_mod. reflexivity. Qed.
Lemma mk_mul p x y : mk p (x * y) = fmul (mk p x) (mk p y).
Proof. apply mk_eq. cbn [zv mk]. symmetry. rewrite <- Zmult_mod. reflexivity. Qed.
Lemma mk_sub p x y : mk p (x - y) = fsub (mk p x) (mk p y).
Proof. apply mk_eq. cbn [zv mk]. symmetry. rewrite <- Zminus_mod. reflexivity. Qed.
Lemma mk_opp p x : mk p (- x) = fopp (mk p x).
Proof. apply mk_eq. cbn [zv mk]. replace (- (x mod p)) with (0 - x mod p) by lia.
  rewrite Zminus_mod_idemp_r. f_equal. Qed.
Lemma mk_0 p : mk p 0 = f0. Proof. reflexivity. Qed.
Lemma mk_1 p : mk p 1 = f1. Proof. reflexivity. Qed.
Lemma mk_p p : mk p p = f0.
Proof. apply mk_eq. rewrite Z_mod_same_full. symmetry. apply Zmod_0_l. Qed.

Lemma mk_surj p (a : Fp p) : exists x, a = mk p x.
Proof. exists (zv a). symmetry. apply mk_zv. Qed.

Lemma Fp_ring p : ring_theory (@f0 p) f1 fadd fmul fsub fopp eq.
Proof.
  constructor; intros;
  repeat match goal with x : Fp p |- _ => destruct (mk_surj p x) as [? ->]; clear x end;
  unfold f0, f1; rewrite <- ?mk_opp, <- ?mk_add, <- ?mk_sub, <- ?mk_mul, <- ?mk_add, <- ?mk_mul;
  f_equal; ring.
Qed.

Lemma mk_pow p x n : 0 <= n -> mk p (x ^ n) = npow fmul f1 (mk p x) (Z.to_nat n).
Proof.
  intros Hn. rewrite <- (Z2Nat.id n) at 1 by auto. induction (Z.to_nat n) as [|k IH].
  - reflexivity.
  - rewrite Nat2Z.inj_succ, Z.pow_succ_r by lia. rewrite mk_mul, IH. reflexivity.
Qed.

Lemma nm_mk p n : nm (Fp p) f0 fadd n f1 = mk p (Z.of_nat n).
Proof.
  induction n as [|n IH]; [reflexivity|].
  cbn [nm]. rewrite IH. unfold f1. rewrite <- mk_add. f_equal. lia.
Qed.

Lemma zv_range p (a : Fp p) : 0 < p -> 0 <= zv a < p.
Proof. intros Hp. pose proof (zin a) as H. apply Z.eqb_eq in H. rewrite <- H. apply Z.mod_pos_bound. auto. Qed.

Section Prime.
Variable p : Z.
Hypothesis Hp : prime p.

Lemma p_gt1 : 1 < p.
Proof. destruct Hp; lia. Qed.

(** Fermat: a^p = a. *)
Lemma fermat (a : Fp p) : npow fmul f1 a (Z.to_nat p) = a.
Proof.
  pose proof p_gt1.
  assert (E : a = nm (Fp p) f0 fadd (Z.to_nat (zv a)) f1).
  { rewrite nm_mk, Z2Nat.id by (apply zv_range; lia). symmetry. apply mk_zv. }
  rewrite E at 1. rewrite (frob_nm _ _ _ _ _ _ _ (Fp_ring p)).
  - symmetry. exact E.
  - rewrite Z2Nat.id by lia. exact Hp.
  - rewrite nm_mk, Z2Nat.id by lia. apply mk_p.
Qed.

Lemma fermatZ x : (x ^ p) mod p = x mod p.
Proof. pose proof p_gt1. apply mk_eq. rewrite mk_pow by lia. apply fermat. Qed.

Lemma Fp_integral (a b : Fp p) : fmul a b = f0 -> a = f0 \/ b = f0.
Proof.
  pose proof p_gt1.
  destruct (mk_surj p a) as [x ->], (mk_surj p b) as [y ->]. unfold f0. rewrite <- mk_mul, !mk_eq.
  rewrite Zmod_0_l. intros E. apply Z.mod_divide in E; [|lia]. apply prime_mult in E; auto.
  destruct E as [E|E]; [left|right]; apply Z.mod_divide in E; auto; lia.
Qed.

Lemma f1_neq_0 : @f1 p <> f0.
Proof. pose proof p_gt1. intros E. apply mk_eq in E. rewrite Zmod_0_l, Z.mod_small in E; lia. Qed.

Add Ring FpR : (Fp_ring p).

Lemma finv_l (a : Fp p) : a <> f0 -> fmul (finv a) a = f1.
Proof.
  intros Ha. pose proof p_gt1.
  assert (E : fmul a (fsub (fmul (finv a) a) f1) = f0).
  { transitivity (fsub (fmul a (fmul a (finv a))) a); [ring|]. unfold finv.
    rewrite <- !pw_S.
    replace (S (S (Z.to_nat (p - 2)))) with (Z.to_nat p) by lia.
    rewrite fermat. ring. }
  destruct (Fp_integral _ _ E) as [|E']; [contradiction|].
  transitivity (fadd (fsub (fmul (finv a) a) f1) f1); [ring|]. rewrite E'. ring.
Qed.

(** 0^(p-2) = 0 for p > 2 *)
Lemma finv_0 : 2 < p -> finv (@f0 p) = f0.
Proof.
  intros H. unfold finv. replace (Z.to_nat (p - 2)) with (S (Z.to_nat (p - 3))) by lia.
  rewrite pw_S. ring.
Qed.

Lemma Fp_field : field_theory (@f0 p) f1 fadd fmul fsub fopp fdiv finv eq.
Proof.
  constructor; [apply Fp_ring|apply f1_neq_0|reflexivity|intros a Ha; apply finv_l; auto].
Qed.

Lemma fermat1 (a : Fp p) : a <> f0 -> npow fmul f1 a (Z.to_nat (p - 1)) = f1.
Proof.
  intros Ha. pose proof p_gt1. transitivity (fmul (finv a) a); [|apply finv_l; auto].
  unfold finv. replace (Z.to_nat (p - 1)) with (S (Z.to_nat (p - 2))) by lia. rewrite pw_S. ring.
Qed.
Lemma fermat1Z x : x mod p <> 0 -> (x ^ (p - 1)) mod p = 1.
Proof.
  intros Hx. pose proof p_gt1. transitivity (1 mod p); [|apply Z.mod_small; lia]. apply mk_eq. rewrite mk_pow by lia.
  apply fermat1. intros E. apply Hx. rewrite <- (Zmod_0_l p). apply mk_eq. exact E.
Qed.
End Prime.
Global Opaque finv.
