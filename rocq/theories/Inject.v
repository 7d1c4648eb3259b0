(** For a fixed point of G2 the pairing is either injective on E(Fp) or constantly 1. *)
From Coq Require Import ZArith Znumtheory Lia Ring.
From Verif Require Import Base Power FpSpec Primes Cfg FpM FpProofs TowerSpec TowerField TowerM Fp2Proofs ParamM Poly EcSpec EcGroup EcM EcProofs EcInst EcFrob EcApi EcZ PairM PairProofs PairBil PairTop Gen1 Count Order.
Local Open Scope Z_scope.
Section I.
Variables (K : cring) (r : Z).
Hypothesis Hr : prime r.
Add Ring KRi : (rth K).
Lemma pow_mod (w : K) n : 0 <= n -> rpz w r = ro -> rpz w n = rpz w (n mod r).
Proof using Hr.
  intros Hn Hw. assert (H1 : 0 < r) by (pose proof (prime_ge_2 r Hr); lia). pose proof (Z.mod_pos_bound n r H1). pose proof (Z.div_pos n r Hn H1).
  rewrite (Z.div_mod n r) at 1 by lia. rewrite rpz_add, rpz_mul by nia. rewrite Hw, rpz_one. ring.
Qed.
Lemma pow_inj (w : K) j k : rpz w r = ro -> w <> ro -> 0 <= j -> j <= k -> k < r -> rpz w j = rpz w k -> j = k.
Proof using Hr.
  intros Hw N Hj Hjk Hk E. destruct (Z.eq_dec j k) as [Ej|Nj]; [exact Ej|]. exfalso. apply N.
  assert (H1 : 0 < r) by (pose proof (prime_ge_2 r Hr); lia).
  assert (D : rpz w (k - j) = ro).
  { transitivity (rmul (rpz w (r - j)) (rpz w k) : K).
    - rewrite <- rpz_add by lia. rewrite (pow_mod w (r - j + k)) by (lia || exact Hw). replace (r - j + k) with (k - j + 1 * r) by ring. rewrite Z.mod_add by lia. rewrite Z.mod_small by lia. reflexivity.
    - rewrite <- E, <- rpz_add by lia. replace (r - j + j) with r by ring. exact Hw. }
  assert (RP : rel_prime r (k - j)). { apply prime_rel_prime; [exact Hr|]. intros F. apply Zdivide_le in F; lia. }
  apply rel_prime_bezout in RP as [u v Huv]. pose proof (Z.mod_pos_bound v r H1) as Hv.
  assert (F : rpz w ((k - j) * (v mod r)) = ro) by (rewrite rpz_mul by lia; rewrite D; apply rpz_one).
  rewrite (pow_mod w) in F by (nia || exact Hw). replace (((k - j) * (v mod r)) mod r) with 1 in F; [rewrite rpz_1 in F; exact F|].
  rewrite Z.mul_mod_idemp_r by lia. replace ((k - j) * v) with (1 + (- u) * r) by lia. rewrite Z.mod_add by lia. symmetry. apply Z.mod_small. pose proof (prime_ge_2 r Hr). lia.
Qed.
End I.
Lemma dich c P : paramInit (snark c) (curveOf c) = Ok P -> snark c = false ->
  exists e, computes c P e /\ forall Q, inG2 c Q ->
    (e Q (ptP G1 c (gen1 c)) = ro -> forall A, onE G1 c A -> e Q A = ro) /\
    (e Q (ptP G1 c (gen1 c)) <> ro -> forall A A', onE G1 c A -> onE G1 c A' -> e Q A = e Q A' -> A = A').
Proof.
  intros HI HB. destruct (top c P HI HB) as (e & HC & _ & _ & HM & _ & HR & _). exists e. split; [exact HC|]. intros Q HQ.
  pose proof (gen_on G1 c) as HG. set (g := ptP G1 c (gen1 c)) in *. change (ptP G1 c (gen G1 c)) with g in HG.
  assert (HP : forall A, onE G1 c A -> exists k, 0 <= k < cr c /\ A = ec_mulz (FpF c) k g /\ e Q A = rpz (e Q g) k).
  { intros A HA. destruct (all_points c A HA) as (k & Hk & Ek). exists k. split; [exact Hk|]. rewrite <- mulz_zmul in Ek by lia. split; [exact Ek|].
    rewrite Ek. pose proof (HM 1 k Q g ltac:(lia) ltac:(lia) HQ HG) as H. rewrite Z.mul_1_l in H. rewrite <- H. f_equal. rewrite mulz_zmul by lia. symmetry. apply zmul_1. }
  split.
  - intros E A HA. destruct (HP A HA) as (k & _ & _ & ->). rewrite E. apply rpz_one.
  - intros N A A' HA HA' E. destruct (HP A HA) as (k & Hk & Ek & Fk). destruct (HP A' HA') as (j & Hj & Ej & Fj). rewrite Fk, Fj in E.
    assert (k = j); [|subst; reflexivity]. pose proof (HR Q g HQ HG) as Hr. destruct (Z.le_ge_cases k j).
    + apply (pow_inj (K12 c) (cr c) (cr_prime c) (e Q g)); (lia || assumption).
    + symmetry. apply (pow_inj (K12 c) (cr c) (cr_prime c) (e Q g)); (lia || assumption || (symmetry; assumption)).
Qed.
