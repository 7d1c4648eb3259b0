(** Fp::inv: the almost Montgomery inverse loop of Fp::preInv and the final multiplication. *)
From Coq Require Import ZArith Znumtheory Lia Bool Ring Field.
From Verif Require Import Base Prim Loop Power Alg FpSpec Cfg FpM FpProofs.
Local Open Scope Z_scope.

Section Inv.
Variable c : cfg.
Local Notation p := (cp c).
Local Notation mkp := (mk (cp c)).
Add Field FpF : (Fp_field (cp c) (cp_prime c)).
Variable x : Z.
Hypothesis Hx : 0 < x < p.

Definition kinv (st : Z * Z * Z * Z * Z) : Prop :=
  let '(u, v, r, s, k) := st in
  (0 < u /\ 0 <= v /\ 0 <= r <= 2 * p /\ 0 < s) /\ u * s + v * r = p /\
  (exists a, x * r = a * p - u * 2 ^ k) /\ (exists b, x * s = b * p + v * 2 ^ k) /\
  0 <= k <= 508 /\ (0 < v -> 2 ^ k * (u * v) <= p * x).

Definition kpost (o : Z * Z) : Prop :=
  let '(r, k) := o in 0 <= r <= 2 * p /\ 0 <= k <= 508 /\ exists a, x * r = a * p + 2 ^ k.

Lemma mod2_or a : a mod 2 = 0 \/ a mod 2 = 1.
Proof. pose proof (Z.mod_pos_bound a 2). lia. Qed.

Lemma kstep st : kinv st ->
  match preInv_body c st with
  | Next st' => kinv st' /\ 0 <= 600 - snd st' < 600 - snd st
  | Done o => kpost o
  end.
Proof.
  destruct st as [[[[u v] r] s] k]. unfold kinv, preInv_body.
  intros ((Hu & Hv & Hr & Hs) & E & (a & Ea) & (b & Eb) & Hk & Hb).
  pose proof (cp_lt_W c) as HpW. pose proof (cp_bounds c) as Hp.
  destruct (Z.eqb_spec v 0) as [->|Hv0].
  - unfold kpost. clear Hb.
    assert (Hu1 : u = 1).
    { assert (Hd : (u | p)) by (exists s; lia).
      destruct (prime_divisors _ (cp_prime c) _ Hd) as [|[|[|]]]; try lia.
      exfalso. subst u. assert (s = 1) by nia. subst s.
      assert (b = 0 \/ b >= 1 \/ b <= -1) by lia. nia. }
    subst u. unfold pTbl. rewrite (Z.mod_small (2 * p)) by lia. rewrite Z.mod_small by lia.
    split; [lia|]. split; [lia|]. exists (2 * x - a). rewrite Z.mul_sub_distr_l, Ea. ring.
  - assert (Hv1 : 0 < v) by lia. specialize (Hb Hv1).
    assert (Hk1 : k + 1 <= 508).
    { destruct (Z_lt_le_dec k 508); [lia|]. exfalso. replace k with 508 in Hb by lia.
      assert (p * x < 2 ^ 254 * 2 ^ 254) by nia. rewrite <- Z.pow_add_r in H by lia.
      change (254 + 254) with 508 in H. nia. }
    assert (H2k : 2 ^ (k + 1) = 2 * 2 ^ k) by (rewrite Z.pow_add_r by lia; change (2 ^ 1) with 2; ring).
    assert (Hpk : 0 < 2 ^ k) by (apply Z.pow_pos_nonneg; lia).
    assert (Hr1 : r <= p /\ s <= p) by nia.
    destruct (Z.eqb_spec (u mod 2) 0) as [Eu|Eu]; cbn [snd].
    + pose proof (Z.div_mod u 2 ltac:(lia)) as Du. set (u' := u / 2) in *. clearbody u'.
      rewrite (Z.mod_small (s + s)) by lia.
      split; [|lia]. assert (Hu' : u = 2 * u') by lia. clear Du Eu. subst u.
      split; [lia|]. split; [lia|]. split; [exists a; rewrite Ea, H2k; ring|].
      split; [exists (2 * b); rewrite H2k; nia|]. split; [lia|]. intros _. rewrite H2k. lia.
    + destruct (Z.eqb_spec (v mod 2) 0) as [Ev|Ev]; cbn [snd].
      * pose proof (Z.div_mod v 2 ltac:(lia)) as Dv. set (v' := v / 2) in *. clearbody v'.
        rewrite (Z.mod_small (r + r)) by lia.
        split; [|lia]. assert (Hv' : v = 2 * v') by lia. clear Dv Ev. subst v.
        split; [lia|]. split; [lia|]. split; [exists (2 * a); rewrite H2k; nia|].
        split; [exists b; rewrite Eb, H2k; ring|]. split; [lia|]. intros _. rewrite H2k. lia.
      * destruct (mod2_or u) as [|Mu]; [lia|]. destruct (mod2_or v) as [|Mv]; [lia|].
        destruct (Z.ltb_spec v u) as [Hlt|Hle]; cbn [snd].
        -- assert (Hm : (u - v) mod 2 = 0) by (rewrite Zminus_mod, Mu, Mv; reflexivity).
           pose proof (Z.div_mod (u - v) 2 ltac:(lia)) as Du. set (u' := (u - v) / 2) in *. clearbody u'.
           rewrite (Z.mod_small (s + s)), (Z.mod_small (r + s)) by lia.
           split; [|lia]. assert (Hu' : u = 2 * u' + v) by lia. clear Du Eu Mu Hm. subst u.
           split; [lia|]. split; [lia|].
           split; [exists (a + b); rewrite H2k; nia|].
           split; [exists (2 * b); rewrite H2k; nia|]. split; [lia|]. intros _. rewrite H2k.
           clear - Hb Hpk Hv1. assert (0 <= 2 ^ k * (v * v)) by nia.
           replace (2 ^ k * ((2 * u' + v) * v)) with (2 * 2 ^ k * (u' * v) + 2 ^ k * (v * v)) in Hb by ring. lia.
        -- assert (Hm : (v - u) mod 2 = 0) by (rewrite Zminus_mod, Mu, Mv; reflexivity).
           pose proof (Z.div_mod (v - u) 2 ltac:(lia)) as Dv. set (v' := (v - u) / 2) in *. clearbody v'.
           rewrite (Z.mod_small (r + r)), (Z.mod_small (s + r)) by lia.
           split; [|lia]. assert (Hv' : v = 2 * v' + u) by lia. clear Dv Ev Mv Hm. subst v.
           split; [lia|]. split; [lia|].
           split; [exists (2 * a); rewrite H2k; nia|].
           split; [exists (a + b); rewrite H2k; nia|]. split; [lia|]. intros _. rewrite H2k.
           clear - Hb Hpk Hu. assert (0 <= 2 ^ k * (u * u)) by nia.
           replace (2 ^ k * (u * (2 * v' + u))) with (2 * 2 ^ k * (u * v') + 2 ^ k * (u * u)) in Hb by ring. lia.
Qed.

Lemma preInv_ok : exists r k, fp_preInv c x = Ok (r, k) /\ kpost (r, k).
Proof.
  unfold fp_preInv.
  destruct (loop2_total (preInv_body c) kinv kpost (fun st => 600 - snd st) kstep 10 (p, x, 0, 1, 0)) as ((r & k) & E & HQ).
  - unfold kinv. pose proof (cp_pos c). split; [lia|]. split; [lia|].
    split; [exists 1; change (2 ^ 0) with 1; lia|]. split; [exists 0; change (2 ^ 0) with 1; lia|].
    split; [lia|]. intros _. change (2 ^ 0) with 1. lia.
  - cbn [snd]. change (2 ^ Z.of_nat 10) with 1024. lia.
  - rewrite E. exists r, k. auto.
Qed.

Lemma invTbl_ok k : can c (invTbl c k) /\ fv c (invTbl c k) = mkp (2 ^ (512 - k)).
Proof.
  unfold invTbl. split; [apply Z.mod_pos_bound, cp_pos|]. rewrite fv_mod. apply fv_W.
Qed.

Lemma mk512 : mkp (2 ^ 512) = fmul (mkp W) (mkp W).
Proof. rewrite <- mk_mul. f_equal. Qed.

Lemma fp_inv_nz : exists y, fp_inv c x = Ok y /\ can c y /\ fmul (fv c x) (fv c y) = f1.
Proof.
  destruct preInv_ok as (r & k & E & HQ). unfold kpost in HQ. destruct HQ as (Hr & Hk & a & Ea).
  unfold fp_inv. rewrite E. unfold bind.
  replace ((0 <=? k) && (k <? 512)) with true by (symmetry; apply andb_true_iff; lia).
  destruct (invTbl_ok k) as [Hi1 Hi2]. pose proof (cp_lt_W c) as HpW. pose proof (cp_pos c) as Hp.
  destruct (fp_mul_gen c r (invTbl c k)) as [H1 H2]; try (unfold can in Hi1; nia).
  eexists. split; [reflexivity|]. split; [exact H1|]. rewrite H2, Hi2.
  transitivity (fmul (fmul (fv c x) (fv c r)) (mkp (2 ^ (512 - k)))); [ring|].
  rewrite <- dv_mul, Ea, dv_add, dv_kp.
  assert (E3 : dv c (2 ^ k) = fdiv (mkp (2 ^ k)) (fmul (mkp W) (mkp W))) by (rewrite dv_def; reflexivity).
  rewrite E3.
  assert (E4 : fmul (mkp (2 ^ k)) (mkp (2 ^ (512 - k))) = fmul (mkp W) (mkp W)).
  { rewrite <- mk_mul, <- Z.pow_add_r by lia. replace (k + (512 - k)) with 512 by lia. apply mk512. }
  transitivity (fdiv (fmul (mkp (2 ^ k)) (mkp (2 ^ (512 - k)))) (fmul (mkp W) (mkp W))).
  - field. apply W_nz.
  - rewrite E4. field. apply W_nz.
Qed.
End Inv.

Lemma fp_inv_0 c : fp_inv c 0 = Ok 0.
Proof. destruct c; vm_compute; reflexivity. Qed.

Section Sqrt.
Variable c : cfg.
Local Notation p := (cp c).
Add Field FpF2 : (Fp_field (cp c) (cp_prime c)).
Lemma fv_eq0 x : can c x -> (fv c x = f0 <-> x = 0).
Proof.
  intros Hx. split; [|intros ->; apply fv_0]. intros E.
  apply (fv_inj c); [exact Hx|unfold can; pose proof (cp_pos c); lia|rewrite E; symmetry; apply fv_0].
Qed.
Lemma fp_inv_ok x : can c x -> exists y, fp_inv c x = Ok y /\ can c y /\ fv c y = finv (fv c x).
Proof.
  intros Hx. destruct (Z.eq_dec x 0) as [->|Hn].
  - exists 0. split; [apply fp_inv_0|]. split; [exact Hx|]. rewrite fv_0. symmetry. apply finv_0.
    pose proof (cp_bounds c). lia.
  - destruct (fp_inv_nz c x) as (y & E & Hy & H); [unfold can in Hx; lia|].
    exists y. split; [exact E|]. split; [exact Hy|].
    assert (Hz : fv c x <> f0) by (rewrite fv_eq0; auto).
    transitivity (fmul (finv (fv c x)) (fmul (fv c x) (fv c y))); [field; exact Hz|]. rewrite H. ring.
Qed.
End Sqrt.
