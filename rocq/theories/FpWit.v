(** Concrete cases and counterexamples for the properties of Fp. *)
From Coq Require Import ZArith Lia List Bool.
From Verif Require Import Base Prim Loop Vuint VuintProofs VDivProofs FpSpec Cfg FpM FpProofs FpInvProofs FpApi FpApiProofs FpInit FpInitProofs FpCProofs.
Import ListNotations.
Local Open Scope Z_scope.

(** 2z + 3x for SNARK can be 3 * 2^253: the estimate subtracts one p too many and the single
    correction does not bring the value back; the result is not even below p. *)
Definition badz : Z := 3 * 2 ^ 253.
Lemma fast_modp_snark : 0 <= badz <= 5 * cp SNARK1 /\ ~ can SNARK1 (fp_fast_modp SNARK1 badz) /\
  fp_fast_modp SNARK1 badz mod cp SNARK1 <> badz mod cp SNARK1.
Proof. unfold can. split; [|split]; vm_compute; intuition congruence. Qed.
Lemma fast_modp_snark_reach : exists z x, can SNARK1 z /\ can SNARK1 x /\ 2 * z + 3 * x = badz /\
  ~ can SNARK1 (fp_2z_add_3x SNARK1 z x).
Proof.
  exists (3 * 2 ^ 250), (6 * 2 ^ 250). unfold can. split; [|split; [|split]]; vm_compute; intuition congruence.
Qed.

Lemma order_wit c : exists x y, can c x /\ can c y /\ zv (fv c x) < zv (fv c y) /\ fp_lt x y = false.
Proof.
  destruct (fp_setInt_ok c (if snark c then 6 else 1) ltac:(destruct c; cbn; lia)) as (x & X1 & X2 & X3).
  destruct (fp_setInt_ok c (if snark c then 7 else 2) ltac:(destruct c; cbn; lia)) as (y & Y1 & Y2 & Y3).
  exists x, y. split; [exact X2|]. split; [exact Y2|]. rewrite X3, Y3. cbn [zv mk]. split.
  - clear. destruct c; vm_compute; reflexivity.
  - assert (E : forall i z, fp_setInt c i = Ok z -> match fp_setInt c i with Ok z => z | _ => 0 end = z) by (intros i z ->; reflexivity).
    apply E in X1. apply E in Y1. rewrite <- X1, <- Y1. clear. destruct c; vm_compute; reflexivity.
Qed.

Lemma can_ex c : can c (2 ^ 252 + 5) /\ can c (2 ^ 251 + 7) /\ fv c (2 ^ 252 + 5) <> f0 /\ fv c (2 ^ 252 + 5) <> fv c (2 ^ 251 + 7).
Proof.
  pose proof (cp_bounds c). assert (A : can c (2 ^ 252 + 5)) by (unfold can; lia). assert (D : can c (2 ^ 251 + 7)) by (unfold can; lia).
  split; [exact A|]. split; [exact D|]. split; [rewrite (fv_eq0 c _ A); discriminate|].
  intros E. apply (fv_inj c) in E; [discriminate E|exact A|exact D].
Qed.

From Coq Require Import Ring Field.
From Verif Require Import Power PowerProofs.
Section M1.
Variable c : cfg.
Add Field FpF4 : (Fp_field (cp c) (cp_prime c)).
Lemma two_nz : @mk (cp c) 2 <> f0.
Proof.
  intros E. apply mk_eq in E. rewrite Z.mod_0_l in E by (pose proof (cp_pos c); lia).
  rewrite Z.mod_small in E by (pose proof (cp_bounds c); lia). discriminate.
Qed.
Lemma npow_m1 n : Nat.Odd n -> npow fmul f1 (fopp f1) n = fopp (@f1 (cp c)).
Proof.
  intros [k ->]. rewrite Nat.add_1_r. cbn [npow].
  assert (H : npow fmul f1 (fopp f1) (2 * k) = @f1 (cp c)).
  { induction k as [|k IH]; [reflexivity|]. replace (2 * S k)%nat with (S (S (2 * k))) by lia. cbn [npow]. rewrite IH. ring. }
  rewrite H. ring.
Qed.
(** -1 is not a square: p = 3 mod 4. *)
Lemma m1_nonsquare (b : Fp (cp c)) : fmul b b <> fopp f1.
Proof.
  intros E. assert (Hb : b <> f0).
  { intros ->. apply two_nz. change 2 with (1 + 1). rewrite mk_add, mk_1. assert (E1 : @f1 (cp c) = f0) by (transitivity (fopp (fopp (@f1 (cp c)))); [ring|rewrite <- E; ring]). rewrite E1. ring. }
  pose proof (fermat1 (cp c) (cp_prime c) b Hb) as F.
  pose proof (cp_mod4 c) as M. pose proof (cp_pos c) as PP. pose proof (Z.div_mod (cp c) 4 ltac:(lia)) as D. rewrite M in D.
  set (k := cp c / 4) in *. assert (K : 0 <= k) by lia.
  replace (Z.to_nat (cp c - 1)) with (2 * (2 * Z.to_nat k + 1))%nat in F by lia.
  rewrite <- npow_npow in F. replace (npow fmul f1 b 2) with (fmul b b) in F by (cbn [npow]; ring).
  rewrite E, npow_m1 in F by (exists (Z.to_nat k); lia).
  apply two_nz. change 2 with (1 + 1). rewrite mk_add, mk_1. rewrite <- F at 1. ring.
Qed.
End M1.
Lemma sqrt_ex c : exists x y z, can c x /\ can c z /\ fp_sqrt c x = Some y /\ fp_sqrt c z = None.
Proof.
  destruct (fp_setInt_ok c 4 ltac:(lia)) as (x & X1 & X2 & X3). destruct (fp_setInt_ok c (-1) ltac:(lia)) as (z & Z1 & Z2 & Z3).
  destruct (fp_sqrt_square c x (mk (cp c) 2) X2) as [y Y]; [rewrite X3, <- mk_mul; reflexivity|].
  exists x, y, z. split; [exact X2|]. split; [exact Z2|]. split; [exact Y|]. apply fp_sqrt_none; [exact Z2|].
  intros b. rewrite Z3. change (-1) with (- (1)). rewrite mk_opp, mk_1. apply m1_nonsquare.
Qed.

Lemma fp_eqb_ok c x y : can c x -> can c y -> (fp_eqb x y = true <-> fv c x = fv c y).
Proof.
  intros Hx Hy. unfold fp_eqb. rewrite Z.eqb_eq. split; [intros ->; reflexivity|apply fv_inj; assumption].
Qed.
Lemma set_ex c : vwf (vOf (2 ^ 300 + 1)) /\ (length (vOf (2 ^ 300 + 1)) <= 5)%nat /\ can c (2 ^ 252 + 5).
Proof.
  split; [apply vOf_spec; rewrite B_val; split; [discriminate|reflexivity]|]. split; [|apply can_ex].
  assert (H : length (vOf (2 ^ 300 + 1)) = 5%nat) by (vm_compute; reflexivity). lia.
Qed.
Lemma dbl_addNC_ok c x y : 0 <= x + y < W * W -> dbl_addNC x y = x + y /\ dv c (dbl_addNC x y) = fadd (dv c x) (dv c y).
Proof. intros H. rewrite dbl_addNC_small by exact H. split; [reflexivity|apply dv_add]. Qed.
Lemma dbl_subNC_ok c x y : 0 <= x - y < W * W -> dbl_subNC x y = x - y /\ dv c (dbl_subNC x y) = fsub (dv c x) (dv c y).
Proof. intros H. rewrite dbl_subNC_small by exact H. split; [reflexivity|apply dv_sub]. Qed.
Lemma fp_inv_nz' c x : can c x -> x <> 0 -> exists y, fp_inv c x = Ok y /\ can c y /\ fmul (fv c x) (fv c y) = f1.
Proof. intros Hx H. apply (fp_inv_nz c x). unfold can in Hx. lia. Qed.
Lemma fp_2z_add_3x_BNb z x : can BNb z -> can BNb x ->
  can BNb (fp_2z_add_3x BNb z x) /\
  fv BNb (fp_2z_add_3x BNb z x) = fadd (fmul (mk (cp BNb) 2) (fv BNb z)) (fmul (mk (cp BNb) 3) (fv BNb x)).
Proof.
  intros Hz Hx. unfold can in Hz, Hx. pose proof cp_6. unfold fp_2z_add_3x.
  rewrite (fp_addNC_small x z) by lia. rewrite (fp_addNC_small (x + z)) by lia. rewrite fp_addNC_small by lia.
  destruct (fast_modp_BNb (x + z + (x + z) + x) ltac:(lia)) as [A1 A2]. split; [exact A1|]. rewrite A2.
  rewrite <- !fv_mulZ, <- fv_add. f_equal. lia.
Qed.
Lemma fp_3z_add_2x_BNb z x : can BNb z -> can BNb x ->
  can BNb (fp_3z_add_2x BNb z x) /\
  fv BNb (fp_3z_add_2x BNb z x) = fadd (fmul (mk (cp BNb) 2) (fv BNb z)) (fmul (mk (cp BNb) 3) (fv BNb x)).
Proof.
  intros Hz Hx. unfold can in Hz, Hx. pose proof cp_6. unfold fp_3z_add_2x.
  rewrite (fp_addNC_small z x) by lia. rewrite (fp_addNC_small (z + x)) by lia. rewrite fp_addNC_small by lia.
  destruct (fast_modp_BNb (z + x + (z + x) + x) ltac:(lia)) as [A1 A2]. split; [exact A1|]. rewrite A2.
  rewrite <- !fv_mulZ, <- fv_add. f_equal. lia.
Qed.
Lemma fp_lt_order c x y z : can c x -> can c y ->
  fp_lt x x = false /\ (fp_lt x y = true -> fp_lt y z = true -> fp_lt x z = true) /\
  (fp_lt x y = true \/ fp_lt y x = true \/ fv c x = fv c y).
Proof.
  intros Hx Hy. unfold fp_lt. split; [apply Z.ltb_irrefl|]. split; [rewrite !Z.ltb_lt; lia|]. rewrite !Z.ltb_lt.
  destruct (Z.lt_trichotomy x y) as [H|[->|H]]; auto.
Qed.
Lemma setModulo_spec c : exists t, setModulo c (pV c) = Ok t /\
  t_p t = pV c /\ lv (t_p t) = cp c /\ 0 <= t_pp t < 2 ^ 64 /\ (cp c * t_pp t + 1) mod 2 ^ 64 = 0 /\
  lv (t_R t) = W mod cp c /\ t_R2 t = (W * W) mod cp c /\
  t_pTbl t = map (fun i => (i * cp c) mod W) [0;1;2;3;4;5;6;7;8;9] /\
  t_pNTbl t = map (fun h => (cp c * W) / 2 ^ h) [0;1;2;3] /\
  (forall i, 0 <= i < 2 -> 2 * nth (Z.to_nat i) (t_half t) 0 mod cp c = i) /\
  (forall i, 0 <= i < 4 -> 4 * nth (Z.to_nat i) (t_quarter t) 0 mod cp c = i) /\
  (forall k, 0 <= k < 512 -> nth (Z.to_nat k) (t_inv t) 0 = (2 ^ (512 - k) * W) mod cp c).
Proof.
  destruct (setModulo_ok c) as (t & E & H1 & H2 & _ & _ & H5 & H6 & H7 & H8 & H9 & H10 & _ & H11). exists t.
  split; [exact E|]. split; [exact H1|]. split; [rewrite H1; apply (pV_ok c)|].
  split; [rewrite H2; pose proof (cpp_range c); rewrite B_val in *; exact H|].
  split; [rewrite H2; pose proof (cpp_ok c); rewrite B_val in *; exact H|].
  split; [rewrite H5; apply (RV_ok c)|].
  split; [rewrite H6; unfold cR2, cR; rewrite <- Zmult_mod; reflexivity|].
  split; [exact H7|]. split; [exact H8|].
  pose proof (cp_bounds c) as PB. pose proof (p_half c) as PH. pose proof (p_quarter c) as PQ.
  split; [|split; [|exact H11]].
  - intros i Hi. rewrite H9. assert (C : i = 0 \/ i = 1) by lia. destruct C as [->| ->]; cbn [map]; unfold halfTbl; cbn [Z.eqb].
    + change (nth _ _ _) with 0. apply Z.mod_0_l. lia.
    + change (nth _ _ _) with ((cp c + 1) / 2). rewrite PH. replace (cp c + 1) with (1 + 1 * cp c) by lia. rewrite Z.mod_add by lia.
      apply Z.mod_small. lia.
  - intros i Hi. rewrite H10. assert (C : nth (Z.to_nat i) (map (quarterTbl c) [0; 1; 2; 3]) 0 = i * ((cp c + 1) / 4)).
    { assert (C : i = 0 \/ i = 1 \/ i = 2 \/ i = 3) by lia. destruct C as [->|[->|[->| ->]]]; reflexivity. }
    rewrite C. replace (4 * (i * ((cp c + 1) / 4))) with (i * (4 * ((cp c + 1) / 4))) by ring. rewrite PQ.
    replace (i * (cp c + 1)) with (i + i * cp c) by ring. rewrite Z.mod_add by lia. apply Z.mod_small. lia.
Qed.
