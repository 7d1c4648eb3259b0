(** The SNARK curves: Fp12::mul, Fp12::square and the power used by final_exp are right as long as the
    double-size Fp6 products stay below p 2^256 ([in12], [in12sq], [pow_in12]; C27_mul_snark_refuted
    shows that they need not). *)
From Coq Require Import ZArith List.
From Verif Require Import Base Prim FpSpec Cfg FpProofs TowerSpec TowerField TowerM Fp2Proofs Fp6Proofs Frob ParamM FinalM SnarkPow EcM PairM PairApi SnarkRun SnarkFinal SnarkWit SnarkMil SnarkSmall Poly EcSpec EcGroup EcInst EcFrob EcApi PairBil SnarkAte SnarkTop Gen2S SnarkZero.
Import ListNotations.
Local Open Scope Z_scope.

(** Fp6::mul is right as long as the sum [last6] of six products of components stays below
    p 2^256 ... *)
Theorem C26_mul_in_range c x y v w : rep6 c x v -> rep6 c y w -> last6 x y < cp c * W -> rep6 c (f6_mul c x y) (rmul v w).
Proof. exact (f6_mul_in c x y v w). Qed.
(** ... which is what [in6], the condition of the theorems below, says ... *)
Theorem C26_in_range_iff c x y v w : rep6 c x v -> rep6 c y w -> (in6 c x y <-> last6 x y < cp c * W).
Proof. exact (in6_iff c x y v w). Qed.
(** ... and holds on all three curves when one of the operands has no component above 22/25 of p *)
Theorem C26_mul_small c x y v w : rep6 c x v -> rep6 c y w -> small6 c x \/ small6 c y -> rep6 c (f6_mul c x y) (rmul v w).
Proof. exact (f6_mul_small c x y v w). Qed.
(** Fp12::mul when one of the operands has no component above 11/25 of p *)
Theorem C27_mul_small c x y v w : rep12 c x v -> rep12 c y w -> (half6 c (a2 x) /\ half6 c (b2 x)) \/ (half6 c (a2 y) /\ half6 c (b2 y)) ->
  rep12 c (f12_mul c x y) (rmul v w).
Proof. exact (f12_mul_half c x y v w). Qed.
Example C27_small_some c : exists x v, rep12 c x v /\ v <> rz /\ v <> ro /\ half6 c (a2 x) /\ half6 c (b2 x).
Proof. exact (half_ex c). Qed.
Theorem C27_mul_in_range c x y v w : in12 c x y -> rep12 c x v -> rep12 c y w -> rep12 c (f12_mul c x y) (rmul v w).
Proof. exact (f12_mul_in c x y v w). Qed.
(** Fp12::square likewise *)
Theorem C27_square_in_range c x v : in12sq c x -> rep12 c x v -> rep12 c (f12_square c x) (rmul v v).
Proof. exact (f12_square_in c x v). Qed.
Example C27_in_range_some c : exists x v, rep12 c x v /\ v <> rz /\ v <> ro /\ in12 c x x /\ in12sq c x.
Proof. exact (in12_ex c). Qed.
(** ... out of range the square may come back unreduced, so that a comparison fails *)
Theorem C27_square_snark_refuted c : snark c = true -> exists x v, rep12 c x v /\ ~ can c (b2 (c3 (b2 (f12_square c x)))).
Proof. exact (f12_square_noncanonical c). Qed.
(** pow_neg_t of a cyclotomic element is its inverse z-th power *)
Theorem C32_pow_neg_t_in_range c P x v : snark c = true -> paramInit (snark c) (curveOf c) = Ok P ->
  rep12 c x v -> cyclo c v -> pow_in12 c P x ->
  exists w, rep12 c (f12_pow_neg_t c P x) w /\ rmul w (rpz v (cz c)) = ro.
Proof. exact (pow_neg_in c P x v). Qed.
Example C32_pow_neg_nonvacuous c P : snark c = true ->
  rep12 c (f12_1 c) ro /\ cyclo c ro /\ pow_in12 c P (f12_1 c).
Proof. exact (fun H => conj (f12_1_rep c) (conj (cyclo_1 c) (pow_in12_one c P H))). Qed.

(** final_exp: [cfinal] (SnarkRun.v) runs the same operations and gives up when a product leaves the
    range; whenever it finishes, final_exp returns its result, which is the power of C32_final_exp *)
Theorem C32_final_exp_in_range c P : paramInit (snark c) (curveOf c) = Ok P -> snark c = true ->
  forall x v y, cfinal c P x = Some y -> rep12 c x v -> v <> rz ->
  f12_final_exp c P x = Ok y /\
  rep12 c y (rpz v ((cp c ^ 12 - 1) / cr c * ((2 * cz c * (6 * cz c ^ 2 + 3 * cz c + 1)) mod cr c))).
Proof. exact (cfinal_ok c P). Qed.
Theorem C32_order_in_range c P x v y : paramInit (snark c) (curveOf c) = Ok P -> snark c = true ->
  cfinal c P x = Some y -> rep12 c x v -> v <> rz ->
  f12_final_exp c P x = Ok y /\ exists w, rep12 c y w /\ rpz w (cr c) = ro.
Proof. exact (cfinal_order c P x v y). Qed.
Example C32_in_range_some c P : paramInit (snark c) (curveOf c) = Ok P -> snark c = true ->
  exists x v y, rep12 c x v /\ v <> rz /\ v <> ro /\ cfinal c P x = Some y.
Proof. exact (cfinal_ex c P). Qed.
(** final_exp(0) = 0 there too, with no condition *)
Theorem C32_zero_snark c P : paramInit (snark c) (curveOf c) = Ok P -> snark c = true ->
  forall x, rep12 c x rz -> f12_final_exp c P x = Ok x.
Proof. exact (sfexp_zero c P). Qed.
Example C32_zero_some c : rep12 c f12_0 rz.
Proof. exact (f12_0_rep c). Qed.
(** The pairing: [cpairing] runs millerLoop and final_exp on a vector of line coefficients, giving up
    when a product leaves the range or the loop ends in 0.  When it finishes, so do they, with the same
    result, which has order dividing r. *)
Theorem C43_order_in_range c P v x y xp yp e : paramInit (snark c) (curveOf c) = Ok P -> snark c = true ->
  wfL c v -> rep1 c x xp -> rep1 c y yp -> cpairing c P v x y = Some e ->
  (let! f := millerLoop c P v x y in f12_final_exp c P f) = Ok e /\ exists w, rep12 c e w /\ rpz w (cr c) = ro.
Proof. exact (cpairing_loop c P v x y xp yp e). Qed.
(** ... on the vector of precomputeG2 it is opt_atePairing *)
Theorem C43_ate_in_range c P xq yq vx vy x y xp yp e : paramInit (snark c) (curveOf c) = Ok P -> snark c = true ->
  rep2 c xq vx -> rep2 c yq vy -> rep1 c x xp -> rep1 c y yp -> cpairing c P (preG2 c P xq yq) x y = Some e ->
  opt_ate c P xq yq x y = Ok e /\ exists w, rep12 c e w /\ rpz w (cr c) = ro.
Proof. exact (cpairing_ate c P xq yq vx vy x y xp yp e). Qed.
Example C43_in_range_some c P x y xp yp : paramInit (snark c) (curveOf c) = Ok P -> snark c = true -> rep1 c x xp -> rep1 c y yp ->
  exists v e, wfL c v /\ cpairing c P v x y = Some e.
Proof. exact (cpairing_ex c P x y xp yp). Qed.
(** millerLoop2 is the product of the two loops, and one final exponentiation gives the product of
    the two pairings *)
Theorem C45_millerLoop2_in_range c P v1 v2 x1 y1 x2 y2 xp1 yp1 xp2 yp2 f f1 f2 : snark c = true -> wfL c v1 -> wfL c v2 ->
  rep1 c x1 xp1 -> rep1 c y1 yp1 -> rep1 c x2 xp2 -> rep1 c y2 yp2 ->
  cmillerLoop c P v1 x1 y1 = Some f1 -> cmillerLoop c P v2 x2 y2 = Some f2 -> cmillerLoop2 c P v1 x1 y1 v2 x2 y2 = Some f ->
  millerLoop c P v1 x1 y1 = Ok f1 /\ millerLoop c P v2 x2 y2 = Ok f2 /\ millerLoop2 c P v1 x1 y1 v2 x2 y2 = Ok f /\
  exists g1 g2, rep12 c f (rmul g1 g2) /\ rep12 c f1 g1 /\ rep12 c f2 g2.
Proof. exact (fun HS V1 V2 X1 Y1 X2 Y2 => cmiller2_ok c P HS v1 v2 x1 y1 x2 y2 xp1 yp1 xp2 yp2 V1 V2 X1 Y1 X2 Y2 f f1 f2). Qed.
Theorem C45_product_in_range c P v1 v2 x1 y1 x2 y2 xp1 yp1 xp2 yp2 f e1 e2 e : paramInit (snark c) (curveOf c) = Ok P -> snark c = true ->
  wfL c v1 -> wfL c v2 -> rep1 c x1 xp1 -> rep1 c y1 yp1 -> rep1 c x2 xp2 -> rep1 c y2 yp2 ->
  cpairing c P v1 x1 y1 = Some e1 -> cpairing c P v2 x2 y2 = Some e2 -> cmillerLoop2 c P v1 x1 y1 v2 x2 y2 = Some f -> cfinal c P f = Some e ->
  (let! m := millerLoop2 c P v1 x1 y1 v2 x2 y2 in f12_final_exp c P m) = Ok e /\
  exists w1 w2, rep12 c e1 w1 /\ rep12 c e2 w2 /\ rep12 c e (rmul w1 w2).
Proof. exact (cmiller2_final c P v1 v2 x1 y1 x2 y2 xp1 yp1 xp2 yp2 f e1 e2 e). Qed.
Example C45_in_range_some c P x y xp yp : paramInit (snark c) (curveOf c) = Ok P -> snark c = true -> rep1 c x xp -> rep1 c y yp ->
  exists v1 v2 e1 e2 f e, wfL c v1 /\ wfL c v2 /\ cpairing c P v1 x y = Some e1 /\ cpairing c P v2 x y = Some e2 /\
    cmillerLoop2 c P v1 x y v2 x y = Some f /\ cfinal c P f = Some e.
Proof. exact (cmiller2_ex c P x y xp yp). Qed.

(** C47 on the SNARK curves.  [cate] (SnarkAte.v) runs opt_atePairing, giving up when a product leaves
    the range.  One function e on points, additive in both arguments, is what the pairing returns on
    every representation of points of G2 and of the curve for which the products stay in range. *)
Theorem C47_bilinear_in_range c P : paramInit (snark c) (curveOf c) = Ok P -> snark c = true ->
  exists e, computes_in c P e /\
  (forall xq yq (vx vy : K2 c) x y (xp yp : FpR (cp c)) f, rep2 c xq vx -> rep2 c yq vy -> rep1 c x xp -> rep1 c y yp ->
    inG2 c (@EAff (K2F c) vx vy) -> onE G1 c (@EAff (FpF c) xp yp) -> cate c P xq yq x y = Some f ->
    opt_ate c P xq yq x y = Ok f /\ rep12 c f (e (@EAff (K2F c) vx vy) (@EAff (FpF c) xp yp))) /\
  (forall Q Q' A, inG2 c Q -> inG2 c Q' -> onE G1 c A -> e (ec_add (K2F c) Q Q') A = rmul (e Q A) (e Q' A)) /\
  (forall Q A A', inG2 c Q -> onE G1 c A -> onE G1 c A' -> e Q (ec_add (FpF c) A A') = rmul (e Q A) (e Q A')) /\
  (forall a b Q A, 0 <= a -> 0 <= b -> inG2 c Q -> onE G1 c A -> e (ec_mulz (K2F c) a Q) (ec_mulz (FpF c) b A) = rpz (e Q A) (a * b)) /\
  (forall Q A, inG2 c Q -> onE G1 c A -> rmul (e Q A) (e (ec_neg (K2F c) Q) A) = ro /\ rmul (e Q A) (e Q (ec_neg (FpF c) A)) = ro) /\
  (forall Q A, inG2 c Q -> onE G1 c A -> rpz (e Q A) (cr c) = ro) /\
  (forall Q A, onE G1 c A -> Q = EInf \/ A = EInf -> e Q A = ro).
Proof. exact (stop c P). Qed.

(** the generators of the test-suite lie in G2 *)
Theorem C47_generator_snark c : snark c = true -> inG2 c (ptP G2 c (gen2 c)) /\ ptP G2 c (gen2 c) <> EInf.
Proof. exact (gen2_inG2_snark c). Qed.
Example C47_in_range_some c : snark c = true -> exists P, paramInit (snark c) (curveOf c) = Ok P /\
  wfP G2 c (gen2 c) /\ inG2 c (ptP G2 c (gen2 c)) /\ wfP G1 c (gen1 c) /\ onE G1 c (ptP G1 c (gen1 c)).
Proof.
  intros H. destruct (paramInit_exists c) as (P & HI). exists P. split; [exact HI|]. split; [exact (gen_wf G2 c)|].
  split; [exact (proj1 (gen2_inG2_snark c H))|]. split; [exact (gen_wf G1 c)|exact (gen_on G1 c)].
Qed.

(** One query covers all theorems of this file. *)
Definition all_theorems_P_Snark :=
  (@C26_mul_in_range,
   @C26_in_range_iff,
   @C26_mul_small,
   @C27_mul_small,
   @C27_mul_in_range,
   @C27_square_in_range,
   @C27_square_snark_refuted,
   @C32_pow_neg_t_in_range,
   @C32_final_exp_in_range,
   @C32_order_in_range,
   @C32_zero_snark,
   @C43_order_in_range,
   @C43_ate_in_range,
   @C45_millerLoop2_in_range,
   @C45_product_in_range,
   @C47_bilinear_in_range,
   @C47_generator_snark).
Print Assumptions all_theorems_P_Snark.
