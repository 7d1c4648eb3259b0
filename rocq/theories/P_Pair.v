(** Properties of the pairing: C41 - C47.

    Reading guide.  [rep2 c x v], [rep12 c x v]: the object content [x] (Montgomery limbs, all
    reduced) stands for the element [v] of Fp2 = [K2 c], of Fp12 = [K12 c].  [rpz v n] is v^n.
    [ptP G2 c x] is the point of y^2 = x^3 + b/xi over Fp2 denoted by an Ec2 object (EcSpec.v),
    [ptP G1 c x] the point of y^2 = x^3 + b over Fp denoted by an Ec1 object, [onE g c]
    membership; [inG2 c Q]: Q is on the twist, r Q = O and psi(Q) = p Q, where psi is the
    twisted Frobenius of C40.  [opt_ateEc], [opt_ateJac]: opt_atePairing on Ec objects,
    opt_atePairingJac on coordinate arrays; [opt_ate] the one on affine coordinates.
    C43, C44, C47 and the value part of C45 are about the default build ([snark c = false]):
    with SNARK parameters Fp12::mul is wrong (C27). *)
From Coq Require Import ZArith Znumtheory List.
From Verif Require Import Base Vuint FpSpec Primes Cfg FpM FpProofs TowerSpec TowerField TowerM Fp2Proofs Fp6Proofs Frob ParamM ParamProofs FinalM TowerApi Poly EcSpec EcM EcProofs EcInst EcFrob EcApi PairM PairProofs PairBil PairLin PairApi PairObj PairLine PairTop Gen2.
Import ListNotations.
Local Open Scope Z_scope.

(** C41.  [hom]: homogeneous coordinates.  [w] = iw c is the generator of Fp12 over Fp6 with
    w^6 = xi; (x, y) of the twist corresponds to (x w^2, y w^3) on E(Fp12).  [lineAt l x y xp yp]
    is yp - y w^3 - l w (xp - x w^2): the line of slope l w through that point, at (xp, yp).
    [line12]: the Fp12 element that Fp12::mul_Fp2_024 multiplies by.  The factor k is in Fp2, so
    final_exp removes it. *)
Theorem C41_double c P R X Y Z (x y : K2 c) xc yc (xp yp : FpR (cp c)) : paramInit (snark c) (curveOf c) = Ok P ->
  repR c R (mk3 X Y Z) -> hom (K2F c) (mk3 X Y Z) = @EAff (K2F c) x y -> on_curve (K2F c) (cb2 c) (@EAff (K2F c) x y) -> y <> rz ->
  rep1 c xc xp -> rep1 c yc yp ->
  exists lc lv k l, fst (dblLine c P R xc yc) = lc /\ rep6 c lc lv /\
    rmul l (rmul (radd ro ro) y) = rmul (radd (radd ro ro) ro) (rmul x x) /\ k <> rz /\
    rmul (line12 c lv) (rmul (rmul (iw c) (iw c)) (iw c)) = rmul (e212 c k) (lineAt c l x y xp yp) /\
  exists X' Y' Z', repR c (snd (dblLine c P R xc yc)) (mk3 X' Y' Z') /\
    hom (K2F c) (mk3 X' Y' Z') = ec_add (K2F c) (@EAff (K2F c) x y) (@EAff (K2F c) x y).
Proof. intros HI. exact (dblLine_ok c P (param_par_ok c P HI) R X Y Z x y xc yc xp yp). Qed.
Theorem C41_add c R X Y Z (x y vx vy : K2 c) xq yq xc yc (xp yp : FpR (cp c)) :
  repR c R (mk3 X Y Z) -> hom (K2F c) (mk3 X Y Z) = @EAff (K2F c) x y ->
  on_curve (K2F c) (cb2 c) (@EAff (K2F c) x y) -> on_curve (K2F c) (cb2 c) (@EAff (K2F c) vx vy) -> x <> vx ->
  rep2 c xq vx -> rep2 c yq vy -> rep1 c xc xp -> rep1 c yc yp ->
  exists lc lv k l, fst (addLine c R xq yq xc yc) = lc /\ rep6 c lc lv /\ rmul l (rsub vx x) = rsub vy y /\ k <> rz /\
    rmul (line12 c lv) (rmul (rmul (iw c) (iw c)) (iw c)) = rmul (e212 c k) (lineAt c l x y xp yp) /\
  exists X' Y' Z', repR c (snd (addLine c R xq yq xc yc)) (mk3 X' Y' Z') /\
    hom (K2F c) (mk3 X' Y' Z') = ec_add (K2F c) (@EAff (K2F c) x y) (@EAff (K2F c) vx vy).
Proof. exact (addLine_ok c R X Y Z x y vx vy xq yq xc yc xp yp). Qed.
(** opposite points: the vertical line xp - x w^2, and infinity *)
Theorem C41_add_opposite c R X Y Z (x y : K2 c) xq yq xc yc (xp yp : FpR (cp c)) :
  repR c R (mk3 X Y Z) -> hom (K2F c) (mk3 X Y Z) = @EAff (K2F c) x y -> on_curve (K2F c) (cb2 c) (@EAff (K2F c) x y) -> y <> rz ->
  rep2 c xq x -> rep2 c yq (ropp y) -> rep1 c xc xp -> rep1 c yc yp ->
  exists lc lv k, fst (addLine c R xq yq xc yc) = lc /\ rep6 c lc lv /\ k <> rz /\
    rmul (line12 c lv) (rmul (iw c) (iw c)) = rmul (e212 c k) (rsub (e212 c (e2 c xp)) (utx c x)) /\
  exists X' Y' Z', repR c (snd (addLine c R xq yq xc yc)) (mk3 X' Y' Z') /\ hom (K2F c) (mk3 X' Y' Z') = EInf.
Proof. exact (addLine_vert c R X Y Z x y xq yq xc yc xp yp). Qed.
(** equal points are not supported: the line is 0 and the point becomes (0, 0, 0) *)
Theorem C41_add_equal_refuted c R X Y Z (x y : K2 c) xq yq xc yc (xp yp : FpR (cp c)) :
  repR c R (mk3 X Y Z) -> hom (K2F c) (mk3 X Y Z) = @EAff (K2F c) x y ->
  rep2 c xq x -> rep2 c yq y -> rep1 c xc xp -> rep1 c yc yp ->
  rep6 c (fst (addLine c R xq yq xc yc)) rz /\ repR c (snd (addLine c R xq yq xc yc)) (mk3 rz rz rz).
Proof. exact (addLine_same c R X Y Z x y xq yq xc yc xp yp). Qed.
(** the C++ fallback of the doubling step computes the same as the generated code *)
Theorem C41_fallback c P R v : paramInit (snark c) (curveOf c) = Ok P -> repR c R v -> dblLineWPC c P R = dblLineWP c P R.
Proof. intros HI. exact (dblLineC_same c P (param_par_ok c P HI) R v). Qed.

(** C42.  Any build, any representative (x, y, 0) of infinity. *)
Theorem C42_infinity c P (m2 : mem (fp2O c)) q (m1 : mem (fpO c)) pp : wfP G2 c (m2 q) -> wfP G1 c (m1 pp) ->
  ptP G2 c (m2 q) = EInf \/ ptP G1 c (m1 pp) = EInf ->
  exists m2' m1', opt_ateEc c P m2 q m1 pp = Ok (f12_1 c, m2', m1') /\ sameP G2 c m2 m2' q /\ sameP G1 c m1 m1' pp.
Proof. exact (ec_inf c P m2 q m1 pp). Qed.
Theorem C42_infinity_Jac c P (m2 : mem (fp2O c)) q (m1 : mem (fpO c)) pp : wfP G2 c (m2 q) -> wfP G1 c (m1 pp) ->
  ptP G2 c (m2 q) = EInf \/ ptP G1 c (m1 pp) = EInf -> opt_ateJac c P m2 q m1 pp = Ok (f12_1 c).
Proof. exact (jac_inf c P m2 q m1 pp). Qed.
Theorem C42_one c : rep12 c (f12_1 c) ro.
Proof. exact (one_rep c). Qed.

(** C43.  Any coordinates, on the curve or not: the result is 0 or has order dividing r. *)
Theorem C43_order c P xq yq vx vy x y xp yp : paramInit (snark c) (curveOf c) = Ok P -> snark c = false ->
  rep2 c xq vx -> rep2 c yq vy -> rep1 c x xp -> rep1 c y yp ->
  exists f v, opt_ate c P xq yq x y = Ok f /\ rep12 c f v /\ (v = rz \/ rpz v (cr c) = ro).
Proof. intros HI HB. exact (ate_order c P HI HB xq yq vx vy x y xp yp). Qed.
(** On G2 x E(Fp) it is never 0. *)
Theorem C43_order_points c P : paramInit (snark c) (curveOf c) = Ok P -> snark c = false ->
  exists e, computes c P e /\ forall Q A, inG2 c Q -> onE G1 c A -> rpz (e Q A) (cr c) = ro.
Proof. exact (top_r c P). Qed.

(** C44 *)
Theorem C44_negate c P : paramInit (snark c) (curveOf c) = Ok P -> snark c = false ->
  exists e, computes c P e /\ forall Q A, inG2 c Q -> onE G1 c A ->
    rmul (e Q A) (e (ec_neg (K2F c) Q) A) = ro /\ rmul (e Q A) (e Q (ec_neg (FpF c) A)) = ro.
Proof. exact (top_neg c P). Qed.

(** C45.  precomputeG2, millerLoop and final_exp against opt_atePairingJac: any build. *)
Theorem C45_precomputed c P (m2 : mem (fp2O c)) o i (m1 : mem (fpO c)) pp xp yp : wfP G2 c (m2 i) -> ptP G2 c (m2 i) <> EInf ->
  wfP G1 c (m1 pp) -> ptP G1 c (m1 pp) = @EAff (FpF c) (fv c xp) (fv c yp) -> can c xp -> can c yp ->
  exists v m', precomputeG2 c P m2 o i = Ok (v, m') /\ ptP G2 c (m' o) = ptP G2 c (m2 i) /\
    (let! g := millerLoop c P v xp yp in f12_final_exp c P g) = opt_ateJac c P m2 i m1 pp.
Proof. exact (pre_jac c P m2 o i m1 pp xp yp). Qed.
Theorem C45_precomputed_affine c P xq yq xp yp :
  opt_ate c P xq yq xp yp = (let! f := millerLoop c P (preG2 c P xq yq) xp yp in f12_final_exp c P f).
Proof. exact (pre_ate c P xq yq xp yp). Qed.
(** With Q at infinity they disagree: the precomputed path returns 0, opt_atePairing 1. *)
Theorem C45_infinity_refuted c P (m2 : mem (fp2O c)) o i x y xp yp : paramInit (snark c) (curveOf c) = Ok P -> snark c = false ->
  wfP G2 c (m2 i) -> ptP G2 c (m2 i) = EInf -> rep1 c x xp -> rep1 c y yp ->
  exists v m' g f, precomputeG2 c P m2 o i = Ok (v, m') /\ millerLoop c P v x y = Ok g /\ f12_final_exp c P g = Ok f /\ rep12 c f rz.
Proof. exact (pre_inf c P m2 o i x y xp yp). Qed.
(** millerLoop2 is the product of two Miller loops, for any vectors of line coefficients of
    reduced field elements, such as precomputeG2 returns them. *)
Theorem C45_millerLoop2 c P v1 v2 x1 y1 x2 y2 xp1 yp1 xp2 yp2 f1 f2 : snark c = false -> wfL c v1 -> wfL c v2 ->
  rep1 c x1 xp1 -> rep1 c y1 yp1 -> rep1 c x2 xp2 -> rep1 c y2 yp2 ->
  millerLoop c P v1 x1 y1 = Ok f1 -> millerLoop c P v2 x2 y2 = Ok f2 ->
  exists f g1 g2, millerLoop2 c P v1 x1 y1 v2 x2 y2 = Ok f /\ rep12 c f (rmul g1 g2) /\ rep12 c f1 g1 /\ rep12 c f2 g2.
Proof. intros HB V1 V2 X1 Y1 X2 Y2. exact (millerLoop2_ok c P HB v1 v2 x1 y1 x2 y2 xp1 yp1 xp2 yp2 V1 V2 X1 Y1 X2 Y2 f1 f2). Qed.
Theorem C45_precompute_wf c P xq yq vx vy : paramInit (snark c) (curveOf c) = Ok P -> rep2 c xq vx -> rep2 c yq vy -> wfL c (preG2 c P xq yq).
Proof. intros HI. exact (preG2_wf c P (param_par_ok c P HI) xq yq vx vy). Qed.
Theorem C45_product c P xq yq xq' yq' vx vy vx' vy' x y x' y' xp yp xp' yp' : paramInit (snark c) (curveOf c) = Ok P -> snark c = false ->
  rep2 c xq vx -> rep2 c yq vy -> rep1 c x xp -> rep1 c y yp -> rep2 c xq' vx' -> rep2 c yq' vy' -> rep1 c x' xp' -> rep1 c y' yp' ->
  exists f1 f2 f v1 v2, opt_ate c P xq yq x y = Ok f1 /\ rep12 c f1 v1 /\ opt_ate c P xq' yq' x' y' = Ok f2 /\ rep12 c f2 v2 /\
    (let! m := millerLoop2 c P (preG2 c P xq yq) x y (preG2 c P xq' yq') x' y' in f12_final_exp c P m) = Ok f /\ rep12 c f (rmul v1 v2).
Proof. intros HI HB. exact (ml2_ate c P HI HB xq yq xq' yq' vx vy vx' vy' x y x' y' xp yp xp' yp'). Qed.

(** C46.  Any build; the points need not be on the curves. *)
Theorem C46_representatives c P (m2 m2' : mem (fp2O c)) q q' (m1 m1' : mem (fpO c)) pp pp' :
  wfP G2 c (m2 q) -> wfP G1 c (m1 pp) -> wfP G2 c (m2' q') -> wfP G1 c (m1' pp') ->
  ptP G2 c (m2 q) = ptP G2 c (m2' q') -> ptP G1 c (m1 pp) = ptP G1 c (m1' pp') ->
  opt_ateJac c P m2 q m1 pp = opt_ateJac c P m2' q' m1' pp'.
Proof. exact (jac_indep c P m2 m2' q q' m1 m1' pp pp'). Qed.
Theorem C46_affine c P (m2 : mem (fp2O c)) q (m1 : mem (fpO c)) pp (x y : K2 c) (u v : FpR (cp c)) xq yq xp yp :
  wfP G2 c (m2 q) -> wfP G1 c (m1 pp) -> ptP G2 c (m2 q) = @EAff (K2F c) x y -> ptP G1 c (m1 pp) = @EAff (FpF c) u v ->
  rep2 c xq x -> rep2 c yq y -> rep1 c xp u -> rep1 c yp v ->
  opt_ateJac c P m2 q m1 pp = opt_ate c P xq yq xp yp.
Proof. exact (jac_aff_eq c P m2 q m1 pp x y u v xq yq xp yp). Qed.
Theorem C46_objects c P (m2 : mem (fp2O c)) q (m1 : mem (fpO c)) pp : wfP G2 c (m2 q) -> wfP G1 c (m1 pp) ->
  exists m2' m1', opt_ateEc c P m2 q m1 pp = (let! f := opt_ateJac c P m2 q m1 pp in Ok (f, m2', m1')) /\ sameP G2 c m2 m2' q /\ sameP G1 c m1 m1' pp.
Proof. exact (ec_jac c P m2 q m1 pp). Qed.

(** C47.  One function e on points is computed by both entry points on every representation
    ([computes], PairTop.v); it is additive in both arguments. *)
Theorem C47_bilinear c P : paramInit (snark c) (curveOf c) = Ok P -> snark c = false ->
  exists e, computes c P e /\
  (forall Q Q' A, inG2 c Q -> inG2 c Q' -> onE G1 c A -> e (ec_add (K2F c) Q Q') A = rmul (e Q A) (e Q' A)) /\
  (forall Q A A', inG2 c Q -> onE G1 c A -> onE G1 c A' -> e Q (ec_add (FpF c) A A') = rmul (e Q A) (e Q A')) /\
  (forall a b Q A, 0 <= a -> 0 <= b -> inG2 c Q -> onE G1 c A -> e (ec_mulz (K2F c) a Q) (ec_mulz (FpF c) b A) = rpz (e Q A) (a * b)) /\
  (forall Q A, inG2 c Q -> onE G1 c A -> rmul (e Q A) (e (ec_neg (K2F c) Q) A) = ro /\ rmul (e Q A) (e Q (ec_neg (FpF c) A)) = ro) /\
  (forall Q A, inG2 c Q -> onE G1 c A -> rpz (e Q A) (cr c) = ro) /\
  (forall Q A, onE G1 c A -> Q = EInf \/ A = EInf -> e Q A = ro).
Proof. exact (top c P). Qed.
(** The same through the API: scalar multiplications by Vuint a, b, then opt_atePairing. *)
Theorem C47_api c P (m2 : mem (fp2O c)) q q' (m1 : mem (fpO c)) pp pp' a b : paramInit (snark c) (curveOf c) = Ok P -> snark c = false ->
  vwf a -> vwf b -> q <> Loc 1 -> q' <> Loc 1 -> pp <> Loc 1 -> pp' <> Loc 1 ->
  wfP G2 c (m2 q) -> wfP G1 c (m1 pp) -> inG2 c (ptP G2 c (m2 q)) -> onE G1 c (ptP G1 c (m1 pp)) ->
  exists f x2 x1 v m2' m1' f' y2 y1, opt_ateEc c P m2 q m1 pp = Ok (f, x2, x1) /\ rep12 c f v /\
    ScalarMult_v (fp2O c) m2 q' q a = Ok m2' /\ ScalarMult_v (fpO c) m1 pp' pp b = Ok m1' /\
    opt_ateEc c P m2' q' m1' pp' = Ok (f', y2, y1) /\ rep12 c f' (rpz v (lv a * lv b)).
Proof. intros HI HB. exact (api_mul c P HI HB m2 q q' m1 pp pp' a b). Qed.
(** G2 is closed under the operations and contains the generator of the test-suite. *)
Theorem C47_G2_group c : inG2 c EInf /\ (forall Q R, inG2 c Q -> inG2 c R -> inG2 c (ec_add (K2F c) Q R)) /\
  (forall Q, inG2 c Q -> inG2 c (ec_neg (K2F c) Q)) /\ (forall n Q, inG2 c Q -> inG2 c (ec_mul (K2F c) n Q)).
Proof. exact (conj (G2_O c) (conj (G2_add c) (conj (G2_neg c) (G2_mul c)))). Qed.
Theorem C47_generator : inG2 BNb (ptP G2 BNb (gen2 BNb)) /\ ptP G2 BNb (gen2 BNb) <> EInf.
Proof. exact (conj gen2_inG2 gen2_ninf). Qed.

(** Non-vacuity: the generators meet the hypotheses of C42 - C47. *)
Example pairing_witness : exists P, paramInit (snark BNb) (curveOf BNb) = Ok P /\ snark BNb = false /\
  wfP G2 BNb (gen2 BNb) /\ inG2 BNb (ptP G2 BNb (gen2 BNb)) /\ wfP G1 BNb (gen1 BNb) /\ onE G1 BNb (ptP G1 BNb (gen1 BNb)).
Proof.
  destruct (paramInit_exists BNb) as (P & H). exists P. split; [exact H|]. split; [reflexivity|].
  split; [exact (gen_wf G2 BNb)|]. split; [exact gen2_inG2|]. split; [exact (gen_wf G1 BNb)|exact (gen_on G1 BNb)].
Qed.
Example inf_witness c : wfP G2 c (mk3 (f2_1 c) (f2_1 c) f2_0) /\ ptP G2 c (mk3 (f2_1 c) (f2_1 c) f2_0) = EInf.
Proof. exact (inf_obj c). Qed.
Example line_witness (c := BNb) : exists X Y Z (x y : K2 c), repR c (gen2 c) (mk3 X Y Z) /\ hom (K2F c) (mk3 X Y Z) = @EAff (K2F c) x y /\ on_curve (K2F c) (cb2 c) (@EAff (K2F c) x y) /\ y <> rz.
Proof. exact line_wit. Qed.

(** One query covers all theorems of this file. *)
Definition all_theorems_P_Pair :=
  (@C41_double,
   @C41_add,
   @C41_add_opposite,
   @C41_add_equal_refuted,
   @C41_fallback,
   @C42_infinity,
   @C42_infinity_Jac,
   @C42_one,
   @C43_order,
   @C43_order_points,
   @C44_negate,
   @C45_precomputed,
   @C45_precomputed_affine,
   @C45_infinity_refuted,
   @C45_millerLoop2,
   @C45_precompute_wf,
   @C45_product,
   @C46_representatives,
   @C46_affine,
   @C46_objects,
   @C47_bilinear,
   @C47_api,
   @C47_G2_group,
   @C47_generator).
Print Assumptions all_theorems_P_Pair.
