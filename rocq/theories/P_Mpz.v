(** C52, C53: scalars of type mpz_class and the Java interface.  An mpz_class is the integer it holds
    ([mpz_ok]: fewer than 2^31 limbs, as for every GMP integer). *)
From Coq Require Import ZArith List.
From Verif Require Import Base Prim Power FpSpec Cfg FpM FpProofs TowerSpec TowerField TowerM Fp2Proofs Fp6Proofs ParamM EcSpec EcM EcProofs EcInst EcApi PairM PairBil PairObj Gen2 MpzM MpzProofs MpzJava.
Import ListNotations.
Local Open Scope Z_scope.

(** C52.  mie::power(x, k): the k-fold product for k >= 0 ... *)
Theorem C52_power (T : Type) (mul : T -> T -> T) (one : T) :
  (forall a b c, mul a (mul b c) = mul (mul a b) c) -> (forall a, mul one a = a) -> (forall a, mul a one = a) ->
  forall x k, mpz_ok k -> 0 <= k -> power_z mul one x k = Ok (npow mul one x (Z.to_nat k)).
Proof. exact (power_z_spec mul one). Qed.
(** ... for k < 0 the number of limbs becomes 2^64 - n: the loop reads past the end of the number *)
Theorem C52_power_negative_refuted (T : Type) (mul : T -> T -> T) (one : T) x k : mpz_ok k -> k < 0 -> power_z mul one x k = UB.
Proof. exact (power_z_neg mul one x k). Qed.
(** P * k in both groups *)
Theorem C52_mul g c (m : mem (gO g c)) o i k : mpz_ok k -> 0 <= k -> i <> Loc 1 -> o <> Loc 1 -> wfP g c (m i) -> onE g c (ptP g c (m i)) ->
  exists m', ScalarMult_z (gO g c) m o i k = Ok m' /\ wfP g c (m' o) /\
    ptP g c (m' o) = ec_mul (gK g c) (Z.to_nat k) (ptP g c (m i)) /\ (forall q, o <> q -> Loc 1 <> q -> m' q = m q).
Proof. exact (mul_z_ok g c m o i k). Qed.
(** ... for k < 0 the first access is before the limbs *)
Theorem C52_mul_negative_refuted g c (m : mem (gO g c)) o i k : k < 0 -> ScalarMult_z (gO g c) m o i k = UB.
Proof. exact (mul_z_neg g c m o i k). Qed.
(** toMpz and fromMpz copy the Montgomery contents: they are inverse to each other ... *)
Theorem C52_fromMpz_toMpz c x : can c x -> fp_fromMpz (fp_toMpz x) = Ok x.
Proof. exact (from_to c x). Qed.
(** ... but fromMpz of an integer is not the residue class of that integer, *)
Theorem C52_fromMpz_value_refuted c : exists x, fp_fromMpz 1 = Ok x /\ can c x /\ fv c x <> f1.
Proof. exact (from_int_wrong c). Qed.
(** and of a number of more than 256 bits it writes past the object *)
Theorem C52_fromMpz_overflow_refuted x : W <= Z.abs x -> fp_fromMpz x = UB.
Proof. exact (from_big x). Qed.
Example C52_scalars : mpz_ok 0 /\ mpz_ok (2 ^ 300 + 5) /\ mpz_limbs (2 ^ 130 + 5) = [5; 0; 4] /\ mpz_ok (- 7) /\ M_blockSize (- 7) = 2 ^ 64 - 1.
Proof. unfold mpz_ok. rewrite <- !Z.ltb_lt. repeat split; vm_compute; reflexivity. Qed.
Example C52_point g c : wfP g c (gen g c) /\ onE g c (ptP g c (gen g c)).
Proof. exact (conj (gen_wf g c) (gen_on g c)). Qed.

(** C53.  Programs on Java point objects: whatever the sequence of calls and the aliasing, all objects
    stay valid and denote what the group law gives.  [jok]: set gets coordinates of a point of the
    curve, mul a scalar >= 0. *)
Theorem C53_programs g c P l : paramInit (snark c) (curveOf c) = Ok P -> forall m : mem (gO g c),
  (forall n, wfP g c (m (Obj n)) /\ onE g c (ptP g c (m (Obj n)))) -> Forall (jok g c) l ->
  exists m', jruns (gO g c) (gValid g c P) l m = Ok m' /\ (forall n, wfP g c (m' (Obj n)) /\ onE g c (ptP g c (m' (Obj n)))) /\
    (forall n, ptP g c (m' (Obj n)) = jspecs g c l (fun n => ptP g c (m (Obj n))) n).
Proof. exact (jruns_ok g c P l). Qed.
Example C53_programs_some g c : Forall (jok g c) [JMul 0 12345; JCopy 1 0; JAdd 1 1; JSub 0 1; JDbl 0; JNeg 1; JEquals 0 1; JClear 2] /\
  (forall n, wfP g c ((fun _ => gen g c) (Obj n)) /\ onE g c (ptP g c ((fun _ => gen g c) (Obj n)))).
Proof. exact (jprog_ex g c). Qed.
Example C53_set_some c : jok G1 c (JSet 0 (rr c (g1x c)) (rr c (g1y c))).
Proof. exact (jset_gen1 c). Qed.
(** set with other coordinates throws, but leaves them in the object, which was valid before *)
Theorem C53_set_keeps_old_refuted g c P (m : mem (gO g c)) o x y : paramInit (snark c) (curveOf c) = Ok P -> ok (gX g c) x -> ok (gX g c) y ->
  ~ onE g c (EAff (vl (gX g c) x) (vl (gX g c) y)) ->
  exists m', j_set (gO g c) (gValid g c P) m o x y = Ok (false, m') /\ gValid g c P (m' o) = Ok false.
Proof. exact (set_bad g c P m o x y). Qed.
Example C53_set_bad_some g c : ok (gX g c) (o_0 (gO g c)) /\ ~ onE g c (EAff (vl (gX g c) (o_0 (gO g c))) (vl (gX g c) (o_0 (gO g c)))).
Proof. exact (conj (proj1 (i_0 _ _ (gX g c))) (not_on_0 g c)). Qed.
(** power of field elements by a scalar >= 0 *)
Theorem C53_fp_power c x k : mpz_ok k -> 0 <= k -> can c x -> exists y, jfp_power c x k = Ok y /\ can c y /\ fv c y = rpz (fv c x : FpR (cp c)) k.
Proof. exact (jfp_ok c x k). Qed.
Theorem C53_fp2_power c x v k : mpz_ok k -> 0 <= k -> rep2 c x v -> exists y, jfp2_power c x k = Ok y /\ rep2 c y (rpz v k).
Proof. exact (jfp2_ok c x v k). Qed.
(** the interface is built for the default curve *)
Theorem C53_fp12_power c x v k : snark c = false -> mpz_ok k -> 0 <= k -> rep12 c x v -> exists y, jfp12_power c x k = Ok y /\ rep12 c y (rpz v k).
Proof. exact (jfp12_ok c x v k). Qed.
Theorem C53_power_negative_refuted c k : mpz_ok k -> k < 0 ->
  (forall x, jfp_power c x k = UB) /\ (forall x, jfp2_power c x k = UB) /\ (forall x, jfp12_power c x k = UB).
Proof. exact (jneg c k). Qed.
(** Mpz.mod of a negative number is negative unless it is divided exactly, so that reducing a scalar
    modulo r does not help *)
Theorem C53_mod_negative_refuted x y : 0 < y -> x < 0 -> x mod y <> 0 -> jz_mod x y = Ok (x mod y - y).
Proof. exact (jz_mod_neg x y). Qed.
Theorem C53_GetParamR P : paramInit false (curveOf BNb) = Ok P -> lv (par_r P) = GetParamR.
Proof. exact (paramR_ok P). Qed.
(** e(aQ, bP) = e(Q, P)^(ab) and e(Q, P)^r = 1, as equalities of Java objects *)
Theorem C53_pairing c P (m2 : mem (fp2O c)) q q' (m1 : mem (fpO c)) pp pp' a b : paramInit (snark c) (curveOf c) = Ok P -> snark c = false ->
  mpz_ok a -> mpz_ok b -> mpz_ok (a * b) -> 0 <= a -> 0 <= b -> q <> Loc 1 -> q' <> Loc 1 -> pp <> Loc 1 -> pp' <> Loc 1 ->
  wfP G2 c (m2 q) -> wfP G1 c (m1 pp) -> inG2 c (ptP G2 c (m2 q)) -> onE G1 c (ptP G1 c (m1 pp)) ->
  exists e x2 x1 m2' m1' e' y2 y1, j_pairing c P m2 q m1 pp = Ok (e, x2, x1) /\
    ScalarMult_z (fp2O c) m2 q' q a = Ok m2' /\ ScalarMult_z (fpO c) m1 pp' pp b = Ok m1' /\
    j_pairing c P m2' q' m1' pp' = Ok (e', y2, y1) /\ jfp12_power c e (a * b) = Ok e' /\ jfp12_power c e GetParamR = Ok (f12_1 c).
Proof. exact (fun HI HB => jpairing_mul c P HI HB m2 q q' m1 pp pp' a b). Qed.
Example C53_pairing_some : snark BNb = false /\ wfP G2 BNb (gen2 BNb) /\ inG2 BNb (ptP G2 BNb (gen2 BNb)) /\
  wfP G1 BNb (gen1 BNb) /\ onE G1 BNb (ptP G1 BNb (gen1 BNb)).
Proof. exact (conj eq_refl (conj (gen_wf G2 BNb) (conj gen2_inG2 (conj (gen_wf G1 BNb) (gen_on G1 BNb))))). Qed.

(** One query covers all theorems of this file. *)
Definition all_theorems_P_Mpz :=
  (@C52_power,
   @C52_power_negative_refuted,
   @C52_mul,
   @C52_mul_negative_refuted,
   @C52_fromMpz_toMpz,
   @C52_fromMpz_value_refuted,
   @C52_fromMpz_overflow_refuted,
   @C53_programs,
   @C53_set_keeps_old_refuted,
   @C53_fp_power,
   @C53_fp2_power,
   @C53_fp12_power,
   @C53_power_negative_refuted,
   @C53_mod_negative_refuted,
   @C53_GetParamR,
   @C53_pairing).
Print Assumptions all_theorems_P_Mpz.
