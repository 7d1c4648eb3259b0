(** Properties of points: C34 - C38 and C40.

    Reading guide.  EcSpec.v: [ecpt K] is an affine point or infinity, [on_curve K b] the
    equation y^2 = x^3 + b, [ec_add] the chord-and-tangent law, [ec_mul n P] = P + ... + P.
    [g] is G1 (class Ec1, coordinates in Fp, b) or G2 (class Ec2, coordinates in Fp2, b/xi);
    [gK g c] the field, [onE g c] membership.  An object is a triple of contents; [wfP g c x]:
    z is reduced, and so are x and y unless z = 0; [ptP g c x] is the point it denotes,
    (X/Z^2, Y/Z^3) or infinity (see [C34_objects]).  [m : mem] maps addresses to triples; the output address [o] may
    equal an input address.  [Loc 1] is the callee's local array. *)
From Coq Require Import ZArith Znumtheory List.
From Verif Require Import Base Vuint FpSpec Cfg FpM FpProofs TowerSpec TowerField TowerM Fp2Proofs Frob ParamM Poly EcSpec EcM EcProofs EcInst EcFrob EcApi EcTors.
Import ListNotations.
Local Open Scope Z_scope.

(** What an object denotes. *)
Theorem C34_objects1 c x :
  (wfP G1 c x <-> can c (c3 x) /\ (fv c (c3 x) <> f0 -> can c (a3 x) /\ can c (b3 x))) /\
  ptP G1 c x = jac (FpF c) (mk3 (fv c (a3 x)) (fv c (b3 x)) (fv c (c3 x))).
Proof. exact (conj (wfP_def1 c x) (ptP_def1 c x)). Qed.
Theorem C34_objects2 c x :
  (wfP G2 c x <-> (exists z, rep2 c (c3 x) z /\ (z <> rz -> exists vx vy, rep2 c (a3 x) vx /\ rep2 c (b3 x) vy))) /\
  (forall vx vy vz, rep2 c (a3 x) vx -> rep2 c (b3 x) vy -> rep2 c (c3 x) vz -> ptP G2 c x = jac (K2F c) (mk3 (vx : K2F c) vy vz)).
Proof. exact (conj (wfP_def2 c x) (ptP_def2 c x)). Qed.

(** C34.  Doubling, addition, negation, subtraction; all aliasing, all representatives,
    including infinity, equal and opposite points. *)
Theorem C34_double g c (m : mem (gO g c)) o i : wfP g c (m i) ->
  let m' := ECDouble (gO g c) m o i in
  wfP g c (m' o) /\ ptP g c (m' o) = ec_add (gK g c) (ptP g c (m i)) (ptP g c (m i)) /\ (forall q, o <> q -> m' q = m q).
Proof. exact (pe_dbl g c m o i). Qed.
Theorem C34_add g c (m : mem (gO g c)) o a b : wfP g c (m a) -> wfP g c (m b) -> onE g c (ptP g c (m a)) -> onE g c (ptP g c (m b)) ->
  let m' := ECAdd (gO g c) m o a b in
  wfP g c (m' o) /\ ptP g c (m' o) = ec_add (gK g c) (ptP g c (m a)) (ptP g c (m b)) /\ (forall q, o <> q -> m' q = m q).
Proof. exact (pe_add g c m o a b). Qed.
Theorem C34_neg g c (m : mem (gO g c)) o i : wfP g c (m i) ->
  let m' := ec_neg_m (gO g c) m o i in
  wfP g c (m' o) /\ ptP g c (m' o) = ec_neg (gK g c) (ptP g c (m i)) /\ (forall q, o <> q -> m' q = m q).
Proof. exact (pe_neg g c m o i). Qed.
Theorem C34_sub g c (m : mem (gO g c)) o a b : a <> Loc 1 -> wfP g c (m a) -> wfP g c (m b) -> onE g c (ptP g c (m a)) -> onE g c (ptP g c (m b)) ->
  let m' := ec_sub_m (gO g c) m o a b in
  wfP g c (m' o) /\ ptP g c (m' o) = ec_add (gK g c) (ptP g c (m a)) (ec_neg (gK g c) (ptP g c (m b))) /\ (forall q, o <> q -> Loc 1 <> q -> m' q = m q).
Proof. exact (pe_sub g c m o a b). Qed.
Theorem C34_operator_plus g c (m : mem (gO g c)) a b : wfP g c (m a) -> wfP g c (m b) -> onE g c (ptP g c (m a)) -> onE g c (ptP g c (m b)) ->
  wfP g c (ec_plus (gO g c) m a b) /\ ptP g c (ec_plus (gO g c) m a b) = ec_add (gK g c) (ptP g c (m a)) (ptP g c (m b)).
Proof. exact (pe_plus g c m a b). Qed.
Theorem C34_operator_minus g c (m : mem (gO g c)) a b : a <> Loc 1 -> wfP g c (m a) -> wfP g c (m b) -> onE g c (ptP g c (m a)) -> onE g c (ptP g c (m b)) ->
  wfP g c (ec_minus (gO g c) m a b) /\ ptP g c (ec_minus (gO g c) m a b) = ec_add (gK g c) (ptP g c (m a)) (ec_neg (gK g c) (ptP g c (m b))).
Proof. exact (pe_minus g c m a b). Qed.
(** The points form an abelian group under the law the operations compute. *)
Theorem C34_group g c :
  (forall P Q, onE g c P -> onE g c Q -> onE g c (ec_add (gK g c) P Q)) /\
  (forall P Q R, onE g c P -> onE g c Q -> onE g c R -> ec_add (gK g c) (ec_add (gK g c) P Q) R = ec_add (gK g c) P (ec_add (gK g c) Q R)) /\
  (forall P Q, onE g c P -> onE g c Q -> ec_add (gK g c) P Q = ec_add (gK g c) Q P) /\
  (forall P, ec_add (gK g c) P EInf = P) /\
  (forall P, onE g c P -> onE g c (ec_neg (gK g c) P) /\ ec_add (gK g c) P (ec_neg (gK g c) P) = EInf).
Proof. exact (pe_group g c). Qed.
(** Non-vacuity: the generators of the test-suite, and a second representative of one. *)
Example C34_witness g c : wfP g c (gen g c) /\ onE g c (ptP g c (gen g c)).
Proof. exact (conj (gen_wf g c) (gen_on g c)). Qed.
Example C34_witness_rep c : wfP G1 c (gen1' c) /\ ptP G1 c (gen1' c) = ptP G1 c (gen1 c) /\ gen1' c <> gen1 c.
Proof. exact (conj (gen1'_wf c) (gen1'_eq c)). Qed.

(** C35 *)
Theorem C35_isValid g c P x : paramInit (snark c) (curveOf c) = Ok P -> wfP g c x ->
  exists r, gValid g c P x = Ok r /\ (r = true <-> onE g c (ptP g c x)).
Proof. exact (pe_valid g c P x). Qed.
(** Every sequence of calls on valid objects keeps all objects valid, and refines the same
    sequence of group operations on points. *)
Theorem C35_closure g c l (m : mem (gO g c)) : Forall scal_ok l -> (forall n, wfP g c (m (Obj n)) /\ onE g c (ptP g c (m (Obj n)))) ->
  exists m', runs (gO g c) l m = Ok m' /\ (forall n, wfP g c (m' (Obj n)) /\ onE g c (ptP g c (m' (Obj n)))) /\
    (forall n, ptP g c (m' (Obj n)) = specs (gK g c) l (fun n => ptP g c (m (Obj n))) n).
Proof. exact (pe_runs g c l m). Qed.
Theorem C35_isOnECHom3 c x : wfP G1 c x ->
  exists r, isOnECHom3 c (cb c) x = Ok r /\ (r = true <-> onE G1 c (hom (FpF c) (mk3 (fv c (a3 x)) (fv c (b3 x)) (fv c (c3 x))))).
Proof. exact (pe_onECHom3 c x). Qed.
Theorem C35_isOnECHom2 c x y : can c x -> can c y ->
  exists r, isOnECHom2 c (cb c) x y = Ok r /\ (r = true <-> onE G1 c (EAff (fv c x : FpF c) (fv c y : FpF c))).
Proof. exact (pe_onECHom2 c x y). Qed.
Theorem C35_isOnTwistECHom3 c P x : paramInit (snark c) (curveOf c) = Ok P -> wfP G2 c x ->
  (isOnTwistECHom3 c (par_binvxi P) x = true <-> onE G2 c (hom (K2F c) (mk3 (f2v c (a3 x)) (f2v c (b3 x)) (f2v c (c3 x))))).
Proof. exact (pe_onTwHom3 c P x). Qed.
Theorem C35_isOnTwistECHom2 c P x y vx vy : paramInit (snark c) (curveOf c) = Ok P -> rep2 c x vx -> rep2 c y vy ->
  (isOnTwistECHom2 c (par_binvxi P) x y = true <-> onE G2 c (EAff (vx : K2F c) (vy : K2F c))).
Proof. exact (pe_onTwHom2 c P x y vx vy). Qed.
Example C35_witness_valid c : isOnECJac3 c (cb c) (gen1 c) = Ok true.
Proof. exact (gen1_valid c). Qed.

(** C36 *)
Theorem C36_normalize g c (m : mem (gO g c)) o : wfP g c (m o) ->
  exists m', ec_normalize (gO g c) m o = Ok m' /\ wfP g c (m' o) /\ ptP g c (m' o) = ptP g c (m o) /\ (forall q, o <> q -> m' q = m q) /\
    (ptP g c (m o) = EInf -> m' = m) /\ (ptP g c (m o) <> EInf -> c3 (m' o) = o_1 (gO g c)).
Proof. exact (pe_norm g c m o). Qed.
Theorem C36_NormalizeJac g c (m : mem (gO g c)) o i : wfP g c (m i) ->
  exists m', NormalizeJac (gO g c) m o i = Ok m' /\ wfP g c (m' o) /\ ptP g c (m' o) = ptP g c (m i) /\ (forall q, o <> q -> m' q = m q) /\
    (ptP g c (m i) = EInf -> m' o = mk3 (o_0 (gO g c)) (o_0 (gO g c)) (o_0 (gO g c))) /\
    (forall x y, ptP g c (m i) = EAff x y -> vl (gX g c) (a3 (m' o)) = x /\ vl (gX g c) (b3 (m' o)) = y /\ c3 (m' o) = o_1 (gO g c)).
Proof. exact (pe_normJ g c m o i). Qed.
Theorem C36_NormalizeHom g c (m : mem (gO g c)) o i : wfP g c (m i) ->
  exists m', NormalizeHom (gO g c) m o i = Ok m' /\ wfP g c (m' o) /\ (forall q, o <> q -> m' q = m q) /\
    let P := hom (gK g c) (mk3 (vl (gX g c) (a3 (m i))) (vl (gX g c) (b3 (m i))) (vl (gX g c) (c3 (m i)))) in
    (P = EInf -> m' o = mk3 (o_0 (gO g c)) (o_0 (gO g c)) (o_0 (gO g c))) /\
    (forall x y, P = EAff x y -> vl (gX g c) (a3 (m' o)) = x /\ vl (gX g c) (b3 (m' o)) = y /\ c3 (m' o) = o_1 (gO g c)).
Proof. exact (pe_normH g c m o i). Qed.
(** == decides equality of the denoted points (hence is an equivalence relation) and leaves
    every object denoting the same point. *)
Theorem C36_equal g c (m : mem (gO g c)) a b : wfP g c (m a) -> wfP g c (m b) ->
  exists r m', ec_eq (gO g c) m a b = Ok (r, m') /\ (r = true <-> ptP g c (m a) = ptP g c (m b)) /\
    (forall i, wfP g c (m i) -> wfP g c (m' i) /\ ptP g c (m' i) = ptP g c (m i)) /\ (forall i, a <> i -> b <> i -> m' i = m i).
Proof. exact (pe_eq g c m a b). Qed.

(** C37 *)
Theorem C37_mul g c (m : mem (gO g c)) o i k : vwf k -> i <> Loc 1 -> o <> Loc 1 -> wfP g c (m i) -> onE g c (ptP g c (m i)) ->
  exists m', ScalarMult_v (gO g c) m o i k = Ok m' /\ wfP g c (m' o) /\
    ptP g c (m' o) = ec_mul (gK g c) (Z.to_nat (lv k)) (ptP g c (m i)) /\ (forall q, o <> q -> Loc 1 <> q -> m' q = m q).
Proof. exact (pe_mul g c m o i k). Qed.
Theorem C37_mul_size_t g c (m : mem (gO g c)) o i k : 0 <= k < 2 ^ 64 -> i <> Loc 1 -> o <> Loc 1 -> wfP g c (m i) -> onE g c (ptP g c (m i)) ->
  exists m', ScalarMult_size (gO g c) m o i k = Ok m' /\ wfP g c (m' o) /\
    ptP g c (m' o) = ec_mul (gK g c) (Z.to_nat k) (ptP g c (m i)) /\ (forall q, o <> q -> Loc 1 <> q -> m' q = m q).
Proof. exact (pe_mul_size g c m o i k). Qed.
Theorem C37_mul_int g c (m : mem (gO g c)) o i k : 0 <= k < 2 ^ 31 -> i <> Loc 1 -> o <> Loc 1 -> wfP g c (m i) -> onE g c (ptP g c (m i)) ->
  exists m', ScalarMult_int (gO g c) m o i k = Ok m' /\ wfP g c (m' o) /\
    ptP g c (m' o) = ec_mul (gK g c) (Z.to_nat k) (ptP g c (m i)) /\ (forall q, o <> q -> Loc 1 <> q -> m' q = m q).
Proof. exact (pe_mul_int g c m o i k). Qed.
Theorem C37_laws g c P Q a b : onE g c P -> onE g c Q ->
  ec_mul (gK g c) (a + b) P = ec_add (gK g c) (ec_mul (gK g c) a P) (ec_mul (gK g c) b P) /\
  ec_mul (gK g c) (a * b) P = ec_mul (gK g c) a (ec_mul (gK g c) b P) /\
  ec_mul (gK g c) a (ec_add (gK g c) P Q) = ec_add (gK g c) (ec_mul (gK g c) a P) (ec_mul (gK g c) a Q) /\ onE g c (ec_mul (gK g c) a P).
Proof. exact (pe_mul_laws g c P Q a b). Qed.
(** A negative int is not accepted as the negative multiple: it stands for 2^32 + k, which on
    E gives the wrong point for every k and every P other than infinity. *)
Theorem C37_negative_int g c (m : mem (gO g c)) o i k : - 2 ^ 31 <= k < 0 -> i <> Loc 1 -> o <> Loc 1 -> wfP g c (m i) -> onE g c (ptP g c (m i)) ->
  exists m', ScalarMult_int (gO g c) m o i k = Ok m' /\ wfP g c (m' o) /\
    ptP g c (m' o) = ec_mul (gK g c) (Z.to_nat (2 ^ 32 + k)) (ptP g c (m i)) /\ (forall q, o <> q -> Loc 1 <> q -> m' q = m q).
Proof. exact (pe_mul_nint g c m o i k). Qed.
Theorem C37_negative_int_refuted c (P : ecpt (FpF c)) k : - 2 ^ 31 <= k < 0 -> onE G1 c P -> P <> EInf ->
  ec_mul (FpF c) (Z.to_nat (2 ^ 32 + k)) P <> ec_neg (FpF c) (ec_mul (FpF c) (Z.to_nat (- k)) P).
Proof. exact (nint_wrong c P k). Qed.
Theorem C37_no_two_torsion c (P : ecpt (FpF c)) : onE G1 c P -> ec_add (FpF c) P P = EInf -> P = EInf.
Proof. exact (no_2tors c P). Qed.

(** C38.  set(x, y, z) and set(x, y) with verification. *)
Theorem C38_set3 g c P (m : mem (gO g c)) o x y z : paramInit (snark c) (curveOf c) = Ok P -> ok (gX g c) x -> ok (gX g c) y -> ok (gX g c) z ->
  let J := jac (gK g c) (mk3 (vl (gX g c) x) (vl (gX g c) y) (vl (gX g c) z)) in
  (onE g c J -> exists m', ec_set3 (gO g c) (gValid g c P) m o x y z true = Ok m' /\ m' o = mk3 x y z /\ (forall q, o <> q -> m' q = m q)) /\
  (~ onE g c J -> ec_set3 (gO g c) (gValid g c P) m o x y z true = Throw).
Proof. exact (pe_set g c P m o x y z). Qed.
Theorem C38_set2 g c P (m : mem (gO g c)) o x y : paramInit (snark c) (curveOf c) = Ok P -> ok (gX g c) x -> ok (gX g c) y ->
  let J := EAff (vl (gX g c) x) (vl (gX g c) y) in
  (onE g c J -> exists m', ec_set2 (gO g c) (gValid g c P) m o x y true = Ok m' /\ wfP g c (m' o) /\ ptP g c (m' o) = J /\ (forall q, o <> q -> m' q = m q)) /\
  (~ onE g c J -> ec_set2 (gO g c) (gValid g c P) m o x y true = Throw).
Proof. exact (pe_set2 g c P m o x y). Qed.

(** C40.  [utx], [uty]: the isomorphism (x, y) -> (x w^2, y w^3) from the twist to E over Fp12. *)
Theorem C40_untwist c (x y : K2 c) : onE G2 c (EAff (x : K2F c) (y : K2F c)) ->
  rmul (uty c y) (uty c y) = radd (rmul (rmul (utx c x) (utx c x)) (utx c x)) (e212 c (e2 c (mk (cp c) (cb c)))).
Proof. intros H. unfold onE in H. rewrite gb2 in H. exact (untwist_on c x y H). Qed.
Theorem C40_untwist_inj c x y x' y' : utx c x = utx c x' -> uty c y = uty c y' -> x = x' /\ y = y'.
Proof. exact (fun A B => conj (utx_inj c x x' A) (uty_inj c y y' B)). Qed.
Theorem C40_frob1 c P : paramInit (snark c) (curveOf c) = Ok P -> forall x y vx vy, rep2 c x vx -> rep2 c y vy ->
  exists wx wy, rep2 c (fst (FrobEnd1 c P x y)) wx /\ rep2 c (snd (FrobEnd1 c P x y)) wy /\
    utx c wx = rpz (utx c vx) (cp c) /\ uty c wy = rpz (uty c vy) (cp c).
Proof. exact (pe_fr1 c P). Qed.
Theorem C40_frob2 c P : paramInit (snark c) (curveOf c) = Ok P -> forall x y vx vy, rep2 c x vx -> rep2 c y vy ->
  exists wx wy, rep2 c (fst (FrobEnd2 c P x y)) wx /\ rep2 c (snd (FrobEnd2 c P x y)) wy /\
    utx c wx = rpz (utx c vx) (cp c ^ 2) /\ uty c wy = rpz (uty c vy) (cp c ^ 2).
Proof. exact (pe_fr2 c P). Qed.
Theorem C40_frob8 c P : paramInit (snark c) (curveOf c) = Ok P -> forall x y vx vy, rep2 c x vx -> rep2 c y vy ->
  exists wx wy, rep2 c (fst (FrobEnd8 c P x y)) wx /\ rep2 c (snd (FrobEnd8 c P x y)) wy /\
    utx c wx = rpz (utx c vx) (cp c ^ 8) /\ uty c wy = rpz (uty c vy) (cp c ^ 8).
Proof. exact (pe_fr8 c P). Qed.
(** It is an endomorphism of the twist. *)
Theorem C40_endomorphism c P : paramInit (snark c) (curveOf c) = Ok P -> exists psi : ecpt (K2F c) -> ecpt (K2F c),
  psi EInf = EInf /\
  (forall x y vx vy, rep2 c x vx -> rep2 c y vy -> exists wx wy, rep2 c (fst (FrobEnd1 c P x y)) wx /\ rep2 c (snd (FrobEnd1 c P x y)) wy /\ psi (EAff (vx : K2F c) (vy : K2F c)) = EAff (wx : K2F c) (wy : K2F c)) /\
  (forall Q, onE G2 c Q -> onE G2 c (psi Q)) /\
  (forall Q R, onE G2 c Q -> onE G2 c R -> psi (ec_add (K2F c) Q R) = ec_add (K2F c) (psi Q) (psi R)).
Proof. exact (pe_psi c P). Qed.
Example C40_witness c : exists P, paramInit (snark c) (curveOf c) = Ok P.
Proof. destruct (paramInit_exists c) as (P & H). exact (ex_intro _ P H). Qed.

(** One query covers all theorems of this file. *)
Definition all_theorems_P_Ec :=
  (@C34_objects1,
   @C34_objects2,
   @C34_double,
   @C34_add,
   @C34_neg,
   @C34_sub,
   @C34_operator_plus,
   @C34_operator_minus,
   @C34_group,
   @C35_isValid,
   @C35_closure,
   @C35_isOnECHom3,
   @C35_isOnECHom2,
   @C35_isOnTwistECHom3,
   @C35_isOnTwistECHom2,
   @C36_normalize,
   @C36_NormalizeJac,
   @C36_NormalizeHom,
   @C36_equal,
   @C37_mul,
   @C37_mul_size_t,
   @C37_mul_int,
   @C37_laws,
   @C37_negative_int,
   @C37_negative_int_refuted,
   @C37_no_two_torsion,
   @C38_set3,
   @C38_set2,
   @C40_untwist,
   @C40_untwist_inj,
   @C40_frob1,
   @C40_frob2,
   @C40_frob8,
   @C40_endomorphism).
Print Assumptions all_theorems_P_Ec.
