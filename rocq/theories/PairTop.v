(** The pairing as a map on points: statements used by P_Pair.v. *)
From Coq Require Import ZArith Znumtheory Lia Ring List Bool.
From Verif Require Import Base Vuint FpSpec Primes Cfg FpM FpProofs TowerSpec TowerField TowerM Fp2Proofs Fp6Proofs Frob ParamM ParamProofs FinalM FinalProofs TowerApi Poly EcSpec EcGroup EcM EcProofs EcInst EcFrob EcApi PairM PairProofs PairBil PairLin PairApi PairObj.
Import ListNotations.
Local Open Scope Z_scope.

(** ** The precomputed loop does not special-case infinity: precomputeG2 of a point at
    infinity works on (0, 0), and every line but the first two vanishes. *)
Section Inf.
Local Open Scope r_scope.
Variable c : cfg.
Variable P : param.
Hypothesis HP : par_ok c P.
Hypothesis HB : snark c = false.
Add Ring KR2i : (rth (K2 c)).
Add Ring KR6i : (rth (K6 c)).
Add Ring KR12i : (rth (K12 c)).
Local Notation O3 := (@mk3 (K2 c) 0 0 0).
Lemma evl_0 xp yp : evl c (@mk3 (K2 c) 0 0 0) xp yp = 0.
Proof using. unfold evl. cbn [a3 b3 c3]. unfold line12. apply F2_eq; apply F3_eq; cbn [radd rmul rsub ropp rz ro K12 quad qadd qsub qopp qmul q0 q1 K6 cubic kadd ksub kopp kmul k0 k1 kgen a2 b2 a3 b3 c3]; try reflexivity; ring. Qed.
Lemma dblL_0 : dblL c 0 0 0 = O3. Proof using. unfold dblL. f_equal; ring. Qed.
Lemma dblV_0 : dblV c 0 0 0 = O3. Proof using. unfold dblV. f_equal; ring. Qed.
Lemma addL_0 u v : addL c 0 0 0 u v = O3. Proof using. unfold addL. f_equal; ring. Qed.
Lemma addV_0 u v : addV c 0 0 0 u v = O3. Proof using. unfold addV. f_equal; ring. Qed.
Lemma add_dbl_0 : exists y, dblV c 0 0 1 = mk3 0 y 0.
Proof using. unfold dblV. eexists. f_equal; ring. Qed.
Lemma addV_y y : addV c 0 y 0 0 0 = O3. Proof using. unfold addV. f_equal; ring. Qed.
Lemma si_long : exists d ds, skipn 2 (par_si P) = d :: ds.
Proof using HP HB.
  destruct (ok_si c P HP) as (Hb & _). destruct (ok_si2 c P HP) as ([|d ds] & E); [|exists d, ds; rewrite E; reflexivity].
  exfalso. rewrite E, (is_BNb c HB) in Hb. vm_compute in Hb. discriminate Hb.
Qed.
Lemma step0 xq yq yqn x y xp yp f g T d : rep2 c xq 0 -> rep2 c yq 0 -> rep2 c yqn 0 -> rep1 c x xp -> rep1 c y yp -> rep12 c f g -> repR c T O3 ->
  let s := miller_step c P xq yq yqn x y (f, T) d in rep12 c (fst s) 0 /\ repR c (snd s) O3.
Proof using HP HB.
  intros Hx Hy Hn Hxp Hyp Hf HT. cbv zeta. unfold miller_step. destruct (dblLine_rep c P HP T O3 x y xp yp HT Hxp Hyp) as (l & Rl & El & RT).
  cbn [a3 b3 c3] in El, RT. rewrite dblL_0, evl_0 in El. rewrite dblV_0 in RT.
  destruct (dblLine c P T x y) as [l1 T1]. cbn [fst snd] in *.
  pose proof (f12_mul_024_rep c _ _ _ _ (f12_square_rep c (cp_6_c c HB) _ _ Hf) Rl) as R1. rewrite El in R1.
  assert (R0 : rep12 c (f12_mul_024 c (f12_square c f) l1) 0) by (eapply (rep12_eq c); [exact R1|ring]).
  assert (AD : forall yy, rep2 c yy 0 -> rep12 c (f12_mul_024 c (f12_mul_024 c (f12_square c f) l1) (fst (addLine c T1 xq yy x y))) 0 /\ repR c (snd (addLine c T1 xq yy x y)) O3).
  { intros yy Hyy. destruct (addLine_rep c T1 O3 xq yy 0 0 x y xp yp RT Hx Hyy Hxp Hyp) as (l2 & Rl2 & El2 & RT2). cbn [a3 b3 c3] in El2, RT2. rewrite addV_0 in RT2. split; [|exact RT2].
    eapply (rep12_eq c); [exact (f12_mul_024_rep c _ _ _ _ R0 Rl2)|]. ring. }
  destruct (d >? 0)%Z; [|destruct (d <? 0)%Z].
  - specialize (AD yq Hy). destruct (addLine c T1 xq yq x y) as [l2 T2]. exact AD.
  - specialize (AD yqn Hn). destruct (addLine c T1 xq yqn x y) as [l2 T2]. exact AD.
  - split; [exact R0|exact RT].
Qed.
Lemma fold0 xq yq yqn x y xp yp ds : rep2 c xq 0 -> rep2 c yq 0 -> rep2 c yqn 0 -> rep1 c x xp -> rep1 c y yp ->
  forall f T, rep12 c f 0 -> repR c T O3 -> let s := fold_left (miller_step c P xq yq yqn x y) ds (f, T) in rep12 c (fst s) 0 /\ repR c (snd s) O3.
Proof using HP HB.
  intros Hx Hy Hn Hxp Hyp. induction ds as [|d ds IH]; intros f T Hf HT; cbn [fold_left]; [split; assumption|].
  destruct (step0 xq yq yqn x y xp yp f 0 T d Hx Hy Hn Hxp Hyp Hf HT) as [A B]. destruct (miller_step c P xq yq yqn x y (f, T) d) as [f1 T1]. exact (IH f1 T1 A B).
Qed.
Lemma neg0 : ropp (0 : K2 c) = 0. Proof using. ring. Qed.
Lemma miller_0 xq yq x y xp yp : rep2 c xq 0 -> rep2 c yq 0 -> rep1 c x xp -> rep1 c y yp -> rep12 c (miller c P xq yq x y) 0.
Proof using HP HB.
  intros Hx Hy Hxp Hyp. destruct (miller_val c P HP HB xq yq 0 0 x y xp yp Hx Hy Hxp Hyp) as (g & Rg). revert Rg. unfold miller.
  assert (Hn : rep2 c (f2_neg c yq) 0). { pose proof (f2_neg_rep c _ _ Hy) as H. rewrite neg0 in H. exact H. }
  assert (R0 : repR c (mk3 xq yq (f2_1 c)) (mk3 0 0 1)) by (split; [exact Hx|]; split; [exact Hy|exact (f2_1_rep_ c)]).
  destruct (dblLine_rep c P HP _ _ x y xp yp R0 Hxp Hyp) as (ld & Rd & _ & R1). cbn [a3 b3 c3] in R1. destruct add_dbl_0 as (yd & Ed). rewrite Ed in R1.
  destruct (dblLine c P (mk3 xq yq (f2_1 c)) x y) as [d T]. cbn [fst snd] in *.
  destruct (addLine_rep c T _ xq yq 0 0 x y xp yp R1 Hx Hy Hxp Hyp) as (le & Re & _ & R2). cbn [a3 b3 c3] in R2. rewrite addV_y in R2.
  destruct (addLine c T xq yq x y) as [e T0]. cbn [fst snd] in *.
  pose proof (f12_mul_024_024_rep c _ _ _ _ Rd Re) as Rf.
  assert (F : let s := fold_left (miller_step c P xq yq (f2_neg c yq) x y) (skipn 2 (par_si P)) (f12_mul_024_024 c d e, T0) in rep12 c (fst s) 0 /\ repR c (snd s) O3).
  { destruct si_long as (d0 & ds & Es). rewrite Es. cbn [fold_left].
    destruct (step0 xq yq (f2_neg c yq) x y xp yp _ _ T0 d0 Hx Hy Hn Hxp Hyp Rf R2) as [A B]. destruct (miller_step c P xq yq (f2_neg c yq) x y (f12_mul_024_024 c d e, T0) d0) as [f1 T1].
    exact (fold0 xq yq (f2_neg c yq) x y xp yp ds Hx Hy Hn Hxp Hyp f1 T1 A B). }
  destruct (fold_left (miller_step c P xq yq (f2_neg c yq) x y) (skipn 2 (par_si P)) (f12_mul_024_024 c d e, T0)) as [f1 T1]. cbn [fst snd] in F. destruct F as [F1 F2].
  rewrite HB. destruct (FrobEnd1_rep c P xq yq 0 0 HP Hx Hy) as [G1 G2]. destruct (FrobEnd1 c P xq yq) as [xq1 yq1]. cbn [fst snd] in G1, G2.
  destruct (FrobEnd8_rep c P xq yq 0 0 HP Hx Hy) as [G3 G4]. destruct (FrobEnd8 c P xq yq) as [xq2 yq2]. cbn [fst snd] in G3, G4.
  assert (R4 : repR c (mk3 (a3 T1) (f2_neg c (b3 T1)) (c3 T1)) O3).
  { destruct F2 as (Q1 & Q2 & Q3). split; [exact Q1|]. split; [|exact Q3]. pose proof (f2_neg_rep c _ _ Q2) as H. cbn [b3] in H. rewrite neg0 in H. exact H. }
  destruct (addLine_rep c _ _ xq1 yq1 _ _ x y xp yp R4 G1 G2 Hxp Hyp) as (l1 & Rl1 & _ & R5). destruct (addLine c _ xq1 yq1 x y) as [d1 T3]. cbn [fst snd] in Rl1, R5.
  destruct (addLine_rep c _ _ xq2 yq2 _ _ x y xp yp R5 G3 G4 Hxp Hyp) as (l2 & Rl2 & _ & _). destruct (addLine c T3 xq2 yq2 x y) as [d2 T4]. cbn [fst snd] in Rl2.
  intros _. pose proof (f12_mul_rep c (cp_6_c c HB) _ _ _ _ (f12_conj_rep c _ _ F1) (f12_mul_024_024_rep c _ _ _ _ Rl1 Rl2)) as R.
  eapply (rep12_eq c); [exact R|]. replace (conj12 c (0 : K12 c)) with (0 : K12 c); [ring|]. unfold conj12. apply F2_eq; cbn [rz K12 quad q0 a2 b2 ropp]; [reflexivity|ring].
Qed.
End Inf.

(** precomputeG2, millerLoop and final_exp with Q at infinity give 0 - not 1 as opt_atePairing *)
Lemma pre_inf c P (m2 : mem (fp2O c)) o i x y xp yp : paramInit (snark c) (curveOf c) = Ok P -> snark c = false ->
  wfP G2 c (m2 i) -> ptP G2 c (m2 i) = EInf -> rep1 c x xp -> rep1 c y yp ->
  exists v m' g f, precomputeG2 c P m2 o i = Ok (v, m') /\ millerLoop c P v x y = Ok g /\ f12_final_exp c P g = Ok f /\ rep12 c f rz.
Proof.
  intros HI HB W E Hx Hy. destruct (pe_normJ G2 c m2 o i W) as (m' & En & _ & _ & _ & Z & _). specialize (Z E). cbn [gO] in En.
  unfold precomputeG2. rewrite En. cbn [bind]. exists (preG2 c P (o_0 (fp2O c)) (o_0 (fp2O c))), m'.
  assert (Z0 : rep2 c (o_0 (fp2O c)) rz) by exact (f2_0_rep c).
  assert (Za : a3 (m' o) = o_0 (fp2O c)) by (transitivity (a3 (mk3 (o_0 (gO G2 c)) (o_0 (gO G2 c)) (o_0 (gO G2 c)))); [exact (f_equal a3 Z)|reflexivity]).
  assert (Zb : b3 (m' o) = o_0 (fp2O c)) by (transitivity (b3 (mk3 (o_0 (gO G2 c)) (o_0 (gO G2 c)) (o_0 (gO G2 c)))); [exact (f_equal b3 Z)|reflexivity]).
  pose proof (miller_0 c P (param_par_ok c P HI) HB _ _ x y xp yp Z0 Z0 Hx Hy) as R0.
  destruct (fexp_zero c P HI HB _ R0) as (f & Ef & Rf). exists (miller c P (o_0 (fp2O c)) (o_0 (fp2O c)) x y), f.
  split; [exact (f_equal2 (fun a b => Ok (preG2 c P a b, m')) Za Zb)|]. split; [exact (pre_miller c P _ _ x y)|]. split; [exact Ef|exact Rf].
Qed.
(** ... and away from infinity they agree with opt_atePairingJac *)
Lemma pre_jac c P (m2 : mem (fp2O c)) o i (m1 : mem (fpO c)) pp xp yp : wfP G2 c (m2 i) -> ptP G2 c (m2 i) <> EInf ->
  wfP G1 c (m1 pp) -> ptP G1 c (m1 pp) = @EAff (FpF c) (fv c xp) (fv c yp) -> can c xp -> can c yp ->
  exists v m', precomputeG2 c P m2 o i = Ok (v, m') /\ ptP G2 c (m' o) = ptP G2 c (m2 i) /\ (let! g := millerLoop c P v xp yp in f12_final_exp c P g) = opt_ateJac c P m2 i m1 pp.
Proof.
  intros W N W1 E1 Hx Hy. destruct (pe_normJ G2 c m2 o i W) as (m' & En & W' & V & _ & _ & A). cbn [gO] in En.
  unfold precomputeG2. rewrite En. cbn [bind]. exists (preG2 c P (a3 (m' o)) (b3 (m' o))), m'. split; [reflexivity|]. split; [exact V|].
  rewrite <- pre_ate. destruct (ptP G2 c (m2 i)) as [|x y] eqn:E; [contradiction N; reflexivity|]. destruct (A x y eq_refl) as (A1 & A2 & A3).
  assert (Nz : vl (gX G2 c) (c3 (m' o)) <> rz).
  { intros F. apply (inf_z c G2 (m' o) W') in F. rewrite V in F. discriminate F. }
  destruct W' as [_ W']. destruct (W' Nz) as [Wa Wb].
  symmetry. apply (jac_aff_eq c P m2 i m1 pp x y (fv c xp) (fv c yp) _ _ _ _ W W1 E E1).
  - rewrite <- A1. exact (proj2 (rep2_can2 c _ _) (conj Wa eq_refl)).
  - rewrite <- A2. exact (proj2 (rep2_can2 c _ _) (conj Wb eq_refl)).
  - exact (conj Hx eq_refl).
  - exact (conj Hy eq_refl).
Qed.

Section Top.
Variable c : cfg.
Variable P : param.
Hypothesis HI : paramInit (snark c) (curveOf c) = Ok P.
Hypothesis HB : snark c = false.
Lemma onE2 Q : inG2 c Q -> onE G2 c Q.
Proof using. intros [H _]. unfold onE. rewrite gb2. exact H. Qed.
Lemma vwf_nn a : vwf a -> 0 <= lv a.
Proof using. intros [H _]. apply lv_nonneg, H. Qed.
(** [e] is what both entry points compute, on every representation of the two points. *)
Definition computes (e : ecpt (K2F c) -> ecpt (FpF c) -> K12 c) : Prop :=
  forall (m2 : mem (fp2O c)) q (m1 : mem (fpO c)) pp, wfP G2 c (m2 q) -> wfP G1 c (m1 pp) -> inG2 c (ptP G2 c (m2 q)) -> onE G1 c (ptP G1 c (m1 pp)) ->
    exists f m2' m1', opt_ateEc c P m2 q m1 pp = Ok (f, m2', m1') /\ opt_ateJac c P m2 q m1 pp = Ok f /\ rep12 c f (e (ptP G2 c (m2 q)) (ptP G1 c (m1 pp))) /\
      sameP G2 c m2 m2' q /\ sameP G1 c m1 m1' pp.
Lemma computes_epv : computes (epv c).
Proof using HI HB.
  intros m2 q m1 pp W2 W1 HQ HA. destruct (jac_ok c P HI HB m2 q m1 pp W2 W1 HQ HA) as (f & Ef & Rf). destruct (ec_jac c P m2 q m1 pp W2 W1) as (m2' & m1' & E & S2 & S1). rewrite Ef in E.
  exists f, m2', m1'. split; [exact E|]. split; [exact Ef|]. split; [exact Rf|]. split; [exact S2|exact S1].
Qed.
Lemma top : exists e, computes e /\
  (forall Q Q' A, inG2 c Q -> inG2 c Q' -> onE G1 c A -> e (ec_add (K2F c) Q Q') A = rmul (e Q A) (e Q' A)) /\
  (forall Q A A', inG2 c Q -> onE G1 c A -> onE G1 c A' -> e Q (ec_add (FpF c) A A') = rmul (e Q A) (e Q A')) /\
  (forall a b Q A, 0 <= a -> 0 <= b -> inG2 c Q -> onE G1 c A -> e (ec_mulz (K2F c) a Q) (ec_mulz (FpF c) b A) = rpz (e Q A) (a * b)) /\
  (forall Q A, inG2 c Q -> onE G1 c A -> rmul (e Q A) (e (ec_neg (K2F c) Q) A) = ro /\ rmul (e Q A) (e Q (ec_neg (FpF c) A)) = ro) /\
  (forall Q A, inG2 c Q -> onE G1 c A -> rpz (e Q A) (cr c) = ro) /\
  (forall Q A, onE G1 c A -> Q = EInf \/ A = EInf -> e Q A = ro).
Proof using HI HB.
  exists (epv c). split; [exact computes_epv|]. split; [intros; apply epv_add_l; assumption|]. split; [intros; apply epv_add_r; assumption|].
  split; [intros a b Q A Ha Hb HQ HA; exact (epv_mulz c HB a b Q A Ha Hb HQ HA)|]. split.
  { intros Q A HQ HA. split; [exact (epv_neg_l c HB Q A HQ HA)|exact (epv_neg c HB Q A HQ HA)]. }
  split; [intros Q A HQ HA; exact (epv_r c HB Q A HQ HA)|]. intros Q A HA H. exact (epv_O c HB Q A HA H).
Qed.
(** The calls a user makes: b P and a Q by scalar multiplication, then the pairing. *)
Lemma api_mul (m2 : mem (fp2O c)) q q' (m1 : mem (fpO c)) pp pp' a b : vwf a -> vwf b ->
  q <> Loc 1 -> q' <> Loc 1 -> pp <> Loc 1 -> pp' <> Loc 1 ->
  wfP G2 c (m2 q) -> wfP G1 c (m1 pp) -> inG2 c (ptP G2 c (m2 q)) -> onE G1 c (ptP G1 c (m1 pp)) ->
  exists f x2 x1 v m2' m1' f' y2 y1, opt_ateEc c P m2 q m1 pp = Ok (f, x2, x1) /\ rep12 c f v /\
    ScalarMult_v (fp2O c) m2 q' q a = Ok m2' /\ ScalarMult_v (fpO c) m1 pp' pp b = Ok m1' /\
    opt_ateEc c P m2' q' m1' pp' = Ok (f', y2, y1) /\ rep12 c f' (rpz v (lv a * lv b)).
Proof using HI HB.
  intros Ha Hb N1 N2 N3 N4 W2 W1 HQ HA. destruct (computes_epv m2 q m1 pp W2 W1 HQ HA) as (f & x2 & x1 & E & _ & R & _).
  destruct (pe_mul G2 c m2 q' q a Ha N1 N2 W2 (onE2 _ HQ)) as (m2' & E2 & D2 & V2 & _).
  destruct (pe_mul G1 c m1 pp' pp b Hb N3 N4 W1 HA) as (m1' & E1 & D1 & V1 & _).
  assert (HQ' : inG2 c (ptP G2 c (m2' q'))) by (rewrite V2; apply G2_mul, HQ).
  assert (HA' : onE G1 c (ptP G1 c (m1' pp'))) by (rewrite V1; apply onF_mul, HA).
  destruct (computes_epv m2' q' m1' pp' D2 D1 HQ' HA') as (f' & y2 & y1 & E' & _ & R' & _).
  exists f, x2, x1, (epv c (ptP G2 c (m2 q)) (ptP G1 c (m1 pp))), m2', m1', f', y2, y1.
  split; [exact E|]. split; [exact R|]. split; [exact E2|]. split; [exact E1|]. split; [exact E'|].
  rewrite V2, V1 in R'. rewrite <- (epv_mulz c HB (lv a) (lv b) _ _ (vwf_nn a Ha) (vwf_nn b Hb) HQ HA). exact R'.
Qed.
End Top.
Section Top2.
Variable c : cfg.
Variable P : param.
Hypothesis HI : paramInit (snark c) (curveOf c) = Ok P.
Hypothesis HB : snark c = false.
Lemma top_r : exists e, computes c P e /\ forall Q A, inG2 c Q -> onE G1 c A -> rpz (e Q A) (cr c) = ro.
Proof using HI HB. destruct (top c P HI HB) as (e & C & _ & _ & _ & _ & R & _). exists e. split; [exact C|exact R]. Qed.
Lemma top_neg : exists e, computes c P e /\ forall Q A, inG2 c Q -> onE G1 c A ->
    rmul (e Q A) (e (ec_neg (K2F c) Q) A) = ro /\ rmul (e Q A) (e Q (ec_neg (FpF c) A)) = ro.
Proof using HI HB. destruct (top c P HI HB) as (e & C & _ & _ & _ & R & _). exists e. split; [exact C|exact R]. Qed.
End Top2.
Lemma inf_obj c : wfP G2 c (mk3 (f2_1 c) (f2_1 c) f2_0) /\ ptP G2 c (mk3 (f2_1 c) (f2_1 c) f2_0) = EInf.
Proof.
  destruct (i_0 _ _ (impl2 c)) as [O0 V0]. assert (W : wfP G2 c (mk3 (f2_1 c) (f2_1 c) f2_0)) by (split; [exact O0|intros N; contradiction N; exact V0]).
  split; [exact W|]. apply (inf_z c G2 _ W). exact V0.
Qed.
