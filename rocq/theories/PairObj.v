(** The pairing of point objects. *)
From Coq Require Import ZArith Znumtheory Lia Ring List Bool.
From Verif Require Import Base Prim FpSpec Pock Primes Cfg FpProofs FpM TowerSpec TowerField TowerM Fp2Proofs Fp6Proofs Frob ParamM ParamProofs FinalM FinalProofs FinalExp TowerApi Poly EcSpec EcGroup EcM EcProofs EcInst EcFrob EcApi EcTors Cocyc Biext Vuint VuintProofs PairM PairProofs PairE PairH PairStep PairBil PairLin PairApi.
Import ListNotations.
Local Open Scope Z_scope.

(** the object at [o] still denotes the same point; nothing else changed *)
Definition sameP g c (m m' : mem (gO g c)) (o : ptr) : Prop := wfP g c (m' o) /\ ptP g c (m' o) = ptP g c (m o) /\ forall q, o <> q -> m' q = m q.

Section Obj.
Variable c : cfg.
Variable P : param.
Lemma inf_z g x : wfP g c x -> (ptP g c x = EInf <-> vl (gX g c) (c3 x) = rz).
Proof using.
  intros _. unfold ptP, pt, jac, vl3. cbn [a3 b3 c3]. destruct (fdec (gK g c) (vl (gX g c) (c3 x)) rz) as [E|N]; split; intros H; auto; try discriminate H; contradiction.
Qed.
Lemma eq0_2 (m : mem (fp2O c)) o : wfP G2 c (m o) -> f2_eqb (c3 (m o)) f2_0 = true <-> ptP G2 c (m o) = EInf.
Proof using.
  intros H. rewrite (inf_z G2 (m o) H). destruct (i_0 _ _ (impl2 c)) as [O0 V0]. pose proof (i_eqb _ _ (impl2 c) (c3 (m o)) f2_0 (proj1 H) O0) as E.
  change (vl (gX G2 c) (c3 (m o))) with (vl (impl2 c) (c3 (m o))). change (o_0 (fp2O c)) with f2_0 in V0. rewrite V0 in E. exact E.
Qed.
Lemma eq0_1 (m : mem (fpO c)) o : wfP G1 c (m o) -> fp_eqb (c3 (m o)) 0 = true <-> ptP G1 c (m o) = EInf.
Proof using.
  intros H. rewrite (inf_z G1 (m o) H). destruct (i_0 _ _ (impl1 c)) as [O0 V0]. pose proof (i_eqb _ _ (impl1 c) (c3 (m o)) 0 (proj1 H) O0) as E.
  change (vl (gX G1 c) (c3 (m o))) with (vl (impl1 c) (c3 (m o))). change (o_0 (fpO c)) with 0 in V0. rewrite V0 in E. exact E.
Qed.
Lemma isz_2 (m : mem (fp2O c)) o : wfP G2 c (m o) -> f2_isZero (c3 (m o)) = true <-> ptP G2 c (m o) = EInf.
Proof using. intros H. rewrite (inf_z G2 (m o) H). exact (i_isZero _ _ (impl2 c) (c3 (m o)) (proj1 H)). Qed.
Lemma isz_1 (m : mem (fpO c)) o : wfP G1 c (m o) -> fp_isZero (c3 (m o)) = true <-> ptP G1 c (m o) = EInf.
Proof using. intros H. rewrite (inf_z G1 (m o) H). exact (i_isZero _ _ (impl1 c) (c3 (m o)) (proj1 H)). Qed.
Lemma bool_f (b : bool) (Q : Prop) : (b = true <-> Q) -> ~ Q -> b = false.
Proof using. destruct b; intros H N; [exfalso; apply N, H; reflexivity|reflexivity]. Qed.

Lemma ate_reps a1 b1 a2 b2 a1' b1' a2' b2' x y u v : rep2 c a1 x -> rep2 c b1 y -> rep1 c a2 u -> rep1 c b2 v -> rep2 c a1' x -> rep2 c b1' y -> rep1 c a2' u -> rep1 c b2' v ->
  opt_ate c P a1 b1 a2 b2 = opt_ate c P a1' b1' a2' b2'.
Proof using. intros H1 H2 H3 H4 I1 I2 I3 I4. rewrite (rep2_inj c _ _ _ H1 I1), (rep2_inj c _ _ _ H2 I2), (rep1_inj c _ _ _ H3 I3), (rep1_inj c _ _ _ H4 I4). reflexivity. Qed.
(** ** infinity *)
Lemma jac_inf (m2 : mem (fp2O c)) q (m1 : mem (fpO c)) pp : wfP G2 c (m2 q) -> wfP G1 c (m1 pp) -> ptP G2 c (m2 q) = EInf \/ ptP G1 c (m1 pp) = EInf ->
  opt_ateJac c P m2 q m1 pp = Ok (f12_1 c).
Proof using.
  intros W2 W1 [E|E]; unfold opt_ateJac.
  - rewrite (proj2 (eq0_2 m2 q W2) E). reflexivity.
  - rewrite (proj2 (eq0_1 m1 pp W1) E), orb_true_r. reflexivity.
Qed.
Lemma norm_cases g (m : mem (gO g c)) o : wfP g c (m o) ->
  exists m', ec_normalize (gO g c) m o = Ok m' /\ sameP g c m m' o /\
    (forall x y, ptP g c (m o) = EAff x y -> (ok (gX g c) (a3 (m' o)) /\ vl (gX g c) (a3 (m' o)) = x) /\ (ok (gX g c) (b3 (m' o)) /\ vl (gX g c) (b3 (m' o)) = y)).
Proof using.
  intros H. destruct (normalize_ok (gO g c) (gK g c) (gX g c) m o H) as (m' & E & [D1 D2] & F & _ & A). exists m'. split; [exact E|]. split; [split; [exact D1|split; [exact D2|exact F]]|].
  intros x y Exy. destruct (A x y Exy) as (A1 & A2 & _). split; [exact A1|exact A2].
Qed.
Lemma ec_inf (m2 : mem (fp2O c)) q (m1 : mem (fpO c)) pp : wfP G2 c (m2 q) -> wfP G1 c (m1 pp) -> ptP G2 c (m2 q) = EInf \/ ptP G1 c (m1 pp) = EInf ->
  exists m2' m1', opt_ateEc c P m2 q m1 pp = Ok (f12_1 c, m2', m1') /\ sameP G2 c m2 m2' q /\ sameP G1 c m1 m1' pp.
Proof using.
  intros W2 W1 H. destruct (norm_cases G2 m2 q W2) as (m2' & E2 & S2 & _). destruct (norm_cases G1 m1 pp W1) as (m1' & E1 & S1 & _).
  exists m2', m1'. split; [|split; [exact S2|exact S1]]. unfold opt_ateEc. cbn [gO] in E2, E1. rewrite E2. cbn [bind]. rewrite E1. cbn [bind].
  destruct S2 as (V2 & P2 & _), S1 as (V1 & P1 & _). destruct H as [H|H].
  - rewrite (proj2 (isz_2 m2' q V2)) by (rewrite P2; exact H). reflexivity.
  - rewrite (proj2 (isz_1 m1' pp V1)) by (rewrite P1; exact H). rewrite orb_true_r. reflexivity.
Qed.
(** ** affine points: the value depends on the points only *)
Lemma jac_aff_eq (m2 : mem (fp2O c)) q (m1 : mem (fpO c)) pp (x y : K2 c) (u v : FpR (cp c)) xq yq xp yp :
  wfP G2 c (m2 q) -> wfP G1 c (m1 pp) -> ptP G2 c (m2 q) = @EAff (K2F c) x y -> ptP G1 c (m1 pp) = @EAff (FpF c) u v ->
  rep2 c xq x -> rep2 c yq y -> rep1 c xp u -> rep1 c yp v ->
  opt_ateJac c P m2 q m1 pp = opt_ate c P xq yq xp yp.
Proof using.
  intros W2 W1 E2 E1 Rx Ry Ru Rv. unfold opt_ateJac.
  rewrite (bool_f _ _ (eq0_2 m2 q W2)) by (rewrite E2; intros F; discriminate F). rewrite (bool_f _ _ (eq0_1 m1 pp W1)) by (rewrite E1; intros F; discriminate F). cbn [orb].
  destruct (NormalizeJac_ok (fp2O c) (K2F c) (impl2 c) m2 (Loc 0) q W2) as (m2' & N2 & _ & _ & _ & A2). destruct (A2 x y E2) as (X2 & Y2 & _).
  destruct (NormalizeJac_ok (fpO c) (FpF c) (impl1 c) m1 (Loc 0) pp W1) as (m1' & N1 & _ & _ & _ & A1). destruct (A1 u v E1) as (X1 & Y1 & _).
  rewrite N2. cbn [bind]. rewrite N1. cbn [bind]. apply (rep2_can2 c) in X2, Y2.
  rewrite (rep2_inj c _ _ _ X2 Rx), (rep2_inj c _ _ _ Y2 Ry), (rep1_inj c _ _ _ X1 Ru), (rep1_inj c _ _ _ Y1 Rv). reflexivity.
Qed.
Lemma ec_aff_eq (m2 : mem (fp2O c)) q (m1 : mem (fpO c)) pp (x y : K2 c) (u v : FpR (cp c)) xq yq xp yp :
  wfP G2 c (m2 q) -> wfP G1 c (m1 pp) -> ptP G2 c (m2 q) = @EAff (K2F c) x y -> ptP G1 c (m1 pp) = @EAff (FpF c) u v ->
  rep2 c xq x -> rep2 c yq y -> rep1 c xp u -> rep1 c yp v ->
  exists m2' m1', opt_ateEc c P m2 q m1 pp = (let! f := opt_ate c P xq yq xp yp in Ok (f, m2', m1')) /\ sameP G2 c m2 m2' q /\ sameP G1 c m1 m1' pp.
Proof using.
  intros W2 W1 H2 H1 Rx Ry Ru Rv. destruct (norm_cases G2 m2 q W2) as (m2' & E2 & S2 & A2). destruct (norm_cases G1 m1 pp W1) as (m1' & E1 & S1 & A1).
  exists m2', m1'. split; [|split; [exact S2|exact S1]]. unfold opt_ateEc. cbn [gO] in E2, E1. rewrite E2. cbn [bind]. rewrite E1. cbn [bind].
  destruct S2 as (V2 & P2 & _), S1 as (V1 & P1 & _).
  rewrite (bool_f _ _ (isz_2 m2' q V2)) by (rewrite P2, H2; intros F; discriminate F). rewrite (bool_f _ _ (isz_1 m1' pp V1)) by (rewrite P1, H1; intros F; discriminate F). cbn [orb].
  destruct (A2 x y H2) as (X2 & Y2). destruct (A1 u v H1) as (X1 & Y1). apply (rep2_can2 c) in X2, Y2.
  exact (f_equal (fun z => let! f := z in Ok (f, m2', m1')) (ate_reps _ _ _ _ _ _ _ _ _ _ _ _ X2 Y2 X1 Y1 Rx Ry Ru Rv)).
Qed.
(** coordinates of an affine point *)
Lemma rep2_surj (v : K2 c) : exists x, rep2 c x v.
Proof using. destruct (rep1_surj c (a2 v)) as [x Hx]. destruct (rep1_surj c (b2 v)) as [y Hy]. exists (mk2 x y). split; assumption. Qed.
(** two objects of the same points pair to the same value *)
Lemma jac_indep (m2 m2' : mem (fp2O c)) q q' (m1 m1' : mem (fpO c)) pp pp' : wfP G2 c (m2 q) -> wfP G1 c (m1 pp) -> wfP G2 c (m2' q') -> wfP G1 c (m1' pp') ->
  ptP G2 c (m2 q) = ptP G2 c (m2' q') -> ptP G1 c (m1 pp) = ptP G1 c (m1' pp') ->
  opt_ateJac c P m2 q m1 pp = opt_ateJac c P m2' q' m1' pp'.
Proof using.
  intros W2 W1 W2' W1' E2 E1. destruct (ptP G2 c (m2 q)) as [|x y] eqn:F2; [|destruct (ptP G1 c (m1 pp)) as [|u v] eqn:F1].
  - rewrite !jac_inf; auto.
  - rewrite !jac_inf; auto.
  - destruct (rep2_surj x) as [xq Rx]. destruct (rep2_surj y) as [yq Ry]. destruct (rep1_surj c u) as [xp Ru]. destruct (rep1_surj c v) as [yp Rv].
    rewrite (jac_aff_eq m2 q m1 pp x y u v xq yq xp yp), (jac_aff_eq m2' q' m1' pp' x y u v xq yq xp yp); auto.
Qed.
Lemma ec_jac (m2 : mem (fp2O c)) q (m1 : mem (fpO c)) pp : wfP G2 c (m2 q) -> wfP G1 c (m1 pp) ->
  exists m2' m1', opt_ateEc c P m2 q m1 pp = (let! f := opt_ateJac c P m2 q m1 pp in Ok (f, m2', m1')) /\ sameP G2 c m2 m2' q /\ sameP G1 c m1 m1' pp.
Proof using.
  intros W2 W1. destruct (ptP G2 c (m2 q)) as [|x y] eqn:F2; [|destruct (ptP G1 c (m1 pp)) as [|u v] eqn:F1].
  - rewrite jac_inf by auto. destruct (ec_inf m2 q m1 pp W2 W1 (or_introl F2)) as (m2' & m1' & E & S). exists m2', m1'. split; [exact E|exact S].
  - rewrite jac_inf by auto. destruct (ec_inf m2 q m1 pp W2 W1 (or_intror F1)) as (m2' & m1' & E & S). exists m2', m1'. split; [exact E|exact S].
  - destruct (rep2_surj x) as [xq Rx]. destruct (rep2_surj y) as [yq Ry]. destruct (rep1_surj c u) as [xp Ru]. destruct (rep1_surj c v) as [yp Rv].
    rewrite (jac_aff_eq m2 q m1 pp x y u v xq yq xp yp); auto. destruct (ec_aff_eq m2 q m1 pp x y u v xq yq xp yp) as (m2' & m1' & E & S); auto. exists m2', m1'. split; [exact E|exact S].
Qed.

(** ** the values (BN254 of the default build) *)
Hypothesis HI : paramInit (snark c) (curveOf c) = Ok P.
Hypothesis HB : snark c = false.
Add Ring KR12o : (rth (K12 c)).
Lemma K12_dec (x y : K12 c) : {x = y} + {x <> y}.
Proof using. apply F2_dec. intros u v. destruct u as [u1 u2 u3], v as [v1 v2 v3]. pose proof (F2_dec _ (Fp_dec (cp c))) as D. destruct (D u1 v1) as [->|N]; [|right; intros F; apply N; congruence]. destruct (D u2 v2) as [->|N]; [|right; intros F; apply N; congruence]. destruct (D u3 v3) as [->|N]; [|right; intros F; apply N; congruence]. left. reflexivity. Qed.
Lemma ate_val xq yq vx vy x y xp yp : rep2 c xq vx -> rep2 c yq vy -> rep1 c x xp -> rep1 c y yp ->
  exists g, rep12 c (miller c P xq yq x y) g /\ exists f, opt_ate c P xq yq x y = Ok f /\
    ((g <> rz -> rep12 c f (E c g)) /\ (g = rz -> rep12 c f rz)).
Proof using HI HB.
  intros Hx Hy Hxp Hyp. destruct (miller_val c P (param_par_ok c P HI) HB xq yq vx vy x y xp yp Hx Hy Hxp Hyp) as (g & Rg). exists g. split; [exact Rg|].
  unfold opt_ate. destruct (K12_dec g rz) as [Z|N].
  - subst g. destruct (fexp_zero c P HI HB _ Rg) as (f & E & R). exists f. split; [exact E|]. split; [intros N; contradiction N; reflexivity|intros _; exact R].
  - destruct (fexp_pow c P HI HB _ g Rg N) as (f & E & R). exists f. split; [exact E|]. split; [intros _; exact R|intros Z; contradiction].
Qed.

Notation onF := (on_curve (FpF c) (cb1 c)).
Notation onT := (on_curve (K2F c) (cb2 c)).
Lemma ate_ok xq yq (vx vy : K2 c) x y (xp yp : FpR (cp c)) : rep2 c xq vx -> rep2 c yq vy -> rep1 c x xp -> rep1 c y yp ->
  inG2 c (@EAff (K2F c) vx vy) -> onF (@EAff (FpF c) xp yp) ->
  exists f, opt_ate c P xq yq x y = Ok f /\ rep12 c f (epv c (@EAff (K2F c) vx vy) (@EAff (FpF c) xp yp)).
Proof using HI HB.
  intros Hx Hy Hxp Hyp HQ HA. destruct (miller_ok c HB xp yp HA P (param_par_ok c P HI) vx vy HQ xq yq x y Hx Hy Hxp Hyp) as (g & Rg & Nz & Eg).
  destruct (fexp_pow c P HI HB _ g Rg Nz) as (f & Ef & Rf). exists f. split; [exact Ef|]. cbn [epv]. rewrite <- Eg. exact Rf.
Qed.
Lemma one_rep : rep12 c (f12_1 c) (ro : K12 c).
Proof using. exact (f12_1_rep c). Qed.
Lemma epv_O (Q : ecpt (K2F c)) (A : ecpt (FpF c)) : onF A -> Q = EInf \/ A = EInf -> epv c Q A = ro.
Proof using HB. intros HA [E|E]; subst. - apply (epv_O_l c HB A HA). - reflexivity. Qed.
Lemma jac_ok (m2 : mem (fp2O c)) q (m1 : mem (fpO c)) pp : wfP G2 c (m2 q) -> wfP G1 c (m1 pp) ->
  inG2 c (ptP G2 c (m2 q)) -> onE G1 c (ptP G1 c (m1 pp)) ->
  exists f, opt_ateJac c P m2 q m1 pp = Ok f /\ rep12 c f (epv c (ptP G2 c (m2 q)) (ptP G1 c (m1 pp))).
Proof using HI HB.
  intros W2 W1 HQ HA. destruct (ptP G2 c (m2 q)) as [|x y] eqn:F2; [|destruct (ptP G1 c (m1 pp)) as [|u v] eqn:F1].
  - exists (f12_1 c). split; [apply jac_inf; auto|]. eapply (rep12_eq c); [exact one_rep|symmetry; exact (epv_O _ _ HA (or_introl eq_refl))].
  - exists (f12_1 c). split; [apply jac_inf; auto|]. eapply (rep12_eq c); [exact one_rep|symmetry; exact (epv_O _ _ HA (or_intror eq_refl))].
  - destruct (rep2_surj x) as [xq Rx]. destruct (rep2_surj y) as [yq Ry]. destruct (rep1_surj c u) as [xp Ru]. destruct (rep1_surj c v) as [yp Rv].
    rewrite (jac_aff_eq m2 q m1 pp x y u v xq yq xp yp W2 W1 F2 F1 Rx Ry Ru Rv). exact (ate_ok xq yq x y xp yp u v Rx Ry Ru Rv HQ HA).
Qed.
Lemma ec_ok (m2 : mem (fp2O c)) q (m1 : mem (fpO c)) pp : wfP G2 c (m2 q) -> wfP G1 c (m1 pp) ->
  inG2 c (ptP G2 c (m2 q)) -> onE G1 c (ptP G1 c (m1 pp)) ->
  exists f m2' m1', opt_ateEc c P m2 q m1 pp = Ok (f, m2', m1') /\ rep12 c f (epv c (ptP G2 c (m2 q)) (ptP G1 c (m1 pp))) /\ sameP G2 c m2 m2' q /\ sameP G1 c m1 m1' pp.
Proof using HI HB.
  intros W2 W1 HQ HA. destruct (jac_ok m2 q m1 pp W2 W1 HQ HA) as (f & Ef & Rf). destruct (ec_jac m2 q m1 pp W2 W1) as (m2' & m1' & E & S2 & S1). rewrite Ef in E.
  exists f, m2', m1'. split; [exact E|]. split; [exact Rf|]. split; [exact S2|exact S1].
Qed.
(** ** scalars *)
Lemma onT_mul n Q : onT Q -> onT (ec_mul (K2F c) n Q).
Proof using. apply ec_mul_on; [apply (two2 c)|apply (three2 c)|apply (cb2_nz c)]. Qed.
Lemma onF_mul n A : onF A -> onF (ec_mul (FpF c) n A).
Proof using. apply ec_mul_on; [apply (two1 c)|apply (three1 c)|apply (cb1_nz c)]. Qed.
Lemma epv_mul_l n (Q : ecpt (K2F c)) (A : ecpt (FpF c)) : inG2 c Q -> onF A -> epv c (ec_mul (K2F c) n Q) A = rpw (epv c Q A) n.
Proof using HB.
  intros HQ HA. induction n as [|n IH]. - cbn [ec_mul]. rewrite rpw_0. apply (epv_O_l c HB A HA).
  - cbn [ec_mul]. rewrite rpw_S, (epv_add_l c HB Q _ A HQ (G2_mul c n Q HQ) HA), IH. reflexivity.
Qed.
Lemma epv_mul_r n (Q : ecpt (K2F c)) (A : ecpt (FpF c)) : inG2 c Q -> onF A -> epv c Q (ec_mul (FpF c) n A) = rpw (epv c Q A) n.
Proof using HB.
  intros HQ HA. induction n as [|n IH]. - cbn [ec_mul]. rewrite rpw_0. reflexivity.
  - cbn [ec_mul]. rewrite rpw_S, (epv_add_r c HB Q A _ HQ HA (onF_mul n A HA)), IH. reflexivity.
Qed.
Lemma epv_mulz a b (Q : ecpt (K2F c)) (A : ecpt (FpF c)) : 0 <= a -> 0 <= b -> inG2 c Q -> onF A ->
  epv c (ec_mulz (K2F c) a Q) (ec_mulz (FpF c) b A) = rpz (epv c Q A) (a * b).
Proof using HB.
  intros Ha Hb HQ HA. unfold ec_mulz. rewrite (epv_mul_r _ _ A (G2_mul c _ Q HQ) HA), (epv_mul_l _ Q A HQ HA), (rpz_mul _ _ a b Ha Hb). reflexivity.
Qed.
Lemma G2_mulz a Q : inG2 c Q -> inG2 c (ec_mulz (K2F c) a Q).
Proof using. apply G2_mul. Qed.
Lemma neg_is_mul (Q : ecpt (K2F c)) : inG2 c Q -> ec_neg (K2F c) Q = ec_mul (K2F c) (Z.to_nat (cr c - 1)) Q.
Proof using.
  intros (HT & Hr & _). assert (HS : ec_add (K2F c) Q (ec_mul (K2F c) (Z.to_nat (cr c - 1)) Q) = EInf).
  { rewrite <- Hr. replace (Z.to_nat (cr c)) with (S (Z.to_nat (cr c - 1))) by (pose proof (cr_pos c) as H; clear -H; lia). reflexivity. }
  set (A := ec_mul (K2F c) (Z.to_nat (cr c - 1)) Q) in *. assert (HA : onT A) by (apply onT_mul, HT). clearbody A.
  pose proof (ec_neg_on (K2F c) (cb2 c) Q HT) as HN.
  assert (E0 : ec_add (K2F c) (ec_neg (K2F c) Q) Q = EInf). { rewrite (tadd_comm c _ _ HN HT). apply ec_add_neg. }
  rewrite <- (ec_add_0_r (K2F c) (ec_neg (K2F c) Q)). rewrite <- HS.
  rewrite <- (ec_add_assoc (K2F c) (cb2 c) (two2 c) (three2 c) (cb2_nz c) _ _ _ HN HT HA), E0. reflexivity.
Qed.
Lemma G2_neg (Q : ecpt (K2F c)) : inG2 c Q -> inG2 c (ec_neg (K2F c) Q).
Proof using. intros HQ. rewrite (neg_is_mul Q HQ). apply G2_mul, HQ. Qed.
Lemma epv_neg_l (Q : ecpt (K2F c)) (A : ecpt (FpF c)) : inG2 c Q -> onF A -> rmul (epv c Q A) (epv c (ec_neg (K2F c) Q) A) = ro.
Proof using HB.
  intros HQ HA. rewrite <- (epv_add_l c HB Q _ A HQ (G2_neg Q HQ) HA). rewrite ec_add_neg. apply (epv_O_l c HB A HA).
Qed.
(** ** order *)
Lemma ate_order xq yq vx vy x y xp yp : rep2 c xq vx -> rep2 c yq vy -> rep1 c x xp -> rep1 c y yp ->
  exists f v, opt_ate c P xq yq x y = Ok f /\ rep12 c f v /\ (v = rz \/ rpz v (cr c) = ro).
Proof using HI HB.
  intros Hx Hy Hxp Hyp. destruct (miller_val c P (param_par_ok c P HI) HB xq yq vx vy x y xp yp Hx Hy Hxp Hyp) as (g & Rg).
  unfold opt_ate. destruct (K12_dec g rz) as [Z|N].
  - subst g. destruct (fexp_zero c P HI HB _ Rg) as (f & E & R). exists f, rz. split; [exact E|]. split; [exact R|left; reflexivity].
  - destruct (fexp_order c P HI HB _ g Rg N) as (f & w & E & R & O). exists f, w. split; [exact E|]. split; [exact R|right; exact O].
Qed.
(** ** precomputation *)
Lemma pre_ate xq yq x y : opt_ate c P xq yq x y = (let! f := millerLoop c P (preG2 c P xq yq) x y in f12_final_exp c P f).
Proof using. rewrite (pre_miller c P xq yq x y). cbv beta iota delta [bind opt_ate]. reflexivity. Qed.
(** product of two pairings with one final exponentiation *)
Lemma ml2_ate xq yq xq' yq' vx vy vx' vy' x y x' y' xp yp xp' yp' :
  rep2 c xq vx -> rep2 c yq vy -> rep1 c x xp -> rep1 c y yp -> rep2 c xq' vx' -> rep2 c yq' vy' -> rep1 c x' xp' -> rep1 c y' yp' ->
  exists f1 f2 f v1 v2, opt_ate c P xq yq x y = Ok f1 /\ rep12 c f1 v1 /\ opt_ate c P xq' yq' x' y' = Ok f2 /\ rep12 c f2 v2 /\
    (let! m := millerLoop2 c P (preG2 c P xq yq) x y (preG2 c P xq' yq') x' y' in f12_final_exp c P m) = Ok f /\ rep12 c f (rmul v1 v2).
Proof using HI HB.
  intros A1 A2 A3 A4 B1 B2 B3 B4. pose proof (param_par_ok c P HI) as HP.
  destruct (ate_val xq yq vx vy x y xp yp A1 A2 A3 A4) as (g1 & Rg1 & f1 & E1 & N1 & Z1).
  destruct (ate_val xq' yq' vx' vy' x' y' xp' yp' B1 B2 B3 B4) as (g2 & Rg2 & f2 & E2 & N2 & Z2).
  destruct (millerLoop2_ok c P HB (preG2 c P xq yq) (preG2 c P xq' yq') x y x' y' xp yp xp' yp'
     (preG2_wf c P HP xq yq vx vy A1 A2) (preG2_wf c P HP xq' yq' vx' vy' B1 B2) A3 A4 B3 B4 _ _ (pre_miller c P xq yq x y) (pre_miller c P xq' yq' x' y')) as (m & h1 & h2 & Em & Rm & R1 & R2).
  rewrite (rep12_fun c _ _ _ R1 Rg1), (rep12_fun c _ _ _ R2 Rg2) in Rm. clear R1 R2.
  rewrite Em. cbv beta iota delta [bind]. destruct (K12_dec g1 rz) as [Y1|Y1]; [|destruct (K12_dec g2 rz) as [Y2|Y2]].
  - subst g1. assert (Q : rmul (rz : K12 c) g2 = rz) by ring. rewrite Q in Rm. destruct (fexp_zero c P HI HB _ Rm) as (f & Ef & Rf).
    destruct (K12_dec g2 rz) as [Y2|Y2].
    + exists f1, f2, f, rz, rz. split; [exact E1|]. split; [apply Z1; reflexivity|]. split; [exact E2|]. split; [apply Z2; exact Y2|]. split; [exact Ef|]. eapply (rep12_eq c); [exact Rf|ring].
    + exists f1, f2, f, rz, (E c g2). split; [exact E1|]. split; [apply Z1; reflexivity|]. split; [exact E2|]. split; [apply N2; exact Y2|]. split; [exact Ef|]. eapply (rep12_eq c); [exact Rf|ring].
  - subst g2. assert (Q : rmul g1 (rz : K12 c) = rz) by ring. rewrite Q in Rm. destruct (fexp_zero c P HI HB _ Rm) as (f & Ef & Rf).
    exists f1, f2, f, (E c g1), rz. split; [exact E1|]. split; [apply N1; exact Y1|]. split; [exact E2|]. split; [apply Z2; reflexivity|]. split; [exact Ef|]. eapply (rep12_eq c); [exact Rf|ring].
  - assert (Q : rmul g1 g2 <> rz) by (intros F; apply (field_integral _ (K12_field c)) in F as [F|F]; contradiction). destruct (fexp_pow c P HI HB _ _ Rm Q) as (f & Ef & Rf).
    exists f1, f2, f, (E c g1), (E c g2). split; [exact E1|]. split; [apply N1; exact Y1|]. split; [exact E2|]. split; [apply N2; exact Y2|]. split; [exact Ef|]. eapply (rep12_eq c); [exact Rf|]. exact (rpz_mulb _ g1 g2 (NN c)).
Qed.
End Obj.
