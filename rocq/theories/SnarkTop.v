(** The pairing of the SNARK curves as a map on points, whenever the products stay in range. *)
From Coq Require Import ZArith Znumtheory Lia Ring List Bool.
From Verif Require Import Base FpSpec Primes Cfg FpM FpProofs TowerSpec TowerField TowerM Fp2Proofs Fp6Proofs Frob ParamM ParamProofs FinalM FinalProofs TowerApi Poly EcSpec EcGroup EcM EcProofs EcInst EcFrob EcApi PairM PairProofs PairE PairBil PairLin PairApi PairObj SnarkRun SnarkFinal SnarkAte SnarkBil SnarkLin.
Import ListNotations.
Local Open Scope Z_scope.

(** [e] is computed by opt_atePairing on every representation of points Q of G2 and A of the curve,
    whenever no product leaves the range; with a point at infinity there is no product to check
    (bn.h:2787-2817, 2835-2844) *)
Definition computes_in c P (e : ecpt (K2F c) -> ecpt (FpF c) -> K12 c) : Prop :=
  forall (m2 : mem (fp2O c)) q (m1 : mem (fpO c)) pp, wfP G2 c (m2 q) -> wfP G1 c (m1 pp) ->
  inG2 c (ptP G2 c (m2 q)) -> onE G1 c (ptP G1 c (m1 pp)) ->
  forall f, (forall x y u v xq yq xp yp, ptP G2 c (m2 q) = @EAff (K2F c) x y -> ptP G1 c (m1 pp) = @EAff (FpF c) u v ->
     rep2 c xq x -> rep2 c yq y -> rep1 c xp u -> rep1 c yp v -> cate c P xq yq xp yp = Some f) ->
  exists g m2' m1', opt_ateJac c P m2 q m1 pp = Ok g /\ opt_ateEc c P m2 q m1 pp = Ok (g, m2', m1') /\
    rep12 c g (e (ptP G2 c (m2 q)) (ptP G1 c (m1 pp))) /\ sameP G2 c m2 m2' q /\ sameP G1 c m1 m1' pp.

Section Top.
Variable c : cfg.
Variable P : param.
Hypothesis HI : paramInit (snark c) (curveOf c) = Ok P.
Hypothesis HB : snark c = true.
Add Ring KR12t : (rth (K12 c)).
Notation onF := (on_curve (FpF c) (cb1 c)).
Notation onT := (on_curve (K2F c) (cb2 c)).
Lemma cate_ok xq yq (vx vy : K2 c) x y (xp yp : FpR (cp c)) f : rep2 c xq vx -> rep2 c yq vy -> rep1 c x xp -> rep1 c y yp ->
  inG2 c (@EAff (K2F c) vx vy) -> onF (@EAff (FpF c) xp yp) -> cate c P xq yq x y = Some f ->
  opt_ate c P xq yq x y = Ok f /\ rep12 c f (epv c (@EAff (K2F c) vx vy) (@EAff (FpF c) xp yp)).
Proof using HI HB.
  intros Hx Hy Hxp Hyp HQ HA HC. unfold cate in HC. destruct (cmiller c P xq yq x y) as [f'|] eqn:EM; [|discriminate HC].
  destruct (miller_ok c HB xp yp HA P (param_par_ok c P HI) vx vy HQ xq yq x y Hx Hy Hxp Hyp f' EM) as (M1 & g & Rg & Nz & Eg).
  destruct (cfinal_ok c P HI HB f' g f HC Rg Nz) as [Ef Rf]. split; [unfold opt_ate; rewrite M1; exact Ef|]. cbn [epv]. rewrite <- Eg. exact Rf.
Qed.
Lemma sepv_O (Q : ecpt (K2F c)) (A : ecpt (FpF c)) : onF A -> Q = EInf \/ A = EInf -> epv c Q A = ro.
Proof using HB. intros HA [E|E]; subst. - apply (epv_O_l c HB A HA). - reflexivity. Qed.
Lemma sepv_mul_l n (Q : ecpt (K2F c)) (A : ecpt (FpF c)) : inG2 c Q -> onF A -> epv c (ec_mul (K2F c) n Q) A = rpw (epv c Q A) n.
Proof using HB.
  intros HQ HA. induction n as [|n IH]. - cbn [ec_mul]. rewrite rpw_0. apply (epv_O_l c HB A HA).
  - cbn [ec_mul]. rewrite rpw_S, (epv_add_l c HB Q _ A HQ (G2_mul c n Q HQ) HA), IH. reflexivity.
Qed.
Lemma sepv_mul_r n (Q : ecpt (K2F c)) (A : ecpt (FpF c)) : inG2 c Q -> onF A -> epv c Q (ec_mul (FpF c) n A) = rpw (epv c Q A) n.
Proof using HB.
  intros HQ HA. induction n as [|n IH]. - cbn [ec_mul]. rewrite rpw_0. reflexivity.
  - cbn [ec_mul]. rewrite rpw_S, (epv_add_r c HB Q A _ HQ HA (onF_mul c n A HA)), IH. reflexivity.
Qed.
Lemma sepv_mulz a b (Q : ecpt (K2F c)) (A : ecpt (FpF c)) : 0 <= a -> 0 <= b -> inG2 c Q -> onF A ->
  epv c (ec_mulz (K2F c) a Q) (ec_mulz (FpF c) b A) = rpz (epv c Q A) (a * b).
Proof using HB.
  intros Ha Hb HQ HA. unfold ec_mulz. rewrite (sepv_mul_r _ _ A (G2_mul c _ Q HQ) HA), (sepv_mul_l _ Q A HQ HA), (rpz_mul _ _ a b Ha Hb). reflexivity.
Qed.
Lemma sepv_neg_l (Q : ecpt (K2F c)) (A : ecpt (FpF c)) : inG2 c Q -> onF A -> rmul (epv c Q A) (epv c (ec_neg (K2F c) Q) A) = ro.
Proof using HB.
  intros HQ HA. rewrite <- (epv_add_l c HB Q _ A HQ (G2_neg c Q HQ) HA). rewrite ec_add_neg. apply (epv_O_l c HB A HA).
Qed.
Lemma sepv_ord (Q : ecpt (K2F c)) (A : ecpt (FpF c)) : inG2 c Q -> onF A -> rpz (epv c Q A) (cr c) = ro.
Proof using HB.
  intros HQ HA. pose proof (sepv_mul_l (Z.to_nat (cr c)) Q A HQ HA) as E. destruct HQ as (_ & Hr & _). rewrite Hr in E.
  unfold rpz. rewrite <- E. apply (epv_O_l c HB A HA).
Qed.
Lemma sepv_computes : computes_in c P (epv c).
Proof using HI HB.
  intros m2 q m1 pp W2 W1 HQ HA f Hf. destruct (ec_jac c P m2 q m1 pp W2 W1) as (m2' & m1' & E & S2 & S1).
  assert (K : exists g, opt_ateJac c P m2 q m1 pp = Ok g /\ rep12 c g (epv c (ptP G2 c (m2 q)) (ptP G1 c (m1 pp)))).
  { clear E S2 S1. destruct (ptP G2 c (m2 q)) as [|x y] eqn:F2; [|destruct (ptP G1 c (m1 pp)) as [|u v] eqn:F1].
    - exists (f12_1 c). split; [apply jac_inf; auto|]. eapply (rep12_eq c); [exact (f12_1_rep c)|symmetry; exact (sepv_O _ _ HA (or_introl eq_refl))].
    - exists (f12_1 c). split; [apply jac_inf; auto|]. eapply (rep12_eq c); [exact (f12_1_rep c)|symmetry; exact (sepv_O _ _ HA (or_intror eq_refl))].
    - destruct (rep2_surj c x) as [xq Rx]. destruct (rep2_surj c y) as [yq Ry]. destruct (rep1_surj c u) as [xp Ru]. destruct (rep1_surj c v) as [yp Rv].
      exists f. rewrite (jac_aff_eq c P m2 q m1 pp x y u v xq yq xp yp W2 W1 F2 F1 Rx Ry Ru Rv).
      exact (cate_ok xq yq x y xp yp u v f Rx Ry Ru Rv HQ HA (Hf x y u v xq yq xp yp eq_refl eq_refl Rx Ry Ru Rv)). }
  destruct K as (g & Eg & Rg). rewrite Eg in E. exists g, m2', m1'. split; [exact Eg|]. split; [exact E|]. split; [exact Rg|]. split; [exact S2|exact S1].
Qed.
Lemma stop : exists e, computes_in c P e /\
  (forall xq yq (vx vy : K2 c) x y (xp yp : FpR (cp c)) f, rep2 c xq vx -> rep2 c yq vy -> rep1 c x xp -> rep1 c y yp ->
    inG2 c (@EAff (K2F c) vx vy) -> onE G1 c (@EAff (FpF c) xp yp) -> cate c P xq yq x y = Some f ->
    opt_ate c P xq yq x y = Ok f /\ rep12 c f (e (@EAff (K2F c) vx vy) (@EAff (FpF c) xp yp))) /\
  (forall Q Q' A, inG2 c Q -> inG2 c Q' -> onE G1 c A -> e (ec_add (K2F c) Q Q') A = rmul (e Q A) (e Q' A)) /\
  (forall Q A A', inG2 c Q -> onE G1 c A -> onE G1 c A' -> e Q (ec_add (FpF c) A A') = rmul (e Q A) (e Q A')) /\
  (forall a b Q A, 0 <= a -> 0 <= b -> inG2 c Q -> onE G1 c A -> e (ec_mulz (K2F c) a Q) (ec_mulz (FpF c) b A) = rpz (e Q A) (a * b)) /\
  (forall Q A, inG2 c Q -> onE G1 c A -> rmul (e Q A) (e (ec_neg (K2F c) Q) A) = ro /\ rmul (e Q A) (e Q (ec_neg (FpF c) A)) = ro) /\
  (forall Q A, inG2 c Q -> onE G1 c A -> rpz (e Q A) (cr c) = ro) /\
  (forall Q A, onE G1 c A -> Q = EInf \/ A = EInf -> e Q A = ro).
Proof using HI HB.
  exists (epv c). split; [exact sepv_computes|]. split; [exact (fun xq yq vx vy x y xp yp f => cate_ok xq yq vx vy x y xp yp f)|].
  split; [exact (fun Q Q' A => epv_add_l c HB Q Q' A)|]. split; [exact (fun Q A A' => epv_add_r c HB Q A A')|].
  split; [exact (fun a b Q A => sepv_mulz a b Q A)|].
  split. { intros Q A HQ HA. split; [exact (sepv_neg_l Q A HQ HA)|]. 
    rewrite <- (epv_add_r c HB Q A _ HQ HA (ec_neg_on (FpF c) (cb1 c) A HA)). rewrite ec_add_neg. reflexivity. }
  split; [exact (fun Q A => sepv_ord Q A)|exact (fun Q A => sepv_O Q A)].
Qed.
End Top.
