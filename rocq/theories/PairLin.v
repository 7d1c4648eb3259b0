(** The pairing is linear in its first group (the curve over Fp). *)
From Coq Require Import ZArith Znumtheory Lia Ring List.
From Verif Require Import Base Prim FpSpec Pock Primes Cfg FpProofs FpM TowerSpec TowerField TowerM Fp2Proofs Fp6Proofs Frob ParamM ParamProofs FinalM FinalProofs TowerApi Poly EcSpec EcGroup EcM EcProofs EcInst EcFrob EcApi EcTors Cocyc Biext PairM PairProofs PairE PairH PairStep PairBil.
Local Open Scope Z_scope.

Section Lin.
Local Open Scope r_scope.
Variable c : cfg.
Local Notation p := (cp c).
Local Notation r := (cr c).
Add Ring FRl : (rth (FpR (cp c))).
Add Ring KRl : (rth (K2 c)).
Add Ring KR6l : (rth (K6 c)).
Add Ring KR12l : (rth (K12 c)).
Ltac kk := cbn [radd rmul rsub ropp rz ro K2 quad qadd qsub qopp qmul q0 q1 a2 b2].
Ltac k6 := cbn [radd rmul rsub ropp rz ro K6 cubic kadd ksub kopp kmul k0 k1 kgen a3 b3 c3].
Ltac k12 := cbn [radd rmul rsub ropp rz ro K12 quad qadd qsub qopp qmul q0 q1 a2 b2].
Local Notation Tw := (ecpt (K2F c)).
Local Notation onT := (on_curve (K2F c) (cb2 c)).
Local Notation onF := (on_curve (FpF c) (cb1 c)).
Local Notation e212 := (e212 c).
Local Notation E := (E c).
Local Notation psi := (psi c).
Local Notation "A +++ B" := (ec_add (K2F c) A B) (at level 50, left associativity).
Local Notation neg := (ec_neg (K2F c)).
Local Notation w := (iw c).
Local Notation w3 := (w3 c).
Definition eF (a : FpR p) : K12 c := e212 (e2 c a).
Lemma cub (l n l' m b x1 x2 x3 X1 X2 X3 : K12 c) :
  x1 + x2 + x3 = l * l -> x1 * x2 + x1 * x3 + x2 * x3 = - ((1 + 1) * (l * n)) -> x1 * x2 * x3 = n * n - b ->
  X1 + X2 + X3 = l' * l' -> X1 * X2 + X1 * X3 + X2 * X3 = - ((1 + 1) * (l' * m)) -> X1 * X2 * X3 = m * m - b ->
  ((l - l') * x1 + (n - m)) * ((l - l') * x2 + (n - m)) * ((l - l') * x3 + (n - m)) =
  ((l - l') * X1 + (n - m)) * ((l - l') * X2 + (n - m)) * ((l - l') * X3 + (n - m)).
Proof using.
  intros H1 H2 H3 H4 H5 H6. set (d := l - l'). set (e := n - m).
  assert (G : forall u v t : K12 c, (d * u + e) * (d * v + e) * (d * t + e) = d * d * d * (u * v * t) + d * d * e * (u * v + u * t + v * t) + d * e * e * (u + v + t) + e * e * e) by (intros; ring).
  rewrite !G, H1, H2, H3, H4, H5, H6. subst d e. ring.
Qed.
Lemma eF_add a b : eF (a + b) = eF a + eF b.
Proof using. unfold eF. rewrite e2_add, e212_add. reflexivity. Qed.
Lemma eF_mul a b : eF (a * b) = eF a * eF b.
Proof using. unfold eF. rewrite e2_mul, e212_mul. reflexivity. Qed.
Lemma eF_1 : eF 1 = 1. Proof using. reflexivity. Qed.
Lemma eF_0 : eF 0 = 0. Proof using. reflexivity. Qed.
Lemma eF_opp a : eF (- a) = - eF a.
Proof using. transitivity (eF (- a) + eF a - eF a); [ring|]. rewrite <- eF_add. replace (- a + a) with (0 : FpR p) by ring. rewrite eF_0. ring. Qed.
Lemma eF_sub a b : eF (a - b) = eF a - eF b.
Proof using. replace (a - b) with (a + - b) by ring. rewrite eF_add, eF_opp. ring. Qed.
Lemma e212_0 : e212 0 = 0. Proof using. reflexivity. Qed.
Lemma e212_opp a : e212 (- a) = - e212 a.
Proof using. transitivity (e212 (- a) + e212 a - e212 a); [ring|]. rewrite <- e212_add. replace (- a + a) with (0 : K2 c) by ring. rewrite e212_0. ring. Qed.
Lemma e212_sub a b : e212 (a - b) = e212 a - e212 b.
Proof using. replace (a - b) with (a + - b) by ring. rewrite e212_add, e212_opp. ring. Qed.
(** the line on the twist at P, seen on E *)
Lemma lval_w3 x y l m : lval c x y l m * w3 = eF y - (e212 l * w) * eF x - e212 m * w3.
Proof using.
  pose proof (ix_l c) as L. unfold lval, PairE.w3, mk12, eF, EcFrob.e212, e12, e6, iw. set (i := ix c) in *. set (u := xi c) in *. set (X := e2 c x). set (Y := e2 c y). clearbody X Y i.
  assert (U : u = xi c) by reflexivity.
  apply F2_eq; apply F3_eq; k12; k6; fold u; clearbody u; try ring.
  - transitivity (Y * (i * u)); [ring|]. rewrite L. ring.
  - transitivity (- (l * X) * (i * u)); [ring|]. rewrite L. ring.
Qed.

Lemma ton_add A B : onT A -> onT B -> onT (A +++ B).
Proof using. exact (ec_add_on (K2F c) (cb2 c) (two2 c) (three2 c) (cb2_nz c) A B). Qed.
Lemma ton_neg A : onT A -> onT (neg A). Proof using. exact (ec_neg_on (K2F c) (cb2 c) A). Qed.
Lemma tadd_comm A B : onT A -> onT B -> A +++ B = B +++ A.
Proof using. exact (ec_add_comm (K2F c) (cb2 c) (two2 c) (three2 c) (cb2_nz c) A B). Qed.

Section Line1.
Variables lam nu : FpR p.
(** the line on E at a point of the twist *)
Definition gl (A : Tw) : K12 c := match A with EInf => 1 | EAff x y => mk12 c (- e2 c nu) (- (e2 c lam * x)) 0 0 y 0 end.
Lemma gl_eq (x y : K2 c) : gl (@EAff (K2F c) x y) = e212 y * w3 - eF lam * (e212 x * (w * w)) - eF nu.
Proof using.
  unfold gl, mk12, PairE.w3, eF, EcFrob.e212, e12, e6, iw. set (L := e2 c lam). set (N := e2 c nu). clearbody L N.
  apply F2_eq; apply F3_eq; k12; k6; ring.
Qed.
Hypothesis HB : snark c = false.
Lemma gl_nz A : onT A -> gl A <> 0.
Proof using HB.
  destruct A as [|x y]; intros H F; [exact (field_nz _ (K12_field c) F)|]. apply (yT_nz c HB x y H). exact (f_equal (fun t => b3 (b2 t)) F).
Qed.
Definition gam_ (A : Tw) : K12 c := E (gl A).
Lemma gam_ok A : onT A -> okV c (gam_ A).
Proof using HB. intros H. apply E_r, gl_nz, H. Qed.
Lemma gam_O : gam_ EInf = 1. Proof using. apply E_1. Qed.
Lemma gam_neg A : onT A -> gam_ A * gam_ (neg A) = 1.
Proof using HB.
  intros H. unfold gam_. rewrite <- E_mul. destruct A as [|x y]; [cbn [ec_neg gl]; rewrite E_mul, E_1; ring|].
  assert (N : gl (EAff x y) * gl (neg (EAff x y)) <> 0) by (apply mul12_nz; apply gl_nz; [exact H|apply (ec_neg_on (K2F c) (cb2 c)), H]).
  cbn [ec_neg] in *. change (@ropp (K2F c) y) with (@ropp (K2 c) y) in *.
  assert (F : exists k : K6 c, gl (@EAff (K2F c) x y) * gl (@EAff (K2F c) x (@ropp (K2 c) y)) = e12 c k).
  { exists (a2 (gl (@EAff (K2F c) x y) * gl (@EAff (K2F c) x (@ropp (K2 c) y)))). apply F2_eq; [reflexivity|].
    unfold gl, mk12, e12. set (L := e2 c lam). set (M := e2 c nu). clearbody L M. clear N H. apply F3_eq; k12; k6; ring. }
  destruct F as [k Ek]. rewrite Ek in *. apply E_6. intros ->. apply N. reflexivity.
Qed.
Lemma gl_psi A : gl (psi A) = rpz (gl A) p.
Proof using.
  clear HB. destruct A as [|x y]; cbn [EcFrob.psi gl]; [symmetry; apply rpz_one|]. rewrite fr12. unfold twist, mk12, fx, fy. cbn [a2 b2 a3 b3 c3].
  assert (C0 : cj c 0 = 0) by exact (f_0 (K2F c) (cj c) (cj_add c)).
  assert (CO : forall t, cj c (- t) = - cj c t) by (intros t; exact (f_opp (K2F c) (cj c) (cj_add c) t)).
  rewrite !CO, !cj_mul, !cj_e2, C0. set (L := e2 c lam). set (M := e2 c nu). set (cx := cj c x : K2 c). set (cy := cj c y : K2 c). set (g := g1 c). clearbody L M cx cy g.
  apply F2_eq; apply F3_eq; cbn [a2 b2 a3 b3 c3]; ring.
Qed.
Lemma gam_psi A : gam_ (psi A) = qf c (gam_ A).
Proof using. unfold gam_, qf. rewrite gl_psi. apply E_fr. Qed.

(** three points of E on the line *)
Variables x1 x2 x3 y1 y2 y3 : FpR p.
Hypothesis L1 : y1 = lam * x1 + nu.
Hypothesis L2 : y2 = lam * x2 + nu.
Hypothesis L3 : y3 = lam * x3 + nu.
Hypothesis S1 : x1 + x2 + x3 = lam * lam.
Hypothesis S2 : x1 * x2 + x1 * x3 + x2 * x3 = - ((1 + 1) * (lam * nu)).
Hypothesis S3 : x1 * x2 * x3 = nu * nu - mk p (cb c).
Hypothesis C1 : y1 * y1 = x1 * x1 * x1 + mk p (cb c).
Hypothesis C2 : y2 * y2 = x2 * x2 * x2 + mk p (cb c).
Hypothesis C3 : y3 * y3 = x3 * x3 * x3 + mk p (cb c).
Lemma bb12 : w3 * w3 * e212 (cb2 c) = eF (mk p (cb c)).
Proof using. unfold PairE.w3, eF. rewrite w6, <- e212_mul. f_equal. transitivity ((cb2 c : K2 c) * xi c); [ring|]. apply cb2_xi. Qed.
Lemma lines_eq (l m X1 Y1 X2 Y2 X3 Y3 : K2 c) : Y1 = l * X1 + m -> Y2 = l * X2 + m -> - Y3 = l * X3 + m ->
  X1 + X2 + X3 = l * l -> X1 * X2 + X1 * X3 + X2 * X3 = - ((1 + 1) * (l * m)) -> X1 * X2 * X3 = m * m - (cb2 c : K2 c) ->
  lval c x1 y1 l m * lval c x2 y2 l m * lval c x3 y3 l m * (w3 * w3 * w3) =
  - (gl (@EAff (K2F c) X1 Y1) * gl (@EAff (K2F c) X2 Y2) * gl (@EAff (K2F c) X3 (@ropp (K2 c) Y3))).
Proof using L1 L2 L3 S1 S2 S3.
  clear HB C1 C2 C3. intros M1 M2 M3 T1 T2 T3. rewrite !gl_eq.
  transitivity ((lval c x1 y1 l m * w3) * (lval c x2 y2 l m * w3) * (lval c x3 y3 l m * w3)); [ring|]. rewrite !lval_w3.
  assert (L1' : eF y1 = eF lam * eF x1 + eF nu) by (rewrite L1, eF_add, eF_mul; reflexivity).
  assert (L2' : eF y2 = eF lam * eF x2 + eF nu) by (rewrite L2, eF_add, eF_mul; reflexivity).
  assert (L3' : eF y3 = eF lam * eF x3 + eF nu) by (rewrite L3, eF_add, eF_mul; reflexivity).
  assert (S1' : eF x1 + eF x2 + eF x3 = eF lam * eF lam) by (rewrite <- !eF_add, S1, eF_mul; reflexivity).
  assert (S2' : eF x1 * eF x2 + eF x1 * eF x3 + eF x2 * eF x3 = - ((1 + 1) * (eF lam * eF nu))) by (rewrite <- !eF_mul, <- !eF_add, S2, eF_opp, eF_mul, (eF_add 1 1), eF_1; reflexivity).
  assert (S3' : eF x1 * eF x2 * eF x3 = eF nu * eF nu - eF (mk p (cb c))) by (rewrite <- !eF_mul, S3, eF_sub; reflexivity).
  assert (M1' : e212 Y1 = e212 l * e212 X1 + e212 m) by (rewrite M1, e212_add, e212_mul; reflexivity).
  assert (M2' : e212 Y2 = e212 l * e212 X2 + e212 m) by (rewrite M2, e212_add, e212_mul; reflexivity).
  assert (M3' : e212 (- Y3) = e212 l * e212 X3 + e212 m) by (rewrite M3, e212_add, e212_mul; reflexivity).
  assert (T1' : e212 X1 + e212 X2 + e212 X3 = e212 l * e212 l) by (rewrite <- !e212_add, T1, e212_mul; reflexivity).
  assert (O2 : e212 1 = 1) by reflexivity.
  assert (T2' : e212 X1 * e212 X2 + e212 X1 * e212 X3 + e212 X2 * e212 X3 = - ((1 + 1) * (e212 l * e212 m))) by (rewrite <- !e212_mul, <- !e212_add, T2, e212_opp, e212_mul, (e212_add c 1 1), O2; reflexivity).
  assert (T3' : e212 X1 * e212 X2 * e212 X3 = e212 m * e212 m - e212 (cb2 c)) by (rewrite <- !e212_mul, T3, e212_sub; reflexivity).
  clear L1 L2 L3 S1 S2 S3 M1 M2 M3 T1 T2 T3. rename L1' into L1, L2' into L2, L3' into L3, S1' into S1, S2' into S2, S3' into S3, M1' into M1, M2' into M2, M3' into M3, T1' into T1, T2' into T2, T3' into T3.
  rewrite L1, L2, L3, M1, M2, M3. rewrite <- bb12 in S3.
  set (al := eF lam) in *. set (an := eF nu) in *. set (b1 := eF x1) in *. set (b2 := eF x2) in *. set (b3 := eF x3) in *.
  set (U1 := e212 X1) in *. set (U2 := e212 X2) in *. set (U3 := e212 X3) in *. set (ll := e212 l) in *. set (mm := e212 m) in *. set (cc := e212 (cb2 c)) in *.
  assert (W : w3 = w * w * w) by reflexivity. set (ww := iw c) in *. set (w3' := PairE.w3 c) in *. clearbody w3' ww al an b1 b2 b3 U1 U2 U3 ll mm cc. subst w3'.
  pose proof (cub al an (ll * ww) (mm * (ww * ww * ww)) (ww * ww * ww * (ww * ww * ww) * cc) b1 b2 b3 (U1 * (ww * ww)) (U2 * (ww * ww)) (U3 * (ww * ww)) S1 S2 S3) as CU.
  transitivity (((al - ll * ww) * b1 + (an - mm * (ww * ww * ww))) * ((al - ll * ww) * b2 + (an - mm * (ww * ww * ww))) * ((al - ll * ww) * b3 + (an - mm * (ww * ww * ww)))); [ring|].
  rewrite CU; [ring|..].
  - transitivity ((U1 + U2 + U3) * (ww * ww)); [ring|]. rewrite T1. ring.
  - transitivity ((U1 * U2 + U1 * U3 + U2 * U3) * (ww * ww * (ww * ww))); [ring|]. rewrite T2. ring.
  - transitivity ((U1 * U2 * U3) * (ww * ww * ww * (ww * ww * ww))); [ring|]. rewrite T3. ring.
Qed.
(** the product of the three Miller cocycles is a coboundary *)
Lemma hh3_cob A B : onT A -> onT B -> hP c x1 y1 A B * hP c x2 y2 A B * hP c x3 y3 A B * gam_ (A +++ B) = gam_ A * gam_ B.
Proof using HB L1 L2 L3 S1 S2 S3 C1 C2 C3.
  intros HA HB'. destruct (line_cases (K2F c) (cb2 c) (two2 c) A B HA HB') as [V|(l & m & X1 & Y1 & X2 & Y2 & X3 & Y3 & LL)].
  - rewrite (hP_vert c HB x1 y1 C1 A B V), (hP_vert c HB x2 y2 C2 A B V), (hP_vert c HB x3 y3 C3 A B V).
    destruct V as [-> | [-> | ->]].
    + cbn [ec_add]. rewrite gam_O. ring.
    + rewrite ec_add_0_r, gam_O. ring.
    + rewrite ec_add_neg, gam_O, gam_neg by exact HA. ring.
  - rewrite (hP_line c x1 y1 C1 A B _ _ _ _ _ _ _ _ LL), (hP_line c x2 y2 C2 A B _ _ _ _ _ _ _ _ LL), (hP_line c x3 y3 C3 A B _ _ _ _ _ _ _ _ LL).
    pose proof (ec_add_on (K2F c) (cb2 c) (two2 c) (three2 c) (cb2_nz c) A B HA HB') as HC. pose proof (gam_neg _ HC) as GN. pose proof (gam_ok _ HC) as GO.
    destruct LL as [EA EB EC _ M1 M2 M3 T1 T2 T3]. rewrite EC in *. subst A B. cbn [ec_neg] in GN.
    pose proof (lines_eq l m X1 Y1 X2 Y2 X3 Y3 M1 M2 M3 T1 T2 T3) as EQ. apply (f_equal E) in EQ.
    assert (W : E (w3 * w3 * w3) = 1) by (rewrite !E_mul, E_w3; ring).
    assert (OP : forall t, E (- t) = E t).
    { intros t. transitivity (E (e12 c (- (1)) * t)); [f_equal; apply F2_eq; unfold e12; k12; ring|]. rewrite E_mul, E_6; [ring|].
      intros Z. apply (field_nz _ (K6_field c)). transitivity (- - (1 : K6 c)); [ring|]. rewrite Z. ring. }
    rewrite E_mul, W, OP in EQ. rewrite !E_mul in EQ. change (E (gl (@EAff (K2F c) X1 Y1))) with (gam_ (@EAff (K2F c) X1 Y1)) in EQ.
    change (E (gl (@EAff (K2F c) X2 Y2))) with (gam_ (@EAff (K2F c) X2 Y2)) in EQ. change (E (gl (@EAff (K2F c) X3 (@ropp (K2 c) Y3)))) with (gam_ (@EAff (K2F c) X3 (@ropp (K2 c) Y3))) in EQ.
    change (@ropp (K2F c) Y3) with (@ropp (K2 c) Y3) in GN.
    set (e1 := E (lval c x1 y1 l m)) in *. set (e2 := E (lval c x2 y2 l m)) in *. set (e3 := E (lval c x3 y3 l m)) in *.
    set (q1 := gam_ (EAff X1 Y1)) in *. set (q2 := gam_ (EAff X2 Y2)) in *. set (q3 := gam_ (EAff X3 Y3)) in *. set (q4 := gam_ (EAff X3 (@ropp (K2 c) Y3))) in *.
    transitivity (e1 * e2 * e3 * 1 * q3); [ring|]. rewrite EQ. transitivity (q1 * q2 * (q3 * q4)); [ring|]. rewrite GN. ring.
Qed.
(** P1 + P2 + P3 = O pairs trivially *)
Lemma e3_one Q : inG2 c Q -> snd (eP c x1 y1 Q) * snd (eP c x2 y2 Q) * snd (eP c x3 y3 Q) = 1.
Proof using HB L1 L2 L3 S1 S2 S3 C1 C2 C3.
  intros HQ. pose proof (proj1 HQ) as HQo.
  assert (O1 := hok c HB x1 y1 C1). assert (O2 := hok c HB x2 y2 C2). assert (O3 := hok c HB x3 y3 C3).
  assert (O12 : forall A B, onT A -> onT B -> okV c (hP c x1 y1 A B * hP c x2 y2 A B)) by (intros; apply okV_mul; auto).
  assert (O123 : forall A B, onT A -> onT B -> okV c (hP c x1 y1 A B * hP c x2 y2 A B * hP c x3 y3 A B)) by (intros; apply okV_mul; auto).
  pose proof (epair_hh Tw (K12 c) onT (ec_add (K2F c)) neg EInf ton_add I rmul ro (vi c) (okV c) (vm_assoc c) (vm_comm c) (vm_1 c) (okV_mul c) (okV_1 c) (vi_r c) psi (qf c) (okV_q c) (qf_mul c) (Z.to_nat (nn c))
    (hP c x1 y1) (hP c x2 y2) Q HQo O1 O2) as E12.
  pose proof (epair_hh Tw (K12 c) onT (ec_add (K2F c)) neg EInf ton_add I rmul ro (vi c) (okV c) (vm_assoc c) (vm_comm c) (vm_1 c) (okV_mul c) (okV_1 c) (vi_r c) psi (qf c) (okV_q c) (qf_mul c) (Z.to_nat (nn c))
    (fun X Y => hP c x1 y1 X Y * hP c x2 y2 X Y) (hP c x3 y3) Q HQo O12 O3) as E123.
  unfold eP. rewrite <- E12. rewrite <- E123.
  apply (epair_cob Tw (K12 c) onT (ec_add (K2F c)) neg EInf ton_add ton_neg I tadd_comm (add_O' c) (add_neg' c) rmul ro (vi c) (okV c) (vm_assoc c) (vm_comm c) (vm_1 c) (okV_mul c) (okV_1 c) (okV_vi c) (vi_r c)
    psi (qf c) (psi_on c) (okV_q c) (qf_mul c) (Z.to_nat (nn c)) _ O123) with (g := gam_).
  - intros A B HA HB'. rewrite (hcomm c x1 y1 C1 A B HA HB'), (hcomm c x2 y2 C2 A B HA HB'), (hcomm c x3 y3 C3 A B HA HB'). reflexivity.
  - intros A HA. rewrite (hO c HB x1 y1 C1 A HA), (hO c HB x2 y2 C2 A HA), (hO c HB x3 y3 C3 A HA). ring.
  - intros A HA. rewrite (hneg c HB x1 y1 C1 A HA), (hneg c HB x2 y2 C2 A HA), (hneg c HB x3 y3 C3 A HA). ring.
  - exact HQo.
  - exact (kill_ok c HB).
  - exact gam_ok.
  - exact hh3_cob.
  - intros A _. exact (gam_psi A).
  - rewrite (epair_fst Tw (K12 c) (ec_add (K2F c)) neg EInf rmul ro (vi c) psi (qf c) (Z.to_nat (nn c)) _ (hP c x1 y1)). exact (eP_fst c HB x1 y1 Q HQ).
Qed.
End Line1.
Hypothesis HB : snark c = false.
(** a point and its negative pair to inverse values *)
Lemma lval_neg x y l m : lval c x (- y) l m = conj12 c (lval c x y l m).
Proof using.
  clear HB. unfold lval, conj12, mk12. assert (Y : e2 c (- y) = - e2 c y) by (apply F2_eq; unfold e2; kk; ring). rewrite Y.
  set (Y' := e2 c y). set (i := ix c). clearbody Y' i. apply F2_eq; cbn [a2 b2]; [reflexivity|]. apply F3_eq; k6; ring.
Qed.
Lemma e2_one (x y : FpR p) Q : y * y = x * x * x + mk p (cb c) -> inG2 c Q -> snd (eP c x y Q) * snd (eP c x (- y) Q) = 1.
Proof using HB.
  intros C1 HQ. pose proof (proj1 HQ) as HQo. assert (C2 : - y * - y = x * x * x + mk p (cb c)) by (rewrite <- C1; ring).
  assert (O1 := hok c HB x y C1). assert (O2 := hok c HB x (- y) C2).
  assert (O12 : forall A B, onT A -> onT B -> okV c (hP c x y A B * hP c x (- y) A B)) by (intros; apply okV_mul; auto).
  pose proof (epair_hh Tw (K12 c) onT (ec_add (K2F c)) neg EInf (ton_add) I rmul ro (vi c) (okV c) (vm_assoc c) (vm_comm c) (vm_1 c) (okV_mul c) (okV_1 c) (vi_r c) psi (qf c) (okV_q c) (qf_mul c) (Z.to_nat (nn c))
    (hP c x y) (hP c x (- y)) Q HQo O1 O2) as E12.
  unfold eP. rewrite <- E12.
  assert (H1 : forall A B, onT A -> onT B -> hP c x y A B * hP c x (- y) A B = 1).
  { intros A B HA HB'. destruct (line_cases (K2F c) (cb2 c) (two2 c) A B HA HB') as [V|(l & m & X1 & Y1 & X2 & Y2 & X3 & Y3 & LL)].
    - rewrite (hP_vert c HB x y C1 A B V), (hP_vert c HB x (- y) C2 A B V). ring.
    - rewrite (hP_line c x y C1 A B _ _ _ _ _ _ _ _ LL), (hP_line c x (- y) C2 A B _ _ _ _ _ _ _ _ LL), lval_neg.
      apply E_conj. exact (lval_nz c HB x y C1 l m). }
  apply (epair_cob Tw (K12 c) onT (ec_add (K2F c)) neg EInf (ton_add) (ton_neg) I (tadd_comm) (add_O' c) (add_neg' c) rmul ro (vi c) (okV c) (vm_assoc c) (vm_comm c) (vm_1 c) (okV_mul c) (okV_1 c) (okV_vi c) (vi_r c)
    psi (qf c) (psi_on c) (okV_q c) (qf_mul c) (Z.to_nat (nn c)) _ O12) with (g := fun _ => 1).
  - intros A B HA HB'. rewrite !H1 by assumption. reflexivity.
  - intros A HA. exact (H1 EInf A I HA).
  - intros A HA. exact (H1 A (neg A) HA (ton_neg A HA)).
  - exact HQo.
  - exact (kill_ok c HB).
  - intros _ _. exact (okV_1 c).
  - intros A B HA HB'. rewrite H1 by assumption. ring.
  - intros A _. symmetry. apply rpz_one.
  - rewrite (epair_fst Tw (K12 c) (ec_add (K2F c)) neg EInf rmul ro (vi c) psi (qf c) (Z.to_nat (nn c)) _ (hP c x y)). exact (eP_fst c HB x y Q HQ).
Qed.
(** ** The pairing of points *)
Definition epv (Q : Tw) (A : ecpt (FpF c)) : K12 c := match A with EInf => 1 | EAff x y => snd (eP c x y Q) end.
Lemma onF_eq (x y : FpR p) : onF (@EAff (FpF c) x y) -> y * y = x * x * x + mk p (cb c).
Proof using. intros H. exact H. Qed.
Lemma onF_neg (x y : FpR p) : y * y = x * x * x + mk p (cb c) -> - y * - y = x * x * x + mk p (cb c).
Proof using. intros H. rewrite <- H. ring. Qed.
Lemma abde (a b d e : K12 c) : a * b * e = 1 -> d * e = 1 -> d = a * b.
Proof using. intros H1 H2. transitivity (a * b * e * d); [rewrite H1; ring|]. transitivity (a * b * (d * e)); [ring|]. rewrite H2. ring. Qed.
Theorem epv_add_l Q R A : inG2 c Q -> inG2 c R -> onF A -> epv (Q +++ R) A = epv Q A * epv R A.
Proof using HB. intros HQ HR HA. destruct A as [|x y]; cbn [epv]; [ring|]. exact (eP_add c HB x y (onF_eq x y HA) Q R HQ HR). Qed.
Theorem epv_r Q A : inG2 c Q -> onF A -> rpz (epv Q A) r = 1.
Proof using HB. intros HQ HA. destruct A as [|x y]; [apply rpz_one|]. exact (eP_ok c HB x y (onF_eq x y HA) Q (proj1 HQ)). Qed.
Theorem epv_O_l A : onF A -> epv EInf A = 1.
Proof using HB. intros HA. destruct A as [|x y]; [reflexivity|]. exact (eP_O c HB x y (onF_eq x y HA)). Qed.
Theorem epv_neg Q A : inG2 c Q -> onF A -> epv Q A * epv Q (ec_neg (FpF c) A) = 1.
Proof using HB. intros HQ HA. destruct A as [|x y]; cbn [ec_neg epv]; [ring|]. exact (e2_one x y Q (onF_eq x y HA) HQ). Qed.
Theorem epv_add_r Q A B : inG2 c Q -> onF A -> onF B -> epv Q (ec_add (FpF c) A B) = epv Q A * epv Q B.
Proof using HB.
  intros HQ HA HB'. destruct (line_cases (FpF c) (cb1 c) (two1 c) A B HA HB') as [V|(l & m & x1 & y1 & x2 & y2 & x3 & y3 & LL)].
  - destruct V as [-> | [-> | ->]].
    + cbn [ec_add epv]. ring.
    + rewrite ec_add_0_r. cbn [epv]. ring.
    + rewrite ec_add_neg. cbn [epv]. symmetry. apply epv_neg; assumption.
  - pose proof (ec_add_on (FpF c) (cb1 c) (two1 c) (three1 c) (cb1_nz c) A B HA HB') as HC.
    destruct LL as [EA EB EC _ M1 M2 M3 T1 T2 T3]. rewrite EC in *. subst A B. cbn [epv].
    pose proof (onF_eq x1 y1 HA) as C1. pose proof (onF_eq x2 y2 HB') as C2. pose proof (onF_eq x3 y3 HC) as C3.
    pose proof (onF_neg x3 y3 C3) as C3'.
    pose proof (e3_one l m HB x1 x2 x3 y1 y2 (- y3 : FpR p) M1 M2 M3 T1 T2 T3 C1 C2 C3' Q HQ) as E3.
    pose proof (e2_one x3 y3 Q C3 HQ) as E2.
    exact (abde _ _ _ _ E3 E2).
Qed.
End Lin.
