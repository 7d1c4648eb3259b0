(** Each step of the Miller loop multiplies by a value of the cocycle, up to factors
    that the final exponentiation removes. *)
From Coq Require Import ZArith Znumtheory Lia Ring List.
From Verif Require Import Base Prim FpSpec Cfg FpProofs FpM TowerSpec TowerField TowerM Fp2Proofs Fp6Proofs Frob ParamM ParamProofs FinalM FinalProofs TowerApi Poly EcSpec EcGroup EcM EcProofs EcInst EcFrob EcApi EcTors Cocyc PairM PairProofs PairE PairH.
Local Open Scope Z_scope.

Section Step.
Local Open Scope r_scope.
Variable c : cfg.
Context {bs : bool} (HB : snark c = bs).
Variable P : param.
Hypothesis HP : par_ok c P.
Local Notation p := (cp c).
Add Ring FRs : (rth (FpR (cp c))).
Add Ring KRs : (rth (K2 c)).
Add Ring KR6s : (rth (K6 c)).
Add Ring KR12s : (rth (K12 c)).
Ltac kk := cbn [radd rmul rsub ropp rz ro K2 quad qadd qsub qopp qmul q0 q1 a2 b2].
Ltac k6 := cbn [radd rmul rsub ropp rz ro K6 cubic kadd ksub kopp kmul k0 k1 kgen a3 b3 c3].
Ltac k12 := cbn [radd rmul rsub ropp rz ro K12 quad qadd qsub qopp qmul q0 q1 a2 b2].
Local Notation Tw := (ecpt (K2F c)).
Local Notation onT := (on_curve (K2F c) (cb2 c)).
Local Notation e212 := (e212 c).
Local Notation E := (E c).
Local Notation rep1 := (rep1 c). Local Notation rep2 := (rep2 c). Local Notation rep6 := (rep6 c). Local Notation rep12 := (rep12 c).
Local Notation repR := (repR c).
Local Notation "A +++ B" := (ec_add (K2F c) A B) (at level 50, left associativity).
Lemma mul2_nz (x y : K2 c) : x <> 0 -> y <> 0 -> x * y <> 0.
Proof using. intros Hx Hy F. apply (field_integral _ (K2_field c)) in F as [F|F]; contradiction. Qed.
Lemma opp2_nz (x : K2 c) : x <> 0 -> - x <> 0.
Proof using. intros Hx F. apply Hx. transitivity (- - x); [ring|]. rewrite F. ring. Qed.
Lemma e212_nz x : x <> 0 -> e212 x <> 0.
Proof using. intros H F. apply H. exact (f_equal (fun t => a3 (a2 t)) F). Qed.

Section AtP.
Variables xP yP : FpR p.
Local Notation lval := (lval c xP yP).
Lemma lval_scale k l m : e212 (k * xi c) * lval l m = mk12 c (- (k * xi c * m)) 0 (- (k * l * e2 c xP)) 0 (k * e2 c yP) 0.
Proof using.
  clear HB HP. pose proof (ix_l c) as L. unfold PairH.lval, mk12, EcFrob.e212, e12, e6. set (i := ix c) in *. set (u := xi c) in *. set (X := e2 c xP). set (Y := e2 c yP). clearbody X Y i.
  assert (U : u = xi c) by reflexivity.
  apply F2_eq; apply F3_eq; k12; k6; fold u; clearbody u; try ring.
  - transitivity (- (k * l * X) * (i * u)); [ring|]. rewrite L. ring.
  - transitivity (k * Y * (i * u)); [ring|]. rewrite L. ring.
Qed.
(** the doubling step evaluates the tangent (times an element of Fp2) *)
Lemma dbl_line (x y Z l m : K2 c) : onT (EAff (x : K2F c) (y : K2F c)) -> l * ((1 + 1) * y) = (1 + 1 + 1) * (x * x) -> y = l * x + m ->
  evl c (dblL c (x * Z) (y * Z) Z) xP yP = e212 (- ((1 + 1) * (y * Z * Z)) * xi c) * lval l m.
Proof using.
  clear HB HP. intros Hc Hl Hm. change (@rmul (K2 c) y y = @rmul (K2 c) (@rmul (K2 c) x x) x + (cb2 c : K2 c)) in Hc. rewrite lval_scale.
  unfold evl, dblL, line12, mk12. cbn [a3 b3 c3]. set (bb := cb2 c : K2 c) in *. set (u := xi c) in *. set (X := e2 c xP). set (Y := e2 c yP). clearbody X Y bb.
  apply F2_eq; apply F3_eq; k12; k6; fold u; clearbody u; try ring.
  - transitivity (u * (Z * Z) * (l * ((1 + 1) * y) * x * - (1) + (1 + 1) * (y * y))).
    + rewrite Hl. transitivity (u * (Z * Z) * ((1 + 1 + 1) * bb - y * y)); [ring|]. rewrite Hc. ring.
    + transitivity (u * (Z * Z) * ((1 + 1) * y * (y - l * x))); [ring|]. rewrite Hm at 2. ring.
  - transitivity (l * ((1 + 1) * y) * (Z * Z) * X); [rewrite Hl; ring|ring].
Qed.
(** the addition step evaluates the chord *)
Lemma add_line (x y Z xq yq l m : K2 c) : l * (xq - x) = yq - y -> y = l * x + m ->
  evl c (addL c (x * Z) (y * Z) Z xq yq) xP yP = e212 ((x * Z - Z * xq) * xi c) * lval l m.
Proof using.
  clear HB HP. intros Hl Hm. rewrite lval_scale. assert (Hq : yq = l * xq + m) by (transitivity (yq - y + y); [ring|]; rewrite <- Hl; rewrite Hm; ring).
  unfold evl, addL, line12, mk12. cbv zeta. cbn [a3 b3 c3]. set (u := xi c) in *. set (X := e2 c xP). set (Y := e2 c yP). clearbody X Y. rewrite Hq, Hm.
  apply F2_eq; apply F3_eq; k12; k6; fold u; clearbody u; ring.
Qed.

Hypothesis HPc : yP * yP = xP * xP * xP + mk p (cb c).
Local Notation hP := (hP c xP yP).
(** v represents the affine point A *)
Definition homT (v : F3 (K2 c)) (A : Tw) : Prop := c3 v <> 0 /\ hom (K2F c) v = A.
Lemma hom_c3 (v : F3 (K2 c)) : hom (K2F c) v <> EInf -> c3 v <> 0.
Proof using. destruct v as [X Y Z]. intros H F. apply H. cbn [c3] in F. rewrite F. exact (hom_0 (K2F c) X Y). Qed.
Lemma neg_dbl_nz A : onT A -> A <> EInf -> A +++ A <> EInf.
Proof using HB.
  destruct A as [|x y]; intros H N; [contradiction N; reflexivity|]. cbn [ec_add]. destruct (fdec (K2F c) x x) as [_|T]; [|contradiction T; reflexivity].
  destruct (fdec (K2F c) y (- y)) as [F|_]; [|discriminate]. exfalso. pose proof (yT_nz c HB x y H) as Y. apply Y.
  change (y = @ropp (K2 c) y) in F. assert (T : @rmul (K2 c) (1 + 1) y = 0) by (transitivity (@radd (K2 c) y y); [ring|]; rewrite F at 1; ring).
  apply (field_integral _ (K2_field c)) in T as [T|T]; [exfalso; exact (two2 c T)|exact T].
Qed.
Lemma dbl_rep R v A xc yc : repR R v -> homT v A -> onT A -> rep1 xc xP -> rep1 yc yP ->
  exists l, rep6 (fst (dblLine c P R xc yc)) l /\ line12 c l <> 0 /\ E (line12 c l) = hP A A /\
    exists v', repR (snd (dblLine c P R xc yc)) v' /\ homT v' (A +++ A).
Proof using HB HP HPc.
  intros HR [HZ HA] HcA Hx Hy. destruct (dblLine_rep c P HP R v xc yc xP yP HR Hx Hy) as (l & Rl & El & RT).
  exists l. split; [exact Rl|]. rewrite El. destruct v as [X Y Z]. cbn [a3 b3 c3] in *.
  destruct (hom_aff (K2F c) X Y Z HZ) as (x & y & Ha & EX & EY). assert (A = EAff x y) as -> by (rewrite <- HA; exact Ha). clear HA.
  change (X = @rmul (K2 c) x Z) in EX. change (Y = @rmul (K2 c) y Z) in EY.
  pose proof (yT_nz c HB x y HcA) as Yn.
  assert (Nz : EAff x y +++ EAff x y <> EInf) by (apply neg_dbl_nz; [exact HcA|discriminate]).
  destruct (line_cases (K2F c) (cb2 c) (two2 c) _ _ HcA HcA) as [V|(s & m & x1 & y1 & x2 & y2 & x3 & y3 & H)].
  { exfalso. destruct V as [V|[V|V]]; [discriminate V|discriminate V|]. apply Nz. rewrite V at 2. apply ec_add_neg. }
  assert (E1 : x1 = x /\ y1 = y) by (pose proof (li_A _ _ _ _ _ _ _ _ _ _ _ _ H) as T; injection T as -> ->; split; reflexivity). destruct E1 as [-> ->].
  assert (E1 : x2 = x /\ y2 = y) by (pose proof (li_B _ _ _ _ _ _ _ _ _ _ _ _ H) as T; injection T as -> ->; split; reflexivity). destruct E1 as [-> ->].
  destruct (line3_eq _ _ (two2 c) _ _ _ _ _ _ _ _ _ _ H HcA HcA) as [_ Q]. destruct (Q eq_refl) as (_ & _ & Hl). pose proof (li_1 _ _ _ _ _ _ _ _ _ _ _ _ H) as L1.
  rewrite EX, EY. rewrite (dbl_line x y Z s m HcA Hl L1).
  assert (K : - ((1 + 1) * (y * Z * Z)) * xi c <> 0).
  { apply mul2_nz; [apply opp2_nz, mul2_nz; [exact (two2 c)|apply mul2_nz; [apply mul2_nz|]; assumption]|exact (xi_nz c)]. }
  split; [|split].
  - apply mul12_nz; [apply e212_nz, K|apply (lval_nz c HB); assumption].
  - rewrite E_mul, E_2 by exact K. rewrite (hP_line c xP yP HPc _ _ _ _ _ _ _ _ _ _ H). ring.
  - exists (dblV c X Y Z). split; [exact RT|]. pose proof (dblG_ok (K2F c) (cb2 c) (hf c) (two2 c) (hf_2 c) X Y Z HZ) as G.
    rewrite Ha in G. specialize (G HcA). split; [|exact G]. apply hom_c3. intros F. apply Nz. rewrite <- G. exact F.
Qed.
Lemma add_nz (x vx Z : K2 c) : x <> vx -> Z <> 0 -> (x * Z - Z * vx) * xi c <> 0.
Proof using.
  intros Nx HZ. assert (D : x - vx <> 0). { intros F. apply Nx. transitivity (x - vx + vx); [ring|]. rewrite F. ring. }
  apply mul2_nz; [|exact (xi_nz c)]. replace (x * Z - Z * vx) with ((x - vx) * Z) by ring. apply mul2_nz; assumption.
Qed.
Lemma add_rep R v A (vx vy : K2 c) xq yq xc yc : repR R v -> homT v A -> onT A -> onT (@EAff (K2F c) vx vy) ->
  A <> @EAff (K2F c) vx vy -> A +++ @EAff (K2F c) vx vy <> EInf -> rep2 xq vx -> rep2 yq vy -> rep1 xc xP -> rep1 yc yP ->
  exists l, rep6 (fst (addLine c R xq yq xc yc)) l /\ line12 c l <> 0 /\ E (line12 c l) = hP A (@EAff (K2F c) vx vy) /\
    exists v', repR (snd (addLine c R xq yq xc yc)) v' /\ homT v' (A +++ @EAff (K2F c) vx vy).
Proof using HB HPc.
  intros HR [HZ HA] HcA HcQ NA Nz Hvx Hvy Hx Hy. destruct (addLine_rep c R v xq yq vx vy xc yc xP yP HR Hvx Hvy Hx Hy) as (l & Rl & El & RT).
  exists l. split; [exact Rl|]. rewrite El. destruct v as [X Y Z]. cbn [a3 b3 c3] in *.
  destruct (hom_aff (K2F c) X Y Z HZ) as (x & y & Ha & EX & EY). assert (A = EAff x y) as -> by (rewrite <- HA; exact Ha). clear HA.
  change (X = @rmul (K2 c) x Z) in EX. change (Y = @rmul (K2 c) y Z) in EY.
  destruct (line_cases (K2F c) (cb2 c) (two2 c) _ _ HcA HcQ) as [V|(s & m & x1 & y1 & x2 & y2 & x3 & y3 & H)].
  { exfalso. destruct V as [V|[V|V]]; [discriminate V|discriminate V|]. apply Nz. rewrite V. apply ec_add_neg. }
  assert (E1 : x1 = x /\ y1 = y) by (pose proof (li_A _ _ _ _ _ _ _ _ _ _ _ _ H) as T; injection T as -> ->; split; reflexivity). destruct E1 as [-> ->].
  assert (E1 : x2 = vx /\ y2 = vy) by (pose proof (li_B _ _ _ _ _ _ _ _ _ _ _ _ H) as T; injection T as -> ->; split; reflexivity). destruct E1 as [-> ->].
  destruct (line3_eq _ _ (two2 c) _ _ _ _ _ _ _ _ _ _ H HcA HcQ) as [Q1 Q2]. pose proof (li_1 _ _ _ _ _ _ _ _ _ _ _ _ H) as L1.
  assert (Nx : x <> vx). { intros F. destruct (Q2 F) as (F2 & _). apply NA. rewrite F, F2. reflexivity. }
  specialize (Q1 Nx). rewrite EX, EY. rewrite (add_line x y Z vx vy s m Q1 L1).
  pose proof (add_nz x vx Z Nx HZ) as K.
  split; [|split].
  - apply mul12_nz; [apply e212_nz, K|apply (lval_nz c HB); assumption].
  - rewrite E_mul, E_2 by exact K. rewrite (hP_line c xP yP HPc _ _ _ _ _ _ _ _ _ _ H). ring.
  - exists (addV c X Y Z vx vy). split; [exact RT|]. pose proof (addG_ok (K2F c) (cb2 c) X Y Z vx vy HZ) as G.
    rewrite Ha in G. specialize (G HcA HcQ NA). split; [|exact G]. apply hom_c3. intros F. apply Nz. rewrite <- G. exact F.
Qed.
End AtP.
End Step.
