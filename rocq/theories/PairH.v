(** The cocycle of line values at a point P of E(Fp), seen on the twist. *)
From Coq Require Import ZArith Znumtheory Lia Ring List.
From Verif Require Import Base Prim FpSpec Pock Cfg FpProofs TowerSpec TowerField Frob FinalProofs TowerApi Poly EcSpec EcGroup EcInst EcFrob EcApi EcTors EcProofs Cocyc PairM PairProofs PairE.
Local Open Scope Z_scope.

(** ** The three intersection points of a line *)
Section Vieta.
Local Open Scope r_scope.
Variable K : fld.
Variable b : K.
Hypothesis H2 : (1 + 1 : K) <> 0.
Add Ring KRvi : (rth K).
Notation onc := (on_curve K b).
Local Notation fint := (field_integral K (fld_field K)).
(** the line through A, B, -(A + B) is vertical, or it is y = l x + m *)
Definition vert (A B : ecpt K) : Prop := A = EInf \/ B = EInf \/ B = ec_neg K A.
Record line3 (A B : ecpt K) (l m x1 y1 x2 y2 x3 y3 : K) : Prop := {
  li_A : A = EAff x1 y1; li_B : B = EAff x2 y2; li_C : ec_add K A B = EAff x3 y3;
  li_f : lnf K b A B = lnl K b l x1 y1;
  li_1 : y1 = l * x1 + m; li_2 : y2 = l * x2 + m; li_3 : - y3 = l * x3 + m;
  li_s1 : x1 + x2 + x3 = l * l; li_s2 : x1 * x2 + x1 * x3 + x2 * x3 = - ((1 + 1) * (l * m)); li_s3 : x1 * x2 * x3 = m * m - b
}.
Lemma line_cases A B : onc A -> onc B -> vert A B \/ exists l m x1 y1 x2 y2 x3 y3, line3 A B l m x1 y1 x2 y2 x3 y3.
Proof using H2.
  destruct A as [|x1 y1]; [intros; left; left; reflexivity|]. destruct B as [|x2 y2]; [intros; left; right; left; reflexivity|].
  cbn [on_curve]. intros HP HQ.
  assert (Fin : forall l, lnf K b (EAff x1 y1) (EAff x2 y2) = lnl K b l x1 y1 -> ec_add K (EAff x1 y1) (EAff x2 y2) = ec_chord K l x1 y1 x2 ->
    y2 = l * x2 + (y1 - l * x1) -> x1 * x2 + x1 * (l * l - x1 - x2) + x2 * (l * l - x1 - x2) = - ((1 + 1) * (l * (y1 - l * x1))) ->
    exists l m x1' y1' x2' y2' x3 y3, line3 (EAff x1 y1) (EAff x2 y2) l m x1' y1' x2' y2' x3 y3).
  { intros l Ef Ec E2 Es. exists l, (y1 - l * x1), x1, y1, x2, y2. eexists _, _. constructor.
    - reflexivity.
    - reflexivity.
    - rewrite Ec. unfold ec_chord. cbv zeta. reflexivity.
    - exact Ef.
    - ring.
    - exact E2.
    - ring.
    - ring.
    - exact Es.
    - transitivity (x1 * (x1 * x2 + x1 * (l * l - x1 - x2) + x2 * (l * l - x1 - x2)) - x1 * x1 * (l * l - x1)); [ring|]. rewrite Es.
      apply (rsub_eq K). transitivity (x1 * x1 * x1 + b - y1 * y1); [ring|]. rewrite HP. ring. }
  cbn [lnf ec_add] in *. destruct (fdec K x1 x2) as [Ex|Nx].
  - subst x2. destruct (fdec K y1 (- y2)) as [Ey|Ny].
    + left. right. right. cbn [ec_neg]. f_equal. rewrite Ey. ring.
    + right. assert (Ey : y1 = y2).
      { assert (T : (y1 - y2) * (y1 + y2) = 0) by (transitivity (y1 * y1 - y2 * y2); [ring|]; rewrite HP, HQ; ring).
        apply fint in T as [T|T]; [apply (rsub_eq K); exact T|]. exfalso. apply Ny. apply (rsub_eq K). rewrite <- T. ring. }
      subst y2. assert (Y : (1 + 1) * y1 <> 0). { intros T. apply fint in T as [T|T]; [exact (H2 T)|]. apply Ny. rewrite T. ring. }
      assert (El : tslope K x1 y1 * ((1 + 1) * y1) = (1 + 1 + 1) * (x1 * x1)).
      { unfold tslope, rdiv. transitivity ((1 + 1 + 1) * (x1 * x1) * (finvr K ((1 + 1) * y1) * ((1 + 1) * y1))); [ring|]. rewrite Poly.finv_l by exact Y. ring. }
      apply (Fin _ eq_refl eq_refl); set (l := tslope K x1 y1) in *; fold l; clearbody l.
      * ring.
      * transitivity ((1 + 1) * (l * l * x1) - (1 + 1 + 1) * (x1 * x1)); [unfold tslope in l; ring|]. rewrite <- El. ring.
  - right. assert (Dx : x2 - x1 <> 0) by (intros Ez; apply Nx; symmetry; apply (rsub_eq K); exact Ez).
    assert (El : cslope K x1 y1 x2 y2 * (x2 - x1) = y2 - y1).
    { unfold cslope, rdiv. transitivity ((y2 - y1) * (finvr K (x2 - x1) * (x2 - x1))); [ring|]. rewrite Poly.finv_l by exact Dx. ring. }
    assert (Ey : y2 = cslope K x1 y1 x2 y2 * x2 + (y1 - cslope K x1 y1 x2 y2 * x1)) by (transitivity (y2 - y1 + y1); [ring|]; rewrite <- El at 1; ring).
    apply (Fin _ eq_refl eq_refl); [exact Ey|]. set (l := cslope K x1 y1 x2 y2) in *. fold l. clearbody l.
    apply (field_cancel K (fld_field K) (x2 - x1)); [exact Dx|]. apply (rsub_eq K).
    set (cc := y1 - l * x1) in *. assert (Y1 : y1 = l * x1 + cc) by (unfold cc; ring). clearbody cc. subst y1 y2.
    transitivity (((l * x2 + cc) * (l * x2 + cc) - (l * x1 + cc) * (l * x1 + cc)) - (x2 * x2 * x2 - x1 * x1 * x1)); [ring|]. rewrite HP, HQ. ring.
Qed.
Lemma line3_nt A B l m x1 y1 x2 y2 x3 y3 : line3 A B l m x1 y1 x2 y2 x3 y3 -> ~ vert A B.
Proof using.
  intros H [V|[V|V]].
  - rewrite (li_A _ _ _ _ _ _ _ _ _ _ H) in V. discriminate V.
  - rewrite (li_B _ _ _ _ _ _ _ _ _ _ H) in V. discriminate V.
  - pose proof (li_C _ _ _ _ _ _ _ _ _ _ H) as C. rewrite V, ec_add_neg in C. discriminate C.
Qed.
(** the same line, tangent or chord *)
Lemma line3_eq A B l m x1 y1 x2 y2 x3 y3 : line3 A B l m x1 y1 x2 y2 x3 y3 -> onc A -> onc B ->
  (x1 <> x2 -> l * (x2 - x1) = y2 - y1) /\ (x1 = x2 -> y1 = y2 /\ y1 <> 0 /\ l * ((1 + 1) * y1) = (1 + 1 + 1) * (x1 * x1)).
Proof using H2.
  intros H HA HB. destruct H as [HAe HBe HC Hf Hl1 Hl2 Hl3 Hs1 Hs2 Hs3]. subst A B. cbn [on_curve] in HA, HB. split.
  - intros _. rewrite Hl1, Hl2. ring.
  - intros ->. assert (Ey : y1 = y2) by (rewrite Hl1, Hl2; reflexivity). split; [exact Ey|]. split.
    + intros Y. rewrite <- Ey in HC. cbn [ec_add] in HC. destruct (fdec K x2 x2) as [_|N]; [|contradiction N; reflexivity].
      destruct (fdec K y1 (- y1)) as [_|N]; [discriminate HC|]. apply N. rewrite Y. ring.
    + rewrite Hl1. assert (Em : m = y1 - l * x2) by (rewrite Hl1; ring).
      transitivity (l * l * x2 * (1 + 1) - (- ((1 + 1) * (l * m)))); [ring|]. rewrite <- Hs2, <- Hs1. ring.
Qed.
End Vieta.

(** ** Lines under (x, y) -> (f x k^2, f y k^3) *)
Section HmLine.
Local Open Scope r_scope.
Variables (K : fld) (b : K) (f : K -> K) (k : K).
Add Ring KRhl : (rth K).
Hypothesis f_add : forall x y, f (x + y) = f x + f y.
Hypothesis f_mul : forall x y, f (x * y) = f x * f y.
Hypothesis f_1 : f 1 = 1.
Hypothesis k_nz : k <> 0.
Hypothesis H2 : (1 + 1 : K) <> 0.
Hypothesis Hfb : f b * (k * k * k * (k * k * k)) = b.
Notation onc := (on_curve K b).
Notation hm := (hm K f k).
Local Notation fint := (field_integral K (fld_field K)).
Lemma hm_vert A B : onc A -> onc B -> vert K (hm A) (hm B) <-> vert K A B.
Proof using f_add f_mul f_1 k_nz H2.
  intros HA HBB. assert (I : forall P, hm P = EInf <-> P = EInf) by (intros [|x y]; cbn; split; intros E; congruence).
  unfold vert. rewrite !I. assert (N : hm (ec_neg K A) = ec_neg K (hm A)).
  { destruct A as [|x y]; [reflexivity|]. cbn. f_equal. rewrite (f_opp K f f_add). ring. }
  split; (intros [H|[H|H]]; [left; exact H|right; left; exact H|right; right]).
  - rewrite <- N in H. destruct A as [|x y], B as [|x2 y2]; cbn in H |- *; try congruence. injection H as Hx Hy.
    pose proof (fcancel K) as FC. apply FC in Hx; [|intros T; apply fint in T as [T|T]; exact (k_nz T)].
    apply FC in Hy; [|intros T; apply fint in T as [T|T]; [apply fint in T as [T|T]|]; exact (k_nz T)].
    apply (f_inj K f f_add f_mul f_1) in Hx, Hy. congruence.
  - rewrite H, N. reflexivity.
Qed.
Lemma fcancel_l (x y z : K) : z <> 0 -> x * z = y * z -> x = y.
Proof using. intros Hz E. exact (fcancel K x y z Hz E). Qed.
Lemma hm_line A B l m x1 y1 x2 y2 x3 y3 l' m' x1' y1' x2' y2' x3' y3' : onc A -> onc B -> line3 K b A B l m x1 y1 x2 y2 x3 y3 ->
  line3 K b (hm A) (hm B) l' m' x1' y1' x2' y2' x3' y3' -> l' = f l * k /\ m' = f m * (k * k * k).
Proof using f_add f_mul f_1 k_nz H2 Hfb.
  intros HA HBB H H'. pose proof (hm_on K b f k f_add f_mul A Hfb HA) as HA'. pose proof (hm_on K b f k f_add f_mul B Hfb HBB) as HB'.
  destruct (line3_eq K b H2 _ _ _ _ _ _ _ _ _ _ H HA HBB) as [Q1 Q2]. destruct (line3_eq K b H2 _ _ _ _ _ _ _ _ _ _ H' HA' HB') as [Q1' Q2'].
  pose proof (li_A _ _ _ _ _ _ _ _ _ _ _ _ H) as EA. pose proof (li_B _ _ _ _ _ _ _ _ _ _ _ _ H) as EB.
  pose proof (li_A _ _ _ _ _ _ _ _ _ _ _ _ H') as EA'. pose proof (li_B _ _ _ _ _ _ _ _ _ _ _ _ H') as EB'.
  rewrite EA in EA'. rewrite EB in EB'. cbn in EA', EB'. injection EA' as <- <-. injection EB' as <- <-.
  pose proof (li_1 _ _ _ _ _ _ _ _ _ _ _ _ H) as L1. pose proof (li_1 _ _ _ _ _ _ _ _ _ _ _ _ H') as L1'.
  pose proof (f_sub K f f_add) as fs.
  assert (El : l' = f l * k).
  { destruct (fdec K x1 x2) as [E|N].
    - destruct (Q2 E) as (_ & Y & T). destruct Q2' as (_ & Y' & T'); [rewrite E; reflexivity|].
      apply (fcancel_l _ _ ((1 + 1) * (f y1 * (k * k * k)))). { intros F. apply fint in F as [F|F]; [exact (H2 F)|exact (Y' F)]. }
      rewrite T'. apply (f_equal f) in T. rewrite !f_mul, !f_add, f_1 in T.
      transitivity ((1 + 1 + 1) * (f x1 * f x1) * (k * k * (k * k))); [ring|]. rewrite <- T. ring.
    - assert (N' : f x1 * (k * k) <> f x2 * (k * k)).
      { intros F. apply N. apply (f_inj K f f_add f_mul f_1). apply (fcancel_l _ _ (k * k)); [|exact F]. intros T. apply fint in T as [T|T]; exact (k_nz T). }
      specialize (Q1 N). specialize (Q1' N'). apply (fcancel_l _ _ (f x2 * (k * k) - f x1 * (k * k))).
      { intros F. apply N'. transitivity (f x2 * (k * k) - (f x2 * (k * k) - f x1 * (k * k))); [ring|]. rewrite F. ring. }
      rewrite Q1'. apply (f_equal f) in Q1. rewrite f_mul, !fs in Q1.
      transitivity ((f y2 - f y1) * (k * k * k)); [ring|]. rewrite <- Q1. ring. }
  split; [exact El|]. apply (f_equal f) in L1. rewrite f_add, f_mul in L1.
  transitivity (l' * (f x1 * (k * k)) + m' - l' * (f x1 * (k * k))); [ring|]. rewrite <- L1', El.
  transitivity (f y1 * (k * k * k) - (f l * f x1) * (k * k * k)); [ring|]. rewrite L1. ring.
Qed.
End HmLine.

(** ** No 2-torsion on the twist, no point with x = 0 on the curve *)
Lemma b_nonres c : powm (cb c) (cp c) (Z.to_pos ((cp c - 1) / 2)) mod cp c <> 1.
Proof. destruct c; vm_compute; intros E; discriminate E. Qed.
Lemma cb_range c : 0 < cb c < 2 ^ 32. Proof. destruct c; vm_compute; split; reflexivity. Qed.
Lemma b_nonsq c (y : FpR (cp c)) : rmul y y <> (mk (cp c) (cb c) : FpR (cp c)).
Proof.
  set (p := cp c). intros E. apply (b_nonres c). fold p. pose proof (cp_bounds c) as Hb. pose proof (cp_mod4 c) as H4. fold p in Hb, H4.
  pose proof (Z.div_mod p 4 ltac:(lia)). assert (E2 : p - 1 = 2 * ((p - 1) / 2)).
  { apply Z_div_exact_full_2; [lia|]. replace (p - 1) with (1 + (2 * (p / 4)) * 2 + 1) by lia. rewrite <- Zplus_mod_idemp_l, Z.mod_add by lia. reflexivity. }
  set (k := (p - 1) / 2) in *. rewrite powm_spec, Z2Pos.id, Zmod_mod by lia.
  assert (Y : mk p (cb c ^ k) = f1).
  { rewrite mk_pow by lia. change (rpw (mk p (cb c) : FpR p) (Z.to_nat k) = (ro : FpR p)). rewrite <- E.
    rewrite <- rpw_2. rewrite <- rpw_mul. replace (2 * Z.to_nat k)%nat with (Z.to_nat (p - 1)) by lia.
    apply (fermat1 p (cp_prime c)). intros E0. change (y = (rz : FpR p)) in E0. rewrite E0 in E.
    apply (mk_nz c (cb c)); [exact (cb_range c)|]. fold p. change ((mk p (cb c) : FpR p) = rz). rewrite <- E. apply (Rmul_comm (rth (FpR p)) rz rz). }
  apply mk_eq in Y. rewrite Y. apply Z.mod_small. lia.
Qed.
(** b^2 / N(xi), the norm of the coefficient of the twist, is not a cube *)
Definition cnx (c : cfg) : Z := cxi_a c * cxi_a c + cxi_b c * cxi_b c.
Lemma nt_check c : powm (cnx c) (cp c) (Z.to_pos ((cp c - 1) / 3)) mod cp c <> powm (cb c * cb c) (cp c) (Z.to_pos ((cp c - 1) / 3)) mod cp c.
Proof. destruct c; vm_compute; intros E; discriminate E. Qed.
Section NT.
Local Open Scope r_scope.
Variable c : cfg.
Local Notation p := (cp c).
Add Ring FRnt : (rth (FpR (cp c))).
Lemma nt_noncube (n : FpR p) : n * n * n * mk p (cnx c) <> (mk p (cb c * cb c) : FpR p).
Proof.
  intros E. apply (nt_check c). pose proof (p6 c). pose proof (p6_pos c). set (k := ((p - 1) / 6)%Z) in *.
  assert (E3 : ((p - 1) / 3 = 2 * k)%Z) by (symmetry; apply Z.div_unique_exact; lia). rewrite E3.
  rewrite !powm_spec, !Z2Pos.id, !Zmod_mod by lia. apply mk_eq. rewrite !mk_pow by lia.
  change (rpw (mk p (cnx c) : FpR p) (Z.to_nat (2 * k)) = rpw (mk p (cb c * cb c) : FpR p) (Z.to_nat (2 * k))).
  rewrite <- E. rewrite rpw_mulb. assert (X : rpw (n * n * n : FpR p) (Z.to_nat (2 * k)) = 1).
  { replace (n * n * n) with (rpw n 3) by (rewrite !rpw_S, rpw_0; change (n * (n * (n * 1)) = n * n * n); ring). rewrite <- rpw_mul. replace (3 * Z.to_nat (2 * k))%nat with (Z.to_nat (p - 1)) by lia.
    apply (fermat1 p (cp_prime c)). intros E0. change (n = (0 : FpR p)) in E0. rewrite E0 in E.
    apply (mk_nz c (cb c * cb c)); [clear; destruct c; vm_compute; split; reflexivity|]. change ((mk p (cb c * cb c) : FpR p) = 0). rewrite <- E. ring. }
  rewrite X. ring.
Qed.
End NT.

Section PairH.
Local Open Scope r_scope.
Variable c : cfg.
(** any configuration; the name of the hypothesis serves the files built on this one *)
Context {bs : bool} (HB : snark c = bs).
Local Notation p := (cp c).
Add Ring FRh : (rth (FpR (cp c))).
Add Ring KRh : (rth (K2 c)).
Add Ring KR6h : (rth (K6 c)).
Add Ring KR12h : (rth (K12 c)).
Ltac kk := cbn [radd rmul rsub ropp rz ro K2 quad qadd qsub qopp qmul q0 q1 a2 b2].
Ltac k6 := cbn [radd rmul rsub ropp rz ro K6 cubic kadd ksub kopp kmul k0 k1 kgen a3 b3 c3].
Ltac k12 := cbn [radd rmul rsub ropp rz ro K12 quad qadd qsub qopp qmul q0 q1 a2 b2].
Local Notation Tw := (ecpt (K2F c)).
Local Notation onT := (on_curve (K2F c) (cb2 c)).
Local Notation e212 := (e212 c).
Local Notation E := (E c).

(** -b' is not a cube: its norm is b^2 / N(xi) *)
Lemma nb2_noncube (x : K2 c) : x * x * x <> - (cb2 c : K2 c).
Proof using HB.
  clear HB. intros Ex. apply (nt_noncube c (n2 c x)). pose proof (cb2_xi c) as Ec.
  assert (N : n2 c (x * x * x * xi c) = n2 c (- e2 c (mk p (cb c)))).
  { f_equal. rewrite Ex, <- Ec. ring. }
  rewrite !n2_mul in N. unfold cnx. rewrite mk_add, !mk_mul. change (n2 c x * n2 c x * n2 c x * n2 c (xi c) = @rmul (FpR p) (mk p (cb c)) (mk p (cb c))). rewrite N. unfold n2, e2. kk. ring.
Qed.
Lemma yT_nz (x y : K2 c) : onT (EAff (x : K2F c) (y : K2F c)) -> y <> 0.
Proof using HB.
  intros H ->. unfold on_curve in H. change (@rmul (K2 c) 0 0 = @rmul (K2 c) (@rmul (K2 c) x x) x + (cb2 c : K2 c)) in H.
  apply (nb2_noncube x). transitivity (x * x * x + (cb2 c : K2 c) - (cb2 c : K2 c)); [ring|]. rewrite <- H. ring.
Qed.
Definition ix : K2 c := inv2 c (xi c).
Lemma ix_l : ix * xi c = 1. Proof using. exact (inv2_l c (xi c) (xi_nz c)). Qed.
Lemma ix_nz : ix <> 0.
Proof using. intros F. apply (field_nz _ (K2_field c)). rewrite <- ix_l, F. ring. Qed.

Section AtP.
Variables xP yP : FpR p.
Hypothesis HPc : yP * yP = xP * xP * xP + mk p (cb c).
Lemma xP_nz : xP <> 0.
Proof using HB HPc. intros F. apply (b_nonsq c yP). change (yP * yP = (mk p (cb c) : FpR p)). rewrite HPc, F. ring. Qed.
Lemma yP_nz : yP <> 0.
Proof using HB HPc. intros F. rewrite F in HPc. apply (nb_noncube c xP). transitivity (xP * xP * xP + (mk p (cb c) : FpR p) - (mk p (cb c) : FpR p)); [ring|]. rewrite <- HPc. ring. Qed.
(** P on the twist: (xP / w^2, yP / w^3) *)
Definition Xh : K12 c := mk12 c 0 0 (ix * e2 c xP) 0 0 0.
Definition Yh : K12 c := mk12 c 0 0 0 0 (ix * e2 c yP) 0.
Lemma e2_add a b : e2 c (a + b) = e2 c a + e2 c b. Proof using. apply F2_eq; unfold e2; kk; ring. Qed.
Lemma e2_mul a b : e2 c (a * b) = e2 c a * e2 c b. Proof using. apply F2_eq; unfold e2; kk; ring. Qed.
Lemma XYh : Yh * Yh = Xh * Xh * Xh + e212 (cb2 c).
Proof using HPc.
  assert (Hc : e2 c yP * e2 c yP = e2 c xP * e2 c xP * e2 c xP + e2 c (mk p (cb c))) by (rewrite <- !e2_mul, <- e2_add, HPc; reflexivity).
  pose proof ix_l as L. set (X := e2 c xP) in *. set (Y := e2 c yP) in *. pose proof (cb2_xi c) as Eb. rewrite <- Eb in Hc.
  unfold Xh, Yh, mk12, EcFrob.e212, e12, e6. fold X Y. set (bb := cb2 c : K2 c) in *. clearbody X Y bb. set (i := ix) in *. clearbody i. set (u := xi c) in *.
  apply F2_eq; apply F3_eq; k12; k6; fold u; try ring.
  transitivity (i * u * i * (Y * Y)); [ring|]. rewrite Hc.
  transitivity ((i * u) * i * (X * X * X) + (i * u) * (i * u) * bb); [ring|]. transitivity ((i * u) * (i * u) * i * (X * X * X) + bb); [|ring].
  rewrite L. ring.
Qed.
Lemma e212_1 : e212 1 = 1. Proof using. reflexivity. Qed.
Definition ev (f : CR (K2F c) (cb2 c)) : K12 c := evL (K2F c) (cb2 c) (K12 c) e212 Xh Yh f.
(** value of y - l x - m and of x - x1 at P *)
Definition lval (l m : K2 c) : K12 c := mk12 c (- m) 0 (- (l * (ix * e2 c xP))) 0 (ix * e2 c yP) 0.
Definition vval (x : K2 c) : K6 c := mk3 (- x) 0 (ix * e2 c xP).
Lemma ev_lnl l x1 y1 : ev (lnl (K2F c) (cb2 c) l x1 y1) = lval l (@rsub (K2 c) y1 (@rmul (K2 c) l x1)).
Proof using HPc.
  unfold ev. rewrite (evL_lnl (K2F c) (cb2 c) (K12 c) e212 (e212_add c) (e212_mul c) e212_1 _ _ XYh). unfold lval, Yh, Xh, mk12, EcFrob.e212, e12, e6.
  apply F2_eq; apply F3_eq; k12; k6; ring.
Qed.
Lemma ev_lnv x : ev (lnv (K2F c) (cb2 c) x) = e12 c (vval x).
Proof using.
  unfold ev. rewrite (evL_lnv (K2F c) (cb2 c) (K12 c) e212 (e212_add c) e212_1). unfold vval, Xh, mk12, EcFrob.e212, e12, e6. apply F2_eq; apply F3_eq; k12; k6; ring.
Qed.
Lemma ixe2_nz a : a <> 0 -> ix * e2 c a <> 0.
Proof using. intros Ha F. apply (field_integral _ (K2_field c)) in F as [F|F]; [exact (ix_nz F)|exact (e2_nz c a Ha F)]. Qed.
Lemma lval_nz l m : lval l m <> 0.
Proof using HB HPc. intros F. apply (ixe2_nz yP yP_nz). exact (f_equal (fun t => b3 (b2 t)) F). Qed.
Lemma vval_nz x : vval x <> 0.
Proof using HB HPc. intros F. apply (ixe2_nz xP xP_nz). exact (f_equal c3 F). Qed.
Definition hP (A B : Tw) : K12 c := E (ev (lnf (K2F c) (cb2 c) A B)).
Lemma ev_1 : ev ro = 1. Proof using. exact (evL_1 (K2F c) (cb2 c) (K12 c) e212 (e212_add c) e212_1 _ _). Qed.
Lemma lnf_O (A : Tw) : exists k : K6 c, k <> 0 /\ ev (lnf (K2F c) (cb2 c) EInf A) = e12 c k.
Proof using HB HPc.
  destruct A as [|x y]; cbn [lnf].
  - exists 1. split; [apply (field_nz _ (K6_field c))|]. exact ev_1.
  - exists (vval x). split; [apply vval_nz|]. apply ev_lnv.
Qed.
Lemma lnf_Or (A : Tw) : exists k : K6 c, k <> 0 /\ ev (lnf (K2F c) (cb2 c) A EInf) = e12 c k.
Proof using HB HPc.
  destruct A as [|x y]; cbn [lnf].
  - exists 1. split; [apply (field_nz _ (K6_field c))|]. exact ev_1.
  - exists (vval x). split; [apply vval_nz|]. apply ev_lnv.
Qed.
Lemma oppopp (y : K2 c) : y = - - y. Proof using. ring. Qed.
Lemma lnf_neg (A : Tw) : exists k : K6 c, k <> 0 /\ ev (lnf (K2F c) (cb2 c) A (ec_neg (K2F c) A)) = e12 c k.
Proof using HB HPc.
  destruct A as [|x y]; cbn [lnf ec_neg].
  - exists 1. split; [apply (field_nz _ (K6_field c))|]. exact ev_1.
  - destruct (fdec (K2F c) x x) as [_|N]; [|contradiction N; reflexivity].
    destruct (fdec (K2F c) y (- - y)) as [_|N]; [|exfalso; apply N; exact (oppopp y)].
    exists (vval x). split; [apply vval_nz|]. apply ev_lnv.
Qed.
Lemma hP_O A : hP EInf A = 1. Proof using HB HPc. unfold hP. destruct (lnf_O A) as (k & Hk & ->). apply E_6, Hk. Qed.
Lemma hP_Or A : hP A EInf = 1. Proof using HB HPc. unfold hP. destruct (lnf_Or A) as (k & Hk & ->). apply E_6, Hk. Qed.
Lemma hP_neg A : hP A (ec_neg (K2F c) A) = 1. Proof using HB HPc. unfold hP. destruct (lnf_neg A) as (k & Hk & ->). apply E_6, Hk. Qed.
Lemma hP_vert A B : vert (K2F c) A B -> hP A B = 1.
Proof using HB HPc. intros [-> | [-> | ->]]; [apply hP_O|apply hP_Or|apply hP_neg]. Qed.
Local Notation line3 := (line3 (K2F c) (cb2 c)).
Lemma hP_line A B l m x1 y1 x2 y2 x3 y3 : line3 A B l m x1 y1 x2 y2 x3 y3 -> hP A B = E (lval l m).
Proof using HPc.
  intros H. unfold hP. rewrite (li_f _ _ _ _ _ _ _ _ _ _ _ _ H), ev_lnl. f_equal. f_equal.
  pose proof (li_1 _ _ _ _ _ _ _ _ _ _ _ _ H) as H1. change (y1 = @radd (K2 c) (@rmul (K2 c) l x1) m) in H1. rewrite H1. ring.
Qed.
Lemma ev_nz A B : onT A -> onT B -> ev (lnf (K2F c) (cb2 c) A B) <> 0.
Proof using HB HPc.
  intros HA HBB. destruct (line_cases (K2F c) (cb2 c) (two2 c) A B HA HBB) as [[-> | [-> | ->]]|(l & m & x1 & y1 & x2 & y2 & x3 & y3 & H)].
  - destruct (lnf_O B) as (k & Hk & ->). intros F. apply Hk. exact (f_equal a2 F).
  - destruct (lnf_Or A) as (k & Hk & ->). intros F. apply Hk. exact (f_equal a2 F).
  - destruct (lnf_neg A) as (k & Hk & ->). intros F. apply Hk. exact (f_equal a2 F).
  - rewrite (li_f _ _ _ _ _ _ _ _ _ _ _ _ H), ev_lnl. apply lval_nz.
Qed.
Lemma hP_ok A B : onT A -> onT B -> rpz (hP A B) (cr c) = 1.
Proof using HB HPc. intros HA HBB. apply E_r, ev_nz; assumption. Qed.
Lemma hP_comm A B : onT A -> onT B -> hP A B = hP B A.
Proof using HPc.
  intros HA HBB. unfold hP. destruct (lnf_comm (K2F c) (cb2 c) (two2 c) (three2 c) (cb2_nz c) (K12 c) e212 (e212_add c) (e212_mul c) e212_1 Xh Yh XYh A B HA HBB) as (k & Hk & Ek).
  unfold ev. rewrite Ek. rewrite E_mul, E_2 by exact Hk. ring.
Qed.
Local Notation "A ++ B" := (ec_add (K2F c) A B).
Lemma hP_coc A B C : onT A -> onT B -> onT C -> hP A B * hP (A ++ B) C = hP B C * hP A (B ++ C).
Proof using HB HPc.
  intros HA HBB HC. destruct (cocyc_ev (K2F c) (cb2 c) (two2 c) (three2 c) (cb2_nz c) (K12 c) e212 (e212_add c) (e212_mul c) e212_1 Xh Yh XYh A B C HA HBB HC) as (k & Hk & Ek).
  apply (f_equal E) in Ek. rewrite !E_mul in Ek. fold (ev (lnf (K2F c) (cb2 c) A B)) in Ek. fold (hP A B) in Ek.
  change (hP A B * (hP (A ++ B) C * hP (B ++ C) EInf) = E (e212 k) * (hP B C * (hP A (B ++ C) * hP (A ++ B) EInf))) in Ek.
  rewrite !hP_Or, E_2 in Ek by exact Hk. transitivity (hP A B * (hP (A ++ B) C * 1)); [ring|]. rewrite Ek. ring.
Qed.
Local Notation psi := (psi c).
Lemma cjxi : cj c (xi c) = xi c * (g1 c * g1 c * g1 c * (g1 c * g1 c * g1 c)).
Proof using.
  clear HB HPc. rewrite <- (fr2 c (xi c)).
  pose proof (p6 c). pose proof (p6_pos c). replace (rpz (xi c) p) with (rpz (xi c) (1 + (((p - 1) / 6) + (p - 1) / 6 + (p - 1) / 6 + ((p - 1) / 6 + (p - 1) / 6 + (p - 1) / 6)))%Z) by (f_equal; lia).
  rewrite !rpz_add, rpz_1 by lia. fold (g1 c). ring.
Qed.
Lemma cjix : cj c ix * (g1 c * g1 c * g1 c * (g1 c * g1 c * g1 c)) = ix.
Proof using.
  pose proof (f_equal (cj c) ix_l) as L. rewrite cj_mul, cj_1, cjxi in L.
  transitivity (ix * (cj c ix * (xi c * (g1 c * g1 c * g1 c * (g1 c * g1 c * g1 c))))).
  - transitivity ((ix * xi c) * (cj c ix * (g1 c * g1 c * g1 c * (g1 c * g1 c * g1 c)))); [rewrite ix_l; ring|]. set (ci := cj c ix : K2 c). clearbody ci. ring.
  - rewrite L. ring.
Qed.
Lemma cj_opp x : cj c (- x) = - cj c x.
Proof using. exact (f_opp (K2F c) (cj c) (cj_add c) x). Qed.
Lemma lval_fr l m : lval (cj c l * g1 c) (cj c m * (g1 c * g1 c * g1 c)) = e212 (g1 c * g1 c * g1 c) * rpz (lval l m) p.
Proof using.
  rewrite fr12. pose proof cjix as X. set (g := g1 c) in *. unfold lval, twist, mk12, EcFrob.e212, e12, e6. cbn [a2 b2 a3 b3 c3].
  assert (C0 : cj c 0 = 0) by exact (f_0 (K2F c) (cj c) (cj_add c)). rewrite !cj_opp, !cj_mul, !cj_e2, C0.
  set (ci := cj c ix : K2 c) in *. set (i := ix) in *. set (cl := cj c l : K2 c). set (cm := cj c m : K2 c). set (X1 := e2 c xP). set (Y1 := e2 c yP). rewrite <- X.
  clearbody ci cl cm X1 Y1 g. clear X i.
  apply F2_eq; apply F3_eq; k12; k6; ring.
Qed.
Lemma psi_vert A B : onT A -> onT B -> vert (K2F c) (psi A) (psi B) <-> vert (K2F c) A B.
Proof using. exact (hm_vert (K2F c) (cb2 c) (cj c) (g1 c) (cj_add c) (cj_mul c) (cj_1 c) (g1_nz c) (two2 c) A B). Qed.
Lemma hP_psi A B : onT A -> onT B -> hP (psi A) (psi B) = rpz (hP A B) p.
Proof using HB HPc.
  intros HA HBB. destruct (line_cases (K2F c) (cb2 c) (two2 c) A B HA HBB) as [V|(l & m & x1 & y1 & x2 & y2 & x3 & y3 & H)].
  - rewrite (hP_vert A B V). rewrite hP_vert; [symmetry; apply rpz_one|]. exact (proj2 (psi_vert A B HA HBB) V).
  - pose proof (psi_on c A HA) as HA'. pose proof (psi_on c B HBB) as HB'.
    destruct (line_cases (K2F c) (cb2 c) (two2 c) (psi A) (psi B) HA' HB') as [V|(l' & m' & x1' & y1' & x2' & y2' & x3' & y3' & H')].
    + exfalso. apply (line3_nt _ _ _ _ _ _ _ _ _ _ _ _ H). exact (proj1 (psi_vert A B HA HBB) V).
    + rewrite (hP_line _ _ _ _ _ _ _ _ _ _ H), (hP_line _ _ _ _ _ _ _ _ _ _ H'). rewrite !psi_hm in H'.
      destruct (hm_line (K2F c) (cb2 c) (cj c) (g1 c) (cj_add c) (cj_mul c) (cj_1 c) (g1_nz c) (two2 c) (cb2_fr c) _ _ _ _ _ _ _ _ _ _ _ _ _ _ _ _ _ _ HA HBB H H') as [-> ->].
      transitivity (E (e212 (g1 c * g1 c * g1 c) * rpz (lval l m) p)); [exact (f_equal E (lval_fr l m))|]. rewrite E_mul, E_2, E_fr; [ring|]. pose proof (g1_nz c) as G. intros T.
      apply (field_integral _ (K2_field c)) in T as [T|T]; [apply (field_integral _ (K2_field c)) in T as [T|T]|]; exact (G T).
Qed.
End AtP.
End PairH.
