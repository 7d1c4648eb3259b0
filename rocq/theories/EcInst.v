(** The two curves: E : y^2 = x^3 + b over Fp and the twist E' : y^2 = x^3 + b/xi over Fp2;
    instances of the generic results of EcProofs.v, membership tests, twist Frobenius. *)
From Coq Require Import ZArith Znumtheory Lia List Bool Ring.
From Verif Require Import Base Prim PrimProofs Loop Vuint VuintProofs Power FpSpec Cfg FpM FpProofs FpInvProofs FpApi FpApiProofs FpWit
  TowerSpec TowerField TowerM Fp2Proofs Frob ParamM ParamProofs TowerApi Poly EcSpec EcGroup EcM EcProofs.
Import ListNotations.
Local Open Scope Z_scope.

(** ** The fields *)
Lemma Fp_dec p (x y : Fp p) : {x = y} + {x <> y}.
Proof. destruct (Z.eq_dec (zv x) (zv y)) as [E|N]; [left; apply Fp_eq, E|right; congruence]. Qed.
Definition FpF (c : cfg) : fld :=
  Fld (FpR (cp c)) finv (Fp_dec (cp c)) (f1_neq_0 (cp c) (cp_prime c)) (FpSpec.finv_l (cp c) (cp_prime c)).
Lemma F2_dec A (d : forall x y : A, {x = y} + {x <> y}) (x y : F2 A) : {x = y} + {x <> y}.
Proof.
  destruct (d (a2 x) (a2 y)) as [E1|N]; [|right; congruence]. destruct (d (b2 x) (b2 y)) as [E2|N]; [|right; congruence].
  left. apply F2_eq; assumption.
Qed.
Section K2inv.
Local Open Scope r_scope.
Variable c : cfg.
Local Notation p := (cp c).
Add Ring FRi : (rth (FpR (cp c))).
Ltac kk := cbn [radd rmul rsub ropp rz ro K2 quad qadd qsub qopp qmul q0 q1 a2 b2].
(** 1/(a + b u) = (a - b u)/(a^2 + b^2) *)
Definition inv2 (x : K2 c) : K2 c := let n := finv (a2 x * a2 x + b2 x * b2 x : FpR p) in mk2 (a2 x * n) (- b2 x * n).
Lemma inv2_l (x : K2 c) : x <> 0 -> inv2 x * x = 1.
Proof.
  intros Hx. unfold inv2. set (nn := a2 x * a2 x + b2 x * b2 x : FpR p).
  assert (N : nn <> 0).
  { intros E. apply (qnorm_nz (FpR p) (- (1)) (K1_field c) (fun x => m1_nonsquare c x) x Hx). unfold qnorm. rewrite <- E. unfold nn. ring. }
  pose proof (FpSpec.finv_l p (cp_prime c) nn N) as L. revert L. set (f := finv nn : FpR p). clearbody f. unfold nn. intros L.
  change (@rmul (FpR p) f (a2 x * a2 x + b2 x * b2 x) = 1) in L. cbv zeta. apply F2_eq; kk.
  - etransitivity; [|exact L]. ring.
  - ring.
Qed.
Definition K2F : fld := Fld (K2 c) inv2 (F2_dec _ (Fp_dec p)) (field_nz _ (K2_field c)) inv2_l.
End K2inv.

(** ** The implementations *)
Section Inst.
Variable c : cfg.
Local Notation p := (cp c).
Lemma cpp_nn : 0 <= cpp c. Proof. destruct c; vm_compute; discriminate. Qed.
Ltac zz := repeat first [rewrite Zmod_0_l|rewrite Z.mul_0_l|rewrite Z.mul_0_r|rewrite Z.add_0_l|rewrite Z.add_0_r|rewrite Z.sub_0_r|rewrite Zdiv_0_l]; try reflexivity.
Lemma mont1_0 x : mont1 c 0 x 0 = 0.
Proof. cbv beta zeta delta [mont1]. replace (0 + x * 0) with 0 by (rewrite Z.mul_0_r; reflexivity). zz. Qed.
Lemma fp_mul_0_r x : fp_mul c x 0 = 0.
Proof. cbv beta zeta delta [fp_mul]. rewrite !Zdiv_0_l, Zmod_0_l, !mont1_0, Zmod_0_l. unfold add_modp. pose proof (cp_pos c). destruct (0 <? p) eqn:E; [reflexivity|lia]. Qed.
Lemma fp_add_0 : fp_add c 0 0 = 0.
Proof. unfold fp_add, add_modp. rewrite Z.add_0_l, Zmod_0_l. pose proof (cp_pos c). destruct (0 <? p) eqn:E; [reflexivity|lia]. Qed.
Lemma modround_0 w : modround c w 0 = 0.
Proof. cbv beta zeta delta [modround]. zz. Qed.
Lemma dbl_mod_0 : dbl_mod c 0 = 0.
Proof. cbv beta zeta delta [dbl_mod]. rewrite !modround_0. unfold add_modp. pose proof (cp_pos c). destruct (0 <? p) eqn:E; [reflexivity|lia]. Qed.
Lemma f2_mul_0_r x : f2_mul c x f2_0 = f2_0.
Proof.
  unfold f2_mul, f2_0. cbn [a2 b2]. unfold dbl_mul, dbl_subNC, dbl_sub, fp_addNC. zz. change (0 <? 0) with false. cbv iota. rewrite dbl_mod_0. reflexivity.
Qed.
Lemma f2_add_0 : f2_add c f2_0 f2_0 = f2_0.
Proof. unfold f2_add, f2_0. cbn [a2 b2]. rewrite fp_add_0. reflexivity. Qed.

Definition impl1 : fimpl (fpO c) (FpF c).
Proof.
  refine (FImpl (fpO c) (FpF c) (can c) (fv c) _ _ _ _ _ _ _ _ _ _ _ _ _); cbn [fpO fT o_add o_sub o_mul o_sq o_neg o_inv o_isZero o_eqb o_0 o_1].
  - intros x y Hx Hy. exact (add_rep1 c x y _ _ (conj Hx eq_refl) (conj Hy eq_refl)).
  - intros x y Hx Hy. exact (sub_rep1 c x y _ _ (conj Hx eq_refl) (conj Hy eq_refl)).
  - intros x y Hx Hy. exact (mul_rep1 c x y _ _ (conj Hx eq_refl) (conj Hy eq_refl)).
  - intros x Hx. exact (mul_rep1 c x x _ _ (conj Hx eq_refl) (conj Hx eq_refl)).
  - intros x Hx. exact (neg_rep1 c x _ (conj Hx eq_refl)).
  - intros x Hx Nx. destruct (fp_inv_ok c x Hx) as (y & E & Hy & Ey). exists y. split; [exact E|]. split; [exact Hy|]. rewrite Ey. exact (FpSpec.finv_l p (cp_prime c) (fv c x) Nx).
  - intros x Hx. unfold fp_isZero. rewrite Z.eqb_eq. symmetry. exact (fv_eq0 c x Hx).
  - intros x y Hx Hy. exact (fp_eqb_ok c x y Hx Hy).
  - exact (zero_rep1 c).
  - pose proof (cp_pos c). split; [unfold can, cR; apply Z.mod_pos_bound; assumption|]. unfold cR. rewrite fv_mod. rewrite <- (Z.mul_1_l W), fv_W. reflexivity.
  - exact (fv_inj c).
  - exact fp_mul_0_r.
  - exact fp_add_0.
Defined.
(** the value of an Fp2 object *)
Definition f2v (x : fp2) : K2 c := mk2 (fv c (a2 x)) (fv c (b2 x)).
Definition can2 (x : fp2) : Prop := can c (a2 x) /\ can c (b2 x).
Lemma rep2_can2 x v : rep2 c x v <-> can2 x /\ f2v x = v.
Proof.
  split.
  - intros [[H1 H2] [H3 H4]]. split; [split; assumption|]. unfold f2v. rewrite H2, H4. destruct v; reflexivity.
  - intros [[H1 H2] <-]. split; split; auto.
Qed.
Lemma can2_rep x : can2 x -> rep2 c x (f2v x). Proof. intros H. apply rep2_can2. auto. Qed.
Lemma f2_1_rep_ : rep2 c (f2_1 c) ro.
Proof. split; [exact (i_1 _ _ impl1)|exact (zero_rep1 c)]. Qed.
Definition impl2 : fimpl (fp2O c) (K2F c).
Proof.
  refine (FImpl (fp2O c) (K2F c) can2 f2v _ _ _ _ _ _ _ _ _ _ _ _ _); cbn [fp2O fT o_add o_sub o_mul o_sq o_neg o_inv o_isZero o_eqb o_0 o_1].
  - intros x y Hx Hy. apply rep2_can2. apply f2_add_rep; apply can2_rep; assumption.
  - intros x y Hx Hy. apply rep2_can2. apply f2_sub_rep; apply can2_rep; assumption.
  - intros x y Hx Hy. apply rep2_can2. apply f2_mul_rep; apply can2_rep; assumption.
  - intros x Hx. apply rep2_can2. apply f2_square_rep; apply can2_rep; assumption.
  - intros x Hx. apply rep2_can2. apply f2_neg_rep; apply can2_rep; assumption.
  - intros x Hx Nx. destruct (f2_inverse_rep c x (f2v x) (can2_rep x Hx)) as (y & w & E & R & I & _). exists y. split; [exact E|].
    apply rep2_can2 in R as [Hy <-]. split; [exact Hy|]. exact (I Nx).
  - intros x Hx. apply (f2_isZero_rep c x). apply can2_rep, Hx.
  - intros x y Hx Hy. apply (f2_eqb_rep c x y); apply can2_rep; assumption.
  - apply rep2_can2. apply f2_0_rep.
  - apply rep2_can2. apply f2_1_rep_.
  - intros x y Hx Hy E. apply (rep2_inj c x y (f2v x)); [apply can2_rep, Hx|]. rewrite E. apply can2_rep, Hy.
  - exact f2_mul_0_r.
  - exact f2_add_0.
Defined.

(** the curve constants *)
Definition cb1 : FpF c := mk p (cb c).
(** b / xi *)
Definition cb2 : K2F c := rmul (finvr (K2F c) (xi c)) (e2 c (mk p (cb c))).
Lemma mk_nz k : 0 < k < 2 ^ 32 -> mk p k <> f0.
Proof. intros Hk E. apply mk_eq in E. rewrite Zmod_0_l in E. pose proof (cp_bounds c). rewrite Z.mod_small in E by lia. lia. Qed.
Lemma two1 : (radd ro ro : FpF c) <> rz.
Proof. intros E. apply (mk_nz 2); [lia|]. etransitivity; [|exact E]. exact (mk_add p 1 1). Qed.
Lemma three1 : (radd (radd ro ro) ro : FpF c) <> rz.
Proof. intros E. apply (mk_nz 3); [lia|]. etransitivity; [|exact E]. change (mk p 3) with (mk p (1 + 1 + 1)). rewrite !mk_add. reflexivity. Qed.
Lemma cb1_nz : cb1 <> rz.
Proof. apply mk_nz. destruct c; cbn [cb]; lia. Qed.
Lemma two2 : (radd ro ro : K2F c) <> rz.
Proof. intros E. apply two1. exact (f_equal a2 E). Qed.
Lemma three2 : (radd (radd ro ro) ro : K2F c) <> rz.
Proof. intros E. apply three1. exact (f_equal a2 E). Qed.
End Inst.
Section Inst2.
Local Open Scope r_scope.
Variable c : cfg.
Local Notation p := (cp c).
Add Ring FRe : (rth (FpR (cp c))).
Add Ring KRe : (rth (K2 c)).
Ltac kk := cbn [radd rmul rsub ropp rz ro K2 quad qadd qsub qopp qmul q0 q1 a2 b2].
Lemma xi_nz : xi c <> 0.
Proof. intros E. apply (xi_nonsquare c 0). rewrite E. ring. Qed.
Lemma cb2_xi : (cb2 c : K2 c) * xi c = e2 c (mk p (cb c)).
Proof.
  unfold cb2. pose proof (inv2_l c (xi c) xi_nz) as L. change (@rmul (K2 c) (@rmul (K2 c) (inv2 c (xi c)) (e2 c (mk p (cb c)))) (xi c) = e2 c (mk p (cb c))).
  transitivity (inv2 c (xi c) * xi c * e2 c (mk p (cb c))); [ring|]. rewrite L. ring.
Qed.
Lemma e2_nz (a : FpR p) : a <> 0 -> e2 c a <> 0.
Proof. intros H E. apply H. exact (f_equal a2 E). Qed.
Lemma cb2_nz : cb2 c <> (0 : K2 c).
Proof.
  intros E. pose proof cb2_xi as L. change (cb2 c) with (cb2 c : K2 c) in E. rewrite E in L. apply (e2_nz (mk p (cb c))); [exact (cb1_nz c)|].
  rewrite <- L. ring.
Qed.
Lemma binvxi_rep P : par_ok c P -> rep2 c (par_binvxi P) (cb2 c).
Proof.
  intros HP. destruct (ok_binvxi c P HP) as (w & R & E). replace (cb2 c) with (w : K2F c); [exact R|].
  apply (fcancel (K2F c) w (cb2 c) (xi c) xi_nz). change (@rmul (K2 c) w (xi c) = @rmul (K2 c) (cb2 c) (xi c)). rewrite E, cb2_xi. reflexivity.
Qed.
(** *** Membership *)
Local Notation pt1 := (pt _ _ (impl1 c)).
Local Notation pt2 := (pt _ _ (impl2 c)).
Local Notation ok1 := (okp _ _ (impl1 c)).
Local Notation ok2 := (okp _ _ (impl2 c)).
Local Notation rp1 := (rp _ _ (impl1 c)).
Local Notation rp2 := (rp _ _ (impl2 c)).
Lemma cb_int : (- 2 ^ 31 < cb c < 2 ^ 31)%Z. Proof. destruct c; split; reflexivity. Qed.

Ltac oo := cbn [fpO fp2O fT o_add o_sub o_mul o_sq o_neg o_inv o_isZero o_eqb o_0 o_1].
Lemma setInt_b : exists fb, fp_setInt c (cb c) = Ok fb /\ rp1 fb (cb1 c).
Proof. destruct (fp_setInt_ok c (cb c) cb_int) as (fb & Eb & Cb & Vb). exists fb. split; [exact Eb|]. split; assumption. Qed.
Lemma isOnECJac3_ok (x : F3 Z) : ok1 x ->
  exists r, isOnECJac3 c (cb c) x = Ok r /\ (r = true <-> on_curve (FpF c) (cb1 c) (pt1 x)).
Proof.
  intros Hx. destruct setInt_b as (fb & Eb & Rb).
  exists (gJac (fpO c) (fun z => o_mul (fpO c) z fb) x). split.
  - unfold isOnECJac3, gJac. rewrite Eb. cbn [bind]. oo. destruct (fp_eqb (c3 x) 0); reflexivity.
  - apply gJac_ok; [|exact Hx]. intros z v Rz. apply rp_mul; assumption.
Qed.
Lemma isOnECHom3_ok (x : F3 Z) : ok1 x ->
  exists r, isOnECHom3 c (cb c) x = Ok r /\ (r = true <-> on_curve (FpF c) (cb1 c) (pth _ _ (impl1 c) x)).
Proof.
  intros Hx. destruct setInt_b as (fb & Eb & Rb).
  exists (gHom (fpO c) (fun z => o_mul (fpO c) (o_mul (fpO c) (o_sq (fpO c) z) z) fb) x). split.
  - unfold isOnECHom3, gHom. rewrite Eb. cbn [bind]. oo. destruct (fp_eqb (c3 x) 0); reflexivity.
  - apply gHom_ok; [|exact Hx]. intros z v Rz. exact (rp_mul _ _ _ _ _ _ _ (rp_mul _ _ _ _ _ _ _ (rp_sq _ _ _ _ _ Rz) Rz) Rb).
Qed.
Lemma isOnECHom2_ok (x y : Z) : can c x -> can c y ->
  exists r, isOnECHom2 c (cb c) x y = Ok r /\ (r = true <-> on_curve (FpF c) (cb1 c) (EAff (fv c x : FpF c) (fv c y : FpF c))).
Proof.
  intros Hx Hy. destruct setInt_b as (fb & Eb & Rb). exists (gHom2 (fpO c) fb x y). split.
  - unfold isOnECHom2, gHom2. rewrite Eb. cbn [bind]. oo. reflexivity.
  - apply (gHom2_ok (fpO c) (FpF c) (impl1 c)); [exact Rb|split; [exact Hx|reflexivity]|split; [exact Hy|reflexivity]].
Qed.
Lemma rp2_rep x v : rp2 x v <-> rep2 c x v.
Proof. rewrite rep2_can2. reflexivity. Qed.
Lemma K2F_comm (x y : K2F c) : x * y = y * x. Proof. exact (Rmul_comm (rth (K2F c)) x y). Qed.
Lemma isOnTwistECJac3_ok P (x : F3 fp2) : par_ok c P -> ok2 x ->
  (isOnTwistECJac3 c (par_binvxi P) x = true <-> on_curve (K2F c) (cb2 c) (pt2 x)).
Proof.
  intros HP Hx. assert (Rb : rp2 (par_binvxi P) (cb2 c)) by (apply rp2_rep, binvxi_rep, HP).
  assert (E : isOnTwistECJac3 c (par_binvxi P) x = gJac (fp2O c) (fun z => o_mul (fp2O c) (par_binvxi P) z) x).
  { unfold isOnTwistECJac3, gJac. oo. reflexivity. }
  rewrite E. apply gJac_ok; [|exact Hx]. intros z v Rz. rewrite K2F_comm. exact (rp_mul _ _ _ _ _ _ _ Rb Rz).
Qed.
Lemma isOnTwistECHom3_ok P (x : F3 fp2) : par_ok c P -> ok2 x ->
  (isOnTwistECHom3 c (par_binvxi P) x = true <-> on_curve (K2F c) (cb2 c) (pth _ _ (impl2 c) x)).
Proof.
  intros HP Hx. assert (Rb : rp2 (par_binvxi P) (cb2 c)) by (apply rp2_rep, binvxi_rep, HP).
  assert (E : isOnTwistECHom3 c (par_binvxi P) x = gHom (fp2O c) (fun z => o_mul (fp2O c) (o_mul (fp2O c) (o_mul (fp2O c) (par_binvxi P) z) z) z) x).
  { unfold isOnTwistECHom3, gHom. oo. reflexivity. }
  rewrite E. apply gHom_ok; [|exact Hx]. intros z v Rz. replace (v * v * v * cb2 c) with (cb2 c * v * v * v).
  - exact (rp_mul _ _ _ _ _ _ _ (rp_mul _ _ _ _ _ _ _ (rp_mul _ _ _ _ _ _ _ Rb Rz) Rz) Rz).
  - rewrite (K2F_comm (v * v * v)), <- !(Rmul_assoc (rth (K2F c))). reflexivity.
Qed.
Lemma isOnTwistECHom2_ok P (x y : fp2) : par_ok c P -> can2 c x -> can2 c y ->
  (isOnTwistECHom2 c (par_binvxi P) x y = true <-> on_curve (K2F c) (cb2 c) (EAff (f2v c x : K2F c) (f2v c y : K2F c))).
Proof.
  intros HP Hx Hy. assert (Rb : rp2 (par_binvxi P) (cb2 c)) by (apply rp2_rep, binvxi_rep, HP).
  assert (E : isOnTwistECHom2 c (par_binvxi P) x y = gHom2 (fp2O c) (par_binvxi P) x y) by (unfold isOnTwistECHom2, gHom2; oo; reflexivity).
  rewrite E. apply (gHom2_ok (fp2O c) (K2F c) (impl2 c)); [exact Rb|split; [exact Hx|reflexivity]|split; [exact Hy|reflexivity]].
Qed.
Lemma isValid1_ok P x : par_ok c P -> ok1 x -> exists r, isValid1 c P x = Ok r /\ (r = true <-> on_curve (FpF c) (cb1 c) (pt1 x)).
Proof. intros HP Hx. unfold isValid1. rewrite (ok_b c P HP). apply isOnECJac3_ok, Hx. Qed.
Lemma isValid2_ok P x : par_ok c P -> ok2 x -> exists r, isValid2 c P x = Ok r /\ (r = true <-> on_curve (K2F c) (cb2 c) (pt2 x)).
Proof. intros HP Hx. eexists. split; [reflexivity|]. apply isOnTwistECJac3_ok; assumption. Qed.
(** set / constructors with verification *)
Lemma set3_ok (O : fops) (K : fld) (X : fimpl O K) (isv : F3 (fT O) -> res bool) (onc : ecpt K -> Prop) :
  (forall x, okp O K X x -> exists r, isv x = Ok r /\ (r = true <-> onc (pt O K X x))) ->
  forall m o x y z, ok X x -> ok X y -> ok X z ->
  let m' := upd O m o (mk3 x y z) in
  (onc (jac K (mk3 (vl X x) (vl X y) (vl X z))) -> ec_set3 O isv m o x y z true = Ok (st2 O (st1 O (st0 O m o x) o y) o z)) /\
  (~ onc (jac K (mk3 (vl X x) (vl X y) (vl X z))) -> ec_set3 O isv m o x y z true = Throw).
Proof.
  intros Hv m o x y z Hx Hy Hz m'. unfold ec_set3. cbv zeta.
  assert (E : st2 O (st1 O (st0 O m o x) o y) o z o = mk3 x y z).
  { apply F3_eq; cbn [a3 b3 c3]; rewrite ?a3_st2, ?a3_st1, ?a3_st0, ?b3_st2, ?b3_st1, ?c3_st2; reflexivity. }
  rewrite E. destruct (Hv (mk3 x y z)) as (r & -> & Hr); [split; [exact Hz|intros _; split; assumption]|]. cbn [bind].
  change (pt O K X (mk3 x y z)) with (jac K (mk3 (vl X x) (vl X y) (vl X z))) in Hr.
  split; intros H; destruct r; try reflexivity.
  - exfalso. apply Hr in H. discriminate H.
  - exfalso. apply H, Hr. reflexivity.
Qed.
End Inst2.
