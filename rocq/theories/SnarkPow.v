(** Fp12 products and pow_neg_t on every curve, as far as they are right: the last coefficient
    of each double-size Fp6 product must stay below p 2^256 (it may not on the SNARK curves). *)
From Coq Require Import ZArith Znumtheory List Lia Ring.
From Verif Require Import Base Prim Loop Power PowerProofs Alg FpSpec Cfg FpM FpProofs FpApi FpApiProofs TowerSpec TowerField TowerM Fp2Proofs Fp6Proofs Frob ParamM ParamProofs FinalM FinalProofs FinalExp TowerApi TowerWit.
Import ListNotations.
Local Open Scope Z_scope.

(** the three double-size Fp6 products that Fp12::mul forms stay in range *)
Definition in6 (c : cfg) (x y : fp6) : Prop := b2 (c3 (d6_mul c x y)) < cp c * W.
Definition in12 (c : cfg) (x y : fp12) : Prop :=
  in6 c (a2 x) (a2 y) /\ in6 c (b2 x) (b2 y) /\ in6 c (f6_add c (a2 x) (b2 x)) (f6_add c (a2 y) (b2 y)).
(** the two that Fp12::square forms do *)
Definition in12sq (c : cfg) (x : fp12) : Prop :=
  in6 c (b2 x) (a2 x) /\ in6 c (f6_add c (a2 x) (b2 x)) (f6_mul_gamma_add c (b2 x) (a2 x)).
(** every product of the run of pow_neg_t on [x] does: [o] is the value before the product *)
Definition pow_in12 (c : cfg) (P : param) (x : fp12) : Prop :=
  forall l1 d l2, tl (par_zr P) = l1 ++ d :: l2 ->
  let o := f12_sqru c (pow_neg_loop c l1 x (f12_conj c x) x) in
  (0 < d -> in12 c o x) /\ (d < 0 -> in12 c o (f12_conj c x)).

Section SP.
Variable c : cfg.
Add Ring KRsp6 : (rth (K6 c)).
Add Ring KRsp : (rth (K12 c)).
Ltac k12 := cbn [radd rmul rsub ropp rz ro K12 quad qadd qsub qopp qmul q0 q1 a2 b2].
Local Notation rep6 := (rep6 c). Local Notation rep12 := (rep12 c). Local Notation drep6 := (drep6 c).
Local Open Scope r_scope.
Lemma d6_mul_in x y v w : in6 c x y -> rep6 x v -> rep6 y w -> drep6 (d6_mul c x y) (v * w).
Proof.
  intros HI Hx Hy. destruct (d6_mul_gen c _ _ _ _ Hx Hy) as (A1 & A2 & A3 & A4 & A5).
  repeat split; try apply A1; try apply A2; try apply A3; [lia|exact HI|exact A5].
Qed.
Lemma f12_mul_in x y v w : in12 c x y -> rep12 x v -> rep12 y w -> rep12 (f12_mul c x y) (v * w).
Proof.
  intros (I1 & I2 & I3) [Xa Xb] [Ya Yb]. unfold f12_mul. cbv zeta.
  pose proof (d6_mul_in _ _ _ _ I1 Xa Ya) as T0. pose proof (d6_mul_in _ _ _ _ I2 Xb Yb) as T1.
  pose proof (d6_mul_in _ _ _ _ I3 (f6_add_rep c _ _ _ _ Xa Xb) (f6_add_rep c _ _ _ _ Ya Yb)) as Td.
  apply rep12_mk; k12; apply d6_mod_rep.
  - eapply drep6_eq; [exact (d6_mul_gamma_add_rep c _ _ _ _ T1 T0)|ring].
  - eapply drep6_eq; [exact (d6_sub_rep c _ _ _ _ Td (d6_add_rep c _ _ _ _ T0 T1))|ring].
Qed.
Lemma f12_square_in x v : in12sq c x -> rep12 x v -> rep12 (f12_square c x) (v * v).
Proof.
  intros (I1 & I2) [Xa Xb]. unfold f12_square. cbv zeta.
  pose proof (f6_add_rep c _ _ _ _ Xa Xb) as T0. pose proof (f6_mul_gamma_add_rep c _ _ _ _ Xb Xa) as T1.
  pose proof (d6_mod_rep c _ _ (d6_mul_in _ _ _ _ I1 Xb Xa)) as Zb. pose proof (d6_mod_rep c _ _ (d6_mul_in _ _ _ _ I2 T0 T1)) as Za.
  fold (f6_mul c (b2 x) (a2 x)) in Zb. fold (f6_mul c (f6_add c (a2 x) (b2 x)) (f6_mul_gamma_add c (b2 x) (a2 x))) in Za.
  pose proof (f6_mul_gamma_add_rep c _ _ _ _ Zb Zb) as T2.
  apply rep12_mk; k12.
  - eapply (rep6_eq c); [exact (f6_sub_rep c _ _ _ _ Za T2)|ring].
  - eapply (rep6_eq c); [exact (f6_add_rep c _ _ _ _ Zb Zb)|ring].
Qed.

Lemma pow_neg_snoc l d x xc out : pow_neg_loop c (l ++ [d]) x xc out =
  let o := f12_sqru c (pow_neg_loop c l x xc out) in
  (if 0 <? d then f12_mul c o x else if d <? 0 then f12_mul c o xc else o)%Z.
Proof.
  revert out. induction l as [|a l IH]; intros out; [reflexivity|]. cbn [app pow_neg_loop]. cbv zeta in IH |- *. apply IH.
Qed.
Lemma pow_neg_prefix x v (l : list Z) : rep12 x v -> cyclo c v -> digits3 l ->
  (forall l1 d l2, l = l1 ++ d :: l2 -> let o := f12_sqru c (pow_neg_loop c l1 x (f12_conj c x) x) in
    ((0 < d)%Z -> in12 c o x) /\ ((d < 0)%Z -> in12 c o (f12_conj c x))) ->
  rep12 (pow_neg_loop c l x (f12_conj c x) x) (ez c v (bval (1%Z :: l))).
Proof.
  intros Hx Hv. induction l as [|d l IH] using rev_ind; intros HD HI.
  - cbn [pow_neg_loop]. eapply (rep12_eq c); [exact Hx|]. symmetry. apply ez_1. exact Hv.
  - apply Forall_app in HD. destruct HD as [HD Hd]. inversion Hd as [|? ? Hd1 _]; subst.
    assert (R : rep12 (pow_neg_loop c l x (f12_conj c x) x) (ez c v (bval (1%Z :: l)))).
    { apply IH; [exact HD|]. intros l1 d1 l2 ->. apply (HI l1 d1 (l2 ++ [d])). rewrite <- app_assoc. reflexivity. }
    specialize (HI l d [] eq_refl). cbv zeta in HI. rewrite pow_neg_snoc. cbv zeta.
    pose proof (f12_sqru_rep c _ _ R (ez_cyclo c v _ Hv)) as R2.
    change (1%Z :: l ++ [d]) with ((1%Z :: l) ++ [d]). rewrite bval_snoc.
    destruct Hd1 as [ -> | [ -> | -> ] ]; cbn [Z.ltb Z.compare].
    + eapply (rep12_eq c); [exact (f12_mul_in _ _ _ _ (proj2 HI eq_refl) R2 (f12_conj_rep c _ _ Hx))|].
      rewrite ez_sq by exact Hv. rewrite <- (ez_1 c v Hv) at 2. rewrite ez_conj, ez_add by exact Hv. reflexivity.
    + eapply (rep12_eq c); [exact R2|]. rewrite ez_sq by exact Hv. f_equal. lia.
    + eapply (rep12_eq c); [exact (f12_mul_in _ _ _ _ (proj1 HI eq_refl) R2 Hx)|].
      rewrite ez_sq by exact Hv. rewrite <- (ez_1 c v Hv) at 2. rewrite ez_add by exact Hv. reflexivity.
Qed.
Lemma pow_neg_in P x v : snark c = true -> paramInit (snark c) (curveOf c) = Ok P -> rep12 x v -> cyclo c v -> pow_in12 c P x ->
  exists w, rep12 (f12_pow_neg_t c P x) w /\ w * rpz v (cz c) = 1.
Proof.
  intros HB HI Hx Hv HR. destruct (ok_zr c P (param_par_ok c P HI) HB) as (E1 & E2 & l & E3).
  unfold f12_pow_neg_t. unfold pow_in12 in HR. rewrite E3 in *. cbn [tl] in *.
  inversion E2 as [|? ? _ E4]; subst.
  eexists. split; [exact (f12_conj_rep c _ _ (pow_neg_prefix x v l Hx Hv E4 HR))|].
  rewrite E1, ez_conj by exact Hv. assert (Hz : (0 <= cz c)%Z) by (destruct c; [discriminate HB| |]; cbn; lia).
  rewrite <- (ez_pos c v (cz c) Hv Hz). rewrite ez_add by exact Hv. rewrite Z.add_opp_diag_l. apply ez_0.
Qed.
End SP.
(** a run that meets the condition *)
Lemma one_one c : rmul ro ro = (ro : K12 c).
Proof. exact (Ring_theory.Rmul_1_l (rth (K12 c)) _). Qed.
Lemma conj12_1 c : conj12 c ro = ro.
Proof. pose proof (cyclo_unit c _ (cyclo_1 c)) as E. rewrite (Ring_theory.Rmul_1_l (rth (K12 c))) in E. exact E. Qed.
Lemma pow_in12_one c P : snark c = true -> pow_in12 c P (f12_1 c).
Proof.
  intros HB. unfold pow_in12. set (o := f12_1 c).
  assert (I : in12 c o o) by (unfold in12, in6; rewrite <- !Z.ltb_lt; unfold o; split; [|split]; (destruct c; [discriminate HB| |]; vm_compute; reflexivity)).
  pose proof (f12_1_rep c) as R1. fold o in R1. pose proof (cyclo_1 c) as C1.
  assert (E1 : f12_conj c o = o) by (apply (rep12_inj c _ _ _ (f12_conj_rep c _ _ R1)); rewrite conj12_1; exact R1).
  assert (E2 : f12_sqru c o = o) by (apply (rep12_inj c _ _ _ (f12_sqru_rep c _ _ R1 C1)); rewrite one_one; exact R1).
  assert (E3 : f12_mul c o o = o) by (apply (rep12_inj c _ _ _ (f12_mul_in c _ _ _ _ I R1 R1)); rewrite one_one; exact R1).
  assert (L : forall l, pow_neg_loop c l o o o = o).
  { induction l as [|d l IH]; [reflexivity|]. cbn [pow_neg_loop]. rewrite E2, E3. destruct (0 <? d), (d <? 0); exact IH. }
  intros l1 d l2 _. cbv zeta. rewrite E1, L, E2.
  split; intros _; exact I.
Qed.
(** operands that meet the conditions, and one that does not *)
Definition w12 (i j : Z) : fp12 := let f k := mk2 (i + k) (j + k) in mk2 (mk3 (f 1) (f 2) (f 3)) (mk3 (f 4) (f 5) (f 6)).
Lemma w12_rep c : rep12 c (w12 10 20) (v12 c (w12 10 20)).
Proof. split; apply can_rep6, allc_can; destruct c; vm_compute; reflexivity. Qed.
Lemma w12_ne c (v : K12 c) : a2 (a3 (b2 v)) = rz -> v12 c (w12 10 20) <> v.
Proof. intros H E. apply (f_equal (fun v => a2 (a3 (b2 v)))) in E. pose proof (eq_trans E H) as E'. clear E. change (fv c 14 = f0) in E'. rename E' into E. rewrite <- (fv_0 c) in E. apply fv_inj in E; [discriminate E|unfold can; pose proof (cp_bounds c); lia..]. Qed.
Lemma in12_ex c : exists x v, rep12 c x v /\ v <> rz /\ v <> ro /\ in12 c x x /\ in12sq c x.
Proof.
  exists (w12 10 20), (v12 c (w12 10 20)). split; [exact (w12_rep c)|]. split; [apply w12_ne; reflexivity|]. split; [apply w12_ne; reflexivity|].
  unfold in12, in12sq, in6. rewrite <- !Z.ltb_lt. split; [split; [|split]|split]; destruct c; vm_compute; reflexivity.
Qed.
Lemma f12_square_noncanonical c : snark c = true -> exists x v, rep12 c x v /\ ~ can c (b2 (c3 (b2 (f12_square c x)))).
Proof.
  intros Hc. exists (mk2 (w6 0) (w6 3)), (mk2 (v6 c (w6 0)) (v6 c (w6 3))). destruct (w6_rep c Hc) as [H3 H0]. split; [split; [exact H0|exact H3]|].
  intros [_ H]. apply Z.ltb_lt in H.
  assert (E : (b2 (c3 (b2 (f12_square c (mk2 (w6 0) (w6 3))))) <? cp c) = false) by (clear H; destruct c; [discriminate Hc| |]; vm_compute; reflexivity).
  discriminate (eq_trans (eq_sym E) H).
Qed.
