(** Proofs about repeated initialisation (C49). *)
From Coq Require Import ZArith List Bool Lia.
From Verif Require Import Base Prim Loop Vuint VDiv Vsint Cfg FpSpec FpM FpApi FpInit FpInitProofs TowerSpec TowerField TowerM TowerApi ParamM ParamProofs
  FinalProofs Fp2Proofs Poly FinalM EcSpec EcM EcInst EcApi PairM PairProofs InitM Init12.
Import ListNotations.
Local Open Scope Z_scope.

Lemma again_same c : paramAgain (snark c) c (curveOf c) = paramInit (snark c) (curveOf c).
Proof.
  unfold paramInit, paramAgain. rewrite supported_ok. cbn [curveOf cv_z cv_b cv_xa cv_xb].
  destruct (p_eval_ok c) as (z & -> & Wz & Ez & Ep & (r & Er & Vr) & (t & Et & Vt) & (k & lc & Ek & Elc & Mlc & Nlc)).
  cbn [bind]. rewrite Ep. cbn [bind]. rewrite Er. cbn [bind]. rewrite Et. cbn [bind]. rewrite Ek. cbn [bind]. rewrite Elc. cbn [bind].
  destruct (setModulo_ok c) as (tab & -> & _). cbn [bind]. exact eq_refl.
Qed.
Lemma again_12 sn k : paramAgain sn SNARK1 k = paramAgain sn SNARK2 k.
Proof.
  unfold paramAgain.
  do 6 (apply bind_ext; intro).
  rewrite fp_setInt_12. apply bind_ext; intro. apply bind_ext; intro.
  rewrite fp_inv_12. apply bind_ext; intro. cbv zeta.
  rewrite f2_ofInts_12. apply bind_ext; intro.
  rewrite f2_inverse_12. apply bind_ext; intro. apply bind_ext; intro.
  apply bind_ext; intro. apply bind_ext; intro. apply bind_ext; intro. apply bind_ext; intro. apply bind_ext; intro.
  apply bind_ext; intro. apply bind_ext; intro. apply bind_ext; intro.
  rewrite f2_pow_12, f2_mul_12, gam_fill_12, fp_mul_12, fp_neg_12.
  exact eq_refl.
Qed.
Lemma again_eq g c : snark g = snark c -> paramAgain (snark c) g (curveOf c) = paramInit (snark c) (curveOf c).
Proof.
  intros H. rewrite <- again_same. destruct g, c; try discriminate H.
  1, 2, 5: exact eq_refl.
  - exact (again_12 _ _).
  - exact (eq_sym (again_12 _ _)).
Qed.
Lemma setModulo_cfg g c : snark g = snark c -> setModulo g (pV g) = setModulo c (pV c).
Proof.
  intros H. destruct g, c; try discriminate H.
  1, 2, 5: exact eq_refl.
  - rewrite pV_12. exact (setModulo_12 _).
  - rewrite <- pV_12. exact (eq_sym (setModulo_12 _)).
Qed.
Lemma supported_inv sn k c : supported sn k = Some c -> snark c = sn /\ k = curveOf c.
Proof.
  unfold supported. intros H.
  assert (E : forall c', curve_eqb k (curveOf c') = true -> k = curveOf c').
  { intros c' E. unfold curve_eqb in E. rewrite !andb_true_iff, !Z.eqb_eq in E. destruct k, (curveOf c'). cbn in E. destruct E as (((-> & ->) & ->) & ->). reflexivity. }
  destruct sn.
  - destruct (curve_eqb k (curveOf SNARK1)) eqn:E1; [injection H as <-; auto|].
    destruct (curve_eqb k (curveOf SNARK2)) eqn:E2; [injection H as <-; auto|discriminate H].
  - destruct (curve_eqb k (curveOf BNb)) eqn:E1; [injection H as <-; auto|discriminate H].
Qed.

Lemma init_first c : exists P t, paramInit (snark c) (curveOf c) = Ok P /\ setModulo c (pV c) = Ok t /\
  init (snark c) lib0 (curveOf c) = Ok (mkLib (Some (c, t)) (Some P)).
Proof.
  destruct (paramInit_ok c) as (P & E & HP). destruct (setModulo_ok c) as (t & Et & _). exists P, t. split; [exact E|]. split; [exact Et|].
  unfold init. rewrite supported_ok. cbn [lib_gen lib0]. rewrite E. cbn [bind]. rewrite (ok_p c P HP), Et. reflexivity.
Qed.
Lemma init_again g t P0 c : snark g = snark c -> exists P, paramInit (snark c) (curveOf c) = Ok P /\
  init (snark c) (mkLib (Some (g, t)) P0) (curveOf c) = Ok (mkLib (Some (g, t)) (Some P)).
Proof.
  intros H. destruct (paramInit_ok c) as (P & E & HP). exists P. split; [exact E|].
  unfold init. rewrite supported_ok. cbn [lib_gen]. rewrite (again_eq g c H), E. reflexivity.
Qed.
Lemma inits_again sn g t : forall cs P0, snark g = sn -> Forall (fun c => snark c = sn) cs ->
  exists P, inits sn (mkLib (Some (g, t)) P0) (map curveOf cs) = Ok (mkLib (Some (g, t)) P) /\
    match cs with [] => P = P0 | _ => exists P', P = Some P' /\ paramInit sn (curveOf (last cs g)) = Ok P' end.
Proof.
  induction cs as [|c cs IH]; intros P0 Hg H; cbn [map inits]; [exists P0; split; reflexivity|].
  apply Forall_cons_iff in H as [Hc H].
  assert (Hgc : snark g = snark c) by (rewrite Hg, Hc; reflexivity).
  destruct (init_again g t P0 c Hgc) as (P1 & E1 & E2). rewrite Hc in E1, E2. rewrite E2. cbn [bind].
  destruct (IH (Some P1) Hg H) as (P & EP & HP). exists P. split; [exact EP|].
  destruct cs as [|c' cs].
  - exists P1. split; [exact HP|]. cbn [last]. exact E1.
  - destruct HP as (P' & -> & HP). exists P'. split; [reflexivity|]. cbn [last] in HP |- *. exact HP.
Qed.
Lemma init_state sn c cs : snark c = sn -> Forall (fun c => snark c = sn) cs ->
  exists t P, inits sn lib0 (map curveOf (c :: cs)) = Ok (mkLib (Some (c, t)) (Some P)) /\
    setModulo (last cs c) (pV (last cs c)) = Ok t /\ paramInit sn (curveOf (last cs c)) = Ok P.
Proof.
  intros Hc H. destruct (init_first c) as (P & t & E1 & E2 & E3). rewrite Hc in E1, E3.
  destruct (inits_again sn c t cs (Some P) Hc H) as (P' & EP & HP).
  cbn [map inits]. rewrite E3. cbn [bind].
  assert (Hl : snark (last cs c) = sn).
  { clear -Hc H. induction cs as [|a cs IH]; [exact Hc|]. apply Forall_cons_iff in H as [Ha H].
    destruct cs as [|b cs]; [exact Ha|]. change (last (a :: b :: cs) c) with (last (b :: cs) c). apply IH. exact H. }
  assert (Et : setModulo (last cs c) (pV (last cs c)) = Ok t).
  { rewrite <- E2. apply setModulo_cfg. rewrite Hl, Hc. reflexivity. }
  destruct cs as [|c' cs].
  - subst P'. exists t, P. split; [exact EP|]. split; [exact Et|exact E1].
  - destruct HP as (P1 & -> & HP). exists t, P1. split; [exact EP|]. split; [exact Et|exact HP].
Qed.
Lemma init_unsupported sn st k : supported sn k = None -> init sn st k = Exit.
Proof. intros H. unfold init. rewrite H. reflexivity. Qed.

(** ** SNARK1 first, then SNARK2 *)
Section S12.
Variable P : param.
Hypothesis HP : par_ok SNARK2 P.
Local Notation c := SNARK2.
Lemma mulb_12 x v : rep2 c x v -> mul_binvxi SNARK1 P x = mul_binvxi c P x.
Proof.
  intros Hx. assert (E : mul_binvxi SNARK1 P x = f2_mul c x (par_binvxi P)) by (rewrite <- f2_mul_12; exact eq_refl).
  rewrite E. eapply rep2_inj; [|exact (mul_binvxi_rep c P HP x v Hx)].
  eapply rep2_eq; [exact (f2_mul_rep c _ _ _ _ Hx (binvxi_rep c P HP))|].
  exact (Rmul_comm (rth (K2 c)) _ _).
Qed.
Lemma dblWP_12 R v : repR c R v -> dblLineWP SNARK1 P R = dblLineWP c P R.
Proof.
  intros HR. unfold dblLineWP. rewrite dblLine_gen_12.
  destruct R as [Rx Ry Rz], v as [X Y Z]. destruct HR as (HX & HY & HZ). cbn [a3 b3 c3] in *.
  unfold dblLine_gen. cbn [a3 b3 c3].
  assert (E : mul_binvxi SNARK1 P (f2_add c (f2_square c Rz) (f2_add c (f2_square c Rz) (f2_square c Rz))) = mul_binvxi c P (f2_add c (f2_square c Rz) (f2_add c (f2_square c Rz) (f2_square c Rz)))).
  { eapply mulb_12. apply f2_add_rep; [|apply f2_add_rep]; apply f2_square_rep; exact HZ. }
  rewrite E. exact eq_refl.
Qed.
Definition inR (T : F3 fp2) : Prop := exists v, repR c T v.
Lemma inR_dblWP T : inR T -> inR (snd (dblLineWP c P T)).
Proof. intros [v H]. destruct (dblLineWP_rep c P HP T v H) as [_ H']. eexists. exact H'. Qed.
Lemma inR_addWP T xq yq vx vy : inR T -> rep2 c xq vx -> rep2 c yq vy -> inR (snd (addLineWP c T xq yq)).
Proof. intros [v H] Hx Hy. destruct (addLineWP_rep c T v xq yq vx vy H Hx Hy) as [_ H']. eexists. exact H'. Qed.
Lemma dbl_12 T x y : inR T -> dblLine SNARK1 P T x y = dblLine c P T x y.
Proof. intros [v H]. unfold dblLine. rewrite (dblWP_12 T v H), mulFp6_24_12. exact eq_refl. Qed.
Lemma inR_dbl T x y : inR T -> inR (snd (dblLine c P T x y)).
Proof. intros H. apply inR_dblWP in H. unfold dblLine. destruct (dblLineWP c P T). exact H. Qed.
Lemma inR_add T xq yq vx vy x y : inR T -> rep2 c xq vx -> rep2 c yq vy -> inR (snd (addLine c T xq yq x y)).
Proof. intros H Hx Hy. apply (inR_addWP T xq yq vx vy H Hx) in Hy. unfold addLine. destruct (addLineWP c T xq yq). exact Hy. Qed.
Section Q.
Variables (xq yq : fp2) (vx vy : K2 c).
Hypotheses (Hx : rep2 c xq vx) (Hy : rep2 c yq vy).
Let yqn := f2_neg c yq.
Lemma Hyn : rep2 c yqn (ropp vy).
Proof. apply f2_neg_rep. exact Hy. Qed.
Lemma step_12 xp yp f T d : inR T -> miller_step SNARK1 P xq yq yqn xp yp (f, T) d = miller_step c P xq yq yqn xp yp (f, T) d /\
  inR (snd (miller_step c P xq yq yqn xp yp (f, T) d)).
Proof.
  intros HT. unfold miller_step. rewrite (dbl_12 T xp yp HT), f12_square_12, f12_mul_024_12, addLine_12.
  pose proof (inR_dbl T xp yp HT) as H1. destruct (dblLine c P T xp yp) as [l T1]. cbn [snd] in H1.
  split; [exact eq_refl|].
  destruct (d >? 0).
  - pose proof (inR_add T1 xq yq vx vy xp yp H1 Hx Hy) as H2. destruct (addLine c T1 xq yq xp yp) as [l2 T2]. exact H2.
  - destruct (d <? 0); [|exact H1].
    pose proof (inR_add T1 xq yqn vx _ xp yp H1 Hx Hyn) as H2. destruct (addLine c T1 xq yqn xp yp) as [l2 T2]. exact H2.
Qed.
Lemma fold_12 xp yp : forall ds f T, inR T ->
  fold_left (miller_step SNARK1 P xq yq yqn xp yp) ds (f, T) = fold_left (miller_step c P xq yq yqn xp yp) ds (f, T).
Proof.
  induction ds as [|d ds IH]; intros f T HT; cbn [fold_left]; [exact eq_refl|].
  destruct (step_12 xp yp f T d HT) as [E H]. rewrite E. destruct (miller_step c P xq yq yqn xp yp (f, T) d) as [f1 T1]. apply IH. exact H.
Qed.
Lemma miller_12 xp yp : miller SNARK1 P xq yq xp yp = miller c P xq yq xp yp.
Proof.
  unfold miller. rewrite f2_1_12, f2_neg_12.
  assert (H0 : inR (mk3 xq yq (f2_1 c))) by (exists (mk3 vx vy ro); split; [exact Hx|split; [exact Hy|apply f2_1_rep_]]).
  cbv zeta. rewrite (dbl_12 _ xp yp H0). pose proof (inR_dbl _ xp yp H0) as H1.
  destruct (dblLine c P (mk3 xq yq (f2_1 c)) xp yp) as [d T1]. cbn [snd] in H1.
  rewrite addLine_12. pose proof (inR_add _ xq yq vx vy xp yp H1 Hx Hy) as H2.
  destruct (addLine c T1 xq yq xp yp) as [e T2]. cbn [snd] in H2.
  fold yqn. rewrite (fold_12 xp yp _ _ T2 H2), f12_mul_024_024_12, FrobEnd1_12, FrobEnd2_12, FrobEnd8_12, f6_neg_12, sn_12, f12_mul_12.
  exact eq_refl.
Qed.
Lemma ate_12 xp yp : opt_ate SNARK1 P xq yq xp yp = opt_ate c P xq yq xp yp.
Proof. unfold opt_ate. rewrite miller_12, f12_final_exp_12. exact eq_refl. Qed.
Lemma dblWP_12' T : inR T -> dblLineWP SNARK1 P T = dblLineWP c P T.
Proof. intros [v H]. exact (dblWP_12 T v H). Qed.
Lemma pstep_12 f T d : inR T -> pre_step SNARK1 P xq yq yqn (f, T) d = pre_step c P xq yq yqn (f, T) d /\
  inR (snd (pre_step c P xq yq yqn (f, T) d)).
Proof.
  intros HT. unfold pre_step. rewrite (dblWP_12' T HT), addLineWP_12.
  pose proof (inR_dblWP T HT) as H1. destruct (dblLineWP c P T) as [l T1]. cbn [snd] in H1.
  split; [exact eq_refl|].
  destruct (d >? 0).
  - pose proof (inR_addWP T1 xq yq vx vy H1 Hx Hy) as H2. destruct (addLineWP c T1 xq yq) as [l2 T2]. exact H2.
  - destruct (d <? 0); [|exact H1].
    pose proof (inR_addWP T1 xq yqn vx _ H1 Hx Hyn) as H2. destruct (addLineWP c T1 xq yqn) as [l2 T2]. exact H2.
Qed.
Lemma pfold_12 : forall ds f T, inR T ->
  fold_left (pre_step SNARK1 P xq yq yqn) ds (f, T) = fold_left (pre_step c P xq yq yqn) ds (f, T).
Proof.
  induction ds as [|d ds IH]; intros f T HT; cbn [fold_left]; [exact eq_refl|].
  destruct (pstep_12 f T d HT) as [E H]. rewrite E. destruct (pre_step c P xq yq yqn (f, T) d) as [f1 T1]. apply IH. exact H.
Qed.
Lemma pre_12 : preG2 SNARK1 P xq yq = preG2 c P xq yq.
Proof.
  unfold preG2. rewrite f2_1_12, f2_neg_12.
  assert (H0 : inR (mk3 xq yq (f2_1 c))) by (exists (mk3 vx vy ro); split; [exact Hx|split; [exact Hy|apply f2_1_rep_]]).
  cbv zeta. rewrite (dblWP_12' _ H0). pose proof (inR_dblWP _ H0) as H1.
  destruct (dblLineWP c P (mk3 xq yq (f2_1 c))) as [d T1]. cbn [snd] in H1.
  rewrite addLineWP_12. pose proof (inR_addWP _ xq yq vx vy H1 Hx Hy) as H2.
  destruct (addLineWP c T1 xq yq) as [e T2]. cbn [snd] in H2.
  fold yqn. rewrite (pfold_12 _ _ T2 H2), FrobEnd1_12, FrobEnd2_12, FrobEnd8_12, sn_12.
  exact eq_refl.
Qed.
End Q.
End S12.
Lemma mloop_12 P v xp yp : millerLoop SNARK1 P v xp yp = millerLoop SNARK2 P v xp yp.
Proof.
  unfold millerLoop, mloop_step. rewrite mulFp6_24_12, f12_mul_024_024_12, f12_square_12, f12_mul_024_12, f6_neg_12, sn_12, f12_mul_12. exact eq_refl.
Qed.

(** ** SNARK2 first, then SNARK1 *)
Lemma bxi_param c P : par_ok c P -> par_binvxi P = bxi c.
Proof. intros HP. exact (rep2_inj c _ _ _ (binvxi_rep c P HP) (bxi_rep c)). Qed.
Lemma bad_21 P : par_ok SNARK1 P ->
  isOnTwistECHom3 SNARK2 (par_binvxi P) (gen2 SNARK1) = true /\
  isOnTwistECHom3 SNARK2 (par_binvxi P) (snd (dblLineWP SNARK1 P (gen2 SNARK1))) = true /\
  isOnTwistECHom3 SNARK2 (par_binvxi P) (snd (dblLineWP SNARK2 P (gen2 SNARK1))) = false.
Proof.
  intros HP. pose proof (bxi_param SNARK1 P HP) as E.
  assert (E1 : dblLineWP SNARK1 P = dblLine_gen SNARK1 (fun t => f2_mul SNARK1 t (bxi SNARK1))).
  { rewrite <- E. exact eq_refl. }
  rewrite E1, E. clear. split; [|split]; vm_compute; reflexivity.
Qed.
Lemma default_build cs : cs <> [] -> Forall (fun c => snark c = false) cs ->
  inits false lib0 (map curveOf cs) = init false lib0 (curveOf BNb).
Proof.
  intros Hn H. destruct cs as [|c cs]; [congruence|]. apply Forall_cons_iff in H as [Hc H].
  destruct (init_state false c cs Hc H) as (t & P & E & Et & EP). rewrite E.
  destruct (init_first BNb) as (P' & t' & EP' & Et' & E1). change (snark BNb) with false in E1. rewrite E1.
  assert (L : last cs c = BNb).
  { clear -Hc H. induction cs as [|a cs IH]; [exact (is_BNb c Hc)|]. apply Forall_cons_iff in H as [Ha H].
    destruct cs as [|b cs]; [exact (is_BNb a Ha)|]. exact (IH H). }
  rewrite L in Et, EP. rewrite (is_BNb c Hc).
  change (snark BNb) with false in EP'. rewrite EP in EP'. injection EP' as <-. rewrite Et in Et'. injection Et' as <-. reflexivity.
Qed.
Lemma state_12 : exists t P, inits true lib0 [curveOf SNARK1; curveOf SNARK2] = Ok (mkLib (Some (SNARK1, t)) (Some P)) /\
  paramInit true (curveOf SNARK2) = Ok P.
Proof.
  destruct (init_state true SNARK1 [SNARK2] eq_refl (Forall_cons SNARK2 eq_refl (Forall_nil _))) as (t & P & E & _ & EP).
  exists t, P. split; [exact E|exact EP].
Qed.
Lemma state_21 : exists t P, inits true lib0 [curveOf SNARK2; curveOf SNARK1] = Ok (mkLib (Some (SNARK2, t)) (Some P)) /\
  isOnTwistECHom3 SNARK2 (par_binvxi P) (gen2 SNARK1) = true /\
  isOnTwistECHom3 SNARK2 (par_binvxi P) (snd (dblLineWP SNARK1 P (gen2 SNARK1))) = true /\
  isOnTwistECHom3 SNARK2 (par_binvxi P) (snd (dblLineWP SNARK2 P (gen2 SNARK1))) = false.
Proof.
  destruct (init_state true SNARK2 [SNARK1] eq_refl (Forall_cons SNARK1 eq_refl (Forall_nil _))) as (t & P & E & _ & EP).
  exists t, P. split; [exact E|]. apply bad_21. exact (param_par_ok SNARK1 P EP).
Qed.
Lemma fresh_miller xq yq vx vy P x y : paramInit true (curveOf SNARK2) = Ok P -> rep2 SNARK2 xq vx -> rep2 SNARK2 yq vy ->
  opt_ate SNARK1 P xq yq x y = opt_ate SNARK2 P xq yq x y /\ preG2 SNARK1 P xq yq = preG2 SNARK2 P xq yq /\
  (forall v, millerLoop SNARK1 P v x y = millerLoop SNARK2 P v x y).
Proof.
  intros EP Hx Hy. pose proof (param_par_ok SNARK2 P EP) as HP.
  split; [exact (ate_12 P HP xq yq vx vy Hx Hy x y)|]. split; [exact (pre_12 P HP xq yq vx vy Hx Hy)|].
  intros v. exact (mloop_12 P v x y).
Qed.
Lemma ops_same g c : snark g = snark c ->
  (fp_add g = fp_add c /\ fp_sub g = fp_sub c /\ fp_neg g = fp_neg c /\ fp_mul g = fp_mul c /\ fp_inv g = fp_inv c /\ fp_sqrt g = fp_sqrt c) /\
  (f2_add g = f2_add c /\ f2_sub g = f2_sub c /\ f2_mul g = f2_mul c /\ f2_square g = f2_square c /\ f2_inverse g = f2_inverse c) /\
  (f6_mul g = f6_mul c /\ f6_inverse g = f6_inverse c /\ f12_mul g = f12_mul c /\ f12_square g = f12_square c /\ f12_inverse g = f12_inverse c) /\
  f12_final_exp g = f12_final_exp c /\ addLine g = addLine c /\ FrobEnd1 g = FrobEnd1 c /\ FrobEnd2 g = FrobEnd2 c /\
  fpO g = fpO c /\ fp2O g = fp2O c.
Proof.
  intros H. destruct g, c; try discriminate H.
  1, 2, 5: exact (conj (conj eq_refl (conj eq_refl (conj eq_refl (conj eq_refl (conj eq_refl eq_refl))))) (conj (conj eq_refl (conj eq_refl (conj eq_refl (conj eq_refl eq_refl)))) (conj (conj eq_refl (conj eq_refl (conj eq_refl (conj eq_refl eq_refl)))) (conj eq_refl (conj eq_refl (conj eq_refl (conj eq_refl (conj eq_refl eq_refl)))))))).
  - exact (conj (conj fp_add_12 (conj fp_sub_12 (conj fp_neg_12 (conj fp_mul_12 (conj fp_inv_12 fp_sqrt_12))))) (conj (conj f2_add_12 (conj f2_sub_12 (conj f2_mul_12 (conj f2_square_12 f2_inverse_12)))) (conj (conj f6_mul_12 (conj f6_inverse_12 (conj f12_mul_12 (conj f12_square_12 f12_inverse_12)))) (conj f12_final_exp_12 (conj addLine_12 (conj FrobEnd1_12 (conj FrobEnd2_12 (conj fpO_12 fp2O_12)))))))).
  - exact (conj (conj (eq_sym fp_add_12) (conj (eq_sym fp_sub_12) (conj (eq_sym fp_neg_12) (conj (eq_sym fp_mul_12) (conj (eq_sym fp_inv_12) (eq_sym fp_sqrt_12)))))) (conj (conj (eq_sym f2_add_12) (conj (eq_sym f2_sub_12) (conj (eq_sym f2_mul_12) (conj (eq_sym f2_square_12) (eq_sym f2_inverse_12))))) (conj (conj (eq_sym f6_mul_12) (conj (eq_sym f6_inverse_12) (conj (eq_sym f12_mul_12) (conj (eq_sym f12_square_12) (eq_sym f12_inverse_12))))) (conj (eq_sym f12_final_exp_12) (conj (eq_sym addLine_12) (conj (eq_sym FrobEnd1_12) (conj (eq_sym FrobEnd2_12) (conj (eq_sym fpO_12) (eq_sym fp2O_12))))))))).
Qed.
