(** The checked run of final_exp on the SNARK curves: if it goes through it returns what final_exp
    returns, and that is the power the final exponentiation is specified to be. *)
From Coq Require Import ZArith Znumtheory List Bool Lia Ring.
From Verif Require Import Base Prim Loop Power PowerProofs Alg FpSpec Cfg FpM FpProofs FpApi FpApiProofs TowerSpec TowerField TowerM Fp2Proofs Fp6Proofs Frob ParamM ParamProofs FinalM FinalProofs FinalExp TowerApi TowerWit SnarkPow SnarkRun.
Import ListNotations.
Local Open Scope Z_scope.

Section SF.
Variable c : cfg.
Add Ring KRsf2 : (rth (K2 c)).
Add Ring KRsf6 : (rth (K6 c)).
Add Ring KRsf : (rth (K12 c)).
Ltac k12 := cbn [radd rmul rsub ropp rz ro K12 quad qadd qsub qopp qmul q0 q1 a2 b2].
Ltac k6 := cbn [radd rmul rsub ropp rz ro K6 cubic kadd ksub kopp kmul k0 k1 kgen a3 b3 c3].
Local Notation rep6 := (rep6 c). Local Notation rep12 := (rep12 c). Local Notation p := (cp c).
Local Open Scope r_scope.
Lemma in6b_ok x y : in6b c x y = true <-> in6 c x y.
Proof. unfold in6b, in6. apply Z.ltb_lt. Qed.
Lemma in12b_ok x y : in12b c x y = true <-> in12 c x y.
Proof. unfold in12b, in12. rewrite !andb_true_iff, !in6b_ok. tauto. Qed.
Lemma cmul6_ok x y z v w : cmul6 c x y = Some z -> rep6 x v -> rep6 y w -> z = f6_mul c x y /\ rep6 z (v * w).
Proof.
  unfold cmul6. destruct (in6b c x y) eqn:E; [|discriminate]. intros H Hx Hy. injection H as <-. split; [reflexivity|].
  apply in6b_ok in E. exact (d6_mod_rep c _ _ (d6_mul_in c _ _ _ _ E Hx Hy)).
Qed.
Lemma cmul_eq x y z : cmul c x y = Some z -> z = f12_mul c x y /\ in12 c x y.
Proof. unfold cmul. destruct (in12b c x y) eqn:E; [|discriminate]. intros H. injection H as <-. split; [reflexivity|]. apply in12b_ok. exact E. Qed.
Lemma cmul_ok x y z v w : cmul c x y = Some z -> rep12 x v -> rep12 y w -> z = f12_mul c x y /\ rep12 z (v * w).
Proof. intros H Hx Hy. destruct (cmul_eq _ _ _ H) as [-> I]. split; [reflexivity|]. exact (f12_mul_in c _ _ _ _ I Hx Hy). Qed.
(** the norm of x, as Fp12::inverse forms it *)
Definition nrm (x : fp12) : fp6 := let sa := f6_square c (a2 x) in let sb := f6_square c (b2 x) in
  mk3 (f2_sub c (a3 sa) (f2_mul_xi c (c3 sb))) (f2_sub c (b3 sa) (a3 sb)) (f2_sub c (c3 sa) (b3 sb)).
Definition nrmv (v : K12 c) : K6 c := a2 v * a2 v - (kgen (K2 c) : K6 c) * (b2 v * b2 v).
Lemma nrm_rep x v : rep12 x v -> rep6 (nrm x) (nrmv v).
Proof.
  intros [Xa Xb]. unfold nrm, nrmv. cbv zeta. pose proof (f6_square_rep c _ _ Xa) as (S1 & S2 & S3). pose proof (f6_square_rep c _ _ Xb) as (T1 & T2 & T3).
  set (sa := f6_square c (a2 x)) in *. set (sb := f6_square c (b2 x)) in *. clearbody sa sb.
  apply rep6_mk.
  - eapply (rep2_eq c); [apply f2_sub_rep; [|apply f2_mul_xi_rep]; eassumption|k6; ring].
  - eapply (rep2_eq c); [apply f2_sub_rep; eassumption|k6; ring].
  - eapply (rep2_eq c); [apply f2_sub_rep; eassumption|k6; ring].
Qed.
Lemma cinverse_ok x v y : rep12 x v -> cinverse c x = Some y -> exists w, f12_inverse c x = Ok y /\ rep12 y w /\ (v <> 0 -> w * v = 1) /\ (v = 0 -> w = 0).
Proof.
  intros Hx. pose proof (nrm_rep x v Hx) as RN. destruct Hx as [Xa Xb].
  unfold f12_inverse, cinverse. cbv zeta. unfold nrm in RN. cbv zeta in RN.
  destruct (f6_inverse_rep c _ _ RN) as (n & wn & En & Rn & Hn & Hn0). rewrite En. cbn [bind].
  destruct (cmul6 c (a2 x) n) as [za|] eqn:Ea; [|discriminate]. destruct (cmul6 c (b2 x) n) as [zb|] eqn:Eb; [|discriminate].
  intros E. injection E as <-. destruct (cmul6_ok _ _ _ _ _ Ea Xa Rn) as [Qa Ra]. destruct (cmul6_ok _ _ _ _ _ Eb Xb Rn) as [Qb Rb].
  exists (mk2 (a2 v * wn) (- (b2 v * wn)) : K12 c). split; [rewrite Qa, Qb; reflexivity|]. split; [|split].
  - apply rep12_mk; k12; [exact Ra|apply f6_neg_rep; exact Rb].
  - intros Hv. pose proof (qnorm_nz (K6 c) (kgen (K2 c)) (K6_field c) (fun x => kgen_nonsquare (K2 c) (xi c) (xi_nonsquare c) x) v Hv) as Nz.
    specialize (Hn Nz). apply F2_eq; k12; [|ring]. rewrite <- Hn. unfold nrmv. ring.
  - intros ->. apply F2_eq; k12; ring.
Qed.
Lemma cinverse_some x v n0 w0 : rep12 x v -> rep6 n0 w0 -> w0 * nrmv v = 1 -> in6 c (a2 x) n0 -> in6 c (b2 x) n0 -> exists y, cinverse c x = Some y.
Proof.
  intros Hx Hn E I1 I2. pose proof (nrm_rep x v Hx) as RN. destruct (f6_inverse_rep c _ _ RN) as (n & wn & En & Rn & Hw & _).
  assert (Nz : nrmv v <> 0) by (intros F; rewrite F in E; apply (field_nz _ (K6_field c)); rewrite <- E; ring).
  assert (w0 = wn) by (apply (field_cancel _ (K6_field c) (nrmv v)); [exact Nz|]; transitivity (w0 * nrmv v); [ring|]; rewrite E, <- (Hw Nz); ring). subst wn.
  assert (n = n0) by exact (rep6_inj c _ _ _ Rn Hn). subst n.
  unfold cinverse. cbv zeta. unfold nrm in En. cbv zeta in En.
  rewrite En. unfold cmul6. apply in6b_ok in I1. apply in6b_ok in I2. rewrite I1, I2. eexists. reflexivity.
Qed.
Lemma cpow_loop_ok x xc l : forall out y, cpow_loop c l x xc out = Some y -> y = pow_neg_loop c l x xc out /\
  forall l1 d l2, l = l1 ++ d :: l2 -> let o := f12_sqru c (pow_neg_loop c l1 x xc out) in ((0 < d)%Z -> in12 c o x) /\ ((d < 0)%Z -> in12 c o xc).
Proof.
  induction l as [|d l IH]; intros out y H; cbn [cpow_loop pow_neg_loop] in *.
  - injection H as <-. split; [reflexivity|]. intros l1 d l2 E. destruct l1; discriminate E.
  - cbv zeta in *. set (o := f12_sqru c out) in *.
    assert (S : exists o', (if (0 <? d)%Z then cmul c o x else if (d <? 0)%Z then cmul c o xc else Some o) = Some o' /\
      o' = (if (0 <? d)%Z then f12_mul c o x else if (d <? 0)%Z then f12_mul c o xc else o) /\ ((0 < d)%Z -> in12 c o x) /\ ((d < 0)%Z -> in12 c o xc)).
    { destruct (if (0 <? d)%Z then cmul c o x else if (d <? 0)%Z then cmul c o xc else Some o) as [o'|] eqn:E; [|discriminate H].
      exists o'. split; [reflexivity|]. clear H. destruct (Z.ltb_spec 0 d) as [D|D].
      - destruct (cmul_eq _ _ _ E) as [-> I]. split; [reflexivity|]. split; [intros _; exact I|lia].
      - destruct (Z.ltb_spec d 0) as [D'|D'].
        + destruct (cmul_eq _ _ _ E) as [-> I]. split; [reflexivity|]. split; [lia|intros _; exact I].
        + injection E as <-. split; [reflexivity|]. split; lia. }
    destruct S as (o' & E & Eo & I). rewrite E in H. destruct (IH _ _ H) as [H1 H2]. rewrite <- Eo. split; [exact H1|].
    intros l1 d' l2 EL. destruct l1 as [|a l1]; cbn [app] in EL.
    + injection EL as <- <-. exact I.
    + injection EL as <- EL. cbn [pow_neg_loop]. cbv zeta. fold o. rewrite <- Eo. exact (H2 _ _ _ EL).
Qed.
Variable P : param.
Hypothesis HI : paramInit (snark c) (curveOf c) = Ok P.
Hypothesis HS : snark c = true.
Local Notation ez := (ez c).
Lemma cpow_ok x v y : cpow c P x = Some y -> rep12 x v -> cyclo c v -> f12_powz c P x = Ok y /\ rep12 y (ez v (- cz c)).
Proof.
  unfold cpow. destruct (cpow_loop c (tl (par_zr P)) x (f12_conj c x) x) as [z|] eqn:E; [|discriminate]. intros H Hx Hv. injection H as <-.
  destruct (cpow_loop_ok _ _ _ _ _ E) as [-> I]. unfold f12_powz. rewrite HS. split; [reflexivity|].
  destruct (pow_neg_in c P x v HS HI Hx Hv I) as (w & R & Ew). unfold f12_pow_neg_t in R. eapply (rep12_eq c); [exact R|].
  assert (Hz : (0 <= cz c)%Z) by (destruct c; [discriminate HS| |]; cbn; lia).
  rewrite <- (ez_pos c v (cz c) Hv Hz) in Ew.
  assert (U : ez v (cz c) * ez v (- cz c) = 1) by (rewrite ez_add by exact Hv; rewrite Z.add_opp_diag_r; apply ez_0).
  transitivity (w * (ez v (cz c) * ez v (- cz c))); [rewrite U; ring|]. transitivity ((w * ez v (cz c)) * ez v (- cz c)); [ring|]. rewrite Ew. ring.
Qed.
Let HP : par_ok c P := param_par_ok c P HI.
Lemma cmap_ok x v y : cmapToCyclo c P x = Some y -> rep12 x v -> v <> 0 -> f12_mapToCyclo c P x = Ok y /\ rep12 y (rpz v ((p ^ 6 - 1) * (p ^ 2 + 1))%Z).
Proof.
  unfold cmapToCyclo, f12_mapToCyclo. cbv zeta. destruct (cinverse c x) as [t|] eqn:Et; [|discriminate].
  destruct (cmul c (f12_conj c x) t) as [z|] eqn:Ez; [|discriminate]. intros E Hx N.
  destruct (cinverse_ok _ _ _ Hx Et) as (tv & -> & Rt & I1 & _). cbn [bind].
  destruct (cmul_ok _ _ _ _ _ Ez (f12_conj_rep c x v Hx) Rt) as [-> R1].
  destruct (cmul_ok _ _ _ _ _ E R1 (f12_frob2_rep c P HP _ _ R1)) as [-> R2].
  split; [reflexivity|]. eapply (rep12_eq c); [exact R2|].
  pose proof (ppos c 6 ltac:(lia)). pose proof (ppos c 2 ltac:(lia)).
  assert (P6 : (1 <= p ^ 6)%Z). { pose proof (cp_pos c). pose proof (Z.pow_pos_nonneg p 6). lia. }
  assert (EW : conj12 c v * tv = rpz v (p ^ 6 - 1)%Z).
  { rewrite <- fr12_6. replace (p ^ 6)%Z with (p ^ 6 - 1 + 1)%Z at 1 by ring. rewrite rpz_add by lia. rewrite rpz_1.
    transitivity (rpz v (p ^ 6 - 1)%Z * (tv * v)); [ring|]. rewrite (I1 N). ring. }
  rewrite EW. set (q := (p ^ 6 - 1)%Z) in *. rewrite rpz_mul by (unfold q; lia).
  rewrite rpz_add by lia. rewrite rpz_1. ring.
Qed.
Lemma cfinal_ok x v y : cfinal c P x = Some y -> rep12 x v -> v <> 0 -> f12_final_exp c P x = Ok y /\ rep12 y (rpz v ((p ^ 12 - 1) / cr c * fexp_mult c)%Z).
Proof.
  intros H Hx N.
  cut (f12_final_exp c P x = Ok y /\ rep12 y (ez (rpz v ((p ^ 6 - 1) * (p ^ 2 + 1))%Z) (fL c))).
  { intros [E R]. split; [exact E|]. eapply (rep12_eq c); [exact R|]. exact (fexp_value c v N). }
  revert H. unfold f12_final_exp, cfinal.
  destruct (cmapToCyclo c P x) as [f|] eqn:Ef; [|discriminate]. destruct (cmap_ok _ _ _ Ef Hx N) as [-> Rf]. cbn [bind].
  pose proof (mapToCyclo_cyclo c v N) as Cf. set (F := rpz v ((p ^ 6 - 1) * (p ^ 2 + 1))%Z) in *. clearbody F. clear Hx N Ef.
  assert (PW : forall x a y, cpow c P x = Some y -> rep12 x (ez F a) -> f12_powz c P x = Ok y /\ rep12 y (ez F (a * - cz c))).
  { intros x0 a y0 E Hy. destruct (cpow_ok _ _ _ E Hy (ez_cyclo c F a Cf)) as [E' R]. split; [exact E'|].
    eapply (rep12_eq c); [exact R|]. unfold FinalExp.ez at 1. rewrite ez_pow by (auto; apply Z.mod_pos_bound, phi_gt).
    unfold FinalExp.ez. rewrite Zmult_mod_idemp_r. reflexivity. }
  assert (MU : forall x y z a b, cmul c x y = Some z -> rep12 x (ez F a) -> rep12 y (ez F b) -> f12_mul c x y = z /\ rep12 z (ez F (a + b))).
  { intros x0 y0 z0 a b E Ha Hb. destruct (cmul_ok _ _ _ _ _ E Ha Hb) as [-> R]. split; [reflexivity|]. eapply (rep12_eq c); [exact R|]. apply ez_add, Cf. }
  assert (SQ : forall x a, rep12 x (ez F a) -> rep12 (f12_sqru c x) (ez F (2 * a))).
  { intros x0 a Ha. eapply (rep12_eq c); [exact (f12_sqru_rep c x0 _ Ha (ez_cyclo c F a Cf))|]. apply ez_sq, Cf. }
  assert (CJ : forall x a, rep12 x (ez F a) -> rep12 (f12_conj c x) (ez F (- a))).
  { intros x0 a Ha. eapply (rep12_eq c); [exact (f12_conj_rep c x0 _ Ha)|]. apply ez_conj, Cf. }
  assert (F1 : forall x a, rep12 x (ez F a) -> rep12 (f12_frob c P x) (ez F (a * p))).
  { intros x0 a Ha. eapply (rep12_eq c); [exact (f12_frob_rep c P HP x0 _ Ha)|]. apply ez_pow; [exact Cf|pose proof (cp_pos c); lia]. }
  assert (F2 : forall x a, rep12 x (ez F a) -> rep12 (f12_frob2 c P x) (ez F (a * p ^ 2))).
  { intros x0 a Ha. eapply (rep12_eq c); [exact (f12_frob2_rep c P HP x0 _ Ha)|]. apply ez_pow; [exact Cf|apply ppos; lia]. }
  assert (F3 : forall x a, rep12 x (ez F a) -> rep12 (f12_frob3 c P x) (ez F (a * p ^ 3))).
  { intros x0 a Ha. eapply (rep12_eq c); [exact (f12_frob3_rep c P HP x0 _ Ha)|]. apply ez_pow; [exact Cf|apply ppos; lia]. }
  assert (Rf1 : rep12 f (ez F 1)) by (eapply (rep12_eq c); [exact Rf|symmetry; apply ez_1, Cf]). clear Rf. clear HP HI.
  cbv zeta.
  destruct (cpow c P f) as [g|] eqn:Eg; [|discriminate]. destruct (PW _ _ _ Eg Rf1) as [-> Rg]. clear Eg. cbn [bind].
  pose proof (SQ _ _ Rg) as R2z. set (f2z := f12_sqru c g) in *. clearbody f2z.
  destruct (cmul c (f12_sqru c f2z) f2z) as [f6z|] eqn:E6; [|discriminate]. destruct (MU _ _ _ _ _ E6 (SQ _ _ R2z) R2z) as [-> R6z]. clear E6.
  destruct (cpow c P f6z) as [f6z2|] eqn:E1; [|discriminate]. destruct (PW _ _ _ E1 R6z) as [-> R6z2]. clear E1. cbn [bind].
  destruct (cpow c P (f12_sqru c f6z2)) as [f12z3|] eqn:E2; [|discriminate]. destruct (PW _ _ _ E2 (SQ _ _ R6z2)) as [-> R12]. clear E2. cbn [bind].
  pose proof (CJ _ _ R6z) as R6n. pose proof (CJ _ _ R12) as R12n.
  set (f6n := f12_conj c f6z) in *. set (f12n := f12_conj c f12z3) in *. clearbody f6n f12n.
  Ltac step MU Ra Rb R := match goal with |- (match cmul ?c ?x ?y with _ => _ end = Some _) -> _ => let z := fresh "z" in let E := fresh "E" in
    destruct (cmul c x y) as [z|] eqn:E; [|discriminate]; destruct (MU _ _ _ _ _ E Ra Rb) as [-> R]; clear E end.
  step MU R12n R6z2 Ra0. step MU Ra0 R6n Ra. step MU Ra R2z Rb. step MU Ra R6z2 Rz0. step MU Rz0 Rf1 Rz.
  step MU Rz (F1 _ _ Rb) Rz1. step MU Rz1 (F2 _ _ Ra) Rz2. step MU Rb (CJ _ _ Rf1) Rb2. intros E.
  destruct (MU _ _ _ _ _ E Rz2 (F3 _ _ Rb2)) as [-> RZ]. split; [reflexivity|].
  eapply (rep12_eq c); [exact RZ|]. f_equal. unfold fL. cbv zeta. clear. generalize (cz c), p. intros. ring.
Qed.
End SF.
Lemma full12 c v : v <> rz -> rpz v (cp c ^ 12 - 1)%Z = ro :> K12 c.
Proof.
  intros N. assert (1 <= cp c ^ 12)%Z. { pose proof (cp_pos c). pose proof (Z.pow_pos_nonneg (cp c) 12). lia. }
  apply (field_cancel _ (K12_field c) v); [exact N|]. rewrite <- (rpz_1 _ v) at 1. rewrite <- rpz_add by lia.
  replace (1 + (cp c ^ 12 - 1))%Z with (cp c ^ 12)%Z by ring. rewrite fr12_12. symmetry. rewrite (Ring_theory.Rmul_comm (rth (K12 c))). exact (Ring_theory.Rmul_1_l (rth (K12 c)) v).
Qed.
Lemma cfinal_order c P x v y : paramInit (snark c) (curveOf c) = Ok P -> snark c = true -> cfinal c P x = Some y -> rep12 c x v -> v <> rz ->
  f12_final_exp c P x = Ok y /\ exists w, rep12 c y w /\ rpz w (cr c) = ro.
Proof.
  intros HI HS H Hx N. destruct (cfinal_ok c P HI HS x v y H Hx N) as [E R]. split; [exact E|]. eexists. split; [exact R|].
  assert (Hr : (0 < cr c)%Z) by (pose proof (cr_prime c) as [? _]; lia).
  assert (0 <= fexp_mult c)%Z by (apply Z.mod_pos_bound; lia).
  assert (P12 : (1 <= cp c ^ 12)%Z). { pose proof (cp_pos c). pose proof (Z.pow_pos_nonneg (cp c) 12). lia. }
  pose proof (cr_dvd c) as D. assert (0 <= (cp c ^ 12 - 1) / cr c)%Z by (apply Z.div_pos; lia).
  rewrite <- rpz_mul by (try apply Z.mul_nonneg_nonneg; lia).
  replace ((cp c ^ 12 - 1) / cr c * fexp_mult c * cr c)%Z with ((cp c ^ 12 - 1) * fexp_mult c)%Z by (rewrite <- D at 1; ring).
  rewrite rpz_mul by lia. rewrite (full12 c) by exact N. apply rpz_one.
Qed.
