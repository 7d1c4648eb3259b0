(** Glue: the statements of P_Tower.v derived from the representation lemmas. *)
From Coq Require Import ZArith Znumtheory List Lia Ring.
From Verif Require Import Base Prim Loop Vuint VuintProofs Vsint VsintProofs Power PowerProofs Alg FpSpec Cfg FpM FpProofs FpApi FpApiProofs FpWit TowerSpec TowerField
  TowerM Fp2Proofs Fp6Proofs Frob ParamM ParamProofs FinalM FinalProofs FinalExp TowerWit.
Import ListNotations.
Local Open Scope Z_scope.

Lemma param_par_ok c P : paramInit (snark c) (curveOf c) = Ok P -> par_ok c P.
Proof. intros H. destruct (paramInit_ok c) as (P' & E & K). assert (E' : Ok P = Ok P') by (rewrite <- H; exact E). injection E' as ->. exact K. Qed.

Lemma params_public c : exists P, paramInit (snark c) (curveOf c) = Ok P /\
  (swf (par_z P) /\ sv (par_z P) = cz c) /\
  (let z := cz c in par_p P = pV c /\ lv (par_p P) = 36 * z ^ 4 + 36 * z ^ 3 + 24 * z ^ 2 + 6 * z + 1 /\
   vwf (par_r P) /\ lv (par_r P) = 36 * z ^ 4 + 36 * z ^ 3 + 18 * z ^ 2 + 6 * z + 1 /\
   vwf (par_t P) /\ lv (par_t P) = 6 * z ^ 2 + 1 /\
   swf (par_lc P) /\ sv (par_lc P) = 6 * z + 2 /\
   par_b P = cb c /\
   bval (par_si P) = Z.abs (6 * z + 2)) /\
  prime (lv (par_p P)) /\ prime (lv (par_r P)) /\
  lv (par_p P) + 1 - lv (par_t P) = lv (par_r P) /\
  (lv (par_r P) | lv (par_p P) ^ 12 - 1).
Proof.
  destruct (paramInit_ok c) as (P & E & K). exists P. split; [exact E|]. destruct K as [Kz Kp Kr Kt Klc Kb _ _ _ _ _ _ _ _ _ Ksi _].
  assert (Lp : lv (par_p P) = cp c). { rewrite Kp. apply (pV_ok c). }
  split; [exact Kz|]. cbv zeta. rewrite Lp, (proj2 Kr), (proj2 Kt).
  split; [repeat split; try apply Kr; try apply Kt; try apply Klc; try exact Kp; try exact Kb; try apply Ksi; [exact (cp_poly c)|exact (cr_poly c)]|].
  split; [apply cp_prime|]. split; [apply cr_prime|].
  split; [rewrite cp_poly, cr_poly; cbv zeta; ring|].
  apply Z.mod_divide; [pose proof (cr_prime c) as [? _]; lia|]. destruct c; vm_compute; reflexivity.
Qed.
Lemma params_tables c P : paramInit (snark c) (curveOf c) = Ok P ->
  (forall i, (i < 5)%nat -> rep2 c (gam P i) (rpz (xi c) (Z.of_nat (S i) * ((cp c - 1) / 6)))) /\
  (forall i, (i < 5)%nat -> rep2 c (gam2 P i) (rpz (xi c) (Z.of_nat (S i) * ((cp c ^ 2 - 1) / 6)))) /\
  rep2 c (par_W2p P) (rpz (xi c) ((cp c - 1) / 3)) /\
  rep2 c (par_W3p P) (rpz (xi c) ((cp c - 1) / 2)).
Proof.
  intros H. apply param_par_ok in H. destruct H as [_ _ _ _ _ _ _ _ [_ G1] [_ G2] _ W2 W3 _ _ _ _].
  pose proof (p6 c). pose proof (p6_pos c). set (k := (cp c - 1) / 6) in *.
  split; [|split; [|split; assumption]].
  - intros i Hi. eapply rep2_eq; [exact (G1 i Hi)|]. unfold g1. fold k. rewrite Z.mul_comm, rpz_mul by lia.
    unfold rpz at 1 2. rewrite Nat2Z.id. reflexivity.
  - intros i Hi. eapply rep2_eq; [exact (G2 i Hi)|].
    assert (E : (cp c ^ 2 - 1) / 6 = k * (cp c + 1)). { symmetry. apply Z.div_unique_exact; [lia|]. replace (cp c ^ 2 - 1) with ((cp c - 1) * (cp c + 1)) by ring. rewrite <- H. ring. }
    rewrite E. pose proof (cp_pos c). rewrite Z.mul_comm, rpz_mul by nia. unfold rpz at 1. rewrite Nat2Z.id. f_equal.
    rewrite <- cj_g1. rewrite <- fr2. rewrite rpz_mul by lia. rewrite rpz_add by lia. rewrite rpz_1. reflexivity.
Qed.

Lemma cr_dvd c : cr c * ((cp c ^ 12 - 1) / cr c) = cp c ^ 12 - 1.
Proof.
  symmetry. apply Z_div_exact_full_2; [pose proof (cr_prime c) as [? _]; lia|]. destruct c; vm_compute; reflexivity.
Qed.
(** the multiplier of (p^12 - 1) / r *)
Definition fexp_mult (c : cfg) : Z := (2 * cz c * (6 * cz c ^ 2 + 3 * cz c + 1)) mod cr c.
Lemma fexp_mult_range c : 0 < fexp_mult c < cr c /\ rel_prime (fexp_mult c) (cr c).
Proof.
  assert (A : 0 < fexp_mult c < cr c).
  { assert (E : (0 <? fexp_mult c) && (fexp_mult c <? cr c) = true) by (destruct c; vm_compute; reflexivity).
    apply andb_prop in E as [E1 E2]. apply Z.ltb_lt in E1, E2. split; assumption. }
  split; [exact A|]. apply rel_prime_le_prime; [apply cr_prime|]. split; [|apply A]. destruct A as [A _]. apply Z.le_succ_l in A. exact A.
Qed.
Section FinalApi.
Variable c : cfg.
Variable P : param.
Hypothesis HI : paramInit (snark c) (curveOf c) = Ok P.
Hypothesis HB : snark c = false.
Local Notation p := (cp c).
Add Ring KR12api : (rth (K12 c)).
Add Ring KR6api : (rth (K6 c)).
Add Ring KR2api : (rth (K2 c)).
Local Open Scope r_scope.
Lemma fexp_pow x v : rep12 c x v -> v <> 0 -> exists y, f12_final_exp c P x = Ok y /\ rep12 c y (rpz v ((p ^ 12 - 1) / cr c * fexp_mult c)%Z).
Proof using HI HB.
  intros Hx N. destruct (f12_final_exp_rep c P (param_par_ok c P HI) HB x v Hx N) as (y & E & R). exists y. split; [exact E|].
  eapply (rep12_eq c); [exact R|]. exact (fexp_value c v N).
Qed.
Lemma rpow_full v : v <> 0 -> rpz v (p ^ 12 - 1)%Z = 1 :> K12 c.
Proof.
  intros N. assert (1 <= p ^ 12)%Z. { pose proof (cp_pos c). pose proof (Z.pow_pos_nonneg p 12). lia. }
  apply (field_cancel _ (K12_field c) v); [exact N|]. rewrite <- (rpz_1 _ v) at 1. rewrite <- rpz_add by lia.
  replace (1 + (p ^ 12 - 1))%Z with (p ^ 12)%Z by ring. rewrite fr12_12.
  ring.
Qed.
Lemma fexp_order x v : rep12 c x v -> v <> 0 -> exists y w, f12_final_exp c P x = Ok y /\ rep12 c y w /\ rpz w (cr c) = 1.
Proof using HI HB.
  intros Hx N. destruct (fexp_pow x v Hx N) as (y & E & R). eexists y, _. split; [exact E|]. split; [exact R|].
  assert (Hr : (0 < cr c)%Z) by (pose proof (cr_prime c) as [? _]; lia).
  assert (0 <= fexp_mult c)%Z by (apply Z.mod_pos_bound; lia).
  assert (P12 : (1 <= p ^ 12)%Z). { pose proof (cp_pos c). pose proof (Z.pow_pos_nonneg p 12). lia. }
  pose proof (cr_dvd c) as D. assert (0 <= (p ^ 12 - 1) / cr c)%Z by (apply Z.div_pos; lia).
  rewrite <- rpz_mul by (try apply Z.mul_nonneg_nonneg; lia).
  replace ((p ^ 12 - 1) / cr c * fexp_mult c * cr c)%Z with ((p ^ 12 - 1) * fexp_mult c)%Z by (rewrite <- D at 1; ring).
  rewrite rpz_mul by lia. rewrite rpow_full by exact N. apply rpz_one.
Qed.
End FinalApi.

(** non-trivial elements of the cyclotomic subgroup exist *)
Section CyEx.
Variable c : cfg.
Local Notation p := (cp c).
Add Ring KR12apj : (rth (K12 c)).
Add Ring KR2apj : (rth (K2 c)).
Local Open Scope r_scope.
Lemma three_ne0 : (1 + 1 + 1 : K2 c) <> 0.
Proof.
  intros E. apply (f_equal a2) in E. cbn [radd ro rz K2 quad qadd q1 q0 a2] in E.
  change (fadd (fadd (mk p 1) (mk p 1)) (mk p 1) = mk p 0) in E. rewrite <- !mk_add in E. apply mk_eq in E.
  pose proof (cp_bounds c). rewrite !Z.mod_small in E by lia. lia.
Qed.
Lemma cyclo_ex : exists v : K12 c, cyclo c v /\ v <> 1.
Proof.
  set (h := e2 c (hh c)).
  set (v := mk12 c 1 0 0 1 0 0). set (v' := mk12 c 1 0 0 h 0 0).
  set (u := mk12 c 1 0 0 (- (1)) 0 0). set (u' := mk12 c 1 0 0 (- h) 0 0).
  assert (Ev : rpz v (p ^ 2) = v').
  { rewrite fr12_2. unfold twist, v, v', mk12, idf. fold h. cbn [a2 b2 a3 b3 c3]. apply F2_eq; cbn [a2 b2]; apply F3_eq; cbn [a3 b3 c3]; ring. }
  assert (Eu : rpz u (p ^ 2) = u').
  { rewrite fr12_2. unfold twist, u, u', mk12, idf. fold h. cbn [a2 b2 a3 b3 c3]. apply F2_eq; cbn [a2 b2]; apply F3_eq; cbn [a3 b3 c3]; ring. }
  assert (Ec : rpz v (p ^ 6) = u).
  { rewrite fr12_6. unfold conj12, u, v, mk12. cbn [a2 b2]. apply F2_eq; [reflexivity|]. cbn [b2]. apply F3_eq; cbn [ropp K6 cubic kopp a3 b3 c3]; ring. }
  pose proof (ppos c 2 ltac:(lia)) as P2. assert (P6 : (1 <= p ^ 6)%Z). { pose proof (cp_pos c). pose proof (Z.pow_pos_nonneg p 6). lia. }
  exists (rpz v ((p ^ 6 - 1) * (p ^ 2 + 1))%Z). split.
  { apply mapToCyclo_cyclo. intros E. apply (f_equal (fun t => a3 (a2 t))) in E. exact (field_nz _ (K2_field c) E). }
  set (q := (p ^ 6 - 1)%Z) in *. rewrite rpz_mul by (unfold q; lia). rewrite rpz_add, rpz_1 by lia.
  assert (Eq : rpz v q * v = u). { rewrite <- Ec. rewrite <- (rpz_1 _ v) at 2. rewrite <- rpz_add by (unfold q; lia). f_equal. unfold q. ring. }
  assert (Eq2 : rpz (rpz v q) (p ^ 2) * v' = u'). { rewrite <- Ev, <- rpz_mulb, Eq. exact Eu. }
  set (y := rpz v q) in *. set (y2 := rpz y (p ^ 2)) in *. clearbody y y2. intros E.
  assert (F : v * v' = u * u'). { rewrite <- Eq, <- Eq2. transitivity ((y2 * y) * (v * v')); [rewrite E; ring|ring]. }
  clear - F. apply (f_equal (fun t => a3 (b2 t))) in F. unfold v, v', u, u', mk12 in F.
  cbn [rmul K12 quad qmul a2 b2 radd K6 cubic kadd kmul kgen a3 b3 c3] in F.
  assert (F1 : (1 + 1) * (1 + h) = 0).
  { match type of F with ?l = ?r => transitivity (l - r); [ring|rewrite F; ring] end. }
  destruct (field_integral _ (K2_field c) _ _ F1) as [F2|F2]; [exact (two_ne0 c F2)|].
  assert (F3 : h = - (1)). { transitivity (1 + h - 1); [ring|]. rewrite F2. ring. }
  pose proof (hrel c) as R. fold h in R. rewrite F3 in R. apply three_ne0.
  transitivity (- (1 : K2 c) * - (1) - (- (1) - 1)); [ring|]. rewrite R. ring.
Qed.
End CyEx.

(** ** Refutations and examples for P_Tower.v *)
Lemma squareC_wrong : exists x v, rep2 BNb x v /\ ~ rep2 BNb (f2_squareC BNb x) (rmul v v).
Proof.
  set (x := mk2 0 1 : fp2). assert (Hx : rep2 BNb x (v2 BNb x)). { apply can_rep2, allc_can. vm_compute. reflexivity. }
  exists x, (v2 BNb x). split; [exact Hx|]. intros H.
  pose proof (f2_square_rep BNb x _ Hx) as H'. pose proof (rep2_inj BNb _ _ _ H H') as E.
  apply (f_equal a2) in E. apply Z.eqb_eq in E. revert E. vm_compute. discriminate.
Qed.
Lemma mul_xi_alias_wrong c : exists x v, rep2 c x v /\ ~ rep2 c (f2_mul_xi_alias c x) (rmul (xi c) v).
Proof.
  set (x := mk2 0 1 : fp2). assert (Hx : rep2 c x (v2 c x)). { apply can_rep2, allc_can. destruct c; vm_compute; reflexivity. }
  exists x, (v2 c x). split; [exact Hx|]. intros H.
  pose proof (f2_mul_xi_rep c x _ Hx) as H'. pose proof (rep2_inj c _ _ _ H H') as E.
  apply (f_equal b2) in E. apply Z.eqb_eq in E. revert E. clear. destruct c; vm_compute; discriminate.
Qed.
Lemma rep2_ex c : exists x y v w, rep2 c x v /\ rep2 c y w /\ v <> rz /\ v <> ro /\ w <> v.
Proof.
  destruct (rep2_surj c (iu c)) as (x & Hx). destruct (rep2_surj c (xi c)) as (y & Hy).
  exists x, y, (iu c), (xi c). split; [exact Hx|]. split; [exact Hy|].
  assert (N : f1 <> (f0 : Fp (cp c))) by (exact (field_nz _ (K1_field c))).
  split; [|split].
  - intros E. apply (f_equal b2) in E. exact (N E).
  - intros E. apply (f_equal b2) in E. exact (N E).
  - intros E. apply (f_equal a2) in E. unfold xi, iu in E. cbn [a2] in E. change (mk (cp c) (cxi_a c) = mk (cp c) 0) in E.
    apply mk_eq in E. revert E. pose proof (cp_bounds c). rewrite Zmod_0_l, Z.mod_small; destruct c; cbn [cxi_a]; lia.
Qed.
Lemma rep6_ex c : exists x y v w, rep6 c x v /\ rep6 c y w /\ v <> rz /\ v <> ro /\ w <> v.
Proof.
  destruct (rep6_surj c (iv c)) as (x & Hx). destruct (rep6_surj c (mk3 rz rz ro)) as (y & Hy).
  exists x, y, (iv c), (mk3 rz rz ro : K6 c). split; [exact Hx|]. split; [exact Hy|].
  pose proof (field_nz _ (K2_field c)) as N. split; [|split]; intros E; apply (f_equal b3) in E; apply N; [exact E|exact E|exact (eq_sym E)].
Qed.
Lemma rep12_ex c : exists x y v w, rep12 c x v /\ rep12 c y w /\ v <> rz /\ v <> ro /\ w <> v.
Proof.
  destruct (rep12_surj c (iw c)) as (x & Hx). destruct (rep12_surj c (mk2 rz (iv c))) as (y & Hy).
  exists x, y, (iw c), (mk2 rz (iv c) : K12 c). split; [exact Hx|]. split; [exact Hy|].
  pose proof (field_nz _ (K6_field c)) as N. split; [|split]; intros E; apply (f_equal b2) in E.
  - exact (N E).
  - exact (N E).
  - apply (f_equal a3) in E. apply (field_nz _ (K2_field c)). exact (eq_sym E).
Qed.
Lemma cyclo_rep_ex c : exists x v, rep12 c x v /\ cyclo c v /\ v <> ro.
Proof. destruct (cyclo_ex c) as (v & H1 & H2). destruct (rep12_surj c v) as (x & Hx). exists x, v. auto. Qed.
Lemma square_n_ex c : exists x v, repC c (compress x) v /\ cyclo c v /\ v <> ro.
Proof. destruct (cyclo_rep_ex c) as (x & v & Hx & H1 & H2). exists x, v. split; [apply compress_rep; exact Hx|auto]. Qed.

Section FrobApi.
Variable c : cfg.
Variable P : param.
Hypothesis HI : paramInit (snark c) (curveOf c) = Ok P.
Lemma frob_all x v : rep12 c x v ->
  rep12 c (f12_frob c P x) (rpz v (cp c)) /\ rep12 c (f12_frob2 c P x) (rpz v (cp c ^ 2)) /\ rep12 c (f12_frob3 c P x) (rpz v (cp c ^ 3)).
Proof. intros Hx. pose proof (param_par_ok c P HI) as HP. split; [|split]; [apply f12_frob_rep|apply f12_frob2_rep|apply f12_frob3_rep]; auto. Qed.
Lemma decompress_api x v : rep12 c x v -> cyclo c v -> exists y, cmp_decompress c P (compress x) = Ok y /\ rep12 c y v.
Proof. intros Hx Hv. apply cmp_decompress_rep; [exact (param_par_ok c P HI)|apply compress_rep; exact Hx|exact Hv]. Qed.
Lemma square_n_decompress x v n : snark c = false -> rep12 c x v -> cyclo c v -> 0 < n < 2 ^ 64 ->
  exists y, cmp_decompress c P (cmp_square_n c (compress x) n) = Ok y /\ rep12 c y (rpz v (2 ^ n)).
Proof.
  intros HB Hx Hv Hn. apply cmp_decompress_rep; [exact (param_par_ok c P HI)| |apply rpz_cyclo; [apply Z.pow_nonneg; lia|exact Hv]].
  apply cmp_square_n_rep; [exact HB|rewrite B_val; exact Hn|apply compress_rep; exact Hx|exact Hv].
Qed.
Lemma square_nC_decompress x v n : snark c = false -> rep12 c x v -> cyclo c v -> 0 <= n ->
  exists y, cmp_decompress c P (cmp_square_nC c (compress x) n) = Ok y /\ rep12 c y (rpz v (2 ^ n)).
Proof.
  intros HB Hx Hv Hn. apply cmp_decompress_rep; [exact (param_par_ok c P HI)| |apply rpz_cyclo; [apply Z.pow_nonneg; lia|exact Hv]].
  apply cmp_square_nC_rep; [exact HB|exact Hn|apply compress_rep; exact Hx|exact Hv].
Qed.
Lemma square_0_decompress x v : snark c = false -> rep12 c x v -> cyclo c v ->
  exists y, cmp_decompress c P (cmp_square_n c (compress x) 0) = Ok y /\ rep12 c y (rpz v (2 ^ (2 ^ 64))).
Proof.
  intros HB Hx Hv. assert (EB : 2 ^ 64 = B) by (rewrite B_val; reflexivity). rewrite EB. apply cmp_decompress_rep; [exact (param_par_ok c P HI)| |apply rpz_cyclo; [apply Z.pow_nonneg; lia|exact Hv]].
  apply cmp_square_n_0; [exact HB|apply compress_rep; exact Hx|exact Hv].
Qed.
Lemma fixed_power_api x v : snark c = false -> rep12 c x v -> cyclo c v ->
  exists y, cmp_fixed_power c P x = Ok y /\ rep12 c y (rpz v (- cz c)).
Proof.
  intros HB Hx Hv. destruct (cmp_fixed_power_rep c P (param_par_ok c P HI) HB x v Hx Hv) as (y & E & R). exists y. split; [exact E|].
  assert (Ec : - cz c = 2 ^ 62 + 2 ^ 55 + 1) by (rewrite (is_BNb c HB); reflexivity). rewrite Ec. exact R.
Qed.
Lemma mapToCyclo_api x v : snark c = false -> rep12 c x v ->
  exists y, f12_mapToCyclo c P x = Ok y /\ rep12 c y (rpz v ((cp c ^ 6 - 1) * (cp c ^ 2 + 1))) /\ (v <> rz -> cyclo c (rpz v ((cp c ^ 6 - 1) * (cp c ^ 2 + 1)))).
Proof.
  intros HB Hx. destruct (f12_mapToCyclo_rep c P (param_par_ok c P HI) HB x v Hx) as (y & E & R).
  exists y. split; [exact E|]. split; [exact R|]. apply mapToCyclo_cyclo.
Qed.
Lemma fexp_zero : snark c = false -> forall x, rep12 c x rz -> exists y, f12_final_exp c P x = Ok y /\ rep12 c y rz.
Proof. intros HB x Hx. exact (f12_final_exp_0 c P (param_par_ok c P HI) HB x Hx). Qed.
End FrobApi.
