(** Point multiplication by mpz_class, programs of the Java point classes, the pairing in Java *)
From Coq Require Import ZArith Znumtheory List Lia Bool Ring.
From Verif Require Import Base Prim PrimProofs Loop Vuint VuintProofs Power PowerProofs FpSpec Cfg FpM FpProofs FpApi FpApiProofs TowerSpec TowerField TowerM Fp2Proofs Fp6Proofs Frob ParamM ParamProofs FinalM FinalProofs TowerApi Poly EcSpec EcGroup EcM EcProofs EcInst EcFrob EcApi PairM PairObj PairBil PairLin PairApi PairTop MpzM MpzProofs.
Import ListNotations.
Local Open Scope Z_scope.

(** The effect of the calls on points. *)
Definition jspec1 (g : grp) (c : cfg) (i : jcall (fT (gO g c))) (s : nat -> ecpt (gK g c)) : nat -> ecpt (gK g c) :=
  let set o P := fun n => if Nat.eqb n o then P else s n in
  match i with
  | JCopy o a => set o (s a)
  | JSet o x y => set o (EAff (vl (gX g c) x) (vl (gX g c) y))
  | JClear o => set o EInf
  | JDbl o => set o (ec_add (gK g c) (s o) (s o))
  | JNeg o => set o (ec_neg (gK g c) (s o))
  | JAdd o a => set o (ec_add (gK g c) (s o) (s a))
  | JSub o a => set o (ec_add (gK g c) (s o) (ec_neg (gK g c) (s a)))
  | JMul o k => set o (ec_mulz (gK g c) k (s o))
  | JEquals _ _ => s
  end.
Definition jspecs (g : grp) (c : cfg) (l : list (jcall (fT (gO g c)))) (s : nat -> ecpt (gK g c)) : nat -> ecpt (gK g c) :=
  fold_left (fun s i => jspec1 g c i s) l s.
(** Arguments the callers are responsible for: coordinates of points of the curve, scalars >= 0. *)
Definition jok (g : grp) (c : cfg) (i : jcall (fT (gO g c))) : Prop :=
  match i with
  | JSet _ x y => ok (gX g c) x /\ ok (gX g c) y /\ onE g c (EAff (vl (gX g c) x) (vl (gX g c) y))
  | JMul _ k => 0 <= k /\ mpz_ok k
  | _ => True
  end.

Section MJ.
Variables (g : grp) (c : cfg).
Local Notation O := (gO g c). Local Notation K := (gK g c).
Local Notation wf := (wfP g c). Local Notation pt := (ptP g c). Local Notation on := (onE g c).
Lemma mul_z_ok (m : mem O) o i k : mpz_ok k -> 0 <= k -> i <> Loc 1 -> o <> Loc 1 -> wf (m i) -> on (pt (m i)) ->
  exists m', ScalarMult_z O m o i k = Ok m' /\ wf (m' o) /\ pt (m' o) = ec_mulz K k (pt (m i)) /\ (forall q, o <> q -> Loc 1 <> q -> m' q = m q).
Proof.
  intros Hk H0 Hi Ho Hw HP. unfold ScalarMult_z. destruct (Z.eqb_spec k 0) as [->|N].
  - rewrite mulz_0. destruct (ScalarMult_0 O K (gX g c) 64 m o i []) as (m' & E' & [D1 D2] & F). exists m'. split; [exact E'|]. split; [exact D1|]. split; [exact D2|]. intros q Hq _. apply F, Hq.
  - cbv zeta. unfold mpz_size. destruct (Z.ltb_spec k 0); [lia|]. pose proof (mpz_len_pos k N) as HL.
    replace (Z.of_nat (mpz_len k) - 1) with (Z.of_nat (mpz_len k - 1)) by lia. rewrite block_ok by lia. cbn [bind].
    destruct (mpz_limbs_ok k) as (L1 & L2 & L3). pose proof (hv_lv (mpz_limbs k)) as E. rewrite L3, Z.abs_eq in E by lia.
    destruct (ScalarMult_ok O K (gX g c) (gb g c) (g2 g c) (g3 g c) (gbnz g c) 64 m o i (mpz_limbs k)) as (m' & E' & [D1 D2] & F); try assumption; [lia|exact (mpz_top k N)|].
    exists m'. split; [exact E'|]. split; [exact D1|]. split; [|exact F]. rewrite E in D2. exact D2.
Qed.
Lemma mul_z_neg (m : mem O) o i k : k < 0 -> ScalarMult_z O m o i k = UB.
Proof.
  intros H. unfold ScalarMult_z. destruct (Z.eqb_spec k 0); [lia|]. cbv zeta. rewrite block_ub; [reflexivity|].
  left. unfold mpz_size. destruct (Z.ltb_spec k 0); lia.
Qed.
(** a failed set: the exception leaves the rejected coordinates in the object *)
Lemma set_run P (m : mem O) o x y : paramInit (snark c) (curveOf c) = Ok P -> ok (gX g c) x -> ok (gX g c) y ->
  exists m', j_set O (gValid g c P) m o x y = Ok (match ec_set2 O (gValid g c P) m o x y true with Ok _ => true | _ => false end, m') /\
    wf (m' o) /\ pt (m' o) = EAff (vl (gX g c) x) (vl (gX g c) y) /\ (forall q, o <> q -> m' q = m q).
Proof.
  intros HI Hx Hy. destruct (i_1 _ _ (gX g c)) as [H1 V1].
  set (m' := st2 O (st1 O (st0 O m o x) o y) o (o_1 O)).
  assert (M : m' o = mk3 x y (o_1 O)).
  { unfold m'. apply F3_eq; cbn [a3 b3 c3]; rewrite ?a3_st2, ?a3_st1, ?a3_st0, ?b3_st2, ?b3_st1, ?c3_st2; reflexivity. }
  assert (W : wf (m' o)) by (rewrite M; split; [exact H1|intros _; split; assumption]).
  destruct (pe_valid g c P (m' o) HI W) as (r & Er & _).
  exists m'. unfold j_set, ec_set2, ec_set3. cbv zeta. fold m'. rewrite Er. cbn [bind].
  split; [destruct r; reflexivity|]. split; [exact W|]. split.
  - rewrite M. unfold EcApi.ptP, EcProofs.pt, vl3. cbn [a3 b3 c3]. rewrite V1.
    rewrite <- (jac_aff K _ _ ro (fnz K)). f_equal. assert (R1 : forall u : K, rmul u ro = u) by (intros u; rewrite (Ring_theory.Rmul_comm (rth K)); apply (Ring_theory.Rmul_1_l (rth K))). rewrite !R1. reflexivity.
  - intros q Hq. unfold m'. rewrite st2_other, st1_other, st0_other by exact Hq. reflexivity.
Qed.
Lemma set_bad P (m : mem O) o x y : paramInit (snark c) (curveOf c) = Ok P -> ok (gX g c) x -> ok (gX g c) y ->
  ~ on (EAff (vl (gX g c) x) (vl (gX g c) y)) ->
  exists m', j_set O (gValid g c P) m o x y = Ok (false, m') /\ gValid g c P (m' o) = Ok false.
Proof.
  intros HI Hx Hy HN. destruct (set_run P m o x y HI Hx Hy) as (m' & E & W & V & _).
  rewrite (proj2 (pe_set2 g c P m o x y HI Hx Hy) HN) in E. exists m'. split; [exact E|].
  destruct (pe_valid g c P (m' o) HI W) as (r & Er & Ei). rewrite Er. destruct r; [|reflexivity]. exfalso. apply HN. rewrite <- V. apply Ei. reflexivity.
Qed.
(** programs *)
Definition jvalid (m : mem O) : Prop := forall n, wf (m (Obj n)) /\ on (pt (m (Obj n))).
Lemma jcase (m m' : mem O) o P : jvalid m -> wf (m' (Obj o)) -> pt (m' (Obj o)) = P -> on P -> (forall n, Obj o <> Obj n -> m' (Obj n) = m (Obj n)) ->
  jvalid m' /\ (forall n, pt (m' (Obj n)) = if Nat.eqb n o then P else pt (m (Obj n))).
Proof. intros V D1 D2 HP F. exact (spec_case O K (gX g c) (gb g c) m m' o P V (conj D1 D2) HP F). Qed.
Lemma jrun1_ok P i m : paramInit (snark c) (curveOf c) = Ok P -> jvalid m -> jok g c i ->
  exists m', jrun1 O (gValid g c P) i m = Ok m' /\ jvalid m' /\ (forall n, pt (m' (Obj n)) = jspec1 g c i (fun n => pt (m (Obj n))) n).
Proof.
  intros HI V S. destruct (pe_group g c) as (GA & _).
  assert (GN : forall A, on A -> on (ec_neg K A)) by (intros A; apply ec_neg_on).
  destruct i as [o a|o x y|o|o|o|o a|o a|o k|o a]; cbn [jrun1 jspec1 jok] in *.
  - eexists. split; [reflexivity|]. apply (jcase m); [exact V|rewrite copy_same; apply V|rewrite copy_same; reflexivity|apply V|intros n Hn; apply copy_other, Hn].
  - destruct S as (Sx & Sy & So). destruct (set_run P m (Obj o) x y HI Sx Sy) as (m' & E & W & D & F). rewrite E. cbn [bind snd]. eexists. split; [reflexivity|].
    apply (jcase m); [exact V|exact W|exact D|exact So|intros n; apply F].
  - eexists. split; [reflexivity|]. destruct (ScalarMult_0 O K (gX g c) 64 m (Obj o) (Obj o) []) as (m' & E & [D1 D2] & F). injection E as <-.
    apply (jcase m); [exact V|exact D1|exact D2|exact I|intros n; apply F].
  - destruct (V o) as [Oa Ca]. eexists. split; [reflexivity|]. destruct (pe_dbl g c m (Obj o) (Obj o) Oa) as (D1 & D2 & F). cbv zeta in D1, D2, F.
    apply (jcase m); [exact V|exact D1|exact D2|apply GA; assumption|intros n; apply F].
  - destruct (V o) as [Oa Ca]. eexists. split; [reflexivity|]. destruct (pe_neg g c m (Obj o) (Obj o) Oa) as (D1 & D2 & F). cbv zeta in D1, D2, F.
    apply (jcase m); [exact V|exact D1|exact D2|apply GN; assumption|intros n; apply F].
  - destruct (V o) as [Oa Ca]. destruct (V a) as [Oq Cq]. eexists. split; [reflexivity|]. destruct (pe_add g c m (Obj o) (Obj o) (Obj a) Oa Oq Ca Cq) as (D1 & D2 & F). cbv zeta in D1, D2, F.
    apply (jcase m); [exact V|exact D1|exact D2|apply GA; assumption|intros n; apply F].
  - destruct (V o) as [Oa Ca]. destruct (V a) as [Oq Cq]. eexists. split; [reflexivity|]. destruct (pe_sub g c m (Obj o) (Obj o) (Obj a) (oL1 o) Oa Oq Ca Cq) as (D1 & D2 & F). cbv zeta in D1, D2, F.
    apply (jcase m); [exact V|exact D1|exact D2|apply GA; [assumption|apply GN; assumption]|intros n Hn; apply F; [exact Hn|apply Lo1]].
  - destruct S as [S1 S2]. destruct (V o) as [Oa Ca]. destruct (mul_z_ok m (Obj o) (Obj o) k S2 S1 (oL1 o) (oL1 o) Oa Ca) as (m' & E & D1 & D2 & F). exists m'. split; [exact E|].
    apply (jcase m); [exact V|exact D1|exact D2|apply (mulz_on K (gb g c) (g2 g c) (g3 g c) (gbnz g c)); assumption|intros n Hn; apply F; [exact Hn|apply Lo1]].
  - destruct (V o) as [Oa Ca]. destruct (V a) as [Oq Cq]. destruct (pe_eq g c m (Obj o) (Obj a) Oa Oq) as (r & m' & E & _ & Q & _). rewrite E. cbn [bind snd]. exists m'. split; [reflexivity|].
    assert (Pn : forall n, pt (m' (Obj n)) = pt (m (Obj n))) by (intros n; apply Q, V). split; [|exact Pn].
    intros n. split; [apply Q, V|]. rewrite Pn. apply V.
Qed.
Lemma jspec1_ext i s s' : (forall n, s n = s' n) -> forall n, jspec1 g c i s n = jspec1 g c i s' n.
Proof. intros H n. destruct i; cbn [jspec1]; rewrite ?H; reflexivity. Qed.
Lemma jspecs_ext l : forall s s', (forall n, s n = s' n) -> forall n, jspecs g c l s n = jspecs g c l s' n.
Proof. induction l as [|i l IH]; intros s s' H n; [apply H|]. cbn. apply IH. apply jspec1_ext, H. Qed.
Lemma jruns_ok P l : paramInit (snark c) (curveOf c) = Ok P -> forall m, jvalid m -> Forall (jok g c) l ->
  exists m', jruns O (gValid g c P) l m = Ok m' /\ jvalid m' /\ (forall n, pt (m' (Obj n)) = jspecs g c l (fun n => pt (m (Obj n))) n).
Proof.
  intros HI. induction l as [|i l IH]; intros m V S.
  - exists m. split; [reflexivity|]. split; [exact V|reflexivity].
  - apply Forall_cons_iff in S as [Si Sl]. destruct (jrun1_ok P i m HI V Si) as (m1 & E1 & V1 & P1). destruct (IH m1 V1 Sl) as (m2 & E2 & V2 & P2).
    exists m2. cbn [jruns]. rewrite E1. cbn [bind]. split; [exact E2|]. split; [exact V2|]. intros n. rewrite P2. cbn. apply jspecs_ext, P1.
Qed.
End MJ.

(** ** powers *)
Lemma jfp_ok c x k : mpz_ok k -> 0 <= k -> can c x -> exists y, jfp_power c x k = Ok y /\ can c y /\ fv c y = rpz (fv c x : FpR (cp c)) k.
Proof.
  intros H H0 Hx. destruct (fp_1_ok c) as (C1 & V1 & _).
  destruct (power_z_R (fp_mul c) (fp_1 c) (FpR (cp c)) (fun a v => can c a /\ fv c a = v) (conj C1 V1)) with (x := x) (v := fv c x) (y := k) as (z & E & R); try assumption; [|split; [exact Hx|reflexivity]|].
  - intros a b v w [Ca <-] [Cb <-]. apply fp_mul_ok; assumption.
  - exists z. split; [exact E|]. exact R.
Qed.
Lemma jfp2_ok c x v k : mpz_ok k -> 0 <= k -> rep2 c x v -> exists y, jfp2_power c x k = Ok y /\ rep2 c y (rpz v k).
Proof. intros H H0 Hx. exact (power_z_R (f2_mul c) (f2_1 c) (K2 c) (rep2 c) (f2_1_rep c) (f2_mul_rep c) x v k H H0 Hx). Qed.
Lemma jfp12_ok c x v k : snark c = false -> mpz_ok k -> 0 <= k -> rep12 c x v -> exists y, jfp12_power c x k = Ok y /\ rep12 c y (rpz v k).
Proof. intros HB H H0 Hx. exact (power_z_R (f12_mul c) (f12_1 c) (K12 c) (rep12 c) (f12_1_rep c) (f12_mul_rep c (cp_6_c c HB)) x v k H H0 Hx). Qed.
Lemma jneg c k : mpz_ok k -> k < 0 -> (forall x, jfp_power c x k = UB) /\ (forall x, jfp2_power c x k = UB) /\ (forall x, jfp12_power c x k = UB).
Proof. intros H H0. split; [|split]; intros x; apply power_z_neg; assumption. Qed.

(** ** the pairing *)
Lemma paramR_cr c : snark c = false -> GetParamR = cr c.
Proof. destruct c; intros H; [vm_compute; reflexivity|discriminate H|discriminate H]. Qed.
Section JP.
Variables (c : cfg) (P : param).
Hypothesis HI : paramInit (snark c) (curveOf c) = Ok P.
Hypothesis HB : snark c = false.
Lemma jpairing_mul (m2 : mem (fp2O c)) q q' (m1 : mem (fpO c)) pp pp' a b : mpz_ok a -> mpz_ok b -> mpz_ok (a * b) -> 0 <= a -> 0 <= b ->
  q <> Loc 1 -> q' <> Loc 1 -> pp <> Loc 1 -> pp' <> Loc 1 ->
  wfP G2 c (m2 q) -> wfP G1 c (m1 pp) -> inG2 c (ptP G2 c (m2 q)) -> onE G1 c (ptP G1 c (m1 pp)) ->
  exists e x2 x1 m2' m1' e' y2 y1, j_pairing c P m2 q m1 pp = Ok (e, x2, x1) /\
    ScalarMult_z (fp2O c) m2 q' q a = Ok m2' /\ ScalarMult_z (fpO c) m1 pp' pp b = Ok m1' /\
    j_pairing c P m2' q' m1' pp' = Ok (e', y2, y1) /\ jfp12_power c e (a * b) = Ok e' /\ jfp12_power c e GetParamR = Ok (f12_1 c).
Proof using HI HB.
  intros Ha Hb Hab A0 B0 N1 N2 N3 N4 W2 W1 HQ HA. destruct (computes_epv c P HI HB m2 q m1 pp W2 W1 HQ HA) as (f & x2 & x1 & E & _ & R & _).
  destruct (mul_z_ok G2 c m2 q' q a Ha A0 N1 N2 W2 (onE2 c _ HQ)) as (m2' & E2 & D2 & V2 & _).
  destruct (mul_z_ok G1 c m1 pp' pp b Hb B0 N3 N4 W1 HA) as (m1' & E1 & D1 & V1 & _).
  assert (HQ' : inG2 c (ptP G2 c (m2' q'))) by (rewrite V2; apply G2_mulz, HQ).
  assert (HA' : onE G1 c (ptP G1 c (m1' pp'))) by (rewrite V1; apply onF_mul, HA).
  destruct (computes_epv c P HI HB m2' q' m1' pp' D2 D1 HQ' HA') as (f' & y2 & y1 & E' & _ & R' & _).
  destruct (jfp12_ok c f _ (a * b) HB Hab ltac:(lia) R) as (z & Ez & Rz).
  assert (Hr : mpz_ok GetParamR) by (apply Z.ltb_lt; vm_compute; reflexivity).
  destruct (jfp12_ok c f _ GetParamR HB Hr ltac:(discriminate) R) as (z1 & Ez1 & Rz1).
  exists f, x2, x1, m2', m1', f', y2, y1. split; [exact E|]. split; [exact E2|]. split; [exact E1|]. split; [exact E'|]. split.
  - rewrite Ez. f_equal. apply (rep12_inj c _ _ _ Rz). rewrite V2, V1 in R'. rewrite <- (epv_mulz c HB a b _ _ A0 B0 HQ HA). exact R'.
  - rewrite Ez1. f_equal. apply (rep12_inj c _ _ _ Rz1). rewrite (paramR_cr c HB).
    rewrite (PairLin.epv_r c HB _ _ HQ HA). apply f12_1_rep.
Qed.
End JP.
(** GetParamR is the r of the parameters *)
Lemma paramR_ok P : paramInit false (curveOf BNb) = Ok P -> lv (par_r P) = GetParamR.
Proof. intros H. rewrite (proj2 (ok_r BNb P (param_par_ok BNb P H))). symmetry. exact (paramR_cr BNb eq_refl). Qed.

(** ** toMpz, fromMpz *)
Lemma W_B : W = B ^ 4. Proof. reflexivity. Qed.
Lemma mpz_len_W x : Z.abs x < W -> (mpz_len x <= 4)%nat.
Proof.
  intros H. destruct (le_gt_dec (mpz_len x) 4) as [L|L]; [exact L|]. exfalso. destruct (mpz_len x) as [|n] eqn:E; [lia|].
  pose proof (mpz_len_low x n E) as H1. rewrite W_B in H. assert (B ^ 4 <= B ^ Z.of_nat n) by (apply Z.pow_le_mono_r; [apply B_pos|lia]). lia.
Qed.
Lemma from_to c x : can c x -> fp_fromMpz (fp_toMpz x) = Ok x.
Proof.
  intros H. unfold fp_toMpz, fp_fromMpz. pose proof (can_W c x H) as HW. assert (mpz_len x <= 4)%nat by (apply mpz_len_W; lia).
  destruct (Nat.leb_spec (mpz_len x) 4); [|lia]. f_equal. lia.
Qed.
Lemma from_big x : W <= Z.abs x -> fp_fromMpz x = UB.
Proof.
  intros H. unfold fp_fromMpz. destruct (Nat.leb_spec (mpz_len x) 4) as [L|]; [|reflexivity]. exfalso.
  pose proof (mpz_len_bound x) as [_ H1]. rewrite W_B in H. assert (B ^ Z.of_nat (mpz_len x) <= B ^ 4) by (apply Z.pow_le_mono_r; [apply B_pos|lia]). lia.
Qed.
Lemma from_int_wrong c : exists x, fp_fromMpz 1 = Ok x /\ can c x /\ fv c x <> f1.
Proof.
  exists 1. split; [reflexivity|]. assert (C1 : can c 1) by (unfold can; pose proof (cp_bounds c); lia). split; [exact C1|].
  intros E. destruct (fp_1_ok c) as (C2 & V2 & E2). rewrite <- V2 in E. apply fv_inj in E; [|exact C1|exact C2]. rewrite E2 in E. destruct c; vm_compute in E; discriminate E.
Qed.
Lemma jz_mod_neg x y : 0 < y -> x < 0 -> x mod y <> 0 -> jz_mod x y = Ok (x mod y - y).
Proof.
  intros Hy Hx N. unfold jz_mod. destruct (Z.eqb_spec y 0); [lia|]. f_equal.
  assert (E : Z.rem x y = - ((- x) mod y)) by (rewrite <- Z.rem_mod_nonneg by lia; rewrite Z.rem_opp_l' ; lia).
  rewrite E, Z.mod_opp_l_nz by lia. lia.
Qed.
(** ** examples *)
Section Z3.
Variable K : cring.
Add Ring KRj : (rth K).
Lemma z3 (b : K) : rmul rz rz = radd (rmul (rmul rz rz) rz) b -> b = rz.
Proof. intros E. transitivity (radd (rmul (rmul rz rz) rz) b); [ring|]. rewrite <- E. ring. Qed.
End Z3.
Lemma not_on_0 g c : ~ onE g c (EAff (vl (gX g c) (o_0 (gO g c))) (vl (gX g c) (o_0 (gO g c)))).
Proof.
  unfold onE, on_curve. rewrite (proj2 (i_0 _ _ (gX g c))). intros E. exact (gbnz g c (z3 (gK g c) _ E)).
Qed.
Lemma jset_gen1 c : jok G1 c (JSet 0 (rr c (g1x c)) (rr c (g1y c))).
Proof.
  cbn [jok]. pose proof (gen_on G1 c) as H. cbn [gen] in H. rewrite gen1_pt in H. cbn [gX impl1 ok vl gO fpO]. rewrite !fv_rr.
  split; [apply can_rr|]. split; [apply can_rr|exact H].
Qed.
Lemma jprog_ex g c : Forall (jok g c) [JMul 0 12345; JCopy 1 0; JAdd 1 1; JSub 0 1; JDbl 0; JNeg 1; JEquals 0 1; JClear 2] /\
  jvalid g c (fun _ => gen g c).
Proof.
  split; [|intros n; split; [apply gen_wf|apply gen_on]].
  apply Forall_cons; [cbn [jok]; split; [discriminate|apply Z.ltb_lt; vm_compute; reflexivity]|].
  do 7 (apply Forall_cons; [exact I|]). apply Forall_nil.
Qed.
