(** ParamT::init computes the constants the pairing needs. *)
From Coq Require Import ZArith Znumtheory List Lia Ring.
From Verif Require Import Base Prim Loop Vuint VuintProofs VDiv VDivProofs Vsint VsintProofs Power PowerProofs Alg FpSpec Pock Cfg FpM FpProofs FpInvProofs FpApi FpApiProofs FpInit FpInitProofs FpWit TowerSpec TowerField TowerM Fp2Proofs Fp6Proofs Frob ParamM.
Import ListNotations.
Local Open Scope Z_scope.

Section Par.
Local Open Scope r_scope.
Variable c : cfg.
Local Notation p := (cp c).
Local Notation rep1 := (rep1 c).
Local Notation rep2 := (rep2 c).
Add Ring FRpp : (rth (FpR (cp c))).
Add Ring KR2pp : (rth (K2 c)).
Ltac k2 := cbn [radd rmul rsub ropp rz ro K2 quad qadd qsub qopp qmul q0 q1 a2 b2 qconj].

Lemma f2_pow_rep x v y : rep2 x v -> vwf y -> rep2 (f2_pow c x y) (rpz v (lv y)).
Proof.
  intros Hx Hy. unfold f2_pow.
  (* transport through values *)
  assert (G : forall w bs t out vt vo, rep2 t vt -> rep2 out vo ->
     rep2 (pow_blocks (f2_mul c) w bs t out) (pow_blocks (@rmul (K2 c)) w bs vt vo)).
  { assert (L : forall m v j t out vt vo, rep2 t vt -> rep2 out vo ->
       rep2 (fst (pow_loop (f2_mul c) m v j t out)) (fst (pow_loop (@rmul (K2 c)) m v j vt vo)) /\
       rep2 (snd (pow_loop (f2_mul c) m v j t out)) (snd (pow_loop (@rmul (K2 c)) m v j vt vo))).
    { induction m as [|m IH]; intros v0 j t out vt vo Ht Ho; cbn [pow_loop fst snd]; [split; assumption|].
      apply IH; [apply f2_mul_rep; assumption|]. destruct (Z.testbit v0 j); [apply f2_mul_rep; assumption|assumption]. }
    intros w bs. induction bs as [|b bs IH]; intros t out vt vo Ht Ho; cbn [pow_blocks]; [assumption|].
    destruct bs as [|b' bs].
    - apply L; assumption.
    - destruct (L w b 0%Z t out vt vo Ht Ho) as [L1 L2].
      destruct (pow_loop (f2_mul c) w b 0 t out) as [t' out']. destruct (pow_loop (@rmul (K2 c)) w b 0 vt vo) as [vt' vo'].
      apply IH; assumption. }
  replace (rpz v (lv y)) with (power_v (@rmul (K2 c)) 1 v y).
  - unfold power_v. apply G; [assumption|apply f2_1_rep].
  - unfold rpz, rpw. rewrite power_v_spec; [reflexivity| | | |assumption]; intros; ring.
Qed.
Lemma f2_ofInts_rep a b : (- 2 ^ 31 < a < 2 ^ 31)%Z -> (- 2 ^ 31 < b < 2 ^ 31)%Z ->
  exists x, f2_ofInts c a b = Ok x /\ rep2 x (mk2 (mk p a) (mk p b)).
Proof.
  intros Ha Hb. unfold f2_ofInts.
  destruct (fp_setInt_ok c a Ha) as (x & -> & X1 & X2). destruct (fp_setInt_ok c b Hb) as (y & -> & Y1 & Y2). cbn [bind].
  eexists. split; [reflexivity|]. split; split; assumption.
Qed.
Lemma pm1_div_ok x k : vwf x -> (1 <= lv x)%Z -> (0 < k < 1000)%Z ->
  exists y, pm1_div x k = Ok y /\ vwf y /\ lv y = ((lv x - 1) / k)%Z.
Proof.
  intros Hx H1 Hk. unfold pm1_div. destruct (vset_ok 1 ltac:(lia)) as [W1 E1]. destruct (vset_ok k ltac:(lia)) as [Wk Ek].
  destruct (vsub_ok x (vset 1) Hx W1 ltac:(lia)) as (t & -> & Wt & Et). cbn [bind].
  destruct (vquot_ok t (vset k) Wt Wk ltac:(lia) ltac:(cbn; lia)) as (q & -> & Wq & Eq).
  exists q. split; [reflexivity|]. split; [assumption|]. rewrite Eq, Et, E1, Ek. reflexivity.
Qed.

Definition digits3 (l : list Z) : Prop := Forall (fun d => d = -1 \/ d = 0 \/ d = 1)%Z l.
Record par_ok (P : param) : Prop := {
  ok_z : swf (par_z P) /\ sv (par_z P) = cz c;
  ok_p : par_p P = pV c;
  ok_r : vwf (par_r P) /\ lv (par_r P) = cr c;
  ok_t : vwf (par_t P) /\ lv (par_t P) = (6 * cz c ^ 2 + 1)%Z;
  ok_lc : swf (par_lc P) /\ sv (par_lc P) = (6 * cz c + 2)%Z;
  ok_b : par_b P = cb c;
  ok_half : exists h, rep1 (par_half P) h /\ (1 + 1) * h = 1;
  ok_binvxi : exists w, rep2 (par_binvxi P) w /\ w * xi c = e2 c (mk p (cb c));
  ok_g : length (par_g P) = 5%nat /\ forall i, (i < 5)%nat -> rep2 (gam P i) (rpw (g1 c) (S i));
  ok_g2 : length (par_g2 P) = 5%nat /\ forall i, (i < 5)%nat -> rep2 (gam2 P i) (rpw (e2 c (hh c)) (S i));
  ok_g3 : length (par_g3 P) = 5%nat /\ forall i, (i < 5)%nat -> rep2 (gam3 P i) (rpw (e2 c (hh c) * g1 c) (S i));
  ok_W2 : rep2 (par_W2p P) (rpz (xi c) ((p - 1) / 3));
  ok_W3 : rep2 (par_W3p P) (rpz (xi c) ((p - 1) / 2));
  ok_Z : rep1 (par_Z P) (hh c * hh c);
  ok_i : rep1 (par_i0 P) 0 /\ rep1 (par_i1 P) 1;
  ok_si : bval (par_si P) = Z.abs (6 * cz c + 2) /\ digits3 (par_si P) /\ exists l, par_si P = 1%Z :: l;
  ok_si2 : exists l, par_si P = (1 :: 1 :: l)%Z;
  ok_naf : par_naf P = false -> Forall (fun d => 0 <= d)%Z (par_si P);
  ok_zr : snark c = true -> bval (par_zr P) = cz c /\ digits3 (par_zr P) /\ exists l, par_zr P = 1%Z :: l }.
End Par.

Lemma p_eval_ok c : exists z, s_set_i64 (cz c) = Ok z /\ swf z /\ sv z = cz c /\
  p_eval z 1 6 24 36 36 = Ok (pV c) /\
  (exists r, p_eval z 1 6 18 36 36 = Ok r /\ r = vOf (cr c)) /\
  (exists t, p_eval z 1 0 6 0 0 = Ok t /\ t = vOf (6 * cz c ^ 2 + 1)) /\
  (exists k lc, s_of_int 6 = Ok k /\ s_muladd k z 2 = Ok lc /\ Vsint.sm lc = vOf (Z.abs (6 * cz c + 2)) /\ Vsint.sn lc = (cz c <? 0)).
Proof.
  destruct c.
  all: eexists; split; [vm_compute; reflexivity|]; split; [unfold swf; cbn [Vsint.sm]; vwf_lit|]; split; [reflexivity|].
  all: split; [vm_compute; reflexivity|]; split; [eexists; split; vm_compute; reflexivity|]; split; [eexists; split; vm_compute; reflexivity|].
  all: eexists _, _; split; [vm_compute; reflexivity|]; split; [vm_compute; reflexivity|]; split; vm_compute; reflexivity.
Qed.
Definition repl_ok (x : Z) (v : list Z) : Prop := bval v = x /\ digits3 v /\ exists l, v = 1 :: l.
Definition repl_okb (x : Z) (v : list Z) : bool :=
  (bval v =? x) && forallb (fun d => (d =? -1) || (d =? 0) || (d =? 1)) v && (hd 0 v =? 1).
Lemma repl_okb_ok x v : repl_okb x v = true -> repl_ok x v.
Proof.
  unfold repl_okb, repl_ok, digits3. rewrite !Bool.andb_true_iff, Z.eqb_eq, forallb_forall. intros [[H1 H2] H3].
  split; [exact H1|]. split.
  - apply Forall_forall. intros d Hd. specialize (H2 d Hd). rewrite !Bool.orb_true_iff, !Z.eqb_eq in H2. tauto.
  - destruct v as [|d l]; [discriminate|]. cbn [hd] in H3. apply Z.eqb_eq in H3. subst d. eauto.
Qed.
Definition getGood (x : Z) : list Z * bool := match getGoodRepl (vOf x) with Ok y => y | _ => ([], false) end.
Lemma si_ok c : getGoodRepl (vOf (Z.abs (6 * cz c + 2))) = Ok (getGood (Z.abs (6 * cz c + 2))) /\
  repl_ok (Z.abs (6 * cz c + 2)) (fst (getGood (Z.abs (6 * cz c + 2)))).
Proof. split; [destruct c; vm_compute; reflexivity|]. apply repl_okb_ok. destruct c; vm_compute; reflexivity. Qed.
Lemma si_ok2 c : exists l, fst (getGood (Z.abs (6 * cz c + 2))) = 1 :: 1 :: l.
Proof. destruct c; eexists; vm_compute; reflexivity. Qed.
Lemma si_naf c : snd (getGood (Z.abs (6 * cz c + 2))) = false -> Forall (fun d => 0 <= d) (fst (getGood (Z.abs (6 * cz c + 2)))).
Proof.
  intros H. assert (T : snd (getGood (Z.abs (6 * cz c + 2))) || forallb (Z.leb 0) (fst (getGood (Z.abs (6 * cz c + 2)))) = true) by (destruct c; vm_compute; reflexivity).
  rewrite H in T. cbn [orb] in T. rewrite forallb_forall in T. apply Forall_forall. intros d Hd. apply Z.leb_le. exact (T d Hd).
Qed.
Lemma zr_ok c : snark c = true -> getGoodRepl (vOf (cz c)) = Ok (getGood (cz c)) /\ repl_ok (cz c) (fst (getGood (cz c))).
Proof.
  intros H. split; [destruct c; [discriminate| |]; vm_compute; reflexivity|].
  apply repl_okb_ok. destruct c; [discriminate| |]; vm_compute; reflexivity.
Qed.

Lemma cz_snark c : snark c = true -> 0 <= cz c.
Proof. destruct c; [discriminate| |]; discriminate. Qed.

Section Main.
Local Open Scope r_scope.
Variable c : cfg.
Local Notation p := (cp c).
Local Notation rep1 := (rep1 c).
Local Notation rep2 := (rep2 c).
Add Ring FRpq : (rth (FpR (cp c))).
Add Ring KR2pq : (rth (K2 c)).
Ltac k2 := cbn [radd rmul rsub ropp rz ro K2 quad qadd qsub qopp qmul q0 q1 a2 b2 qconj].
Lemma e2_mul a b : e2 c (a * b) = e2 c a * e2 c b.
Proof. apply F2_eq; unfold e2; k2; ring. Qed.
Lemma gam_fill_ok n : forall m x g v, rep2 x (rpw v (S m)) -> rep2 g v ->
  length (gam_fill c n x g) = n /\ forall i, (i < n)%nat -> rep2 (nth i (gam_fill c n x g) f2_0) (rpw v (S (S m) + i)).
Proof.
  induction n as [|n IH]; intros m x g v Hx Hg; cbn [gam_fill length nth].
  - split; [reflexivity|]. intros; lia.
  - assert (Hy : rep2 (f2_mul c x g) (rpw v (S (S m)))).
    { eapply rep2_eq; [apply f2_mul_rep; eassumption|]. rewrite (rpw_S _ v (S m)). ring. }
    destruct (IH (S m) _ g v Hy Hg) as [L1 L2]. split; [rewrite L1; reflexivity|].
    intros [|i] Hi; [rewrite Nat.add_0_r; exact Hy|].
    replace (S (S m) + S i)%nat with (S (S (S m)) + i)%nat by lia. apply L2. lia.
Qed.
Lemma xi_pow_p2 : rpz (xi c) ((p * p - 1) / 6) = e2 c (hh c).
Proof.
  replace ((p * p - 1) / 6)%Z with (((p - 1) / 6) * (p + 1))%Z.
  - pose proof (p6_pos c). pose proof (cp_pos c). rewrite rpz_mul by lia. fold (g1 c). rewrite rpz_add by lia.
    rewrite fr2, rpz_1. apply cj_g1.
  - pose proof (p6 c) as H. apply (Z.div_unique_exact); [lia|]. nia.
Qed.
Lemma supported_ok : supported (snark c) (curveOf c) = Some c.
Proof. destruct c; reflexivity. Qed.
Lemma paramInit_ok : exists P, paramInit (snark c) (curveOf c) = Ok P /\ par_ok c P.
Proof.
  unfold paramInit. rewrite supported_ok. cbn [curveOf cv_z cv_b cv_xa cv_xb].
  destruct (p_eval_ok c) as (z & -> & Wz & Ez & Ep & (r & Er & Vr) & (t & Et & Vt) & (k & lc & Ek & Elc & Mlc & Nlc)).
  cbn [bind]. rewrite Ep. cbn [bind]. rewrite Er. cbn [bind]. rewrite Et. cbn [bind]. rewrite Ek. cbn [bind]. rewrite Elc. cbn [bind].
  destruct (setModulo_ok c) as (tab & -> & _). cbn [bind].
  destruct (fp_setInt_ok c 1 ltac:(lia)) as (one & -> & O1 & O2). cbn [bind].
  destruct (fp_setInt_ok c 2 ltac:(lia)) as (two & -> & T1 & T2). cbn [bind].
  destruct (fp_inv_ok c two T1) as (h & -> & H1 & H2). cbn [bind].
  destruct (f2_ofInts_rep c (cxi_a c) (cxi_b c)) as (x & -> & Rx); [destruct c; cbn [cxi_a]; lia|unfold cxi_b; lia|]. cbn [bind].
  change (mk2 (mk p (cxi_a c)) (mk p (cxi_b c))) with (xi c) in Rx.
  destruct (f2_inverse_rep c x (xi c) Rx) as (bx & wx & -> & Rbx & Ibx & _). cbn [bind].
  destruct (f2_ofInts_rep c (cb c) 0) as (fb & -> & Rb); [destruct c; cbn [cb]; lia|lia|]. cbn [bind].
  assert (Wp : vwf (pV c) /\ lv (pV c) = p).
  { apply vOf_spec. pose proof (cp_bounds c). rewrite B_val. assert (2 ^ 254 < 18446744073709551616 ^ 9)%Z by reflexivity. lia. }
  destruct Wp as [Wp Vp]. pose proof (cp_bounds c) as BP.
  assert (1 <= lv (pV c))%Z by lia.
  destruct (pm1_div_ok (pV c) 6 Wp ltac:(lia) ltac:(lia)) as (y6 & -> & W6 & E6). cbn [bind].
  destruct (pm1_div_ok (pV c) 3 Wp ltac:(lia) ltac:(lia)) as (y3 & -> & W3 & E3). cbn [bind].
  destruct (pm1_div_ok (pV c) 2 Wp ltac:(lia) ltac:(lia)) as (y2 & -> & W2 & E2). cbn [bind].
  destruct (vmul_ok (pV c) (pV c) Wp Wp ltac:(rewrite (pV_len4 c); unfold cap; lia)) as (pp & -> & Wpp & Epp). cbn [bind].
  destruct (pm1_div_ok pp 6 Wpp ltac:(rewrite Epp, Vp; nia) ltac:(lia)) as (e & -> & We & Ee). cbn [bind].
  destruct (fp_setInt_ok c 0 ltac:(lia)) as (i0 & -> & I1 & I2). cbn [bind].
  rewrite Mlc. destruct (si_ok c) as [-> (S1 & S2 & S3)]. cbn [bind].
  assert (R0 := f2_pow_rep c x _ y6 Rx W6). rewrite E6, Vp in R0. fold (g1 c) in R0.
  assert (Rg : length (f2_pow c x y6 :: gam_fill c 4 (f2_pow c x y6) (f2_pow c x y6)) = 5%nat /\
    forall i, (i < 5)%nat -> rep2 (nth i (f2_pow c x y6 :: gam_fill c 4 (f2_pow c x y6) (f2_pow c x y6)) f2_0) (rpw (g1 c) (S i))).
  { destruct (gam_fill_ok 4 0 _ _ (g1 c) ltac:(rewrite rpw_1; exact R0) R0) as [L1 L2]. split; [cbn [length]; rewrite L1; reflexivity|].
    intros [|i] Hi; cbn [nth]; [rewrite rpw_1; exact R0|]. specialize (L2 i ltac:(lia)). exact L2. }
  set (g := f2_pow c x y6 :: gam_fill c 4 (f2_pow c x y6) (f2_pow c x y6)) in *. clearbody g. destruct Rg as [Lg Rg].
  assert (exists zr, (if snark c then let! y := getGoodRepl (Vsint.sm z) in Ok (fst y) else Ok []) = Ok zr /\
     (snark c = true -> repl_ok (cz c) zr)) as (zr & -> & Hzr).
  { destruct (snark c) eqn:S.
    - destruct (zr_ok c S) as [Z1 Z2].
      assert (EM : Vsint.sm z = vOf (cz c)).
      { rewrite <- (vOf_lv (Vsint.sm z) Wz). f_equal. rewrite <- (sv_abs z Wz), Ez. apply Z.abs_eq. exact (cz_snark c S). }
      rewrite EM, Z1. cbn [bind]. eexists. split; [reflexivity|]. intros _. exact Z2.
    - eexists. split; [reflexivity|]. discriminate. }
  cbn [bind]. eexists. split; [reflexivity|].
  assert (Rt := f2_pow_rep c x _ e Rx We). rewrite Ee, Epp, Vp, xi_pow_p2 in Rt.
  set (g2 := map (fun x => f2_mul c (mk2 (a2 x) (fp_neg c (b2 x))) x) g).
  assert (Rg2 : length g2 = 5%nat /\ forall i, (i < 5)%nat -> rep2 (nth i g2 f2_0) (rpw (e2 c (hh c)) (S i))).
  { split; [unfold g2; rewrite map_length; exact Lg|]. intros i Hi. unfold g2.
    set (F := fun x => f2_mul c (mk2 (a2 x) (fp_neg c (b2 x))) x).
    rewrite (nth_indep _ f2_0 (F f2_0)) by (rewrite map_length; eapply Nat.lt_le_trans; [exact Hi|]; apply Nat.eq_le_incl; symmetry; exact Lg). rewrite map_nth. unfold F.
    pose proof (Rg i Hi) as R. rewrite <- cj_g1, rpw_mulb.
    assert (Rc : rep2 (mk2 (a2 (nth i g f2_0)) (fp_neg c (b2 (nth i g f2_0)))) (cj c (rpw (g1 c) (S i)))).
    { split; [exact (proj1 R)|apply neg_rep1; exact (proj2 R)]. }
    eapply rep2_eq; [apply f2_mul_rep; [exact Rc|exact R]|].
    - f_equal. generalize (S i). intros n. induction n as [|n IH]; [apply F2_eq; unfold cj, rpw; cbn [npow]; k2; ring|].
      rewrite !rpw_S, cj_mul, IH. reflexivity. }
  destruct Rg2 as [Lg2 Rg2].
  constructor; cbn [par_z par_p par_r par_t par_lc par_b par_half par_binvxi par_g par_g2 par_g3 par_W2p par_W3p par_Z par_i0 par_i1 par_si par_naf par_zr].
  - split; assumption.
  - reflexivity.
  - subst r. apply vOf_spec. rewrite B_val. clear. split; [destruct c; vm_compute; discriminate|destruct c; vm_compute; reflexivity].
  - subst t. apply vOf_spec. rewrite B_val. clear. split; [destruct c; vm_compute; discriminate|destruct c; vm_compute; reflexivity].
  - assert (WL : vwf (vOf (Z.abs (6 * cz c + 2))) /\ lv (vOf (Z.abs (6 * cz c + 2))) = Z.abs (6 * cz c + 2)).
    { apply vOf_spec. rewrite B_val. clear. split; [destruct c; vm_compute; discriminate|destruct c; vm_compute; reflexivity]. }
    unfold swf, sv. rewrite Mlc, Nlc. destruct WL as [WL1 WL2]. split; [exact WL1|]. rewrite WL2. clear. destruct c; reflexivity.
  - reflexivity.
  - exists (@rmul (FpR p) (fv c h) (fv c one)). split; [apply mul_rep1; split; (assumption || reflexivity)|].
    assert (E : fmul (fv c two) (finv (fv c two)) = f1).
    { destruct (fp_inv_nz c two) as (h' & Eh & _ & Hh).
      - destruct T1 as [T1 T1']. split; [|exact T1'].
        destruct (Z.eq_dec two 0) as [->|]; [|lia]. exfalso. rewrite fv_0 in T2. symmetry in T2. apply mk_eq in T2.
        rewrite Zmod_0_l, Z.mod_small in T2 by lia. lia.
      - destruct (fp_inv_ok c two T1) as (h'' & Eh'' & _ & V''). rewrite Eh in Eh''. injection Eh'' as <-. rewrite <- V''. exact Hh. }
    rewrite <- H2 in E. rewrite T2 in E. rewrite O2.
    transitivity (fmul (mk p 2) (fv c h)); [|exact E].
    set (q := fv c h : FpR p). assert (E11 : mk p 2 = fadd (mk p 1) (mk p 1)) by (rewrite <- mk_add; reflexivity).
    rewrite E11. change (@rmul (FpR p) (1 + 1) (q * 1) = @rmul (FpR p) (1 + 1) q). ring.
  - eexists. split; [apply f2_mul_rep; eassumption|]. change (mk2 (mk p (cb c)) (mk p 0)) with (e2 c (mk p (cb c))).
    transitivity (wx * xi c * e2 c (mk p (cb c))); [ring|]. rewrite Ibx; [ring|]. exact (xi_nz (K2 c) (xi c) (xi_noncube c)).
  - split; assumption.
  - split; assumption.
  - split.
    + rewrite map_length, combine_length, Lg, Lg2. reflexivity.
    + intros i Hi. unfold gam3. cbn [par_g3]. set (F := fun xy : fp2 * fp2 => f2_mul c (fst xy) (snd xy)).
      rewrite (nth_indep _ f2_0 (F (f2_0, f2_0))) by (rewrite map_length, combine_length, Lg, Lg2; exact Hi). rewrite map_nth. unfold F.
      rewrite combine_nth by congruence. cbn [fst snd].
      eapply rep2_eq; [apply f2_mul_rep; [apply Rg; exact Hi|apply Rg2; exact Hi]|]. rewrite rpw_mulb. ring.
  - pose proof (f2_pow_rep c x _ y3 Rx W3) as R. rewrite E3, Vp in R. exact R.
  - pose proof (f2_pow_rep c x _ y2 Rx W2) as R. rewrite E2, Vp in R. exact R.
  - destruct Rt as [Rt _]. pose proof (neg_rep1 c _ _ Rt) as N. eapply rep1_eq; [apply mul_rep1; exact N|]. cbn [e2 a2]. ring.
  - split; split; assumption.
  - exact (conj S1 (conj S2 S3)).
  - exact (si_ok2 c).
  - exact (si_naf c).
  - exact Hzr.
Qed.
End Main.
