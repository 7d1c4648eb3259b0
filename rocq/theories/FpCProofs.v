(** The C functions of src/zm2.cpp against the generated ones. *)
From Coq Require Import ZArith Znumtheory Lia List Bool Ring Field.
From Verif Require Import Base Prim PrimProofs Loop Vuint VuintProofs VDiv VDivProofs ZmZ ZmZProofs
  FpSpec Cfg FpM FpProofs FpInvProofs FpApi FpApiProofs FpInit FpInitProofs.
Import ListNotations.
Local Open Scope Z_scope.

Section C.
Variable c : cfg.
Local Notation p := (cp c).

Lemma Fp_addNC_C_ok x y : 0 <= x < W -> 0 <= y < W -> Fp_addNC_C x y = Ok (fp_addNC x y).
Proof.
  intros Hx Hy. unfold Fp_addNC_C. destruct (vfp_ok x Hx) as (a & -> & A1 & A2 & _). destruct (vfp_ok y Hy) as (b & -> & B1 & B2 & _).
  cbn [bind]. destruct (vadd_ok a b A1 B1) as (z & -> & Z1 & Z2).
  { rewrite A2, B2. assert (2 * W < B ^ 9) by (rewrite W_val, B_val; reflexivity). lia. }
  cbn [bind]. rewrite setDirect4_spec, Z2, A2, B2 by exact Z1. reflexivity.
Qed.
Lemma Fp_subNC_C_ok x y : 0 <= x < W -> 0 <= y <= x -> Fp_subNC_C x y = Ok (fp_subNC x y).
Proof.
  intros Hx Hy. unfold Fp_subNC_C. destruct (vfp_ok x Hx) as (a & -> & A1 & A2 & _).
  destruct (vfp_ok y ltac:(lia)) as (b & -> & B1 & B2 & _).
  cbn [bind]. destruct (vsub_ok a b A1 B1 ltac:(lia)) as (z & -> & Z1 & Z2).
  cbn [bind]. rewrite setDirect4_spec, Z2, A2, B2 by exact Z1. reflexivity.
Qed.
Lemma vsub_fails a b : vwf a -> vwf b -> lv a < lv b -> vsub a b = Exit \/ vsub a b = UB.
Proof.
  intros Ha Hb H. destruct (lt_eq_lt_dec (length a) (length b)) as [[L|L]|L].
  - right. apply vsub_ub, L.
  - left. apply vsub_exit; auto.
  - pose proof (vwf_len_lt b a Hb Ha L). lia.
Qed.
Lemma Fp_addC_ok x y : can c x -> can c y -> Fp_addC c x y = Ok (fp_add c x y).
Proof.
  intros Hx Hy. pose proof (can_W c x Hx). pose proof (can_W c y Hy). pose proof (cp_lt_W c). unfold can in *. pose proof W_lt_B9.
  unfold Fp_addC. destruct (vfp_ok x) as (a & -> & A1 & A2 & _); [lia|]. destruct (vfp_ok y) as (b & -> & B1 & B2 & _); [lia|].
  cbn [bind]. destruct (vadd_ok a b A1 B1 ltac:(lia)) as (z & -> & Z1 & Z2). cbn [bind].
  destruct (pV_ok c) as (P1 & P2 & _). destruct (vcmp_ops z (pV c) Z1 P1) as (-> & _). rewrite Z2, A2, B2, P2.
  unfold fp_add. rewrite (Z.mod_small (x + y)) by lia. unfold add_modp. destruct (Z.ltb_spec (x + y) p); cbn [negb].
  - cbn [bind]. rewrite setDirect4_spec, Z2, A2, B2, Z.mod_small by (auto; lia). reflexivity.
  - destruct (vsub_ok z (pV c) Z1 P1 ltac:(lia)) as (w & -> & W1 & HW2). cbn [bind].
    rewrite setDirect4_spec, HW2, Z2, A2, B2, P2, Z.mod_small by (auto; lia). reflexivity.
Qed.
Lemma Fp_subC_lt x y : can c x -> can c y -> x < y -> Fp_subC c x y = Ok (fp_sub c x y).
Proof.
  intros Hx Hy L. pose proof (can_W c x Hx). pose proof (can_W c y Hy). pose proof (cp_lt_W c). unfold can in *. pose proof W_lt_B9.
  unfold Fp_subC. destruct (vfp_ok x) as (a & -> & A1 & A2 & _); [lia|]. destruct (vfp_ok y) as (b & -> & B1 & B2 & _); [lia|].
  cbn [bind]. destruct (pV_ok c) as (P1 & P2 & _). destruct (vcmp_ops a b A1 B1) as (-> & _). rewrite A2, B2.
  destruct (Z.ltb_spec x y); [|lia]. destruct (vadd_ok a (pV c) A1 P1 ltac:(lia)) as (z & -> & Z1 & Z2). cbn [bind].
  destruct (vsub_ok z b Z1 B1 ltac:(lia)) as (w & -> & W1 & HW2). cbn [bind].
  rewrite setDirect4_spec, HW2, Z2, A2, B2, P2 by auto. unfold fp_sub. destruct (Z.ltb_spec x y); [|lia].
  rewrite Zplus_mod_idemp_l. do 2 f_equal. lia.
Qed.
Lemma Fp_subC_ge x y : can c x -> can c y -> y <= x -> Fp_subC c x y = Exit \/ Fp_subC c x y = UB.
Proof.
  intros Hx Hy L. pose proof (can_W c x Hx). pose proof (can_W c y Hy). unfold can in *.
  unfold Fp_subC. destruct (vfp_ok x) as (a & -> & A1 & A2 & _); [lia|]. destruct (vfp_ok y) as (b & -> & B1 & B2 & _); [lia|].
  cbn [bind]. destruct (pV_ok c) as (P1 & P2 & _). destruct (vcmp_ops a b A1 B1) as (-> & _). rewrite A2, B2.
  destruct (Z.ltb_spec x y); [lia|]. destruct (vsub_fails a (pV c) A1 P1 ltac:(lia)) as [->| ->]; cbn [bind]; auto.
Qed.
Lemma Fp_mulC_diverges n x y : Fp_mulC c n x y = Diverge.
Proof. revert x y. induction n as [|n IH]; intros; cbn [Fp_mulC]; [reflexivity|]. rewrite IH. reflexivity. Qed.

Lemma pN_2 : 2 * pN c < B ^ 9 /\ 0 < pN c < W2.
Proof.
  pose proof (pN_lt c). split; [|lia]. assert (2 * W2 < B ^ 9) by (unfold W2; rewrite W_val, B_val; reflexivity). lia.
Qed.
Lemma pN_half : 2 * pN c <= W2.
Proof. unfold pN, W2. pose proof (cp_lt_W c). pose proof (cp_pos c). nia. Qed.
Lemma FpDbl_addNC_C_ok x y : 0 <= x < W2 -> 0 <= y < W2 -> FpDbl_addNC_C x y = Ok (dbl_addNC x y).
Proof.
  intros Hx Hy. unfold FpDbl_addNC_C. destruct (vdbl_ok x Hx) as (a & -> & A1 & A2 & _). destruct (vdbl_ok y Hy) as (b & -> & B1 & B2 & _).
  cbn [bind]. destruct (vadd_ok a b A1 B1) as (z & -> & Z1 & Z2).
  { rewrite A2, B2. assert (2 * W2 < B ^ 9) by (unfold W2; rewrite W_val, B_val; reflexivity). lia. }
  cbn [bind]. rewrite setDirect8_spec, Z2, A2, B2 by exact Z1. reflexivity.
Qed.
Lemma FpDbl_subNC_C_ok x y : 0 <= x < W2 -> 0 <= y <= x -> FpDbl_subNC_C x y = Ok (dbl_subNC x y).
Proof.
  intros Hx Hy. unfold FpDbl_subNC_C. destruct (vdbl_ok x Hx) as (a & -> & A1 & A2 & _).
  destruct (vdbl_ok y ltac:(lia)) as (b & -> & B1 & B2 & _).
  cbn [bind]. destruct (vsub_ok a b A1 B1 ltac:(lia)) as (z & -> & Z1 & Z2).
  cbn [bind]. rewrite setDirect8_spec, Z2, A2, B2 by exact Z1. reflexivity.
Qed.
Lemma split_hi x : 0 <= x -> x = (x / W) * W + x mod W /\ 0 <= x mod W < W.
Proof. pose proof W_pos. split; [pose proof (Z.div_mod x W ltac:(lia)); lia|apply Z.mod_pos_bound; lia]. Qed.
Lemma FpDbl_addC_ok x y : 0 <= x < pN c -> 0 <= y < pN c -> FpDbl_addC c x y = Ok (dbl_add c x y).
Proof.
  intros Hx Hy. destruct pN_2 as [H9 HN]. pose proof pN_half. unfold FpDbl_addC.
  destruct (vdbl_ok x ltac:(lia)) as (a & -> & A1 & A2 & _). destruct (vdbl_ok y ltac:(lia)) as (b & -> & B1 & B2 & _).
  cbn [bind]. destruct (vadd_ok a b A1 B1 ltac:(lia)) as (z & -> & Z1 & Z2). cbn [bind].
  destruct (pNV_ok c) as (P1 & P2 & _). destruct (vcmp_ops z (pNV c) Z1 P1) as (-> & _). rewrite Z2, A2, B2, P2.
  unfold dbl_add. rewrite (Z.mod_small (x + y)) by lia. unfold add_modp.
  destruct (split_hi (x + y) ltac:(lia)) as [S1 S2].
  assert (C : (x + y <? pN c) = ((x + y) / W <? p)).
  { unfold pN. apply eq_true_iff_eq. rewrite !Z.ltb_lt. set (h := (x + y) / W) in *. set (l := (x + y) mod W) in *. pose proof W_pos.
    clear - S1 S2 H0. rewrite S1. clearbody h l. nia. }
  rewrite C. destruct (Z.ltb_spec ((x + y) / W) p) as [L|L]; cbn [negb].
  - cbn [bind]. rewrite setDirect8_spec, Z2, A2, B2, Z.mod_small by (auto; lia). rewrite <- S1. reflexivity.
  - apply Z.ltb_ge in C. destruct (vsub_ok z (pNV c) Z1 P1 ltac:(lia)) as (w & -> & W1 & HW2). cbn [bind].
    rewrite setDirect8_spec, HW2, Z2, A2, B2, P2, Z.mod_small by (auto; lia). f_equal. unfold pN.
    rewrite Z.mul_sub_distr_r. lia.
Qed.
Lemma FpDbl_subC_ok x y : 0 <= x < pN c -> 0 <= y < pN c -> FpDbl_subC c x y = Ok (dbl_sub c x y).
Proof.
  intros Hx Hy. destruct pN_2 as [H9 HN]. unfold FpDbl_subC.
  destruct (vdbl_ok x ltac:(lia)) as (a & -> & A1 & A2 & _). destruct (vdbl_ok y ltac:(lia)) as (b & -> & B1 & B2 & _).
  cbn [bind]. destruct (pNV_ok c) as (P1 & P2 & _). destruct (vcmp_ops a b A1 B1) as (-> & _). rewrite A2, B2.
  unfold dbl_sub. destruct (Z.ltb_spec x y) as [L|L].
  - destruct (vadd_ok a (pNV c) A1 P1 ltac:(lia)) as (z & -> & Z1 & Z2). cbn [bind].
    destruct (vsub_ok z b Z1 B1 ltac:(lia)) as (w & -> & W1 & HW2). cbn [bind].
    rewrite setDirect8_spec, HW2, Z2, A2, B2, P2, Z.mod_small by (auto; lia). f_equal.
    assert (E : (x - y) mod W2 = x - y + W2) by (symmetry; apply Z.mod_unique_pos with (-1); lia).
    rewrite E. destruct (split_hi (x - y + W2) ltac:(lia)) as [S1 S2].
    set (h := (x - y + W2) / W) in *. set (l := (x - y + W2) mod W) in *. pose proof W_pos as HW.
    assert (E2 : (h + p) mod W = h + p - W).
    { symmetry. apply Z.mod_unique_pos with 1; [|lia]. unfold W2, pN in *. clear - S1 S2 HW L Hx Hy HN. clearbody h l. nia. }
    rewrite E2. unfold W2, pN in *. lia.
  - cbn [bind]. destruct (vsub_ok a b A1 B1 ltac:(lia)) as (w & -> & W1 & HW2). cbn [bind].
    rewrite setDirect8_spec, HW2, A2, B2 by auto. reflexivity.
Qed.
Lemma FpDbl_negC_ok x : 0 < x < pN c -> FpDbl_negC c x = Ok (dbl_neg c x).
Proof.
  intros Hx. destruct pN_2 as [H9 HN]. unfold FpDbl_negC.
  destruct (vdbl_ok x ltac:(lia)) as (a & -> & A1 & A2 & _). cbn [bind]. rewrite (visZero_spec a A1), A2.
  destruct (Z.eqb_spec x 0); [lia|]. destruct (pNV_ok c) as (P1 & P2 & _).
  destruct (vsub_ok (pNV c) a P1 A1 ltac:(lia)) as (w & -> & W1 & HW2). cbn [bind].
  rewrite setDirect8_spec, HW2, P2, A2 by auto. reflexivity.
Qed.
Lemma FpDbl_neg_0 : FpDbl_negC c 0 = Ok 0 /\ dbl_neg c 0 = pN c /\ pN c <> 0.
Proof.
  destruct pN_2 as [H9 HN]. split; [|split; [unfold dbl_neg; rewrite Z.sub_0_r; apply Z.mod_small; lia|lia]].
  unfold FpDbl_negC. destruct (vdbl_ok 0 ltac:(lia)) as (a & -> & A1 & A2 & _). cbn [bind]. rewrite (visZero_spec a A1), A2. cbn [Z.eqb].
  rewrite setDirect8_spec, A2 by exact A1. reflexivity.
Qed.
Lemma FpDbl_mulC_ok x y : 0 <= x < W -> 0 <= y < W -> FpDbl_mulC x y = Ok (dbl_mul x y).
Proof.
  intros Hx Hy. unfold FpDbl_mulC. destruct (vfp_ok x Hx) as (a & -> & A1 & A2 & A3). destruct (vfp_ok y Hy) as (b & -> & B1 & B2 & B3).
  cbn [bind]. destruct (vmul_ok a b A1 B1 ltac:(unfold cap; lia)) as (z & -> & Z1 & Z2). cbn [bind].
  rewrite setDirect8_spec, Z2, A2, B2 by exact Z1. unfold dbl_mul. f_equal. apply Z.mod_small. unfold W2. nia.
Qed.
Lemma nth0_lv a : limbs a -> nth 0 a 0 = lv a mod B.
Proof.
  intros H. destruct a as [|d a]; [reflexivity|]. cbn [nth lv]. rewrite (Z.mul_comm B), Z.mod_add by (pose proof B_pos; lia).
  symmetry. apply Z.mod_small. apply limbs_cons in H. exact (proj1 H).
Qed.
Lemma modC_round_ok a : vwf a -> lv a < W2 -> exists a' q, modC_round c a = Ok a' /\ vwf a' /\ 0 <= q < B /\ B * lv a' = lv a + q * p.
Proof.
  intros A1 A2. unfold modC_round. pose proof B_pos as HB. rewrite nth0_lv by (apply vwf_limbs; exact A1).
  destruct (mont_q c (lv a)) as [Q1 Q2]. set (q := ((lv a mod B) * cpp c) mod B) in *.
  destruct (vset_vwf q Q1) as [V1 V2]. destruct (pV_ok c) as (P1 & P2 & P3).
  destruct (vmul_ok (vset q) (pV c) V1 P1 ltac:(unfold vset; cbn [length]; unfold cap; lia)) as (z & -> & Z1 & Z2). cbn [bind].
  pose proof (cp_lt_W c) as PW. pose proof (cp_pos c) as PP.
  assert (HQ : 0 <= q * p < B * W) by nia.
  destruct (vadd_ok a z A1 Z1) as (s & -> & S1 & S2).
  { rewrite Z2, V2, P2. assert (W2 + B * W < B ^ 9) by (unfold W2; rewrite W_val, B_val; reflexivity). lia. }
  cbn [bind]. destruct (vshr_ok s 64 S1 ltac:(lia)) as (t & -> & T1 & T2). exists t, q. split; [reflexivity|]. split; [exact T1|].
  split; [exact Q1|]. rewrite T2, S2, Z2, V2, P2. change (2 ^ 64) with 18446744073709551616. rewrite <- B_val.
  pose proof (Z.div_mod (lv a + q * p) B ltac:(lia)). rewrite Q2 in H. lia.
Qed.
Lemma FpDbl_modC_ok x : 0 <= x < pN c -> FpDbl_modC c x = Ok (dbl_mod c x).
Proof.
  intros Hx. destruct pN_2 as [H9 HN]. unfold FpDbl_modC. pose proof B_pos as HB. pose proof (cp_pos c) as PP. pose proof (cp_lt_W c) as PW.
  assert (BW : forall a t q, B * t = a + q * p -> 0 <= q < B -> 0 <= a < W2 -> t < W2).
  { intros a t q E Q A. assert (B * p < W2). { unfold W2. assert (B < W) by (rewrite W_val, B_val; reflexivity). clear - PW PP HB H. nia. } assert (2 <= B) by (rewrite B_val; lia).
    assert (q * p <= B * p) by nia. nia. }
  destruct (vdbl_ok x ltac:(lia)) as (a & -> & A1 & A2 & _). cbn [bind].
  destruct (modC_round_ok a A1 ltac:(lia)) as (a1 & q1 & -> & A3 & Q1 & E1). cbn [bind]. pose proof (vwf_nonneg _ A3) as N1.
  rewrite A2 in E1. pose proof (BW _ _ _ E1 Q1 ltac:(lia)) as L1.
  destruct (modC_round_ok a1 A3 L1) as (a2 & q2 & -> & A4 & Q2 & E2). cbn [bind]. pose proof (vwf_nonneg _ A4) as N2.
  pose proof (BW _ _ _ E2 Q2 (conj N1 L1)) as L2.
  destruct (modC_round_ok a2 A4 L2) as (a3 & q3 & -> & A5 & Q3 & E3). cbn [bind]. pose proof (vwf_nonneg _ A5) as N3.
  pose proof (BW _ _ _ E3 Q3 (conj N2 L2)) as L3.
  destruct (modC_round_ok a3 A5 L3) as (a4 & q4 & -> & A6 & Q4 & E4). cbn [bind]. pose proof (vwf_nonneg _ A6) as N4.
  assert (E : W * lv a4 = x + (q1 + B * q2 + B * B * q3 + B * B * B * q4) * p).
  { rewrite W_B. transitivity (B * B * B * (B * lv a4)); [ring|]. rewrite E4.
    transitivity (B * B * (B * lv a3) + B * B * B * (q4 * p)); [ring|]. rewrite E3.
    transitivity (B * (B * lv a2) + B * B * (q3 * p) + B * B * B * (q4 * p)); [ring|]. rewrite E2.
    transitivity (B * lv a1 + B * (q2 * p) + B * B * (q3 * p) + B * B * B * (q4 * p)); [ring|]. rewrite E1. ring. }
  pose proof (digits4 q1 q2 q3 q4 Q1 Q2 Q3 Q4) as HD. set (Q := q1 + B * q2 + B * B * q3 + B * B * B * q4) in *.
  assert (T : 0 <= lv a4 < 2 * p).
  { split; [exact N4|]. unfold pN in Hx. clearbody Q. clear - E HD Hx PP. nia. }
  assert (M : fv c (lv a4) = dv c x).
  { apply dv_fv. rewrite Z.mul_comm, E, mk_add, mk_mul, mk_p. set (u := mk p Q). set (v := mk p x).
    pose proof (Fp_ring p) as RT. destruct RT. rewrite Rmul_comm. 
    assert (Z0 : forall w : Fp p, fmul f0 w = f0).
    { clear. intros w. destruct (mk_surj p w) as [k ->]. unfold f0. rewrite <- mk_mul. reflexivity. }
    rewrite Z0. rewrite Radd_comm. apply Radd_0_l. }
  destruct (pV_ok c) as (P1 & P2 & _). destruct (vcmp_ops a4 (pV c) A6 P1) as (-> & _). rewrite P2.
  destruct (add_modp_ok c (lv a4) T) as (K1 & K2 & _). destruct (dbl_mod_ok c x Hx) as [D1 D2].
  assert (F : add_modp c (lv a4) = dbl_mod c x) by (apply (fv_inj c); [exact K1|exact D1|rewrite K2, M, D2; reflexivity]).
  rewrite <- F. unfold add_modp. destruct (Z.ltb_spec (lv a4) p) as [L|L]; cbn [negb bind].
  - rewrite setDirect4_spec by exact A6. rewrite Z.mod_small by lia. reflexivity.
  - destruct (vsub_ok a4 (pV c) A6 P1 ltac:(lia)) as (w & -> & W1 & HW2). cbn [bind].
    rewrite setDirect4_spec, HW2, P2, Z.mod_small by (auto; lia). reflexivity.
Qed.
End C.
