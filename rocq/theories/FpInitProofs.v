From Coq Require Import ZArith Znumtheory Lia List Bool Ring Field.
From Verif Require Import Base Prim PrimProofs Loop Vuint VuintProofs VDiv VDivProofs ZmZ ZmZProofs
  Power PowerProofs FpSpec Cfg FpM FpProofs FpInvProofs FpApi FpApiProofs FpInit.
Import ListNotations.
Local Open Scope Z_scope.

Lemma vset_ok x : 0 <= x < 1000 -> vwf (vset x) /\ lv (vset x) = x.
Proof. intros. apply vset_vwf. unfold isU. rewrite B_val. lia. Qed.

Lemma vquot_ok x y : vwf x -> vwf y -> lv y <> 0 -> (length y < 9)%nat ->
  exists q, vquot x y = Ok q /\ vwf q /\ lv q = lv x / lv y.
Proof.
  intros Hx Hy H0 HL. unfold vquot. destruct (vdiv_euclid x y Hx Hy H0 HL) as (q & r & -> & Q & R & E & I). cbn [bind].
  exists q. split; [reflexivity|]. split; [exact Q|]. destruct (divmod_unique _ _ _ _ I E). auto.
Qed.
Lemma vrem_ok x y : vwf x -> vwf y -> lv y <> 0 -> (length y < 9)%nat ->
  exists q, vrem x y = Ok q /\ vwf q /\ lv q = lv x mod lv y.
Proof.
  intros Hx Hy H0 HL. unfold vrem. destruct (vmod_ok x y Hx Hy H0 HL) as (r & -> & R & E). cbn [bind].
  exists r. auto.
Qed.
Lemma vshl_val x n : vwf x -> 0 <= n -> 0 < lv x -> lv x * 2 ^ n < B ^ 9 ->
  exists z, vshl x n = Ok z /\ vwf z /\ lv z = lv x * 2 ^ n.
Proof. apply vshl_ok. Qed.

Section InitP.
Variable c : cfg.
Local Notation p := (cp c).

Lemma pV_len4 : length (pV c) = 4%nat.
Proof.
  destruct (pV_ok c) as (R1 & R2 & R3). destruct (le_lt_dec 4 (length (pV c))) as [L|L]; [lia|exfalso].
  pose proof (vwf_ub _ R1) as H. pose proof (Bpow_mono (length (pV c)) 3 ltac:(lia)) as H2. change (Z.of_nat 3) with 3 in H2.
  rewrite R2 in H. pose proof (cp_bounds c). assert (B ^ 3 <= 2 ^ 253) by (rewrite B_val; vm_compute; discriminate). lia.
Qed.

Lemma pp_ok t : (lv t * ((- p) mod B)) mod B = 1 -> 0 <= lv t < B -> lv t = cpp c.
Proof.
  intros H Ht. pose proof (cpp_ok c) as E. pose proof (cpp_range c) as R. pose proof B_pos.
  rewrite Zmult_mod_idemp_r in H.
  assert (D : (lv t - cpp c) mod B = 0).
  { apply Z.mod_divide; [lia|]. apply Z.mod_divide in E; [|lia]. destruct E as [k E].
    pose proof (Z.div_mod (lv t * - p) B ltac:(lia)) as D. rewrite H in D.
    exists (lv t * k + cpp c * (lv t * - p / B)).
    set (u := lv t * - p / B) in *. replace ((lv t * k + cpp c * u) * B) with (lv t * (k * B) + cpp c * (B * u)) by ring.
    rewrite <- E. replace (B * u) with (lv t * - p - 1) by lia. ring. }
  apply Z.mod_divide in D; [|lia]. destruct D as [k D]. assert (k = 0) by nia. subst k. lia.
Qed.

Lemma mapR_ok {A} (f : Z -> res A) g l : (forall i, In i l -> f i = Ok (g i)) -> mapR f l = Ok (map g l).
Proof.
  induction l as [|i l IH]; intros H; [reflexivity|]. cbn [mapR map]. rewrite (H i) by (left; reflexivity). cbn [bind].
  rewrite IH by (intros; apply H; right; assumption). reflexivity.
Qed.

Lemma pN_lt : pN c < W2 /\ 0 < pN c.
Proof. unfold pN, W2. pose proof (cp_lt_W c). pose proof (cp_pos c). nia. Qed.
Lemma pNV_ok : vwf (pNV c) /\ lv (pNV c) = pN c /\ (length (pNV c) <= 8)%nat.
Proof. apply vOfW2. pose proof pN_lt. lia. Qed.

Lemma fill_inv_ok n : forall t k acc, 0 <= k -> can c t -> fv c t = mk p (2 ^ k) ->
  (forall i d, (i < length acc)%nat -> nth i acc d = invTbl c (Z.of_nat i + (512 - (k - 1)))) ->
  forall i d, (i < n + length acc)%nat -> nth i (fill_inv c n t acc) d = invTbl c (Z.of_nat i + (512 - (k - 1)) - Z.of_nat n).
Proof.
  induction n as [|n IH]; intros t k acc Hk Ht Ev Ha i d Hi; cbn [fill_inv].
  - rewrite Ha by exact Hi. f_equal. lia.
  - destruct (fp_add_ok c t t Ht Ht) as [A1 A2].
    rewrite (IH (fp_add c t t) (k + 1) (t :: acc)); [f_equal; lia|lia|exact A1| | |cbn [length]; lia].
    + rewrite A2, Ev, <- mk_add. f_equal. rewrite Z.pow_add_r by lia. change (2 ^ 1) with 2. lia.
    + intros j d' Hj. destruct j as [|j]; cbn [nth].
      * apply (fv_inj c); [exact Ht|unfold can, invTbl; apply Z.mod_pos_bound, cp_pos|].
        rewrite Ev. unfold invTbl. rewrite fv_mod, fv_W. f_equal. f_equal. lia.
      * cbn [length] in Hj. rewrite Ha by lia. f_equal. lia.
Qed.
Lemma fill_inv_len n : forall t acc, length (fill_inv c n t acc) = (n + length acc)%nat.
Proof. induction n as [|n IH]; intros; cbn [fill_inv]; [reflexivity|]. rewrite IH. cbn [length]. lia. Qed.

(** what the arithmetic of FpM.v assumes about the tables *)
Definition tab_ok (t : fptab) : Prop :=
  t_p t = pV c /\ t_pp t = cpp c /\ t_pN t = pNV c /\ t_p14 t = p14V c /\ t_R t = RV c /\ t_R2 t = cR2 c /\
  t_pTbl t = map (pTbl c) [0;1;2;3;4;5;6;7;8;9] /\ t_pNTbl t = map (pNTbl c) [0;1;2;3] /\
  t_half t = map (halfTbl c) [0;1] /\ t_quarter t = map (quarterTbl c) [0;1;2;3] /\
  length (t_inv t) = 512%nat /\ forall k, 0 <= k < 512 -> nth (Z.to_nat k) (t_inv t) 0 = invTbl c k.

Lemma setModulo_ok : exists t, setModulo c (pV c) = Ok t /\ tab_ok t.
Proof.
  destruct (pV_ok c) as (P1 & P2 & P3). pose proof pV_len4 as P4. pose proof (cp_bounds c) as PB. pose proof (cp_lt_W c) as PW.
  pose proof W_lt_B9 as HW9. pose proof W2_lt_B9 as HW29. pose proof B_pos as HB.
  unfold setModulo. rewrite P4. cbn [Nat.eqb negb].
  destruct (vset_ok 1 ltac:(lia)) as [V1 L1].
  destruct (vshl_val (vset 1) 64 V1 ltac:(lia) ltac:(lia)) as (m & -> & M1 & M2).
  { rewrite L1, B_val. reflexivity. }
  cbn [bind]. rewrite L1 in M2. change (1 * 2 ^ 64) with (2 ^ 64) in M2. assert (M3 : lv m = B) by (rewrite B_val; exact M2).
  assert (M4 : (length m <= 2)%nat).
  { destruct (le_lt_dec (length m) 2) as [L|L]; [exact L|exfalso]. pose proof (vwf_lb m M1 ltac:(lia)) as Q.
    assert (B ^ 2 <= B ^ (Z.of_nat (length m) - 1)) by (apply Z.pow_le_mono_r; lia). rewrite M3 in Q.
    assert (B < B ^ 2) by (rewrite B_val; reflexivity). lia. }
  destruct (zmod_ok m M1 ltac:(rewrite M3, B_val; lia) (pV c) P1 ltac:(lia)) as (t1 & -> & T1 & T2). cbn [bind].
  destruct (zneg_ok m M1 t1 T1) as (t2 & -> & T3 & T4). cbn [bind].
  assert (T5 : lv t2 = (- p) mod B).
  { rewrite T4, T2, M3, P2. rewrite <- (Z.sub_0_l (p mod B)), Zminus_mod_idemp_r. f_equal. }
  destruct (zinv_ok m M1 ltac:(rewrite M3, B_val; lia) t2 T3 ltac:(lia)) as (t3 & -> & [T6 T7] & T8).
  { rewrite T5, M3. apply rel_prime_mod; [lia|]. apply bezout_rel_prime.
    pose proof (cpp_ok c) as E. apply Z.mod_divide in E; [|lia]. destruct E as [k E].
    apply Bezout_intro with (u := cpp c) (v := k). lia. }
  cbn [bind]. rewrite T5, M3 in T8. rewrite M3 in T7.
  assert (T9 : lv t3 = cpp c) by (apply pp_ok; [exact T8|pose proof (vwf_nonneg t3 T6); lia]).
  assert (T10 : nth 0 t3 0 = cpp c).
  { destruct (vset_vwf (cpp c)) as [X1 X2]; [pose proof (cpp_range c); unfold isU; lia|].
    replace t3 with (vset (cpp c)); [reflexivity|]. apply vwf_inj; auto. congruence. }
  clear T1 T2 T3 T4 T5 T6 T7 T8 T9. clear M1 M2 M3 M4.
  destruct (vshl_val (pV c) 256 P1 ltac:(lia) ltac:(lia)) as (n & -> & N1 & N2).
  { rewrite P2. change (2 ^ 256) with W. pose proof pN_lt. unfold pN in *. lia. }
  cbn [bind]. rewrite P2 in N2. change (2 ^ 256) with W in N2.
  assert (N3 : n = pNV c) by (destruct pNV_ok as (A1 & A2 & _); apply vwf_inj; auto; unfold pN in A2; lia).
  destruct (vadd_ok (pV c) (vset 1) P1 V1 ltac:(lia)) as (p1 & -> & Q1 & Q2). cbn [bind]. rewrite P2, L1 in Q2.
  destruct (vset_ok 4 ltac:(lia)) as [V4 L4].
  destruct (vquot_ok p1 (vset 4) Q1 V4 ltac:(lia) ltac:(cbn; lia)) as (p14 & -> & Q3 & Q4). cbn [bind]. rewrite Q2, L4 in Q4.
  destruct (vshl_val (vset 1) 256 V1 ltac:(lia) ltac:(lia)) as (w & -> & W1 & WE).
  { rewrite L1. change (1 * 2 ^ 256) with W. lia. }
  cbn [bind]. rewrite L1 in WE. change (1 * 2 ^ 256) with W in WE.
  destruct (vrem_ok w (pV c) W1 P1 ltac:(lia) ltac:(lia)) as (R & -> & R1 & R2). cbn [bind]. rewrite WE, P2 in R2.
  assert (RE : R = RV c) by (destruct (RV_ok c) as (A1 & A2 & _); apply vwf_inj; auto; rewrite A2; exact R2).
  destruct (zmod_ok (pV c) P1 ltac:(lia) R R1 ltac:(lia)) as (R' & -> & RR1 & RR2). cbn [bind].
  assert (RL := zred_len (pV c) P1 R' RR1).
  destruct (zmul_ok (pV c) P1 ltac:(lia) R' R' RR1 RR1 ltac:(lia) ltac:(lia)) as (S & -> & [S0 S1] & S2). cbn [bind].
  assert (SE : setDirect4 S = cR2 c).
  { rewrite setDirect4_spec by exact S0. pose proof (vwf_nonneg S S0) as SN. rewrite Z.mod_small by (rewrite P2 in S1; clear - S1 SN PW; lia).
    rewrite S2, RR2, P2, R2, Zmod_mod. unfold cR2, cR. reflexivity. }
  clear S2 RR2 RR1 RL S0 S1 R2.
  rewrite (mapR_ok _ (pTbl c)).
  2: { intros i Hi. assert (0 <= i < 10) by (clear - Hi; cbn [In] in Hi; intuition lia). destruct (vset_ok i ltac:(lia)) as [X1 X2].
       destruct (vmul_ok (pV c) (vset i) P1 X1 ltac:(unfold vset; cbn [length]; unfold cap; lia)) as (z & -> & Z1 & Z2). cbn [bind].
       rewrite setDirect4_spec, Z2, P2, X2 by exact Z1. unfold pTbl. rewrite Z.mul_comm. reflexivity. }
  cbn [bind]. rewrite (mapR_ok _ (pNTbl c)).
  2: { intros i Hi. assert (Hi2 : 0 <= i < 10) by (clear - Hi; cbn [In] in Hi; intuition lia).
       destruct (vshr_ok n i N1 ltac:(lia)) as (z & -> & Z1 & Z2). cbn [bind].
       rewrite setDirect8_spec, Z2, N2 by exact Z1. unfold pNTbl, pN. f_equal. apply Z.mod_small.
       pose proof pN_lt as HN. unfold pN in HN. pose proof (Z.pow_pos_nonneg 2 i ltac:(lia) ltac:(lia)).
       rewrite (Z.mul_comm W) in HN || idtac. clear - HN H. set (a := cp c * W) in *. set (b := 2 ^ i) in *. clearbody a b.
       split; [apply Z.div_pos; lia|]. apply Z.div_lt_upper_bound; [lia|]. nia. }
  cbn [bind]. destruct (vshr_ok p1 1 Q1 ltac:(lia)) as (h & -> & H1 & H2). cbn [bind]. rewrite Q2 in H2. change (2 ^ 1) with 2 in H2.
  destruct (vshr_ok p1 2 Q1 ltac:(lia)) as (q & -> & G1 & G2). cbn [bind]. rewrite Q2 in G2. change (2 ^ 2) with 4 in G2.
  pose proof (p_half c) as PH. pose proof (p_quarter c) as PQ.
  destruct (vset_ok 2 ltac:(lia)) as [V2 L2]. destruct (vset_ok 3 ltac:(lia)) as [V3 L3].
  assert (QL : (length q <= 4)%nat).
  { destruct (le_lt_dec (length q) 4) as [L|L]; [exact L|exfalso].
    pose proof (vwf_len_lt (pV c) q P1 G1 ltac:(lia)). lia. }
  destruct (vmul_ok q (vset 2) G1 V2 ltac:(cbn [length vset]; unfold vset; cbn [length]; unfold cap; lia)) as (q2 & -> & G3 & G4). cbn [bind].
  destruct (vmul_ok q (vset 3) G1 V3 ltac:(cbn [length vset]; unfold vset; cbn [length]; unfold cap; lia)) as (q3 & -> & G5 & G6). cbn [bind].
  destruct (fp_setInt_ok c 2 ltac:(lia)) as (two & -> & TW1 & TW2). cbn [bind].
  eexists. split; [reflexivity|]. unfold tab_ok. cbn [t_p t_pp t_pN t_p14 t_R t_R2 t_pTbl t_pNTbl t_half t_quarter t_inv].
  split; [reflexivity|]. split; [exact T10|]. split; [exact N3|].
  split. { destruct (p14_spec c) as [A _]. destruct (vOfW _ A) as (B1 & B2 & _). apply vwf_inj; [exact Q3|exact B1|]. unfold p14V. rewrite B2. exact Q4. }
  split; [exact RE|]. split; [exact SE|]. split; [reflexivity|]. split; [reflexivity|].
  split. { cbn [map]. unfold halfTbl. cbn [Z.eqb]. rewrite setDirect4_spec by exact H1. rewrite Z.mod_small by lia. rewrite H2. reflexivity. }
  split. { cbn [map]. unfold quarterTbl. rewrite !setDirect4_spec by assumption. rewrite !Z.mod_small by lia.
    rewrite G4, G6, G2, L2, L3. rewrite Z.mul_0_l, Z.mul_1_l, !(Z.mul_comm ((p + 1) / 4)). reflexivity. }
  split. { rewrite fill_inv_len. cbn [length]. lia. }
  intros k Hk. rewrite (fill_inv_ok 512 two 1 []); cbn [length]; [f_equal; lia|lia|exact TW1| | |lia].
  - rewrite TW2. reflexivity.
  - intros; lia.
Qed.

Lemma setModulo_size q : length q <> 4%nat -> setModulo c q = Exit.
Proof. intros H. unfold setModulo. apply Nat.eqb_neq in H. rewrite H. reflexivity. Qed.
End InitP.
