(** The generated FpDbl::neg and Fp2Dbl::neg. *)
From Coq Require Import ZArith List Bool Lia.
From Verif Require Import X64 XLog JitSpec JitFpSpec XTac XReg JitFp JitMac JitMac2 JitFrame JitRep JitFpApi JitFpApi2 JitFp2 JitFp2Spec JitFpEnd JitFp2End JitSub JitLineSub JitFp6Spec JitFp6Api JitFp6End.
From Verif Require Import Base Prim Primes FpSpec Cfg FpM FpProofs TowerSpec.
Import ListNotations.
Local Open Scope Z_scope.
Local Notation find := X64.find.
Local Notation length := List.length.

Definition gneg : list reg := [RAX; RDX; R9; gt1; gt2; gt3; gt4].
Section Step.
  Variables (c : cfg) (il : bool) (T : Z) (C : code) (l z x d : Z).
  Local Notation blk := (in_FpDbl_neg il T l (Ad gp1 d) (Ad gp2 d)).
  Hypothesis U : cnt l C = 1%nat.
  Hypothesis Rz : 0 < z.
  Hypothesis Rd : 0 <= d.
  Hypothesis Hz : z + d + 64 < B.
  Hypothesis Ra : 0 <= x /\ x + d + 64 < B.
  Hypothesis RT : 0 <= T - 32 /\ T + 32 < B.
  Hypothesis AL : ov64 (z + d) (x + d).
  Hypothesis AT : z + d + 64 <= T - 32 \/ T + 32 <= z + d.
  Lemma neg_step pc g X f m v (Q : Z -> state -> Prop) : at_ C pc blk -> getr g gp1 = z -> getr g gp2 = x -> mapped m (z + d) 8 -> int_at m (x + d) 8 v -> int_at m (T - 32) 8 (cp c * W) ->
    (forall g' f' m', keep gneg g g' -> chg [(z + d, 64)] m m' -> int_at m' (z + d) 8 (dbl_neg c v) -> wp C (pc + Z.of_nat (length blk)) (mkSt g' X f' m') Q) ->
    wp C pc (mkSt g X f m) Q.
  Proof.
    intros A G1 G2 M I IT H. unfold in_FpDbl_neg in A. destruct (at_app _ _ _ _ A) as [A1 A2]. destruct (at_app _ _ _ _ A2) as [A3 A4]. clear A2.
    assert (FD : exists k, fetch C k = Some (Lab l) /\ at_ C (k + 1) (neg_body il T (Ad gp1 d) (Ad gp2 d) ++ [Lab (l + 1)]) /\ k + 1 + Z.of_nat (length (neg_body il T (Ad gp1 d) (Ad gp2 d) ++ [Lab (l + 1)])) = pc + Z.of_nat (length blk)).
    { destruct (at_app _ _ _ _ A4) as [_ B1]. destruct (at_app _ _ _ _ B1) as [_ B2]. destruct (at_app _ _ _ _ B2) as [_ B3]. destruct (at_app _ _ _ _ B3) as [B4 B5]. destruct (at_cons _ _ _ _ B4) as [B6 _].
      eexists. split; [exact B6|]. split; [exact B5|]. unfold in_FpDbl_neg. rewrite !app_length, !Nat2Z.inj_add. clear. cbn [length]. lia. }
    destruct FD as (k & FK & AK & EK). pose proof (cnt1 _ _ _ U FK) as FL. clear A4.
    destruct (int8_split _ _ _ I) as [I1 I2].
    apply (wp_block _ _ _ _ _ A1). unfold neg_test.
    eapply m_load; [reflexivity|apply (isat_ad _ _ _ _ x (x + d)); [reflexivity|exact G2|reflexivity|clear -Ra Rd; lia|clear -Ra; lia]|exact I1|]. intros g1 K1 L1.
    destruct (reg4 _ _ _ _ _ _ L1) as (x0 & x1 & x2 & x3 & _ & _ & _ & _ & W0 & W1 & W2 & W3 & _).
    eapply k_mov; [apply rd_reg; exact W3|]. intros g2 K2 R2.
    eapply k_or; [exact R2|reflexivity|]. intros g3 f3 K3 R3 _.
    eapply k_or; [exact R3|reflexivity|]. intros g4 f4 K4 R4 _.
    eapply k_or; [exact R4|reflexivity|]. intros g5 f5 K5 R5 _.
    assert (K05 : keep gneg g g5) by (refine (keep_incl _ _ _ _ _ (keep_trans _ _ _ _ _ K1 (keep_trans _ _ _ _ _ K2 (keep_trans _ _ _ _ _ K3 (keep_trans _ _ _ _ _ K4 K5))))); intros r; cbn; tauto).
    eapply m_load; [reflexivity|apply (isat_ad _ _ _ _ x (x + d + 32)); [reflexivity|rewrite (K05 gp2 eq_refl); exact G2|clear; lia|clear -Ra Rd; lia|clear -Ra; lia]|exact I2|]. intros g6 K6 L6.
    eapply k_or; [reflexivity|reflexivity|]. intros g7 f7 K7 R7 _.
    eapply k_or; [exact R7|reflexivity|]. intros g8' f8 K8 R8 _.
    eapply k_or; [exact R8|reflexivity|]. intros g9 f9 K9 R9 _.
    eapply k_or; [exact R9|reflexivity|]. intros ga fa Ka Ra' Za.
    assert (K0a : keep gneg g ga) by (refine (keep_incl _ _ _ _ _ (keep_trans _ _ _ _ _ K05 (keep_trans _ _ _ _ _ K6 (keep_trans _ _ _ _ _ K7 (keep_trans _ _ _ _ _ K8 (keep_trans _ _ _ _ _ K9 Ka)))))); intros r; cbn; tauto).
    cbn [wps]. fold (neg_test (Ad gp2 d)).
    destruct (at_cons _ _ _ _ A3) as [FJ _].
    eapply wp_jcc; [exact FJ|exact FL|cbn [holds fl]; rewrite Za; reflexivity| |].
    - intros _. eapply wp_ex; [exact FK|reflexivity|]. destruct (at_app _ _ _ _ AK) as [AB AE]. apply (wp_block _ _ _ _ _ AB). unfold neg_body. cbn [app].
      eapply k_mov; [apply rd_imm; clear -RT; lia|]. intros gb Kb Rb. rewrite <- (app_nil_r (in_Fp_sbbNC _ _ _ _)).
      assert (K0b : keep gneg g gb) by (refine (keep_incl _ _ _ _ _ (keep_trans _ _ _ _ _ K0a Kb)); intros r; cbn; tauto).
      pose proof (K0b gp1 eq_refl) as Gb1. rewrite G1 in Gb1. pose proof (K0b gp2 eq_refl) as Gb2. rewrite G2 in Gb2.
      refine (m_Dbl_subNC il [] gb X fa m _ _ _ _ (z + d) (T - 32) (x + d) (cp c * W) v M IT I _ AL _ _ _ _ _ _ _ _ _ _).
      + unfold ov64. clear -AT. lia.
      + apply (isat_ad _ _ _ _ z); [reflexivity|exact Gb1|reflexivity|clear -Rz Rd; lia|clear -Hz; lia].
      + apply (isat_ad _ _ _ _ (T - 32)); [reflexivity|exact Rb|clear; lia|clear -RT; lia|clear -RT; lia].
      + apply (isat_ad _ _ _ _ x); [reflexivity|exact Gb2|reflexivity|clear -Ra Rd; lia|clear -Ra; lia].
      + apply (isat_ad _ _ _ _ z); [reflexivity|exact Gb1|clear; lia|clear -Rz Rd; lia|clear -Hz; lia].
      + apply (isat_ad _ _ _ _ (T - 32)); [reflexivity|exact Rb|clear; lia|clear -RT; lia|clear -RT; lia].
      + apply (isat_ad _ _ _ _ x); [reflexivity|exact Gb2|clear; lia|clear -Ra Rd; lia|clear -Ra; lia].
      + intros gc fc mc Kc Cc Ic. cbn [wps]. rewrite app_nil_r. destruct (at_cons _ _ _ _ AE) as [FE _]. unfold neg_body in FE. cbn [app] in FE.
        eapply wp_ex; [exact FE|reflexivity|]. rewrite app_length in EK. cbn [length app] in EK. 
        match goal with |- wp C ?a _ _ => replace a with (pc + Z.of_nat (length blk)); [|rewrite <- EK; unfold neg_body; cbn [length app]; clear; lia] end.
        apply H; [|exact Cc|exact Ic]. refine (keep_incl _ _ _ _ _ (keep_trans _ _ _ _ _ K0b Kc)); intros r; cbn; tauto.
    - intros E. exfalso. apply negb_false_iff, Z.eqb_eq in E. apply Z.lor_eq_0_iff in E. destruct E as [_ E].
      assert (K09 : keep gneg g g9) by (refine (keep_incl _ _ _ _ _ (keep_trans _ _ _ _ _ K05 (keep_trans _ _ _ _ _ K6 (keep_trans _ _ _ _ _ K7 (keep_trans _ _ _ _ _ K8 K9))))); intros r; cbn; tauto).
      pose proof (K09 gp1 eq_refl) as E9. rewrite G1 in E9. change (getr g9 gp1 = 0) in E. rewrite E9 in E. clear -E Rz. lia.
  Qed.
End Step.

Section E.
  Variables (c : cfg) (il : bool) (T : Z) (s : state).
  Local Notation g := (rg s).
  Local Notation C1 := (make_FpDbl_neg il T).
  Local Notation C2 := (make_Fp2Dbl_neg il T).
  Lemma pN_at m : p_table c m T -> int_at m (T - 32) 8 (cp c * W).
  Proof.
    intros H. pose proof (H 0 ltac:(lia)) as H0. pose proof (H 1 ltac:(lia)) as H1. rewrite Z.mul_0_l, Z.mod_0_l in H0 by (pose proof W_pos; lia). rewrite Z.mul_1_l, Z.mod_small in H1 by (pose proof (cp_pos c); pose proof (cp_lt_W c); lia).
    rewrite Z.mul_0_r, Z.add_0_r in H0. rewrite Z.mul_1_r in H1. pose proof (int8_join _ _ _ _ H0 H1) as HJ. rewrite Z.add_0_l, (Z.mul_comm W) in HJ. exact HJ.
  Qed.
  Section Args.
  Variable n : nat.
  Hypothesis H0 : rdi g <> 0.
  Hypothesis HP : place 0 s (rdi g) n.
  Hypothesis HX : place 0 s (rsi g) n.
  Hypothesis HA : same_or_apart (rdi g) (rsi g) n.
  Hypothesis HTp : place 0 s (T - 32) 40.
  Hypothesis HTa : apart (rdi g) n (T - 32) 40.
  Lemma neg_args : 0 < rdi g /\ rdi g + 8 * Z.of_nat n < B /\ 0 <= rsi g /\ rsi g + 8 * Z.of_nat n < B /\ 0 <= T - 32 /\ T + 32 < B /\
    (rdi g = rsi g \/ rdi g + 8 * Z.of_nat n <= rsi g \/ rsi g + 8 * Z.of_nat n <= rdi g) /\ (rdi g + 8 * Z.of_nat n <= T - 32 \/ T + 32 <= rdi g).
  Proof.
    destruct HP as [[P1 P2] _]. destruct HX as [[X1 X2] _]. destruct HTp as [[T1 T2] _]. unfold same_or_apart, apart in *. change (8 * Z.of_nat 40) with 320 in *.
    split; [lia|]. split; [exact P2|]. split; [exact X1|]. split; [exact X2|]. split; [exact T1|]. split; [lia|]. split; lia.
  Qed.
  End Args.
  Lemma FpDbl_neg_api x : call1 C1 0 8 8 s -> rdi g <> 0 -> same_or_apart (rdi g) (rsi g) 8 -> p_table c (mem s) T -> place 0 s (T - 32) 40 -> apart (rdi g) 8 (T - 32) 40 ->
    int_at (mem s) (rsi g) 8 x -> calls C1 s (fun s' => int_at (mem s') (rdi g) 8 (dbl_neg c x) /\ only 0 (rdi g) 8 s s').
  Proof.
    intros (Hc & _ & Hz & Hx & Hm) H0 HA PT HTp HTa IX. destruct (neg_args 8 H0 Hz Hx HA HTp HTa) as (Q1 & Q2 & Q3 & Q4 & Q5 & Q6 & Q7 & Q8). change (8 * Z.of_nat 8) with 64 in *.
    apply (leaf_ret C1 gneg (rdi g) 8 s (fun m => int_at m (rdi g) 8 (dbl_neg c x)) Hc Hz eq_refl eq_refl). intros Q H.
    destruct (at_cons _ _ _ _ (at_self C1)) as [F0 AB]. destruct (at_app _ _ _ _ AB) as [A1 AE]. destruct (at_cons _ _ _ _ AE) as [FR _].
    destruct s as [g0 X0 f0 m0]. cbn [rg mem] in *. eapply wp_ex; [exact F0|reflexivity|]. cbn [rg xm fl mem].
    assert (K1 : keep [R9] g0 (setr g0 R9 (rdx g0))) by apply keep_setr.
    refine (neg_step c il T C1 1 (rdi g0) (rsi g0) 0 _ Q1 ltac:(lia) ltac:(lia) ltac:(lia) ltac:(lia) _ _ _ _ _ _ m0 x Q A1 _ _ _ _ (pN_at _ PT) _).
    - destruct il; vm_compute; reflexivity.
    - unfold ov64. clear -Q7. lia.
    - clear -Q8. lia.
    - exact (K1 gp1 eq_refl).
    - exact (K1 gp2 eq_refl).
    - rewrite Z.add_0_r. exact Hm.
    - rewrite Z.add_0_r. exact IX.
    - intros g2 f2 m2 K2 C2 I2. rewrite Z.add_0_r in C2, I2. apply H; [exact FR| |exact C2|exact I2]. refine (keep_incl _ _ _ _ _ (keep_trans _ _ _ _ _ K1 K2)); intros r; cbn; tauto.
  Qed.
  Lemma Fp2Dbl_neg_api x : call1 C2 0 16 16 s -> rdi g <> 0 -> same_or_apart (rdi g) (rsi g) 16 -> p_table c (mem s) T -> place 0 s (T - 32) 40 -> apart (rdi g) 16 (T - 32) 40 ->
    pair 8 (mem s) (rsi g) x -> calls C2 s (fun s' => pair 8 (mem s') (rdi g) (mk2 (dbl_neg c (a2 x)) (dbl_neg c (b2 x))) /\ only 0 (rdi g) 16 s s').
  Proof.
    intros (Hc & _ & Hz & Hx & Hm) H0 HA PT HTp HTa [IX IY]. destruct (neg_args 16 H0 Hz Hx HA HTp HTa) as (Q1 & Q2 & Q3 & Q4 & Q5 & Q6 & Q7 & Q8). change (8 * Z.of_nat 8) with 64 in *. change (8 * Z.of_nat 16) with 128 in *.
    apply (leaf_ret C2 gneg (rdi g) 16 s (fun m => pair 8 m (rdi g) (mk2 (dbl_neg c (a2 x)) (dbl_neg c (b2 x)))) Hc Hz eq_refl eq_refl). intros Q H.
    destruct (at_cons _ _ _ _ (at_self C2)) as [F0 AB]. destruct (at_app _ _ _ _ AB) as [A12 AE]. destruct (at_cons _ _ _ _ AE) as [FR _]. destruct (at_app _ _ _ _ A12) as [A1 A2].
    destruct s as [g0 X0 f0 m0]. cbn [rg mem] in *. eapply wp_ex; [exact F0|reflexivity|]. cbn [rg xm fl mem].
    assert (K1 : keep [R9] g0 (setr g0 R9 (rdx g0))) by apply keep_setr. destruct (proj1 (mapped_app m0 (rdi g0) 8 8) Hm) as [M1 M2]. change (8 * Z.of_nat 8) with 64 in M2.
    refine (neg_step c il T C2 1 (rdi g0) (rsi g0) 0 _ Q1 ltac:(lia) ltac:(lia) ltac:(lia) ltac:(lia) _ _ _ _ _ _ m0 (a2 x) Q A1 _ _ _ _ (pN_at _ PT) _).
    - destruct il; vm_compute; reflexivity.
    - unfold ov64. clear -Q7. lia.
    - clear -Q8. lia.
    - exact (K1 gp1 eq_refl).
    - exact (K1 gp2 eq_refl).
    - rewrite Z.add_0_r. exact M1.
    - rewrite Z.add_0_r. exact IX.
    - intros g2 f2 m2 K2 C2' I2. rewrite Z.add_0_r in C2', I2.
      refine (neg_step c il T C2 3 (rdi g0) (rsi g0) 64 _ Q1 ltac:(lia) ltac:(lia) ltac:(lia) ltac:(lia) _ _ _ _ _ _ m2 (b2 x) Q A2 _ _ _ _ _ _).
      + destruct il; vm_compute; reflexivity.
      + unfold ov64. clear -Q7. lia.
      + clear -Q8. lia.
      + rewrite (K2 gp1 eq_refl). exact (K1 gp1 eq_refl).
      + rewrite (K2 gp2 eq_refl). exact (K1 gp2 eq_refl).
      + exact (chg_mapped _ _ _ _ _ C2' M2).
      + refine (int_at_chg _ _ _ _ _ _ C2' _ IY). constructor; [|constructor]. unfold clear_of. cbn [fst snd]. clear -Q7. lia.
      + refine (int_at_chg _ _ _ _ _ _ C2' _ (pN_at _ PT)). constructor; [|constructor]. unfold clear_of. cbn [fst snd]. clear -Q8. lia.
      + intros g3 f3 m3 K3 C3 I3. assert (CA : chg [(rdi g0, 128)] m0 m3).
        { refine (chg_sub _ _ _ _ _ (chg_trans _ _ _ _ _ C2' C3)). intros b Hb. apply off1 in Hb. cbn [app]. apply off2. clear -Hb. lia. }
        apply H; [|refine (keep_incl _ _ _ _ _ (keep_trans _ _ _ _ _ K1 (keep_trans _ _ _ _ _ K2 K3))); intros r; cbn; tauto|exact CA|].
        * rewrite app_length, Nat2Z.inj_add, Z.add_assoc in FR. exact FR.
        * split; [|exact I3]. cbn [a2]. refine (int_at_chg _ _ _ _ _ _ C3 _ I2). constructor; [|constructor]. unfold clear_of. cbn [fst snd]. clear. lia.
  Qed.
End E.

Section End.
  Variables (c : cfg) (il : bool) (T : Z) (s : state).
  Local Notation g := (rg s).
  Lemma dbl_neg_full x : 0 <= x < cp c * W -> 0 <= dbl_neg c x <= cp c * W /\ dv c (dbl_neg c x) = fopp (dv c x) /\ (dbl_neg c x = cp c * W <-> x = 0).
  Proof.
    intros H. destruct (dbl_neg_ok c x H) as [H1 H2]. split; [exact H1|]. split; [exact H2|]. pose proof (cp_lt_W c). pose proof (cp_pos c). pose proof W_pos. unfold dbl_neg, pN, W2. rewrite Z.mod_small by nia. lia.
  Qed.
  Lemma FpDbl_neg_end x : call1 (make_FpDbl_neg il T) 0 8 8 s -> rdi g <> 0 -> same_or_apart (rdi g) (rsi g) 8 -> p_table c (mem s) T -> place 0 s (T - 32) 40 -> apart (rdi g) 8 (T - 32) 40 ->
    int_at (mem s) (rsi g) 8 x -> 0 <= x < cp c * W ->
    calls (make_FpDbl_neg il T) s (fun s' => (exists z, int_at (mem s') (rdi g) 8 z /\ 0 <= z <= cp c * W /\ dv c z = fopp (dv c x) /\ (z = cp c * W <-> x = 0)) /\ only 0 (rdi g) 8 s s').
  Proof.
    intros H1 H2 H3 H4 H5 H6 H7 H8. eapply calls_mono; [exact (FpDbl_neg_api c il T s x H1 H2 H3 H4 H5 H6 H7)|]. intros s' [A O]. split; [|exact O]. exists (dbl_neg c x). split; [exact A|exact (dbl_neg_full x H8)].
  Qed.
  Lemma Fp2Dbl_neg_end x : call1 (make_Fp2Dbl_neg il T) 0 16 16 s -> rdi g <> 0 -> same_or_apart (rdi g) (rsi g) 16 -> p_table c (mem s) T -> place 0 s (T - 32) 40 -> apart (rdi g) 16 (T - 32) 40 ->
    pair 8 (mem s) (rsi g) x -> 0 <= a2 x < cp c * W -> 0 <= b2 x < cp c * W ->
    calls (make_Fp2Dbl_neg il T) s (leaves 0 8 (fun z => (0 <= a2 z <= cp c * W /\ dv c (a2 z) = fopp (dv c (a2 x)) /\ (a2 z = cp c * W <-> a2 x = 0)) /\
      (0 <= b2 z <= cp c * W /\ dv c (b2 z) = fopp (dv c (b2 x)) /\ (b2 z = cp c * W <-> b2 x = 0))) s).
  Proof.
    intros H1 H2 H3 H4 H5 H6 H7 H8 H9. eapply calls_mono; [exact (Fp2Dbl_neg_api c il T s x H1 H2 H3 H4 H5 H6 H7)|]. intros s' [A O]. split; [|exact O]. exists (mk2 (dbl_neg c (a2 x)) (dbl_neg c (b2 x))). split; [exact A|]. split; [exact (dbl_neg_full _ H8)|exact (dbl_neg_full _ H9)].
  Qed.
End End.
Lemma neg_some c il : exists x, 0 < a2 x < cp c * W /\ b2 x = 0 /\ let s := ex2 c 12288 8 x x in
  call1 (make_FpDbl_neg il ex_T) 0 8 8 s /\ call1 (make_Fp2Dbl_neg il ex_T) 0 16 16 s /\ rdi (rg s) <> 0 /\ same_or_apart (rdi (rg s)) (rsi (rg s)) 16 /\ same_or_apart (rdi (rg s)) (rsi (rg s)) 8 /\
  p_table c (mem s) ex_T /\ place 0 s (ex_T - 32) 40 /\ apart (rdi (rg s)) 8 (ex_T - 32) 40 /\ apart (rdi (rg s)) 16 (ex_T - 32) 40 /\ int_at (mem s) (rsi (rg s)) 8 (a2 x) /\ pair 8 (mem s) (rsi (rg s)) x.
Proof.
  exists (mk2 (cp c * W - 1) 0). pose proof (cp_pos c) as PP. pose proof W_pos as WP. pose proof (cp_lt_W c) as PW.
  assert (R1 : 1 < cp c * W < W * W) by (assert (1 * W < W * W) by (apply Z.mul_lt_mono_pos_r; lia); assert (1 * W <= cp c * W) by (apply Z.mul_le_mono_nonneg_r; lia); assert (cp c * W < W * W) by (apply Z.mul_lt_mono_pos_r; lia); lia).
  assert (Ho : 12288 = 4096 \/ 12288 = 12288) by (right; reflexivity). assert (Hw : (8 = 4 \/ 8 = 8)%nat) by (right; reflexivity).
  set (x := mk2 (cp c * W - 1) 0 : F2 Z). split; [cbn [a2 x]; lia|]. split; [reflexivity|]. intros s.
  pose proof (ex2_call1 c 12288 8 x x Ho Hw) as C1. change (Z.of_nat 8) with 8 in C1. fold s in C1.
  assert (PX : pair 8 (mem s) (rsi (rg s)) x).
  { apply (ex2_x c 12288 8 x x Hw); replace (B ^ Z.of_nat 8) with (W * W) by (rewrite W_val, B_val; reflexivity); cbn [a2 b2 x]; lia. }
  split; [apply C1; [apply Z.leb_le; destruct il; reflexivity|lia|lia|lia]|]. split; [apply C1; [apply Z.leb_le; destruct il; reflexivity|lia|lia|lia]|].
  split; [discriminate|]. unfold same_or_apart, apart, ex_T. change (rdi (rg s)) with 12288. change (rsi (rg s)) with 4096 at 1 2 3 4 5 6. 
  change (8 * Z.of_nat 16) with 128. change (8 * Z.of_nat 8) with 64. change (8 * Z.of_nat 40) with 320.
  split; [right; lia|]. split; [right; lia|]. split; [exact (ex2_ptab c 12288 8 x x Hw)|]. split; [apply (ex2_place c 12288 8 x x); lia|].
  split; [lia|]. split; [lia|]. split; [exact (proj1 PX)|exact PX].
Qed.
