(** The blocks of Fp::preInv's machine code. *)
From Coq Require Import ZArith List Bool Lia.
From Verif Require Import Base Prim Primes FpSpec Cfg X64 XLog JitSpec XTac XReg JitFp JitMac JitMac2 JitFrame JitFpApi2 JitInv.
Import ListNotations.
Local Open Scope Z_scope.

(** ** Additions to a word in memory *)
Section OneM.
  Variables (l : code) (g : regs) (x : xregs) (f : flags) (m : memory) (Q : state -> Prop).
  Lemma k_addm a s k w v : ea g a = k -> m k = Some w -> getr g s = v -> isU w -> isU v ->
    (forall z b f', isU z -> EQ (z + B * Z.b2z b) (w + v) -> cf f' = Some b -> wps l (mkSt g x f' (mset m k z)) Q) ->
    wps (Add (M a) (R s) :: l) (mkSt g x f m) Q.
  Proof.
    intros <- E <- H1 H2 H. unfold isU, EQ in *. pose proof B_pos. eexists. split.
    - cbn [ex1]. unfold bin. cbn [rd mem rg]. rewrite E. cbn [wr mem rg xm]. rewrite E. reflexivity.
    - apply (H _ (B <=? w + getr g s)); [apply Z.mod_pos_bound; assumption| |reflexivity].
      rewrite Z.mod_eq by lia. destruct (Z.leb_spec B (w + getr g s)); cbn [Z.b2z].
      + replace ((w + getr g s) / B) with 1; [lia|]. apply (Z.div_unique _ _ _ (w + getr g s - B)); lia.
      + rewrite Z.div_small; lia.
  Qed.
  Lemma k_adcm a s k w v c : ea g a = k -> m k = Some w -> getr g s = v -> cf f = Some c -> isU w -> isU v ->
    (forall z b f', isU z -> EQ (z + B * Z.b2z b) (w + v + Z.b2z c) -> cf f' = Some b -> wps l (mkSt g x f' (mset m k z)) Q) ->
    wps (Adc (M a) (R s) :: l) (mkSt g x f m) Q.
  Proof.
    intros <- E <- Ec H1 H2 H. unfold isU, EQ in *. pose proof B_pos.
    assert (Hc : 0 <= Z.b2z c <= 1) by (destruct c; cbn; lia). eexists. split.
    - cbn [ex1]. unfold withc. cbn [fl]. rewrite Ec. unfold bin. cbn [rd mem rg]. rewrite E. cbn [wr mem rg xm]. rewrite E. reflexivity.
    - apply (H _ (B <=? w + getr g s + Z.b2z c)); [apply Z.mod_pos_bound; assumption| |reflexivity].
      rewrite Z.mod_eq by lia. destruct (Z.leb_spec B (w + getr g s + Z.b2z c)); cbn [Z.b2z].
      + replace ((w + getr g s + Z.b2z c) / B) with 1; [lia|]. apply (Z.div_unique _ _ _ (w + getr g s + Z.b2z c - B)); lia.
      + rewrite Z.div_small; lia.
  Qed.
  Lemma k_test1 d a : getr g d = a ->
    (forall f', zf f' = Some (a mod 2 =? 0) -> wps l (mkSt g x f' m) Q) -> wps (Test (R d) (Im 1) :: l) (mkSt g x f m) Q.
  Proof.
    intros <- H. eexists. split; [cbn [ex1]; unfold bin; cbn [rd rg]; reflexivity|]. cbn [xm mem rg]. apply H. cbn [flog zf].
    replace (1 mod B) with 1 by (rewrite B_val; reflexivity). change 1 with (Z.ones 1). rewrite Z.land_ones by lia. reflexivity.
  Qed.
  Lemma k_paddd k : getx x X4 = k -> getx x X5 = 1 -> 0 <= k < 2 ^ 31 ->
    (forall x', getx x' X4 = k + 1 -> getx x' X5 = 1 -> wps l (mkSt g x' f m) Q) -> wps (Paddd X4 X5 :: l) (mkSt g x f m) Q.
  Proof.
    intros E4 E5 Hk H. eexists. split; [reflexivity|]. cbn [rg xm fl mem]. rewrite E4, E5. apply H.
    - assert (EX : getx (setx x X4 (lanes k 1)) X4 = lanes k 1) by (destruct x; reflexivity). rewrite EX. unfold lanes. rewrite !(Z.mod_small k), !(Z.div_small k) by lia.
      change (1 / 2 ^ 32) with 0. change (1 mod 2 ^ 32) with 1. rewrite Z.mod_small by lia. change ((0 + 0) mod 2 ^ 32) with 0. lia.
    - rewrite <- E5. destruct x. reflexivity.
  Qed.
End OneM.

(** ** Four registers *)
Lemma m_sub_rr k g X f m Q z3 z2 z1 z0 x3 x2 x1 x0 x y : nodup [z3; z2; z1; z0; x3; x2; x1; x0] = true ->
  regn g [z0; z1; z2; z3] x -> regn g [x0; x1; x2; x3] y ->
  (forall g' f', keep [z3; z2; z1; z0] g g' -> regn g' [z0; z1; z2; z3] ((x - y) mod W) -> cf f' = Some (x - y <? 0) -> wps k (mkSt g' X f' m) Q) ->
  wps (sub_rr z3 z2 z1 z0 x3 x2 x1 x0 ++ k) (mkSt g X f m) Q.
Proof.
  intros D Hx Hy H. nd D. destruct (reg4 _ _ _ _ _ _ Hx) as (a0 & a1 & a2 & a3 & S0 & S1 & S2 & S3 & F0 & F1 & F2 & F3 & V).
  destruct (reg4 _ _ _ _ _ _ Hy) as (b0 & b1 & b2 & b3 & S0' & S1' & S2' & S3' & F0' & F1' & F2' & F3' & V').
  unfold sub_rr. cbn [app]. do 4 ks.
  destruct (sub4 a0 a1 a2 a3 b0 b1 b2 b3 0 z z4 z5 z6 k0 k1 k2 k3) as [R1 R2]; try asm; [rewrite Z.sub_0_r; asm|].
  rewrite Z.sub_0_r, V, V' in R1, R2. subst k3. eapply H; [kp| |asm]. mkr. exact R1.
Qed.
Lemma m_shl1 k g X f m Q z3 z2 z1 z0 x : nodup [z3; z2; z1; z0] = true -> regn g [z0; z1; z2; z3] x ->
  (forall g' f', keep [z3; z2; z1; z0] g g' -> regn g' [z0; z1; z2; z3] ((x + x) mod W) -> wps k (mkSt g' X f' m) Q) ->
  wps (shl1 z3 z2 z1 z0 ++ k) (mkSt g X f m) Q.
Proof.
  intros D Hx H. nd D. destruct (reg4 _ _ _ _ _ _ Hx) as (a0 & a1 & a2 & a3 & S0 & S1 & S2 & S3 & F0 & F1 & F2 & F3 & V).
  unfold shl1, add_rr. cbn [app]. do 4 ks.
  destruct (add4 a0 a1 a2 a3 a0 a1 a2 a3 0 z z4 z5 z6 k0 k1 k2 k3) as [R1 R2]; try asm; [rewrite Z.add_0_r; asm|].
  rewrite Z.add_0_r, V in R1. eapply H; [kp|]. mkr. exact R1.
Qed.
Lemma m_shr1 k g X f m Q z3 z2 z1 z0 x : nodup [z3; z2; z1; z0] = true -> regn g [z0; z1; z2; z3] x ->
  (forall g' f', keep [z3; z2; z1; z0] g g' -> regn g' [z0; z1; z2; z3] (x / 2) -> wps k (mkSt g' X f' m) Q) ->
  wps (shr1 z3 z2 z1 z0 ++ k) (mkSt g X f m) Q.
Proof.
  intros D Hx H. nd D. destruct (reg4 _ _ _ _ _ _ Hx) as (a0 & a1 & a2 & a3 & S0 & S1 & S2 & S3 & F0 & F1 & F2 & F3 & V).
  unfold shr1, shrn. cbn [app].
  eapply k_shrd; [gr|gr|]. intros g2 f2 K2 R2. eapply k_shrd; [gr|gr|]. intros g3 f3 K3 R3.
  eapply k_shrd; [gr|gr|]. intros g4 f4 K4 R4. eapply k_shr; [gr|]. intros g5 f5 K5 R5.
  destruct (shr_val 1 a0 a1 a2 a3 ltac:(lia) S0 S1 S2 S3) as (Y0 & Y1 & Y2 & Y3 & E). rewrite V in E. change (2 ^ 1) with 2 in *.
  eapply H; [kp|]. eapply reg4_mk; [exact Y0|exact Y1|exact Y2|exact Y3|gr|gr|gr|gr|exact E].
Qed.

(** ** The four words of r: two on the stack, rax, rdi *)
Definition rat (g : regs) (m : memory) (sp r : Z) : Prop :=
  exists r0 r1 r2 r3, (isU r0 /\ isU r1 /\ isU r2 /\ isU r3) /\ m sp = Some r0 /\ m (sp + 8) = Some r1 /\
  getr g RAX = r2 /\ getr g RDI = r3 /\ lv [r0; r1; r2; r3] = r.
Lemma rat_keep l g g' m sp r : keep l g g' -> inb RAX l = false -> inb RDI l = false -> rat g m sp r -> rat g' m sp r.
Proof.
  intros K E1 E2 (r0 & r1 & r2 & r3 & U & M0 & M1 & G2 & G3 & V). exists r0, r1, r2, r3. rewrite (K _ E1), (K _ E2). auto 10.
Qed.
Section Rat.
  Variables (k : code) (g : regs) (X : xregs) (f : flags) (m : memory) (Q : state -> Prop) (sp r s : Z).
  Hypothesis HR : rat g m sp r.
  Hypothesis HP : getr g RSP = sp.
  Hypothesis H0 : 0 <= sp.
  Hypothesis H1 : sp + 32 <= B.
  Lemma ea0 g' : getr g' RSP = sp -> ea g' (Ad RSP 0) = sp.
  Proof using H0 H1. intros E. eapply ea_ad; [exact E|clear -H0 H1; lia|apply Z.add_0_r]. Qed.
  Lemma ea8 g' : getr g' RSP = sp -> ea g' (Ad RSP 8) = sp + 8.
  Proof using H0 H1. intros E. eapply ea_ad; [exact E|clear -H0 H1; lia|reflexivity]. Qed.
  Lemma ea16 g' : getr g' RSP = sp -> ea g' (Ad RSP 16) = sp + 16.
  Proof using H0 H1. intros E. eapply ea_ad; [exact E|clear -H0 H1; lia|reflexivity]. Qed.
  (** s += r *)
  Lemma m_sr : regn g [gt7; gt8; gt9; gt10] s ->
    (forall g' f', keep [gt7; gt8; gt9; gt10] g g' -> regn g' [gt7; gt8; gt9; gt10] ((s + r) mod W) -> wps k (mkSt g' X f' m) Q) ->
    wps (inv_sr ++ k) (mkSt g X f m) Q.
  Proof using HR HP H0 H1.
    intros Hs H. destruct HR as (r0 & r1 & r2 & r3 & (U0 & U1 & U2 & U3) & M0 & M1 & G2 & G3 & V).
    destruct (reg4 _ _ _ _ _ _ Hs) as (a0 & a1 & a2 & a3 & S0 & S1 & S2 & S3 & F0 & F1 & F2 & F3 & V').
    unfold inv_sr. cbn [app].
    eapply k_add; [gr|eapply rd_mem; [apply ea0; gr|exact M0]|asm|asm|]. intros z k0 g1 f1 ? ? ? ? ?.
    eapply k_adc; [gr|eapply rd_mem; [apply ea8; gr|exact M1]|asm|asm|asm|]. intros z1 k1 g2 f2 ? ? ? ? ?.
    eapply k_adc; [gr|apply rd_reg; gr|asm|asm|asm|]. intros z2 k2 g3 f3 ? ? ? ? ?.
    eapply k_adc; [gr|apply rd_reg; gr|asm|asm|asm|]. intros z3 k3 g4 f4 ? ? ? ? ?.
    destruct (add4 a0 a1 a2 a3 r0 r1 r2 r3 0 z z1 z2 z3 k0 k1 k2 k3) as [R1 _]; try asm; [rewrite Z.add_0_r; asm|].
    rewrite Z.add_0_r, V, V' in R1. eapply H; [kpc|]. mkr. exact R1.
  Qed.
  Lemma chg16 a b w0 w1 : m sp = Some w0 -> m (sp + 8) = Some w1 -> chg [(sp, 16)] m (mset (mset m sp a) (sp + 8) b).
  Proof using.
    intros E0 E1. assert (E1' : mset m sp a (sp + 8) = Some w1) by (rewrite mset_ne by (clear; lia); exact E1).
    refine (chg_sub _ _ _ _ _ (chg_trans _ _ _ _ _ (chg_mset m sp a _ E0) (chg_mset _ (sp + 8) b _ E1'))).
    intros b' Hb. apply off1 in Hb. cbn [app]. apply off2. clear -Hb. lia.
  Qed.
  (** r += s *)
  Lemma m_rs : regn g [gt7; gt8; gt9; gt10] s ->
    (forall g' f' m', keep [RAX; RDI] g g' -> chg [(sp, 16)] m m' -> rat g' m' sp ((r + s) mod W) -> wps k (mkSt g' X f' m') Q) ->
    wps ([Add (M (Ad RSP 0)) (R gt7); Adc (M (Ad RSP 8)) (R gt8); Adc (R RAX) (R gt9); Adc (R gp1) (R gt10)] ++ k) (mkSt g X f m) Q.
  Proof using HR HP H0 H1.
    intros Hs H. destruct HR as (r0 & r1 & r2 & r3 & (U0 & U1 & U2 & U3) & M0 & M1 & G2 & G3 & V).
    destruct (reg4 _ _ _ _ _ _ Hs) as (a0 & a1 & a2 & a3 & S0 & S1 & S2 & S3 & F0 & F1 & F2 & F3 & V'). cbn [app].
    eapply k_addm; [apply ea0; gr|exact M0|gr|asm|asm|]. intros z k0 f1 ? ? ?.
    eapply k_adcm; [apply ea8; gr|rewrite mset_ne by (clear; lia); exact M1|gr|asm|asm|asm|]. intros z1 k1 f2 ? ? ?.
    eapply k_adc; [gr|apply rd_reg; gr|asm|asm|asm|]. intros z2 k2 g3 f3 ? ? ? ? ?.
    eapply k_adc; [gr|apply rd_reg; gr|asm|asm|asm|]. intros z3 k3 g4 f4 ? ? ? ? ?.
    destruct (add4 r0 r1 r2 r3 a0 a1 a2 a3 0 z z1 z2 z3 k0 k1 k2 k3) as [R1 _]; try asm; [rewrite Z.add_0_r; asm|].
    rewrite Z.add_0_r, V, V' in R1. eapply H; [kpc|exact (chg16 _ _ _ _ M0 M1)|].
    exists z, z1, z2, z3. split; [split; [asm|split; [asm|split; asm]]|]. split; [rewrite mset_ne by (clear; lia); apply mset_eq; reflexivity|].
    split; [apply mset_eq; reflexivity|]. split; [gr|]. split; [gr|exact R1].
  Qed.
  (** r += r *)
  Lemma m_rr :
    (forall g' f' m', keep [RDX; RAX; RDI] g g' -> chg [(sp, 16)] m m' -> rat g' m' sp ((r + r) mod W) -> wps k (mkSt g' X f' m') Q) ->
    wps ([Mov (R RDX) (M (Ad RSP 0)); Add (M (Ad RSP 0)) (R RDX); Mov (R RDX) (M (Ad RSP 8)); Adc (M (Ad RSP 8)) (R RDX);
      Adc (R RAX) (R RAX); Adc (R gp1) (R gp1)] ++ k) (mkSt g X f m) Q.
  Proof using HR HP H0 H1.
    intros H. destruct HR as (r0 & r1 & r2 & r3 & (U0 & U1 & U2 & U3) & M0 & M1 & G2 & G3 & V). cbn [app].
    eapply k_mov; [eapply rd_mem; [apply ea0; gr|exact M0]|]. intros g1 K1 R1.
    eapply k_addm; [apply ea0; gr|exact M0|gr|asm|asm|]. intros z k0 f1 ? ? ?.
    assert (M1' : mset m sp z (sp + 8) = Some r1) by (rewrite mset_ne by (clear; lia); exact M1).
    eapply k_mov; [eapply rd_mem; [apply ea8; gr|exact M1']|]. intros g2 K2 R2.
    eapply k_adcm; [apply ea8; gr|exact M1'|gr|asm|asm|asm|]. intros z1 k1 f2 ? ? ?.
    eapply k_adc; [gr|apply rd_reg; gr|asm|asm|asm|]. intros z2 k2 g3 f3 ? ? ? ? ?.
    eapply k_adc; [gr|apply rd_reg; gr|asm|asm|asm|]. intros z3 k3 g4 f4 ? ? ? ? ?.
    destruct (add4 r0 r1 r2 r3 r0 r1 r2 r3 0 z z1 z2 z3 k0 k1 k2 k3) as [RR _]; try asm; [rewrite Z.add_0_r; asm|].
    rewrite Z.add_0_r, V in RR. eapply H; [kpc|exact (chg16 _ _ _ _ M0 M1)|].
    exists z, z1, z2, z3. split; [split; [asm|split; [asm|split; asm]]|]. split; [rewrite mset_ne by (clear; lia); apply mset_eq; reflexivity|].
    split; [apply mset_eq; reflexivity|]. split; [gr|]. split; [gr|exact RR].
  Qed.
  (** s -= r *)
  Lemma m_sr_sub : regn g [gt7; gt8; gt9; gt10] s ->
    (forall g' f', keep [gt7; gt8; gt9; gt10] g g' -> regn g' [gt7; gt8; gt9; gt10] ((s - r) mod W) -> wps k (mkSt g' X f' m) Q) ->
    wps ([Sub (R gt7) (M (Ad RSP 0)); Sbb (R gt8) (M (Ad RSP 8)); Sbb (R gt9) (R RAX); Sbb (R gt10) (R gp1)] ++ k) (mkSt g X f m) Q.
  Proof using HR HP H0 H1.
    intros Hs H. destruct HR as (r0 & r1 & r2 & r3 & (U0 & U1 & U2 & U3) & M0 & M1 & G2 & G3 & V).
    destruct (reg4 _ _ _ _ _ _ Hs) as (a0 & a1 & a2 & a3 & S0 & S1 & S2 & S3 & F0 & F1 & F2 & F3 & V'). cbn [app].
    eapply k_sub; [gr|eapply rd_mem; [apply ea0; gr|exact M0]|asm|asm|]. intros z k0 g1 f1 ? ? ? ? ?.
    eapply k_sbb; [gr|eapply rd_mem; [apply ea8; gr|exact M1]|asm|asm|asm|]. intros z1 k1 g2 f2 ? ? ? ? ?.
    eapply k_sbb; [gr|apply rd_reg; gr|asm|asm|asm|]. intros z2 k2 g3 f3 ? ? ? ? ?.
    eapply k_sbb; [gr|apply rd_reg; gr|asm|asm|asm|]. intros z3 k3 g4 f4 ? ? ? ? ?.
    destruct (sub4 a0 a1 a2 a3 r0 r1 r2 r3 0 z z1 z2 z3 k0 k1 k2 k3) as [R1 _]; try asm; [rewrite Z.sub_0_r; asm|].
    rewrite Z.sub_0_r, V, V' in R1. eapply H; [kpc|]. mkr. exact R1.
  Qed.
End Rat.
