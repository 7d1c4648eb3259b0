(** The subroutines of Compress::square_n: what a call of each does. *)
From Coq Require Import ZArith List Bool Lia.
From Verif Require Import X64 XLog JitSpec JitFpSpec XTac XReg JitFp JitMac JitMac2 JitMul JitMont JitMul4 JitMod JitFrame JitFpApi JitFpApi2 JitFp2 JitFp2Spec JitFp2Mac JitFp2Mac2 JitFp2Api JitFp2Api2 JitSym JitSub JitLib JitFp6 JitFp6Sub JitFp6Mul JitLine JitRep JitLineSub JitTop2 JitLineApi JitCmp.
From Verif Require Import Base Prim Primes FpSpec Cfg FpM TowerSpec TowerM FinalM.
Import ListNotations.
Local Open Scope Z_scope.
Local Notation find := X64.find.
Local Notation length := List.length.

Definition gfa : list reg := [RAX; RDX; gt4; gt3; gt2; gt1; gt7; gt6; gt5; gp3].
Definition gfb : list reg := [RAX; RDX; gt4; gt3; gt2; gt1; gt5; gp3; gp2; gp1].
Lemma top3 x0 x1 x2 x3 : isU x0 -> isU x1 -> isU x2 -> isU x3 -> x3 / 2 ^ 61 = lv [x0; x1; x2; x3] / 2 ^ 253.
Proof.
  unfold isU. intros H0 H1 H2 H3. cbn [lv]. rewrite Z.mul_0_r, Z.add_0_r. replace (2 ^ 253) with (B * (B * (B * 2 ^ 61))) by (rewrite B_val; reflexivity).
  rewrite <- !Z.div_div by (rewrite ?B_val; first [reflexivity|discriminate]).
  assert (E : forall u v, 0 <= u < B -> (u + B * v) / B = v) by (intros u v Hu; rewrite (Z.mul_comm B v), Z.div_add by (rewrite B_val; discriminate); rewrite (Z.div_small _ _ Hu); reflexivity).
  rewrite (E x0 _ H0), (E x1 _ H1), (E x2 _ H2). reflexivity.
Qed.
Section Fast.
  Ltac ni ::= nic.
  Ltac kp ::= kpc.
  Variables (c : cfg) (T : Z) (k : code) (g : regs) (X : xregs) (f : flags) (m : memory) (Q : state -> Prop) (x : Z).
  Hypothesis HP : p_table c m T.
  Hypothesis TU : 32 <= T /\ T + 288 <= B.
  Hypothesis Hx : regn g [gt1; gt2; gt3; gt4] x.
  Ltac go t3 t2 t1 t0 :=
    let H := fresh "H" in intros H;
    assert (MT : modulus c m T) by (apply p_table_mod; [clear -TU; lia|clear -TU; lia|exact HP]); destruct MT as (HT & TR1 & TR2);
    destruct (reg4 _ _ _ _ _ _ Hx) as (x0 & x1 & x2 & x3 & S0 & S1 & S2 & S3 & F0 & F1 & F2 & F3 & V);
    pose proof (top3 x0 x1 x2 x3 S0 S1 S2 S3) as ET; rewrite V in ET;
    assert (Hq : 0 <= x3 / 2 ^ 61 <= 7) by (unfold isU in S3; rewrite B_val in S3; split; [apply Z.div_pos; [apply S3|reflexivity]|]; apply Z.lt_succ_r, Z.div_lt_upper_bound; [reflexivity|]; change (2 ^ 61 * Z.succ 7) with 18446744073709551616; clear -S3; lia);
    unfold fast_modp; rewrite <- !app_assoc; cbn [app];
    eapply k_mov; [apply rd_reg; exact F3|]; intros g1 K1 L1;
    eapply k_shr; [exact L1|]; intros g2 f2 K2 L2;
    eapply k_shl; [exact L2|]; intros g3 f3 K3 L3; rewrite Z.mod_small in L3 by (rewrite B_val; clear -Hq; lia);
    eapply k_mov; [apply rd_imm; clear -TU; lia|]; intros g4' K4 L4;
    set (q := x3 / 2 ^ 61) in *;
    pose proof (HP q ltac:(clear -Hq; lia)) as HPq;
    eapply (m_sub_rm _ _ _ _ _ _ gt4 gt3 gt2 gt1 eq_refl _ (T - 32 + 32 * q)); [| |exact HPq|];
    [ intros g' i K Hi; cbn [plus ea]; rewrite (K RAX eq_refl), (K RDX eq_refl), L4, (K4 RDX eq_refl), L3; rewrite Z.mod_small; [clear; lia|clear -Hq TU Hi; lia]
    | eapply regn_keep; [exact K4|nic|]; eapply regn_keep; [exact K3|nic|]; eapply regn_keep; [exact K2|nic|]; eapply regn_keep; [exact K1|nic|exact Hx] | ];
    intros g5 f5 K5 L5 C5;
    cbn [app]; eapply k_sbb_self; [exact C5|]; intros g6 f6 K6 L6;
    eapply (m_load _ _ _ _ _ _ t3 t2 t1 t0 eq_refl _ T (cp c)); [apply (isat_ad _ _ _ _ (T - 32)); [reflexivity|gr|clear; lia|clear -TU; lia|clear -TU; lia]|exact HT|];
    intros g7 K7 L7; destruct (reg4 _ _ _ _ _ _ L7) as (p0 & p1 & p2 & p3 & P0 & P1 & P2 & P3 & M0 & M1 & M2 & M3 & VP);
    destruct (reg4 _ _ _ _ _ _ L5) as (y0 & y1 & y2 & y3 & R0 & R1 & R2 & R3 & G0 & G1 & G2 & G3 & V');
    cbn [app];
    set (b := x - (q * cp c) mod W <? 0) in *;
    assert (LM : forall v, isU v -> Z.land v (if b then B - 1 else 0) = if b then v else 0) by (intros v Hv; rewrite Z.land_comm; apply land_mask; exact Hv);
    (eapply k_and; [gr|apply rd_reg; gr|]; rewrite LM by asm; intros g9 f9 K9 L9 _);
    (eapply k_and; [gr|apply rd_reg; gr|]; rewrite LM by asm; intros g10 f10 K10 L10 _);
    (eapply k_and; [gr|apply rd_reg; gr|]; rewrite LM by asm; intros g11 f11 K11 L11 _);
    (eapply k_and; [gr|apply rd_reg; gr|]; rewrite LM by asm; intros g12 f12 K12 L12 _);
    assert (B0 : isU (if b then p0 else 0)) by (apply U_if; [asm|exact U0]);
    assert (B1 : isU (if b then p1 else 0)) by (apply U_if; [asm|exact U0]);
    assert (B2 : isU (if b then p2 else 0)) by (apply U_if; [asm|exact U0]);
    assert (B3 : isU (if b then p3 else 0)) by (apply U_if; [asm|exact U0]);
    set (d := (x - (q * cp c) mod W) mod W) in *;
    eapply (m_add_rr _ _ _ _ _ _ gt4 gt3 gt2 gt1 t3 t2 t1 t0 d (if b then cp c else 0)); [reflexivity| | |];
    [ mkr; exact V' | mkr; rewrite lv_if, VP; reflexivity
    | intros g13 f13 K13 L13 _; eapply H; [kp|];
      assert (EF : fp_fast_modp c x = if b then (d + cp c) mod W else d);
      [ unfold fp_fast_modp, fp_sub, pTbl; rewrite <- ET; fold q; fold d; unfold b; destruct (Z.ltb_spec x ((q * cp c) mod W)); destruct (Z.ltb_spec (x - (q * cp c) mod W) 0); try (exfalso; lia); reflexivity
      | rewrite EF; destruct b; [exact L13|]; rewrite Z.add_0_r, Z.mod_small in L13; [exact L13|]; unfold d; apply Z.mod_pos_bound; exact W_pos ] ].
  Lemma m_fast_a : (forall g' f', keep gfa g g' -> regn g' [gt1; gt2; gt3; gt4] (fp_fast_modp c x) -> wps k (mkSt g' X f' m) Q) ->
    wps (fast_modp T gt4 gt3 gt2 gt1 gp3 gt5 gt6 gt7 ++ k) (mkSt g X f m) Q.
  Proof. go gt7 gt6 gt5 gp3. Qed.
  Lemma m_fast_b : (forall g' f', keep gfb g g' -> regn g' [gt1; gt2; gt3; gt4] (fp_fast_modp c x) -> wps k (mkSt g' X f' m) Q) ->
    wps (fast_modp T gt4 gt3 gt2 gt1 gp1 gp2 gp3 gt5 ++ k) (mkSt g X f m) Q.
  Proof. go gt5 gp3 gp2 gp1. Qed.
End Fast.
Section Inline.
  Ltac ni ::= nic.
  Ltac kp ::= kpc.
  Variables (c : cfg) (il : bool) (T : Z) (k : code) (g : regs) (X : xregs) (f : flags) (m : memory) (Q : state -> Prop).
  Variables (ZZ A : addr) (z a v x : Z) .
  Hypothesis HP : p_table c m T.
  Hypothesis TU : 32 <= T /\ T + 288 <= B.
  Hypothesis Hz : int_at m z 4 v.
  Hypothesis Mz : mapped m z 4.
  Hypothesis Hx : int_at m a 4 x.
  Lemma m_2z_add_3x : isat gfa g ZZ z 32 -> isat gfa g A a 32 ->
    (forall g' f' m', keep gfa g g' -> chg [(z, 32)] m m' -> int_at m' z 4 (fp_2z_add_3x c v x) -> wps k (mkSt g' X f' m') Q) ->
    wps (in_Fp_2z_add_3x il T ZZ A ++ k) (mkSt g X f m) Q.
  Proof.
    intros HZ HA H. unfold in_Fp_2z_add_3x. rewrite <- !app_assoc.
    eapply m_load_add; [reflexivity|ia|ia|exact Hz|exact Hx|]. intros g1 f1 K1 L1 _.
    eapply (m_dbl_rr _ _ _ _ _ _ gt4 gt3 gt2 gt1); [reflexivity|exact L1|]. intros g2 f2 K2 L2 _.
    eapply (m_add_rm _ _ _ _ _ _ gt4 gt3 gt2 gt1 eq_refl _ a); [ia|exact L2|exact Hx|]. intros g3 f3 K3 L3 _.
    eapply (m_fast_a c T); [exact HP|exact TU|exact L3|]. intros g4' f4 K4 L4.
    eapply (m_store _ _ _ _ _ _ _ _ _ _ _ z); [ia|exact Mz|exact L4|]. intros m1 C1 I1. eapply H; [kp|exact C1|].
    unfold fp_2z_add_3x, fp_addNC. rewrite (Z.add_comm x v). exact I1.
  Qed.
  Lemma m_3t_sub_2z : isat gfb g ZZ z 32 -> isat gfb g A a 32 ->
    (forall g' f' m', keep gfb g g' -> chg [(z, 32)] m m' -> int_at m' z 4 (fp_3t_sub_2z c x v) -> wps k (mkSt g' X f' m') Q) ->
    wps (in_Fp_3t_sub_2z il T ZZ A ++ k) (mkSt g X f m) Q.
  Proof.
    intros HZ HA H. assert (MT : modulus c m T) by (apply p_table_mod; [clear -TU; lia|clear -TU; lia|exact HP]); destruct MT as (HT & TR1 & TR2).
    unfold in_Fp_3t_sub_2z. rewrite <- !app_assoc. cbn [app].
    eapply k_mov; [apply rd_imm; clear -TU; lia|]. intros g0 K0 L0.
    eapply m_load_add; [reflexivity|ia|apply (isat_ad _ _ _ _ T T); [reflexivity|gr|clear; lia|clear -TU; lia|clear -TU; lia]|exact Hx|exact HT|]. intros g1 f1 K1 L1 _.
    eapply (m_sub_rm _ _ _ _ _ _ gt4 gt3 gt2 gt1 eq_refl _ z); [ia|exact L1|exact Hz|]. intros g1' f1' K1' L1' _.
    eapply (m_dbl_rr _ _ _ _ _ _ gt4 gt3 gt2 gt1); [reflexivity|exact L1'|]. intros g2 f2 K2 L2 _.
    eapply (m_add_rm _ _ _ _ _ _ gt4 gt3 gt2 gt1 eq_refl _ a); [ia|exact L2|exact Hx|]. intros g3 f3 K3 L3 _.
    eapply (m_fast_b c T); [exact HP|exact TU|exact L3|]. intros g4' f4 K4 L4.
    eapply (m_store _ _ _ _ _ _ _ _ _ _ _ z); [ia|exact Mz|exact L4|]. intros m1 C1 I1. eapply H; [kp|exact C1|].
    unfold fp_3t_sub_2z, fp_addNC, fp_subNC, pTbl. rewrite Z.mul_1_l, (Z.mod_small (cp c)) by (pose proof (cp_lt_W c) as Pw; pose proof (cp_pos c) as Pp; clear -Pw Pp; lia). exact I1.
  Qed.
End Inline.

(** ** As routines: the first operand is the old value of the result *)
Definition r_3t2z (c : cfg) : rout := mkRt 4 4 4 W4 W4 W4 true false gfb [] 0 (fn2 (fun v x => fp_3t_sub_2z c x v)) tt_ false false.
Definition r_2z3x (c : cfg) : rout := mkRt 8 8 8 W44 W44 W44 true false gfa [] 0 (fn22 (f2_2z_add_3x c)) tt_ false false.
Section Asp.
  Variables (C : code) (c : cfg) (il : bool) (T NT HF : Z).
  Local Notation tabs := (ctabs c T NT HF).
  Ltac ini' := 
    intros pc g X f m sp z x y vx vy Q A Gs Az Ax Ay Rx Ry TB Mz Ms Rs Rz Ox Oy Dzs CZ HP HR H;
    pose proof (cz_T _ _ _ _ _ _ _ _ CZ) as CT; clear CZ; pose proof (ctabs_p _ _ _ _ _ TB) as PT; clear TB; cbn [argv] in Az, Ax, Ay;
    unfold r_3t2z, r_2z3x in *; cbn [r_nz r_nx r_ny r_x r_y r_z r_ax r_ay r_clob r_xclob r_stk r_fn r_pre r_rin r_rax] in *; unfold disj in *; unfold W4, W44 in *; nums.
  Lemma a_3t2z oz ot : aspec C T tabs (in_Fp_3t_sub_2z il T (Ad gt10 oz) (Ad RSP ot)) (AR gt10 oz) (AR gt10 oz) (AR RSP ot) (r_3t2z c).
  Proof.
    ini'. assert (x = z) by (rewrite <- Az, <- Ax; reflexivity). clear Ax. subst x.
    destruct (reads1 _ _ _ _ _ Rx) as (v & -> & Iv). destruct (reads1 _ _ _ _ _ Ry) as (w & -> & Iw). rewrite Z.add_0_r in Iv, Iw. cbn [app fn2] in H.
    destruct Oy as [Oy|(RY & SY & DY)]; [discriminate Oy|].
    set (cd := in_Fp_3t_sub_2z il T (Ad gt10 oz) (Ad RSP ot)) in *. apply (wp_block _ _ cd _ _ A). rewrite <- (app_nil_r cd). unfold cd.
    eapply (m_3t_sub_2z c il T [] g X f m _ _ _ z y v w); [exact PT|clear -CT; lia|exact Iv|exact Mz|exact Iw| | |].
    - apply (isat_ad _ _ _ _ (getr g gt10)); [reflexivity|reflexivity|exact Az|clear -Rz; lia|clear -Rz; lia].
    - apply (isat_ad _ _ _ _ (getr g RSP)); [reflexivity|reflexivity|exact Ay|clear -RY; lia|clear -RY; lia].
    - intros g' f' m' K' C' R'. cbn [wps]. fold cd. rewrite app_nil_r. apply H; [exact K'|apply xkeep_nil|apply chg_w2; [clear; lia|exact C']|apply mk_reads1; rewrite Z.add_0_r; exact R'|discriminate].
  Qed.
  Lemma s_2z3x : aspec C T tabs (b_Fp2_2z_add_3x il T) (AR gp1 0) (AR gp1 0) (AR gp2 0) (r_2z3x c).
  Proof.
    ini'. assert (x = z) by (rewrite <- Az, <- Ax; reflexivity). clear Ax. subst x.
    destruct (reads2 _ _ _ _ _ _ _ Rx) as (v & v' & -> & Iv & Iv'). destruct (reads2 _ _ _ _ _ _ _ Ry) as (w & w' & -> & Iw & Iw'). rewrite Z.add_0_r in Iv, Iw. cbn [app fn22 a2 b2 f2_2z_add_3x] in H.
    destruct Oy as [Oy|(RY & SY & DY)]; [discriminate Oy|].
    set (cd := b_Fp2_2z_add_3x il T) in *. apply (wp_block _ _ cd _ _ A). rewrite <- (app_nil_r cd). unfold cd, b_Fp2_2z_add_3x. rewrite <- !app_assoc.
    destruct Rz as [Rz1 Rz2]. destruct RY as [RY1 RY2]. destruct DY as [DY|[DY _]]; [|discriminate DY].
    eapply (m_2z_add_3x c il T _ g X f m _ _ _ z y v w); [exact PT|clear -CT; lia|exact Iv|exact (mapped_int _ _ _ _ Iv)|exact Iw| | |].
    { apply (isat_ad _ _ _ _ (getr g gp1)); [reflexivity|reflexivity|rewrite <- Az; clear; lia|clear -Rz1; lia|clear -Rz2; lia]. }
    { apply (isat_ad _ _ _ _ (getr g gp2)); [reflexivity|reflexivity|rewrite <- Ay; clear; lia|clear -RY1; lia|clear -RY2; lia]. }
    intros g1 f1 m1 K1 C1 R1.
    assert (PT1 : p_table c m1 T).
    { intros i Hi. refine (int_at_chg _ _ _ _ _ _ C1 _ (PT i Hi)). constructor; [|constructor]. unfold clear_of. cbn [fst snd]. change (8 * Z.of_nat 4) with 32. clear -CT Hi. lia. }
    eapply (m_2z_add_3x c il T [] g1 X f1 m1 _ _ _ (z + 32) (y + 32) v' w'); [exact PT1|clear -CT; lia|refine (int_at_chg _ _ _ _ _ _ C1 _ Iv'); constructor; [|constructor]; unfold clear_of; cbn [fst snd]; clear; lia| |refine (int_at_chg _ _ _ _ _ _ C1 _ Iw'); constructor; [|constructor]; unfold clear_of; cbn [fst snd]; clear -DY; lia| | |].
    { exact (chg_mapped _ _ _ _ _ C1 (mapped_int _ _ _ _ Iv')). }
    { apply (isat_ad _ _ _ _ (getr g gp1)); [reflexivity|apply K1; reflexivity|rewrite <- Az; clear; lia|clear -Rz1; lia|clear -Rz2; lia]. }
    { apply (isat_ad _ _ _ _ (getr g gp2)); [reflexivity|apply K1; reflexivity|rewrite <- Ay; clear; lia|clear -RY1; lia|clear -RY2; lia]. }
    intros g2 f2 m2 K2 C2 R2. cbn [wps]. rewrite app_nil_r. fold (b_Fp2_2z_add_3x il T). fold cd. apply H.
    - exact (keep_idem _ _ _ _ K1 K2).
    - apply xkeep_nil.
    - apply chg_w2; [clear; lia|]. refine (chg_sub _ _ _ _ _ (chg_trans _ _ _ _ _ C1 C2)). intros b Hb. cbn [app]. apply off2. apply off1 in Hb. clear -Hb. lia.
    - apply mk_reads2; [|exact R2]. rewrite Z.add_0_r. refine (int_at_chg _ _ _ _ _ _ C2 _ R1). constructor; [|constructor]. unfold clear_of. cbn [fst snd]. clear. lia.
    - discriminate.
  Qed.
End Asp.

(** ** The table of routines *)
Section Lib.
  Variables (c : cfg) (il mx : bool) (T NT HF : Z) (pre : code).
  Local Notation SB := (subr L_Fp2_2z_add_3x (b_Fp2_2z_add_3x il T)).
  Local Notation LX := (libx il mx (snark c) T (cpp c) HF).
  Local Notation LB := (lib il mx (snark c) T (cpp c) NT).
  Local Notation C := (pre ++ SB ++ LX ++ LB).
  Local Notation tabs := (ctabs c T NT HF).
  Local Notation P1 := (AR gp1 0).
  Local Notation P2 := (AR gp2 0).
  Hypothesis NP : nolab (pre ++ SB) = true.
  Hypothesis U1 : cnt 201 C = 1%nat.
  Hypothesis U2 : cnt 202 C = 1%nat.
  Hypothesis NX : forallb (fun l => nol l (pre ++ SB)) [L_Fp_mul; L_Fp2_mul; L_Fp2_square; L_Fp2Dbl_square; L_Fp2_divBy2; L_Fp2_neg] = true.
  Hypothesis N0 : nol L_Fp2_2z_add_3x pre = true.
  Definition tbc : list ent := mkE L_Fp2_2z_add_3x P1 P1 P2 (bump (r_2z3x c)) :: tbl c.
  Lemma tbc_ok : Forall (eok C T tabs) tbc.
  Proof.
    unfold tbc. constructor.
    - unfold eok. cbn [e_l e_z e_x e_y e_r].
      assert (HH : has C L_Fp2_2z_add_3x ([Lab L_Fp2_2z_add_3x] ++ b_Fp2_2z_add_3x il T ++ [Ret])).
      { unfold subr. rewrite <- !app_assoc. apply (has_at pre L_Fp2_2z_add_3x (b_Fp2_2z_add_3x il T) (LX ++ LB)). exact N0. }
      refine (call_aspec C T tabs _ _ P1 P1 P2 (r_2z3x c) eq_refl eq_refl eq_refl eq_refl (ctabs_fit c T NT HF) _ _ (s_2z3x C c il T NT HF) HH); repeat constructor; cbn; intro; discriminate.
    - pose proof (tbl_ok c il mx T NT HF (pre ++ SB) NP) as H. rewrite <- !app_assoc in H. exact (H U1 U2 NX).
  Qed.
End Lib.
