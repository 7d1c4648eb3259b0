(** The subroutines of the line functions: what a call of each does. *)
From Coq Require Import ZArith List Bool Lia.
From Verif Require Import X64 XLog JitSpec JitFpSpec XTac XReg JitFp JitMac JitMac2 JitMul JitMont JitMul4 JitMod JitFrame JitFpApi JitFpApi2 JitFp2 JitFp2Spec JitFp2Mac JitFp2Mac2 JitFp2Api JitFp2Api2 JitSym JitSub JitLib JitFp6 JitFp6Sub JitFp6Mul JitLine JitRep.
From Verif Require Import Base Prim Primes FpSpec Cfg FpM TowerSpec TowerM.
Import ListNotations.
Local Open Scope Z_scope.
Local Notation find := X64.find.
Local Notation length := List.length.

(** ** A label that occurs once *)
Fixpoint cnt (l : Z) (cd : code) : nat := match cd with [] => O | Lab l' :: cd' => if l =? l' then S (cnt l cd') else cnt l cd' | _ :: cd' => cnt l cd' end.
Lemma cnt0 l cd pc : cnt l cd = O -> fetch cd pc <> Some (Lab l).
Proof.
  revert pc. induction cd as [|i cd IH]; intros pc H; cbn [fetch]; [discriminate|]. destruct (pc =? 0).
  - intros E. injection E as ->. cbn [cnt] in H. rewrite Z.eqb_refl in H. discriminate.
  - apply IH. destruct i; cbn [cnt] in H; try exact H. destruct (l =? l0); [discriminate|exact H].
Qed.
Lemma cnt1 l cd pc : cnt l cd = 1%nat -> fetch cd pc = Some (Lab l) -> find cd l 0 = Some pc.
Proof.
  intros H E. cut (forall n, find cd l n = Some (n + pc)); [intros F; rewrite F; f_equal; lia|]. revert pc H E. induction cd as [|i cd IH]; intros pc H E n; [discriminate|]. cbn [fetch] in E.
  assert (ST : forall i', (match i' with Lab l' => (l =? l') = false | _ => True end) -> find (i' :: cd) l n = find cd l (n + 1)).
  { intros i' Hi. destruct i'; try reflexivity. cbn [find]. rewrite Hi. reflexivity. }
  destruct (Z.eqb_spec pc 0) as [->|Hpc].
  - injection E as ->. cbn [find]. rewrite Z.eqb_refl. f_equal. lia.
  - assert (NL : match i with Lab l' => (l =? l') = false | _ => True end).
    { destruct i; try exact I. destruct (l =? l0) eqn:El; [|reflexivity]. cbn [cnt] in H. rewrite El in H. injection H as H. exfalso. exact (cnt0 _ _ _ H E). }
    rewrite (ST i NL). assert (H' : cnt l cd = 1%nat) by (destruct i; cbn [cnt] in H; try exact H; rewrite NL in H; exact H).
    rewrite (IH (pc - 1) H' E (n + 1)). f_equal. lia.
Qed.

(** ** Negation *)
Definition gneg : list reg := [RDX; gt4; gt3; gt2; gt1].
Definition r_neg (c : cfg) : rout := mkRt 4 4 0 W4 [] W4 true false gneg [] 0 (fn1 (fp_neg c)) tt_ true true.
Definition r_neg2 (c : cfg) : rout := mkRt 8 8 0 W44 [] W44 true false (RAX :: gneg) [] 0 (fn12 (f2_neg c)) tt_ false false.
Section Neg.
  Variables (C : code) (c : cfg) (il : bool) (T NT HF : Z).
  Local Notation tabs := (ctabs c T NT HF).
  Lemma a_neg l o : cnt l C = 1%nat -> aspec C T tabs (in_Fp_neg il l (Ad gp1 o) (Ad gp2 o)) (AR gp1 o) (AR gp2 o) AN (r_neg c).
  Proof.
    intros HL pc g X f m sp z x y vx vy Q A Gs Az Ax Ay Rx Ry TB Mz Ms Rs Rz Ox Oy Dzs CZ HP HR H.
    pose proof (cz_T _ _ _ _ _ _ _ _ CZ) as CT. clear CZ. pose proof (ctabs_p _ _ _ _ _ TB) as PT. clear TB. cbn [argv] in Az, Ax, Ay. unfold r_neg in *.
    cbn [r_nz r_nx r_ny r_x r_y r_z r_ax r_ay r_clob r_xclob r_stk r_fn r_pre r_rin r_rax] in *. unfold disj in *. unfold W4 in *. nums.
    destruct (reads1 _ _ _ _ _ Rx) as (v & -> & Iv). rewrite Z.add_0_r in Iv. rewrite (reads0 _ _ _ Ry) in H. cbn [app fn1] in H. destruct Ox as [Ox|(RX & SX & DX)]; [discriminate Ox|]. specialize (HR eq_refl).
    assert (MD : modulus c m T) by (apply p_table_mod; [clear -CT; lia|clear -CT; lia|exact PT]). destruct MD as (HT & TR1 & TR2).
    set (mid := load_sub_rm il gt4 gt3 gt2 gt1 (Ad RAX 0) (Ad gp2 o) false). set (pr := load_rm gt4 gt3 gt2 gt1 (Ad gp2 o) ++ neg_or).
    assert (EC : in_Fp_neg il l (Ad gp1 o) (Ad gp2 o) = pr ++ Jcc CZ l :: mid ++ Lab l :: store_mr (Ad gp1 o) gt4 gt3 gt2 gt1) by (unfold in_Fp_neg, pr, mid; rewrite <- !app_assoc; reflexivity).
    rewrite EC in A, H. destruct (at_app _ _ pr _ A) as [A1 A2]. destruct (at_cons _ _ _ _ A2) as [A3 A4]. destruct (at_app _ _ mid _ A4) as [A5 A6]. destruct (at_cons _ _ _ _ A6) as [A7 A8].
    pose proof (cnt1 _ _ _ HL A7) as F1. clear A2 A4 A6.
    apply (wp_block _ _ pr _ _ A1). unfold pr.
    eapply m_load; [reflexivity|apply (isat_ad _ _ _ _ (getr g gp2)); [reflexivity|reflexivity|exact Ax|clear -RX; lia|clear -RX; lia]|exact Iv|].
    intros g1 K1 L1. destruct (reg4 _ _ _ _ _ _ L1) as (x0 & x1 & x2 & x3 & U0 & U1 & U2 & U3 & G0 & G1 & G2 & G3 & V).
    rewrite <- (app_nil_r neg_or). unfold neg_or. cbn [app].
    eapply k_mov; [apply rd_reg; exact G0|]. intros g2 K2 R2.
    eapply k_or; [exact R2|apply rd_reg; rewrite (K2 gt2 eq_refl); exact G1|]. intros g3 f3 K3 R3 _.
    eapply k_or; [exact R3|apply rd_reg; rewrite (K3 gt3 eq_refl), (K2 gt3 eq_refl); exact G2|]. intros g4 f4 K4 R4 _.
    eapply k_or; [exact R4|apply rd_reg; rewrite (K4 X64.R11 eq_refl), (K3 X64.R11 eq_refl), (K2 X64.R11 eq_refl); exact G3|]. intros g5 f5 K5 R5 Z5.
    assert (K15 : keep [RDX] g1 g5) by exact (keep_idem _ _ _ _ K2 (keep_idem _ _ _ _ K3 (keep_idem _ _ _ _ K4 K5))).
    assert (K05 : keep gneg g g5) by (refine (keep_incl _ _ _ _ _ (keep_trans _ _ _ _ _ K1 K15)); clear; intros r; cbn; tauto).
    assert (L5 : regn g5 [gt1; gt2; gt3; gt4] v) by (refine (regn_keep _ _ _ _ _ K15 _ L1); reflexivity).
    rewrite lor4_0, V in Z5 by assumption. cbn [wps]. fold pr.
    assert (FIN : forall g6 f6, keep gneg g g6 -> regn g6 [gt1; gt2; gt3; gt4] (fp_neg c v) ->
      wp C (pc + Z.of_nat (length pr) + 1 + Z.of_nat (length mid)) (mkSt g6 X f6 m) Q).
    { intros g6 f6 K6 L6. eapply wp_ex; [exact A7|reflexivity|]. apply (wp_block _ _ _ _ _ A8). rewrite <- (app_nil_r (store_mr _ _ _ _ _)).
      eapply m_store; [apply (isat_keep _ _ _ _ _ _ _ K6); apply (isat_ad _ _ _ _ (getr g gp1)); [reflexivity|reflexivity|exact Az|clear -Rz; lia|clear -Rz; lia]|exact Mz|exact L6|].
      intros m7 C7 L7. cbn [wps]. rewrite app_nil_r.
      assert (EP : pc + Z.of_nat (length pr) + 1 + Z.of_nat (length mid) + 1 + Z.of_nat (length (store_mr (Ad gp1 o) gt4 gt3 gt2 gt1)) = pc + Z.of_nat (length (pr ++ Jcc CZ l :: mid ++ Lab l :: store_mr (Ad gp1 o) gt4 gt3 gt2 gt1))).
      { rewrite !app_length. cbn [length]. rewrite app_length. cbn [length]. clear. lia. }
      rewrite EP. apply H; [exact K6|apply xkeep_nil|apply chg_w2; [clear; lia|exact C7]|apply mk_reads1; rewrite Z.add_0_r; exact L7|intros _; rewrite (K6 RAX eq_refl); exact HR]. }
    eapply wp_jcc; [exact A3|exact F1|cbn [holds fl]; exact Z5| |].
    - intros E. apply FIN; [exact K05|]. unfold fp_neg. rewrite E. apply Z.eqb_eq in E. rewrite <- E. exact L5.
    - intros E. apply (wp_block _ _ mid _ _ A5). unfold mid. rewrite <- (app_nil_r (load_sub_rm _ _ _ _ _ _ _ _)).
      eapply m_load_sub; [reflexivity|apply (isat_ad _ _ _ _ T); [reflexivity|rewrite (K05 RAX eq_refl); exact HR|apply Z.add_0_r|clear -CT; lia|clear -CT; lia]|apply (isat_ad _ _ _ _ (getr g gp2)); [reflexivity|exact (K05 gp2 eq_refl)|exact Ax|clear -RX; lia|clear -RX; lia]|exact HT|exact Iv|].
      intros g7 f7 K7 L7 _. cbn [wps]. rewrite app_nil_r. fold mid. apply FIN.
      + refine (keep_incl _ _ _ _ _ (keep_trans _ _ _ _ _ K05 K7)). clear. intros r. cbn. tauto.
      + unfold fp_neg. rewrite E. exact L7.
  Qed.
  Definition i_neg l o := IA (in_Fp_neg il l (Ad gp1 o) (Ad gp2 o)) (AR gp1 o) (AR gp2 o) AN (r_neg c).
  Lemma s_neg2 : cnt 201 C = 1%nat -> cnt 202 C = 1%nat -> aspec C T tabs (b_Fp2_neg il T) (AR gp1 0) (AR gp2 0) AN (r_neg2 c).
  Proof.
    intros H1 H2. refine (sub_aspec C c T NT HF [IT RAX (RT, 0); i_neg 201 0; i_neg 202 32] (b_Fp2_neg il T) (AR gp1 0) (AR gp2 0) AN (r_neg2 c) _ _ eq_refl _ _ _ eq_refl eq_refl _); try (intro; discriminate).
    - constructor; [exact I|]. constructor; [exact (a_neg 201 0 H1)|]. constructor; [exact (a_neg 202 32 H2)|constructor].
    - intros base E _ _. unfold b_Fp2_neg. cbn [flat flat_map flat1 i_neg fst snd Z.eqb]. rewrite E, app_nil_r. reflexivity.
    - reflexivity.
    - intros bx by_ vx vy E1 E2 E3 L1 L2 _. cbn in L1, L2. len6 vx. len6 vy. destruct by_; [destruct (E2 eq_refl) as [_ ?]; discriminate|].
      destruct bx; lazy -[fp_neg f2_neg a2 b2 a3 b3 c3]; (ex_; [unfold f2_neg; cbn [a2 b2]; reflexivity|reflexivity|discriminate]).
  Qed.
End Neg.

(** ** The table of routines *)
Definition r_fp2r (F : F2 Z -> F2 Z -> F2 Z) (L : list reg) : rout := mkRt 8 8 8 W44 W44 W44 true true L [] 0 (fn22 F) tt_ false true.
Section Lib.
  Variables (c : cfg) (il mx : bool) (T NT HF : Z) (pre : code).
  Hypothesis NP : nolab pre = true.
  Local Notation LX := (libx il mx (snark c) T (cpp c) HF).
  Local Notation LB := (lib il mx (snark c) T (cpp c) NT).
  Local Notation C := (pre ++ LX ++ LB).
  Local Notation tabs := (ctabs c T NT HF).
  Local Notation asp := (aspec C T tabs).
  Local Notation P1 := (AR gp1 0).
  Local Notation P2 := (AR gp2 0).
  Local Notation P3 := (AR gp3 0).
  Hypothesis U1 : cnt 201 C = 1%nat.
  Hypothesis U2 : cnt 202 C = 1%nat.
  Hypothesis NX : forallb (fun l => nol l pre) [L_Fp_mul; L_Fp2_mul; L_Fp2_square; L_Fp2Dbl_square; L_Fp2_divBy2; L_Fp2_neg] = true.
  Lemma nl_pre2 : nolab (pre ++ LX) = true.
  Proof. rewrite nolab_app, NP. destruct il, mx, (snark c); vm_compute; reflexivity. Qed.
  Lemma C_eq : (pre ++ LX) ++ LB = C.
  Proof. symmetry. apply app_assoc. Qed.
  Ltac hx n := let L := eval cbv [subsx] in (subsx il mx (snark c) T (cpp c) HF) in
    let a := eval cbv [firstn] in (firstn n L) in let b := eval cbv [skipn] in (skipn n L) in
    lazymatch b with (?l, ?bd) :: ?r => refine (has_subx pre a l bd r LB _ _) end;
    [rewrite forallb_forall in NX; apply NX; cbn; tauto|destruct il, mx, (snark c); vm_compute; reflexivity].
  Local Notation hasl l b := (has C l ([Lab l] ++ b ++ [Ret])).
  Lemma hx_mul : hasl L_Fp_mul (Fp_mul mx T (cpp c)). Proof. hx 0%nat. Qed.
  Lemma hx_mul2 : hasl L_Fp2_mul (Fp2_mul il mx T). Proof. hx 1%nat. Qed.
  Lemma hx_square2 : hasl L_Fp2_square (Fp2_square il mx (snark c) T). Proof. hx 2%nat. Qed.
  Lemma hx_dsquare : hasl L_Fp2Dbl_square (Fp2Dbl_square il mx T). Proof. hx 3%nat. Qed.
  Lemma hx_half : hasl L_Fp2_divBy2 (Fp2_divBy2 T HF). Proof. hx 4%nat. Qed.
  Lemma hx_neg : hasl L_Fp2_neg (b_Fp2_neg il T). Proof. hx 5%nat. Qed.
  Lemma hx_mod : has C L_FpDbl_mod (p_FpDbl_mod mx T (cpp c)).
  Proof. pose proof (h_mod il mx (snark c) T (cpp c) NT _ nl_pre2) as H. rewrite C_eq in H. exact H. Qed.
  Lemma hx_add2 : hasl L_Fp2_add (b_Fp2_add il T).
  Proof. pose proof (h_add2 il mx (snark c) T (cpp c) NT _ nl_pre2) as H. rewrite C_eq in H. exact H. Qed.
  Lemma hx_sub2 : hasl L_Fp2_sub (b_Fp2_sub il T).
  Proof. pose proof (h_sub2 il mx (snark c) T (cpp c) NT _ nl_pre2) as H. rewrite C_eq in H. exact H. Qed.
  Ltac sb items := lazymatch goal with |- aspec _ _ _ ?cd ?az ?ax ?ay ?R => refine (sub_aspec C c T NT HF items cd az ax ay R _ _ eq_refl _ _ _ eq_refl eq_refl _) end; try (intro; discriminate).
  Lemma s_add2r : asp (b_Fp2_add il T) P1 P2 P3 (r_fp2r (f2_add c) (RAX :: g8)).
  Proof.
    sb [IT RAX (RT, 0); i_add4 c il 0; i_add4 c il 32].
    - constructor; [exact I|]. constructor; [exact (a_add4 C c il T NT HF gp1 gp2 gp3 0 0 0 eq_refl eq_refl eq_refl)|]. constructor; [exact (a_add4 C c il T NT HF gp1 gp2 gp3 32 32 32 eq_refl eq_refl eq_refl)|constructor].
    - intros base E _ _. unfold b_Fp2_add, in_Fp_add_n. cbn [flat flat_map flat1 i_add4 fst snd Z.eqb rep]. rewrite E. reflexivity.
    - reflexivity.
    - intros bx by_ vx vy E1 E2 E3 L1 L2 _. cbn in L1, L2. len6 vx. len6 vy. destruct bx; (destruct by_; [|]); [injection (E3 eq_refl eq_refl) as -> ->|..].
      all: lz; (ex_; [unfold f2_add; cbn [a2 b2]; reflexivity|reflexivity|]); try reflexivity.
  Qed.
  Ltac cl H HHas := lazymatch goal with |- aspec _ _ _ [Call ?l] ?az ?ax ?ay (bump ?R) => refine (call_aspec C T tabs l _ az ax ay R eq_refl eq_refl eq_refl eq_refl (ctabs_fit c T NT HF) _ _ H HHas) end; repeat constructor; cbn; intro; discriminate.
  Definition tbl : list ent :=
    [mkE L_Fp_mul P1 P2 P3 (bump (r_mul c)); mkE L_Fp2_mul P1 P2 P3 (bump (r_mul2 c)); mkE L_Fp2_square P1 P2 AN (bump (r_square2 c));
     mkE L_Fp2Dbl_square P1 P2 AN (bump (r_dsquare c)); mkE L_Fp2_divBy2 P1 P2 AN (bump (r_half2 c)); mkE L_Fp2_neg P1 P2 AN (bump (r_neg2 c));
     mkE L_Fp2_add P1 P2 P3 (bump (r_fp2r (f2_add c) (RAX :: g8)))] ++ tb1 c.
  Lemma tbl_ok : Forall (eok C T tabs) tbl.
  Proof.
    unfold tbl. cbn [app]. repeat (apply Forall_cons; [unfold eok; cbn [e_l e_z e_x e_y e_r]|]); [..|apply Forall_nil].
    1: cl (a_mul C c mx T NT HF) hx_mul.
    1: cl (a_mul2 C c il mx T NT HF hx_mod) hx_mul2.
    1: cl (a_square2 C c il mx T NT HF hx_mod) hx_square2.
    1: cl (a_dsquare C c il mx T NT HF) hx_dsquare.
    1: cl (a_half2 C c T NT HF) hx_half.
    1: cl (s_neg2 C c il T NT HF U1 U2) hx_neg.
    1: cl s_add2r hx_add2.
    all: pose proof (tb1_ok c il mx T NT HF _ nl_pre2) as TB; rewrite C_eq in TB; rewrite Forall_forall in TB.
    all: lazymatch goal with |- aspec _ _ _ [Call ?l] ?az ?ax ?ay ?R => refine (TB (mkE l az ax ay R) _); unfold tb1; cbn [In]; clear; repeat first [left; reflexivity | right] end.
  Qed.
End Lib.
