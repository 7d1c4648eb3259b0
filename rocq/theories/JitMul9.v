(** The step 9 x + y, 9 x - y of the SNARK build as an item of a symbolic execution: the operands have
    to be below p. *)
From Coq Require Import ZArith List Bool Lia.
From Verif Require Import X64 XLog JitSpec JitFpSpec XTac XReg JitFp JitMac JitMac2 JitFrame JitRep JitFpApi JitFpApi2 JitFp2 JitFp2Spec JitFp2Mac JitFp2Mac2 JitFp2Api JitFp2Api2 JitSym JitSub JitLib.
From Verif Require Import Base Prim Primes FpSpec Cfg FpM FpProofs TowerSpec TowerM Fp2Proofs.
Import ListNotations.
Local Open Scope Z_scope.
Local Notation find := X64.find.
Local Notation length := List.length.

Definition inp (c : cfg) (l : list Z) : Prop := Forall (fun v => 0 <= v < cp c) l.
Definition r_mul9 (c : cfg) (d : bool) : rout := mkRt 4 4 4 W4 W4 W4 false false (RAX :: g8) [] 0 (fn2 (fun x y => fp_mul9 c x y d)) (inp c) false false.
Definition i_mul9 (c : cfg) (mx : bool) (T : Z) (d : bool) bz oz bx ox by_ oy : item :=
  IA (in_Fp_mul_xi_addsub mx T (Ad bz oz) (Ad bx ox) (Ad by_ oy) d) (AR bz oz) (AR bx ox) (AR by_ oy) (r_mul9 c d).
Section A.
  Variables (C : code) (c : cfg) (mx : bool) (T NT HF : Z) (bz bx by_ : reg) (oz ox oy : Z) (d : bool).
  Hypothesis Es : snark c = true.
  Hypothesis Nz : inb bz (RAX :: g8) = false.
  Hypothesis Nx : inb bx (RAX :: g8) = false.
  Hypothesis Ny : inb by_ (RAX :: g8) = false.
  Ltac adz A R := eapply isat_ad; [eassumption|reflexivity|clear -A; lia|clear -R; lia|clear -R; lia].
  Lemma a_mul9 : aspec C T (ctabs c T NT HF) (in_Fp_mul_xi_addsub mx T (Ad bz oz) (Ad bx ox) (Ad by_ oy) d) (AR bz oz) (AR bx ox) (AR by_ oy) (r_mul9 c d).
  Proof.
    intros pc g X f m sp z x y vx vy Q A Gs Az Ax Ay Rx Ry TB Mz Ms Rs Rz Ox Oy Dzs CZ HP HR H.
    pose proof (cz_T _ _ _ _ _ _ _ _ CZ) as CT; clear CZ; pose proof (ctabs_p _ _ _ _ _ TB) as PT; clear TB; cbn [argv] in Az, Ax, Ay.
    unfold r_mul9 in *; cbn [r_nz r_nx r_ny r_x r_y r_z r_ax r_ay r_clob r_xclob r_stk r_fn r_pre r_rin r_rax] in *; unfold disj in *; unfold W4 in *; nums.
    destruct (reads1 _ _ _ _ _ Rx) as (v & -> & Iv). destruct (reads1 _ _ _ _ _ Ry) as (w & -> & Iw). rewrite Z.add_0_r in Iv, Iw. cbn [app fn2] in H, HP.
    pose proof (Forall_inv HP) as Lv. pose proof (Forall_inv (Forall_inv_tail HP)) as Lw.
    destruct Ox as [Ox|(RX & SX & DX)]; [discriminate Ox|]. destruct Oy as [Oy|(RY & SY & DY)]; [discriminate Oy|].
    set (cd := in_Fp_mul_xi_addsub mx T (Ad bz oz) (Ad bx ox) (Ad by_ oy) d) in *. apply (wp_block _ _ cd _ _ A). rewrite <- (app_nil_r cd). unfold cd.
    eapply (m_mul_xi_addsub c mx T [] g X f m _ _ _ _ z x y v w d Es PT); [adz Az Rz|adz Ax RX|adz Ay RY|exact Mz|exact Iv|exact Iw|exact Lv|exact Lw|clear -CT; lia|].
    intros g' f' m' K' C' R'. cbn [wps]. fold cd. rewrite app_nil_r. apply H; [exact K'|apply xkeep_nil|apply chg_w2; [clear; lia|exact C']|apply mk_reads1; rewrite Z.add_0_r; exact R'|discriminate].
  Qed.
End A.
