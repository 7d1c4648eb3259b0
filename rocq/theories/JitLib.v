(** What the routines called by the generated functions do (aspec of JitSym), from the
    straight-line lemmas. *)
From Coq Require Import ZArith List Bool Lia.
From Verif Require Import X64 XLog JitSpec JitFpSpec XTac XReg JitFp JitMac JitMac2 JitMul JitMont JitMul4 JitMod JitFrame JitFp2 JitFp2Spec JitFp2Mac JitFp2Mac2 JitFp2Api JitSym JitSub.
From Verif Require Import Base Prim Primes FpSpec Cfg FpM TowerSpec TowerM.
Import ListNotations.
Local Open Scope Z_scope.
Local Notation find := X64.find.
Local Notation length := List.length.

Lemma reads1 m a o n l : reads m a [(o, n)] l -> exists v, l = [v] /\ int_at m (a + o) n v.
Proof. intros H. inversion H as [|? v ? ? H1 H2]; subst. inversion H2; subst. exists v. auto. Qed.
Lemma reads2 m a o n o' n' l : reads m a [(o, n); (o', n')] l -> exists v v', l = [v; v'] /\ int_at m (a + o) n v /\ int_at m (a + o') n' v'.
Proof. intros H. inversion H as [|? v ? ? H1 H2]; subst. destruct (reads1 _ _ _ _ _ H2) as (v' & -> & H3). exists v, v'. auto. Qed.
Lemma mk_reads1 m a o n v : int_at m (a + o) n v -> reads m a [(o, n)] [v].
Proof. intros H. constructor; [exact H|constructor]. Qed.
Lemma mk_reads2 m a o n o' n' v v' : int_at m (a + o) n v -> int_at m (a + o') n' v' -> reads m a [(o, n); (o', n')] [v; v'].
Proof. intros H1 H2. constructor; [exact H1|]. constructor; [exact H2|constructor]. Qed.
Lemma reads0 m a l : reads m a [] l -> l = [].
Proof. intros H. inversion H. reflexivity. Qed.
Lemma ctabs_p c T NT HF m : Forall (tab_at m) (ctabs c T NT HF) -> p_table c m T.
Proof.
  intros H i Hi. inversion H as [|? ? H1 _]; subst. unfold tab_at in H1. cbn [t_f t_a] in H1. rewrite Forall_forall in H1.
  assert (HI : In i [0; 1; 2; 3; 4; 5; 6; 7; 8; 9]) by (cbn; lia).
  pose proof (H1 _ (in_map (fun i => (-32 + 32 * i, 4%nat, (i * cp c) mod W)) _ i HI)) as E. cbn [fst snd] in E. eapply int_at_eq; [exact E|]. clear. lia.
Qed.
Lemma ctabs_n c T NT HF m : Forall (tab_at m) (ctabs c T NT HF) -> int_at m NT 8 (pNTbl c 2).
Proof. intros H. inversion H as [|? ? _ H2]; subst. inversion H2 as [|? ? H3 _]; subst. inversion H3 as [|? ? H4 _]; subst. cbn [fst snd t_a] in H4. rewrite Z.add_0_r in H4. exact H4. Qed.
Lemma ctabs_h c T NT HF m : Forall (tab_at m) (ctabs c T NT HF) -> half_table c m HF.
Proof. intros H. inversion H as [|? ? _ H2]; subst. inversion H2 as [|? ? _ H3]; subst. inversion H3 as [|? ? H4 _]; subst. inversion H4 as [|? ? H5 H6]; subst. inversion H6 as [|? ? H7 _]; subst. cbn [fst snd t_a] in *. rewrite Z.add_0_r in H5. split; assumption. Qed.
Lemma cz_T c T NT HF z nz sp k : Forall (clearz z nz sp k) (ctabs c T NT HF) -> (32 <= T /\ T + 288 < B) /\ disj (T - 32) 320 z (Wd nz) /\ disj (T - 32) 320 (sp - Wd k) (Wd k).
Proof. intros H. inversion H as [|? ? (H1 & H2 & H3) _]; subst. cbn [t_a t_o t_n] in *. change (Wd 40) with 320 in *. unfold disj in *. split; [clear -H1; lia|]. split; [clear -H2; lia|clear -H3; lia]. Qed.
Lemma cz_N c T NT HF z nz sp k : Forall (clearz z nz sp k) (ctabs c T NT HF) -> (0 <= NT /\ NT + 64 < B) /\ disj NT 64 z (Wd nz) /\ disj NT 64 (sp - Wd k) (Wd k).
Proof. intros H. inversion H as [|? ? _ H0]; subst. inversion H0 as [|? ? (H1 & H2 & H3) _]; subst. cbn [t_a t_o t_n] in *. rewrite Z.add_0_r in *. change (Wd 8) with 64 in *. auto. Qed.
Lemma cz_H c T NT HF z nz sp k : Forall (clearz z nz sp k) (ctabs c T NT HF) -> (0 <= HF /\ HF + 64 < B) /\ disj HF 64 z (Wd nz) /\ disj HF 64 (sp - Wd k) (Wd k).
Proof. intros H. inversion H as [|? ? _ H0]; subst. inversion H0 as [|? ? _ H1]; subst. inversion H1 as [|? ? (H2 & H3 & H4) _]; subst. cbn [t_a t_o t_n] in *. rewrite Z.add_0_r in *. change (Wd 8) with 64 in *. auto. Qed.
Lemma xk_keep X X' : xk X X' -> xkeep [X0; X1] X X'.
Proof. intros (H1 & H2 & H3 & H4) r Hr. destruct r; try discriminate Hr; assumption. Qed.
Lemma chg_w2 o n k s m m' : 0 <= k -> chg [(o, n)] m m' -> chg [(s, k); (o, n)] m m'.
Proof. intros Hk H. refine (chg_sub _ _ _ _ _ H). intros b Hb. apply off2 in Hb. apply off1. tauto. Qed.

Definition tt_ : list Z -> Prop := fun _ => True.
Definition fn2 (F : Z -> Z -> Z) (l : list Z) : list Z := match l with [x; y] => [F x y] | _ => [] end.
Definition fn1 (F : Z -> Z) (l : list Z) : list Z := match l with [x] => [F x] | _ => [] end.
Definition fn22 (F : F2 Z -> F2 Z -> F2 Z) (l : list Z) : list Z := match l with [x; x'; y; y'] => [a2 (F (mk2 x x') (mk2 y y')); b2 (F (mk2 x x') (mk2 y y'))] | _ => [] end.
Definition fn12 (F : F2 Z -> F2 Z) (l : list Z) : list Z := match l with [x; x'] => [a2 (F (mk2 x x')); b2 (F (mk2 x x'))] | _ => [] end.
Definition W4 : list fld := [(0, 4%nat)].
Definition W8 : list fld := [(0, 8%nat)].
Definition W44 : list fld := [(0, 4%nat); (32, 4%nat)].
Definition W88 : list fld := [(0, 8%nat); (64, 8%nat)].
(** two double-width operands; two operands below 2^256; rax must point to p *)
Definition r_dbl (F : Z -> Z -> Z) (L : list reg) : rout := mkRt 8 8 8 W8 W8 W8 true true L [] 0 (fn2 F) tt_ false false.
Definition r_fpT (F : Z -> Z -> Z) : rout := mkRt 4 4 4 W4 W4 W4 true true g8 [] 0 (fn2 F) tt_ true true.
Definition r_fp (F : Z -> Z -> Z) (L : list reg) : rout := mkRt 4 4 4 W4 W4 W4 true true L [] 0 (fn2 F) tt_ false false.
Definition gmod : list reg := [gp2; RAX; RDX; gp3; gt1; gt2; gt3; gt4; gt5; gt6; gt7; gt8; gt9; gt10].
Definition r_mulOpt (c : cfg) (mode1 : bool) : rout := mkRt 16 8 8 W44 W44 W88 false false gmul [] 16 (fn22 (d2_mulOpt c mode1)) tt_ false false.
Definition r_dmul_xi (c : cfg) : rout := mkRt 16 16 0 W88 [] W88 false false (RAX :: g8) [] 0 (fn12 (d2_mul_xi c)) tt_ false false.
Definition r_mod (c : cfg) : rout := mkRt 4 8 0 W8 [] W4 true false gmod [X0; X1] 0 (fn1 (dbl_mod c)) tt_ false false.
Definition r_mul (c : cfg) : rout := mkRt 4 4 4 W4 W4 W4 true true (RAX :: RDX :: gp3 :: [gt1; gt2; gt3; gt4; gt5; gt6; gt7; gt8; gt9; gt10]) [X0; X1] 0 (fn2 (fp_mul c)) tt_ false false.
Definition r_mul2 (c : cfg) : rout := mkRt 8 8 8 W44 W44 W44 true true (gp2 :: gall) [X0; X1] 33 (fn22 (f2_mul c)) tt_ false false.
Definition r_square2 (c : cfg) : rout := mkRt 8 8 0 W44 [] W44 true false (gp2 :: gall) [X0; X1] 21 (fn12 (f2_square c)) tt_ false false.
Definition r_dsquare (c : cfg) : rout := mkRt 16 8 0 W44 [] W88 false false gsq [] 8 (fn12 (d2_square c)) tt_ false false.
Definition r_half2 (c : cfg) : rout := mkRt 8 8 0 W44 [] W44 true false (RAX :: g8) [] 0 (fn12 (f2_divBy2 c)) tt_ false false.

Ltac nums := change (Wd 0) with 0 in *; change (Wd 4) with 32 in *; change (Wd 8) with 64 in *; change (Wd 16) with 128 in *; change (Wd 33) with 264 in *; change (Wd 21) with 168 in *; rewrite ?Z.sub_0_r, ?Z.add_0_r in *.
Ltac ini HA := 
  intros pc g X f m sp z x y vx vy Q A Gs Az Ax Ay Rx Ry TB Mz Ms Rs Rz Ox Oy Dzs CZ HP HR H; lazymatch goal with |- context [aspec] => fail | _ => idtac end;
  pose proof (cz_T _ _ _ _ _ _ _ _ CZ) as CT; pose proof (cz_N _ _ _ _ _ _ _ _ CZ) as CN; pose proof (cz_H _ _ _ _ _ _ _ _ CZ) as CHh; clear CZ;
  pose proof (ctabs_p _ _ _ _ _ TB) as PT; pose proof (ctabs_n _ _ _ _ _ TB) as NN; pose proof (ctabs_h _ _ _ _ _ TB) as HH; clear TB;
  cbn [argv] in Az, Ax, Ay;
  unfold r_dbl, r_fpT, r_fp, r_mulOpt, r_dmul_xi, r_mod, r_mul, r_mul2, r_square2, r_dsquare, r_half2 in *;
  cbn [r_nz r_nx r_ny r_x r_y r_z r_ax r_ay r_clob r_xclob r_stk r_fn r_pre r_rin r_rax] in *; unfold disj in *; unfold W4, W8, W44, W88 in *; nums;
  apply (wp_block _ _ _ _ _ A); rewrite <- (app_nil_r HA) at 1.

Section Base.
  Ltac ni ::= nic.
  Ltac kp ::= kpc.
  Variables (C : code) (c : cfg) (il mx : bool) (T NT HF : Z).
  Local Notation tabs := (ctabs c T NT HF).
  Local Notation asp := (aspec C T tabs).
  Ltac r1 R v I := destruct (reads1 _ _ _ _ _ R) as (v & -> & I); rewrite Z.add_0_r in I.
  Ltac r2 R v v' I I' := destruct (reads2 _ _ _ _ _ _ _ R) as (v & v' & -> & I & I'); rewrite Z.add_0_r in I.
  Ltac ox Ox RX SX DX := destruct Ox as [Ox|(RX & SX & DX)]; [discriminate Ox|].
  Ltac ar := repeat match goal with H : ?P |- _ => lazymatch P with int_at _ _ _ _ => clear H | mapped _ _ _ => clear H | half_table _ _ _ => clear H | p_table _ _ _ => clear H | wp _ _ _ _ => clear H | at_ _ _ _ => clear H | has _ _ _ => clear H
     | inb _ _ = _ => clear H | reads _ _ _ _ => clear H | tt_ _ => clear H | keep _ _ _ => clear H | forall _, _ => clear H | _ -> _ => clear H end end; try lia.
  Ltac adz A R := eapply isat_ad; [eassumption|reflexivity|clear -A; lia|clear -R; lia|clear -R; lia].
  Ltac md CT := apply p_table_mod; [clear -CT; lia|clear -CT; lia|assumption].
  Section B3.
  Variables (bz bx by_ : reg) (oz ox oy : Z).
  Local Notation ZZ := (Ad bz oz).
  Local Notation XX := (Ad bx ox).
  Local Notation YY := (Ad by_ oy).
  Section N4.
  Hypothesis Nz : inb bz g4 = false.
  Hypothesis Nx : inb bx g4 = false.
  Hypothesis Ny : inb by_ g4 = false.
  Lemma a_addNC8 : asp (in_Fp_addNC il ZZ XX YY ++ in_Fp_adcNC il (Ad bz (oz + 32)) (Ad bx (ox + 32)) (Ad by_ (oy + 32))) (AR bz oz) (AR bx ox) (AR by_ oy) (r_dbl dbl_addNC g4).
  Proof.
    ini (in_Fp_addNC il ZZ XX YY ++ in_Fp_adcNC il (Ad bz (oz + 32)) (Ad bx (ox + 32)) (Ad by_ (oy + 32))). r1 Rx v Iv. r1 Ry w Iw. cbn [app fn2] in H. rewrite <- app_assoc. ox Ox RX SX DX. ox Oy RY SY DY.
    eapply (m_Dbl_addNC il [] g X f m _ _ _ _ z x y v w); [exact Mz|exact Iv|exact Iw|unfold ov64; clear -DX; lia|unfold ov64; clear -DY; lia|adz Az Rz|adz Ax RX|adz Ay RY|adz Az Rz|adz Ax RX|adz Ay RY|].
    intros g' f' m' K' C' R'. cbn [wps]. apply H; [exact K'|apply xkeep_nil|apply chg_w2; [clear; lia|exact C']|apply mk_reads1; rewrite Z.add_0_r; exact R'|discriminate].
  Qed.
  Lemma a_subNC8 : asp (in_Fp_subNC il ZZ XX YY ++ in_Fp_sbbNC il (Ad bz (oz + 32)) (Ad bx (ox + 32)) (Ad by_ (oy + 32))) (AR bz oz) (AR bx ox) (AR by_ oy) (r_dbl dbl_subNC g4).
  Proof.
    ini (in_Fp_subNC il ZZ XX YY ++ in_Fp_sbbNC il (Ad bz (oz + 32)) (Ad bx (ox + 32)) (Ad by_ (oy + 32))). r1 Rx v Iv. r1 Ry w Iw. cbn [app fn2] in H. rewrite <- app_assoc. ox Ox RX SX DX. ox Oy RY SY DY.
    eapply (m_Dbl_subNC il [] g X f m _ _ _ _ z x y v w); [exact Mz|exact Iv|exact Iw|unfold ov64; clear -DX; lia|unfold ov64; clear -DY; lia|adz Az Rz|adz Ax RX|adz Ay RY|adz Az Rz|adz Ax RX|adz Ay RY|].
    intros g' f' m' K' C' R'. cbn [wps]. apply H; [exact K'|apply xkeep_nil|apply chg_w2; [clear; lia|exact C']|apply mk_reads1; rewrite Z.add_0_r; exact R'|discriminate].
  Qed.
  Lemma a_addNC4 : asp (in_Fp_addNC il ZZ XX YY) (AR bz oz) (AR bx ox) (AR by_ oy) (r_fp fp_addNC g4).
  Proof.
    ini (in_Fp_addNC il ZZ XX YY). r1 Rx v Iv. r1 Ry w Iw. cbn [app fn2] in H. ox Ox RX SX DX. ox Oy RY SY DY.
    eapply (m_addNC [] g X f m _ il _ _ _ z x y v w); [adz Az Rz|adz Ax RX|adz Ay RY|exact Mz|exact Iv|exact Iw|unfold ov; clear -DX; lia|unfold ov; clear -DY; lia|].
    intros g' f' m' K' C' R' _. cbn [wps]. apply H; [exact K'|apply xkeep_nil|apply chg_w2; [clear; lia|exact C']|apply mk_reads1; rewrite Z.add_0_r; exact R'|discriminate].
  Qed.
  End N4.
  Section N8.
  Hypothesis Nz : inb bz (RAX :: g8) = false.
  Hypothesis Nx : inb bx (RAX :: g8) = false.
  Hypothesis Ny : inb by_ (RAX :: g8) = false.
  Lemma n8 b : inb b (RAX :: g8) = false -> inb b g8 = false.
  Proof. destruct b; (discriminate || reflexivity). Qed.
  Lemma a_add8 : asp (in_FpDbl_add il T ZZ XX YY) (AR bz oz) (AR bx ox) (AR by_ oy) (r_dbl (dbl_add c) (RAX :: g8)).
  Proof.
    ini (in_FpDbl_add il T ZZ XX YY). r1 Rx v Iv. r1 Ry w Iw. cbn [app fn2] in H. ox Ox RX SX DX. ox Oy RY SY DY.
    eapply (m_Dbl_add c T il [] g X f m _ _ _ _ z x y v w); [exact Mz|exact Iv|exact Iw|unfold ov64; clear -DX; lia|unfold ov64; clear -DY; lia|md CT|clear -CT; lia|adz Az Rz|adz Ax RX|adz Ay RY|clear -CT; lia|].
    intros g' f' m' K' C' R'. cbn [wps]. apply H; [exact K'|apply xkeep_nil|apply chg_w2; [clear; lia|exact C']|apply mk_reads1; rewrite Z.add_0_r; exact R'|discriminate].
  Qed.
  Lemma a_sub8 : asp (sub_FpDbl_sub il T ZZ XX YY) (AR bz oz) (AR bx ox) (AR by_ oy) (r_dbl (dbl_sub c) (RAX :: g8)).
  Proof.
    ini (sub_FpDbl_sub il T ZZ XX YY). r1 Rx v Iv. r1 Ry w Iw. cbn [app fn2] in H. ox Ox RX SX DX. ox Oy RY SY DY.
    eapply (m_Dbl_sub c T il [] g X f m _ _ _ _ z x y v w); [exact Mz|exact Iv|exact Iw|unfold ov64; clear -DX; lia|unfold ov64; clear -DY; lia|md CT|clear -CT; lia|adz Az Rz|adz Ax RX|adz Ay RY|clear -CT; lia|].
    intros g' f' m' K' C' R'. cbn [wps]. apply H; [exact K'|apply xkeep_nil|apply chg_w2; [clear; lia|exact C']|apply mk_reads1; rewrite Z.add_0_r; exact R'|discriminate].
  Qed.
  Lemma a_subOpt1 : asp (in_FpDbl_subOpt1 il NT ZZ XX YY) (AR bz oz) (AR bx ox) (AR by_ oy) (r_dbl (dbl_subOpt1 c) (RAX :: g8)).
  Proof.
    ini (in_FpDbl_subOpt1 il NT ZZ XX YY). r1 Rx v Iv. r1 Ry w Iw. cbn [app fn2] in H. ox Ox RX SX DX. ox Oy RY SY DY.
    eapply (m_subOpt1 c il NT [] g X f m _ _ _ _ z x y v w); [exact Mz|exact Iv|exact Iw|exact NN|unfold ov64; clear -DY; lia|adz Az Rz|adz Ax RX|adz Ay RY|clear -CN; lia|].
    intros g' f' m' K' C' R'. cbn [wps]. apply H; [exact K'|apply xkeep_nil|apply chg_w2; [clear; lia|exact C']|apply mk_reads1; rewrite Z.add_0_r; exact R'|discriminate].
  Qed.
  Lemma a_add4 : asp (in_Fp_add il ZZ XX YY) (AR bz oz) (AR bx ox) (AR by_ oy) (r_fpT (fp_add c)).
  Proof.
    pose proof (n8 _ Nz) as Nz8. pose proof (n8 _ Nx) as Nx8. pose proof (n8 _ Ny) as Ny8.
    ini (in_Fp_add il ZZ XX YY). r1 Rx v Iv. r1 Ry w Iw. cbn [app fn2] in H. ox Ox RX SX DX. ox Oy RY SY DY. specialize (HR eq_refl).
    eapply (m_Fp_add c T il [] g X f m _ ltac:(md CT) _ _ _ z x y v w); [adz Az Rz|adz Ax RX|adz Ay RY|exact Mz|exact Iv|exact Iw|exact HR|].
    intros g' f' m' K' C' R'. cbn [wps]. apply H; [exact K'|apply xkeep_nil|apply chg_w2; [clear; lia|exact C']|apply mk_reads1; rewrite Z.add_0_r; exact R'|intros _; rewrite (K' RAX eq_refl); exact HR].
  Qed.
  Lemma a_sub4 : asp (in_Fp_sub il ZZ XX YY) (AR bz oz) (AR bx ox) (AR by_ oy) (r_fpT (fp_sub c)).
  Proof.
    pose proof (n8 _ Nz) as Nz8. pose proof (n8 _ Nx) as Nx8. pose proof (n8 _ Ny) as Ny8.
    ini (in_Fp_sub il ZZ XX YY). r1 Rx v Iv. r1 Ry w Iw. cbn [app fn2] in H. ox Ox RX SX DX. ox Oy RY SY DY. specialize (HR eq_refl).
    eapply (m_Fp_sub c T il [] g X f m _ ltac:(md CT) _ _ _ z x y v w); [adz Az Rz|adz Ax RX|adz Ay RY|exact Mz|exact Iv|exact Iw|exact HR|].
    intros g' f' m' K' C' R'. cbn [wps]. apply H; [exact K'|apply xkeep_nil|apply chg_w2; [clear; lia|exact C']|apply mk_reads1; rewrite Z.add_0_r; exact R'|intros _; rewrite (K' RAX eq_refl); exact HR].
  Qed.
  End N8.
  End B3.
  Local Notation P1 := (AR gp1 0).
  Local Notation P2 := (AR gp2 0).
  Local Notation P3 := (AR gp3 0).
  Lemma a_mulOpt mode1 : asp (Fp2Dbl_mulOpt il mx T NT mode1) P1 P2 P3 (r_mulOpt c mode1).
  Proof.
    ini (Fp2Dbl_mulOpt il mx T NT mode1). r2 Rx v v' Iv Iv'. r2 Ry w w' Iw Iw'. cbn [app fn22] in H. ox Ox RX SX DX. ox Oy RY SY DY.
    eapply (m_mulOpt c il mx mode1 T NT [] g X f m _ (sp - 128) z x y v v' w w'); [md CT|exact NN|ar|exact Az|exact Ax|exact Ay|exact Ms|exact Mz|exact Iv|exact Iv'|exact Iw|exact Iw'|ar|].
    intros g' f' m' K' C' R1 R2. cbn [wps]. apply H; [exact K'|apply xkeep_nil|exact C'|apply mk_reads2; [rewrite Z.add_0_r; exact R1|exact R2]|discriminate].
  Qed.
  Lemma a_dmul_xi : asp (Fp2Dbl_mul_xi il (snark c) T) P1 P2 AN (r_dmul_xi c).
  Proof.
    ini (Fp2Dbl_mul_xi il (snark c) T). r2 Rx v v' Iv Iv'. rewrite (reads0 _ _ _ Ry) in H. cbn [app fn12] in H. ox Ox RX SX DX.
    eapply (m_d2mul_xi c il T [] g X f m _ z x v v'); [md CT|exact Az|exact Ax|exact Mz|exact Iv|exact Iv'|ar|].
    intros g' f' m' K' C' R1 R2. cbn [wps]. apply H; [exact K'|apply xkeep_nil|apply chg_w2; [clear; lia|exact C']|apply mk_reads2; [rewrite Z.add_0_r; exact R1|exact R2]|discriminate].
  Qed.
  Lemma a_mod : asp (mont_mod mx T (cpp c)) P1 P2 AN (r_mod c).
  Proof.
    ini (mont_mod mx T (cpp c)). r1 Rx v Iv. rewrite (reads0 _ _ _ Ry) in H. cbn [app fn1] in H. ox Ox RX SX DX.
    eapply (m_mont_mod c mx T [] g X f m _ z x v); [md CT|ar|exact Az|exact Ax|ar|ar|exact Mz|exact Iv|].
    intros g' X' f' m' K' L' C' R1 XK. cbn [wps]. apply H; [|exact (xk_keep _ _ XK)|apply chg_w2; [clear; lia|exact C']|apply mk_reads1; rewrite Z.add_0_r; exact R1|discriminate].
    apply (keep_drop gp1); [|congruence]. eapply keep_sub; [|exact K']. reflexivity.
  Qed.
  Lemma a_mul : asp (Fp_mul mx T (cpp c)) P1 P2 P3 (r_mul c).
  Proof.
    ini (Fp_mul mx T (cpp c)). r1 Rx v Iv. r1 Ry w Iw. cbn [app fn2] in H. ox Ox RX SX DX. ox Oy RY SY DY.
    eapply (m_Fp_mul c mx T [] g X f m _ z x y v w); [md CT|ar|exact Az|exact Ax|exact Ay|ar|ar|ar|exact Mz|exact Iv|exact Iw|].
    intros g' X' f' m' K' L' C' R1 XK. cbn [wps]. apply H; [|exact (xk_keep _ _ XK)|apply chg_w2; [clear; lia|exact C']|apply mk_reads1; rewrite Z.add_0_r; exact R1|discriminate].
    apply (keep_drop gp1); [|congruence]. eapply keep_sub; [|exact K']. reflexivity.
  Qed.
  Lemma a_dsquare : asp (Fp2Dbl_square il mx T) P1 P2 AN (r_dsquare c).
  Proof.
    ini (Fp2Dbl_square il mx T). r2 Rx v v' Iv Iv'. rewrite (reads0 _ _ _ Ry) in H. cbn [app fn12] in H. ox Ox RX SX DX.
    eapply (m_d2square c il mx T [] g X f m _ (sp - 64) z x v v'); [md CT|ar|exact Az|exact Ax|exact Ms|exact Mz|exact Iv|exact Iv'|ar|].
    intros g' f' m' K' C' R1 R2. cbn [wps]. apply H; [exact K'|apply xkeep_nil|exact C'|apply mk_reads2; [rewrite Z.add_0_r; exact R1|exact R2]|discriminate].
  Qed.
  Lemma a_half2 : asp (Fp2_divBy2 T HF) P1 P2 AN (r_half2 c).
  Proof.
    ini (Fp2_divBy2 T HF). r2 Rx v v' Iv Iv'. rewrite (reads0 _ _ _ Ry) in H. cbn [app fn12] in H. ox Ox RX SX DX.
    eapply (m_f2divBy2 c T HF [] g X f m _ z x v v'); [exact HH|exact Az|exact Ax|exact Mz|exact Iv|exact Iv'|ar|].
    intros g' f' m' K' C' R1 R2. cbn [wps]. apply H; [exact K'|apply xkeep_nil|apply chg_w2; [clear; lia|exact C']|apply mk_reads2; [rewrite Z.add_0_r; exact R1|exact R2]|discriminate].
  Qed.
  Ltac ini' := 
    intros pc g X f m sp z x y vx vy Q A Gs Az Ax Ay Rx Ry TB Mz Ms Rs Rz Ox Oy Dzs CZ HP HR H;
    pose proof (cz_T _ _ _ _ _ _ _ _ CZ) as CT; clear CZ; pose proof (ctabs_p _ _ _ _ _ TB) as PT; clear TB; cbn [argv] in Az, Ax, Ay;
    unfold r_mul2, r_square2 in *; cbn [r_nz r_nx r_ny r_x r_y r_z r_ax r_ay r_clob r_xclob r_stk r_fn r_pre r_rin r_rax] in *; unfold disj in *; unfold W44 in *; nums.
  Lemma a_mul2 : has C L_FpDbl_mod (p_FpDbl_mod mx T (cpp c)) -> asp (Fp2_mul il mx T) P1 P2 P3 (r_mul2 c).
  Proof.
    intros HM. ini'. r2 Rx v v' Iv Iv'. r2 Ry w w' Iw Iw'. cbn [app fn22] in H. ox Ox RX SX DX. ox Oy RY SY DY.
    apply (w_Fp2_mul C c il mx T pc g X f m (sp - 256) z x y v v' w w' Q HM); [md CT|exact Az|exact Ax|exact Mz|exact Iv|exact Iv'|exact A|ar|exact Ay|exact Iw|exact Iw'| |ar|].
    { refine (eq_ind _ (fun q => mapped m q 33) Ms _ _). clear. lia. }
    intros g' X' f' m' K' XK C' R1 R2. apply H; [exact K'|exact (xk_keep _ _ XK)| |apply mk_reads2; [rewrite Z.add_0_r; exact R1|exact R2]|discriminate].
    refine (chg_sub _ _ _ _ _ C'). intros b Hb. apply off2 in Hb. apply off2. clear -Hb. lia.
  Qed.
  Lemma a_square2 : has C L_FpDbl_mod (p_FpDbl_mod mx T (cpp c)) -> asp (Fp2_square il mx (snark c) T) P1 P2 AN (r_square2 c).
  Proof.
    intros HM. ini'. r2 Rx v v' Iv Iv'. rewrite (reads0 _ _ _ Ry) in H. cbn [app fn12] in H. ox Ox RX SX DX.
    apply (w_Fp2_square C c il mx T pc g X f m (sp - 160) z x v v' Q HM); [md CT|exact Az|exact Ax|exact Mz|exact Iv|exact Iv'|exact A|ar| |ar|].
    { refine (eq_ind _ (fun q => mapped m q 21) Ms _ _). clear. lia. }
    intros g' X' f' m' K' XK C' R1 R2. apply H; [exact K'|exact (xk_keep _ _ XK)| |apply mk_reads2; [rewrite Z.add_0_r; exact R1|exact R2]|discriminate].
    refine (chg_sub _ _ _ _ _ C'). intros b Hb. apply off2 in Hb. apply off2. clear -Hb. lia.
  Qed.
End Base.
