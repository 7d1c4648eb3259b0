(** The generated functions on Fp2, called. *)
From Coq Require Import ZArith List Bool Lia.
From Verif Require Import X64 XLog JitSpec JitFpSpec XTac XReg JitFp JitMac JitMac2 JitMul JitMont JitMul4 JitMod JitZmApi JitFrame JitRep JitFpApi JitFpApi2 JitFp2 JitFp2Spec JitFp2Mac JitFp2Mac2 JitFp2Api.
From Verif Require Import Base Prim Primes FpSpec Cfg FpM TowerSpec TowerM.
Import ListNotations.
Local Open Scope Z_scope.
Local Notation find := X64.find.
Local Notation length := List.length.

Lemma has_at pre l sub post : forallb (fun i => match i with Lab l' => negb (l =? l') | _ => true end) pre = true ->
  has (pre ++ [Lab l] ++ sub ++ [Ret] ++ post) l ([Lab l] ++ sub ++ [Ret]).
Proof.
  intros H. exists (0 + Z.of_nat (length pre)). split; [apply find_app; exact H|].
  destruct (at_app _ 0 pre _ (at_self (pre ++ [Lab l] ++ sub ++ [Ret] ++ post))) as [_ A].
  assert (E : [Lab l] ++ sub ++ [Ret] ++ post = ([Lab l] ++ sub ++ [Ret]) ++ post) by (rewrite <- !app_assoc; reflexivity).
  rewrite E in A |- *. exact (proj1 (at_app _ _ _ _ A)).
Qed.
Lemma has_end pre l sub : forallb (fun i => match i with Lab l' => negb (l =? l') | _ => true end) pre = true -> has (pre ++ Lab l :: sub) l (Lab l :: sub).
Proof.
  intros H. exists (0 + Z.of_nat (length pre)). split; [apply find_app; exact H|]. exact (proj2 (at_app _ 0 pre _ (at_self _))).
Qed.
Lemma place_off k s a n : place k s a n -> 0 <= a /\ a + 8 * Z.of_nat n <= B /\ (a + 8 * Z.of_nat n <= rsp (rg s) - 8 * Z.of_nat k \/ rsp (rg s) + 8 <= a).
Proof. intros [[H1 H2] H3]. unfold apart in H3. lia. Qed.
(** what a frame leaves of the memory *)
Section Pro.
  Variables (k : nat) (s : state) (e : Z) (m1 : memory).
  Hypothesis He : 0 <= e <= 8 * Z.of_nat k.
  Hypothesis C1 : chg [(rsp (rg s) - e, e)] (mem s) m1.
  Lemma pro_at a N o n x : place k s a N -> 0 <= o -> o + 8 * Z.of_nat n <= 8 * Z.of_nat N -> int_at (mem s) (a + o) n x -> int_at m1 (a + o) n x.
  Proof.
    intros Hp H1 H2 H. apply place_off in Hp. refine (int_at_chg _ _ _ _ _ _ C1 _ H). apply Forall_cons; [|apply Forall_nil]. unfold clear_of. cbn [fst snd]. lia.
  Qed.
  Lemma pro_pair w a x : place k s a (2 * w) -> pair w (mem s) a x -> int_at m1 a w (a2 x) /\ int_at m1 (a + 8 * Z.of_nat w) w (b2 x).
  Proof.
    intros Hp [H1 H2]. split.
    - rewrite <- (Z.add_0_r a). apply (pro_at a (2 * w) 0 w _ Hp); [lia|lia|rewrite Z.add_0_r; exact H1].
    - apply (pro_at a (2 * w) _ w _ Hp); [lia|lia|exact H2].
  Qed.
  Lemma pro_tab c T : table c k s T -> modulus c m1 T.
  Proof.
    intros [H Hp]. split; [|destruct Hp as [[A1 A2] _]; lia]. rewrite <- (Z.add_0_r T). apply (pro_at T 4 0 4 _ Hp); [lia|lia|rewrite Z.add_0_r; exact H].
  Qed.
End Pro.

Section Api.
  Variables (c : cfg) (il mx : bool) (T : Z) (s : state) (x y : F2 Z).
  Notation g := (rg s).
  Notation sp := (rsp (rg s)).
  Ltac ni ::= nic.
  Ltac kp ::= kpc.
  Ltac nolab := destruct il, mx, c; reflexivity.
  Ltac nums := change (8 * Z.of_nat 40) with 320 in *; change (8 * Z.of_nat 28) with 224 in *; change (8 * Z.of_nat 23) with 184 in *; change (8 * Z.of_nat 14) with 112 in *;
    change (8 * Z.of_nat 16) with 128 in *; change (8 * Z.of_nat 7) with 56 in *; change (8 * Z.of_nat 3) with 24 in *;
    change (8 * Z.of_nat 8) with 64 in *; change (8 * Z.of_nat 4) with 32 in *; change (8 * Z.of_nat 1) with 8 in *; change (8 * Z.of_nat (2 * 4)) with 64 in *; change (8 * Z.of_nat (2 * 8)) with 128 in *;
    change (2 * 4)%nat with 8%nat in *; change (2 * 8)%nat with 16%nat in *;
    change (8 * (10 - 3)) with 56 in *; change (8 * (9 - 3)) with 48 in *; change (8 * (7 - 3)) with 32 in *; change (8 * (10 - 4)) with 48 in *; change (8 * (7 - 4)) with 24 in *;
    change (8 * 33) with 264 in *; change (8 * 21) with 168 in *; change (8 * 16) with 128 in *; change (8 * 8) with 64 in *; change (8 * 0) with 0 in *; change (8 * 1) with 8 in *.
  Ltac arith := match goal with Hst : stack _ s, Hc : called _ s |- _ =>
    let S1 := fresh "S" in let S2 := fresh "MS" in let B1 := fresh "B" in let B2 := fresh "B" in
    pose proof (proj1 Hst) as S1; pose proof (proj2 Hst) as S2; pose proof (proj1 (proj2 Hc)) as B1; pose proof (proj2 (proj2 Hc)) as B2 end;
    repeat match goal with H : place _ s ?a _ |- _ => lazymatch goal with K : 0 <= a /\ _ |- _ => fail | _ => idtac end; let R := fresh "RNG" in pose proof (place_off _ _ _ _ H) as R end;
    repeat match goal with H : table _ _ s ?a |- _ => lazymatch goal with K : 0 <= a /\ _ |- _ => fail | _ => idtac end; let R := fresh "RNG" in pose proof (place_off _ _ _ _ (proj2 H)) as R end;
    unfold same_or_apart in *; unfold apart in *; nums.
  Ltac ar := repeat match goal with H : ?P |- _ => lazymatch P with pair _ _ _ _ => clear H | int_at _ _ _ _ => clear H | mapped _ _ _ => clear H | chg _ _ _ => clear H | keep _ _ _ => clear H | at_ _ _ _ => clear H | has _ _ _ => clear H
    | called _ _ => clear H | table _ _ _ _ => clear H | place _ _ _ _ => clear H | modulus _ _ _ => clear H | stack _ _ => clear H | forall _, _ => clear H | half_table _ _ _ => clear H | p_table _ _ _ => clear H | n_table _ _ _ => clear H end end; lia.
  Ltac asm_ := match goal with H : ?P |- ?P => exact H end.
  Ltac cg C2 := refine (chg_sub _ _ _ _ _ C2); let b := fresh in let Hb := fresh in intros b Hb; first [apply off2 in Hb | apply off1 in Hb]; first [apply off2 | apply off1 ]; clear -Hb; lia.
  Ltac mps j := match goal with C1 : chg _ (mem s) _, S2 : mapped (mem s) _ _ |- _ => refine (chg_mapped _ _ _ _ _ C1 (mapped_at _ _ _ _ _ S2 j _ _)); [clear; lia | apply Nat.leb_le; reflexivity] end.
  Ltac mpo := match goal with C1 : chg _ (mem s) _, Mo : mapped (mem s) (rdi _) _ |- _ => exact (chg_mapped _ _ _ _ _ C1 Mo) end.

  Lemma Fp2_mul_api : call2 (make_Fp2_mul il mx T (cpp c)) 40 8 8 s -> table c 40 s T -> apart (rdi g) 8 T 4 ->
    pair 4 (mem s) (rsi g) x -> pair 4 (mem s) (rdx g) y ->
    calls (make_Fp2_mul il mx T (cpp c)) s (fun s' => pair 4 (mem s') (rdi g) (f2_mul c x y) /\ only 40 (rdi g) 8 s s').
  Proof.
    intros (Hc & Hst & Ho & Hx & Hy & Mo) HT OT Ix Iy. set (C := make_Fp2_mul il mx T (cpp c)) in *.
    assert (HM : has C L_FpDbl_mod (p_FpDbl_mod mx T (cpp c))).
    { unfold C, make_Fp2_mul. rewrite !app_assoc. refine (has_end _ L_FpDbl_mod (mont_mod mx T (cpp c) ++ [Ret]) _). nolab. }
    apply (call_gen C 10 L_Fp2_mul (Fp2_mul il mx T) 33 40 (gp2 :: gall) (rdi g) 8 s (fun m => pair 4 m (rdi g) (f2_mul c x y))); try asm_; try reflexivity; try (clear; lia).
    - exact (proj1 (at_app C 0 _ _ (at_self C))).
    - exact (has_at (frame 10 0 [Call L_Fp2_mul]) L_Fp2_mul (Fp2_mul il mx T) (p_FpDbl_mod mx T (cpp c)) eq_refl).
    - arith. intros pc g1 f1 m1 Q A K1 G1 G9 C1 H. nums.
      assert (E : 0 <= 56 <= 8 * Z.of_nat 40) by (clear; lia).
      destruct (pro_pair _ _ _ _ E C1 4 _ _ Hx Ix) as [X1 X2]. destruct (pro_pair _ _ _ _ E C1 4 _ _ Hy Iy) as [Y1 Y2]. pose proof (pro_tab _ _ _ _ E C1 c T HT) as HM1. nums.
      eapply (w_Fp2_mul C c il mx T pc g1 (xm s) f1 m1 (sp - 312) (rdi g) (rsi g) (rdx g) (a2 x) (b2 x) (a2 y) (b2 y) Q); try asm_.
      + rewrite (K1 RDI eq_refl). reflexivity.
      + rewrite (K1 RSI eq_refl). reflexivity.
      + mpo.
      + rewrite G1. clear; lia.
      + mps 0%nat.
      + ar.
      + intros g2 X2' f2 m2 K2 XK C2 R1 R2. apply (H g2 X2' f2 m2); [exact K2|cg C2|].
        split; [destruct x, y; exact R1|destruct x, y; exact R2].
  Qed.
  Lemma Fp2_square_api : call1 (make_Fp2_square il mx (snark c) T (cpp c)) 28 8 8 s -> table c 28 s T -> apart (rdi g) 8 T 4 -> same_or_apart (rdi g) (rsi g) 8 ->
    pair 4 (mem s) (rsi g) x ->
    calls (make_Fp2_square il mx (snark c) T (cpp c)) s (fun s' => pair 4 (mem s') (rdi g) (f2_square c x) /\ only 28 (rdi g) 8 s s').
  Proof.
    intros (Hc & Hst & Ho & Hx & Mo) HT OT OX Ix. set (C := make_Fp2_square il mx (snark c) T (cpp c)) in *.
    assert (HM : has C L_FpDbl_mod (p_FpDbl_mod mx T (cpp c))).
    { unfold C, make_Fp2_square. rewrite !app_assoc. refine (has_end _ L_FpDbl_mod (mont_mod mx T (cpp c) ++ [Ret]) _). nolab. }
    apply (call_gen C 10 L_Fp2_square (Fp2_square il mx (snark c) T) 21 28 (gp2 :: gall) (rdi g) 8 s (fun m => pair 4 m (rdi g) (f2_square c x))); try asm_; try reflexivity; try (clear; lia).
    - exact (proj1 (at_app C 0 _ _ (at_self C))).
    - exact (has_at (frame 10 0 [Call L_Fp2_square]) L_Fp2_square (Fp2_square il mx (snark c) T) (p_FpDbl_mod mx T (cpp c)) eq_refl).
    - arith. intros pc g1 f1 m1 Q A K1 G1 G9 C1 H. nums.
      assert (E : 0 <= 56 <= 8 * Z.of_nat 28) by (clear; lia).
      destruct (pro_pair _ _ _ _ E C1 4 _ _ Hx Ix) as [X1 X2]. pose proof (pro_tab _ _ _ _ E C1 c T HT) as HM1. nums.
      eapply (w_Fp2_square C c il mx T pc g1 (xm s) f1 m1 (sp - 216) (rdi g) (rsi g) (a2 x) (b2 x) Q); try asm_.
      + rewrite (K1 RDI eq_refl). reflexivity.
      + rewrite (K1 RSI eq_refl). reflexivity.
      + mpo.
      + rewrite G1. clear; lia.
      + mps 0%nat.
      + ar.
      + intros g2 X2' f2 m2 K2 XK C2 R1 R2. apply (H g2 X2' f2 m2); [exact K2|cg C2|].
        split; [destruct x; exact R1|destruct x; exact R2].
  Qed.
  Lemma Fp2Dbl_mulOpt_api NT mode1 : call2 (make_Fp2Dbl_mulOpt il mx T NT mode1) 23 16 8 s -> table c 23 s T -> n_table c (mem s) NT -> place 23 s NT 8 ->
    apart (rdi g) 16 T 4 -> apart (rdi g) 16 NT 8 -> apart (rdi g) 16 (rsi g) 8 -> apart (rdi g) 16 (rdx g) 8 ->
    pair 4 (mem s) (rsi g) x -> pair 4 (mem s) (rdx g) y ->
    calls (make_Fp2Dbl_mulOpt il mx T NT mode1) s (fun s' => pair 8 (mem s') (rdi g) (d2_mulOpt c mode1 x y) /\ only 23 (rdi g) 16 s s').
  Proof.
    intros (Hc & Hst & Ho & Hx & Hy & Mo) HT HN PN OT ON OX OY Ix Iy. set (C := make_Fp2Dbl_mulOpt il mx T NT mode1) in *.
    apply (call_gen C 10 L_Fp2Dbl_mulOpt (Fp2Dbl_mulOpt il mx T NT mode1) 16 23 gmul (rdi g) 16 s (fun m => pair 8 m (rdi g) (d2_mulOpt c mode1 x y))); try asm_; try reflexivity; try (clear; lia).
    - exact (proj1 (at_app C 0 _ _ (at_self C))).
    - exact (has_end (frame 10 0 [Call L_Fp2Dbl_mulOpt]) L_Fp2Dbl_mulOpt (Fp2Dbl_mulOpt il mx T NT mode1 ++ [Ret]) eq_refl).
    - arith. intros pc g1 f1 m1 Q A K1 G1 G9 C1 H. nums.
      assert (E : 0 <= 56 <= 8 * Z.of_nat 23) by (clear; lia).
      destruct (pro_pair _ _ _ _ E C1 4 _ _ Hx Ix) as [X1 X2]. destruct (pro_pair _ _ _ _ E C1 4 _ _ Hy Iy) as [Y1 Y2]. pose proof (pro_tab _ _ _ _ E C1 c T HT) as HM1.
      assert (HN1 : int_at m1 NT 8 (cp c * W / 4)).
      { rewrite <- (Z.add_0_r NT). apply (pro_at 23 _ _ _ E C1 NT 8 0 8 _ PN); [clear; lia|clear; lia|rewrite Z.add_0_r; exact HN]. }
      nums. apply (wp_block _ _ _ _ _ A). rewrite <- (app_nil_r (Fp2Dbl_mulOpt _ _ _ _ _)) at 1.
      eapply (m_mulOpt c il mx mode1 T NT [] g1 (xm s) f1 m1 _ (sp - 184) (rdi g) (rsi g) (rdx g) (a2 x) (b2 x) (a2 y) (b2 y)); try asm_.
      + rewrite G1. clear; lia.
      + rewrite (K1 RDI eq_refl). reflexivity.
      + rewrite (K1 RSI eq_refl). reflexivity.
      + mps 0%nat.
      + mpo.
      + ar.
      + intros g2 f2 m2 K2 C2 R1 R2. cbn [wps]. apply (H g2 (xm s) f2 m2); [exact K2|cg C2|].
        split; [destruct x, y; exact R1|destruct x, y; exact R2].
  Qed.
  Lemma Fp2Dbl_square_api : call1 (make_Fp2Dbl_square il mx T) 14 16 8 s -> table c 14 s T -> apart (rdi g) 16 T 4 -> apart (rdi g) 16 (rsi g) 8 -> pair 4 (mem s) (rsi g) x ->
    calls (make_Fp2Dbl_square il mx T) s (fun s' => pair 8 (mem s') (rdi g) (d2_square c x) /\ only 14 (rdi g) 16 s s').
  Proof.
    intros (Hc & Hst & Ho & Hx & Mo) HT OT OX Ix. set (C := make_Fp2Dbl_square il mx T) in *.
    apply (call_gen C 9 L_Fp2Dbl_square (Fp2Dbl_square il mx T) 8 14 gsq (rdi g) 16 s (fun m => pair 8 m (rdi g) (d2_square c x))); try asm_; try reflexivity; try (clear; lia).
    - exact (proj1 (at_app C 0 _ _ (at_self C))).
    - exact (has_end (frame 9 0 [Call L_Fp2Dbl_square]) L_Fp2Dbl_square (Fp2Dbl_square il mx T ++ [Ret]) eq_refl).
    - arith. intros pc g1 f1 m1 Q A K1 G1 G9 C1 H. nums.
      assert (E : 0 <= 48 <= 8 * Z.of_nat 14) by (clear; lia).
      destruct (pro_pair _ _ _ _ E C1 4 _ _ Hx Ix) as [X1 X2]. pose proof (pro_tab _ _ _ _ E C1 c T HT) as HM1. nums.
      apply (wp_block _ _ _ _ _ A). rewrite <- (app_nil_r (Fp2Dbl_square _ _ _)) at 1.
      eapply (m_d2square c il mx T [] g1 (xm s) f1 m1 _ (sp - 112) (rdi g) (rsi g) (a2 x) (b2 x)); try asm_.
      + rewrite G1. clear; lia.
      + rewrite (K1 RDI eq_refl). reflexivity.
      + rewrite (K1 RSI eq_refl). reflexivity.
      + mps 0%nat.
      + mpo.
      + ar.
      + intros g2 f2 m2 K2 C2 R1 R2. cbn [wps]. apply (H g2 (xm s) f2 m2); [exact K2|cg C2|].
        split; [destruct x; exact R1|destruct x; exact R2].
  Qed.
  Lemma Fp2Dbl_mul_xi_api : call1 (make_Fp2Dbl_mul_xi il (snark c) T) 4 16 16 s -> table c 4 s T -> apart (rdi g) 16 T 4 -> apart (rdi g) 16 (rsi g) 16 -> pair 8 (mem s) (rsi g) x ->
    calls (make_Fp2Dbl_mul_xi il (snark c) T) s (fun s' => pair 8 (mem s') (rdi g) (d2_mul_xi c x) /\ only 4 (rdi g) 16 s s').
  Proof.
    intros (Hc & Hst & Ho & Hx & Mo) HT OT OX Ix. set (C := make_Fp2Dbl_mul_xi il (snark c) T) in *.
    apply (call_gen C 7 L_Fp2Dbl_mul_xi (Fp2Dbl_mul_xi il (snark c) T) 0 4 (RAX :: g8) (rdi g) 16 s (fun m => pair 8 m (rdi g) (d2_mul_xi c x))); try asm_; try reflexivity; try (clear; lia).
    - exact (proj1 (at_app C 0 _ _ (at_self C))).
    - exact (has_end (frame 7 0 [Call L_Fp2Dbl_mul_xi]) L_Fp2Dbl_mul_xi (Fp2Dbl_mul_xi il (snark c) T ++ [Ret]) eq_refl).
    - arith. intros pc g1 f1 m1 Q A K1 G1 G9 C1 H. nums.
      assert (E : 0 <= 32 <= 8 * Z.of_nat 4) by (clear; lia).
      destruct (pro_pair _ _ _ _ E C1 8 _ _ Hx Ix) as [X1 X2]. pose proof (pro_tab _ _ _ _ E C1 c T HT) as HM1. nums.
      apply (wp_block _ _ _ _ _ A). rewrite <- (app_nil_r (Fp2Dbl_mul_xi _ _ _)) at 1.
      eapply (m_d2mul_xi c il T [] g1 (xm s) f1 m1 _ (rdi g) (rsi g) (a2 x) (b2 x)); try asm_.
      + rewrite (K1 RDI eq_refl). reflexivity.
      + rewrite (K1 RSI eq_refl). reflexivity.
      + mpo.
      + ar.
      + intros g2 f2 m2 K2 C2 R1 R2. cbn [wps]. apply (H g2 (xm s) f2 m2); [exact K2|cg C2|].
        split; [destruct x; exact R1|destruct x; exact R2].
  Qed.
  Lemma Fp2_divBy2_api HF : call1 (make_Fp2_divBy2 T HF) 4 8 8 s -> half_table c (mem s) HF -> place 4 s HF 8 -> 0 <= T < B -> apart (rdi g) 8 HF 8 -> same_or_apart (rdi g) (rsi g) 8 -> pair 4 (mem s) (rsi g) x ->
    calls (make_Fp2_divBy2 T HF) s (fun s' => pair 4 (mem s') (rdi g) (f2_divBy2 c x) /\ only 4 (rdi g) 8 s s').
  Proof.
    intros (Hc & Hst & Ho & Hx & Mo) HH PH RT OT OX Ix. set (C := make_Fp2_divBy2 T HF) in *.
    apply (call_gen C 7 L_Fp2_divBy2 (Fp2_divBy2 T HF) 0 4 (RAX :: g8) (rdi g) 8 s (fun m => pair 4 m (rdi g) (f2_divBy2 c x))); try asm_; try reflexivity; try (clear; lia).
    - exact (proj1 (at_app C 0 _ _ (at_self C))).
    - exact (has_end (frame 7 0 [Call L_Fp2_divBy2]) L_Fp2_divBy2 (Fp2_divBy2 T HF ++ [Ret]) eq_refl).
    - arith. intros pc g1 f1 m1 Q A K1 G1 G9 C1 H. nums.
      assert (E : 0 <= 32 <= 8 * Z.of_nat 4) by (clear; lia).
      destruct (pro_pair _ _ _ _ E C1 4 _ _ Hx Ix) as [X1 X2]. nums.
      assert (HH1 : half_table c m1 HF).
      { split; [rewrite <- (Z.add_0_r HF)|]; (eapply (pro_at 4 _ _ _ E C1 HF 8); [exact PH|clear; lia|clear; lia|]); [rewrite Z.add_0_r; exact (proj1 HH)|exact (proj2 HH)]. }
      apply (wp_block _ _ _ _ _ A). rewrite <- (app_nil_r (Fp2_divBy2 _ _)) at 1.
      eapply (m_f2divBy2 c T HF [] g1 (xm s) f1 m1 _ (rdi g) (rsi g) (a2 x) (b2 x)); try asm_.
      + rewrite (K1 RDI eq_refl). reflexivity.
      + rewrite (K1 RSI eq_refl). reflexivity.
      + mpo.
      + ar.
      + intros g2 f2 m2 K2 C2 R1 R2. cbn [wps]. apply (H g2 (xm s) f2 m2); [exact K2|cg C2|].
        split; [exact R1|exact R2].
  Qed.
  Lemma Fp2_mul_xi_api : call1 (make_Fp2_mul_xi il mx (snark c) T) 3 8 8 s -> p_table c (mem s) T -> place 3 s (T - 32) 40 -> apart (rdi g) 8 (T - 32) 40 -> same_or_apart (rdi g) (rsi g) 8 ->
    pair 4 (mem s) (rsi g) x -> 0 <= a2 x < cp c -> 0 <= b2 x < cp c ->
    calls (make_Fp2_mul_xi il mx (snark c) T) s (fun s' => pair 4 (mem s') (rdi g) (if rdi g =? rsi g then f2_mul_xi_alias c x else f2_mul_xi c x) /\ only 3 (rdi g) 8 s s').
  Proof.
    intros (Hc & Hst & Ho & Hx & Mo) HP PP OT OX Ix La Lb. unfold make_Fp2_mul_xi in *. 
    apply (frame0b 7 _ 3 (RAX :: g8) (rdi g) 8 s (fun m => pair 4 m (rdi g) (if rdi g =? rsi g then f2_mul_xi_alias c x else f2_mul_xi c x))); try asm_; try reflexivity; try (clear; lia).
    arith. change (8 * Z.of_nat 40) with 320 in *. intros g1 f1 m1 Q K1 G9 C1 H. nums.
    assert (E : 0 <= 24 <= 8 * Z.of_nat 3) by (clear; lia).
    destruct (pro_pair _ _ _ _ E C1 4 _ _ Hx Ix) as [X1 X2]. nums.
    assert (HP1 : p_table c m1 T).
    { intros i Hi. apply (pro_at 3 _ _ _ E C1 (T - 32) 40 (32 * i) 4 _ PP); [clear -Hi; lia|clear -Hi; lia|exact (HP i Hi)]. }
    rewrite <- (app_nil_r (in_Fp2_mul_xi _ _ _ _ _ _)) at 1.
    eapply (m_mul_xi c il mx T [] g1 (xm s) f1 m1 _ (rdi g) (rsi g) (a2 x) (b2 x)); try asm_.
    + rewrite (K1 RDI eq_refl). reflexivity.
    + rewrite (K1 RSI eq_refl). reflexivity.
    + mpo.
    + ar.
    + intros g2 f2 m2 K2 C2 r R1 R2. cbn [wps]. apply (H g2 (xm s) f2 m2); [exact K2|exact C2|].
      subst r. split; [destruct x; exact R1|destruct x; exact R2].
  Qed.
  Lemma Fp2Dbl_mod_api : call1 (make_Fp2Dbl_mod mx T (cpp c)) 7 8 16 s -> table c 7 s T -> apart (rdi g) 8 T 4 -> apart (rdi g) 8 (rsi g) 16 \/ rdi g = rsi g -> pair 8 (mem s) (rsi g) x ->
    calls (make_Fp2Dbl_mod mx T (cpp c)) s (fun s' => pair 4 (mem s') (rdi g) (d2_mod c x) /\ only 7 (rdi g) 8 s s').
  Proof.
    intros (Hc & Hst & Ho & Hx & Mo) HT OT OX Ix. set (C := make_Fp2Dbl_mod mx T (cpp c)) in *.
    destruct (has_end (frame 10 0 in_Fp2Dbl_mod) L_FpDbl_mod (mont_mod mx T (cpp c) ++ [Ret]) eq_refl) as (t & Ft & At).
    apply (frame0 C in_Fp2Dbl_mod 10 1 7 (gp2 :: gall) (rdi g) 8 s (fun m => pair 4 m (rdi g) (d2_mod c x))); try asm_; try reflexivity; try (clear; lia).
    - exact (proj1 (at_app C 0 _ _ (at_self C))).
    - change (getr g RSP) with sp. arith. intros pc g1 f1 m1 Q A K1 G1 G9 C1 H. nums.
      assert (E : 0 <= 48 <= 8 * Z.of_nat 7) by (clear; lia).
      destruct (pro_pair _ _ _ _ E C1 8 _ _ Hx Ix) as [X1 X2]. pose proof (pro_tab _ _ _ _ E C1 c T HT) as HM1. nums.
      assert (TU : 0 <= T < Base.B) by ar.
      assert (Gd : getr g1 RDI = rdi g) by (rewrite (K1 RDI eq_refl); reflexivity).
      assert (Gs : getr g1 RSI = rsi g) by (rewrite (K1 RSI eq_refl); reflexivity).
      assert (M8 : mapped m1 (sp - 56) 1) by mps 0%nat.
      assert (MZ : mapped m1 (rdi g) 8) by mpo.
      unfold in_Fp2Dbl_mod in A.
      pose proof (at_app C pc [MovqX X64.X2 gp2] _ A) as [A1 A2]. apply (wp_block _ _ _ _ _ A1). eapply k_movqx; [exact Gs|]. cbn [wps].
      st A2 Fc. eapply (c_mod C c mx T t _ g1 _ f1 m1 (sp - 48) (rdi g) (rsi g) (a2 x) Q); [exact G1|exact Gd|exact Gs|exact HM1|exact TU|replace (sp - 48 - 8) with (sp - 56) by (clear; lia); exact M8|
        refine (mapped_at _ _ _ _ _ MZ 0 _ _); [clear; lia|apply Nat.leb_le; reflexivity]|exact Ft|exact At|exact Fc|exact X1|ar|].
      intros g2 Xb f2 m2 K2 L2 C2 R2 XK2. mv ltac:(ar) C2.
      pose proof (at_app C _ [MovqR gp2 X64.X2; X64.Add (R gp2) (Im 64); X64.Add (R gp1) (Im 32)] _ A2) as [A3 A4]. clear A2. apply (wp_block _ _ _ _ _ A3).
      eapply k_movqr with (v := rsi g); [rewrite (proj1 XK2); destruct (xm s); reflexivity|]. intros g3 K3 L3.
      eapply k_addx with (a := rsi g); [gr|apply rd_imm; clear -RNG; rewrite B_val; lia|ar|]. intros g4' f4 K4 L4.
      eapply k_addx with (a := rdi g); [gr|apply rd_imm; rewrite B_val; clear; lia|ar|]. intros g5 f5 K5 L5. cbn [wps].
      st A4 Fd. let MM := mT in eapply (c_mod C c mx T t _ g5 Xb f5 m2 (sp - 48) (rdi g + 32) (rsi g + 64) (b2 x) Q); [gr|exact L5|gr|exact MM|exact TU|replace (sp - 48 - 8) with (sp - 56) by (clear; lia); exact M8|
        refine (mapped_at _ _ _ _ _ MZ 4 _ _); [clear; lia|apply Nat.leb_le; reflexivity]|exact Ft|exact At|exact Fd|im|ar|].
      intros g6 Xc f6 m6 K6 L6 C6 R6 XK6. mv ltac:(ar) C6.
      match goal with |- wp C ?a _ _ => replace a with (pc + 6) by (cbn [List.length]; change (Z.of_nat 1) with 1; change (Z.of_nat 3) with 3; clear; lia) end.
      apply (H g6 Xc f6 m6); [kpc|chw ltac:(fun Hw => clear -Hw; lia)|]. split; im.
  Qed.
  Lemma Fp2_mul_Fp_0_api b : call2 (make_Fp2_mul_Fp_0 mx T (cpp c)) 7 8 8 s -> table c 7 s T -> apart (rdi g) 8 T 4 -> same_or_apart (rdi g) (rsi g) 8 -> apart (rdi g) 8 (rdx g) 4 ->
    pair 4 (mem s) (rsi g) x -> int_at (mem s) (rdx g) 4 b ->
    calls (make_Fp2_mul_Fp_0 mx T (cpp c)) s (fun s' => pair 4 (mem s') (rdi g) (f2_mul_Fp_0 c x b) /\ only 7 (rdi g) 8 s s').
  Proof.
    intros (Hc & Hst & Ho & Hx & Hy & Mo) HT OT OX OY Ix Iy. set (C := make_Fp2_mul_Fp_0 mx T (cpp c)) in *.
    destruct (has_end (frame 10 0 Fp2_mul_Fp_0) L_Fp_mul (Fp_mul mx T (cpp c) ++ [Ret]) eq_refl) as (t & Ft & At).
    apply (frame0 C Fp2_mul_Fp_0 10 1 7 (gp2 :: gall) (rdi g) 8 s (fun m => pair 4 m (rdi g) (f2_mul_Fp_0 c x b))); try asm_; try reflexivity; try (clear; lia).
    - exact (proj1 (at_app C 0 _ _ (at_self C))).
    - change (getr g RSP) with sp. arith. intros pc g1 f1 m1 Q A K1 G1 G9 C1 H. nums.
      assert (E : 0 <= 48 <= 8 * Z.of_nat 7) by (clear; lia).
      destruct (pro_pair _ _ _ _ E C1 4 _ _ Hx Ix) as [X1 X2]. pose proof (pro_tab _ _ _ _ E C1 c T HT) as HM1.
      assert (Y1 : int_at m1 (rdx g) 4 b). { rewrite <- (Z.add_0_r (rdx g)). apply (pro_at 7 _ _ _ E C1 _ 8 0 4 _ Hy); [clear; lia|clear; lia|rewrite Z.add_0_r; exact Iy]. }
      nums.
      assert (TU : 0 <= T < Base.B) by ar.
      assert (Gd : getr g1 RDI = rdi g) by (rewrite (K1 RDI eq_refl); reflexivity).
      assert (Gs : getr g1 RSI = rsi g) by (rewrite (K1 RSI eq_refl); reflexivity).
      assert (M8 : mapped m1 (sp - 56) 1) by mps 0%nat.
      assert (MZ : mapped m1 (rdi g) 8) by mpo.
      unfold Fp2_mul_Fp_0 in A.
      pose proof (at_app C pc [MovqX X64.X2 gp3] _ A) as [A1 A2]. apply (wp_block _ _ _ _ _ A1). eapply k_movqx; [exact G9|]. cbn [wps].
      st A2 Fc. eapply (c_mul C c mx T t _ g1 _ f1 m1 (sp - 48) (rdi g) (rsi g) (rdx g) (a2 x) b Q); [exact G1|exact Gd|exact Gs|exact HM1|exact TU|replace (sp - 48 - 8) with (sp - 56) by (clear; lia); exact M8|
        refine (mapped_at _ _ _ _ _ MZ 0 _ _); [clear; lia|apply Nat.leb_le; reflexivity]|exact Ft|exact At|exact Fc|exact G9|exact X1|exact Y1|ar|].
      intros g2 Xb f2 m2 K2 L2 C2 R2 XK2. mv ltac:(ar) C2.
      pose proof (at_app C _ [MovqR gp3 X64.X2; X64.Add (R gp1) (Im 32); X64.Add (R gp2) (Im 32)] _ A2) as [A3 A4]. clear A2. apply (wp_block _ _ _ _ _ A3).
      eapply k_movqr with (v := rdx g); [rewrite (proj1 XK2); destruct (xm s); reflexivity|]. intros g3 K3 L3.
      eapply k_addx with (a := rdi g); [gr|apply rd_imm; rewrite B_val; clear; lia|ar|]. intros g5 f5 K5 L5.
      eapply k_addx with (a := rsi g); [gr|apply rd_imm; rewrite B_val; clear; lia|ar|]. intros g4' f4 K4 L4. cbn [wps].
      st A4 Fd. let MM := mT in eapply (c_mul C c mx T t _ g4' Xb f4 m2 (sp - 48) (rdi g + 32) (rsi g + 32) (rdx g) (b2 x) b Q); [gr|gr|exact L4|exact MM|exact TU|replace (sp - 48 - 8) with (sp - 56) by (clear; lia); exact M8|
        refine (mapped_at _ _ _ _ _ MZ 4 _ _); [clear; lia|apply Nat.leb_le; reflexivity]|exact Ft|exact At|exact Fd|gr|im|im|ar|].
      intros g6 Xc f6 m6 K6 L6 C6 R6 XK6. mv ltac:(ar) C6.
      match goal with |- wp C ?a _ _ => replace a with (pc + 6) by (cbn [List.length]; change (Z.of_nat 1) with 1; change (Z.of_nat 3) with 3; clear; lia) end.
      apply (H g6 Xc f6 m6); [kpc|chw ltac:(fun Hw => clear -Hw; lia)|]. split; im.
  Qed.
End Api.
