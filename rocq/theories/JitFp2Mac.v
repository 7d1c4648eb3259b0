(** What the straight-line parts of the functions on Fp2 (JitFp2) do. *)
From Coq Require Import ZArith List Bool Lia.
From Verif Require Import Base Prim Primes FpSpec Cfg FpM X64 XLog JitSpec XTac XReg JitFp JitMac JitMac2 JitMul JitMont JitMul4 JitMod JitFrame JitFp2.
Import ListNotations.
Local Open Scope Z_scope.

Lemma co4 a b n : a + 32 <= b \/ b + n <= a -> clear_of a (8 * Z.of_nat 4) (b, n).
Proof. exact (fun H => H). Qed.
Lemma co8 a b n : a + 64 <= b \/ b + n <= a -> clear_of a (8 * Z.of_nat 8) (b, n).
Proof. exact (fun H => H). Qed.
Lemma co16 a b n : a + 128 <= b \/ b + n <= a -> clear_of a (8 * Z.of_nat 16) (b, n).
Proof. exact (fun H => H). Qed.
(** what is known of the memory before a change, after it; [SEP] says what overlaps what *)
Ltac apartl s := repeat (apply Forall_cons; [first [apply co4 | apply co8 | apply co16]; s|]); apply Forall_nil.
Ltac mv s C := lazymatch type of C with chg _ ?m ?m' =>
  repeat match goal with
  | H : int_at m ?a ?n ?x |- _ => 
      first [ let H' := fresh "I" in assert (H' : int_at m' a n x) by (refine (int_at_chg _ _ _ _ _ _ C _ H); apartl s); clear H | clear H ]
  | H : mapped m _ _ |- _ => apply (chg_mapped _ _ _ _ _ C) in H
  | H : modulus ?c m ?T |- _ => 
      first [ let H' := fresh "MT" in assert (H' : modulus c m' T) by (split; [refine (int_at_chg _ _ _ _ _ _ C _ (proj1 H)); apartl s | exact (proj2 H)]); clear H | clear H ]
  end end.
(** address of [base + displacement] *)
Ltac ad s := eapply isat_ad; [reflexivity | gr | s | s | s].
Ltac im := lazymatch goal with |- int_at ?m ?a ?n _ => first [match goal with H : int_at m a n _ |- _ => exact H end
  | match goal with H : int_at m _ n _ |- _ => refine (int_at_eq _ _ _ _ _ H _); solve [clear; lia] end] end.
Lemma mapped_at m a (N : nat) b (n : nat) : mapped m a N -> forall j : nat, b = a + 8 * Z.of_nat j -> (j + n <= N)%nat -> mapped m b n.
Proof.
  intros H j -> Hn. replace N with (j + (n + (N - j - n)))%nat in H by lia. apply mapped_app in H. destruct H as [_ H]. apply mapped_app in H. apply H.
Qed.
(** the changes so far, together *)
Ltac ch0 :=
  lazymatch goal with
  | |- chg _ ?m ?m => apply chg_refl
  | |- chg _ ?m ?m' => first [ match goal with C : chg _ m m' |- _ => exact C end
                             | match goal with C : chg _ ?m1 m' |- _ => eapply chg_trans; [|exact C]; [ch0] end ]
  end.
Ltac chw s := eapply chg_sub; [|ch0]; let w := fresh "w" in let Hw := fresh "Hw" in intros w Hw; first [apply off1 in Hw | apply off2 in Hw]; cbn [app];
  repeat (apply Forall_cons; [unfold off; cbn [fst snd]; s Hw|]); apply Forall_nil.

Section SubNC.
  Variables (il : bool) (k : code) (g : regs) (X : xregs) (f : flags) (m : memory) (Q : state -> Prop).
  Variables t3 t2 t1 t0 : reg.
  Hypothesis D : nodup [t3; t2; t1; t0] = true.
  Variables (ZZ A : addr) (z a x y : Z).
  Hypothesis Hz : int_at m z 8 x.
  Hypothesis Hy : int_at m a 8 y.
  Hypothesis Oy : z + 64 <= a \/ a + 64 <= z.
  Hypothesis HZ : isat [t3; t2; t1; t0] g ZZ z 64.
  Hypothesis HA : isat [t3; t2; t1; t0] g A a 64.
  Lemma m_d2subNC :
    (forall g' f' m', keep [t3; t2; t1; t0] g g' -> chg [(z, 64)] m m' -> int_at m' z 8 (dbl_subNC x y) -> wps k (mkSt g' X f' m') Q) ->
    wps (sub_Fp2Dbl_subNC il ZZ A t3 t2 t1 t0 ++ k) (mkSt g X f m) Q.
  Proof.
    intros H. pose proof (int_at_mapped _ _ _ _ Hz) as Mz.
    assert (Ox : ov64 z z) by (left; reflexivity). assert (Oy' : ov64 z a) by (right; exact Oy).
    destruct (dsplit m z z a x y Mz Hz Hy Ox Oy') as (X1 & Y1 & Z1 & DS).
    assert (S1 : forall AA b, isat [t3; t2; t1; t0] g AA b 64 -> isat [t3; t2; t1; t0] g AA b 32) by (intros; eapply isat_sub; [apply incl_refl| |eassumption]; lia).
    assert (S2 : forall AA b, isat [t3; t2; t1; t0] g AA b 64 -> isat [t2; t1; t0] g AA b 32) by (intros; eapply isat_sub; [apply incl_tl; apply incl_refl| |eassumption]; lia).
    assert (S3 : forall AA b g', keep [t3; t2; t1; t0] g g' -> isat [t3; t2; t1; t0] g AA b 64 -> isat [t3; t2; t1; t0] g' AA b 64).
    { intros AA b g' K HH g2 j K2 Hj. apply HH; [|exact Hj]. eapply keep_incl; [|exact (keep_trans _ _ _ _ _ K K2)]. intros r. cbn [app In]. tauto. }
    unfold sub_Fp2Dbl_subNC. rewrite <- !app_assoc.
    eapply m_load_sub; [exact D|exact (S2 _ _ HZ)|exact (S1 _ _ HA)|exact X1|exact Y1|]. intros g1 f1 K1 L1 C1.
    eapply m_store; [|exact Z1|exact L1|]. { eapply isat_sub; [apply incl_nil_l| |exact (S3 _ _ _ K1 HZ)]. lia. }
    intros m1 C2 L2. destruct (DS m1 C2) as (X2 & Y2 & Z2).
    pose proof (isat_hi _ _ _ _ (S3 _ _ _ K1 HZ)) as HZ2. pose proof (isat_hi _ _ _ _ (S3 _ _ _ K1 HA)) as HA2.
    eapply m_load_sbb; [exact D| |exact HA2|exact X2|exact Y2|exact C1|]. { eapply isat_sub; [apply incl_tl; apply incl_refl| |exact HZ2]. lia. }
    intros g2 f2 K2 L3 C3.
    eapply m_store; [|exact Z2|exact L3|]. { intros g' j K Hj. apply HZ2; [|exact Hj]. eapply keep_incl; [|exact (keep_trans _ _ _ _ _ K2 K)]. intros r. cbn [app In]. tauto. }
    intros m2 C4 L4. destruct (djoin m z m1 m2 _ _ C2 L2 C4 L4) as [C5 L5].
    destruct (half_sub x y (rx m z x Hz) (rx m a y Hy)) as (E1 & E2 & _).
    eapply H; [|exact C5|].
    - eapply keep_incl; [|exact (keep_trans _ _ _ _ _ K1 K2)]. intros r. cbn [app In]. tauto.
    - unfold dbl_subNC. rewrite (halves ((x - y) mod W2)). rewrite E1, E2. exact L5.
  Qed.
End SubNC.
Notation gmul := [RAX; RDX; gt1; gt2; gt3; gt4; gt5; gt6; gt7; gt8; gt9; gt10].

Section MulCalc.
  Ltac ni ::= nic.
  Ltac kp ::= kpc.
  Variables (c : cfg) (il mx : bool) (T : Z) (k : code) (g : regs) (X : xregs) (f : flags) (m : memory) (Q : state -> Prop) (lo a b xa xb ya yb : Z).
  Hypothesis HT : modulus c m T.
  Hypothesis Gs : getr g RSP = lo + 256.
  Hypothesis Ga : getr g gp2 = a.
  Hypothesis Gb : getr g gp3 = b.
  Hypothesis Hst : mapped m lo 32.
  Hypothesis Xa : int_at m a 4 xa.
  Hypothesis Xb : int_at m (a + 32) 4 xb.
  Hypothesis Ya : int_at m b 4 ya.
  Hypothesis Yb : int_at m (b + 32) 4 yb.
  Hypothesis SEP : (0 <= lo /\ lo + 256 < B) /\ (0 <= a /\ a + 64 <= B) /\ (0 <= b /\ b + 64 <= B) /\ (0 <= T /\ T + 32 <= B) /\
    (a + 64 <= lo \/ lo + 256 <= a) /\ (b + 64 <= lo \/ lo + 256 <= b) /\ (T + 32 <= lo \/ lo + 256 <= T).
  Ltac sep := clear -SEP; lia.
  Ltac mp j := refine (mapped_at _ _ _ _ _ Hst j _ _); [clear; lia | apply Nat.leb_le; reflexivity].
  Lemma m_mul_calc :
    (forall g' f' m', keep (RSP :: gmul) g g' -> getr g' RSP = lo -> chg [(lo, 256)] m m' ->
      int_at m' (lo + 128) 8 (dbl_sub c (xa * ya) (xb * yb)) ->
      int_at m' (lo + 64) 8 (dbl_subNC (dbl_subNC (fp_addNC xa xb * fp_addNC ya yb) (xa * ya)) (xb * yb)) -> wps k (mkSt g' X f' m') Q) ->
    wps (mul_calc il mx T ++ k) (mkSt g X f m) Q.
  Proof.
    intros H. unfold mul_calc. rewrite <- !app_assoc. cbn [app].
    eapply k_subx; [exact Gs|apply rd_imm; sep|sep|]. intros g1 f1 K1 L1. replace (lo + 256 - 256) with lo in L1 by (clear; lia).
    eapply (m_addNC _ _ _ _ _ _ _ _ _ _ lo a (a + 32) xa xb); [ad sep|ad sep|ad sep|mp 0%nat|exact Xa|exact Xb|unfold ov; sep|unfold ov; sep|]. intros g2 f2 m2 K2 C2 R2 _. mv sep C2.
    eapply (m_addNC _ _ _ _ _ _ _ _ _ _ (lo + 32) b (b + 32) ya yb); [ad sep|ad sep|ad sep|mp 4%nat|im|im|unfold ov; sep|unfold ov; sep|]. intros g3 f3 m3 K3 C3 R3 _. mv sep C3.
    eapply (m_mul4x4 _ _ _ _ _ _ _ _ _ _ (lo + 64) lo (lo + 32)); [mp 8%nat|im|im|sep|sep|ad sep|ad sep|ad sep|]. intros g4' f4 m4 K4 C4 R4. mv sep C4.
    eapply (m_mul4x4 _ _ _ _ _ _ _ _ _ _ (lo + 128) a b xa ya); [mp 16%nat|im|im|sep|sep|ad sep|ad sep|ad sep|]. intros g5 f5 m5 K5 C5 R5. mv sep C5.
    eapply (m_mul4x4 _ _ _ _ _ _ _ _ _ _ (lo + 192) (a + 32) (b + 32) xb yb); [mp 24%nat|im|im|sep|sep|ad sep|ad sep|ad sep|]. intros g6 f6 m6 K6 C6 R6. mv sep C6.
    eapply (m_d2subNC _ _ _ _ _ _ _ gt3 gt2 gt1 gt10 eq_refl _ _ (lo + 64) (lo + 128)); [im|im|sep|ad sep|ad sep|]. intros g7 f7 m7 K7 C7 R7. mv sep C7.
    eapply (m_d2subNC _ _ _ _ _ _ _ gt3 gt2 gt1 gt10 eq_refl _ _ (lo + 64) (lo + 192)); [im|im|sep|ad sep|ad sep|]. intros g8 f8 m8 K8 C8 R8. mv sep C8.
    eapply (m_Dbl_sub c T il k _ _ _ _ _ _ _ _ (lo + 128) (lo + 128) (lo + 192)); [mp 16%nat|im|im|left; reflexivity|right; sep|assumption|sep|ad sep|ad sep|ad sep|sep|].
    intros g9 f9 m9 K9 C9 R9. mv sep C9.
    eapply H; [kp|gr| |exact R9|im].
    chw ltac:(fun Hw => clear -Hw; lia).
  Qed.
End MulCalc.

Lemma m_dbl_rr k g X f m Q z3 z2 z1 z0 x : nodup [z3; z2; z1; z0] = true -> regn g [z0; z1; z2; z3] x ->
  (forall g' f', keep [z3; z2; z1; z0] g g' -> regn g' [z0; z1; z2; z3] ((x + x) mod W) -> cf f' = Some (W <=? x + x) -> wps k (mkSt g' X f' m) Q) ->
  wps (add_rr z3 z2 z1 z0 z3 z2 z1 z0 ++ k) (mkSt g X f m) Q.
Proof.
  intros D Hx H. destruct (reg4 _ _ _ _ _ _ Hx) as (u0 & u1 & u2 & u3 & S0 & S1 & S2 & S3 & F0 & F1 & F2 & F3 & V). nd D.
  unfold add_rr. cbn [app]. do 4 ks.
  destruct (add4 u0 u1 u2 u3 u0 u1 u2 u3 0 z z4 z5 z6 k0 k1 k2 k3) as [R1 R2]; try asm; [rewrite Z.add_0_r; asm|].
  rewrite Z.add_0_r, V in R1, R2. subst k3. eapply H; [kp| |asm]. mkr. exact R1.
Qed.
Ltac mT := match goal with H : modulus _ _ _ |- _ => H end.
Section SquareCalc.
  Ltac ni ::= nic.
  Ltac kp ::= kpc.
  Variables (c : cfg) (il mx : bool) (T : Z) (k : code) (g : regs) (X : xregs) (f : flags) (m : memory) (Q : state -> Prop) (lo z a xa xb : Z).
  Hypothesis HT : modulus c m T.
  Hypothesis Gs : getr g RSP = lo + 160.
  Hypothesis Gz : getr g gp1 = z.
  Hypothesis Ga : getr g gp2 = a.
  Hypothesis Hst : mapped m lo 20.
  Hypothesis Hz : mapped m z 4.
  Hypothesis Xa : int_at m a 4 xa.
  Hypothesis Xb : int_at m (a + 32) 4 xb.
  Hypothesis SEP : (0 <= lo /\ lo + 160 < B) /\ (0 <= a /\ a + 64 <= B) /\ (0 <= z /\ z + 64 <= B) /\ (0 <= T /\ T + 32 <= B) /\
    (a + 64 <= lo \/ lo + 160 <= a) /\ (z + 64 <= lo \/ lo + 160 <= z) /\ (T + 32 <= lo \/ lo + 160 <= T) /\ (z + 64 <= T \/ T + 32 <= z) /\
    (z = a \/ z + 64 <= a \/ a + 64 <= z).
  Ltac sep := clear -SEP; lia.
  Ltac mp j := refine (mapped_at _ _ _ _ _ Hst j _ _); [clear; lia | apply Nat.leb_le; reflexivity].
  Lemma m_square_calc :
    (forall g' f' m', keep (RSP :: gmul) g g' -> getr g' RSP = lo -> chg [(lo, 160); (z, 32)] m m' ->
      int_at m' (lo + 32) 8 ((if snark c then fp_add c xb xb else fp_addNC xb xb) * xa) ->
      int_at m' (lo + 96) 8 (fp_subNC (fp_addNC xa (cp c)) xb * (if snark c then fp_add c xa xb else fp_addNC xa xb)) -> wps k (mkSt g' X f' m') Q) ->
    wps (square_calc il mx (snark c) T ++ k) (mkSt g X f m) Q.
  Proof.
    intros H. unfold square_calc. rewrite <- !app_assoc. cbn [app].
    eapply k_subx; [exact Gs|apply rd_imm; sep|sep|]. intros g1 f1 K1 L1. replace (lo + 160 - 160) with lo in L1 by (clear; lia).
    (* 2 b *)
    assert (H1 : forall (Q' : state -> Prop) k', (forall g' f' m', keep (RAX :: g8) g1 g' -> chg [(lo, 32)] m m' -> int_at m' lo 4 (if snark c then fp_add c xb xb else fp_addNC xb xb) -> wps k' (mkSt g' X f' m') Q') ->
      wps ((if snark c then [Mov (R RAX) (Im T)] else []) ++ load_rm gt4 gt3 gt2 gt1 (Ad gp2 32) ++ add_rr gt4 gt3 gt2 gt1 gt4 gt3 gt2 gt1 ++
        (if snark c then in_Fp_add_modp else []) ++ store_mr (Ad RSP 0) gt4 gt3 gt2 gt1 ++ k') (mkSt g1 X f1 m) Q').
    { intros Q' k' H'. destruct (snark c); cbn [app].
      - eapply k_mov; [apply rd_imm; sep|]. intros g2 K2 L2.
        eapply (m_load _ _ _ _ _ _ gt4 gt3 gt2 gt1 eq_refl _ (a + 32)); [ad sep|exact Xb|]. intros g3 K3 L3.
        eapply m_dbl_rr; [reflexivity|exact L3|]. intros g4' f4 K4 L4 _.
        eapply m_add_modp; [exact HT|gr|exact L4|]. intros g5 f5 K5 L5.
        eapply (m_store _ _ _ _ _ _ _ _ _ _ _ lo); [ad sep|mp 0%nat|exact L5|]. intros m1 C1 R1. eapply H'; [kp|exact C1|exact R1].
      - eapply (m_load _ _ _ _ _ _ gt4 gt3 gt2 gt1 eq_refl _ (a + 32)); [ad sep|exact Xb|]. intros g3 K3 L3.
        eapply m_dbl_rr; [reflexivity|exact L3|]. intros g4' f4 K4 L4 _.
        eapply (m_store _ _ _ _ _ _ _ _ _ _ _ lo); [ad sep|mp 0%nat|exact L4|]. intros m1 C1 R1. eapply H'; [kp|exact C1|exact R1]. }
    apply H1. clear H1. intros g2 f2 m2 K2 C2 R2. set (tb := if snark c then fp_add c xb xb else _) in *. clearbody tb. mv sep C2.
    eapply (m_mul4x4s _ _ _ _ _ _ _ _ _ _ (lo + 32) lo a); [mp 4%nat|im|im|sep|sep|ad sep|ad sep|ad sep|]. intros g3 f3 m3 K3 C3 R3. mv sep C3.
    cbn [app]. eapply k_mov; [apply rd_imm; sep|]. intros g4' K4 L4.
    eapply (m_load_add _ _ _ _ _ _ gt4 gt3 gt2 gt1 eq_refl il _ _ a T); [ad sep|ad sep|im|let MM := mT in apply MM|]. intros g5 f5 K5 L5 _.
    eapply (m_sub_rm _ _ _ _ _ _ gt4 gt3 gt2 gt1 eq_refl _ (a + 32)); [ad sep|exact L5|im|]. intros g6 f6 K6 L6 _.
    eapply (m_store _ _ _ _ _ _ _ _ _ _ _ lo); [ad sep|mp 0%nat|exact L6|]. intros m4 C4 R4. mv sep C4.
    assert (H1 : forall (Q' : state -> Prop) k', (forall g' f' m', keep g8 g6 g' -> chg [(z, 32)] m4 m' -> int_at m' z 4 (if snark c then fp_add c xa xb else fp_addNC xa xb) -> wps k' (mkSt g' X f' m') Q') ->
      wps ((if snark c then in_Fp_add il (Ad gp1 0) (Ad gp2 0) (Ad gp2 32) else in_Fp_addNC il (Ad gp1 0) (Ad gp2 0) (Ad gp2 32)) ++ k') (mkSt g6 X f6 m4) Q').
    { intros Q' k' H'. destruct (snark c).
      - let MM := mT in eapply (m_Fp_add c T _ _ _ _ _ _ _ MM _ _ _ z a (a + 32)); [ad sep|ad sep|ad sep|exact Hz|im|im|gr|]. intros g7 f7 m5 K7 C7 L7. eapply H'; [kp|exact C7|exact L7].
      - eapply (m_addNC _ _ _ _ _ _ _ _ _ _ z a (a + 32)); [ad sep|ad sep|ad sep|exact Hz|im|im|unfold ov; sep|unfold ov; sep|]. intros g7 f7 m5 K7 C7 L7 _. eapply H'; [kp|exact C7|exact L7]. }
    apply H1. clear H1. intros g7 f7 m5 K7 C7 R7. set (za := if snark c then _ else _) in *. clearbody za. mv sep C7.
    eapply (m_mul4x4s _ _ _ _ _ _ _ _ _ _ (lo + 96) lo z); [mp 12%nat|im|im|sep|sep|ad sep|ad sep|ad sep|]. intros g8' f8 m6 K8 C8 R8. mv sep C8.
    eapply H; [kp|gr| |im|exact R8]. chw ltac:(fun Hw => clear -Hw; lia).
  Qed.
End SquareCalc.

(** pNTbl_[2] = p 2^254 has three zero words at the bottom *)
Lemma pNTbl2 c : exists h, pNTbl c 2 mod W = B * B * B * h.
Proof.
  exists ((cp c mod 4) * 2 ^ 62). unfold pNTbl, pN. assert (EW : W = 4 * 2 ^ 254) by (rewrite W_val; reflexivity). assert (EB : B * B * B * 2 ^ 62 = 2 ^ 254) by (rewrite B_val; reflexivity).
  change (2 ^ 2) with 4. replace (cp c * W / 4) with (cp c * 2 ^ 254) by (rewrite EW; symmetry; replace (cp c * (4 * 2 ^ 254)) with (cp c * 2 ^ 254 * 4) by ring; apply Z.div_mul; discriminate).
  rewrite EW. rewrite Z.mul_mod_distr_r by discriminate. rewrite <- EB. ring.
Qed.
Lemma low1 w q : 0 <= w < B -> w = B * q -> w = 0 /\ q = 0.
Proof. pose proof B_pos as HB. intros H E. assert (q = 0) by nia. subst q. lia. Qed.
Lemma low3 w0 w1 w2 w3 h : isU w0 -> isU w1 -> isU w2 -> lv [w0; w1; w2; w3] = B * B * B * h -> w0 = 0 /\ w1 = 0 /\ w2 = 0.
Proof.
  unfold isU, lv. intros H0 H1 H2 E.
  destruct (low1 w0 (B * B * h - (w1 + B * (w2 + B * w3))) H0) as [E0 E1]; [clear -E; lia|].
  destruct (low1 w1 (B * h - (w2 + B * w3)) H1) as [E2 E3]; [clear -E1; lia|].
  destruct (low1 w2 (h - w3) H2) as [E4 E5]; [clear -E3; lia|]. auto.
Qed.
Lemma m_add_top k g X f m Q z3 z2 z1 z0 A x w : nodup [z3; z2; z1; z0] = true -> regn g [z0; z1; z2; z3] x -> rd (mkSt g X f m) (M A) = Some w -> isU w ->
  (forall g' f', keep [z3] g g' -> regn g' [z0; z1; z2; z3] ((x + B * B * B * w) mod W) -> cf f' = Some (W <=? x + B * B * B * w) -> wps k (mkSt g' X f' m) Q) ->
  wps (Add (R z3) (M A) :: k) (mkSt g X f m) Q.
Proof.
  intros D Hx Hw Uw H. destruct (reg4 _ _ _ _ _ _ Hx) as (u0 & u1 & u2 & u3 & S0 & S1 & S2 & S3 & F0 & F1 & F2 & F3 & V). nd D.
  eapply k_add; [gr|exact Hw|asm|asm|]. intros z kk g' f' Uz Ez K L Cf.
  destruct (carry_mod W (lv [u0; u1; u2; u3] + B * B * B * w) (lv [u0; u1; u2; z]) kk) as [R1 R2].
  { apply lv4_bound; asm. } { unfold lv. rewrite <- B4. change (Z.of_nat 4) with 4. unfold EQ in Ez. clear -Ez. nia. }
  rewrite V in R1, R2. subst kk. eapply H; [kp| |asm]. eapply reg4_mk; cycle 4; [gr|gr|gr|gr|exact R1|asm|asm|asm|asm].
Qed.

Section SubOpt1.
  Ltac ni ::= nic.
  Ltac kp ::= kpc.
  Variables (c : cfg) (il : bool) (NT : Z) (k : code) (g : regs) (X : xregs) (f : flags) (m : memory) (Q : state -> Prop).
  Variables (ZZ A A' : addr) (z a a' x y : Z).
  Hypothesis Hz : mapped m z 8.
  Hypothesis Hx : int_at m a 8 x.
  Hypothesis Hy : int_at m a' 8 y.
  Hypothesis HN : int_at m NT 8 (pNTbl c 2).
  Hypothesis Oy : ov64 z a'.
  Hypothesis HZ : isat (RAX :: g8) g ZZ z 64.
  Hypothesis HA : isat (RAX :: g8) g A a 64.
  Hypothesis HA' : isat (RAX :: g8) g A' a' 64.
  Hypothesis NU : 0 <= NT /\ NT + 64 <= B.
  Lemma m_subOpt1 :
    (forall g' f' m', keep (RAX :: g8) g g' -> chg [(z, 64)] m m' -> int_at m' z 8 (dbl_subOpt1 c x y) -> wps k (mkSt g' X f' m') Q) ->
    wps (in_FpDbl_subOpt1 il NT ZZ A A' ++ k) (mkSt g X f m) Q.
  Proof.
    intros H. destruct (int8_split _ _ _ Hx) as [X1 X2]. destruct (int8_split _ _ _ Hy) as [Y1 Y2]. destruct (int8_split _ _ _ HN) as [N1 N2].
    destruct (mz2 m z Hz) as [Z1 Z2]. pose proof (rx m a x Hx) as Rx. pose proof (rx m a' y Hy) as Ry. pose proof (rx m NT _ HN) as Rn.
    destruct (pNTbl2 c) as [h Eh]. destruct (int4 _ _ _ N1) as (w0 & w1 & w2 & w3 & U0 & U1 & U2 & U3 & F0 & F1 & F2 & F3 & V).
    rewrite Eh in V. destruct (low3 _ _ _ _ _ U0 U1 U2 V) as (-> & -> & ->).
    assert (EL : pNTbl c 2 mod W = B * B * B * w3). { rewrite Eh, <- V. unfold lv. ring. }
    pose proof (isat_hi _ _ _ _ HZ) as HZ2. pose proof (isat_hi _ _ _ _ HA) as HA2. pose proof (isat_hi _ _ _ _ HA') as HA'2.
    unfold in_FpDbl_subOpt1. rewrite <- !app_assoc. cbn [app].
    eapply k_mov; [apply rd_imm; clear -NU; lia|]. intros g1 K1 L1.
    eapply m_load; [reflexivity|ia|exact X1|]. intros g2 K2 L2.
    eapply (m_add_top _ _ _ _ _ _ gt4 gt3 gt2 gt1); [reflexivity|exact L2| |exact U3|].
    { eapply rd_mem; [|exact F3]. eapply (ea_ad _ _ _ NT); [gr|clear -NU; lia|reflexivity]. }
    intros g3 f3 K3 L3 F3'. rewrite <- EL in L3, F3'.
    eapply (m_load_adc _ _ _ _ _ _ RDX gt7 gt6 gt5 eq_refl il _ _ (a + 32) (NT + 32)); [ia| |exact X2|exact N2|exact F3'|].
    { eapply isat_ad; [reflexivity|gr|clear -NU; lia|clear -NU; lia|clear -NU; lia]. }
    intros g4' f4 K4 L4 _.
    destruct (half_add x (pNTbl c 2) Rx Rn) as [E1 E2]. cbv zeta in E1, E2. rewrite <- E2 in L4. 
    assert (L3' : regn g4' [gt1; gt2; gt3; gt4] ((x + pNTbl c 2) mod W2 mod W)) by (rewrite E1; eapply regn_keep; [exact K4|nic|exact L3]).
    clear E1 E2 L3.
    pose proof (Z.mod_pos_bound (x + pNTbl c 2) W2 ltac:(unfold W2; pose proof W_pos; nia)) as Rs.
    set (s := (x + pNTbl c 2) mod W2) in *.
    eapply (m_sub_rm _ _ _ _ _ _ gt4 gt3 gt2 gt1 eq_refl _ a'); [ia|exact L3'|exact Y1|]. intros g5 f5 K5 L5 F5.
    eapply (m_store _ _ _ _ _ _ _ _ _ _ _ z); [ia|exact Z1|exact L5|]. intros m1 C1 R1.
    assert (Y2' : int_at m1 (a' + 32) 4 (y / W)) by (refine (int_at_chg _ _ _ _ _ _ C1 _ Y2); apply Forall_cons; [apply co4; clear -Oy; unfold ov64 in Oy; lia|apply Forall_nil]).
    eapply (m_sbb_rm _ _ _ _ _ _ RDX gt7 gt6 gt5 eq_refl _ (a' + 32)); [ia| |exact Y2'|exact F5|].
    { eapply regn_keep; [exact K5|nic|exact L4]. }
    intros g6 f6 K6 L6 _.
    eapply (m_store _ _ _ _ _ _ _ _ _ _ _ (z + 32)); [ia|exact (chg_mapped _ _ _ _ _ C1 Z2)|exact L6|]. intros m2 C2 R2.
    destruct (djoin _ _ _ _ _ _ C1 R1 C2 R2) as [C3 R3]. destruct (half_sub s y Rs Ry) as (E1 & E2 & _).
    eapply H; [kp|exact C3|]. unfold dbl_subOpt1, dbl_subNC, dbl_addNC. fold s. rewrite (halves ((s - y) mod W2)), E1, E2. exact R3.
  Qed.
End SubOpt1.

Lemma keep_drop r l g g' : keep (r :: l) g g' -> getr g' r = getr g r -> keep l g g'.
Proof.
  intros K E r' H. destruct (reqb r' r) eqn:D; [apply reqb_eq in D; subst; exact E|]. apply K. cbn [inb]. rewrite D. exact H.
Qed.
Section MulOpt.
  Ltac ni ::= nic.
  Ltac kp ::= kpc.
  Variables (c : cfg) (il mx mode1 : bool) (T NT : Z) (k : code) (g : regs) (X : xregs) (f : flags) (m : memory) (Q : state -> Prop) (lo z a b xa xb ya yb : Z).
  Hypothesis HT : modulus c m T.
  Hypothesis HN : int_at m NT 8 (pNTbl c 2).
  Hypothesis Gs : getr g RSP = lo + 128.
  Hypothesis Gz : getr g gp1 = z.
  Hypothesis Ga : getr g gp2 = a.
  Hypothesis Gb : getr g gp3 = b.
  Hypothesis Hst : mapped m lo 16.
  Hypothesis Hz : mapped m z 16.
  Hypothesis Xa : int_at m a 4 xa.
  Hypothesis Xb : int_at m (a + 32) 4 xb.
  Hypothesis Ya : int_at m b 4 ya.
  Hypothesis Yb : int_at m (b + 32) 4 yb.
  Hypothesis SEP : (0 <= lo /\ lo + 128 < B) /\ (0 <= a /\ a + 64 <= B) /\ (0 <= b /\ b + 64 <= B) /\ (0 <= T /\ T + 32 <= B) /\ (0 <= NT /\ NT + 64 <= B) /\ (0 <= z /\ z + 128 <= B) /\
    (a + 64 <= lo \/ lo + 128 <= a) /\ (b + 64 <= lo \/ lo + 128 <= b) /\ (T + 32 <= lo \/ lo + 128 <= T) /\ (NT + 64 <= lo \/ lo + 128 <= NT) /\ (z + 128 <= lo \/ lo + 128 <= z) /\
    (a + 64 <= z \/ z + 128 <= a) /\ (b + 64 <= z \/ z + 128 <= b) /\ (T + 32 <= z \/ z + 128 <= T) /\ (NT + 64 <= z \/ z + 128 <= NT).
  Ltac sep := clear -SEP; lia.
  Ltac mp j := refine (mapped_at _ _ _ _ _ Hst j _ _); [clear; lia | apply Nat.leb_le; reflexivity].
  Ltac mz j := refine (mapped_at _ _ _ _ _ Hz j _ _); [clear; lia | apply Nat.leb_le; reflexivity].
  Lemma m_mulOpt :
    (forall g' f' m', keep gmul g g' -> chg [(lo, 128); (z, 128)] m m' ->
      int_at m' z 8 (if mode1 then dbl_subOpt1 c (xa * ya) (xb * yb) else dbl_sub c (xa * ya) (xb * yb)) ->
      int_at m' (z + 64) 8 (dbl_subNC (dbl_subNC (fp_addNC xa xb * fp_addNC ya yb) (xa * ya)) (xb * yb)) -> wps k (mkSt g' X f' m') Q) ->
    wps (Fp2Dbl_mulOpt il mx T NT mode1 ++ k) (mkSt g X f m) Q.
  Proof.
    intros H. unfold Fp2Dbl_mulOpt. rewrite <- !app_assoc. cbn [app].
    eapply k_subx; [exact Gs|apply rd_imm; sep|sep|]. intros g1 f1 K1 L1. replace (lo + 128 - 128) with lo in L1 by (clear; lia).
    eapply (m_addNC _ _ _ _ _ _ _ _ _ _ lo a (a + 32)); [ad sep|ad sep|ad sep|mp 0%nat|im|im|unfold ov; sep|unfold ov; sep|]. intros g2 f2 m2 K2 C2 R2 _. mv sep C2.
    eapply (m_addNC _ _ _ _ _ _ _ _ _ _ (lo + 32) b (b + 32)); [ad sep|ad sep|ad sep|mp 4%nat|im|im|unfold ov; sep|unfold ov; sep|]. intros g3 f3 m3 K3 C3 R3 _. mv sep C3.
    eapply (m_mul4x4 _ _ _ _ _ _ _ _ _ _ (lo + 64) (a + 32) (b + 32)); [mp 8%nat|im|im|sep|sep|ad sep|ad sep|ad sep|]. intros g4' f4 m4 K4 C4 R4. mv sep C4.
    eapply (m_mul4x4 _ _ _ _ _ _ _ _ _ _ z a b); [mz 0%nat|im|im|sep|sep|ad sep|ad sep|ad sep|]. intros g5 f5 m5 K5 C5 R5. mv sep C5.
    eapply (m_mul4x4 _ _ _ _ _ _ _ _ _ _ (z + 64) lo (lo + 32)); [mz 8%nat|im|im|sep|sep|ad sep|ad sep|ad sep|]. intros g6 f6 m6 K6 C6 R6. mv sep C6.
    change ((xa + xb) mod W) with (fp_addNC xa xb) in *. change ((ya + yb) mod W) with (fp_addNC ya yb) in *.
    set (P := fp_addNC xa xb * fp_addNC ya yb) in *. set (p1 := xa * ya) in *. set (p2 := xb * yb) in *. clearbody P p1 p2.
    destruct (int8_split _ _ _ R6) as [P1 P2]. assert (R5' : int_at m6 z 8 p1) by im. destruct (int8_split _ _ _ R5') as [Q1 Q2].
    assert (R4' : int_at m6 (lo + 64) 8 p2) by im. destruct (int8_split _ _ _ R4') as [S1 S2].
    pose proof (rx _ _ _ R6) as RP. pose proof (rx _ _ _ R5') as R1. pose proof (rx _ _ _ R4') as R2'.
    eapply (m_load_sub _ _ _ _ _ _ gt3 gt2 gt1 gt10 eq_refl il _ _ (z + 64) z); [ad sep|ad sep|exact P1|exact Q1|]. intros g7 f7 K7 L7 F7.
    eapply (m_load_sbb _ _ _ _ _ _ gt7 gt6 gt5 gt4 eq_refl il _ _ (z + 96) (z + 32)); [ad sep|ad sep|im|exact Q2|exact F7|]. intros g8' f8 K8 L8 _.
    destruct (half_sub P p1 RP R1) as (E1 & E2 & _). cbv zeta in E1, E2.
    assert (L7' : regn g8' [gt10; gt1; gt2; gt3] ((P - p1) mod W2 mod W)) by (rewrite E1; eapply regn_keep; [exact K8|nic|exact L7]).
    rewrite <- E2 in L8. clear E1 E2 L7. change ((P - p1) mod W2) with (dbl_subNC P p1) in *.
    assert (Rs : 0 <= dbl_subNC P p1 < W2) by (unfold dbl_subNC; apply Z.mod_pos_bound; unfold W2; pose proof W_pos; nia).
    set (s := dbl_subNC P p1) in *. clearbody s.
    eapply (m_sub_rm _ _ _ _ _ _ gt3 gt2 gt1 gt10 eq_refl _ (lo + 64)); [ad sep|exact L7'|exact S1|]. intros g9 f9 K9 L9 F9.
    eapply (m_sbb_rm _ _ _ _ _ _ gt7 gt6 gt5 gt4 eq_refl _ (lo + 96)); [ad sep| |im|exact F9|].
    { eapply regn_keep; [exact K9|nic|exact L8]. }
    intros g10 f10 K10 L10 _. destruct (half_sub s p2 Rs R2') as (E1 & E2 & _). cbv zeta in E1, E2.
    rewrite <- E2 in L10. 
    assert (L9' : regn g10 [gt10; gt1; gt2; gt3] ((s - p2) mod W2 mod W)) by (rewrite E1; eapply regn_keep; [exact K10|nic|exact L9]).
    clear E1 E2 L9. change ((s - p2) mod W2) with (dbl_subNC s p2) in *.
    eapply (m_store _ _ _ _ _ _ _ _ _ _ _ (z + 64)); [ad sep|mz 8%nat|exact L9'|]. intros m7 C7 R7. clear P1 P2 Q1 Q2 S1 S2. mv sep C7.
    eapply (m_store _ _ _ _ _ _ _ _ _ _ _ (z + 96)); [ad sep|mz 12%nat|exact L10|]. intros m8 C8 R8. 
    assert (R9 : int_at m8 (z + 64) 8 (dbl_subNC s p2)).
    { rewrite (halves (dbl_subNC s p2)). apply int8_join; [|refine (int_at_eq _ _ _ _ _ R8 _); clear; lia]. refine (int_at_chg _ _ _ _ _ _ C8 _ R7). apply Forall_cons; [apply co4; clear; lia|apply Forall_nil]. }
    clear R7 R8 L9' L10. mv sep C8.
    assert (H1 : forall (Q' : state -> Prop) k', (forall g' f' m', keep (RAX :: g8) g10 g' -> chg [(z, 64)] m8 m' -> int_at m' z 8 (if mode1 then dbl_subOpt1 c p1 p2 else dbl_sub c p1 p2) -> wps k' (mkSt g' X f' m') Q') ->
      wps ((if mode1 then in_FpDbl_subOpt1 il NT (Ad gp1 0) (Ad gp1 0) (Ad RSP 64) else sub_FpDbl_sub il T (Ad gp1 0) (Ad gp1 0) (Ad RSP 64)) ++ k') (mkSt g10 X f10 m8) Q').
    { intros Q' k' H'. destruct mode1.
      - eapply (m_subOpt1 c il NT _ _ _ _ _ _ _ _ _ z z (lo + 64) p1 p2); [mz 0%nat|im|im|im|unfold ov64; sep|ad sep|ad sep|ad sep|sep|exact H'].
      - eapply (m_Dbl_sub c T il _ _ _ _ _ _ _ _ _ z z (lo + 64) p1 p2); [mz 0%nat|im|im|left; reflexivity|unfold ov64; sep|let MM := mT in exact MM|sep|ad sep|ad sep|ad sep|sep|exact H']. }
    apply H1. clear H1. intros g11 f11 m9 K11 C9 R10. mv sep C9.
    eapply (k_addx _ _ _ _ _ _ _ _ lo); [gr|apply rd_imm; sep|sep|]. intros g12 f12 K12 L12.
    eapply H; [|chw ltac:(fun Hw => clear -Hw; lia)|exact R10|im].
    apply (keep_drop RSP); [kp|]. rewrite L12, Gs. reflexivity.
  Qed.
End MulOpt.
