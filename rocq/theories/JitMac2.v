(** The reductions, the four by one product and the Montgomery steps of JitFp. *)
From Coq Require Import ZArith List Bool Lia.
From Verif Require Import Base Prim Primes FpSpec Cfg FpM X64 XLog JitSpec XTac XReg JitFp JitMac.
Import ListNotations.
Local Open Scope Z_scope.

(** the address of p *)
Definition modulus (c : cfg) (m : memory) (T : Z) : Prop := int_at m T 4 (cp c) /\ 0 <= T /\ T + 32 <= B.
Lemma pW c : 0 < cp c < W.
Proof. pose proof (cp_bounds c). pose proof (cp_pos c). rewrite W_val. assert (2 ^ 254 < 2 ^ 256) by reflexivity. lia. Qed.

Notation g8 := [gt4; gt3; gt2; gt1; gt5; gt6; gt7; RDX].
Lemma land_mask (b : bool) v : isU v -> Z.land (if b then B - 1 else 0) v = if b then v else 0.
Proof.
  intros Uv. destruct b; [|apply Z.land_0_l]. replace (B - 1) with (Z.ones 64) by (rewrite B_val; reflexivity).
  rewrite Z.land_comm, Z.land_ones by lia. apply Z.mod_small. unfold isU in Uv. rewrite B_val in Uv. exact Uv.
Qed.
Lemma U_if (b : bool) u v : isU u -> isU v -> isU (if b then u else v).
Proof. destruct b; auto. Qed.
Lemma lv_if (b : bool) a0 a1 a2 a3 b0 b1 b2 b3 :
  lv [if b then a0 else b0; if b then a1 else b1; if b then a2 else b2; if b then a3 else b3] = if b then lv [a0; a1; a2; a3] else lv [b0; b1; b2; b3].
Proof. destruct b; reflexivity. Qed.

(** an address known at the start is still known *)
Ltac ia := lazymatch goal with |- isat _ _ ?A _ _ => match goal with H : isat _ _ A _ _ |- _ =>
    let g := fresh in let j := fresh in let K := fresh in let E := fresh in intros g j K E; apply H; [kp | first [exact E | clear -E; lia]] end end.
Ltac adp A a i := lazymatch goal with |- ea ?g' (Ad ?r i) = _ => match goal with H : isat _ _ A a _ |- _ => apply (H g' i); [kp | clear; lia] end end.

Lemma m_add_rr k g X f m Q z3 z2 z1 z0 x3 x2 x1 x0 x y : nodup [z3; z2; z1; z0; x3; x2; x1; x0] = true ->
  regn g [z0; z1; z2; z3] x -> regn g [x0; x1; x2; x3] y ->
  (forall g' f', keep [z3; z2; z1; z0] g g' -> regn g' [z0; z1; z2; z3] ((x + y) mod W) -> cf f' = Some (W <=? x + y) -> wps k (mkSt g' X f' m) Q) ->
  wps (add_rr z3 z2 z1 z0 x3 x2 x1 x0 ++ k) (mkSt g X f m) Q.
Proof.
  intros D Hx Hy H. destruct (reg4 _ _ _ _ _ _ Hx) as (u0 & u1 & u2 & u3 & S0 & S1 & S2 & S3 & F0 & F1 & F2 & F3 & V').
  destruct (reg4 _ _ _ _ _ _ Hy) as (v0 & v1 & v2 & v3 & V0 & V1 & V2 & V3 & E0 & E1 & E2 & E3 & V). nd D.
  unfold add_rr. cbn [app]. do 4 ks.
  destruct (add4 u0 u1 u2 u3 v0 v1 v2 v3 0 z z4 z5 z6 k0 k1 k2 k3) as [R1 R2]; try asm; [rewrite Z.add_0_r; asm|].
  rewrite Z.add_0_r, V, V' in R1, R2. subst k3. eapply H; [kp| |asm]. mkr. exact R1.
Qed.

Section Modp.
  Ltac ni ::= nic.
  Ltac kp ::= kpc.
  Variables (c : cfg) (T : Z) (k : code) (g : regs) (X : xregs) (f : flags) (m : memory) (Q : state -> Prop).
  Hypothesis HT : modulus c m T.
  Hypothesis HR : getr g RAX = T.
  Lemma atT : isat g8 g (Ad RAX 0) T 32.
  Proof. apply (isat_ad _ _ _ _ T); [reflexivity|exact HR|clear; lia|apply HT|apply HT]. Qed.
  Lemma m_add_modp x : regn g [gt1; gt2; gt3; gt4] x ->
    (forall g' f', keep g8 g g' -> regn g' [gt1; gt2; gt3; gt4] (add_modp c x) -> wps k (mkSt g' X f' m) Q) ->
    wps (in_Fp_add_modp ++ k) (mkSt g X f m) Q.
  Proof.
    intros Hx H. destruct (reg4 _ _ _ _ _ _ Hx) as (x0 & x1 & x2 & x3 & S0 & S1 & S2 & S3 & F0 & F1 & F2 & F3 & V).
    pose proof atT as AT.
    unfold in_Fp_add_modp. cbn [app]. do 4 ks.
    eapply (m_sub_rm _ _ _ _ _ _ gt4 gt3 gt2 gt1); [reflexivity|ia| |apply HT|].
    - mkr. exact V.
    - intros g5 f5 K5 L5 C5. destruct (reg4 _ _ _ _ _ _ L5) as (y0 & y1 & y2 & y3 & R0 & R1 & R2 & R3 & G0 & G1 & G2 & G3 & V').
      cbn [app]. do 4 ks.
      eapply H; [kp|]. set (b := x - cp c <? 0) in *. eapply reg4_mk; cycle 4; [gr|gr|gr|gr| |apply U_if; asm ..].
      rewrite lv_if, V, V'. unfold b, add_modp. destruct (Z.ltb_spec (x - cp c) 0); destruct (Z.ltb_spec x (cp c)); try (exfalso; lia); [reflexivity|].
      apply Z.mod_small. pose proof (pW c). pose proof (lv4_bound x0 x1 x2 x3 S0 S1 S2 S3). lia.
  Qed.
  Lemma m_sub_modp x b : regn g [gt1; gt2; gt3; gt4] x -> cf f = Some b ->
    (forall g' f', keep g8 g g' -> regn g' [gt1; gt2; gt3; gt4] (if b then (x + cp c) mod W else x) -> wps k (mkSt g' X f' m) Q) ->
    wps (in_Fp_sub_modp ++ k) (mkSt g X f m) Q.
  Proof.
    intros Hx Hc H. destruct (reg4 _ _ _ _ _ _ Hx) as (x0 & x1 & x2 & x3 & S0 & S1 & S2 & S3 & F0 & F1 & F2 & F3 & V).
    destruct (int4 _ _ _ (proj1 HT)) as (p0 & p1 & p2 & p3 & P0 & P1 & P2 & P3 & M0 & M1 & M2 & M3 & VP).
    pose proof atT as AT.
    unfold in_Fp_sub_modp. cbn [app]. eapply k_sbb_self; [exact Hc|]. intros g1 f1 K1 L1. do 3 ks. 
    eapply k_and; [gr|eapply rd_mem; [adp (Ad RAX 0) T 0|rewrite Z.add_0_r; asm]|]. rewrite land_mask by asm. intros g5 f5 K5 L5 _.
    eapply k_and; [gr|eapply rd_mem; [adp (Ad RAX 0) T 8|asm]|]. rewrite land_mask by asm. intros g6 f6 K6 L6 _.
    eapply k_and; [gr|eapply rd_mem; [adp (Ad RAX 0) T 16|asm]|]. rewrite land_mask by asm. intros g7 f7 K7 L7 _.
    eapply k_and; [gr|eapply rd_mem; [adp (Ad RAX 0) T 24|asm]|]. rewrite land_mask by asm. intros g9 f9 K9 L9 _.
    assert (B0 : isU (if b then p0 else 0)) by (apply U_if; [asm|exact U0]).
    assert (B1 : isU (if b then p1 else 0)) by (apply U_if; [asm|exact U0]).
    assert (B2 : isU (if b then p2 else 0)) by (apply U_if; [asm|exact U0]).
    assert (B3 : isU (if b then p3 else 0)) by (apply U_if; [asm|exact U0]).
    eapply (m_add_rr _ _ _ _ _ _ gt4 gt3 gt2 gt1 gt7 gt6 gt5 RDX x (if b then cp c else 0)); [reflexivity| | |].
    - mkr. exact V.
    - mkr. rewrite lv_if, VP. reflexivity.
    - intros g2 f2 K2 L2 _. eapply H; [kp|]. destruct b; [exact L2|]. rewrite Z.add_0_r, Z.mod_small in L2; [exact L2|].
      rewrite <- V. apply lv4_bound; asm.
  Qed.
End Modp.

(** ** Fp additions and subtractions, Dbl additions and subtractions *)
Lemma W_pos : 0 < W.
Proof. rewrite W_val. reflexivity. Qed.
Lemma int8_split m a x : int_at m a 8 x -> int_at m a 4 (x mod W) /\ int_at m (a + 32) 4 (x / W).
Proof.
  intros (l & L & U & Wd & V). destruct l as [|l0 [|l1 [|l2 [|l3 l]]]]; try discriminate L.
  change (l0 :: l1 :: l2 :: l3 :: l) with ([l0; l1; l2; l3] ++ l) in *. apply words_app in Wd. destruct Wd as [W1 W2].
  apply Forall_app in U. destruct U as [U1 U2]. rewrite lv_app in V. cbn [length] in *. rewrite B4 in V.
  assert (Hl : 0 <= lv [l0; l1; l2; l3] < W) by (inversion U1 as [|? ? P0 Q0]; inversion Q0 as [|? ? P1 Q1]; inversion Q1 as [|? ? P2 Q2]; inversion Q2; subst; apply lv4_bound; assumption).
  assert (E1 : x mod W = lv [l0; l1; l2; l3]) by (symmetry; apply (Z.mod_unique _ _ (lv l)); lia).
  assert (E2 : x / W = lv l) by (symmetry; apply (Z.div_unique _ _ _ (lv [l0; l1; l2; l3])); lia).
  split.
  - exists [l0; l1; l2; l3]. auto.
  - exists l. split; [cbn in L; lia|]. split; [exact U2|]. split; [|auto]. change (a + 8 * Z.of_nat 4) with (a + 32) in W2. exact W2.
Qed.
Lemma int8_join m a x y : int_at m a 4 x -> int_at m (a + 32) 4 y -> int_at m a 8 (x + W * y).
Proof.
  intros (l & L & U & Wd & V) (l' & L' & U' & Wd' & V'). exists (l ++ l'). rewrite app_length, L, L'. split; [reflexivity|]. split; [apply Forall_app; auto|].
  split; [apply words_app; rewrite L; auto|]. rewrite lv_app, L, B4, V, V'. reflexivity.
Qed.
Definition ov64 (z a : Z) : Prop := z = a \/ z + 64 <= a \/ a + 64 <= z.

Section FpAdd.
  Ltac ni ::= nic.
  Ltac kp ::= kpc.
  Variables (c : cfg) (T : Z) (il : bool) (k : code) (g : regs) (X : xregs) (f : flags) (m : memory) (Q : state -> Prop).
  Hypothesis HT : modulus c m T.
  Variables (ZZ A A' : addr) (z a a' x y : Z).
  Hypothesis HZ : isat g8 g ZZ z 32.
  Hypothesis HA : isat g8 g A a 32.
  Hypothesis HA' : isat g8 g A' a' 32.
  Hypothesis Hz : mapped m z 4.
  Hypothesis Hx : int_at m a 4 x.
  Hypothesis Hy : int_at m a' 4 y.
  Hypothesis HR : getr g RAX = T.
  Lemma m_Fp_add :
    (forall g' f' m', keep g8 g g' -> chg [(z, 32)] m m' -> int_at m' z 4 (fp_add c x y) -> wps k (mkSt g' X f' m') Q) ->
    wps (in_Fp_add il ZZ A A' ++ k) (mkSt g X f m) Q.
  Proof.
    intros H. unfold in_Fp_add. rewrite <- !app_assoc.
    eapply m_load_add; [reflexivity|ia|ia|exact Hx|exact Hy|]. intros g1 f1 K1 L1 C1.
    eapply m_add_modp; [exact HT|gr|exact L1|]. intros g2 f2 K2 L2.
    eapply m_store; [ia|exact Hz|exact L2|]. intros m1 C2 L3. eapply H; [kp|exact C2|exact L3].
  Qed.
  Lemma m_Fp_sub :
    (forall g' f' m', keep g8 g g' -> chg [(z, 32)] m m' -> int_at m' z 4 (fp_sub c x y) -> wps k (mkSt g' X f' m') Q) ->
    wps (in_Fp_sub il ZZ A A' ++ k) (mkSt g X f m) Q.
  Proof.
    intros H. unfold in_Fp_sub. rewrite <- !app_assoc.
    eapply m_load_sub; [reflexivity|ia|ia|exact Hx|exact Hy|]. intros g1 f1 K1 L1 C1.
    eapply m_sub_modp; [exact HT|gr|exact L1|exact C1|]. intros g2 f2 K2 L2.
    eapply m_store; [ia|exact Hz|exact L2|]. intros m1 C2 L3. eapply H; [kp|exact C2|].
    unfold fp_sub. replace (x <? y) with (x - y <? 0); [exact L3|]. destruct (Z.ltb_spec (x - y) 0); destruct (Z.ltb_spec x y); (reflexivity || lia).
  Qed.
End FpAdd.

Lemma loW l h : 0 <= l < W -> (l + W * h) mod W = l.
Proof. intros H. rewrite Z.mul_comm, Z.mod_add by (clear -H; lia). apply Z.mod_small. exact H. Qed.
Lemma hiW l h : 0 <= l < W -> (l + W * h) / W = h.
Proof. intros H. rewrite Z.mul_comm, Z.div_add by (clear -H; lia). rewrite Z.div_small by exact H. reflexivity. Qed.
Lemma halves s : s = s mod W + W * (s / W).
Proof. rewrite Z.add_comm. apply Z.div_mod. pose proof W_pos. lia. Qed.
Lemma modWW l h : 0 <= l < W -> (l + W * h) mod W2 = l + W * (h mod W).
Proof.
  intros Hl. pose proof W_pos as HW. pose proof (Z.mod_pos_bound h W HW) as Hr. pose proof (Z.div_mod h W ltac:(lia)) as Eh. unfold W2.
  set (q := h / W) in *. set (r := h mod W) in *. clearbody q r. subst h. symmetry. apply (Z.mod_unique _ _ q).
  - left. generalize dependent W. intros w. intros. assert (w * r <= w * (w - 1)) by (apply Z.mul_le_mono_nonneg_l; lia). assert (0 <= w * r) by (apply Z.mul_nonneg_nonneg; lia). lia.
  - ring.
Qed.
Lemma half_add x y : 0 <= x < W2 -> 0 <= y < W2 -> let s := (x + y) mod W2 in
  s mod W = (x mod W + y mod W) mod W /\ s / W = (x / W + y / W + Z.b2z (W <=? x mod W + y mod W)) mod W.
Proof.
  intros Hx Hy s. pose proof W_pos as HW. pose proof (Z.div_mod x W ltac:(lia)) as Ex. pose proof (Z.div_mod y W ltac:(lia)) as Ey.
  pose proof (Z.mod_pos_bound x W HW). pose proof (Z.mod_pos_bound y W HW).
  set (xl := x mod W) in *. set (yl := y mod W) in *. set (xh := x / W) in *. set (yh := y / W) in *.
  assert (E : x + y = (xl + yl) mod W + W * (xh + yh + Z.b2z (W <=? xl + yl))).
  { assert ((xl + yl) mod W = xl + yl - W * Z.b2z (W <=? xl + yl)); [|lia].
    destruct (Z.leb_spec W (xl + yl)); cbn [Z.b2z].
    - symmetry. apply (Z.mod_unique _ _ 1); lia.
    - rewrite Z.mod_small; lia. }
  set (h := xh + yh + _) in *. set (l := (xl + yl) mod W) in *. assert (0 <= l < W) by (apply Z.mod_pos_bound; lia).
  assert (Es : s = l + W * (h mod W)).
  { unfold s. rewrite E. apply modWW. assumption. }
  split.
  - rewrite Es. apply loW. assumption.
  - rewrite Es. apply hiW. assumption.
Qed.
Lemma half_sub x y : 0 <= x < W2 -> 0 <= y < W2 -> let s := (x - y) mod W2 in
  let h := x / W - y / W - Z.b2z (x mod W - y mod W <? 0) in
  s mod W = (x mod W - y mod W) mod W /\ s / W = h mod W /\ (h <? 0) = (x <? y).
Proof.
  intros Hx Hy s. pose proof W_pos as HW. pose proof (Z.div_mod x W ltac:(lia)) as Ex. pose proof (Z.div_mod y W ltac:(lia)) as Ey.
  pose proof (Z.mod_pos_bound x W HW). pose proof (Z.mod_pos_bound y W HW).
  set (xl := x mod W) in *. set (yl := y mod W) in *. set (xh := x / W) in *. set (yh := y / W) in *. intros h.
  assert (E : x - y = (xl - yl) mod W + W * h).
  { assert ((xl - yl) mod W = xl - yl + W * Z.b2z (xl - yl <? 0)); [|unfold h; lia].
    destruct (Z.ltb_spec (xl - yl) 0); cbn [Z.b2z].
    - symmetry. apply (Z.mod_unique _ _ (-1)); lia.
    - rewrite Z.mod_small; lia. }
  set (l := (xl - yl) mod W) in *. assert (0 <= l < W) by (apply Z.mod_pos_bound; lia).
  assert (Es : s = l + W * (h mod W)).
  { unfold s. rewrite E. apply modWW. assumption. }
  split; [|split].
  - rewrite Es. apply loW. assumption.
  - rewrite Es. apply hiW. assumption.
  - clear Es Hx Hy Ex Ey. clearbody h l. destruct (Z.ltb_spec h 0); destruct (Z.ltb_spec x y); try reflexivity; exfalso.
    + assert (W * h <= W * (-1)) by (apply Z.mul_le_mono_nonneg_l; lia). lia.
    + assert (0 <= W * h) by (apply Z.mul_nonneg_nonneg; lia). lia.
Qed.

Section Dbl.
  Ltac ni ::= nic.
  Ltac kp ::= kpc.
  Variables (c : cfg) (T : Z) (il : bool) (k : code) (g : regs) (X : xregs) (f : flags) (m : memory) (Q : state -> Prop).
  Variables (ZZ A A' : addr) (z a a' x y : Z).
  Hypothesis Hz : mapped m z 8.
  Hypothesis Hx : int_at m a 8 x.
  Hypothesis Hy : int_at m a' 8 y.
  Hypothesis Ox : ov64 z a.
  Hypothesis Oy : ov64 z a'.
  Lemma rx : 0 <= x < W2. Proof. pose proof (int_at_range _ _ _ _ Hx) as H. unfold W2. rewrite <- B4. replace (B ^ Z.of_nat 4 * B ^ Z.of_nat 4) with (B ^ Z.of_nat 8); [exact H|]. rewrite <- Z.pow_add_r by lia. reflexivity. Qed.
  Lemma ry : 0 <= y < W2. Proof. pose proof (int_at_range _ _ _ _ Hy) as H. unfold W2. rewrite <- B4. replace (B ^ Z.of_nat 4 * B ^ Z.of_nat 4) with (B ^ Z.of_nat 8); [exact H|]. rewrite <- Z.pow_add_r by lia. reflexivity. Qed.
  Lemma mz2 : mapped m z 4 /\ mapped m (z + 32) 4.
  Proof. apply (mapped_app m z 4 4) in Hz. exact Hz. Qed.
  (** the four quarters *)
  Lemma dsplit : int_at m a 4 (x mod W) /\ int_at m a' 4 (y mod W) /\ mapped m z 4 /\
    (forall m', chg [(z, 32)] m m' -> int_at m' (a + 32) 4 (x / W) /\ int_at m' (a' + 32) 4 (y / W) /\ mapped m' (z + 32) 4).
  Proof.
    destruct (int8_split _ _ _ Hx) as [X1 X2]. destruct (int8_split _ _ _ Hy) as [Y1 Y2]. destruct mz2 as [Z1 Z2].
    split; [exact X1|]. split; [exact Y1|]. split; [exact Z1|]. intros m' C. split; [|split].
    - refine (int_at_chg _ _ _ _ _ _ C _ X2). apply Forall_cons; [|apply Forall_nil]. unfold clear_of. cbn [fst snd]. clear -Ox. unfold ov64 in Ox. change (8 * Z.of_nat 4) with 32. lia.
    - refine (int_at_chg _ _ _ _ _ _ C _ Y2). apply Forall_cons; [|apply Forall_nil]. unfold clear_of. cbn [fst snd]. clear -Oy. unfold ov64 in Oy. change (8 * Z.of_nat 4) with 32. lia.
    - exact (chg_mapped _ _ _ _ _ C Z2).
  Qed.
  Lemma ov_lo : ov z a /\ ov z a' /\ ov (z + 32) (a + 32) /\ ov (z + 32) (a' + 32).
  Proof. clear -Ox Oy. unfold ov, ov64 in *. lia. Qed.
  (** both halves written *)
  Lemma djoin m1 m2 l h : chg [(z, 32)] m m1 -> int_at m1 z 4 l -> chg [(z + 32, 32)] m1 m2 -> int_at m2 (z + 32) 4 h ->
    chg [(z, 64)] m m2 /\ int_at m2 z 8 (l + W * h).
  Proof.
    intros C1 L1 C2 L2. split.
    - refine (chg_sub _ _ _ _ _ (chg_trans _ _ _ _ _ C1 C2)). intros b Hb. inversion Hb as [|? ? H1 _]. unfold off in H1. cbn [fst snd] in H1.
      apply Forall_cons; [|apply Forall_cons; [|apply Forall_nil]]; unfold off; cbn [fst snd]; lia.
    - apply int8_join; [|exact L2]. refine (int_at_chg _ _ _ _ _ _ C2 _ L1). apply Forall_cons; [|apply Forall_nil]. unfold clear_of. cbn [fst snd]. clear. lia.
  Qed.
  Section NC.
  Variables (Zh Ah A'h : addr).
  Hypothesis HZ : isat g4 g ZZ z 32.
  Hypothesis HA : isat g4 g A a 32.
  Hypothesis HA' : isat g4 g A' a' 32.
  Hypothesis HZh : isat g4 g Zh (z + 32) 32.
  Hypothesis HAh : isat g4 g Ah (a + 32) 32.
  Hypothesis HA'h : isat g4 g A'h (a' + 32) 32.
  Lemma m_Dbl_addNC :
    (forall g' f' m', keep g4 g g' -> chg [(z, 64)] m m' -> int_at m' z 8 (dbl_addNC x y) -> wps k (mkSt g' X f' m') Q) ->
    wps (in_Fp_addNC il ZZ A A' ++ in_Fp_adcNC il Zh Ah A'h ++ k) (mkSt g X f m) Q.
  Proof.
    intros H. destruct dsplit as (X1 & Y1 & Z1 & DS). destruct ov_lo as (O1 & O2 & O3 & O4).
    eapply m_addNC; [ia|ia|ia|exact Z1|exact X1|exact Y1|exact O1|exact O2|]. intros g1 f1 m1 K1 C1 L1 F1.
    destruct (DS m1 C1) as (X2 & Y2 & Z2).
    eapply m_adcNC; [ia|ia|ia|exact Z2|exact X2|exact Y2|exact O3|exact O4|exact F1|]. intros g2 f2 m2 K2 C2 L2 F2.
    destruct (djoin _ _ _ _ C1 L1 C2 L2) as [C3 L3]. destruct (half_add x y rx ry) as [E1 E2].
    eapply H; [kp|exact C3|]. unfold dbl_addNC. rewrite (halves ((x + y) mod W2)). rewrite E1, E2. exact L3.
  Qed.
  Lemma m_Dbl_subNC :
    (forall g' f' m', keep g4 g g' -> chg [(z, 64)] m m' -> int_at m' z 8 (dbl_subNC x y) -> wps k (mkSt g' X f' m') Q) ->
    wps (in_Fp_subNC il ZZ A A' ++ in_Fp_sbbNC il Zh Ah A'h ++ k) (mkSt g X f m) Q.
  Proof.
    intros H. destruct dsplit as (X1 & Y1 & Z1 & DS). destruct ov_lo as (O1 & O2 & O3 & O4).
    eapply m_subNC; [ia|ia|ia|exact Z1|exact X1|exact Y1|exact O1|exact O2|]. intros g1 f1 m1 K1 C1 L1 F1.
    destruct (DS m1 C1) as (X2 & Y2 & Z2).
    eapply m_sbbNC; [ia|ia|ia|exact Z2|exact X2|exact Y2|exact O3|exact O4|exact F1|]. intros g2 f2 m2 K2 C2 L2 F2.
    destruct (djoin _ _ _ _ C1 L1 C2 L2) as [C3 L3]. destruct (half_sub x y rx ry) as (E1 & E2 & _).
    eapply H; [kp|exact C3|]. unfold dbl_subNC. rewrite (halves ((x - y) mod W2)). rewrite E1, E2. exact L3.
  Qed.
  End NC.
  Hypothesis HT : modulus c m T.
  Hypothesis OT : T + 32 <= z \/ z + 64 <= T.
  Hypothesis HZ : isat (RAX :: g8) g ZZ z 64.
  Hypothesis HA : isat (RAX :: g8) g A a 64.
  Hypothesis HA' : isat (RAX :: g8) g A' a' 64.
  Hypothesis TU : 0 <= T < B.
  Lemma HTc m' : chg [(z, 32)] m m' -> modulus c m' T.
  Proof.
    intros C. split; [|apply HT]. refine (int_at_chg _ _ _ _ _ _ C _ (proj1 HT)). apply Forall_cons; [|apply Forall_nil]. unfold clear_of. cbn [fst snd].
    clear -OT. change (8 * Z.of_nat 4) with 32. lia.
  Qed.
  Lemma isat_hi l g0 AA b : isat l g0 AA b 64 -> isat l g0 (plus AA 32) (b + 32) 32.
  Proof. apply isat_plus; clear; lia. Qed.
  Lemma m_Dbl_add :
    (forall g' f' m', keep (RAX :: g8) g g' -> chg [(z, 64)] m m' -> int_at m' z 8 (dbl_add c x y) -> wps k (mkSt g' X f' m') Q) ->
    wps (in_FpDbl_add il T ZZ A A' ++ k) (mkSt g X f m) Q.
  Proof.
    intros H. destruct dsplit as (X1 & Y1 & Z1 & DS). destruct ov_lo as (O1 & O2 & O3 & O4).
    pose proof (isat_hi _ _ _ _ HZ) as HZ2. pose proof (isat_hi _ _ _ _ HA) as HA2. pose proof (isat_hi _ _ _ _ HA') as HA'2.
    unfold in_FpDbl_add. rewrite <- !app_assoc. cbn [app]. eapply k_mov; [apply rd_imm; exact TU|]. intros g0 K0 L0.
    eapply m_addNC; [ia|ia|ia|exact Z1|exact X1|exact Y1|exact O1|exact O2|]. intros g1 f1 m1 K1 C1 L1 F1.
    destruct (DS m1 C1) as (X2 & Y2 & Z2).
    eapply m_load_adc; [reflexivity|ia|ia|exact X2|exact Y2|exact F1|]. intros g2 f2 K2 L2 F2.
    eapply m_add_modp; [exact (HTc _ C1)|gr|exact L2|]. intros g3 f3 K3 L3.
    eapply m_store; [ia|exact Z2|exact L3|]. intros m2 C2 L4.
    destruct (djoin _ _ _ _ C1 L1 C2 L4) as [C3 L5]. destruct (half_add x y rx ry) as [E1 E2].
    eapply H; [kp|exact C3|]. unfold dbl_add. rewrite E1, E2, Z.add_comm, Z.mul_comm. exact L5.
  Qed.
  Lemma m_Dbl_sub :
    (forall g' f' m', keep (RAX :: g8) g g' -> chg [(z, 64)] m m' -> int_at m' z 8 (dbl_sub c x y) -> wps k (mkSt g' X f' m') Q) ->
    wps (sub_FpDbl_sub il T ZZ A A' ++ k) (mkSt g X f m) Q.
  Proof.
    intros H. destruct dsplit as (X1 & Y1 & Z1 & DS). destruct ov_lo as (O1 & O2 & O3 & O4).
    pose proof (isat_hi _ _ _ _ HZ) as HZ2. pose proof (isat_hi _ _ _ _ HA) as HA2. pose proof (isat_hi _ _ _ _ HA') as HA'2.
    unfold sub_FpDbl_sub. rewrite <- !app_assoc. cbn [app]. eapply k_mov; [apply rd_imm; exact TU|]. intros g0 K0 L0.
    eapply m_subNC; [ia|ia|ia|exact Z1|exact X1|exact Y1|exact O1|exact O2|]. intros g1 f1 m1 K1 C1 L1 F1.
    destruct (DS m1 C1) as (X2 & Y2 & Z2).
    eapply m_load_sbb; [reflexivity|ia|ia|exact X2|exact Y2|exact F1|]. intros g2 f2 K2 L2 F2.
    eapply m_sub_modp; [exact (HTc _ C1)|gr|exact L2|exact F2|]. intros g3 f3 K3 L3.
    eapply m_store; [ia|exact Z2|exact L3|]. intros m2 C2 L4.
    destruct (djoin _ _ _ _ C1 L1 C2 L4) as [C3 L5]. destruct (half_sub x y rx ry) as (E1 & E2 & E3).
    eapply H; [kp|exact C3|]. unfold dbl_sub. pose proof W_pos. rewrite E3, <- E2, <- E1 in L5. destruct (x <? y).
    - rewrite Z.add_comm, Z.mul_comm. exact L5.
    - rewrite (halves ((x - y) mod W2)). exact L5.
  Qed.
End Dbl.
