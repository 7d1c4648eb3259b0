(** More straight-line parts of the functions on Fp2 (JitFp2): square into double width,
    multiplication by xi, halving. *)
From Coq Require Import ZArith List Bool Lia.
From Verif Require Import Base Prim Primes FpSpec Cfg FpM TowerM X64 XLog JitSpec XTac XReg JitFp JitMac JitMac2 JitMul JitMont JitMul4 JitMod JitFrame JitFp2 JitFp2Spec JitFp2Mac JitFpApi2.
From Verif Require Import FpSpec Cfg FpM TowerSpec FpProofs Fp2Proofs.
Import ListNotations.
Local Open Scope Z_scope.
Notation gsq := [RAX; RDX; gt1; gt2; gt3; gt4; gt5; gt6; gt7; gt8; gt9; gp3].

Section DSquare.
  Ltac ni ::= nic.
  Ltac kp ::= kpc.
  Variables (c : cfg) (il mx : bool) (T : Z) (k : code) (g : regs) (X : xregs) (f : flags) (m : memory) (Q : state -> Prop) (lo z a xa xb : Z).
  Hypothesis HT : modulus c m T.
  Hypothesis Gs : getr g RSP = lo + 64.
  Hypothesis Gz : getr g gp1 = z.
  Hypothesis Ga : getr g gp2 = a.
  Hypothesis Hst : mapped m lo 8.
  Hypothesis Hz : mapped m z 16.
  Hypothesis Xa : int_at m a 4 xa.
  Hypothesis Xb : int_at m (a + 32) 4 xb.
  Hypothesis SEP : (0 <= lo /\ lo + 64 < B) /\ (0 <= a /\ a + 64 <= B) /\ (0 <= z /\ z + 128 <= B) /\ (0 <= T /\ T + 32 <= B) /\
    (a + 64 <= lo \/ lo + 64 <= a) /\ (z + 128 <= lo \/ lo + 64 <= z) /\ (T + 32 <= lo \/ lo + 64 <= T) /\ (z + 128 <= T \/ T + 32 <= z) /\
    (z + 128 <= a \/ a + 64 <= z).
  Ltac sep := clear -SEP; lia.
  Ltac mp j := refine (mapped_at _ _ _ _ _ Hst j _ _); [clear; lia | apply Nat.leb_le; reflexivity].
  Ltac mz j := refine (mapped_at _ _ _ _ _ Hz j _ _); [clear; lia | apply Nat.leb_le; reflexivity].
  Lemma m_d2square :
    (forall g' f' m', keep gsq g g' -> chg [(lo, 64); (z, 128)] m m' ->
      int_at m' z 8 (fp_addNC xa xb * fp_subNC (fp_addNC xa (cp c)) xb) ->
      int_at m' (z + 64) 8 (fp_addNC xb xb * xa) -> wps k (mkSt g' X f' m') Q) ->
    wps (Fp2Dbl_square il mx T ++ k) (mkSt g X f m) Q.
  Proof.
    intros H. unfold Fp2Dbl_square. rewrite <- !app_assoc. cbn [app].
    eapply k_subx; [exact Gs|apply rd_imm; sep|sep|]. intros g1 f1 K1 L1. replace (lo + 64 - 64) with lo in L1 by (clear; lia).
    eapply (m_load _ _ _ _ _ _ gt3 gt2 gt1 gp3 eq_refl _ (a + 32)); [ad sep|exact Xb|]. intros g3 K3 L3.
    eapply m_dbl_rr; [reflexivity|exact L3|]. intros g4' f4 K4 L4 _.
    eapply (m_store _ _ _ _ _ _ _ _ _ _ _ lo); [ad sep|mp 0%nat|exact L4|]. intros m2 C2 R2. mv sep C2.
    eapply (m_mul4x4d _ _ _ _ _ _ _ _ _ _ (z + 64) lo a); [mz 8%nat|im|im|sep|sep|ad sep|ad sep|ad sep|]. intros g5 f5 m3 K5 C3 R3. mv sep C3.
    cbn [app]. eapply k_mov; [apply rd_imm; sep|]. intros g6 K6 L6.
    eapply (m_load_add _ _ _ _ _ _ gt3 gt2 gt1 gp3 eq_refl il _ _ a T); [ad sep|ad sep|im|let MM := mT in apply MM|]. intros g7 f7 K7 L7 _.
    eapply (m_sub_rm _ _ _ _ _ _ gt3 gt2 gt1 gp3 eq_refl _ (a + 32)); [ad sep|exact L7|im|]. intros g8' f8 K8 L8 _.
    eapply (m_store _ _ _ _ _ _ _ _ _ _ _ (lo + 32)); [ad sep|mp 4%nat|exact L8|]. intros m4 C4 R4. mv sep C4.
    eapply (m_addNC _ _ _ _ _ _ _ _ _ _ lo a (a + 32)); [ad sep|ad sep|ad sep|mp 0%nat|im|im|unfold ov; sep|unfold ov; sep|]. intros g9 f9 m5 K9 C5 R5 _. mv sep C5.
    eapply (m_mul4x4d _ _ _ _ _ _ _ _ _ _ z lo (lo + 32)); [mz 0%nat|im|im|sep|sep|ad sep|ad sep|ad sep|]. intros g10 f10 m6 K10 C6 R6. mv sep C6.
    cbn [app]. eapply (k_addx _ _ _ _ _ _ _ _ lo); [gr|apply rd_imm; sep|sep|]. intros g12 f12 K12 L12.
    eapply H; [apply (keep_drop RSP); [kp|rewrite L12, Gs; reflexivity]|chw ltac:(fun Hw => clear -Hw; lia)|im|im].
  Qed.
End DSquare.

Section DMulXi.
  Ltac ni ::= nic.
  Ltac kp ::= kpc.
  Variables (c : cfg) (il : bool) (T : Z) (k : code) (g : regs) (X : xregs) (f : flags) (m : memory) (Q : state -> Prop) (z a xa xb : Z).
  Hypothesis HT : modulus c m T.
  Hypothesis Gz : getr g gp1 = z.
  Hypothesis Ga : getr g gp2 = a.
  Hypothesis Hz : mapped m z 16.
  Hypothesis Xa : int_at m a 8 xa.
  Hypothesis Xb : int_at m (a + 64) 8 xb.
  Hypothesis SEP : (0 <= a /\ a + 128 <= B) /\ (0 <= z /\ z + 128 <= B) /\ (0 <= T /\ T + 32 <= B) /\
    (z + 128 <= T \/ T + 32 <= z) /\ (z + 128 <= a \/ a + 128 <= z).
  Ltac sep := clear -SEP; lia.
  Ltac mz j := refine (mapped_at _ _ _ _ _ Hz j _ _); [clear; lia | apply Nat.leb_le; reflexivity].
  Ltac dadd j zz aa bb m1 := eapply (m_Dbl_add c T il _ _ _ _ _ _ _ _ _ zz aa bb);
     [mz j|im|im|unfold ov64; sep|unfold ov64; sep|let MM := mT in exact MM|sep|ad sep|ad sep|ad sep|sep|];
     let g1 := fresh "g" in let f1 := fresh "f" in let K := fresh "K" in let C := fresh "C" in let R := fresh "R" in 
     intros g1 f1 m1 K C R; mv sep C.
  Ltac dsub j zz aa bb m1 := eapply (m_Dbl_sub c T il _ _ _ _ _ _ _ _ _ zz aa bb);
     [mz j|im|im|unfold ov64; sep|unfold ov64; sep|let MM := mT in exact MM|sep|ad sep|ad sep|ad sep|sep|];
     let g1 := fresh "g" in let f1 := fresh "f" in let K := fresh "K" in let C := fresh "C" in let R := fresh "R" in 
     intros g1 f1 m1 K C R; mv sep C.
  Lemma m_d2mul_xi :
    (forall g' f' m', keep (RAX :: g8) g g' -> chg [(z, 128)] m m' ->
      int_at m' z 8 (a2 (d2_mul_xi c (mk2 xa xb))) -> int_at m' (z + 64) 8 (b2 (d2_mul_xi c (mk2 xa xb))) -> wps k (mkSt g' X f' m') Q) ->
    wps (Fp2Dbl_mul_xi il (snark c) T ++ k) (mkSt g X f m) Q.
  Proof.
    intros H. unfold Fp2Dbl_mul_xi. unfold d2_mul_xi in H. destruct (snark c); rewrite <- !app_assoc; cbn [app].
    - cbv zeta in H. cbn [a2 b2] in H.
      eapply k_mov; [apply rd_imm; sep|]. intros g1 K1 L1.
      dadd 0%nat z a a m1. dadd 0%nat z z z m2. dadd 0%nat z z z m3. dadd 0%nat z z a m4. dsub 0%nat z z (a + 64) m5.
      dadd 8%nat (z + 64) (a + 64) (a + 64) m6. dadd 8%nat (z + 64) (z + 64) (z + 64) m7. dadd 8%nat (z + 64) (z + 64) (z + 64) m8.
      dadd 8%nat (z + 64) (z + 64) (a + 64) m9. dadd 8%nat (z + 64) (z + 64) a m10.
      eapply H; [kp|chw ltac:(fun Hw => clear -Hw; lia)|im|im].
    - cbn [a2 b2] in H.
      eapply k_mov; [apply rd_imm; sep|]. intros g1 K1 L1.
      dsub 0%nat z a (a + 64) m1. dadd 8%nat (z + 64) (a + 64) a m2.
      eapply H; [kp|chw ltac:(fun Hw => clear -Hw; lia)|im|im].
  Qed.
End DMulXi.

(** ** Halving *)
Lemma m_shr1 k g X f m Q x3 x2 x1 x0 x : nodup [x3; x2; x1; x0] = true -> regn g [x0; x1; x2; x3] x ->
  (forall g' f', keep [x3; x2; x1; x0] g g' -> regn g' [x0; x1; x2; x3] (x / 2) -> wps k (mkSt g' X f' m) Q) ->
  wps (shrn x3 x2 x1 x0 1 ++ k) (mkSt g X f m) Q.
Proof.
  intros D Hx H. destruct (reg4 _ _ _ _ _ _ Hx) as (u0 & u1 & u2 & u3 & U0 & U1 & U2 & U3 & G0 & G1 & G2 & G3 & V). nd D.
  unfold shrn. cbn [app].
  eapply k_shrd; [gr|gr|]. intros g2 f2 K2 R2. eapply k_shrd; [gr|gr|]. intros g3 f3 K3 R3. eapply k_shrd; [gr|gr|]. intros g4' f4 K4 R4.
  eapply k_shr; [gr|]. intros g5 f5 K5 R5.
  destruct (shr_val 1 u0 u1 u2 u3 ltac:(clear; lia) U0 U1 U2 U3) as (Y0 & Y1 & Y2 & Y3 & E). rewrite V in E. change (2 ^ 1) with 2 in *.
  eapply H; [kp|]. eapply (reg4_mk _ _ _ _ _ _ _ _ _ _ Y0 Y1 Y2 Y3); [gr|gr|gr|gr|exact E].
Qed.
Section Half.
  Ltac ni ::= nic.
  Ltac kp ::= kpc.
  Variables (c : cfg) (HF : Z) (k : code) (g : regs) (X : xregs) (f : flags) (m : memory) (Q : state -> Prop).
  Variables (ZZ A : addr) (z a x : Z).
  Hypothesis HH : half_table c m HF.
  Hypothesis HZ : isat g8 g ZZ z 32.
  Hypothesis HA : isat g8 g A a 32.
  Hypothesis Hz : mapped m z 4.
  Hypothesis Hx : int_at m a 4 x.
  Hypothesis NU : 0 <= HF /\ HF + 64 <= B.
  Lemma m_divBy2 :
    (forall g' f' m', keep g8 g g' -> chg [(z, 32)] m m' -> int_at m' z 4 (fp_divBy2 c x) -> wps k (mkSt g' X f' m') Q) ->
    wps (sub_Fp_divBy2 HF ZZ A ++ k) (mkSt g X f m) Q.
  Proof.
    intros H. destruct (int4 _ _ _ Hx) as (x0 & x1 & x2 & x3 & U0 & U1 & U2 & U3 & F0 & F1 & F2 & F3 & V).
    unfold sub_Fp_divBy2. rewrite <- !app_assoc. cbn [app].
    eapply k_mov; [eapply rd_mem; [transitivity (a + 0); [apply HA; [intros ? _; reflexivity|clear; lia]|apply Z.add_0_r]|exact F0]|]. intros g1 K1 L1.
    eapply k_and; [gr|apply rd_imm; rewrite B_val; clear; lia|]. intros g2 f2 K2 L2 _.
    assert (Ex : Z.land x0 1 = x mod 2).
    { rewrite (Z.land_ones _ 1) by (clear; lia). change (2 ^ 1) with 2. rewrite <- V. unfold lv. rewrite Zplus_mod, Zmult_mod.
      replace (B mod 2) with 0 by (rewrite B_val; reflexivity). rewrite Z.mul_0_l, Z.add_0_r, Zmod_mod. reflexivity. }
    rewrite Ex in L2. pose proof (Z.mod_pos_bound x 2 ltac:(clear; lia)) as Hm.
    set (r := x mod 2) in *. 
    eapply k_shl; [exact L2|]. intros g3 f3 K3 L3. rewrite Z.mod_small in L3 by (rewrite B_val; clear -Hm; lia).
    eapply (m_load _ _ _ _ _ _ gt4 gt3 gt2 gt1 eq_refl _ a); [ia|exact Hx|]. intros g4' K4 L4.
    eapply m_shr1; [reflexivity|exact L4|]. intros g5 f5 K5 L5.
    cbn [app]. eapply k_mov; [apply rd_imm; clear -NU; lia|]. intros g6 K6 L6.
    eapply (k_addx _ _ _ _ _ _ _ _ (r * 2 ^ 5) HF); [gr|eapply rd_reg; gr|clear -NU Hm; lia|]. intros g7 f7 K7 L7.
    assert (HT : int_at m (r * 2 ^ 5 + HF) 4 (halfTbl c r)).
    { unfold halfTbl. assert (D : r = 0 \/ r = 1) by (clear -Hm; lia). destruct D as [-> | ->].
      - refine (int_at_eq _ _ _ _ _ (proj1 HH) _). clear. lia.
      - refine (int_at_eq _ _ _ _ _ (proj2 HH) _). clear. lia. }
    eapply (m_add_rm _ _ _ _ _ _ gt4 gt3 gt2 gt1 eq_refl _ (r * 2 ^ 5 + HF)); [eapply isat_ad; [reflexivity|gr|clear; lia|clear -NU Hm; lia|clear -NU Hm; lia]| |exact HT|].
    { eapply regn_keep; [exact K7|nic|]. eapply regn_keep; [exact K6|nic|exact L5]. }
    intros g8' f8 K8 L8 _.
    eapply (m_store _ _ _ _ _ _ _ _ _ _ _ z); [ia|exact Hz|exact L8|]. intros m1 C1 R1.
    eapply H; [kp|exact C1|exact R1].
  Qed.
End Half.
Section Half2.
  Ltac ni ::= nic.
  Ltac kp ::= kpc.
  Variables (c : cfg) (T HF : Z) (k : code) (g : regs) (X : xregs) (f : flags) (m : memory) (Q : state -> Prop) (z a xa xb : Z).
  Hypothesis HH : half_table c m HF.
  Hypothesis Gz : getr g gp1 = z.
  Hypothesis Ga : getr g gp2 = a.
  Hypothesis Hz : mapped m z 8.
  Hypothesis Xa : int_at m a 4 xa.
  Hypothesis Xb : int_at m (a + 32) 4 xb.
  Hypothesis SEP : (0 <= a /\ a + 64 <= B) /\ (0 <= z /\ z + 64 <= B) /\ (0 <= HF /\ HF + 64 <= B) /\ (0 <= T < B) /\
    (z + 64 <= HF \/ HF + 64 <= z) /\ (z = a \/ z + 64 <= a \/ a + 64 <= z).
  Ltac sep := clear -SEP; lia.
  Ltac mz j := refine (mapped_at _ _ _ _ _ Hz j _ _); [clear; lia | apply Nat.leb_le; reflexivity].
  Lemma m_f2divBy2 :
    (forall g' f' m', keep (RAX :: g8) g g' -> chg [(z, 64)] m m' ->
      int_at m' z 4 (fp_divBy2 c xa) -> int_at m' (z + 32) 4 (fp_divBy2 c xb) -> wps k (mkSt g' X f' m') Q) ->
    wps (Fp2_divBy2 T HF ++ k) (mkSt g X f m) Q.
  Proof.
    intros H. unfold Fp2_divBy2. rewrite <- !app_assoc. cbn [app]. destruct HH as [H0 H1].
    eapply k_mov; [apply rd_imm; sep|]. intros g1 K1 L1.
    eapply (m_divBy2 c HF _ _ _ _ _ _ _ _ z a); [split; [exact H0|exact H1]|ad sep|ad sep|mz 0%nat|im|sep|]. intros g2 f2 m2 K2 C2 R2. mv sep C2.
    eapply (m_divBy2 c HF _ _ _ _ _ _ _ _ (z + 32) (a + 32)); [split; im|ad sep|ad sep|mz 4%nat|im|sep|]. intros g3 f3 m3 K3 C3 R3. mv sep C3.
    eapply H; [kp|chw ltac:(fun Hw => clear -Hw; lia)|im|im].
  Qed.
End Half2.

(** ** Multiplication by xi = 9 + u: quotient estimate and table lookup *)
Lemma p_table_chg c m m' T b n : chg [(b, n)] m m' -> T + 288 <= b \/ b + n <= T - 32 -> p_table c m T -> p_table c m' T.
Proof.
  intros C H P i Hi. refine (int_at_chg _ _ _ _ _ _ C _ (P i Hi)). apply Forall_cons; [apply co4; lia|apply Forall_nil].
Qed.
Lemma mul9_q (c : cfg) t : snark c = true -> 0 <= t < 10 * cp c -> 0 <= (((t / 2 ^ 193) mod B) * pRev) / 2 ^ 124 <= 9.
Proof.
  intros Hs Ht.
  assert (Ep : cp c = 21888242871839275222246405745257275088696311157297823662689037894645226208583).
  { destruct c; [discriminate| |]; reflexivity. }
  assert (Hd : 0 <= t / 2 ^ 193 < B).
  { split; [apply Z.div_pos; lia|]. rewrite B_val. apply Z.div_lt_upper_bound; [lia|]. rewrite Ep in Ht. lia. }
  rewrite (Z.mod_small _ _ Hd). unfold pRev.
  pose proof (Z.div_mod t (2 ^ 193) ltac:(lia)) as E1. pose proof (Z.mod_pos_bound t (2 ^ 193) ltac:(lia)) as E2.
  set (d := t / 2 ^ 193) in *. clearbody d. set (m := t mod 2 ^ 193) in *. clearbody m.
  pose proof (Z.div_mod (d * 0xa948e8c4c474094e) (2 ^ 124) ltac:(lia)) as E3.
  pose proof (Z.mod_pos_bound (d * 0xa948e8c4c474094e) (2 ^ 124) ltac:(lia)) as E4.
  set (f := _ / 2 ^ 124) in *. clearbody f. set (n := _ mod 2 ^ 124) in *. clearbody n.
  rewrite Ep in *. clear Ep. lia.
Qed.
Lemma reg5 g r0 r1 r2 r3 r4 v : regn g [r0; r1; r2; r3; r4] v -> regn g [r0; r1; r2; r3] (v mod W) /\ getr g r4 = v / W /\ isU (v / W).
Proof.
  intros [L V]. cbn [map] in *. inversion L as [|? ? P0 Q0]; inversion Q0 as [|? ? P1 Q1]; inversion Q1 as [|? ? P2 Q2]; inversion Q2 as [|? ? P3 Q3]; inversion Q3 as [|? ? P4 Q4]; subst.
  clear L Q0 Q1 Q2 Q3 Q4. pose proof (lv4_bound _ _ _ _ P0 P1 P2 P3) as Hb.
  assert (E : lv [getr g r0; getr g r1; getr g r2; getr g r3; getr g r4] = lv [getr g r0; getr g r1; getr g r2; getr g r3] + W * getr g r4).
  { unfold lv. rewrite <- B4. change (Z.of_nat 4) with 4. ring. }
  rewrite E. pose proof W_pos as HW.
  assert (E1 : (lv [getr g r0; getr g r1; getr g r2; getr g r3] + W * getr g r4) mod W = lv [getr g r0; getr g r1; getr g r2; getr g r3]).
  { rewrite Z.mul_comm, Z.mod_add by (clear -HW; lia). apply Z.mod_small. exact Hb. }
  assert (E2 : (lv [getr g r0; getr g r1; getr g r2; getr g r3] + W * getr g r4) / W = getr g r4).
  { rewrite Z.mul_comm, Z.div_add by (clear -HW; lia). rewrite Z.div_small by exact Hb. reflexivity. }
  split; [|split].
  - split; [cbn [map]; unfold limbs; repeat apply Forall_cons; try assumption; apply Forall_nil|]. cbn [map]. symmetry. exact E1.
  - symmetry. exact E2.
  - rewrite E2. exact P4.
Qed.
Lemma five_add t y h k : 0 <= t -> 0 <= h < B -> h + B * Z.b2z k = t / W + Z.b2z (W <=? t mod W + y) -> 0 <= y < W ->
  ((t + y) mod (B * W)) mod W = (t mod W + y) mod W /\ ((t + y) mod (B * W)) / W = h.
Proof.
  intros Ht Hh E Hy. pose proof W_pos as HW. pose proof B_pos as HB.
  pose proof (Z.div_mod t W ltac:(lia)) as Et. pose proof (Z.mod_pos_bound t W HW) as Hm. set (q := t / W) in *. set (r := t mod W) in *. clearbody q r.
  assert (E2 : (t + y) mod (B * W) = (r + y) mod W + W * h).
  { symmetry. apply (Z.mod_unique _ _ (Z.b2z k)).
    - left. pose proof (Z.mod_pos_bound (r + y) W HW). clear -H Hh HW HB. nia.
    - destruct (Z.leb_spec W (r + y)) as [Hc|Hc]; cbn [Z.b2z] in E.
      + assert (Er : (r + y) mod W = r + y - W) by (symmetry; apply (Z.mod_unique _ _ 1); lia). rewrite Er. subst t. replace h with (q + 1 - B * Z.b2z k) by lia. ring.
      + rewrite Z.mod_small by lia. subst t. replace h with (q + 0 - B * Z.b2z k) by lia. ring. }
  rewrite E2. pose proof (Z.mod_pos_bound (r + y) W HW) as Hr. split.
  - rewrite (Z.mul_comm W h), Z.mod_add by lia. apply Z.mod_small. exact Hr.
  - rewrite (Z.mul_comm W h), Z.div_add by lia. rewrite (Z.div_small _ _ Hr). reflexivity.
Qed.
Lemma five_sub t y h k : 0 <= t -> 0 <= h < B -> h = t / W - Z.b2z (t mod W - y <? 0) + B * Z.b2z k -> 0 <= y < W ->
  ((t - y) mod (B * W)) mod W = (t mod W - y) mod W /\ ((t - y) mod (B * W)) / W = h.
Proof.
  intros Ht Hh E Hy. pose proof W_pos as HW. pose proof B_pos as HB.
  pose proof (Z.div_mod t W ltac:(lia)) as Et. pose proof (Z.mod_pos_bound t W HW) as Hm. set (q := t / W) in *. set (r := t mod W) in *. clearbody q r.
  assert (E2 : (t - y) mod (B * W) = (r - y) mod W + W * h).
  { symmetry. apply (Z.mod_unique _ _ (- Z.b2z k)).
    - left. pose proof (Z.mod_pos_bound (r - y) W HW). clear -H Hh HW HB. nia.
    - destruct (Z.ltb_spec (r - y) 0) as [Hc|Hc]; cbn [Z.b2z] in E.
      + assert (Er : (r - y) mod W = r - y + W) by (symmetry; apply (Z.mod_unique _ _ (-1)); lia). rewrite Er. subst t. replace h with (q - 1 + B * Z.b2z k) by lia. ring.
      + rewrite Z.mod_small by lia. subst t. replace h with (q - 0 + B * Z.b2z k) by lia. ring. }
  rewrite E2. pose proof (Z.mod_pos_bound (r - y) W HW) as Hr. split.
  - rewrite (Z.mul_comm W h), Z.mod_add by lia. apply Z.mod_small. exact Hr.
  - rewrite (Z.mul_comm W h), Z.div_add by lia. rewrite (Z.div_small _ _ Hr). reflexivity.
Qed.
Lemma top_word g r0 r1 r2 r3 x : regn g [r0; r1; r2; r3] x -> getr g r3 = x / (B * B * B) /\ isU (getr g r3).
Proof.
  intros H. destruct (reg4 _ _ _ _ _ _ H) as (u0 & u1 & u2 & u3 & U0 & U1 & U2 & U3 & G0 & G1 & G2 & G3 & V).
  rewrite G3. split; [|exact U3]. apply (Z.div_unique _ _ _ (u0 + B * u1 + B * B * u2)).
  - left. unfold isU in *. clear -U0 U1 U2. pose proof B_pos. nia.
  - rewrite <- V. unfold lv. ring.
Qed.
(** the quotient from the two top words *)
Lemma q_words t : 0 <= t -> ((t mod W) / (B * B * B) + B * (t / W)) / 2 = t / 2 ^ 193.
Proof.
  intros Ht. assert (E : (t mod W) / (B * B * B) + B * (t / W) = t / 2 ^ 192).
  { assert (EW : W = B * (B * B * B)) by (rewrite <- B4; change (Z.of_nat 4) with 4; ring). assert (E3 : B * B * B = 2 ^ 192) by (rewrite B_val; reflexivity).
    rewrite <- E3. pose proof B_pos as HB. set (b3 := B * B * B) in *. assert (0 < b3) by (rewrite E3; reflexivity).
    pose proof W_pos as HW. pose proof (Z.div_mod t W ltac:(lia)) as Et. rewrite Et at 3. rewrite EW at 3.
    replace (B * b3 * (t / W) + t mod W) with (t mod W + B * (t / W) * b3) by ring. rewrite Z.div_add by lia. reflexivity. }
  rewrite E, Z.div_div by (discriminate || reflexivity). reflexivity.
Qed.

Lemma p_table_mod c m T : 0 <= T -> T + 32 <= B -> p_table c m T -> modulus c m T.
Proof.
  intros H1 H2 P. split; [|split; assumption]. pose proof (P 1 ltac:(lia)) as H. rewrite Z.mul_1_l, Z.mod_small in H by (pose proof (cp_lt_W c); pose proof (cp_pos c); lia).
  refine (int_at_eq _ _ _ _ _ H _). lia.
Qed.
Section MulXi1.
  Ltac ni ::= nic.
  Ltac kp ::= kpc.
  Variables (c : cfg) (mx : bool) (T : Z) (k : code) (g : regs) (X : xregs) (f : flags) (m : memory) (Q : state -> Prop).
  Variables (ZZ A A' : addr) (z a a' x y : Z) (doAdd : bool).
  Hypothesis HS : snark c = true.
  Hypothesis HP : p_table c m T.
  Hypothesis HZ : isat (RAX :: g8) g ZZ z 32.
  Hypothesis HA : isat (RAX :: g8) g A a 32.
  Hypothesis HA' : isat (RAX :: g8) g A' a' 32.
  Hypothesis Hz : mapped m z 4.
  Hypothesis Hx : int_at m a 4 x.
  Hypothesis Hy : int_at m a' 4 y.
  Hypothesis Lx : 0 <= x < cp c.
  Hypothesis Ly : 0 <= y < cp c.
  Hypothesis TU : 32 <= T /\ T + 288 <= B.
  Ltac ia' := eapply isat_sub; [| |eapply (isat_keep _ (RAX :: g8)); [kp|]]; [| |].
  (** the five-word value before the reduction *)
  Lemma xi_value : forall (Q' : state -> Prop) k', (forall g' f', keep (RAX :: g8) g g' ->
      let t := if doAdd then 9 * x + y else 9 * x + cp c - y in
      regn g' [gt1; gt2; gt3; gt4] (t mod W) -> getr g' RDX = t / W -> wps k' (mkSt g' X f' m) Q') ->
    wps ([Mov (R gt4) (Im 9)] ++ mul4x1 mx A gt4 gt5 gt3 gt2 gt1 gt6 ++
      (if doAdd then add_rm gt4 gt3 gt2 gt1 A' ++ [Adc (R RDX) (Im 0)]
       else [Mov (R RAX) (Im T)] ++ add_rm gt4 gt3 gt2 gt1 (Ad RAX 0) ++ [Adc (R RDX) (Im 0)] ++
        sub_rm gt4 gt3 gt2 gt1 A' ++ [Sbb (R RDX) (Im 0)]) ++ k') (mkSt g X f m) Q'.
  Proof.
    intros Q' k' H. pose proof (cp_lt_W c) as Pw. pose proof W_pos as HW. assert (HBW : 10 * cp c < B * W) by (rewrite B_val; clear -Pw HW; lia).
    assert (U0 : isU 0) by exact U0. assert (MT : modulus c m T) by (apply p_table_mod; [clear -TU; lia|clear -TU; lia|exact HP]).
    assert (PR : 0 <= cp c < W) by (pose proof (cp_pos c); clear -Pw H0; lia).
    assert (YR : 0 <= y < W) by (clear -Ly PR; lia).
    cbn [app]. eapply k_mov; [apply rd_imm; rewrite B_val; clear; lia|]. intros g1 K1 L1.
    eapply (m_mul4x1 mx _ _ _ _ _ _ gt4 gt5 gt3 gt2 gt1 gt6 eq_refl A a x 9); [ia|exact Hx|exact L1|unfold isU; rewrite B_val; clear; lia|].
    intros g2 f2 K2 L2. rewrite Z.mul_comm in L2. destruct (reg5 _ _ _ _ _ _ _ L2) as (L3 & R3 & U3).
    assert (T9 : 0 <= 9 * x) by (clear -Lx; lia).
    destruct doAdd; rewrite <- ?app_assoc; cbn [app].
    - eapply (m_add_rm _ _ _ _ _ _ gt4 gt3 gt2 gt1 eq_refl _ a'); [ia|exact L3|exact Hy|]. intros g3 f3 K3 L4 F4.
      eapply k_adc; [gr|apply rd_imm; rewrite B_val; clear; lia|exact F4|exact U3|exact U0|]. intros h kk g4' f4 Uh Eh K4 R4 _.
      unfold EQ in Eh. rewrite Z.add_0_r in Eh.
      destruct (five_add (9 * x) y h kk T9 Uh Eh YR) as [E1 E2].
      rewrite (Z.mod_small (9 * x + y) (B * W)) in E1, E2 by (clear -Lx Ly HBW; lia).
      eapply H; [kp| |]; cbv zeta.
      + rewrite E1. eapply regn_keep; [exact K4|nic|exact L4].
      + rewrite E2. exact R4.
    - eapply k_mov; [apply rd_imm; clear -TU; lia|]. intros g3 K3 R5.
      eapply (m_add_rm _ _ _ _ _ _ gt4 gt3 gt2 gt1 eq_refl _ T); [eapply isat_ad; [reflexivity|gr|clear; lia|clear -TU; lia|clear -TU; lia]| |apply MT|].
      { eapply regn_keep; [exact K3|nic|exact L3]. }
      intros g4' f4 K4 L4 F4.
      eapply k_adc; [gr|apply rd_imm; rewrite B_val; clear; lia|exact F4|exact U3|exact U0|]. intros h kk g5 f5 Uh Eh K5 R6 _.
      unfold EQ in Eh. rewrite Z.add_0_r in Eh.
      destruct (five_add (9 * x) (cp c) h kk T9 Uh Eh PR) as [E1 E2].
      rewrite (Z.mod_small (9 * x + cp c) (B * W)) in E1, E2 by (clear -Lx PR HBW; lia).
      rewrite <- E1 in L4. clear E1 Eh.
      eapply (m_sub_rm _ _ _ _ _ _ gt4 gt3 gt2 gt1 eq_refl _ a'); [ia|eapply regn_keep; [exact K5|nic|exact L4]|exact Hy|]. intros g6 f6 K6 L6 F6.
      eapply k_sbb; [gr|apply rd_imm; rewrite B_val; clear; lia|exact F6|exact Uh|exact U0|]. intros h' kk' g7 f7 Uh' Eh' K7 R7 _.
      unfold EQ in Eh'. rewrite Z.sub_0_r in Eh'. rewrite <- E2 in Eh'. clear E2.
      destruct (five_sub (9 * x + cp c) y h' kk' ltac:(clear -T9 PR; lia) Uh' Eh' YR) as [E1 E2].
      rewrite (Z.mod_small (9 * x + cp c - y) (B * W)) in E1, E2 by (clear -Lx Ly PR HBW; lia).
      eapply H; [kp| |]; cbv zeta.
      + rewrite E1. eapply regn_keep; [exact K7|nic|exact L6].
      + rewrite E2. exact R7.
  Qed.
  Lemma m_mul_xi_addsub :
    (forall g' f' m', keep (RAX :: g8) g g' -> chg [(z, 32)] m m' -> int_at m' z 4 (fp_mul9 c x y doAdd) -> wps k (mkSt g' X f' m') Q) ->
    wps (in_Fp_mul_xi_addsub mx T ZZ A A' doAdd ++ k) (mkSt g X f m) Q.
  Proof.
    intros H. pose proof (cp_lt_W c) as Pw. pose proof W_pos as HW. assert (HBW : 10 * cp c < B * W) by (rewrite B_val; clear -Pw HW; lia).
    assert (MT : modulus c m T) by (apply p_table_mod; [clear -TU; lia|clear -TU; lia|exact HP]).
    unfold in_Fp_mul_xi_addsub. rewrite <- !app_assoc. apply xi_value. intros g1 f1 K1 t L1 R1.
    assert (Ht : 0 <= t < 10 * cp c) by (unfold t; destruct doAdd; clear -Lx Ly; lia).
    assert (Et : fp_mul9 c x y doAdd = let q := (((t / 2 ^ 193) mod B) * pRev) / 2 ^ 124 in add_modp c ((t mod W - pTbl c q) mod W)).
    { unfold fp_mul9. rewrite (Z.mod_small (9 * x)) by (clear -Lx HBW; lia). unfold t. destruct doAdd; [rewrite (Z.mod_small (9 * x + y)) by (clear -Lx Ly HBW; lia)|rewrite (Z.mod_small (9 * x + cp c - y)) by (clear -Lx Ly HBW; lia)]; reflexivity. }
    rewrite Et in H. cbv zeta in H. clear Et. pose proof (mul9_q c t HS Ht) as Hq. destruct Ht as [Ht0 Ht1]. clearbody t.
    destruct (top_word _ _ _ _ _ _ L1) as [G4 U4]. rewrite G4 in U4.
    pose proof (q_words t Ht0) as QW.
    assert (Ud : isU ((t / 2 ^ 193) mod B)) by (apply Z.mod_pos_bound; apply B_pos).
    assert (Up : isU pRev) by (unfold isU, pRev; rewrite B_val; clear; lia).
    assert (Eq1 : forall d l h, isU l -> EQ (l + B * h) (pRev * d) -> h / 2 ^ 60 = d * pRev / 2 ^ 124).
    { intros d l h Ul E. unfold EQ in E. rewrite (Z.mul_comm d), <- E. replace (2 ^ 124) with (B * 2 ^ 60) by (rewrite B_val; reflexivity).
      rewrite <- Z.div_div by (pose proof B_pos as HB; clear -HB; lia). f_equal. rewrite (Z.mul_comm B h), Z.div_add by (pose proof B_pos as HB; clear -HB; lia).
      rewrite (Z.div_small _ _ Ul). reflexivity. }
    cbn [app]. eapply k_shld; [exact R1|exact G4|]. intros g2 f2 K2 R2. change (2 ^ (64 - 63)) with 2 in R2. rewrite QW in R2. clear QW.
    set (d := (t / 2 ^ 193) mod B) in *.
    eapply k_mov; [apply rd_imm; exact Up|]. intros g3 K3 R3. fold pRev in R3.
    eapply k_mul; [gr|eapply rd_reg; gr|exact Up|exact Ud|]. intros l h g4' f4 Ul Uh E4 K4 Ra Rd.
    specialize (Eq1 d l h Ul E4). set (q := d * pRev / 2 ^ 124) in *.
    eapply k_shr; [exact Rd|]. intros g5 f5 K5 R5. rewrite Eq1 in R5.
    eapply k_shl; [exact R5|]. intros g6 f6 K6 R6. rewrite Z.mod_small in R6 by (rewrite B_val; clear -Hq; lia).
    eapply k_mov; [apply rd_imm; clear -TU; lia|]. intros g7 K7 R7.
    pose proof (HP q Hq) as HPq.
    eapply (m_sub_rm _ _ _ _ _ _ gt4 gt3 gt2 gt1 eq_refl _ (T - 32 + 32 * q)); [| |exact HPq|].
    { intros g' i K Hi. cbn [plus ea]. rewrite (K RAX eq_refl), (K RDX eq_refl), R7, (K7 RDX eq_refl), R6.
      rewrite Z.mod_small; [clear; lia|clear -Hq TU Hi; lia]. }
    { eapply regn_keep; [exact K7|nic|]. eapply regn_keep; [exact K6|nic|]. eapply regn_keep; [exact K5|nic|]. eapply regn_keep; [exact K4|nic|]. eapply regn_keep; [exact K3|nic|]. eapply regn_keep; [exact K2|nic|exact L1]. }
    intros g8' f8 K8 L8 _.
    eapply m_add_modp; [exact MT|gr|exact L8|]. intros g9 f9 K9 L9.
    eapply (m_store _ _ _ _ _ _ _ _ _ _ _ z); [ia|exact Hz|exact L9|]. intros m1 C1 I1. eapply H; [kp|exact C1|exact I1].
  Qed.
End MulXi1.

Section MulXi.
  Ltac ni ::= nic.
  Ltac kp ::= kpc.
  Variables (c : cfg) (il mx : bool) (T : Z) (k : code) (g : regs) (X : xregs) (f : flags) (m : memory) (Q : state -> Prop) (z a xa xb : Z).
  Hypothesis HP : p_table c m T.
  Hypothesis Gz : getr g gp1 = z.
  Hypothesis Ga : getr g gp2 = a.
  Hypothesis Hz : mapped m z 8.
  Hypothesis Xa : int_at m a 4 xa.
  Hypothesis Xb : int_at m (a + 32) 4 xb.
  Hypothesis Lx : 0 <= xa < cp c.
  Hypothesis Ly : 0 <= xb < cp c.
  Hypothesis SEP : (0 <= a /\ a + 64 <= B) /\ (0 <= z /\ z + 64 <= B) /\ (32 <= T /\ T + 288 <= B) /\
    (z + 64 <= T - 32 \/ T + 288 <= z) /\ (z = a \/ z + 64 <= a \/ a + 64 <= z).
  Ltac sep := clear -SEP; lia.
  Ltac mz j := refine (mapped_at _ _ _ _ _ Hz j _ _); [clear; lia | apply Nat.leb_le; reflexivity].
  Lemma m_mul_xi :
    (forall g' f' m', keep (RAX :: g8) g g' -> chg [(z, 64)] m m' ->
      let r := if z =? a then f2_mul_xi_alias c (mk2 xa xb) else f2_mul_xi c (mk2 xa xb) in
      int_at m' z 4 (a2 r) -> int_at m' (z + 32) 4 (b2 r) -> wps k (mkSt g' X f' m') Q) ->
    wps (in_Fp2_mul_xi il mx (snark c) T (Ad gp1 0) (Ad gp2 0) ++ k) (mkSt g X f m) Q.
  Proof.
    intros H. unfold in_Fp2_mul_xi. rewrite <- !app_assoc. cbn [app].
    assert (MT : modulus c m T) by (apply p_table_mod; [sep|sep|exact HP]).
    unfold f2_mul_xi, f2_mul_xi_alias in H.
    eapply k_mov; [apply rd_imm; sep|]. intros g1 K1 L1. 
    destruct (snark c) eqn:Es; rewrite <- ?app_assoc; cbn [plus] in *; change (0 + 32) with 32 in *.
    - eapply (m_mul_xi_addsub c mx T _ _ _ _ _ _ _ _ _ z a (a + 32) xa xb false Es HP); [ad sep|ad sep|ad sep|mz 0%nat|im|im|exact Lx|exact Ly|sep|].
      intros g2 f2 m2 K2 C2 R2. assert (HP2 : p_table c m2 T) by (refine (p_table_chg _ _ _ _ _ _ C2 _ HP); sep). clear HP.
      destruct (mul9_sub_rep c xa xb (fv c xa) (fv c xb) Es (conj Lx eq_refl) (conj Ly eq_refl)) as [La _].
      cbv zeta in H. destruct (Z.eqb_spec z a) as [E|E].
      + pose proof (eq_trans Gz E) as Gz'. clear Gz. subst z. clear Xa. mv sep C2. cbn [a2 b2] in H. set (za := fp_mul9 c xa xb false) in *. clearbody za.
        eapply (m_mul_xi_addsub c mx T _ _ _ _ _ _ _ _ _ (a + 32) (a + 32) a xb za true Es HP2); [ad sep|ad sep|ad sep|mz 4%nat|im|im|exact Ly|exact La|sep|].
        intros g3 f3 m3 K3 C3 R3. mv sep C3. eapply H; [kp|chw ltac:(fun Hw => clear -Hw; lia)|im|im].
      + assert (AP : z + 64 <= a \/ a + 64 <= z) by (clear -SEP E; lia). assert (Xa' : int_at m2 a 4 xa) by (refine (int_at_chg _ _ _ _ _ _ C2 _ Xa); apply Forall_cons; [apply co4; clear -AP; lia|apply Forall_nil]). mv sep C2. cbn [a2 b2] in H.
        eapply (m_mul_xi_addsub c mx T _ _ _ _ _ _ _ _ _ (z + 32) (a + 32) a xb xa true Es HP2); [ad sep|ad sep|ad sep|mz 4%nat|im|exact Xa'|exact Ly|exact Lx|sep|].
        intros g3 f3 m3 K3 C3 R3. clear Xa'. mv sep C3. eapply H; [kp|chw ltac:(fun Hw => clear -Hw; lia)|im|im].
    - eapply (m_Fp_sub c T _ _ _ _ _ _ _ MT _ _ _ z a (a + 32)); [ad sep|ad sep|ad sep|mz 0%nat|im|im|gr|]. intros g2 f2 m2 K2 C2 R2.
      cbv zeta in H. destruct (Z.eqb_spec z a) as [E|E].
      + pose proof (eq_trans Gz E) as Gz'. clear Gz. subst z. clear Xa. mv sep C2. cbn [a2 b2] in H.
        let MM := mT in eapply (m_Fp_add c T _ _ _ _ _ _ _ MM _ _ _ (a + 32) a (a + 32)); [ad sep|ad sep|ad sep|mz 4%nat|im|im|gr|].
        intros g3 f3 m3 K3 C3 R3. mv sep C3. eapply H; [kp|chw ltac:(fun Hw => clear -Hw; lia)|im|im].
      + assert (AP : z + 64 <= a \/ a + 64 <= z) by (clear -SEP E; lia). assert (Xa' : int_at m2 a 4 xa) by (refine (int_at_chg _ _ _ _ _ _ C2 _ Xa); apply Forall_cons; [apply co4; clear -AP; lia|apply Forall_nil]). mv sep C2. cbn [a2 b2] in H.
        let MM := mT in eapply (m_Fp_add c T _ _ _ _ _ _ _ MM _ _ _ (z + 32) a (a + 32)); [ad sep|ad sep|ad sep|mz 4%nat|exact Xa'|im|gr|].
        intros g3 f3 m3 K3 C3 R3. clear Xa'. mv sep C3. eapply H; [kp|chw ltac:(fun Hw => clear -Hw; lia)|im|im].
  Qed.
End MulXi.
