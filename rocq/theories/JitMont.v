(** Fp_mul of JitFp: the four Montgomery rounds. *)
From Coq Require Import ZArith List Bool Lia.
From Verif Require Import Base Prim Primes FpSpec Cfg FpM X64 XLog JitSpec XTac XReg JitFp JitMac JitMac2 JitMul.
Import ListNotations.
Local Open Scope Z_scope.

Lemma add5 a0 a1 a2 a3 a4 b0 b1 b2 b3 b4 z0 z1 z2 z3 z4 k0 k1 k2 k3 k4 : isU z0 -> isU z1 -> isU z2 -> isU z3 -> isU z4 ->
  EQ (z0 + B * Z.b2z k0) (a0 + b0) -> EQ (z1 + B * Z.b2z k1) (a1 + b1 + Z.b2z k0) ->
  EQ (z2 + B * Z.b2z k2) (a2 + b2 + Z.b2z k1) -> EQ (z3 + B * Z.b2z k3) (b3 + a3 + Z.b2z k2) -> EQ (z4 + B * Z.b2z k4) (a4 + b4 + Z.b2z k3) ->
  let s := lv [a0; a1; a2; a3; a4] + lv [b0; b1; b2; b3; b4] in
  lv [z0; z1; z2; z3; z4] = s mod (B * W) /\ lv [z0; z1; z2; z3; z4] + B * W * Z.b2z k4 = s.
Proof.
  intros U0 U1 U2 U3 U4 E0 E1 E2 E3 E4 s. unfold EQ in *.
  assert (E : lv [z0; z1; z2; z3; z4] + B * W * Z.b2z k4 = s).
  { unfold s. rewrite W_B. cbn [lv].
    replace z0 with (a0 + b0 - B * Z.b2z k0) by lia. replace z1 with (a1 + b1 + Z.b2z k0 - B * Z.b2z k1) by lia.
    replace z2 with (a2 + b2 + Z.b2z k1 - B * Z.b2z k2) by lia. replace z3 with (b3 + a3 + Z.b2z k2 - B * Z.b2z k3) by lia.
    replace z4 with (a4 + b4 + Z.b2z k3 - B * Z.b2z k4) by lia. ring. }
  split; [|exact E]. exact (proj1 (carry_mod _ _ _ _ (lv5_bound z0 z1 z2 z3 z4 U0 U1 U2 U3 U4) E)).
Qed.
(** q makes the lowest word vanish *)
Lemma q_zero c a0 a' q hq r0 r' : isU a0 -> isU q -> EQ (q + B * hq) (cpp c * a0) -> EQ (r0 + B * r') (cp c * q) ->
  ((a0 + B * a') + (r0 + B * r')) mod B = 0 /\ q = (a0 * cpp c) mod B.
Proof.
  intros Ua Uq Eq Er. unfold EQ in *. pose proof B_pos as HB. assert (Q1 : q = (a0 * cpp c) mod B).
  { apply (Z.mod_unique _ _ hq); [left; exact Uq|]. rewrite (Z.mul_comm a0), <- Eq. ring. }
  split; [|exact Q1]. rewrite Er. pose proof (cpp_ok c) as HC.
  replace (a0 + B * a' + cp c * q) with (a0 * (cp c * cpp c + 1) + (a' - cp c * hq) * B) by (replace q with (cpp c * a0 - B * hq) by lia; ring).
  rewrite Z.mod_add by lia. rewrite Z.mul_mod, HC by lia. rewrite Z.mul_0_r. apply Z.mod_0_l. lia.
Qed.
Lemma mont_red c a0 a1 a2 a3 a4 q hq r0 r1 r2 r3 r4 s0 s1 s2 s3 s4 s5 k0 k1 k2 k3 k4 k5 : isU a0 -> isU q -> isU s0 -> isU s1 -> isU s2 -> isU s3 -> isU s4 -> isU s5 ->
  EQ (q + B * hq) (cpp c * a0) -> lv [r0; r1; r2; r3; r4] = cp c * q ->
  EQ (s0 + B * Z.b2z k0) (a0 + r0) -> EQ (s1 + B * Z.b2z k1) (a1 + r1 + Z.b2z k0) -> EQ (s2 + B * Z.b2z k2) (a2 + r2 + Z.b2z k1) ->
  EQ (s3 + B * Z.b2z k3) (r3 + a3 + Z.b2z k2) -> EQ (s4 + B * Z.b2z k4) (a4 + r4 + Z.b2z k3) -> EQ (s5 + B * Z.b2z k5) (s0 + 0 + Z.b2z k4) ->
  let a := lv [a0; a1; a2; a3; a4] in
  s0 = 0 /\ s5 = Z.b2z k4 /\ lv [s1; s2; s3; s4; s5] = (a + ((a mod B) * cpp c) mod B * cp c) / B.
Proof.
  intros Ua Uq T0 T1 T2 T3 T4 T5 Eq Er E0 E1 E2 E3 E4 E5 a. pose proof B_pos as HB.
  destruct (add5 a0 a1 a2 a3 a4 r0 r1 r2 r3 r4 s0 s1 s2 s3 s4 k0 k1 k2 k3 k4 T0 T1 T2 T3 T4 E0 E1 E2 E3 E4) as [_ S1]. fold a in S1.
  assert (Ea : a = a0 + B * lv [a1; a2; a3; a4]) by reflexivity. assert (Er' : EQ (r0 + B * lv [r1; r2; r3; r4]) (cp c * q)) by exact Er.
  destruct (q_zero c a0 (lv [a1; a2; a3; a4]) q hq r0 _ Ua Uq Eq Er') as [Z0 Q1]. rewrite <- Ea in Z0. change (r0 + B * lv [r1; r2; r3; r4]) with (lv [r0; r1; r2; r3; r4]) in Z0.
  assert (S0 : s0 = 0).
  { rewrite <- S1 in Z0. replace (lv [s0; s1; s2; s3; s4] + B * W * Z.b2z k4) with (s0 + (lv [s1; s2; s3; s4] + W * Z.b2z k4) * B) in Z0 by (cbn [lv]; ring).
    rewrite Z.mod_add, Z.mod_small in Z0; [exact Z0|exact T0|lia]. }
  subst s0. unfold EQ in E5. assert (S5 : s5 = Z.b2z k4).
  { unfold isU in T5. clear -E5 T5. rewrite B_val in *. destruct k4, k5; cbn [Z.b2z] in *; lia. }
  split; [reflexivity|]. split; [exact S5|]. assert (Em : a mod B = a0).
  { rewrite Ea, Z.mul_comm, Z.mod_add by lia. apply Z.mod_small. exact Ua. }
  rewrite Em, <- Q1, (Z.mul_comm q), <- Er, <- S1. rewrite S5.
  replace (lv [0; s1; s2; s3; s4] + B * W * Z.b2z k4) with (lv [s1; s2; s3; s4; Z.b2z k4] * B) by (rewrite W_B; cbn [lv]; ring).
  symmetry. apply Z.div_mul. lia.
Qed.
Lemma cppU c : 0 <= cpp c < B.
Proof. exact (cpp_range c). Qed.

(** what one round does, for given registers *)
Definition mont_spec (c4 c3 c2 c1 c0 y t0 t1 t2 t3 t4 : reg) (first : bool) : Prop :=
  forall c mx k g X f m Q T a x v acc, modulus c m T -> getr g gp1 = T -> getr g gp2 = a -> 0 <= a -> a + 32 <= B -> int_at m a 4 x ->
    getr g y = v -> isU v -> (if first then acc = 0 else regn g [c0; c1; c2; c3; c4] acc) ->
    (forall g' f', keep [RAX; RDX; c4; c3; c2; c1; c0; y; t0; t1; t2; t3; t4] g g' -> regn g' [c1; c2; c3; c4; c0] (mont1 c acc x v) -> wps k (mkSt g' X f' m) Q) ->
    wps (montgomery1 mx (cpp c) c4 c3 c2 c1 c0 gp2 y gp1 t0 t1 t2 t3 t4 first ++ k) (mkSt g X f m) Q.

Section Rounds.
  Ltac ni ::= nic.
  Ltac kp ::= kpc.
  Ltac imm := apply rd_imm; first [apply cppU | rewrite B_val; clear; lia].
  Ltac ksi := first [ks | lazymatch goal with
    | |- wps (Mov (R _) (Im _) :: _) _ _ => eapply k_mov; [imm | intros ? ? ?]
    | |- wps (Adc (R _) (Im 0) :: _) _ _ => eapply k_adc; [gr | imm | asm | asm | exact U0 | intros ? ? ? ? ? ? ? ? ?] end].
  (** the second half: the limbs of the accumulator are a0 .. a4 in c0 c1 c2 y c4 *)
  Ltac second Hn c c0 c1 c2 c3 c4 y t0 t1 t2 t3 t4 :=
    eapply k_mov; [imm|]; intros ? ? ?; ks; ks;
    eapply (m_mul4x1 _ _ _ _ _ _ _ c3 t3 t2 t1 t0 t4); [reflexivity | ia | match goal with H : modulus _ _ _ |- _ => exact (proj1 H) end | gr | asm |];
    let g9 := fresh "g" in let f9 := fresh "f" in let K9 := fresh "K" in let L9 := fresh "L" in intros g9 f9 K9 L9;
    destruct (reg5 _ _ _ _ _ _ _ L9) as (r0 & r1 & r2 & r3 & r4 & RU0 & RU1 & RU2 & RU3 & RU4 & R0 & R1 & R2 & R3 & R4 & RV);
    cbn [app]; do 5 ks; eapply k_adc; [gr | imm | asm | asm | exact U0 | intros ? ? ? ? ? ? ? ? ?].
  Ltac close Hn c :=
    match goal with
    | EQQ : EQ (?q + B * ?hq) (cpp c * ?a0), RV : lv [?r0; ?r1; ?r2; ?r3; ?r4] = cp c * ?q,
      F0 : EQ (?s0 + B * Z.b2z ?k0) (?a0 + ?r0), F1 : EQ (?s1 + B * Z.b2z ?k1) (?a1 + ?r1 + Z.b2z ?k0), F2 : EQ (?s2 + B * Z.b2z ?k2) (?a2 + ?r2 + Z.b2z ?k1),
      F3 : EQ (?s3 + B * Z.b2z ?k3) (?r3 + ?a3 + Z.b2z ?k2), F4 : EQ (?s4 + B * Z.b2z ?k4) (?a4 + ?r4 + Z.b2z ?k3), F5 : EQ (?s5 + B * Z.b2z ?k5) (?s0 + 0 + Z.b2z ?k4) |- _ =>
      let P := fresh "P" in
      assert (P : lv [s1; s2; s3; s4; s5] = (lv [a0; a1; a2; a3; a4] + ((lv [a0; a1; a2; a3; a4] mod B) * cpp c) mod B * cp c) / B)
        by (refine (proj2 (proj2 (mont_red c a0 a1 a2 a3 a4 q hq r0 r1 r2 r3 r4 s0 s1 s2 s3 s4 s5 k0 k1 k2 k3 k4 k5 _ _ _ _ _ _ _ _ EQQ RV F0 F1 F2 F3 F4 F5))); asm);
      eapply Hn; [kp | mkr5; rewrite P]
    end.
  Lemma mont_first : mont_spec gt1 gt8 gt4 gt3 gt2 gp3 gt5 gt6 gt7 gt9 gt10 true.
  Proof.
    intros c mx k g X f m Q T a x v acc HT H1 H2 A1 A2 Hx Hy Uv -> Hn.
    assert (AX : isat [RAX; RDX; gt1; gt8; gt4; gt3; gt2; gp3; gt5; gt6; gt7; gt9; gt10] g (Ad gp2 0) a 32) by (apply (isat_ad _ _ _ _ a); [reflexivity|exact H2|clear; lia|exact A1|exact A2]).
    assert (AT : isat [RAX; RDX; gt1; gt8; gt4; gt3; gt2; gp3; gt5; gt6; gt7; gt9; gt10] g (Ad gp1 0) T 32) by (apply (isat_ad _ _ _ _ T); [reflexivity|exact H1|clear; lia|apply HT|apply HT]).
    unfold montgomery1. rewrite <- !app_assoc.
    eapply (m_mul4x1 _ _ _ _ _ _ _ gp3 gt8 gt4 gt3 gt2 gt1); [reflexivity|ia|exact Hx|gr|asm|]. intros g1 f1 K1 L1.
    destruct (reg5 _ _ _ _ _ _ _ L1) as (a0 & a1 & a2 & a3 & a4 & V0 & V1 & V2 & V3 & V4 & E0 & E1 & E2 & E3 & E4 & V).
    pose proof (cppU c : isU (cpp c)) as UC.
    cbn [app]. ks. second Hn c gt2 gt3 gt4 gt8 gt1 gp3 gt5 gt6 gt7 gt9 gt10. close Hn c.
    unfold mont1. rewrite Z.add_0_l. rewrite (Z.mod_small (x * v)) by (rewrite <- V; apply lv5_bound; asm). rewrite V. reflexivity.
  Qed.
  Ltac next c4 c3 c2 c1 c0 :=
    let c := fresh "c" in intros c mx k g X f m Q T a x v acc HT H1 H2 A1 A2 Hx Hy Uv HC Hn;
    assert (AX : isat [RAX; RDX; c4; c3; c2; c1; c0; gp3; gt5; gt6; gt7; gt9; gt10] g (Ad gp2 0) a 32) by (apply (isat_ad _ _ _ _ a); [reflexivity|exact H2|clear; lia|exact A1|exact A2]);
    assert (AT : isat [RAX; RDX; c4; c3; c2; c1; c0; gp3; gt5; gt6; gt7; gt9; gt10] g (Ad gp1 0) T 32) by (apply (isat_ad _ _ _ _ T); [reflexivity|exact H1|clear; lia|apply HT|apply HT]);
    unfold montgomery1; rewrite <- !app_assoc;
    destruct (reg5 _ _ _ _ _ _ _ HC) as (b0 & b1 & b2 & b3 & b4 & B0 & B1 & B2 & B3 & B4 & D0 & D1 & D2 & D3 & D4 & DV);
    eapply (m_mul4x1 _ _ _ _ _ _ _ gp3 gt9 gt7 gt6 gt5 gt10); [reflexivity|ia|exact Hx|gr|asm|]; intros g1 f1 K1 L1;
    destruct (reg5 _ _ _ _ _ _ _ L1) as (a0 & a1 & a2 & a3 & a4 & V0 & V1 & V2 & V3 & V4 & E0 & E1 & E2 & E3 & E4 & V);
    pose proof (cppU c : isU (cpp c)) as UC;
    unfold add_rr; cbn [app]; do 5 ks;
    match goal with
    | F0 : EQ (?s0 + B * Z.b2z ?k0) (b0 + a0), F1 : EQ (?s1 + B * Z.b2z ?k1) (b1 + a1 + Z.b2z ?k0), F2 : EQ (?s2 + B * Z.b2z ?k2) (b2 + a2 + Z.b2z ?k1),
      F3 : EQ (?s3 + B * Z.b2z ?k3) (a3 + b3 + Z.b2z ?k2), F4 : EQ (?s4 + B * Z.b2z ?k4) (b4 + a4 + Z.b2z ?k3) |- _ =>
      assert (S1 : lv [s0; s1; s2; s3; s4] = (acc + x * v) mod (B * W))
        by (rewrite <- DV, <- V; refine (proj1 (add5 b0 b1 b2 b3 b4 a0 a1 a2 a3 a4 s0 s1 s2 s3 s4 k0 k1 k2 k3 k4 _ _ _ _ _ F0 F1 F2 F3 F4)); asm);
      clear F0 F1 F2 F3 F4
    end;
    second Hn c c0 c1 c2 c3 c4 gp3 gt5 gt6 gt7 gt9 gt10; close Hn c;
    match goal with E : lv _ = (_ + _) mod (B * W) |- _ => rewrite E end; reflexivity.
  Lemma mont_2 : mont_spec gt2 gt1 gt8 gt4 gt3 gp3 gt5 gt6 gt7 gt9 gt10 false.
  Proof. next gt2 gt1 gt8 gt4 gt3. Qed.
  Lemma mont_3 : mont_spec gt3 gt2 gt1 gt8 gt4 gp3 gt5 gt6 gt7 gt9 gt10 false.
  Proof. next gt3 gt2 gt1 gt8 gt4. Qed.
  Lemma mont_4 : mont_spec gt4 gt3 gt2 gt1 gt8 gp3 gt5 gt6 gt7 gt9 gt10 false.
  Proof. next gt4 gt3 gt2 gt1 gt8. Qed.
End Rounds.

Lemma limb_of y0 y1 y2 y3 : isU y0 -> isU y1 -> isU y2 -> isU y3 -> let y := lv [y0; y1; y2; y3] in
  y mod B = y0 /\ (y / B) mod B = y1 /\ (y / (B * B)) mod B = y2 /\ (y / (B * B * B)) mod B = y3.
Proof.
  intros V0 V1 V2 V3 y. pose proof B_pos as HB. unfold isU in *.
  assert (Q : forall a t, 0 <= a < B -> (a + B * t) mod B = a /\ (a + B * t) / B = t).
  { intros a t Ha. rewrite Z.mul_comm. split; [rewrite Z.mod_add by lia; apply Z.mod_small; exact Ha|]. rewrite Z.div_add, Z.div_small; lia. }
  unfold y. cbn [lv]. rewrite <- !Z.div_div by lia.
  destruct (Q y0 (y1 + B * (y2 + B * (y3 + B * 0))) V0) as [-> ->]. destruct (Q y1 (y2 + B * (y3 + B * 0)) V1) as [-> ->].
  destruct (Q y2 (y3 + B * 0) V2) as [-> ->]. destruct (Q y3 0 V3) as [-> _]. auto.
Qed.
Lemma red_val c x : 0 <= x < W -> (if x - cp c <? 0 then x else (x - cp c) mod W) = add_modp c x.
Proof.
  intros Hx. pose proof (pW c). unfold add_modp. destruct (Z.ltb_spec (x - cp c) 0); destruct (Z.ltb_spec x (cp c)); try (exfalso; lia); [reflexivity|].
  apply Z.mod_small. lia.
Qed.
(** the final subtraction: x - p, or the copy of x if that borrows *)
Lemma m_red c T k g X f m Q z3 z2 z1 z0 s3 s2 s1 s0 A x : nodup [z3; z2; z1; z0; s3; s2; s1; s0] = true -> modulus c m T ->
  isat [z3; z2; z1; z0] g A T 32 -> regn g [z0; z1; z2; z3] x -> regn g [s0; s1; s2; s3] x ->
  (forall g' f', keep [z3; z2; z1; z0] g g' -> regn g' [z0; z1; z2; z3] (add_modp c x) -> wps k (mkSt g' X f' m) Q) ->
  wps (sub_rm z3 z2 z1 z0 A ++ [Cmovc z0 (R s0); Cmovc z1 (R s1); Cmovc z2 (R s2); Cmovc z3 (R s3)] ++ k) (mkSt g X f m) Q.
Proof.
  intros D HT HA Hx Hs H. destruct (reg4 _ _ _ _ _ _ Hs) as (x0 & x1 & x2 & x3 & S0 & S1 & S2 & S3 & F0 & F1 & F2 & F3 & V).
  assert (D' : nodup [z3; z2; z1; z0] = true).
  { clear -D. cbn [nodup inb] in D |- *. repeat match type of D with context [reqb ?a ?b] => destruct (reqb a b); [discriminate D|] end. reflexivity. }
  eapply m_sub_rm; [exact D'|ia|exact Hx|apply HT|]. intros g5 f5 K5 L5 C5.
  destruct (reg4 _ _ _ _ _ _ L5) as (y0 & y1 & y2 & y3 & R0 & R1 & R2 & R3 & G0 & G1 & G2 & G3 & V').
  nd D. cbn [app]. do 4 ks.
  eapply H; [kp|]. set (b := x - cp c <? 0) in *. eapply reg4_mk; cycle 4; [gr|gr|gr|gr| |apply U_if; asm ..].
  rewrite lv_if, V, V'. apply red_val. rewrite <- V. apply lv4_bound; asm.
Qed.
Lemma lv5_lo x0 x1 x2 x3 x4 : isU x0 -> isU x1 -> isU x2 -> isU x3 -> lv [x0; x1; x2; x3] = lv [x0; x1; x2; x3; x4] mod W.
Proof.
  intros U0 U1 U2 U3. replace (lv [x0; x1; x2; x3; x4]) with (lv [x0; x1; x2; x3] + W * x4) by (rewrite W_B; cbn [lv]; ring).
  symmetry. apply loW. apply lv4_bound; assumption.
Qed.
Notation gall := [RAX; RDX; gp1; gp3; gt1; gt2; gt3; gt4; gt5; gt6; gt7; gt8; gt9; gt10].
(** the registers xmm2 .. xmm5 are unchanged *)
Definition xk (X X' : xregs) : Prop := getx X' X2 = getx X X2 /\ getx X' X3 = getx X X3 /\ getx X' X4 = getx X X4 /\ getx X' X5 = getx X X5.
Section FpMul.
  Ltac ni ::= nic.
  Ltac kp ::= kpc.
  Variables (c : cfg) (mx : bool) (T : Z) (k : code) (g : regs) (X : xregs) (f : flags) (m : memory) (Q : state -> Prop) (z a b x y : Z).
  Hypothesis HT : modulus c m T.
  Hypothesis TU : 0 <= T < B.
  Hypothesis Gz : getr g gp1 = z.
  Hypothesis Ga : getr g gp2 = a.
  Hypothesis Gb : getr g gp3 = b.
  Hypothesis Az : 0 <= z /\ z + 32 <= B.
  Hypothesis Aa : 0 <= a /\ a + 32 <= B.
  Hypothesis Ab : 0 <= b /\ b + 32 <= B.
  Hypothesis Hz : mapped m z 4.
  Hypothesis Hx : int_at m a 4 x.
  Hypothesis Hy : int_at m b 4 y.
  Ltac ldb := cbn [app]; eapply k_movqr; [reflexivity|]; cbn [setx getx xv0 xv1 xv2 xv3 xv4 xv5]; let gg := fresh "g" in let K := fresh "K" in let L := fresh "L" in intros gg K L;
    eapply k_mov; [eapply rd_mem; [eapply ea_ad; [gr | clear -Ab; lia | reflexivity] | asm] |];
    let g2 := fresh "g" in let K2 := fresh "K" in let L2 := fresh "L" in intros g2 K2 L2.
  Lemma getx_01 v w : getx (setx (setx X X0 v) X1 w) X0 = v /\ getx (setx (setx X X0 v) X1 w) X1 = w.
  Proof. destruct X. split; reflexivity. Qed.
  Lemma xk_01 v w : xk X (setx (setx X X0 v) X1 w).
  Proof. destruct X. repeat split; reflexivity. Qed.
  Lemma m_Fp_mul :
    (forall g' X' f' m', keep gall g g' -> getr g' gp1 = z -> chg [(z, 32)] m m' -> int_at m' z 4 (fp_mul c x y) -> xk X X' -> wps k (mkSt g' X' f' m') Q) ->
    wps (Fp_mul mx T (cpp c) ++ k) (mkSt g X f m) Q.
  Proof.
    intros H. destruct (int4 _ _ _ Hy) as (y0 & y1 & y2 & y3 & V0 & V1 & V2 & V3 & E0 & E1 & E2 & E3 & V).
    destruct (limb_of y0 y1 y2 y3 V0 V1 V2 V3) as (Y0 & Y1 & Y2 & Y3). rewrite V in Y0, Y1, Y2, Y3.
    unfold Fp_mul. rewrite <- !app_assoc. cbn [app].
    eapply k_movqx; [exact Gz|]. eapply k_mov; [apply rd_imm; exact TU|]. intros g1 K1 L1.
    eapply k_movqx; [gr|]. eapply k_mov; [eapply rd_mem; [eapply ea_ad; [gr|clear -Ab; lia|apply Z.add_0_r]|asm]|]. intros g2 K2 L2.
    destruct (getx_01 z b) as [GX0 GX1]. pose proof (xk_01 z b) as XK. set (X2 := setx (setx X X0 z) X1 b) in *. clearbody X2.
    eapply mont_first; [exact HT|gr|gr|apply Aa|apply Aa|exact Hx|exact L2|asm|reflexivity|]. intros g3 f3 K3 M1.
    cbn [app]. eapply k_movqr; [exact GX1|]. intros g4 K4 L4. eapply k_mov; [eapply rd_mem; [eapply ea_ad; [gr|clear -Ab; lia|reflexivity]|asm]|]. intros g5 K5 L5.
    eapply mont_2; [exact HT|gr|gr|apply Aa|apply Aa|exact Hx|exact L5|asm| |].
    { refine (regn_keep _ _ _ _ _ K5 _ (regn_keep _ _ _ _ _ K4 _ M1)); reflexivity. }
    intros g6 f6 K6 M2.
    cbn [app]. eapply k_movqr; [exact GX1|]. intros g7 K7 L7. eapply k_mov; [eapply rd_mem; [eapply ea_ad; [gr|clear -Ab; lia|reflexivity]|asm]|]. intros g8' K8 L8.
    eapply mont_3; [exact HT|gr|gr|apply Aa|apply Aa|exact Hx|exact L8|asm| |].
    { refine (regn_keep _ _ _ _ _ K8 _ (regn_keep _ _ _ _ _ K7 _ M2)); reflexivity. }
    intros g9 f9 K9 M3.
    cbn [app]. eapply k_movqr; [exact GX1|]. intros g10 K10 L10. eapply k_mov; [eapply rd_mem; [eapply ea_ad; [gr|clear -Ab; lia|reflexivity]|asm]|]. intros g11 K11 L11.
    eapply mont_4; [exact HT|gr|gr|apply Aa|apply Aa|exact Hx|exact L11|asm| |].
    { refine (regn_keep _ _ _ _ _ K11 _ (regn_keep _ _ _ _ _ K10 _ M3)); reflexivity. }
    intros g12 f12 K12 M4.
    destruct (reg5 _ _ _ _ _ _ _ M4) as (a0 & a1 & a2 & a3 & a4 & R0 & R1 & R2 & R3 & R4 & F0 & F1 & F2 & F3 & F4 & VR).
    cbn [app]. do 4 ks.
    eapply (m_red c T _ _ _ _ _ _ gt4 gt3 gt2 gt1 RDX gt7 gt6 gt5 _ (lv [a0; a1; a2; a3])); [reflexivity|exact HT| | | |].
    { apply (isat_ad _ _ _ _ T); [reflexivity|gr|clear; lia|apply HT|apply HT]. }
    { mkr. reflexivity. } { mkr. reflexivity. }
    intros g17 f17 K17 L17. cbn [app]. eapply k_movqr; [exact GX0|]. intros g18 K18 L18.
    rewrite <- (app_nil_r (store_mr _ _ _ _ _)), <- app_assoc. cbn [app].
    eapply m_store; [|exact Hz|refine (regn_keep _ _ _ _ _ K18 _ L17); reflexivity|].
    { apply (isat_ad _ _ _ _ z); [reflexivity|exact L18|clear; lia|apply Az|apply Az]. }
    intros m1 C1 L19. eapply H; [kp|exact L18|exact C1| |exact XK]. rewrite (lv5_lo a0 a1 a2 a3 a4 R0 R1 R2 R3), VR in L19. unfold fp_mul. rewrite Y0, Y1, Y2, Y3. exact L19.
  Qed.
End FpMul.
