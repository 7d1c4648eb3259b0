(** mul4x4 of JitFp: the product of two four-word numbers. *)
From Coq Require Import ZArith List Bool Lia.
From Verif Require Import Base Prim Primes FpSpec Cfg FpM X64 XLog JitSpec XTac XReg JitFp JitMac JitMac2 JitMul JitMont.
Import ListNotations.
Local Open Scope Z_scope.

Lemma int_at_mset m k w v b n x : m k = Some w -> k < b \/ b + 8 * Z.of_nat n <= k -> k + 8 <= b \/ b + 8 * Z.of_nat n <= k -> int_at m b n x -> int_at (mset m k v) b n x.
Proof.
  intros E _ H. apply (int_at_chg [(k, 8)]); [exact (chg_mset _ _ _ _ E)|]. apply Forall_cons; [|apply Forall_nil]. unfold clear_of. cbn [fst snd]. lia.
Qed.
(** accumulate: u + (r0 .. r4) with the carry added to r4 *)
Lemma mac_val (u v y s0 s1 s2 s3 r0 r1 r2 r3 r4 z : Z) (k k' : bool) : isU r0 -> isU r1 -> isU r2 -> isU r3 -> isU s0 -> isU s1 -> isU s2 -> isU s3 -> isU z ->
  0 <= u < W -> 0 <= v < W -> isU y ->
  lv [r0; r1; r2; r3; r4] = v * y -> lv [s0; s1; s2; s3] = (u + lv [r0; r1; r2; r3]) mod W -> k = (W <=? u + lv [r0; r1; r2; r3]) ->
  EQ (z + B * Z.b2z k') (r4 + 0 + Z.b2z k) -> lv [s0; s1; s2; s3; z] = u + v * y.
Proof.
  intros R0 R1 R2 R3 S0 S1 S2 S3 Uz Hu Hv Uy Er Es Ek Ez. pose proof (lv4_bound r0 r1 r2 r3 R0 R1 R2 R3) as Hr.
  assert (E : lv [s0; s1; s2; s3; z] + B * W * Z.b2z k' = u + v * y).
  { replace (lv [s0; s1; s2; s3; z]) with (lv [s0; s1; s2; s3] + W * z) by (rewrite W_B; cbn [lv]; ring).
    replace (lv [r0; r1; r2; r3; r4]) with (lv [r0; r1; r2; r3] + W * r4) in Er by (rewrite W_B; cbn [lv]; ring).
    set (r := lv [r0; r1; r2; r3]) in *. set (s := lv [s0; s1; s2; s3]) in *. clearbody r s. unfold EQ in Ez. pose proof W_pos as HW.
    assert (Ess : s + W * Z.b2z k = u + r).
    { subst k s. destruct (Z.leb_spec W (u + r)); cbn [Z.b2z].
      - assert (W0 : W <> 0) by lia. rewrite (Z.mod_eq _ _ W0). replace ((u + r) / W) with 1; [ring|]. apply (Z.div_unique _ _ _ (u + r - W)); lia.
      - rewrite Z.mod_small; lia. }
    rewrite <- Er. replace u with (s + W * Z.b2z k - r) by lia. replace r4 with (z + B * Z.b2z k' - Z.b2z k) by lia. ring. }
  assert (Hs : 0 <= u + v * y < B * W).
  { clear -Hu Hv Uy. unfold isU in Uy. pose proof W_pos as HW. generalize dependent W. intros w Hu Hv Hw. generalize dependent B. intros b Hb. nia. }
  refine (proj2 (top0 (B * W) _ k' _ _ Hs E)). apply lv5_bound; assumption.
Qed.
Lemma lv5_split s0 s1 s2 s3 s4 : lv [s0; s1; s2; s3; s4] = s0 + B * lv [s1; s2; s3; s4].
Proof. reflexivity. Qed.

Lemma chg8 m a v0 v1 v2 v3 v4 v5 v6 v7 : mapped m a 8 -> 
  chg [(a, 64)] m (mset (mset (mset (mset (mset (mset (mset (mset m a v0) (a + 8) v1) (a + 16) v2) (a + 24) v3) (a + 32) v4) (a + 40) v5) (a + 48) v6) (a + 56) v7).
Proof.
  intros Hm. split.
  - intros b Hb. inversion Hb as [|? ? Hb1 _]; subst. unfold off in Hb1. cbn [fst snd] in Hb1.
    rewrite !mset_ne by (clear -Hb1; lia). reflexivity.
  - intros b u E. unfold mset. repeat match goal with |- context [b =? ?c] => destruct (b =? c); [eauto|] end. eauto.
Qed.
Lemma int8_mset m a v0 v1 v2 v3 v4 v5 v6 v7 x : isU v0 -> isU v1 -> isU v2 -> isU v3 -> isU v4 -> isU v5 -> isU v6 -> isU v7 -> lv [v0; v1; v2; v3; v4; v5; v6; v7] = x ->
  int_at (mset (mset (mset (mset (mset (mset (mset (mset m a v0) (a + 8) v1) (a + 16) v2) (a + 24) v3) (a + 32) v4) (a + 40) v5) (a + 48) v6) (a + 56) v7) a 8 x.
Proof.
  intros U0 U1 U2 U3 U4 U5 U6 U7 V. exists [v0; v1; v2; v3; v4; v5; v6; v7]. split; [reflexivity|]. split; [|split; [|exact V]].
  - unfold limbs. repeat (apply Forall_cons; [assumption|]). apply Forall_nil.
  - cbn [words]. rewrite <- !Z.add_assoc. cbn [Z.add Pos.add Pos.succ].
    repeat (split; [rewrite ?mset_ne by (clear; lia); apply mset_eq; reflexivity|]). exact I.
Qed.
Lemma plus_plus A i j : plus (plus A i) j = plus A (i + j).
Proof. destruct A; cbn [plus]; f_equal; ring. Qed.
Section Mul44.
  Ltac ni ::= nic.
  Ltac kp ::= kpc.
  Notation gm := [RAX; RDX; gt1; gt2; gt3; gt4; gt5; gt6; gt7; gt8; gt9; gt10].
  Notation gm' := [RAX; RDX; gt1; gt2; gt3; gt4; gt5; gt6; gt7; gt8; gt9; gp3].
  Variables (mx : bool) (k : code) (g : regs) (X : xregs) (f : flags) (m : memory) (Q : state -> Prop) (ZZ A A' : addr) (z a b x y : Z).
  Hypothesis Hz : mapped m z 8.
  Hypothesis Hx : int_at m a 4 x.
  Hypothesis Hy : int_at m b 4 y.
  Hypothesis Oa : z + 64 <= a \/ a + 32 <= z.
  Hypothesis Ob : z + 64 <= b \/ b + 32 <= z.
  Lemma map8 : exists w0 w1 w2 w3 w4 w5 w6 w7, m z = Some w0 /\ m (z + 8) = Some w1 /\ m (z + 16) = Some w2 /\ m (z + 24) = Some w3 /\
    m (z + 32) = Some w4 /\ m (z + 40) = Some w5 /\ m (z + 48) = Some w6 /\ m (z + 56) = Some w7.
  Proof.
    apply (mapped_app m z 4 4) in Hz. destruct Hz as [Z1 Z2]. destruct (map4 _ _ Z1) as (w0 & w1 & w2 & w3 & E0 & E1 & E2 & E3).
    destruct (map4 _ _ Z2) as (w4 & w5 & w6 & w7 & E4 & E5 & E6 & E7). change (8 * Z.of_nat 4) with 32 in *. rewrite <- !Z.add_assoc in E5, E6, E7.
    exists w0, w1, w2, w3, w4, w5, w6, w7. repeat (split; [assumption|]). exact E7.
  Qed.
  Ltac ws := lazymatch goal with
    | |- mset _ _ _ _ = Some _ => rewrite mset_ne by (first [clear; lia | clear -Oa; lia | clear -Ob; lia]); ws
    | _ => asm end.
  Ltac ead := lazymatch goal with |- ea _ (plus ?AA ?i) = _ => match goal with H : isat _ g AA ?b _ |- _ =>
    transitivity (b + i); [apply H; [kp | clear; lia] | rewrite ?Z.add_0_r; reflexivity] end end.
  Ltac ld := eapply rd_mem; [ead | ws].
  Ltac sto := eapply k_store; [ead | ws | gr |].
  Ltac imm := apply rd_imm; rewrite B_val; clear; lia.
  (** one instruction *)
  Ltac k1 := lazymatch goal with
    | |- wps (Mov (R _) (M _) :: _) _ _ => eapply k_mov; [ld | intros ? ? ?]
    | |- wps (Mov (R _) (Im _) :: _) _ _ => eapply k_mov; [imm | intros ? ? ?]
    | |- wps (Mov (M _) _ :: _) _ _ => sto
    | |- wps (Mulx _ _ (M _) :: _) _ _ => eapply k_mulx; [ni | gr | ld | asm | asm | intros ? ? ? ? ? ? ? ? ?]
    | |- wps (Adc (R _) (Im 0) :: _) _ _ => eapply k_adc; [gr | imm | asm | asm | exact U0 | intros ? ? ? ? ? ? ? ? ?]
    | _ => ks end.
  Ltac prod x0 :=
    repeat match goal with E : EQ _ (x0 * ?w) |- _ => rewrite (Z.mul_comm x0 w) in E end;
    repeat match goal with
    | |- lv [?l0; ?z1; ?z2; ?z3; ?z4] = lv [?v0; ?v1; ?v2; ?v3] * x0 =>
      match goal with M0 : EQ (l0 + B * ?h0) (v0 * x0), M1 : EQ (?l1 + B * ?h1) (v1 * x0), M2 : EQ (?l2 + B * ?h2) (v2 * x0), M3 : EQ (?l3 + B * ?h3) (v3 * x0),
        E1 : EQ (z1 + B * Z.b2z ?k1) _, E2 : EQ (z2 + B * Z.b2z ?k2) _, E3 : EQ (z3 + B * Z.b2z ?k3) _, E4 : EQ (z4 + B * Z.b2z ?k4) _ |- _ =>
        apply (mul41 v0 v1 v2 v3 x0 l0 l1 l2 l3 h0 h1 h2 h3 z1 z2 z3 z4 k1 k2 k3 k4); first [asm | apply EQ_comm3; asm] end end.
  Definition first4 (t5 t4 t3 t2 t1 t0 : reg) : code := if mx then
    [Mov (R RDX) (M (plus A 0)); Mulx t0 RAX (M (plus A' 0)); Mov (M (plus ZZ 0)) (R RAX);
     Mulx t1 RAX (M (plus A' 8)); Add (R t0) (R RAX);
     Mulx t2 RAX (M (plus A' 16)); Adc (R t1) (R RAX);
     Mulx t3 RAX (M (plus A' 24)); Adc (R t2) (R RAX); Adc (R t3) (Im 0)]
  else
    [Mov (R t5) (M (plus A 0)); Mov (R RAX) (M (plus A' 0)); Mul (R t5); Mov (M (plus ZZ 0)) (R RAX); Mov (R t0) (R RDX);
     Mov (R RAX) (M (plus A' 8)); Mul (R t5); Mov (R t3) (R RAX); Mov (R t1) (R RDX);
     Mov (R RAX) (M (plus A' 16)); Mul (R t5); Mov (R t4) (R RAX); Mov (R t2) (R RDX);
     Mov (R RAX) (M (plus A' 24)); Mul (R t5);
     Add (R t0) (R t3); Mov (R t3) (Im 0); Adc (R t1) (R t4); Adc (R t2) (R RAX); Adc (R t3) (R RDX)].
  Lemma first41 kk x0 y0 y1 y2 y3 : isat gm g ZZ z 64 -> isat gm g A a 32 -> isat gm g A' b 32 -> isU x0 -> isU y0 -> isU y1 -> isU y2 -> isU y3 -> m a = Some x0 ->
    m b = Some y0 -> m (b + 8) = Some y1 -> m (b + 16) = Some y2 -> m (b + 24) = Some y3 ->
    (forall l g' f' w, isU l -> keep gm g g' -> regn g' [gt10; gt1; gt2; gt3] w -> l + B * w = lv [y0; y1; y2; y3] * x0 -> wps kk (mkSt g' X f' (mset m z l)) Q) ->
    wps (first4 gt5 gt4 gt3 gt2 gt1 gt10 ++ kk) (mkSt g X f m) Q.
  Proof.
    intros HZ HA HA' V0 V1 V2 V3 V4 E0 F0 F1 F2 F3 H. destruct map8 as (w0 & w1 & w2 & w3 & w4 & w5 & w6 & w7 & N0 & N1 & N2 & N3 & N4 & N5 & N6 & N7). pose proof U0 as UZ.
    unfold first4. destruct mx; cbn [app].
    - do 10 k1. eapply (H lo); [asm|kp|mkr; reflexivity|]. rewrite <- lv5_split. prod x0.
    - do 20 k1. eapply (H lo); [asm|kp|mkr; reflexivity|]. rewrite <- lv5_split. prod x0.
  Qed.
  Lemma first41s kk x0 y0 y1 y2 y3 : isat gm g ZZ z 64 -> isat gm g A a 32 -> isat gm g A' b 32 -> isU x0 -> isU y0 -> isU y1 -> isU y2 -> isU y3 -> m a = Some x0 ->
    m b = Some y0 -> m (b + 8) = Some y1 -> m (b + 16) = Some y2 -> m (b + 24) = Some y3 ->
    (forall l g' f' w, isU l -> keep gm g g' -> regn g' [gt1; gt2; gt3; gt4] w -> l + B * w = lv [y0; y1; y2; y3] * x0 -> wps kk (mkSt g' X f' (mset m z l)) Q) ->
    wps (first4 gt6 gt5 gt4 gt3 gt2 gt1 ++ kk) (mkSt g X f m) Q.
  Proof.
    intros HZ HA HA' V0 V1 V2 V3 V4 E0 F0 F1 F2 F3 H. destruct map8 as (w0 & w1 & w2 & w3 & w4 & w5 & w6 & w7 & N0 & N1 & N2 & N3 & N4 & N5 & N6 & N7). pose proof U0 as UZ.
    unfold first4. destruct mx; cbn [app].
    - do 10 k1. eapply (H lo); [asm|kp|mkr; reflexivity|]. rewrite <- lv5_split. prod x0.
    - do 20 k1. eapply (H lo); [asm|kp|mkr; reflexivity|]. rewrite <- lv5_split. prod x0.
  Qed.
  Lemma first41d kk x0 y0 y1 y2 y3 : isat gm' g ZZ z 64 -> isat gm' g A a 32 -> isat gm' g A' b 32 -> isU x0 -> isU y0 -> isU y1 -> isU y2 -> isU y3 -> m a = Some x0 ->
    m b = Some y0 -> m (b + 8) = Some y1 -> m (b + 16) = Some y2 -> m (b + 24) = Some y3 ->
    (forall l g' f' w, isU l -> keep gm' g g' -> regn g' [gp3; gt1; gt2; gt3] w -> l + B * w = lv [y0; y1; y2; y3] * x0 -> wps kk (mkSt g' X f' (mset m z l)) Q) ->
    wps (first4 gt5 gt4 gt3 gt2 gt1 gp3 ++ kk) (mkSt g X f m) Q.
  Proof.
    intros HZ HA HA' V0 V1 V2 V3 V4 E0 F0 F1 F2 F3 H. destruct map8 as (w0 & w1 & w2 & w3 & w4 & w5 & w6 & w7 & N0 & N1 & N2 & N3 & N4 & N5 & N6 & N7). pose proof U0 as UZ.
    unfold first4. destruct mx; cbn [app].
    - do 10 k1. eapply (H lo); [asm|kp|mkr; reflexivity|]. rewrite <- lv5_split. prod x0.
    - do 20 k1. eapply (H lo); [asm|kp|mkr; reflexivity|]. rewrite <- lv5_split. prod x0.
  Qed.
  (** acc + y * x_j, in registers u0 .. u3 and rdx *)
  Ltac mac xr u3 u2 u1 u0 t3 t2 t1 t0 t w xj :=
    eapply (m_mul4x1 _ _ _ _ _ _ _ xr t3 t2 t1 t0 t eq_refl _ b y xj); [ia | match goal with H : int_at ?mm b 4 y |- int_at ?mm b 4 y => exact H end | gr | asm |];
    let g9 := fresh "g" in let f9 := fresh "f" in let K9 := fresh "K" in let L9 := fresh "L" in intros g9 f9 K9 L9;
    let r0 := fresh "r" in let r1 := fresh "r" in let r2 := fresh "r" in let r3 := fresh "r" in destruct (reg5 _ _ _ _ _ _ _ L9) as (r0 & r1 & r2 & r3 & ? & ? & ? & ? & ? & ? & ? & ? & ? & ? & ? & ?);
    eapply (m_add_rr _ _ _ _ _ _ u3 u2 u1 u0 xr t2 t1 t0 w (lv [r0; r1; r2; r3])); [reflexivity | match goal with H : regn _ [u0; u1; u2; u3] w |- _ => refine (regn_keep _ _ _ _ _ _ _ H); [kp0 | reflexivity] end | mkr; reflexivity |];
    let g8 := fresh "g" in let f8 := fresh "f" in let K8 := fresh "K" in let L8 := fresh "L" in let C8 := fresh "C" in intros g8 f8 K8 L8 C8;
    cbn [app]; k1;
    destruct (reg4 _ _ _ _ _ _ L8) as (? & ? & ? & ? & ? & ? & ? & ? & ? & ? & ? & ? & ?).
  (** the value accumulated *)
  Ltac accv u xj M Hu Hy :=
    match goal with SV : lv [?s0; ?s1; ?s2; ?s3] = (u + lv [?r0; ?r1; ?r2; ?r3]) mod W, RV : lv [?r0; ?r1; ?r2; ?r3; ?r4] = y * xj, EZ : EQ (?zz + B * Z.b2z ?kk) (?r4 + 0 + Z.b2z _) |- _ =>
      assert (M : lv [s0; s1; s2; s3; zz] = u + y * xj) by (eapply (mac_val u y xj s0 s1 s2 s3 r0 r1 r2 r3 r4 zz); try asm; [exact Hu|exact Hy|exact RV|exact SV|reflexivity|exact EZ]);
      clear SV RV EZ
    end.
  Ltac nextacc u0 u1 u2 u3 v L Hv M :=
    match type of M with lv [?s0; ?s1; ?s2; ?s3; ?s4] = _ =>
      match goal with |- wps _ (mkSt ?gg _ _ _) _ => 
        assert (L : regn gg [u0; u1; u2; u3] (lv [s1; s2; s3; s4])) by (mkr; reflexivity);
        assert (Hv : 0 <= lv [s1; s2; s3; s4] < W) by (apply lv4_bound; asm);
        rewrite lv5_split in M; set (v := lv [s1; s2; s3; s4]) in *; clearbody v
      end end.
  Ltac yy Y Y0 := lazymatch goal with |- wps _ (mkSt _ _ _ ?mm) _ => 
    assert (Y : int_at mm b 4 y) by (eapply int_at_mset; [ws|clear -Ob; change (8 * Z.of_nat 4) with 32; lia|clear -Ob; change (8 * Z.of_nat 4) with 32; lia|exact Y0]) end.
  Ltac main fst t9 t8 t7 t6 t5 t4 t3 t2 t1 t0 HZ HA HA' H :=
    destruct (int4 _ _ _ Hx) as (x0 & x1 & x2 & x3 & XU0 & XU1 & XU2 & XU3 & X0' & X1' & X2' & X3' & XV);
    destruct (int4 _ _ _ Hy) as (y0 & y1 & y2 & y3 & YU0 & YU1 & YU2 & YU3 & Y0' & Y1' & Y2' & Y3' & YV);
    destruct map8 as (w0 & w1 & w2 & w3 & w4 & w5 & w6 & w7 & N0 & N1 & N2 & N3 & N4 & N5 & N6 & N7);
    unfold mul4x4; rewrite <- !app_assoc; eapply (fst _ x0 y0 y1 y2 y3); [exact HZ|exact HA|exact HA'|asm|asm|asm|asm|asm|asm|asm|asm|asm|asm|];
    let l := fresh "l" in let E1 := fresh "E" in let u := fresh "u" in let L1 := fresh "L" in
    intros l ? ? u ? ? L1 E1; rewrite YV in E1;
    let Hyr := fresh "Hyr" in assert (Hyr : 0 <= y < W) by (rewrite <- YV; apply lv4_bound; asm);
    let Hu := fresh "Hu" in assert (Hu : 0 <= u < W) by (destruct (reg4 _ _ _ _ _ _ L1) as (p0 & p1 & p2 & p3 & P0 & P1 & P2 & P3 & _ & _ & _ & _ & <-); apply lv4_bound; asm);
    let Y2 := fresh "Y" in assert (Y2 : int_at (mset m z l) b 4 y) by (apply (int_at_mset _ _ _ _ _ _ _ N0); [clear -Ob; change (8 * Z.of_nat 4) with 32; lia|clear -Ob; change (8 * Z.of_nat 4) with 32; lia|exact Hy]);
    cbn [app]; k1;
    mac t9 t3 t2 t1 t0 t8 t7 t6 t5 t4 u x1;
    let M1 := fresh "M" in accv u x1 M1 Hu Hyr; k1; 
    let u2 := fresh "u" in let LA2 := fresh "LA" in let Hu2 := fresh "Hu" in nextacc t1 t2 t3 t8 u2 LA2 Hu2 M1; k1;
    let Y3 := fresh "Y" in yy Y3 Y2; k1;
    mac t9 t8 t3 t2 t1 t7 t6 t5 t4 t0 u2 x2;
    let M2 := fresh "M" in accv u2 x2 M2 Hu2 Hyr; k1;
    let u3 := fresh "u" in let LA3 := fresh "LA" in let Hu3 := fresh "Hu" in nextacc t2 t3 t8 t7 u3 LA3 Hu3 M2; k1;
    let Y4 := fresh "Y" in yy Y4 Y3; k1;
    mac t9 t7 t8 t3 t2 t6 t5 t4 t1 t0 u3 x3;
    let M3 := fresh "M" in accv u3 x3 M3 Hu3 Hyr; unfold store_mr; rewrite !plus_plus; cbn [app];
    change (24 + 0) with 24; change (24 + 8) with 32; change (24 + 16) with 40; change (24 + 24) with 48; do 5 k1;
    lazymatch goal with |- wps k (mkSt _ _ _ (mset (mset (mset (mset (mset (mset (mset (mset m z ?z0) (z + 8) ?z1) (z + 16) ?z2) (z + 24) ?z3) (z + 32) ?z4) (z + 40) ?z5) (z + 48) ?z6) (z + 56) ?z7)) Q =>
      let C8 := fresh "C" in let I8 := fresh "I" in
      pose proof (chg8 m z z0 z1 z2 z3 z4 z5 z6 z7 Hz) as C8; pose proof (int8_mset m z z0 z1 z2 z3 z4 z5 z6 z7 (x * y)) as I8;
      eapply H; [kp|exact C8|]; apply I8; [asm|asm|asm|asm|asm|asm|asm|asm|]; clear -E1 M1 M2 M3 XV; rewrite <- XV; cbn [lv] in M3 |- *;
      rewrite M3; replace l with (y * x0 - B * u) by lia; replace u with (z1 + B * u2 - y * x1) by lia; replace u2 with (z2 + B * u3 - y * x2) by lia; ring end.
  Lemma m_mul4x4 : isat gm g ZZ z 64 -> isat gm g A a 32 -> isat gm g A' b 32 ->
    (forall g' f' m', keep gm g g' -> chg [(z, 64)] m m' -> int_at m' z 8 (x * y) -> wps k (mkSt g' X f' m') Q) ->
    wps (mul4x4 mx ZZ A A' gt9 gt8 gt7 gt6 gt5 gt4 gt3 gt2 gt1 gt10 ++ k) (mkSt g X f m) Q.
  Proof. intros HZ HA HA' H. main first41 gt9 gt8 gt7 gt6 gt5 gt4 gt3 gt2 gt1 gt10 HZ HA HA' H. Qed.
  Lemma m_mul4x4s : isat gm g ZZ z 64 -> isat gm g A a 32 -> isat gm g A' b 32 ->
    (forall g' f' m', keep gm g g' -> chg [(z, 64)] m m' -> int_at m' z 8 (x * y) -> wps k (mkSt g' X f' m') Q) ->
    wps (mul4x4 mx ZZ A A' gt10 gt9 gt8 gt7 gt6 gt5 gt4 gt3 gt2 gt1 ++ k) (mkSt g X f m) Q.
  Proof. intros HZ HA HA' H. main first41s gt10 gt9 gt8 gt7 gt6 gt5 gt4 gt3 gt2 gt1 HZ HA HA' H. Qed.
  Lemma m_mul4x4d : isat gm' g ZZ z 64 -> isat gm' g A a 32 -> isat gm' g A' b 32 ->
    (forall g' f' m', keep gm' g g' -> chg [(z, 64)] m m' -> int_at m' z 8 (x * y) -> wps k (mkSt g' X f' m') Q) ->
    wps (mul4x4 mx ZZ A A' gt9 gt8 gt7 gt6 gt5 gt4 gt3 gt2 gt1 gp3 ++ k) (mkSt g X f m) Q.
  Proof. intros HZ HA HA' H. main first41d gt9 gt8 gt7 gt6 gt5 gt4 gt3 gt2 gt1 gp3 HZ HA HA' H. Qed.
End Mul44.
