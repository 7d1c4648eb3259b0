(** mont_mod of JitFp: the Montgomery reduction of an eight-word number. *)
From Coq Require Import ZArith List Bool Lia.
From Verif Require Import Base Prim Primes FpSpec Cfg FpM X64 XLog JitSpec XTac XReg JitFp JitMac JitMac2 JitMul JitMont.
Import ListNotations.
Local Open Scope Z_scope.

Lemma modround_val c wd a q hq a0 s0 s (k : bool) : isU a0 -> isU q -> a mod B = a0 -> EQ (q + B * hq) (cpp c * a0) -> isU s0 -> 0 <= s -> s0 + B * s < wd ->
  s0 + B * s + wd * Z.b2z k = a + cp c * q -> s = modround c wd a.
Proof.
  intros Ua Uq Ea Eq Us Hs Hw E. pose proof B_pos as HB. unfold isU, EQ in *. unfold modround.
  assert (Q1 : q = (a0 * cpp c) mod B).
  { apply (Z.mod_unique _ _ hq); [left; exact Uq|]. rewrite (Z.mul_comm a0), <- Eq. ring. }
  rewrite Ea, <- Q1, (Z.mul_comm q), <- E. rewrite (Z.mul_comm wd), Z.mod_add by (clear -Hw Hs Us HB; nia).
  rewrite Z.mod_small by (clear -Hw Hs Us HB; nia). rewrite Z.mul_comm, Z.div_add, Z.div_small; lia.
Qed.
Lemma lv_lowest a l : isU a -> lv (a :: l) mod B = a.
Proof. intros H. cbn [lv]. pose proof B_pos. rewrite Z.mul_comm, Z.mod_add by lia. apply Z.mod_small. exact H. Qed.
Lemma lvb l n : limbs l -> length l = n -> 0 <= lv l < B ^ Z.of_nat n.
Proof. intros U <-. split; [exact (lv_nonneg _ U)|exact (lv_bound _ U)]. Qed.
Ltac lmb := unfold limbs; repeat (apply Forall_cons; [asm|]); apply Forall_nil.
Lemma int8w m a x : int_at m a 8 x -> exists x0 x1 x2 x3 x4 x5 x6 x7, isU x0 /\ isU x1 /\ isU x2 /\ isU x3 /\ isU x4 /\ isU x5 /\ isU x6 /\ isU x7 /\
  m a = Some x0 /\ m (a + 8) = Some x1 /\ m (a + 16) = Some x2 /\ m (a + 24) = Some x3 /\ m (a + 32) = Some x4 /\ m (a + 40) = Some x5 /\ m (a + 48) = Some x6 /\ m (a + 56) = Some x7 /\
  lv [x0; x1; x2; x3; x4; x5; x6; x7] = x.
Proof.
  intros H. destruct (int8_split _ _ _ H) as [H1 H2].
  destruct (int4 _ _ _ H1) as (x0 & x1 & x2 & x3 & U0 & U1 & U2 & U3 & E0 & E1 & E2 & E3 & V).
  destruct (int4 _ _ _ H2) as (x4 & x5 & x6 & x7 & U4 & U5 & U6 & U7 & E4 & E5 & E6 & E7 & V'). rewrite <- !Z.add_assoc in E5, E6, E7.
  exists x0, x1, x2, x3, x4, x5, x6, x7. repeat (split; [assumption|]).
  rewrite (halves x), <- V, <- V', W_B. cbn [lv]. ring.
Qed.

Lemma rnd8 c a0 a1 a2 a3 a4 a5 a6 a7 q hq r0 r1 r2 r3 r4 s0 s1 s2 s3 s4 s5 s6 s7 k0 k1 k2 k3 k4 k5 k6 k7 : isU a0 -> isU q -> isU s0 -> isU s1 -> isU s2 -> isU s3 -> isU s4 -> isU s5 -> isU s6 -> isU s7 ->
  EQ (q + B * hq) (cpp c * a0) -> lv [r0; r1; r2; r3; r4] = cp c * q ->
  EQ (s0 + B * Z.b2z k0) (r0 + a0) ->
  EQ (s1 + B * Z.b2z k1) (r1 + a1 + Z.b2z k0) ->
  EQ (s2 + B * Z.b2z k2) (r2 + a2 + Z.b2z k1) ->
  EQ (s3 + B * Z.b2z k3) (r3 + a3 + Z.b2z k2) ->
  EQ (s4 + B * Z.b2z k4) (a4 + r4 + Z.b2z k3) ->
  EQ (s5 + B * Z.b2z k5) (a5 + 0 + Z.b2z k4) ->
  EQ (s6 + B * Z.b2z k6) (a6 + 0 + Z.b2z k5) ->
  EQ (s7 + B * Z.b2z k7) (a7 + 0 + Z.b2z k6) ->
  lv [s1; s2; s3; s4; s5; s6; s7] = modround c W2 (lv [a0; a1; a2; a3; a4; a5; a6; a7]).
Proof.
  intros Ua Uq T0 T1 T2 T3 T4 T5 T6 T7 Eq Er E0 E1 E2 E3 E4 E5 E6 E7.
  apply (modround_val c _ _ q hq a0 s0 _ k7); [exact Ua|exact Uq|apply lv_lowest; exact Ua|exact Eq|exact T0|apply (lvb _ 7); [lmb|reflexivity]| |].
  - change (lv [s0; s1; s2; s3; s4; s5; s6; s7] < W2). replace W2 with (B ^ Z.of_nat 8); [apply (lvb _ 8); [lmb|reflexivity]|]. unfold W2. rewrite ?W_B. change (Z.of_nat 8) with 8. ring.
  - rewrite <- Er. unfold EQ in *. unfold W2. rewrite ?W_B. cbn [lv].
    clear Eq Er. replace s0 with (r0 + a0 - B * Z.b2z k0) by (clear -E0; lia). replace s1 with (r1 + a1 + Z.b2z k0 - B * Z.b2z k1) by (clear -E1; lia). replace s2 with (r2 + a2 + Z.b2z k1 - B * Z.b2z k2) by (clear -E2; lia). replace s3 with (r3 + a3 + Z.b2z k2 - B * Z.b2z k3) by (clear -E3; lia). replace s4 with (a4 + r4 + Z.b2z k3 - B * Z.b2z k4) by (clear -E4; lia). replace s5 with (a5 + 0 + Z.b2z k4 - B * Z.b2z k5) by (clear -E5; lia). replace s6 with (a6 + 0 + Z.b2z k5 - B * Z.b2z k6) by (clear -E6; lia). replace s7 with (a7 + 0 + Z.b2z k6 - B * Z.b2z k7) by (clear -E7; lia). ring.
Qed.
Lemma rnd7 c a0 a1 a2 a3 a4 a5 a6 q hq r0 r1 r2 r3 r4 s0 s1 s2 s3 s4 s5 s6 k0 k1 k2 k3 k4 k5 k6 : isU a0 -> isU q -> isU s0 -> isU s1 -> isU s2 -> isU s3 -> isU s4 -> isU s5 -> isU s6 ->
  EQ (q + B * hq) (cpp c * a0) -> lv [r0; r1; r2; r3; r4] = cp c * q ->
  EQ (s0 + B * Z.b2z k0) (a0 + r0) ->
  EQ (s1 + B * Z.b2z k1) (a1 + r1 + Z.b2z k0) ->
  EQ (s2 + B * Z.b2z k2) (a2 + r2 + Z.b2z k1) ->
  EQ (s3 + B * Z.b2z k3) (a3 + r3 + Z.b2z k2) ->
  EQ (s4 + B * Z.b2z k4) (a4 + r4 + Z.b2z k3) ->
  EQ (s5 + B * Z.b2z k5) (a5 + 0 + Z.b2z k4) ->
  EQ (s6 + B * Z.b2z k6) (a6 + 0 + Z.b2z k5) ->
  lv [s1; s2; s3; s4; s5; s6] = modround c (W * B * B * B) (lv [a0; a1; a2; a3; a4; a5; a6]).
Proof.
  intros Ua Uq T0 T1 T2 T3 T4 T5 T6 Eq Er E0 E1 E2 E3 E4 E5 E6.
  apply (modround_val c _ _ q hq a0 s0 _ k6); [exact Ua|exact Uq|apply lv_lowest; exact Ua|exact Eq|exact T0|apply (lvb _ 6); [lmb|reflexivity]| |].
  - change (lv [s0; s1; s2; s3; s4; s5; s6] < (W * B * B * B)). replace (W * B * B * B) with (B ^ Z.of_nat 7); [apply (lvb _ 7); [lmb|reflexivity]|]. unfold W2. rewrite ?W_B. change (Z.of_nat 7) with 7. ring.
  - rewrite <- Er. unfold EQ in *. unfold W2. rewrite ?W_B. cbn [lv].
    clear Eq Er. replace s0 with (a0 + r0 - B * Z.b2z k0) by (clear -E0; lia). replace s1 with (a1 + r1 + Z.b2z k0 - B * Z.b2z k1) by (clear -E1; lia). replace s2 with (a2 + r2 + Z.b2z k1 - B * Z.b2z k2) by (clear -E2; lia). replace s3 with (a3 + r3 + Z.b2z k2 - B * Z.b2z k3) by (clear -E3; lia). replace s4 with (a4 + r4 + Z.b2z k3 - B * Z.b2z k4) by (clear -E4; lia). replace s5 with (a5 + 0 + Z.b2z k4 - B * Z.b2z k5) by (clear -E5; lia). replace s6 with (a6 + 0 + Z.b2z k5 - B * Z.b2z k6) by (clear -E6; lia). ring.
Qed.
Lemma rnd6 c a0 a1 a2 a3 a4 a5 q hq r0 r1 r2 r3 r4 s0 s1 s2 s3 s4 s5 k0 k1 k2 k3 k4 k5 : isU a0 -> isU q -> isU s0 -> isU s1 -> isU s2 -> isU s3 -> isU s4 -> isU s5 ->
  EQ (q + B * hq) (cpp c * a0) -> lv [r0; r1; r2; r3; r4] = cp c * q ->
  EQ (s0 + B * Z.b2z k0) (a0 + r0) ->
  EQ (s1 + B * Z.b2z k1) (a1 + r1 + Z.b2z k0) ->
  EQ (s2 + B * Z.b2z k2) (a2 + r2 + Z.b2z k1) ->
  EQ (s3 + B * Z.b2z k3) (a3 + r3 + Z.b2z k2) ->
  EQ (s4 + B * Z.b2z k4) (a4 + r4 + Z.b2z k3) ->
  EQ (s5 + B * Z.b2z k5) (a5 + 0 + Z.b2z k4) ->
  lv [s1; s2; s3; s4; s5] = modround c (W * B * B) (lv [a0; a1; a2; a3; a4; a5]).
Proof.
  intros Ua Uq T0 T1 T2 T3 T4 T5 Eq Er E0 E1 E2 E3 E4 E5.
  apply (modround_val c _ _ q hq a0 s0 _ k5); [exact Ua|exact Uq|apply lv_lowest; exact Ua|exact Eq|exact T0|apply (lvb _ 5); [lmb|reflexivity]| |].
  - change (lv [s0; s1; s2; s3; s4; s5] < (W * B * B)). replace (W * B * B) with (B ^ Z.of_nat 6); [apply (lvb _ 6); [lmb|reflexivity]|]. unfold W2. rewrite ?W_B. change (Z.of_nat 6) with 6. ring.
  - rewrite <- Er. unfold EQ in *. unfold W2. rewrite ?W_B. cbn [lv].
    clear Eq Er. replace s0 with (a0 + r0 - B * Z.b2z k0) by (clear -E0; lia). replace s1 with (a1 + r1 + Z.b2z k0 - B * Z.b2z k1) by (clear -E1; lia). replace s2 with (a2 + r2 + Z.b2z k1 - B * Z.b2z k2) by (clear -E2; lia). replace s3 with (a3 + r3 + Z.b2z k2 - B * Z.b2z k3) by (clear -E3; lia). replace s4 with (a4 + r4 + Z.b2z k3 - B * Z.b2z k4) by (clear -E4; lia). replace s5 with (a5 + 0 + Z.b2z k4 - B * Z.b2z k5) by (clear -E5; lia). ring.
Qed.
Lemma rnd5 c a0 a1 a2 a3 a4 q hq r0 r1 r2 r3 r4 s0 s1 s2 s3 s4 k0 k1 k2 k3 k4 : isU a0 -> isU q -> isU s0 -> isU s1 -> isU s2 -> isU s3 -> isU s4 ->
  EQ (q + B * hq) (cpp c * a0) -> lv [r0; r1; r2; r3; r4] = cp c * q ->
  EQ (s0 + B * Z.b2z k0) (a0 + r0) ->
  EQ (s1 + B * Z.b2z k1) (a1 + r1 + Z.b2z k0) ->
  EQ (s2 + B * Z.b2z k2) (a2 + r2 + Z.b2z k1) ->
  EQ (s3 + B * Z.b2z k3) (a3 + r3 + Z.b2z k2) ->
  EQ (s4 + B * Z.b2z k4) (a4 + r4 + Z.b2z k3) ->
  lv [s1; s2; s3; s4] = modround c (W * B) (lv [a0; a1; a2; a3; a4]).
Proof.
  intros Ua Uq T0 T1 T2 T3 T4 Eq Er E0 E1 E2 E3 E4.
  apply (modround_val c _ _ q hq a0 s0 _ k4); [exact Ua|exact Uq|apply lv_lowest; exact Ua|exact Eq|exact T0|apply (lvb _ 4); [lmb|reflexivity]| |].
  - change (lv [s0; s1; s2; s3; s4] < (W * B)). replace (W * B) with (B ^ Z.of_nat 5); [apply (lvb _ 5); [lmb|reflexivity]|]. unfold W2. rewrite ?W_B. change (Z.of_nat 5) with 5. ring.
  - rewrite <- Er. unfold EQ in *. unfold W2. rewrite ?W_B. cbn [lv].
    clear Eq Er. replace s0 with (a0 + r0 - B * Z.b2z k0) by (clear -E0; lia). replace s1 with (a1 + r1 + Z.b2z k0 - B * Z.b2z k1) by (clear -E1; lia). replace s2 with (a2 + r2 + Z.b2z k1 - B * Z.b2z k2) by (clear -E2; lia). replace s3 with (a3 + r3 + Z.b2z k2 - B * Z.b2z k3) by (clear -E3; lia). replace s4 with (a4 + r4 + Z.b2z k3 - B * Z.b2z k4) by (clear -E4; lia). ring.
Qed.

Section Mod.
  Ltac ni ::= nic.
  Ltac kp ::= kpc.
  Variables (c : cfg) (mx : bool) (T : Z) (k : code) (g : regs) (X : xregs) (f : flags) (m : memory) (Q : state -> Prop) (z a x : Z).
  Hypothesis HT : modulus c m T.
  Hypothesis TU : 0 <= T < B.
  Hypothesis Gz : getr g gp1 = z.
  Hypothesis Ga : getr g gp2 = a.
  Hypothesis Az : 0 <= z /\ z + 32 <= B.
  Hypothesis Aa : 0 <= a /\ a + 64 <= B.
  Hypothesis Hz : mapped m z 4.
  Hypothesis Hx : int_at m a 8 x.
  Ltac ead := eapply ea_ad; [gr | clear -Aa; lia | rewrite ?Z.add_0_r; reflexivity].
  Ltac imm := apply rd_imm; first [apply cppU | exact TU | rewrite B_val; clear; lia].
  Ltac ld := eapply rd_mem; [ead | asm].
  Ltac k1 := lazymatch goal with
    | |- wps (Mov (R _) (M _) :: _) _ _ => eapply k_mov; [ld | intros ? ? ?]
    | |- wps (Mov (R _) (Im _) :: _) _ _ => eapply k_mov; [imm | intros ? ? ?]
    | |- wps (Adc (R _) (Im 0) :: _) _ _ => eapply k_adc; [gr | imm | asm | asm | exact U0 | intros ? ? ? ? ? ? ? ? ?]
    | |- wps (Adc (R _) (M _) :: _) _ _ => eapply k_adc; [gr | ld | asm | asm | asm | intros ? ? ? ? ? ? ? ? ?]
    | _ => ks end.
  Ltac mulp x t3 t2 t1 t0 t :=
    match goal with |- wps _ (mkSt ?gg _ _ _) _ =>
      let A := fresh "AT" in assert (A : isat [RAX; RDX; x; t3; t2; t1; t0; t] gg (Ad gp3 0) T 32) by (apply (isat_ad _ _ _ _ T); [reflexivity|gr|clear; lia|apply HT|apply HT]);
      match goal with E : EQ (?q + B * _) (cpp c * _) |- _ =>
      eapply (m_mul4x1 _ _ _ _ _ _ _ x t3 t2 t1 t0 t eq_refl _ T (cp c) q); [exact A | exact (proj1 HT) | gr | asm |] end end;
    let g9 := fresh "g" in let f9 := fresh "f" in let K9 := fresh "K" in let L9 := fresh "L" in intros g9 f9 K9 L9;
    destruct (reg5 _ _ _ _ _ _ _ L9) as (? & ? & ? & ? & ? & ? & ? & ? & ? & ? & ? & ? & ? & ? & ? & ?).
  Ltac asm1 := first [asm | assumption].
  Ltac r8 V U :=
    match goal with EQQ : EQ (?q + B * ?hq) (cpp c * ?a0), RV : lv [?r0; ?r1; ?r2; ?r3; ?r4] = cp c * ?q,
      E0 : EQ (?s0 + B * Z.b2z ?k0) (?r0 + ?a0),
      E1 : EQ (?s1 + B * Z.b2z ?k1) (?r1 + ?a1 + Z.b2z ?k0),
      E2 : EQ (?s2 + B * Z.b2z ?k2) (?r2 + ?a2 + Z.b2z ?k1),
      E3 : EQ (?s3 + B * Z.b2z ?k3) (?r3 + ?a3 + Z.b2z ?k2),
      E4 : EQ (?s4 + B * Z.b2z ?k4) (?a4 + ?r4 + Z.b2z ?k3),
      E5 : EQ (?s5 + B * Z.b2z ?k5) (?a5 + 0 + Z.b2z ?k4),
      E6 : EQ (?s6 + B * Z.b2z ?k6) (?a6 + 0 + Z.b2z ?k5),
      E7 : EQ (?s7 + B * Z.b2z ?k7) (?a7 + 0 + Z.b2z ?k6) |- _ =>
      assert (V : lv [s1; s2; s3; s4; s5; s6; s7] = modround c _ (lv [a0; a1; a2; a3; a4; a5; a6; a7])) by (apply (rnd8 c a0 a1 a2 a3 a4 a5 a6 a7 q hq r0 r1 r2 r3 r4 s0 s1 s2 s3 s4 s5 s6 s7 k0 k1 k2 k3 k4 k5 k6 k7); asm1);
      try rewrite U in V; clear EQQ RV E0 E1 E2 E3 E4 E5 E6 E7 end.
  Ltac r7 V U :=
    match goal with EQQ : EQ (?q + B * ?hq) (cpp c * ?a0), RV : lv [?r0; ?r1; ?r2; ?r3; ?r4] = cp c * ?q,
      E0 : EQ (?s0 + B * Z.b2z ?k0) (?a0 + ?r0),
      E1 : EQ (?s1 + B * Z.b2z ?k1) (?a1 + ?r1 + Z.b2z ?k0),
      E2 : EQ (?s2 + B * Z.b2z ?k2) (?a2 + ?r2 + Z.b2z ?k1),
      E3 : EQ (?s3 + B * Z.b2z ?k3) (?a3 + ?r3 + Z.b2z ?k2),
      E4 : EQ (?s4 + B * Z.b2z ?k4) (?a4 + ?r4 + Z.b2z ?k3),
      E5 : EQ (?s5 + B * Z.b2z ?k5) (?a5 + 0 + Z.b2z ?k4),
      E6 : EQ (?s6 + B * Z.b2z ?k6) (?a6 + 0 + Z.b2z ?k5) |- _ =>
      assert (V : lv [s1; s2; s3; s4; s5; s6] = modround c _ (lv [a0; a1; a2; a3; a4; a5; a6])) by (apply (rnd7 c a0 a1 a2 a3 a4 a5 a6 q hq r0 r1 r2 r3 r4 s0 s1 s2 s3 s4 s5 s6 k0 k1 k2 k3 k4 k5 k6); asm1);
      try rewrite U in V; clear EQQ RV E0 E1 E2 E3 E4 E5 E6 end.
  Ltac r6 V U :=
    match goal with EQQ : EQ (?q + B * ?hq) (cpp c * ?a0), RV : lv [?r0; ?r1; ?r2; ?r3; ?r4] = cp c * ?q,
      E0 : EQ (?s0 + B * Z.b2z ?k0) (?a0 + ?r0),
      E1 : EQ (?s1 + B * Z.b2z ?k1) (?a1 + ?r1 + Z.b2z ?k0),
      E2 : EQ (?s2 + B * Z.b2z ?k2) (?a2 + ?r2 + Z.b2z ?k1),
      E3 : EQ (?s3 + B * Z.b2z ?k3) (?a3 + ?r3 + Z.b2z ?k2),
      E4 : EQ (?s4 + B * Z.b2z ?k4) (?a4 + ?r4 + Z.b2z ?k3),
      E5 : EQ (?s5 + B * Z.b2z ?k5) (?a5 + 0 + Z.b2z ?k4) |- _ =>
      assert (V : lv [s1; s2; s3; s4; s5] = modround c _ (lv [a0; a1; a2; a3; a4; a5])) by (apply (rnd6 c a0 a1 a2 a3 a4 a5 q hq r0 r1 r2 r3 r4 s0 s1 s2 s3 s4 s5 k0 k1 k2 k3 k4 k5); asm1);
      try rewrite U in V; clear EQQ RV E0 E1 E2 E3 E4 E5 end.
  Ltac r5 V U :=
    match goal with EQQ : EQ (?q + B * ?hq) (cpp c * ?a0), RV : lv [?r0; ?r1; ?r2; ?r3; ?r4] = cp c * ?q,
      E0 : EQ (?s0 + B * Z.b2z ?k0) (?a0 + ?r0),
      E1 : EQ (?s1 + B * Z.b2z ?k1) (?a1 + ?r1 + Z.b2z ?k0),
      E2 : EQ (?s2 + B * Z.b2z ?k2) (?a2 + ?r2 + Z.b2z ?k1),
      E3 : EQ (?s3 + B * Z.b2z ?k3) (?a3 + ?r3 + Z.b2z ?k2),
      E4 : EQ (?s4 + B * Z.b2z ?k4) (?a4 + ?r4 + Z.b2z ?k3) |- _ =>
      assert (V : lv [s1; s2; s3; s4] = modround c _ (lv [a0; a1; a2; a3; a4])) by (apply (rnd5 c a0 a1 a2 a3 a4 q hq r0 r1 r2 r3 r4 s0 s1 s2 s3 s4 k0 k1 k2 k3 k4); asm1);
      try rewrite U in V; clear EQQ RV E0 E1 E2 E3 E4 end.
  Lemma m_mont_mod :
    (forall g' X' f' m', keep (gp2 :: gall) g g' -> getr g' gp1 = z -> chg [(z, 32)] m m' -> int_at m' z 4 (dbl_mod c x) -> xk X X' -> wps k (mkSt g' X' f' m') Q) ->
    wps (mont_mod mx T (cpp c) ++ k) (mkSt g X f m) Q.
  Proof.
    intros H. destruct (int8w _ _ _ Hx) as (x0 & x1 & x2 & x3 & x4 & x5 & x6 & x7 & XU0 & XU1 & XU2 & XU3 & XU4 & XU5 & XU6 & XU7 & N0 & N1 & N2 & N3 & N4 & N5 & N6 & N7 & XV).
    pose proof (cppU c : isU (cpp c)) as UC. pose proof U0 as UZ.
    unfold mont_mod, add_rr. rewrite <- !app_assoc. cbn [app].
    eapply k_movqx; [exact Gz|]. do 5 k1. mulp gt7 gt4 gt3 gt2 gt1 gt8.
    cbn [app]. do 12 k1.
    r8 V1 XV.
    eapply k_mov; [imm|]. intros ? ? ?. ks. ks. eapply k_movqx; [gr|].
    mulp gp1 gt1 gt5 gp2 gt6 gt10.
    cbn [app]. eapply k_movqr; [apply (getx_01 X)|]. intros ? ? ?. do 7 k1. r7 V2 V1.
    do 3 k1. mulp gp1 gt1 gt5 gp2 gt6 gt2. cbn [app]. do 6 k1. r6 V3 V2.
    do 3 k1. mulp gp1 gt1 gt5 gp2 gt6 gt2. cbn [app]. do 5 k1. r5 V4 V3.
    do 4 k1.
    match type of V4 with lv ?l = _ =>
    eapply (m_red c T _ _ _ _ _ _ gt10 gt9 gt8 gt4 gt3 gt2 gt1 gp1 _ (lv l)); [reflexivity|exact HT| | | |] end.
    { apply (isat_ad _ _ _ _ T); [reflexivity|gr|clear; lia|apply HT|apply HT]. }
    { mkr. reflexivity. } { mkr. reflexivity. }
    intros g17 f17 K17 L17. cbn [app]. eapply k_movqr; [apply (getx_01 X)|]. intros g18 K18 L18.
    rewrite <- (app_nil_r (store_mr _ _ _ _ _)), <- app_assoc. cbn [app].
    eapply m_store; [|exact Hz|refine (regn_keep _ _ _ _ _ K18 _ L17); reflexivity|].
    { apply (isat_ad _ _ _ _ z); [reflexivity|exact L18|clear; lia|apply Az|apply Az]. }
    intros m1 C1 L19. eapply H; [kp|exact L18|exact C1| |apply xk_01]. rewrite V4 in L19. exact L19.
  Qed.
End Mod.
