(** The products of JitFp: four words by one, a Montgomery step, four by four words. *)
From Coq Require Import ZArith List Bool Lia.
From Verif Require Import Base Prim Primes FpSpec Cfg FpM X64 XLog JitSpec XTac XReg JitFp JitMac JitMac2.
Import ListNotations.
Local Open Scope Z_scope.

Lemma reg5 g z0 z1 z2 z3 z4 x : regn g [z0; z1; z2; z3; z4] x -> exists x0 x1 x2 x3 x4, isU x0 /\ isU x1 /\ isU x2 /\ isU x3 /\ isU x4 /\
  getr g z0 = x0 /\ getr g z1 = x1 /\ getr g z2 = x2 /\ getr g z3 = x3 /\ getr g z4 = x4 /\ lv [x0; x1; x2; x3; x4] = x.
Proof.
  intros [U V]. cbn [map] in *. unfold limbs in U. inversion U as [|? ? U0 U']; subst. inversion U' as [|? ? U1 U'']; subst. inversion U'' as [|? ? U2 U3]; subst.
  inversion U3 as [|? ? U4 U5]; subst. inversion U5; subst.
  exists (getr g z0), (getr g z1), (getr g z2), (getr g z3), (getr g z4). repeat (split; [assumption|]). repeat (split; [reflexivity|]). reflexivity.
Qed.
Lemma reg5_mk g z0 z1 z2 z3 z4 x0 x1 x2 x3 x4 x : isU x0 -> isU x1 -> isU x2 -> isU x3 -> isU x4 ->
  getr g z0 = x0 -> getr g z1 = x1 -> getr g z2 = x2 -> getr g z3 = x3 -> getr g z4 = x4 -> lv [x0; x1; x2; x3; x4] = x -> regn g [z0; z1; z2; z3; z4] x.
Proof.
  intros U0 U1 U2 U3 U4 <- <- <- <- <- E. split; [|exact E]. unfold limbs. cbn [map].
  repeat (apply Forall_cons; [assumption|]). apply Forall_nil.
Qed.
Ltac mkr5 := eapply reg5_mk; cycle 5; [gr | gr | gr | gr | gr | cycle 1 | asm | asm | asm | asm | asm].
Lemma lv5_bound x0 x1 x2 x3 x4 : isU x0 -> isU x1 -> isU x2 -> isU x3 -> isU x4 -> 0 <= lv [x0; x1; x2; x3; x4] < B * W.
Proof.
  intros U0 U1 U2 U3 U4. assert (U : limbs [x0; x1; x2; x3; x4]) by (unfold limbs; repeat (apply Forall_cons; [assumption|]); apply Forall_nil).
  split; [exact (lv_nonneg _ U)|]. pose proof (lv_bound _ U) as H. cbn [length] in H. rewrite W_B. replace (B ^ Z.of_nat 5) with (B * (B * B * B * B)) in H; [exact H|].
  change (Z.of_nat 5) with 5. ring.
Qed.
Lemma top0 w v (k : bool) s : 0 <= v -> 0 <= s < w -> v + w * Z.b2z k = s -> k = false /\ v = s.
Proof. intros H1 H2 E. destruct k; cbn [Z.b2z] in E; [exfalso; lia|split; [reflexivity|lia]]. Qed.
Lemma mul41 v0 v1 v2 v3 y l0 l1 l2 l3 h0 h1 h2 h3 z1 z2 z3 z4 k1 k2 k3 k4 : isU v0 -> isU v1 -> isU v2 -> isU v3 -> isU y ->
  isU l0 -> isU z1 -> isU z2 -> isU z3 -> isU z4 ->
  EQ (l0 + B * h0) (v0 * y) -> EQ (l1 + B * h1) (v1 * y) -> EQ (l2 + B * h2) (v2 * y) -> EQ (l3 + B * h3) (v3 * y) ->
  EQ (z1 + B * Z.b2z k1) (h0 + l1) -> EQ (z2 + B * Z.b2z k2) (h1 + l2 + Z.b2z k1) -> EQ (z3 + B * Z.b2z k3) (h2 + l3 + Z.b2z k2) ->
  EQ (z4 + B * Z.b2z k4) (h3 + 0 + Z.b2z k3) -> lv [l0; z1; z2; z3; z4] = lv [v0; v1; v2; v3] * y.
Proof.
  intros V0 V1 V2 V3 Uy L0 Z1 Z2 Z3 Z4 M0 M1 M2 M3 E1 E2 E3 E4.
  pose proof (lv5_bound l0 z1 z2 z3 z4 L0 Z1 Z2 Z3 Z4) as [Hb _]. pose proof (lv4_bound v0 v1 v2 v3 V0 V1 V2 V3) as Hv.
  assert (Hs : 0 <= lv [v0; v1; v2; v3] * y < B * W).
  { set (v := lv [v0; v1; v2; v3]) in *. clearbody v. unfold isU in Uy. pose proof W_pos as HW. clear -Hv Uy HW. generalize dependent W. intros w Hv HW. generalize dependent B. intros b Hy.
    split; [apply Z.mul_nonneg_nonneg; lia|]. rewrite (Z.mul_comm b w). apply Z.mul_lt_mono_nonneg; lia. }
  refine (proj2 (top0 (B * W) _ k4 _ Hb Hs _)). rewrite W_B. cbn [lv]. unfold EQ in *. clear Hb Hv Hs.
  replace z4 with (h3 + Z.b2z k3 - B * Z.b2z k4) by lia. replace z3 with (h2 + l3 + Z.b2z k2 - B * Z.b2z k3) by lia.
  replace z2 with (h1 + l2 + Z.b2z k1 - B * Z.b2z k2) by lia. replace z1 with (h0 + l1 - B * Z.b2z k1) by lia.
  transitivity (v0 * y + B * (v1 * y) + B * B * (v2 * y) + B * B * B * (v3 * y)); [|ring]. rewrite <- M0, <- M1, <- M2, <- M3. ring.
Qed.
Lemma EQ_comm3 a b c d : EQ a (b + c + d) -> EQ a (c + b + d).
Proof. unfold EQ. lia. Qed.

Section Mul41.
  Variables (mx : bool) (k : code) (g : regs) (X : xregs) (f : flags) (m : memory) (Q : state -> Prop).
  Variables x t3 t2 t1 t0 t : reg.
  Hypothesis D : nodup [RAX; RDX; x; t3; t2; t1; t0; t] = true.
  Variables (A : addr) (a v y : Z).
  Hypothesis HA : isat [RAX; RDX; x; t3; t2; t1; t0; t] g A a 32.
  Hypothesis Hv : int_at m a 4 v.
  Hypothesis Hy : getr g x = y.
  Hypothesis Uy : isU y.
  Ltac fin :=
    repeat match goal with E : EQ _ (y * ?w) |- _ => rewrite (Z.mul_comm y w) in E end;
    repeat match goal with
    | |- lv [?l0; ?z1; ?z2; ?z3; ?z4] = lv [?v0; ?v1; ?v2; ?v3] * y =>
      match goal with M0 : EQ (l0 + B * ?h0) (v0 * y), M1 : EQ (?l1 + B * ?h1) (v1 * y), M2 : EQ (?l2 + B * ?h2) (v2 * y), M3 : EQ (?l3 + B * ?h3) (v3 * y),
        E1 : EQ (z1 + B * Z.b2z ?k1) _, E2 : EQ (z2 + B * Z.b2z ?k2) _, E3 : EQ (z3 + B * Z.b2z ?k3) _, E4 : EQ (z4 + B * Z.b2z ?k4) _ |- _ =>
        apply (mul41 v0 v1 v2 v3 y l0 l1 l2 l3 h0 h1 h2 h3 z1 z2 z3 z4 k1 k2 k3 k4); asm end end.
  Lemma m_mul4x1 :
    (forall g' f', keep [RAX; RDX; x; t3; t2; t1; t0; t] g g' -> regn g' [t0; t1; t2; x; RDX] (v * y) -> wps k (mkSt g' X f' m) Q) ->
    wps (mul4x1 mx A x t3 t2 t1 t0 t ++ k) (mkSt g X f m) Q.
  Proof.
    intros H. destruct (int4 _ _ _ Hv) as (v0 & v1 & v2 & v3 & S0 & S1 & S2 & S3 & F0 & F1 & F2 & F3 & V). nd D. pose proof U0 as UZ.
    unfold mul4x1. destruct mx; cbn [app].
    - do 8 ks. eapply k_adc; [gr|apply rd_imm; rewrite B_val; clear; lia|asm|asm|asm|]. intros ? ? ? ? ? ? ? ? ?.
      eapply H; [kp|]. mkr5. rewrite <- V. fin.
    - do 17 ks. eapply k_adc; [gr|apply rd_imm; rewrite B_val; clear; lia|asm|asm|asm|]. intros ? ? ? ? ? ? ? ? ?.
      eapply H; [kp|]. mkr5. rewrite <- V. fin.
  Qed.
End Mul41.
