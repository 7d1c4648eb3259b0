(** What the four-word macros of JitFp do, for any registers. *)
From Coq Require Import ZArith List Bool Lia.
From Verif Require Import Base Primes FpSpec Cfg X64 XLog JitSpec XTac XReg JitFp.
Import ListNotations.
Local Open Scope Z_scope.

Lemma U0 : isU 0.
Proof. unfold isU. rewrite B_val. lia. Qed.
Lemma add_0_c (k : bool) a b : a + b = a + b + 0.
Proof. lia. Qed.

(** operands *)
Ltac asm :=
  lazymatch goal with
  | |- isU ?a => match goal with H : isU a |- _ => exact H end
  | |- cf ?f = _ => match goal with H : cf f = _ |- _ => exact H end
  | |- EQ ?a ?b => match goal with H : EQ a b |- _ => exact H end
  | |- ?m ?a = Some _ => match goal with H : m a = Some _ |- _ => exact H end
  end.
Ltac rdm :=
  lazymatch goal with
  | |- rd _ (R _) = _ => apply rd_reg; gr
  | |- rd _ (Im _) = _ => apply rd_imm; solve [lia | rewrite B_val; lia]
  | |- rd _ (M (plus ?A 0)) = _ => eapply rd_mem; [match goal with H : isat _ _ A _ _ |- _ => apply H; [kp | clear; lia] end | rewrite ?Z.add_0_r; asm]
  | |- rd _ (M (plus ?A _)) = _ => eapply rd_mem; [match goal with H : isat _ _ A _ _ |- _ => apply H; [kp | clear; lia] end | asm]
  end.
Ltac ks :=
  lazymatch goal with
  | |- wps (Mov (R _) _ :: _) _ _ => eapply k_mov; [rdm | intros ? ? ?]
  | |- wps (Add (R _) _ :: _) _ _ => eapply k_add; [gr | rdm | asm | asm | intros ? ? ? ? ? ? ? ? ?]
  | |- wps (Adc (R _) _ :: _) _ _ => eapply k_adc; [gr | rdm | asm | asm | asm | intros ? ? ? ? ? ? ? ? ?]
  | |- wps (Sub (R _) _ :: _) _ _ => eapply k_sub; [gr | rdm | asm | asm | intros ? ? ? ? ? ? ? ? ?]
  | |- wps (Sbb (R _) _ :: _) _ _ => eapply k_sbb; [gr | rdm | asm | asm | asm | intros ? ? ? ? ? ? ? ? ?]
  | |- wps (Mul _ :: _) _ _ => eapply k_mul; [gr | rdm | asm | asm | intros ? ? ? ? ? ? ? ? ? ?]
  | |- wps (Mulx _ _ _ :: _) _ _ => eapply k_mulx; [ni | gr | rdm | asm | asm | intros ? ? ? ? ? ? ? ? ?]
  | |- wps (Cmovc _ _ :: _) _ _ => eapply k_cmovc; [gr | asm | rdm | intros ? ? ?]
  end.

Ltac mkr := eapply reg4_mk; cycle 4; [gr | gr | gr | gr | cycle 1 | asm | asm | asm | asm].
Ltac cst := clear; lia.
Lemma add_z a : a = a + 0. Proof. lia. Qed.

Section Mac.
  Variables (k : code) (g : regs) (X : xregs) (f : flags) (m : memory) (Q : state -> Prop).
  Variables z3 z2 z1 z0 : reg.
  Hypothesis D : nodup [z3; z2; z1; z0] = true.

  Lemma m_load A a x : isat [z2; z1; z0] g A a 32 -> int_at m a 4 x ->
    (forall g', keep [z3; z2; z1; z0] g g' -> regn g' [z0; z1; z2; z3] x -> wps k (mkSt g' X f m) Q) ->
    wps (load_rm z3 z2 z1 z0 A ++ k) (mkSt g X f m) Q.
  Proof.
    intros HA Hx H. destruct (int4 _ _ _ Hx) as (x0 & x1 & x2 & x3 & V0 & V1 & V2 & V3 & E0 & E1 & E2 & E3 & V). nd D.
    unfold load_rm. cbn [app]. do 4 ks. apply H; [kp|]. mkr. exact V.
  Qed.
  Section Arith.
    Variables (A : addr) (a x y : Z) (c : bool).
    Hypothesis HA : isat [z2; z1; z0] g A a 32.
    Hypothesis Hx : regn g [z0; z1; z2; z3] x.
    Hypothesis Hy : int_at m a 4 y.
    Ltac ini := destruct (int4 _ _ _ Hy) as (y0 & y1 & y2 & y3 & V0 & V1 & V2 & V3 & E0 & E1 & E2 & E3 & V);
      destruct (reg4 _ _ _ _ _ _ Hx) as (x0 & x1 & x2 & x3 & S0 & S1 & S2 & S3 & F0 & F1 & F2 & F3 & V'); nd D.
    Lemma m_add_rm : 
      (forall g' f', keep [z3; z2; z1; z0] g g' -> regn g' [z0; z1; z2; z3] ((x + y) mod W) -> cf f' = Some (W <=? x + y) -> wps k (mkSt g' X f' m) Q) ->
      wps (add_rm z3 z2 z1 z0 A ++ k) (mkSt g X f m) Q.
    Proof.
      intros H. ini. unfold add_rm. cbn [app]. do 4 ks.
      destruct (add4 x0 x1 x2 x3 y0 y1 y2 y3 0 z z4 z5 z6 k0 k1 k2 k3) as [R1 R2]; try asm; [rewrite Z.add_0_r; asm|].
      rewrite Z.add_0_r, V, V' in R1, R2. subst k3. eapply H; [kp| |asm]. mkr. exact R1.
    Qed.
    Lemma m_adc_rm : cf f = Some c ->
      (forall g' f', keep [z3; z2; z1; z0] g g' -> regn g' [z0; z1; z2; z3] ((x + y + Z.b2z c) mod W) -> cf f' = Some (W <=? x + y + Z.b2z c) -> wps k (mkSt g' X f' m) Q) ->
      wps (adc_rm z3 z2 z1 z0 A ++ k) (mkSt g X f m) Q.
    Proof.
      intros Hc H. ini. unfold adc_rm. cbn [app]. do 4 ks.
      destruct (add4 x0 x1 x2 x3 y0 y1 y2 y3 (Z.b2z c) z z4 z5 z6 k0 k1 k2 k3) as [R1 R2]; try asm.
      rewrite V, V' in R1, R2. subst k3. eapply H; [kp| |asm]. mkr. exact R1.
    Qed.
    Lemma m_sub_rm : 
      (forall g' f', keep [z3; z2; z1; z0] g g' -> regn g' [z0; z1; z2; z3] ((x - y) mod W) -> cf f' = Some (x - y <? 0) -> wps k (mkSt g' X f' m) Q) ->
      wps (sub_rm z3 z2 z1 z0 A ++ k) (mkSt g X f m) Q.
    Proof.
      intros H. ini. unfold sub_rm. cbn [app]. do 4 ks.
      destruct (sub4 x0 x1 x2 x3 y0 y1 y2 y3 0 z z4 z5 z6 k0 k1 k2 k3) as [R1 R2]; try asm; [rewrite Z.sub_0_r; asm|].
      rewrite Z.sub_0_r, V, V' in R1, R2. subst k3. eapply H; [kp| |asm]. mkr. exact R1.
    Qed.
    Lemma m_sbb_rm : cf f = Some c ->
      (forall g' f', keep [z3; z2; z1; z0] g g' -> regn g' [z0; z1; z2; z3] ((x - y - Z.b2z c) mod W) -> cf f' = Some (x - y - Z.b2z c <? 0) -> wps k (mkSt g' X f' m) Q) ->
      wps (sbb_rm z3 z2 z1 z0 A ++ k) (mkSt g X f m) Q.
    Proof.
      intros Hc H. ini. unfold sbb_rm. cbn [app]. do 4 ks.
      destruct (sub4 x0 x1 x2 x3 y0 y1 y2 y3 (Z.b2z c) z z4 z5 z6 k0 k1 k2 k3) as [R1 R2]; try asm.
      rewrite V, V' in R1, R2. subst k3. eapply H; [kp| |asm]. mkr. exact R1.
    Qed.
  End Arith.
End Mac.

Section Load2.
  Variables (k : code) (g : regs) (X : xregs) (f : flags) (m : memory) (Q : state -> Prop).
  Variables z3 z2 z1 z0 : reg.
  Hypothesis D : nodup [z3; z2; z1; z0] = true.
  Variables (il : bool) (A A' : addr) (a a' x y : Z) (c : bool).
  Hypothesis HA : isat [z2; z1; z0] g A a 32.
  Hypothesis HA' : isat [z3; z2; z1; z0] g A' a' 32.
  Hypothesis Hx : int_at m a 4 x.
  Hypothesis Hy : int_at m a' 4 y.
  Ltac ini := destruct (int4 _ _ _ Hx) as (x0 & x1 & x2 & x3 & S0 & S1 & S2 & S3 & F0 & F1 & F2 & F3 & V');
    destruct (int4 _ _ _ Hy) as (y0 & y1 & y2 & y3 & V0 & V1 & V2 & V3 & E0 & E1 & E2 & E3 & V).
  Ltac fall := rewrite <- app_assoc; eapply m_load; [exact D | exact HA | exact Hx |]; intros g1 K1 L1.
  Lemma isat_k4 g1 : keep [z3; z2; z1; z0] g g1 -> isat [z2; z1; z0] g1 A' a' 32.
  Proof.
    intros K1. apply (isat_keep _ _ _ _ _ _ _ K1).
    intros g2 j K2 Hj. apply HA'; [|exact Hj]. refine (keep_incl _ _ _ _ _ K2). clear. intros ?. cbn [app In]. tauto.
  Qed.
  Lemma keep_k4 g1 g2 : keep [z3; z2; z1; z0] g g1 -> keep [z3; z2; z1; z0] g1 g2 -> keep [z3; z2; z1; z0] g g2.
  Proof. intros K1 K2. kp. Qed.
  Lemma m_load_add :
    (forall g' f', keep [z3; z2; z1; z0] g g' -> regn g' [z0; z1; z2; z3] ((x + y) mod W) -> cf f' = Some (W <=? x + y) -> wps k (mkSt g' X f' m) Q) ->
    wps (load_add_rm il z3 z2 z1 z0 A A' false ++ k) (mkSt g X f m) Q.
  Proof.
    intros H. unfold load_add_rm. destruct il.
    - ini. nd D. cbn [app]. do 8 ks. 
      destruct (add4 x0 x1 x2 x3 y0 y1 y2 y3 0 z z4 z5 z6 k0 k1 k2 k3) as [R1 R2]; try asm; [rewrite Z.add_0_r; asm|].
      rewrite Z.add_0_r, V, V' in R1, R2. subst k3. eapply H; [kp| |asm]. mkr. exact R1.
    - fall. eapply m_add_rm; [exact D|apply isat_k4; exact K1|exact L1|exact Hy|].
      intros g2 f2 K2 L2 C2. apply H; [exact (keep_k4 _ _ K1 K2)|exact L2|exact C2].
  Qed.
  Lemma m_load_adc : cf f = Some c ->
    (forall g' f', keep [z3; z2; z1; z0] g g' -> regn g' [z0; z1; z2; z3] ((x + y + Z.b2z c) mod W) -> cf f' = Some (W <=? x + y + Z.b2z c) -> wps k (mkSt g' X f' m) Q) ->
    wps (load_add_rm il z3 z2 z1 z0 A A' true ++ k) (mkSt g X f m) Q.
  Proof.
    intros Hc H. unfold load_add_rm. destruct il.
    - ini. nd D. cbn [app]. do 8 ks. 
      destruct (add4 x0 x1 x2 x3 y0 y1 y2 y3 (Z.b2z c) z z4 z5 z6 k0 k1 k2 k3) as [R1 R2]; try asm.
      rewrite V, V' in R1, R2. subst k3. eapply H; [kp| |asm]. mkr. exact R1.
    - fall. eapply m_adc_rm; [exact D|apply isat_k4; exact K1|exact L1|exact Hy|exact Hc|].
      intros g2 f2 K2 L2 C2. apply H; [exact (keep_k4 _ _ K1 K2)|exact L2|exact C2].
  Qed.
  Lemma m_load_sub :
    (forall g' f', keep [z3; z2; z1; z0] g g' -> regn g' [z0; z1; z2; z3] ((x - y) mod W) -> cf f' = Some (x - y <? 0) -> wps k (mkSt g' X f' m) Q) ->
    wps (load_sub_rm il z3 z2 z1 z0 A A' false ++ k) (mkSt g X f m) Q.
  Proof.
    intros H. unfold load_sub_rm. destruct il.
    - ini. nd D. cbn [app]. do 8 ks. 
      destruct (sub4 x0 x1 x2 x3 y0 y1 y2 y3 0 z z4 z5 z6 k0 k1 k2 k3) as [R1 R2]; try asm; [rewrite Z.sub_0_r; asm|].
      rewrite Z.sub_0_r, V, V' in R1, R2. subst k3. eapply H; [kp| |asm]. mkr. exact R1.
    - fall. eapply m_sub_rm; [exact D|apply isat_k4; exact K1|exact L1|exact Hy|].
      intros g2 f2 K2 L2 C2. apply H; [exact (keep_k4 _ _ K1 K2)|exact L2|exact C2].
  Qed.
  Lemma m_load_sbb : cf f = Some c ->
    (forall g' f', keep [z3; z2; z1; z0] g g' -> regn g' [z0; z1; z2; z3] ((x - y - Z.b2z c) mod W) -> cf f' = Some (x - y - Z.b2z c <? 0) -> wps k (mkSt g' X f' m) Q) ->
    wps (load_sub_rm il z3 z2 z1 z0 A A' true ++ k) (mkSt g X f m) Q.
  Proof.
    intros Hc H. unfold load_sub_rm. destruct il.
    - ini. nd D. cbn [app]. do 8 ks. 
      destruct (sub4 x0 x1 x2 x3 y0 y1 y2 y3 (Z.b2z c) z z4 z5 z6 k0 k1 k2 k3) as [R1 R2]; try asm.
      rewrite V, V' in R1, R2. subst k3. eapply H; [kp| |asm]. mkr. exact R1.
    - fall. eapply m_sbb_rm; [exact D|apply isat_k4; exact K1|exact L1|exact Hy|exact Hc|].
      intros g2 f2 K2 L2 C2. apply H; [exact (keep_k4 _ _ K1 K2)|exact L2|exact C2].
  Qed.
End Load2.

(** ** Memory *)
(** [m'] differs from [m] only in the byte ranges [l] (address, length), and is defined where [m] is *)
Definition off (b : Z) (r : Z * Z) : Prop := b < fst r \/ fst r + snd r <= b.
Definition chg (l : list (Z * Z)) (m m' : memory) : Prop :=
  (forall b, Forall (off b) l -> m' b = m b) /\ (forall b v, m b = Some v -> exists w, m' b = Some w).
Lemma chg_refl m : chg [] m m.
Proof. split; [reflexivity|]. intros b v E. exists v. exact E. Qed.
Lemma chg_trans l l' m m' m'' : chg l m m' -> chg l' m' m'' -> chg (l ++ l') m m''.
Proof.
  intros [H1 H2] [H3 H4]. split.
  - intros b Hb. apply Forall_app in Hb. destruct Hb as [B1 B2]. rewrite H3, H1; auto.
  - intros b v E. destruct (H2 b v E) as [w E2]. exact (H4 b w E2).
Qed.
Lemma chg_sub l l' m m' : (forall b, Forall (off b) l' -> Forall (off b) l) -> chg l m m' -> chg l' m m'.
Proof. intros H [H1 H2]. split; [|exact H2]. intros b Hb. apply H1, H, Hb. Qed.
Lemma chg_mapped l m m' a n : chg l m m' -> mapped m a n -> mapped m' a n.
Proof. intros [_ H]. apply mapped_keep. exact H. Qed.
(** the range at [a] is apart from the range [r] *)
Definition clear_of (a n : Z) (r : Z * Z) : Prop := a + n <= fst r \/ fst r + snd r <= a.
Lemma int_at_chg l m m' a n x : chg l m m' -> Forall (clear_of a (8 * Z.of_nat n)) l -> int_at m a n x -> int_at m' a n x.
Proof.
  intros [H _] F. apply int_at_same. intros b Hb. apply H. refine (Forall_impl _ _ F). intros [c d]. unfold off, clear_of. cbn [fst snd]. lia.
Qed.
Lemma chg_mset m a v w : m a = Some w -> chg [(a, 8)] m (mset m a v).
Proof.
  intros E. split.
  - intros b Hb. apply mset_ne. inversion Hb as [|? ? Hb1 _]; subst. unfold off in Hb1. cbn [fst snd] in Hb1. lia.
  - intros b u E2. unfold mset. destruct (b =? a); eauto.
Qed.
Lemma look_chg l m m' b v : chg l m m' -> Forall (off b) l -> m b = Some v -> m' b = Some v.
Proof. intros [H _] F E. rewrite H; assumption. Qed.
Lemma int4_mk m a x0 x1 x2 x3 x : isU x0 -> isU x1 -> isU x2 -> isU x3 ->
  m a = Some x0 -> m (a + 8) = Some x1 -> m (a + 16) = Some x2 -> m (a + 24) = Some x3 -> lv [x0; x1; x2; x3] = x -> int_at m a 4 x.
Proof.
  intros U0 U1 U2 U3 E0 E1 E2 E3 V. exists [x0; x1; x2; x3]. split; [reflexivity|]. split; [|split; [|exact V]].
  - unfold limbs. repeat (apply Forall_cons; [assumption|]). apply Forall_nil.
  - cbn [words]. replace (a + 8 + 8) with (a + 16) by lia. replace (a + 16 + 8) with (a + 24) by lia. auto.
Qed.
Lemma chg4 m a v0 v1 v2 v3 : mapped m a 4 -> 
  chg [(a, 32)] m (mset (mset (mset (mset m a v0) (a + 8) v1) (a + 16) v2) (a + 24) v3).
Proof.
  intros Hm. destruct (map4 _ _ Hm) as (w0 & w1 & w2 & w3 & E0 & E1 & E2 & E3). split.
  - intros b Hb. inversion Hb as [|? ? Hb1 _]; subst. unfold off in Hb1. cbn [fst snd] in Hb1.
    rewrite !mset_ne by (clear -Hb1; lia). reflexivity.
  - intros b u E. unfold mset. destruct (b =? a + 24); [eauto|]. destruct (b =? a + 16); [eauto|]. destruct (b =? a + 8); [eauto|].
    destruct (b =? a); eauto.
Qed.
Lemma int4_mset m a v0 v1 v2 v3 x : isU v0 -> isU v1 -> isU v2 -> isU v3 -> lv [v0; v1; v2; v3] = x ->
  int_at (mset (mset (mset (mset m a v0) (a + 8) v1) (a + 16) v2) (a + 24) v3) a 4 x.
Proof.
  intros U0 U1 U2 U3 V. apply (int4_mk _ _ v0 v1 v2 v3); try assumption.
  - rewrite !mset_ne by (clear; lia). apply mset_eq. reflexivity.
  - rewrite !mset_ne by (clear; lia). apply mset_eq. reflexivity.
  - rewrite !mset_ne by (clear; lia). apply mset_eq. reflexivity.
  - apply mset_eq. reflexivity.
Qed.
Lemma m_store k g X f m Q z3 z2 z1 z0 A a x : isat [] g A a 32 -> mapped m a 4 -> regn g [z0; z1; z2; z3] x ->
  (forall m', chg [(a, 32)] m m' -> int_at m' a 4 x -> wps k (mkSt g X f m') Q) ->
  wps (store_mr A z3 z2 z1 z0 ++ k) (mkSt g X f m) Q.
Proof.
  intros HA Hm Hx H. destruct (map4 _ _ Hm) as (w0 & w1 & w2 & w3 & F0 & F1 & F2 & F3).
  destruct (reg4 _ _ _ _ _ _ Hx) as (x0 & x1 & x2 & x3 & V0 & V1 & V2 & V3 & E0 & E1 & E2 & E3 & V).
  assert (EA : forall i, 0 <= i < 32 -> ea g (plus A i) = a + i) by (intros i Hi; exact (HA _ _ (keep_refl g) Hi)).
  unfold store_mr. cbn [app].
  eapply k_store; [rewrite EA by (clear; lia); apply Z.add_0_r|exact F0|exact E0|].
  eapply k_store; [apply EA; clear; lia|rewrite !mset_ne by (clear; lia); exact F1|exact E1|].
  eapply k_store; [apply EA; clear; lia|rewrite !mset_ne by (clear; lia); exact F2|exact E2|].
  eapply k_store; [apply EA; clear; lia|rewrite !mset_ne by (clear; lia); exact F3|exact E3|].
  apply H; [apply chg4; exact Hm|apply int4_mset; assumption].
Qed.

(** two operands of four words are the same or do not overlap *)
Definition ov (z a : Z) : Prop := z = a \/ z + 32 <= a \/ a + 32 <= z.
Ltac asmm :=
  lazymatch goal with
  | |- mset _ _ _ _ = Some _ =>
      rewrite mset_ne by (match goal with H : ov _ _, H' : ov _ _ |- _ => clear -H H'; unfold ov in *; lia end); asmm
  | _ => asm
  end.
Ltac rdmm :=
  lazymatch goal with
  | |- rd _ (M (plus ?A 0)) = _ => eapply rd_mem; [match goal with H : isat _ _ A _ _ |- _ => apply H; [kp | clear; lia] end | rewrite ?Z.add_0_r; asmm]
  | |- rd _ (M (plus ?A _)) = _ => eapply rd_mem; [match goal with H : isat _ _ A _ _ |- _ => apply H; [kp | clear; lia] end | asmm]
  end.
Ltac ksm :=
  lazymatch goal with
  | |- wps (Mov (R _) _ :: _) _ _ => eapply k_mov; [rdmm | intros ? ? ?]
  | |- wps (Mov (M (plus ?A 0)) _ :: _) _ _ => eapply k_store; [match goal with H : isat _ _ A ?a _ |- _ => transitivity (a + 0); [apply H; [kp | clear; lia] | apply Z.add_0_r] end | asmm | gr |]
  | |- wps (Mov (M (plus ?A _)) _ :: _) _ _ => eapply k_store; [match goal with H : isat _ _ A _ _ |- _ => apply H; [kp | clear; lia] end | asmm | gr |]
  | |- wps (Add (R _) _ :: _) _ _ => eapply k_add; [gr | rdmm | asm | asm | intros ? ? ? ? ? ? ? ? ?]
  | |- wps (Adc (R _) _ :: _) _ _ => eapply k_adc; [gr | rdmm | asm | asm | asm | intros ? ? ? ? ? ? ? ? ?]
  | |- wps (Sub (R _) _ :: _) _ _ => eapply k_sub; [gr | rdmm | asm | asm | intros ? ? ? ? ? ? ? ? ?]
  | |- wps (Sbb (R _) _ :: _) _ _ => eapply k_sbb; [gr | rdmm | asm | asm | asm | intros ? ? ? ? ? ? ? ? ?]
  end.
Notation g4 := [gt4; gt3; gt2; gt1].
Section Carry.
  Ltac ni ::= nic.
  Ltac kp ::= kpc.
  Variables (k : code) (g : regs) (X : xregs) (f : flags) (m : memory) (Q : state -> Prop).
  Variables (il : bool) (ZZ A A' : addr) (z a a' x y : Z) (c : bool).
  Hypothesis HZ : isat g4 g ZZ z 32.
  Hypothesis HA : isat g4 g A a 32.
  Hypothesis HA' : isat g4 g A' a' 32.
  Hypothesis Hz : mapped m z 4.
  Hypothesis Hx : int_at m a 4 x.
  Hypothesis Hy : int_at m a' 4 y.
  Hypothesis Ox : ov z a.
  Hypothesis Oy : ov z a'.
  Ltac ini := destruct (int4 _ _ _ Hx) as (x0 & x1 & x2 & x3 & S0 & S1 & S2 & S3 & F0 & F1 & F2 & F3 & V');
    destruct (int4 _ _ _ Hy) as (y0 & y1 & y2 & y3 & V0 & V1 & V2 & V3 & E0 & E1 & E2 & E3 & V);
    destruct (map4 _ _ Hz) as (w0 & w1 & w2 & w3 & G0 & G1 & G2 & G3).
  Lemma HA3 : isat [gt3; gt2; gt1] g A a 32.
  Proof. refine (isat_sub _ _ _ _ _ _ _ _ _ HA); [clear; intros ?; cbn [In]; tauto|clear; lia]. Qed.
  Lemma HZ0 g' : keep g4 g g' -> isat [] g' ZZ z 32.
  Proof. intros K. apply (isat_keep _ _ _ _ _ _ _ K). exact HZ. Qed.
  Lemma m_addNC :
    (forall g' f' m', keep g4 g g' -> chg [(z, 32)] m m' -> int_at m' z 4 ((x + y) mod W) -> cf f' = Some (W <=? x + y) -> wps k (mkSt g' X f' m') Q) ->
    wps (in_Fp_addNC il ZZ A A' ++ k) (mkSt g X f m) Q.
  Proof.
    intros H. unfold in_Fp_addNC, in_Fp_add_carry. destruct il.
    - ini. cbn [app]. do 12 ksm.
      destruct (add4 x0 x1 x2 x3 y0 y1 y2 y3 0 z0 z1 z2 z3 k0 k1 k2 k3) as [R1 R2]; try asm; [rewrite Z.add_0_r; asm|].
      rewrite Z.add_0_r, V, V' in R1, R2. subst k3. eapply H; [kp|apply chg4; exact Hz| |asm]. apply int4_mset; assumption.
    - rewrite <- app_assoc. eapply m_load_add; [reflexivity|exact HA3|exact HA'|exact Hx|exact Hy|].
      intros g1 f1 K1 L1 C1. eapply m_store; [exact (HZ0 _ K1)|exact Hz|exact L1|]. intros m1 C2 L2. exact (H _ _ _ K1 C2 L2 C1).
  Qed.
  Lemma m_adcNC : cf f = Some c ->
    (forall g' f' m', keep g4 g g' -> chg [(z, 32)] m m' -> int_at m' z 4 ((x + y + Z.b2z c) mod W) -> cf f' = Some (W <=? x + y + Z.b2z c) -> wps k (mkSt g' X f' m') Q) ->
    wps (in_Fp_adcNC il ZZ A A' ++ k) (mkSt g X f m) Q.
  Proof.
    intros Hc H. unfold in_Fp_adcNC, in_Fp_add_carry. destruct il.
    - ini. cbn [app]. do 12 ksm.
      destruct (add4 x0 x1 x2 x3 y0 y1 y2 y3 (Z.b2z c) z0 z1 z2 z3 k0 k1 k2 k3) as [R1 R2]; try asm.
      rewrite V, V' in R1, R2. subst k3. eapply H; [kp|apply chg4; exact Hz| |asm]. apply int4_mset; assumption.
    - rewrite <- app_assoc. eapply m_load_adc; [reflexivity|exact HA3|exact HA'|exact Hx|exact Hy|exact Hc|].
      intros g1 f1 K1 L1 C1. eapply m_store; [exact (HZ0 _ K1)|exact Hz|exact L1|]. intros m1 C2 L2. exact (H _ _ _ K1 C2 L2 C1).
  Qed.
  Lemma m_subNC :
    (forall g' f' m', keep g4 g g' -> chg [(z, 32)] m m' -> int_at m' z 4 ((x - y) mod W) -> cf f' = Some (x - y <? 0) -> wps k (mkSt g' X f' m') Q) ->
    wps (in_Fp_subNC il ZZ A A' ++ k) (mkSt g X f m) Q.
  Proof.
    intros H. unfold in_Fp_subNC, in_Fp_sub_carry. destruct il.
    - ini. cbn [app]. do 12 ksm.
      destruct (sub4 x0 x1 x2 x3 y0 y1 y2 y3 0 z0 z1 z2 z3 k0 k1 k2 k3) as [R1 R2]; try asm; [rewrite Z.sub_0_r; asm|].
      rewrite Z.sub_0_r, V, V' in R1, R2. subst k3. eapply H; [kp|apply chg4; exact Hz| |asm]. apply int4_mset; assumption.
    - rewrite <- app_assoc. eapply m_load_sub; [reflexivity|exact HA3|exact HA'|exact Hx|exact Hy|].
      intros g1 f1 K1 L1 C1. eapply m_store; [exact (HZ0 _ K1)|exact Hz|exact L1|]. intros m1 C2 L2. exact (H _ _ _ K1 C2 L2 C1).
  Qed.
  Lemma m_sbbNC : cf f = Some c ->
    (forall g' f' m', keep g4 g g' -> chg [(z, 32)] m m' -> int_at m' z 4 ((x - y - Z.b2z c) mod W) -> cf f' = Some (x - y - Z.b2z c <? 0) -> wps k (mkSt g' X f' m') Q) ->
    wps (in_Fp_sbbNC il ZZ A A' ++ k) (mkSt g X f m) Q.
  Proof.
    intros Hc H. unfold in_Fp_sbbNC, in_Fp_sub_carry. destruct il.
    - ini. cbn [app]. do 12 ksm.
      destruct (sub4 x0 x1 x2 x3 y0 y1 y2 y3 (Z.b2z c) z0 z1 z2 z3 k0 k1 k2 k3) as [R1 R2]; try asm.
      rewrite V, V' in R1, R2. subst k3. eapply H; [kp|apply chg4; exact Hz| |asm]. apply int4_mset; assumption.
    - rewrite <- app_assoc. eapply m_load_sbb; [reflexivity|exact HA3|exact HA'|exact Hx|exact Hy|exact Hc|].
      intros g1 f1 K1 L1 C1. eapply m_store; [exact (HZ0 _ K1)|exact Hz|exact L1|]. intros m1 C2 L2. exact (H _ _ _ K1 C2 L2 C1).
  Qed.
End Carry.
