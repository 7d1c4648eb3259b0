(** Fp::preInv's machine code: one iteration of the loop, and the call. *)
From Coq Require Import ZArith List Bool Lia.
From Verif Require Import Base Prim Primes Loop FpSpec Cfg FpM FpProofs FpInvProofs X64 XLog JitSpec JitFpSpec XTac XReg JitFp JitMac JitMac2 JitZmApi JitFrame JitRep JitFpApi JitFpApi2 JitInv JitInvMac.
Import ListNotations.
Local Open Scope Z_scope.
Local Notation find := X64.find. Local Notation length := List.length.

(** ** Labels *)
Definition notlab (l : Z) (i : instr) : bool := match i with Lab l' => negb (l =? l') | _ => true end.
Fixpoint once (l : Z) (C : code) : bool :=
  match C with [] => true | i :: C' => if notlab l i then once l C' else forallb (notlab l) C' end.
Lemma fetch_notlab l C i : forallb (notlab l) C = true -> fetch C i <> Some (Lab l).
Proof.
  revert i. induction C as [|a C IH]; intros i H E; cbn [fetch forallb] in *; [discriminate|]. apply andb_prop in H. destruct H as [H1 H2].
  destruct (i =? 0); [|exact (IH _ H2 E)]. injection E as ->. cbn [notlab] in H1. rewrite Z.eqb_refl in H1. discriminate.
Qed.
Lemma find_fetch l C : forall i n, once l C = true -> fetch C i = Some (Lab l) -> find C l n = Some (n + i).
Proof.
  induction C as [|a C IH]; intros i n H E; cbn [fetch once] in *; [discriminate|]. destruct (notlab l a) eqn:Na.
  - destruct (Z.eqb_spec i 0) as [->|N]; [injection E as ->; cbn [notlab] in Na; rewrite Z.eqb_refl in Na; discriminate|].
    specialize (IH _ (n + 1) H E). replace (n + 1 + (i - 1)) with (n + i) in IH by lia.
    destruct a; cbn [find]; try exact IH. cbn [notlab] in Na. destruct (l =? l0); [discriminate|exact IH].
  - destruct a; cbn [notlab] in Na; try discriminate. cbn [find]. destruct (Z.eqb_spec l l0) as [->|]; [|discriminate].
    destruct (Z.eqb_spec i 0) as [->|N]; [f_equal; lia|]. exfalso. exact (fetch_notlab _ _ _ H E).
Qed.
Lemma wp_seg C pc l i rest s (Q : Z -> state -> Prop) : at_ C pc (l ++ i :: rest) ->
  wps l s (fun s' => forall q, fetch C q = Some i -> at_ C (q + 1) rest -> wp C q s' Q) -> wp C pc s Q.
Proof.
  intros A H. destruct (at_app _ _ _ _ A) as [A1 A2]. apply (wp_block _ _ _ _ _ A1). refine (wps_mono _ _ _ _ H _).
  intros s' H'. destruct (at_cons _ _ _ _ A2) as [F A3]. exact (H' _ F A3).
Qed.

(** the code from each label on *)
Definition tl5 T : code := inv_exit T.
Definition tl4 T : code := inv_u ++ Jmp 1 :: Lab 5 :: tl5 T.
Definition tl3 T : code := inv_u3 ++ Lab 4 :: tl4 T.
Definition tl2 T : code := inv_v ++ Jmp 1 :: Lab 3 :: tl3 T.
Definition tl1 T : code := inv_test ++ Jcc CZ 5 :: [Test (R gt3) (Im 1)] ++ Jcc CZ 4 :: [Test (R gp2) (Im 1)] ++ Jcc CZ 2 ::
  inv_sub ++ Jcc CC 3 :: inv_sr ++ Lab 2 :: tl2 T.
Lemma body_tl T : inv_body T = inv_init T ++ Lab 1 :: tl1 T.
Proof. reflexivity. Qed.
Definition LA : list reg := [RAX; RBX; RCX; RDX; RSI; RDI; RBP; R8; R9; R10; R11; R12; R13; R14; R15].
Lemma keep_LA g g' : getr g' RSP = getr g RSP -> keep LA g g'.
Proof. intros E r Hr. destruct r; try discriminate Hr. exact E. Qed.

Notation ur := [gt3; gt4; gt5; gt6]. Notation vr := [gp2; gp3; gt1; gt2]. Notation sr := [gt7; gt8; gt9; gt10].
Definition linv (sp rp : Z) (st : Z * Z * Z * Z * Z) (g : regs) (X : xregs) (m : memory) : Prop :=
  let '(u, v, r, s, k) := st in
  (regn g ur u /\ regn g vr v /\ regn g sr s /\ rat g m sp r) /\ getr g RSP = sp /\ m (sp + 16) = Some rp /\ getx X X4 = k /\ getx X X5 = 1.

(** the iterations of Fp::preInv's loop, in the integer model *)
Inductive chain (c : cfg) : Z * Z * Z * Z * Z -> Z * Z -> Prop :=
| ch_done st o : preInv_body c st = Done o -> 0 <= snd st < 2 ^ 31 -> chain c st o
| ch_next st st' o : preInv_body c st = Next st' -> 0 <= snd st < 2 ^ 31 -> chain c st' o -> chain c st o.

Ltac rk K := refine (regn_keep _ _ _ _ _ K _ _); [reflexivity|].
Lemma lv4_bound a b c d : isU a -> isU b -> isU c -> isU d -> 0 <= lv [a; b; c; d] < W.
Proof.
  unfold isU. intros Ha Hb Hc Hd. rewrite W_B. cbn [lv]. rewrite Z.mul_0_r, Z.add_0_r.
  assert (B1 : 0 <= c + B * d < B * B) by (clear -Hc Hd; nia). assert (B2 : 0 <= b + B * (c + B * d) < B * (B * B)) by (clear -Hb B1; nia). clear -Ha B2. nia.
Qed.
Lemma lv4_mod2 a b c d : a mod 2 = lv [a; b; c; d] mod 2.
Proof.
  cbn [lv]. assert (E : B = 2 ^ 63 * 2) by (rewrite B_val; reflexivity). set (y := b + _). clearbody y. rewrite E.
  rewrite <- (Z_mod_plus_full a (2 ^ 63 * y) 2). f_equal. ring.
Qed.
Section Step.
  Variables (c : cfg) (T pc sp rp x : Z).
  Notation C := (make_Fp_preInv T).
  Hypothesis Hat : at_ C pc (inv_body T).
  Hypothesis H0 : 0 <= sp.
  Hypothesis H1 : sp + 32 <= B.
  Hypothesis Hx : 0 < x < cp c.
  Hypothesis HT : 0 <= T /\ T + 64 < B.
  Hypothesis HTs : T + 64 <= sp \/ sp + 32 <= T.
  Hypothesis Hrp : 0 <= rp /\ rp + 32 < B.
  Hypothesis Hrs : rp + 32 <= sp \/ sp + 32 <= rp.
  Notation pE := (pc + Z.of_nat (length (inv_body T))).

  Lemma labels : exists p1 p2 p3 p4 p5,
    (find C 1 0 = Some p1 /\ at_ C p1 (Lab 1 :: tl1 T)) /\ (find C 2 0 = Some p2 /\ at_ C p2 (Lab 2 :: tl2 T)) /\
    (find C 3 0 = Some p3 /\ at_ C p3 (Lab 3 :: tl3 T)) /\ (find C 4 0 = Some p4 /\ at_ C p4 (Lab 4 :: tl4 T)) /\
    (find C 5 0 = Some p5 /\ at_ C p5 (Lab 5 :: tl5 T)) /\ p1 = pc + Z.of_nat (length (inv_init T)) /\ p5 + 1 + Z.of_nat (length (tl5 T)) = pE.
  Proof using Hat.
    assert (S : forall a b, inv_body T = a ++ b -> at_ C (pc + Z.of_nat (length a)) b).
    { intros a b E. rewrite E in Hat. apply (at_app _ _ _ _ Hat). }
    assert (FF : forall l p r, once l C = true -> at_ C p (Lab l :: r) -> find C l 0 = Some p).
    { intros l p r O A. destruct (at_cons _ _ _ _ A) as [F _]. exact (find_fetch l C p 0 O F). }
    pose proof (S (inv_init T) (Lab 1 :: tl1 T) eq_refl) as A1.
    pose proof (S (inv_init T ++ [Lab 1] ++ inv_test ++ [Jcc CZ 5] ++ [Test (R gt3) (Im 1)] ++ [Jcc CZ 4] ++ [Test (R gp2) (Im 1)] ++ [Jcc CZ 2] ++
      inv_sub ++ [Jcc CC 3] ++ inv_sr) (Lab 2 :: tl2 T) eq_refl) as A2.
    pose proof (S (inv_init T ++ [Lab 1] ++ inv_test ++ [Jcc CZ 5] ++ [Test (R gt3) (Im 1)] ++ [Jcc CZ 4] ++ [Test (R gp2) (Im 1)] ++ [Jcc CZ 2] ++
      inv_sub ++ [Jcc CC 3] ++ inv_sr ++ [Lab 2] ++ inv_v ++ [Jmp 1]) (Lab 3 :: tl3 T) eq_refl) as A3.
    pose proof (S (inv_init T ++ [Lab 1] ++ inv_test ++ [Jcc CZ 5] ++ [Test (R gt3) (Im 1)] ++ [Jcc CZ 4] ++ [Test (R gp2) (Im 1)] ++ [Jcc CZ 2] ++
      inv_sub ++ [Jcc CC 3] ++ inv_sr ++ [Lab 2] ++ inv_v ++ [Jmp 1] ++ [Lab 3] ++ inv_u3) (Lab 4 :: tl4 T) eq_refl) as A4.
    pose proof (S (inv_init T ++ [Lab 1] ++ inv_test ++ [Jcc CZ 5] ++ [Test (R gt3) (Im 1)] ++ [Jcc CZ 4] ++ [Test (R gp2) (Im 1)] ++ [Jcc CZ 2] ++
      inv_sub ++ [Jcc CC 3] ++ inv_sr ++ [Lab 2] ++ inv_v ++ [Jmp 1] ++ [Lab 3] ++ inv_u3 ++ [Lab 4] ++ inv_u ++ [Jmp 1]) (Lab 5 :: tl5 T) eq_refl) as A5.
    eexists _, _, _, _, _.
    split; [split; [exact (FF 1 _ _ eq_refl A1)|exact A1]|]. split; [split; [exact (FF 2 _ _ eq_refl A2)|exact A2]|].
    split; [split; [exact (FF 3 _ _ eq_refl A3)|exact A3]|]. split; [split; [exact (FF 4 _ _ eq_refl A4)|exact A4]|].
    split; [split; [exact (FF 5 _ _ eq_refl A5)|exact A5]|]. split; [reflexivity|].
    clear. match goal with |- _ + Z.of_nat ?a + 1 + Z.of_nat ?b = _ + Z.of_nat ?d => assert (E : (a + 1 + b = d)%nat) by reflexivity end. clear -E. lia.
  Qed.

  Variables p1 p2 p3 p4 p5 : Z.
  Hypothesis P1 : find C 1 0 = Some p1 /\ at_ C p1 (Lab 1 :: tl1 T).
  Hypothesis P2 : find C 2 0 = Some p2 /\ at_ C p2 (Lab 2 :: tl2 T).
  Hypothesis P3 : find C 3 0 = Some p3 /\ at_ C p3 (Lab 3 :: tl3 T).
  Hypothesis P4 : find C 4 0 = Some p4 /\ at_ C p4 (Lab 4 :: tl4 T).
  Hypothesis P5 : find C 5 0 = Some p5 /\ at_ C p5 (Lab 5 :: tl5 T).
  Hypothesis PE : p5 + 1 + Z.of_nat (length (tl5 T)) = pE.
  Variable Q : Z -> state -> Prop.

  Lemma look16 m m' a v : chg [(sp, 16)] m m' -> m (sp + 16) = Some v -> a = sp + 16 -> m' a = Some v.
  Proof using. intros Cm E ->. refine (look_chg _ _ _ _ _ Cm _ E). apply off1. clear. lia. Qed.

  Lemma go2 u v r s k g X f m : linv sp rp (u, v, r, s, k) g X m -> 0 <= k < 2 ^ 31 ->
    (forall g' X' f' m', linv sp rp (u, v / 2, (r + r) mod W, s, k + 1) g' X' m' -> chg [(sp, 16)] m m' -> wp C p1 (mkSt g' X' f' m') Q) ->
    wp C p2 (mkSt g X f m) Q.
  Proof using P1 P2 H0 H1.
    intros ((Ru & Rv & Rs & Rr) & Rsp & Mr & X4v & X5v) Hk H. destruct P2 as [_ A]. destruct (at_cons _ _ _ _ A) as [F A'].
    eapply wp_ex; [exact F|reflexivity|]. apply (wp_seg _ _ inv_v (Jmp 1) _ _ _ A'). unfold inv_v.
    eapply m_shr1; [reflexivity|exact Rv|]. intros g1 f1 K1 V1.
    change ([Mov (R RDX) (M (Ad RSP 0)); Add (M (Ad RSP 0)) (R RDX); Mov (R RDX) (M (Ad RSP 8)); Adc (M (Ad RSP 8)) (R RDX);
      Adc (R RAX) (R RAX); Adc (R gp1) (R gp1); Paddd X4 X5]) with ([Mov (R RDX) (M (Ad RSP 0)); Add (M (Ad RSP 0)) (R RDX); Mov (R RDX) (M (Ad RSP 8)); Adc (M (Ad RSP 8)) (R RDX);
      Adc (R RAX) (R RAX); Adc (R gp1) (R gp1)] ++ [Paddd X4 X5]).
    eapply (m_rr _ _ _ _ _ _ sp r); [exact (rat_keep _ _ _ _ _ _ K1 eq_refl eq_refl Rr)|rewrite (K1 RSP eq_refl); exact Rsp|exact H0|exact H1|].
    intros g2 f2 m2 K2 C2 R2. eapply k_paddd; [exact X4v|exact X5v|exact Hk|]. intros X' E4 E5. cbn [wps].
    intros q Fq _. eapply wp_jmp; [exact Fq|exact (proj1 P1)|]. apply H; [|exact C2].
    split; [split; [|split; [|split]]|split; [|split; [|split]]].
    - (rk K2; rk K1; exact Ru).
    - (rk K2; exact V1).
    - (rk K2; rk K1; exact Rs).
    - exact R2.
    - rewrite (K2 RSP eq_refl), (K1 RSP eq_refl). exact Rsp.
    - exact (look16 _ _ _ _ C2 Mr eq_refl).
    - exact E4.
    - exact E5.
  Qed.
  Lemma go4 u v r s k g X f m : linv sp rp (u, v, r, s, k) g X m -> 0 <= k < 2 ^ 31 ->
    (forall g' X' f', linv sp rp (u / 2, v, r, (s + s) mod W, k + 1) g' X' m -> wp C p1 (mkSt g' X' f' m) Q) ->
    wp C p4 (mkSt g X f m) Q.
  Proof using P1 P4.
    intros ((Ru & Rv & Rs & Rr) & Rsp & Mr & X4v & X5v) Hk H. destruct P4 as [_ A]. destruct (at_cons _ _ _ _ A) as [F A'].
    eapply wp_ex; [exact F|reflexivity|]. apply (wp_seg _ _ inv_u (Jmp 1) _ _ _ A'). unfold inv_u.
    eapply m_shr1; [reflexivity|exact Ru|]. intros g1 f1 K1 V1.
    eapply m_shl1; [reflexivity|(rk K1; exact Rs)|]. intros g2 f2 K2 V2.
    eapply k_paddd; [exact X4v|exact X5v|exact Hk|]. intros X' E4 E5. cbn [wps].
    intros q Fq _. eapply wp_jmp; [exact Fq|exact (proj1 P1)|]. apply H.
    split; [split; [|split; [|split]]|split; [|split; [|split]]].
    - (rk K2; exact V1).
    - (rk K2; rk K1; exact Rv).
    - exact V2.
    - exact (rat_keep _ _ _ _ _ _ K2 eq_refl eq_refl (rat_keep _ _ _ _ _ _ K1 eq_refl eq_refl Rr)).
    - rewrite (K2 RSP eq_refl), (K1 RSP eq_refl). exact Rsp.
    - exact Mr.
    - exact E4.
    - exact E5.
  Qed.
  (** .next3: the registers of v hold the difference, xm0 .. xm3 hold v *)
  Lemma go3 u v r s k w0 w1 w2 w3 g X f m : (regn g ur u /\ regn g sr s /\ rat g m sp r) /\ getr g RSP = sp /\ m (sp + 16) = Some rp /\ getx X X4 = k /\ getx X X5 = 1 ->
    (isU w0 /\ isU w1 /\ isU w2 /\ isU w3) -> getx X X0 = w0 -> getx X X1 = w1 -> getx X X2 = w2 -> getx X X3 = w3 -> lv [w0; w1; w2; w3] = v -> 0 <= k < 2 ^ 31 ->
    (forall g' X' f' m', linv sp rp (((u - v) mod W) / 2, v, (r + s) mod W, (s + s) mod W, k + 1) g' X' m' -> chg [(sp, 16)] m m' -> wp C p1 (mkSt g' X' f' m') Q) ->
    wp C p3 (mkSt g X f m) Q.
  Proof using P1 P3 P4 H0 H1.
    intros ((Ru & Rs & Rr) & Rsp & Mr & X4v & X5v) (U0 & U1 & U2 & U3) E0 E1 E2 E3 V Hk H. destruct P3 as [_ A]. destruct (at_cons _ _ _ _ A) as [F A'].
    eapply wp_ex; [exact F|reflexivity|]. apply (wp_seg _ _ inv_u3 (Lab 4) _ _ _ A'). unfold inv_u3. cbn [app].
    eapply k_movqr; [exact E0|]. intros g1 K1 L1. eapply k_movqr; [exact E1|]. intros g2 K2 L2. eapply k_movqr; [exact E2|]. intros g3 K3 L3. eapply k_movqr; [exact E3|]. intros g4 K4 L4.
    assert (K04 : keep vr g g4) by kpc.
    assert (V4 : regn g4 vr v) by (eapply reg4_mk; [exact U0|exact U1|exact U2|exact U3|gr|gr|gr|gr|exact V]).
    clear K1 K2 K3 K4 L1 L2 L3 L4.
    eapply (m_sub_rr _ _ _ _ _ _ gt6 gt5 gt4 gt3 gt2 gt1 gp3 gp2); [reflexivity|(rk K04; exact Ru)|exact V4|]. intros g5 f5 K5 V5 _.
    rewrite <- (app_nil_r [Add _ _; _; _; _]).
    eapply (m_rs _ _ _ _ _ _ sp r s); [exact (rat_keep _ _ _ _ _ _ K5 eq_refl eq_refl (rat_keep _ _ _ _ _ _ K04 eq_refl eq_refl Rr))|rewrite (K5 RSP eq_refl), (K04 RSP eq_refl); exact Rsp|exact H0|exact H1| |].
    { (rk K5; rk K04; exact Rs). }
    intros g6 f6 m6 K6 C6 R6. cbn [wps]. intros q Fq Aq.
    assert (Eq : q = p4).
    { pose proof (find_fetch 4 C q 0 eq_refl Fq) as E. destruct P4 as [E' _]. rewrite E in E'. injection E' as E'. clear -E'. lia. }
    subst q. eapply (go4 _ v _ s k); [|exact Hk|intros; eapply H; [eassumption|exact C6]].
    split; [split; [|split; [|split]]|split; [|split; [|split]]].
    - (rk K6; exact V5).
    - (rk K6; rk K5; exact V4).
    - (rk K6; rk K5; rk K04; exact Rs).
    - exact R6.
    - rewrite (K6 RSP eq_refl), (K5 RSP eq_refl), (K04 RSP eq_refl). exact Rsp.
    - exact (look16 _ _ _ _ C6 Mr eq_refl).
    - exact X4v.
    - exact X5v.
  Qed.
  (** .exit *)
  Lemma go5 u v r s k g X f m : linv sp rp (u, v, r, s, k) g X m -> int_at m (T + 32) 4 (pTbl c 2) -> mapped m rp 4 ->
    (forall g' X' f' m', getr g' RSP = sp -> getr g' RAX = k -> int_at m' rp 4 ((pTbl c 2 - r) mod W) -> chg [(rp, 32)] m m' -> wp C pE (mkSt g' X' f' m') Q) ->
    wp C p5 (mkSt g X f m) Q.
  Proof using P5 PE H0 H1 HT Hrp.
    intros ((Ru & Rv & Rs & Rr) & Rsp & Mr & X4v & X5v) IT Mm H. destruct P5 as [_ A]. destruct (at_cons _ _ _ _ A) as [F A'].
    eapply wp_ex; [exact F|reflexivity|]. apply (wp_block _ _ (tl5 T) _ _ A'). rewrite PE. unfold tl5, inv_exit. cbn [app].
    eapply k_mov; [apply rd_imm; clear -HT; lia|]. intros g1 K1 L1.
    eapply m_load; [reflexivity|apply (isat_ad _ _ _ _ (T + 32)); [reflexivity|exact L1|apply Z.add_0_r|clear -HT; lia|clear -HT; lia]|exact IT|]. intros g2 K2 V2.
    assert (K02 : keep [RDX; gt10; gt9; gt8; gt7] g g2) by kpc.
    change (Sub (R gt7) (M (Ad RSP 0)) :: Sbb (R gt8) (M (Ad RSP 8)) :: Sbb (R gt9) (R RAX) :: Sbb (R gt10) (R gp1) :: ?r) with
      ([Sub (R gt7) (M (Ad RSP 0)); Sbb (R gt8) (M (Ad RSP 8)); Sbb (R gt9) (R RAX); Sbb (R gt10) (R gp1)] ++ r).
    eapply (m_sr_sub _ _ _ _ _ _ sp r); [exact (rat_keep _ _ _ _ _ _ K02 eq_refl eq_refl Rr)|rewrite (K02 RSP eq_refl); exact Rsp|exact H0|exact H1|exact V2|].
    intros g3 f3 K3 V3. assert (G3 : getr g3 RSP = sp) by (rewrite (K3 RSP eq_refl), (K02 RSP eq_refl); exact Rsp).
    eapply k_mov; [eapply rd_mem; [apply (ea16 sp H0 H1); exact G3|exact Mr]|]. intros g4 K4 L4.
    change (store_mr (Ad gp1 0) gt10 gt9 gt8 gt7 ++ [MovqR RAX X4]) with (store_mr (Ad gp1 0) gt10 gt9 gt8 gt7 ++ [MovqR RAX X4]).
    eapply m_store; [apply (isat_ad _ _ _ _ rp); [reflexivity|exact L4|apply Z.add_0_r|clear -Hrp; lia|clear -Hrp; lia]|exact Mm|(rk K4; exact V3)|].
    intros m5 C5 I5. eapply k_movqr; [exact X4v|]. intros g6 K6 L6. cbn [wps]. apply H; [|exact L6|exact I5|exact C5].
    rewrite (K6 RSP eq_refl), (K4 RSP eq_refl). exact G3.
  Qed.

  (** .lp: one iteration *)
  Lemma go1 st g X f m : linv sp rp st g X m -> 0 <= snd st < 2 ^ 31 -> int_at m (T + 32) 4 (pTbl c 2) -> mapped m rp 4 ->
    match preInv_body c st with
    | Next st' => forall g' X' f' m', linv sp rp st' g' X' m' -> chg [(sp, 16)] m m' -> wp C p1 (mkSt g' X' f' m') Q
    | Done (r', k') => forall g' X' f' m', getr g' RSP = sp -> getr g' RAX = k' -> int_at m' rp 4 r' -> chg [(rp, 32)] m m' -> wp C pE (mkSt g' X' f' m') Q
    end -> wp C p1 (mkSt g X f m) Q.
  Proof using P1 P2 P3 P4 P5 PE H0 H1 HT Hrp.
    destruct st as [[[[u v] r] s] k]. cbn [snd]. intros I Hk IT Mm H. unfold preInv_body in H.
    pose proof I as ((Ru & Rv & Rs & Rr) & Rsp & Mr & X4v & X5v).
    destruct (reg4 _ _ _ _ _ _ Rv) as (v0 & v1 & v2 & v3 & V0 & V1 & V2 & V3 & G0 & G1 & G2 & G3 & Ev).
    destruct (reg4 _ _ _ _ _ _ Ru) as (u0 & u1 & u2 & u3 & U0 & U1 & U2 & U3 & J0 & J1 & J2 & J3 & Eu).
    assert (Bu : 0 <= u < W) by (rewrite <- Eu; apply lv4_bound; assumption).
    assert (Bv : 0 <= v < W) by (rewrite <- Ev; apply lv4_bound; assumption).
    assert (Pu : u0 mod 2 = u mod 2) by (rewrite <- Eu; apply lv4_mod2).
    assert (Pv : v0 mod 2 = v mod 2) by (rewrite <- Ev; apply lv4_mod2).
    destruct P1 as [_ A]. destruct (at_cons _ _ _ _ A) as [F A'].
    eapply wp_ex; [exact F|reflexivity|]. unfold tl1 in A'. apply (wp_seg _ _ _ _ _ _ _ A'). unfold inv_test.
    eapply k_mov; [apply rd_reg; exact G0|]. intros g2 K2 R2.
    eapply k_or; [exact R2|apply rd_reg; rewrite (K2 gp3 eq_refl); exact G1|]. intros g3 f3 K3 R3 _.
    eapply k_or; [exact R3|apply rd_reg; rewrite (K3 gt1 eq_refl), (K2 gt1 eq_refl); exact G2|]. intros g4 f4 K4 R4 _.
    eapply k_or; [exact R4|apply rd_reg; rewrite (K4 gt2 eq_refl), (K3 gt2 eq_refl), (K2 gt2 eq_refl); exact G3|]. intros g5 f5 K5 R5 Z5.
    assert (K : keep [RDX] g g5).
    { refine (keep_idem _ _ _ _ K2 (keep_idem _ _ _ _ K3 (keep_idem _ _ _ _ K4 K5))). }
    clear K2 K3 K4 K5 R2 R3 R4 R5. rewrite lor4_0, Ev in Z5 by assumption. cbn [wps].
    assert (I5 : linv sp rp (u, v, r, s, k) g5 X m).
    { split; [split; [rk K; exact Ru|split; [rk K; exact Rv|split; [rk K; exact Rs|exact (rat_keep _ _ _ _ _ _ K eq_refl eq_refl Rr)]]]|].
      split; [rewrite (K RSP eq_refl); exact Rsp|]. split; [exact Mr|]. split; [exact X4v|exact X5v]. }
    assert (N0 : getr g5 gp2 = v0) by (rewrite (K gp2 eq_refl); exact G0).
    assert (N1 : getr g5 gp3 = v1) by (rewrite (K gp3 eq_refl); exact G1).
    assert (N2 : getr g5 gt1 = v2) by (rewrite (K gt1 eq_refl); exact G2).
    assert (N3 : getr g5 gt2 = v3) by (rewrite (K gt2 eq_refl); exact G3).
    assert (N4 : getr g5 gt3 = u0) by (rewrite (K gt3 eq_refl); exact J0).
    clear g K I Ru Rv Rs Rr Rsp Mr X4v X5v G0 G1 G2 G3 J0 J1 J2 J3 A A' F.
    intros q Fq Aq. eapply wp_jcc; [exact Fq|exact (proj1 P5)|cbn [holds fl]; exact Z5| |]; intros E; rewrite E in H.
    { eapply go5; [exact I5|exact IT|exact Mm|exact H]. }
    clear Z5 E Fq. apply (wp_seg _ _ [Test (R gt3) (Im 1)] _ _ _ _ Aq). clear Aq q. eapply k_test1; [exact N4|]. intros f6 Z6. cbn [wps]. rewrite Pu in Z6.
    intros q Fq Aq. eapply wp_jcc; [exact Fq|exact (proj1 P4)|cbn [holds fl]; exact Z6| |]; intros E; rewrite E in H.
    { eapply go4; [exact I5|exact Hk|]. intros g' X' f' I'. apply H; [exact I'|refine (chg_sub _ _ _ _ _ (chg_refl m)); intros; apply Forall_nil]. }
    clear Z6 E Fq. apply (wp_seg _ _ [Test (R gp2) (Im 1)] _ _ _ _ Aq). clear Aq q. eapply k_test1; [exact N0|]. intros f7 Z7. cbn [wps]. rewrite Pv in Z7.
    intros q Fq Aq. eapply wp_jcc; [exact Fq|exact (proj1 P2)|cbn [holds fl]; exact Z7| |]; intros E; rewrite E in H.
    { eapply go2; [exact I5|exact Hk|exact H]. }
    clear Z7 E Fq. apply (wp_seg _ _ inv_sub _ _ _ _ Aq). clear Aq q. unfold inv_sub. cbn [app].
    destruct I5 as ((Ru & Rv & Rs & Rr) & Rsp & Mr & X4v & X5v).
    eapply k_movqx; [exact N0|]. eapply k_movqx; [exact N1|]. eapply k_movqx; [exact N2|]. eapply k_movqx; [exact N3|].
    set (X' := setx _ _ _).
    assert (XX : getx X' X0 = v0 /\ getx X' X1 = v1 /\ getx X' X2 = v2 /\ getx X' X3 = v3 /\ getx X' X4 = getx X X4 /\ getx X' X5 = getx X X5).
    { subst X'. clear. destruct X. cbn. auto 10. }
    destruct XX as (Y0 & Y1 & Y2 & Y3 & Y4 & Y5). clearbody X'. rewrite X4v in Y4. rewrite X5v in Y5.
    rewrite <- (app_nil_r (sub_rr _ _ _ _ _ _ _ _)).
    eapply (m_sub_rr _ _ _ _ _ _ gt2 gt1 gp3 gp2 gt6 gt5 gt4 gt3); [reflexivity|exact Rv|exact Ru|]. intros g8 f8 K8 V8 C8. cbn [wps].
    assert (Ru8 : regn g8 ur u) by (rk K8; exact Ru). assert (Rs8 : regn g8 sr s) by (rk K8; exact Rs).
    assert (Rr8 : rat g8 m sp r) by (exact (rat_keep _ _ _ _ _ _ K8 eq_refl eq_refl Rr)).
    assert (Rsp8 : getr g8 RSP = sp) by (rewrite (K8 RSP eq_refl); exact Rsp).
    intros q Fq Aq. replace (v - u <? 0) with (v <? u) in C8 by (clear; destruct (Z.ltb_spec v u), (Z.ltb_spec (v - u) 0); lia).
    eapply wp_jcc; [exact Fq|exact (proj1 P3)|cbn [holds fl]; exact C8| |]; intros E; rewrite E in H.
    { eapply (go3 u v r s k v0 v1 v2 v3); [split; [split; [exact Ru8|split; [exact Rs8|exact Rr8]]|split; [exact Rsp8|split; [exact Mr|split; [exact Y4|exact Y5]]]]|split; [exact V0|split; [exact V1|split; [exact V2|exact V3]]]|exact Y0|exact Y1|exact Y2|exact Y3|exact Ev|exact Hk|].
      apply Z.ltb_lt in E. rewrite Z.mod_small by (clear -Bu Bv E; lia). exact H. }
    apply (wp_seg _ _ inv_sr _ _ _ _ Aq). rewrite <- (app_nil_r inv_sr).
    eapply (m_sr _ _ _ _ _ _ sp r s); [exact Rr8|exact Rsp8|exact H0|exact H1|exact Rs8|]. intros g9 f9 K9 S9. cbn [wps]. clear Fq Aq q. intros q Fq Aq.
    assert (Eq : q = p2).
    { pose proof (find_fetch 2 C q 0 eq_refl Fq) as E'. destruct P2 as [E'' _]. rewrite E' in E''. injection E'' as E''. clear -E''. lia. }
    subst q. eapply (go2 u ((v - u) mod W) r _ k); [|exact Hk|].
    - split; [split; [rk K9; exact Ru8|split; [rk K9; exact V8|split; [exact S9|exact (rat_keep _ _ _ _ _ _ K9 eq_refl eq_refl Rr8)]]]|].
      split; [rewrite (K9 RSP eq_refl); exact Rsp8|]. split; [exact Mr|]. split; [exact Y4|exact Y5].
    - apply Z.ltb_ge in E. rewrite Z.mod_small by (clear -Bu Bv E; lia). exact H.
  Qed.

  Lemma run_chain st o : chain c st o -> forall g X f m, linv sp rp st g X m -> int_at m (T + 32) 4 (pTbl c 2) -> mapped m rp 4 ->
    (forall g' X' f' m', getr g' RSP = sp -> getr g' RAX = snd o -> int_at m' rp 4 (fst o) -> chg [(rp, 32); (sp, 16)] m m' -> wp C pE (mkSt g' X' f' m') Q) ->
    wp C p1 (mkSt g X f m) Q.
  Proof using P1 P2 P3 P4 P5 PE H0 H1 HT Hrp HTs.
    induction 1 as [st o E Hk|st st' o E Hk Hc IH]; intros g X f m I IT Mm H; apply (go1 st _ _ _ _ I Hk IT Mm); rewrite E.
    - destruct o as [r' k']. intros g' X' f' m' R1 R2 R3 R4. apply H; [exact R1|exact R2|exact R3|].
      refine (chg_sub _ _ _ _ _ R4). intros b Hb. apply off2 in Hb. apply off1. clear -Hb; tauto.
    - intros g' X' f' m' I' Cm. apply (IH _ _ _ _ I').
      + refine (int_at_chg _ _ _ _ _ _ Cm _ IT). constructor; [|constructor]. unfold clear_of. cbn [fst snd]. clear -HTs. lia.
      + exact (chg_mapped _ _ _ _ _ Cm Mm).
      + intros g2 X2 f2 m2 R1 R2 R3 R4. apply H; [exact R1|exact R2|exact R3|].
        refine (chg_sub _ _ _ _ _ (chg_trans _ _ _ _ _ Cm R4)). intros b Hb. apply off2 in Hb. cbn [app]. constructor; [unfold off; cbn [fst snd]; clear -Hb; tauto|]. apply off2. clear -Hb; tauto.
  Qed.
  (** the code before the loop *)
  Lemma m_init ax p g X f m (Q' : state -> Prop) : getr g RSP = sp -> getr g RDI = rp -> getr g RSI = ax -> 0 <= ax -> ax + 32 < B ->
    int_at m T 4 p -> int_at m ax 4 x -> avail m sp 4 ->
    (forall g' X' f' m', linv sp rp (p, x, 0, 1, 0) g' X' m' -> chg [(sp, 24)] m m' -> Q' (mkSt g' X' f' m')) ->
    wps (inv_init T) (mkSt g X f m) Q'.
  Proof using H0 H1 HT Q.
    intros Rsp Rrp Rax A0 A1 IT Ix Av H. unfold inv_init. cbn [app].
    eapply k_mov; [apply rd_imm; clear -HT; lia|]. intros g1 K1 L1.
    eapply m_load; [reflexivity|apply (isat_ad _ _ _ _ T); [reflexivity|exact L1|apply Z.add_0_r|clear -HT; lia|clear -HT; lia]|exact IT|]. intros g2 K2 V2.
    destruct (int4 _ _ _ Ix) as (v0 & v1 & v2 & v3 & U0 & U1 & U2 & U3 & M0 & M1 & M2 & M3 & Ev).
    assert (K02 : keep [RDX; gt6; gt5; gt4; gt3] g g2) by kpc. clear K1 K2 L1.
    assert (S2 : getr g2 RSI = ax) by (rewrite (K02 RSI eq_refl); exact Rax).
    eapply k_mov; [eapply rd_mem; [eapply ea_ad; [exact S2|clear -A0 A1; lia|reflexivity]|exact M3]|]. intros g3 K3 L3.
    eapply k_mov; [eapply rd_mem; [eapply ea_ad; [rewrite (K3 RSI eq_refl); exact S2|clear -A0 A1; lia|reflexivity]|exact M2]|]. intros g4 K4 L4.
    eapply k_mov; [eapply rd_mem; [eapply ea_ad; [rewrite (K4 RSI eq_refl), (K3 RSI eq_refl); exact S2|clear -A0 A1; lia|reflexivity]|exact M1]|]. intros g5 K5 L5.
    eapply k_mov; [eapply rd_mem; [eapply ea_ad; [rewrite (K5 RSI eq_refl), (K4 RSI eq_refl), (K3 RSI eq_refl); exact S2|clear -A0 A1; lia|reflexivity]|rewrite Z.add_0_r; exact M0]|]. intros g6 K6 L6.
    assert (V6 : regn g6 vr x) by (eapply reg4_mk; [exact U0|exact U1|exact U2|exact U3|gr|gr|gr|gr|exact Ev]).
    assert (K06 : keep [RDX; gt6; gt5; gt4; gt3; gt2; gt1; gp3; gp2] g g6) by kpc.
    assert (V6' : regn g6 ur p) by (rk K6; rk K5; rk K4; rk K3; exact V2).
    clear K3 K4 K5 K6 L3 L4 L5 L6 V2 S2 K02. clear g1 g2 g3 g4 g5.
    apply wps_xor_self. set (g7 := setr g6 gt10 0). assert (K7 : keep [gt10] g6 g7) by apply keep_setr. assert (L7 : getr g7 gt10 = 0) by apply getr_same. clearbody g7.
    eapply k_lea; [eapply ea_ad; [exact L7|clear; rewrite B_val; lia|reflexivity]|]. intros g8 K8 L8.
    assert (L8' : getr g8 gt10 = 0) by (rewrite (K8 gt10 eq_refl); exact L7).
    eapply k_mov; [apply rd_reg; exact L8'|]. intros g9 K9 L9.
    eapply k_mov; [apply rd_reg; rewrite (K9 gt10 eq_refl); exact L8'|]. intros g10 K10 L10.
    assert (E10 : getr g10 gt10 = 0) by (rewrite (K10 gt10 eq_refl), (K9 gt10 eq_refl); exact L8').
    assert (E7 : getr g10 gt7 = 1) by (rewrite (K10 gt7 eq_refl), (K9 gt7 eq_refl); exact L8).
    assert (E8 : getr g10 gt8 = 0) by (rewrite (K10 gt8 eq_refl); exact L9).
    assert (K610 : keep [gt7; gt8; gt9; gt10] g6 g10) by kpc.
    clear K7 K8 K9 K10 L7 L8 L8' L9. clear g7 g8 g9.
    destruct (Av 0 ltac:(lia)) as [w0 W0]. destruct (Av 1 ltac:(lia)) as [w1 W1]. destruct (Av 2 ltac:(lia)) as [w2 W2].
    rewrite Z.mul_0_r, Z.add_0_r in W0. change (8 * 1) with 8 in W1. change (8 * 2) with 16 in W2.
    assert (G10 : getr g10 RSP = sp) by (rewrite (K610 RSP eq_refl), (K06 RSP eq_refl); exact Rsp).
    eapply k_store; [apply (ea0 sp H0 H1); exact G10|exact W0|exact E10|].
    eapply k_store; [apply (ea8 sp H0 H1); exact G10|rewrite mset_ne by (clear; lia); exact W1|exact E10|].
    eapply k_store; [apply (ea16 sp H0 H1); exact G10|rewrite !mset_ne by (clear; lia); exact W2|rewrite (K610 RDI eq_refl), (K06 RDI eq_refl); exact Rrp|].
    set (m1 := mset m sp 0). set (m2 := mset m1 (sp + 8) 0). set (m3 := mset m2 (sp + 16) rp).
    apply wps_xor_self. set (g11 := setr g10 RAX 0). assert (K11 : keep [RAX] g10 g11) by apply keep_setr. assert (L11 : getr g11 RAX = 0) by apply getr_same. clearbody g11.
    apply wps_xor_self. set (g12 := setr g11 gp1 0). assert (K12 : keep [gp1] g11 g12) by apply keep_setr. assert (L12 : getr g12 RDI = 0) by apply getr_same. clearbody g12.
    eapply wps_other; [reflexivity|]. eapply wps_other; [reflexivity|]. cbn [rg xm fl mem].
    eapply k_movqx; [rewrite (K12 gt7 eq_refl), (K11 gt7 eq_refl); exact E7|]. cbn [wps].
    set (X' := setx _ X5 1).
    assert (XX : getx X' X4 = 0 /\ getx X' X5 = 1) by (subst X'; clear; destruct X; cbn; auto). clearbody X'.
    assert (C3 : chg [(sp, 24)] m m3).
    { assert (C1 : chg [(sp, 8)] m m1) by (exact (chg_mset _ _ _ _ W0)).
      assert (C2 : chg [(sp + 8, 8)] m1 m2) by (apply (chg_mset _ _ _ w1); unfold m1; rewrite mset_ne by (clear; lia); exact W1).
      assert (C3 : chg [(sp + 16, 8)] m2 m3) by (apply (chg_mset _ _ _ w2); unfold m2, m1; rewrite !mset_ne by (clear; lia); exact W2).
      refine (chg_sub _ _ _ _ _ (chg_trans _ _ _ _ _ C1 (chg_trans _ _ _ _ _ C2 C3))). intros b Hb. apply off1 in Hb. cbn [app].
      constructor; [unfold off; cbn [fst snd]; clear -Hb; lia|]. apply off2. clear -Hb. lia. }
    apply H; [|exact C3]. assert (K1012 : keep [RAX; gp1] g10 g12) by kpc.
    assert (Z0 : isU 0) by (split; [apply Z.le_refl|apply B_pos]).
    split; [split; [rk K1012; rk K610; exact V6'|split; [rk K1012; rk K610; exact V6|split]]|split; [rewrite (K1012 RSP eq_refl); exact G10|split; [|exact XX]]].
    - rk K1012. eapply (reg4_mk _ _ _ _ _ 1 0 0 0); [split; [discriminate|rewrite B_val; reflexivity]|exact Z0|exact Z0|exact Z0|exact E7|exact E8|exact L10|exact E10|cbn [lv]; clear; lia].
    - exists 0, 0, 0, 0. split; [split; [exact Z0|split; [exact Z0|split; exact Z0]]|]. unfold m3, m2, m1.
      split; [rewrite !mset_ne by (clear; lia); apply mset_eq; reflexivity|]. split; [rewrite mset_ne by (clear; lia); apply mset_eq; reflexivity|].
      split; [rewrite (K12 RAX eq_refl); exact L11|]. split; [exact L12|]. cbn [lv]. clear; lia.
    - unfold m3. apply mset_eq. reflexivity.
  Qed.
End Step.
