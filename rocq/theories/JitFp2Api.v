(** The generated functions on Fp2, called: subroutines that call subroutines. *)
From Coq Require Import ZArith List Bool Lia.
From Verif Require Import X64 XLog JitSpec JitFpSpec XTac XReg JitFp JitMac JitMac2 JitMul JitMont JitMul4 JitMod JitZmApi JitFrame JitRep JitFpApi JitFpApi2 JitFp2 JitFp2Mac JitFp2Mac2.
From Verif Require Import Base Prim Primes FpSpec Cfg FpM TowerSpec TowerM.
Import ListNotations.
Local Open Scope Z_scope.
Local Notation find := X64.find.
Local Notation length := List.length.

(** call of a subroutine that itself may call; what it leaves may depend on gp1 and the SSE registers *)
Lemma call_wpg C pc l t sub g X f m sp L R (Post : Z -> xregs -> memory -> Prop) (Q : Z -> state -> Prop) :
  fetch C pc = Some (Call l) -> find C l 0 = Some t -> at_ C t ([Lab l] ++ sub ++ [Ret]) ->
  getr g RSP = sp -> 0 <= sp - 8 -> sp < B -> (exists v, m (sp - 8) = Some v) ->
  inb RSP L = false -> Forall (clear_of (sp - 8) 8) R ->
  (forall g1 m1 (Q' : Z -> state -> Prop), at_ C (t + 1) sub -> keep [RSP] g g1 -> getr g1 RSP = sp - 8 -> chg [(sp - 8, 8)] m m1 ->
    (forall g2 X2 f2 m2, keep L g1 g2 -> chg R m1 m2 -> Post (getr g2 gp1) X2 m2 -> wp C (t + 1 + Z.of_nat (length sub)) (mkSt g2 X2 f2 m2) Q') -> wp C (t + 1) (mkSt g1 X f m1) Q') ->
  (forall g3 X3 f3 m3, keep L g g3 -> chg ((sp - 8, 8) :: R) m m3 -> Post (getr g3 gp1) X3 m3 -> wp C (pc + 1) (mkSt g3 X3 f3 m3) Q) ->
  wp C pc (mkSt g X f m) Q.
Proof.
  intros F1 F2 A G H1 H2 [v Ev] NL NR Hs H.
  assert (E8 : (getr g RSP - 8) mod B = sp - 8) by (rewrite G; apply Z.mod_small; lia).
  eapply wp_call; [exact F1|exact F2|cbn [mem rg]; change (rsp g) with (getr g RSP); rewrite E8; exact Ev|].
  cbn [mem rg xm fl]. change (rsp g) with (getr g RSP). rewrite E8.
  destruct (at_cons _ _ _ _ A) as [FL A1]. eapply wp_ex; [exact FL|reflexivity|].
  destruct (at_app _ _ _ _ A1) as [A2 A3].
  pose proof (chg_mset m (sp - 8) (pc + 1) v Ev) as C0. pose proof (keep_setr g RSP (sp - 8)) as K0.
  eapply Hs; [exact A2|exact K0|apply getr_same|exact C0|].
  intros g2 X2 f2 m2 K2 C2 HP. assert (G2 : getr g2 RSP = sp - 8) by (rewrite (K2 RSP NL); apply getr_same).
  eapply wp_ret; [apply (at_cons _ _ _ _ A3)|cbn [mem rg]; change (rsp g2) with (getr g2 RSP); rewrite G2|].
  { destruct C2 as [C2 _]. rewrite C2; [apply mset_eq; reflexivity|]. refine (Forall_impl _ _ NR). intros [c e]. unfold clear_of, off. cbn [fst snd]. lia. }
  cbn [mem rg xm fl]. change (rsp g2) with (getr g2 RSP). rewrite G2.
  replace ((sp - 8 + 8) mod B) with sp by (symmetry; replace (sp - 8 + 8) with sp by lia; apply Z.mod_small; lia).
  apply H; [|exact (chg_trans _ _ _ _ _ C0 C2)|].
  - intros r Er. destruct (reqb r RSP) eqn:E.
    + apply reqb_eq in E. subst r. rewrite getr_same. congruence.
    + rewrite getr_ne by exact E. rewrite (K2 r Er). apply getr_ne. exact E.
  - rewrite getr_ne by reflexivity. exact HP.
Qed.

(** call of FpDbl::mod, of Fp::mul *)
Section CallMod.
  Variables (C : code) (c : cfg) (mx : bool) (T t pc : Z).
  Variables (g : regs) (X : xregs) (f : flags) (m : memory) (sp z a b x y : Z) (Q : Z -> state -> Prop).
  Hypothesis Gs : getr g RSP = sp.
  Hypothesis Gz : getr g gp1 = z.
  Hypothesis Ga : getr g gp2 = a.
  Hypothesis HT : modulus c m T.
  Hypothesis TU : 0 <= T < B.
  Hypothesis Hst : mapped m (sp - 8) 1.
  Hypothesis Hz : mapped m z 4.
  Lemma c_mod : find C L_FpDbl_mod 0 = Some t -> at_ C t (p_FpDbl_mod mx T (cpp c)) -> fetch C pc = Some (Call L_FpDbl_mod) ->
    int_at m a 8 x ->
    (8 <= sp /\ sp < B) /\ (0 <= z /\ z + 32 <= B) /\ (0 <= a /\ a + 64 <= B) /\ (z + 32 <= sp - 8 \/ sp <= z) /\ (a + 64 <= sp - 8 \/ sp <= a) /\ (T + 32 <= sp - 8 \/ sp <= T) ->
    (forall g' X' f' m', keep (gp2 :: gall) g g' -> getr g' gp1 = z -> chg [(sp - 8, 8); (z, 32)] m m' -> int_at m' z 4 (dbl_mod c x) -> xk X X' -> wp C (pc + 1) (mkSt g' X' f' m') Q) ->
    wp C pc (mkSt g X f m) Q.
  Proof.
    intros Ft At Fp Hx SEP H.
    apply (call_wpg C pc L_FpDbl_mod t (mont_mod mx T (cpp c)) g X f m sp (gp2 :: gall) [(z, 32)] (fun v X' m' => v = z /\ int_at m' z 4 (dbl_mod c x) /\ xk X X') Q Fp Ft At Gs);
      [clear -SEP; lia|clear -SEP; lia|exact (proj1 Hst)|reflexivity|apply Forall_cons; [unfold clear_of; cbn [fst snd]; clear -SEP; lia|apply Forall_nil]| |].
    - intros g1 m1 Q' A K1 G1 C1 H1. apply (wp_block _ _ _ _ _ A). rewrite <- (app_nil_r (mont_mod _ _ _)).
      eapply (m_mont_mod c mx T [] g1 X f m1 _ z a x).
      + split; [|exact (proj2 HT)]. refine (int_at_chg _ _ _ _ _ _ C1 _ (proj1 HT)). apply Forall_cons; [apply co4; clear -SEP; lia|apply Forall_nil].
      + exact TU.
      + rewrite (K1 gp1 eq_refl). exact Gz.
      + rewrite (K1 gp2 eq_refl). exact Ga.
      + clear -SEP; lia.
      + clear -SEP; lia.
      + exact (chg_mapped _ _ _ _ _ C1 Hz).
      + refine (int_at_chg _ _ _ _ _ _ C1 _ Hx). apply Forall_cons; [apply co8; clear -SEP; lia|apply Forall_nil].
      + intros g' X' f' m' K' L' C' R' XK. cbn [wps]. rewrite app_nil_r. apply H1; [exact K'|exact C'|]. split; [exact L'|]. split; [exact R'|exact XK].
    - intros g3 X3 f3 m3 K3 C3 (P1 & P2 & P3). apply H; assumption.
  Qed.
  Lemma c_mul : find C L_Fp_mul 0 = Some t -> at_ C t (p_Fp_mul mx T (cpp c)) -> fetch C pc = Some (Call L_Fp_mul) -> getr g gp3 = b ->
    int_at m a 4 x -> int_at m b 4 y ->
    (8 <= sp /\ sp < B) /\ (0 <= z /\ z + 32 <= B) /\ (0 <= a /\ a + 32 <= B) /\ (0 <= b /\ b + 32 <= B) /\ (z + 32 <= sp - 8 \/ sp <= z) /\ (a + 32 <= sp - 8 \/ sp <= a) /\ (b + 32 <= sp - 8 \/ sp <= b) /\ (T + 32 <= sp - 8 \/ sp <= T) ->
    (forall g' X' f' m', keep gall g g' -> getr g' gp1 = z -> chg [(sp - 8, 8); (z, 32)] m m' -> int_at m' z 4 (fp_mul c x y) -> xk X X' -> wp C (pc + 1) (mkSt g' X' f' m') Q) ->
    wp C pc (mkSt g X f m) Q.
  Proof.
    intros Ft At Fp Gb Hx Hy SEP H.
    apply (call_wpg C pc L_Fp_mul t (Fp_mul mx T (cpp c)) g X f m sp gall [(z, 32)] (fun v X' m' => v = z /\ int_at m' z 4 (fp_mul c x y) /\ xk X X') Q Fp Ft At Gs);
      [clear -SEP; lia|clear -SEP; lia|exact (proj1 Hst)|reflexivity|apply Forall_cons; [unfold clear_of; cbn [fst snd]; clear -SEP; lia|apply Forall_nil]| |].
    - intros g1 m1 Q' A K1 G1 C1 H1. apply (wp_block _ _ _ _ _ A). rewrite <- (app_nil_r (Fp_mul _ _ _)).
      eapply (m_Fp_mul c mx T [] g1 X f m1 _ z a b x y).
      + split; [|exact (proj2 HT)]. refine (int_at_chg _ _ _ _ _ _ C1 _ (proj1 HT)). apply Forall_cons; [apply co4; clear -SEP; lia|apply Forall_nil].
      + exact TU.
      + rewrite (K1 gp1 eq_refl). exact Gz.
      + rewrite (K1 gp2 eq_refl). exact Ga.
      + rewrite (K1 gp3 eq_refl). exact Gb.
      + clear -SEP; lia.
      + clear -SEP; lia.
      + clear -SEP; lia.
      + exact (chg_mapped _ _ _ _ _ C1 Hz).
      + refine (int_at_chg _ _ _ _ _ _ C1 _ Hx). apply Forall_cons; [apply co4; clear -SEP; lia|apply Forall_nil].
      + refine (int_at_chg _ _ _ _ _ _ C1 _ Hy). apply Forall_cons; [apply co4; clear -SEP; lia|apply Forall_nil].
      + intros g' X' f' m' K' L' C' R' XK. cbn [wps]. rewrite app_nil_r. apply H1; [exact K'|exact C'|]. split; [exact L'|]. split; [exact R'|exact XK].
    - intros g3 X3 f3 m3 K3 C3 (P1 & P2 & P3). apply H; assumption.
  Qed.
End CallMod.

(** the subroutine is part of the code [C] *)
Definition has (C : code) (l : Z) (body : code) : Prop := exists t, find C l 0 = Some t /\ at_ C t body.

(** one instruction of a list at [pc] *)
Ltac st A F := let A' := fresh "A" in destruct (at_cons _ _ _ _ A) as [F A']; clear A; rename A' into A.

(** ** Two reductions at the end of mul and square *)
Section Mod2.
  Ltac ni ::= nic.
  Ltac kp ::= kpc.
  Variables (C : code) (c : cfg) (mx : bool) (T pc d1 d0 SS : Z).
  Variables (g : regs) (X : xregs) (f : flags) (m : memory) (lo z x1 x0 : Z) (Q : Z -> state -> Prop).
  Hypothesis HM : has C L_FpDbl_mod (p_FpDbl_mod mx T (cpp c)).
  Hypothesis HA : at_ C pc (mod2 d1 d0 SS).
  Hypothesis Gs : getr g RSP = lo.
  Hypothesis Gz : getr g gp1 = z.
  Hypothesis HT : modulus c m T.
  Hypothesis Hst : mapped m (lo - 8) 1.
  Hypothesis Hz : mapped m z 8.
  Hypothesis I1 : int_at m (lo + d1) 8 x1.
  Hypothesis I0 : int_at m (lo + d0) 8 x0.
  Hypothesis SEP : (8 <= lo /\ lo + SS < B) /\ (0 <= d1 /\ d1 + 64 <= SS) /\ (0 <= d0 /\ d0 + 64 <= SS) /\ (0 <= z /\ z + 64 <= B) /\ (0 <= T /\ T + 32 <= B) /\
    (z + 64 <= lo - 8 \/ lo + SS <= z) /\ (T + 32 <= lo - 8 \/ lo + SS <= T) /\ (z + 64 <= T \/ T + 32 <= z).
  Ltac sep := clear -SEP; lia.
  Ltac mz j := refine (mapped_at _ _ _ _ _ Hz j _ _); [clear; lia | apply Nat.leb_le; reflexivity].
  Lemma w_mod2 :
    (forall g' X' f' m', keep (RSP :: gp2 :: gall) g g' -> getr g' RSP = lo + SS -> xk X X' -> chg [(lo - 8, 8); (z, 64)] m m' ->
      int_at m' z 4 (dbl_mod c x1) -> int_at m' (z + 32) 4 (dbl_mod c x0) -> wp C (pc + 6) (mkSt g' X' f' m') Q) ->
    wp C pc (mkSt g X f m) Q.
  Proof.
    intros H. destruct HM as (t & Ft & At). unfold mod2 in HA. rename HA into A. clear HM.
    assert (TU : 0 <= T < B) by sep.
    pose proof (at_app C pc [Lea gp2 (Ad RSP d1)] _ A) as [A1 A2]. cbn [length] in A2. change (Z.of_nat 1) with 1 in A2.
    apply (wp_block _ _ _ _ _ A1). cbn [length]. change (Z.of_nat 1) with 1. eapply k_lea; [eapply ea_ad; [exact Gs|sep|reflexivity]|]. intros g1 K1 L1. cbn [wps].
    st A2 F1. eapply (c_mod C c mx T t (pc + 1) g1 X f m lo z (lo + d1) x1 Q); [gr|gr|exact L1|exact HT|exact TU|exact Hst|mz 0%nat|exact Ft|exact At|exact F1|im|sep|].
    intros g2 X2 f2 m2 K2 L2 C2 R2 XK2. mv sep C2.
    pose proof (at_app C (pc + 1 + 1) [Lea gp2 (Ad RSP d0); X64.Add (R gp1) (Im 32)] _ A2) as [A3 A4]. clear A2. cbn [length] in A4. change (Z.of_nat 2) with 2 in A4.
    apply (wp_block _ _ _ _ _ A3). cbn [length]. change (Z.of_nat 2) with 2. eapply k_lea; [eapply (ea_ad _ _ _ lo); [gr|sep|reflexivity]|]. intros g3 K3 L3.
    eapply k_addx with (a := z); [gr|apply rd_imm; sep|sep|]. intros g4' f4 K4 L4. cbn [wps].
    st A4 Fc. let MM := mT in eapply (c_mod C c mx T t (pc + 1 + 1 + 2) g4' X2 f4 m2 lo (z + 32) (lo + d0) x0 Q); [gr|exact L4|gr|exact MM|exact TU|exact Hst|mz 4%nat|exact Ft|exact At|exact Fc|im|sep|].
    intros g5 X5 f5 m5 K5 L5 C5 R5 XK5. mv sep C5.
    apply (wp_block _ _ _ _ _ A4). cbn [length]. change (Z.of_nat 1) with 1.
    eapply k_addx with (a := lo); [gr|apply rd_imm; sep|sep|]. intros g6 f6 K6 L6. cbn [wps].
    replace (pc + 1 + 1 + 2 + 1 + 1) with (pc + 6) by (clear; lia).
    eapply H; [kp|exact L6| |chw ltac:(fun Hw => clear -Hw; lia)|im|im].
    unfold xk in *. clear -XK2 XK5. intuition congruence.
  Qed.
End Mod2.

(** ** Fp2::mul and Fp2::square: the subroutines *)
Section Mul.
  Ltac ni ::= nic.
  Ltac kp ::= kpc.
  Variables (C : code) (c : cfg) (il mx : bool) (T pc : Z).
  Variables (g : regs) (X : xregs) (f : flags) (m : memory) (lo z a b xa xb ya yb : Z) (Q : Z -> state -> Prop).
  Hypothesis HM : has C L_FpDbl_mod (p_FpDbl_mod mx T (cpp c)).
  Hypothesis HT : modulus c m T.
  Hypothesis Gz : getr g gp1 = z.
  Hypothesis Ga : getr g gp2 = a.
  Hypothesis Hz : mapped m z 8.
  Hypothesis Xa : int_at m a 4 xa.
  Hypothesis Xb : int_at m (a + 32) 4 xb.
  Lemma w_Fp2_mul : at_ C pc (Fp2_mul il mx T) -> getr g RSP = lo + 256 -> getr g gp3 = b -> int_at m b 4 ya -> int_at m (b + 32) 4 yb -> mapped m (lo - 8) 33 ->
    (8 <= lo /\ lo + 256 < B) /\ (0 <= a /\ a + 64 <= B) /\ (0 <= b /\ b + 64 <= B) /\ (0 <= T /\ T + 32 <= B) /\ (0 <= z /\ z + 64 <= B) /\
    (a + 64 <= lo - 8 \/ lo + 256 <= a) /\ (b + 64 <= lo - 8 \/ lo + 256 <= b) /\ (T + 32 <= lo - 8 \/ lo + 256 <= T) /\ (z + 64 <= lo - 8 \/ lo + 256 <= z) /\ (z + 64 <= T \/ T + 32 <= z) ->
    (forall g' X' f' m', keep (gp2 :: gall) g g' -> xk X X' -> chg [(lo - 8, 264); (z, 64)] m m' ->
      int_at m' z 4 (a2 (f2_mul c (mk2 xa xb) (mk2 ya yb))) -> int_at m' (z + 32) 4 (b2 (f2_mul c (mk2 xa xb) (mk2 ya yb))) -> 
      wp C (pc + Z.of_nat (length (Fp2_mul il mx T))) (mkSt g' X' f' m') Q) ->
    wp C pc (mkSt g X f m) Q.
  Proof.
    intros A Gs Gb Ya Yb Hst SEP H. unfold Fp2_mul in A, H. rewrite app_length, Nat2Z.inj_add, Z.add_assoc in H. destruct (at_app _ _ _ _ A) as [A1 A2]. apply (wp_block _ _ _ _ _ A1).
    rewrite <- (app_nil_r (mul_calc _ _ _)) at 1.
    eapply (m_mul_calc c il mx T [] g X f m _ lo a b xa xb ya yb); [exact HT|exact Gs|exact Ga|exact Gb| |exact Xa|exact Xb|exact Ya|exact Yb|clear -SEP; lia|].
    { refine (mapped_at _ _ _ _ _ Hst 1 _ _); [clear; lia|apply Nat.leb_le; reflexivity]. }
    intros g1 f1 m1 K1 L1 C1 I1 I0. cbn [wps]. set (pc1 := pc + Z.of_nat (length (mul_calc il mx T))) in *. clearbody pc1.
    mv ltac:(clear -SEP; lia) C1.
    eapply (w_mod2 C c mx T pc1 128 64 256 g1 X f1 m1 lo z); [exact HM|exact A2|exact L1|gr|assumption|apply (mapped_at _ _ _ _ _ Hst 0); [clear; lia|apply Nat.leb_le; reflexivity]|exact Hz|im|im|clear -SEP; lia|].
    intros g2 X2 f2 m2 K2 L2 XK C2 R1 R2. apply H; [|exact XK|chw ltac:(fun Hw => clear -Hw; lia)|exact R1|exact R2].
    apply (keep_drop RSP); [kp|rewrite L2, Gs; reflexivity].
  Qed.
  Lemma w_Fp2_square : at_ C pc (Fp2_square il mx (snark c) T) -> getr g RSP = lo + 160 -> mapped m (lo - 8) 21 ->
    (8 <= lo /\ lo + 160 < B) /\ (0 <= a /\ a + 64 <= B) /\ (0 <= T /\ T + 32 <= B) /\ (0 <= z /\ z + 64 <= B) /\
    (a + 64 <= lo - 8 \/ lo + 160 <= a) /\ (T + 32 <= lo - 8 \/ lo + 160 <= T) /\ (z + 64 <= lo - 8 \/ lo + 160 <= z) /\ (z + 64 <= T \/ T + 32 <= z) /\
    (z = a \/ z + 64 <= a \/ a + 64 <= z) ->
    (forall g' X' f' m', keep (gp2 :: gall) g g' -> xk X X' -> chg [(lo - 8, 168); (z, 64)] m m' ->
      int_at m' z 4 (a2 (f2_square c (mk2 xa xb))) -> int_at m' (z + 32) 4 (b2 (f2_square c (mk2 xa xb))) -> 
      wp C (pc + Z.of_nat (length (Fp2_square il mx (snark c) T))) (mkSt g' X' f' m') Q) ->
    wp C pc (mkSt g X f m) Q.
  Proof.
    intros A Gs Hst SEP H. unfold Fp2_square in A, H. rewrite app_length, Nat2Z.inj_add, Z.add_assoc in H. destruct (at_app _ _ _ _ A) as [A1 A2]. apply (wp_block _ _ _ _ _ A1).
    rewrite <- (app_nil_r (square_calc _ _ _ _)) at 1.
    eapply (m_square_calc c il mx T [] g X f m _ lo z a xa xb); [exact HT|exact Gs|exact Gz|exact Ga| | |exact Xa|exact Xb|clear -SEP; lia|].
    { refine (mapped_at _ _ _ _ _ Hst 1 _ _); [clear; lia|apply Nat.leb_le; reflexivity]. }
    { refine (mapped_at _ _ _ _ _ Hz 0 _ _); [clear; lia|apply Nat.leb_le; reflexivity]. }
    intros g1 f1 m1 K1 L1 C1 I1 I0. cbn [wps]. set (pc1 := pc + Z.of_nat (length (square_calc il mx (snark c) T))) in *. clearbody pc1.
    mv ltac:(clear -SEP; lia) C1.
    eapply (w_mod2 C c mx T pc1 96 32 160 g1 X f1 m1 lo z); [exact HM|exact A2|exact L1|gr|assumption|apply (mapped_at _ _ _ _ _ Hst 0); [clear; lia|apply Nat.leb_le; reflexivity]|exact Hz|im|im|clear -SEP; lia|].
    intros g2 X2 f2 m2 K2 L2 XK C2 R1 R2. apply H; [|exact XK|chw ltac:(fun Hw => clear -Hw; lia)|exact R1|exact R2].
    apply (keep_drop RSP); [kp|rewrite L2, Gs; reflexivity].
  Qed.
End Mul.

(** ** A function whose frame calls a subroutine that stands behind it *)
Lemma call_gen C gtn l sub dd (k : nat) L o n s (Post : memory -> Prop) : 5 <= gtn <= 10 -> 0 <= dd -> Z.of_nat k = gtn - 3 + dd ->
  at_ C 0 (frame gtn 0 [Call l]) -> has C l ([Lab l] ++ sub ++ [Ret]) -> called C s -> stack k s -> place k s o n -> inb RSP L = false ->
  forallb (fun r => if inb r L then inb r (saved gtn) else true) preserved = true ->
  (forall pc g1 f1 m1 (Q : Z -> state -> Prop), at_ C pc sub -> keep [RSP; R9] (rg s) g1 -> getr g1 RSP = rsp (rg s) - 8 * (gtn - 3) -> getr g1 R9 = rdx (rg s) ->
    chg [(rsp (rg s) - 8 * (gtn - 3), 8 * (gtn - 3))] (mem s) m1 ->
    (forall g2 X2 f2 m2, keep L g1 g2 -> chg [(o, 8 * Z.of_nat n); (rsp (rg s) - 8 * Z.of_nat k, 8 * dd)] m1 m2 -> Post m2 -> wp C (pc + Z.of_nat (length sub)) (mkSt g2 X2 f2 m2) Q) ->
    wp C pc (mkSt g1 (xm s) f1 m1) Q) ->
  calls C s (fun s' => Post (mem s') /\ only k o n s s').
Proof.
  intros Hg Hd Hk A0 (t & Ft & At) Hc Hst Ho HL HS H.
  pose proof (proj1 Ho) as [Ho1 Ho2]. pose proof (proj2 Ho) as Ho3. unfold apart in Ho3. destruct Hst as [S1 S2]. pose proof (proj2 Hc) as [B1 B2].
  apply (frame0 C [Call l] gtn (1 + dd) k L o n s Post Hg ltac:(lia) ltac:(lia) A0 Hc (conj S1 S2) Ho HL HS).
  change (getr (rg s) RSP) with (rsp (rg s)). intros pc g1 f1 m1 Q A K1 G1 G9 C1 HQ.
  apply (call_wpg C pc l t sub g1 (xm s) f1 m1 (rsp (rg s) - 8 * (gtn - 4)) L [(o, 8 * Z.of_nat n); (rsp (rg s) - 8 * Z.of_nat k, 8 * dd)] (fun _ _ => Post) Q).
  - exact (proj1 (at_cons _ _ _ _ A)).
  - exact Ft.
  - exact At.
  - exact G1.
  - lia.
  - lia.
  - assert (M : mapped m1 (rsp (rg s) - 8 * Z.of_nat k) k) by exact (chg_mapped _ _ _ _ _ C1 S2). apply mapped_avail in M.
    destruct (M dd ltac:(lia)) as [v Ev]. exists v. rewrite <- Ev. f_equal. lia.
  - exact HL.
  - constructor; [|constructor; [|constructor]]; unfold clear_of; cbn [fst snd]; lia.
  - intros g2 m2 Q' A' K2 G2 C2 HQ'. apply (H (t + 1) g2 f1 m2 Q'); [exact A'| |lia|rewrite (K2 R9 eq_refl); exact G9| |exact HQ'].
    + refine (keep_incl _ _ _ _ _ (keep_trans _ _ _ _ _ K1 K2)). intros r. cbn. tauto.
    + refine (chg_sub _ _ _ _ _ (chg_trans _ _ _ _ _ C1 C2)). intros b Hb. apply off1 in Hb. apply off2. lia.
  - intros g3 X3 f3 m3 K3 C3 HP. change (Z.of_nat (length [Call l])) with 1 in HQ. apply (HQ g3 X3 f3 m3); [exact K3| |exact HP].
    refine (chg_sub _ _ _ _ _ C3). intros b Hb. apply off2 in Hb. apply Forall_cons; [unfold off; cbn [fst snd]; lia|]. apply off2. lia.
Qed.
