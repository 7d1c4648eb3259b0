(** The generated field functions that use no stack frame, and FpDbl::addNC. *)
From Coq Require Import ZArith List Bool Lia.
From Verif Require Import Base Prim Primes FpSpec Cfg FpM X64 XLog JitSpec JitFpSpec XTac XReg JitFp JitMac JitMac2 JitZmApi JitFrame JitRep JitFpApi.
Import ListNotations.
Local Open Scope Z_scope.

(** the return at the end of a function without a frame *)
Section Leaf.
  Variables (C : code) (L : list reg) (o : Z) (n : nat) (s : state) (Post : memory -> Prop).
  Hypothesis Hc : called C s.
  Hypothesis Hp : place 0 s o n.
  Hypothesis HL : inb RSP L = false.
  Hypothesis HS : forallb (fun r => negb (inb r L)) preserved = true.
  Lemma leaf_ret : (forall Q : Z -> state -> Prop,
      (forall pc g2 X2 f2 m2, fetch C pc = Some Ret -> keep L (rg s) g2 -> chg [(o, 8 * Z.of_nat n)] (mem s) m2 -> Post m2 -> wp C pc (mkSt g2 X2 f2 m2) Q) ->
      wp C 0 s Q) -> calls C s (fun s' => Post (mem s') /\ only 0 o n s s').
  Proof using All.
    intros H. destruct Hc as [[t [Em Ht]] [A1 A2]]. destruct Hp as [[P1 P2] P3]. unfold apart in P3. change (8 * Z.of_nat 0) with 0 in P3. change (8 * Z.of_nat 1) with 8 in P3, A2. rewrite Z.sub_0_r in P3.
    unfold preserved in HS. cbn [forallb] in HS. rewrite !andb_true_iff, !negb_true_iff in HS. destruct HS as (S1 & S2 & S3 & S4 & S5 & S6 & _).
    apply (calls_wp C s _ (fun t' s' => returned s t' s' /\ Post (mem s') /\ only 0 o n s s')); [|tauto].
    apply H. intros pc g2 X2 f2 m2 F K Ch HP.
    assert (Er : rsp g2 = rsp (rg s)) by exact (K RSP HL).
    assert (Em2 : m2 (rsp g2) = Some t).
    { rewrite Er. rewrite (proj1 Ch); [exact Em|]. apply off1. lia. }
    eapply wp_ret; [exact F|exact Em2|]. cbn [rg xm fl mem]. rewrite Er. rewrite Z.mod_small by lia.
    exists 1%nat, t. eexists. split; [cbn [run]; rewrite Ht; reflexivity|]. cbn [rg mem]. split; [|split; [exact HP|]].
    - split; [exact Em|]. split; [destruct g2; reflexivity|]. 
      pose proof (K RBX S1) as E1. pose proof (K RBP S2) as E2. pose proof (K R12 S3) as E3. pose proof (K R13 S4) as E4. pose proof (K R14 S5) as E5. pose proof (K R15 S6) as E6.
      destruct g2. unfold callee_saved. cbn in *. tauto.
    - unfold only. cbn [mem]. intros b B1 _. apply (proj1 Ch). apply off1. lia.
  Qed.
End Leaf.
Lemma leaf body L o n s (Post : memory -> Prop) : called (body ++ [Ret]) s -> place 0 s o n -> inb RSP L = false -> forallb (fun r => negb (inb r L)) preserved = true ->
  (forall Q : state -> Prop, (forall g2 X2 f2 m2, keep L (rg s) g2 -> chg [(o, 8 * Z.of_nat n)] (mem s) m2 -> Post m2 -> Q (mkSt g2 X2 f2 m2)) -> wps body s Q) ->
  calls (body ++ [Ret]) s (fun s' => Post (mem s') /\ only 0 o n s s').
Proof.
  intros Hc Hp HL HS H. apply (leaf_ret _ L); try assumption. intros Q HQ.
  destruct (at_app _ _ _ _ (at_self (body ++ [Ret]))) as [A1 A2]. apply (wp_block _ _ _ _ _ A1).
  apply H. intros g2 X2 f2 m2 K Ch HP. apply HQ; [exact (proj1 (at_cons _ _ _ _ A2))|exact K|exact Ch|exact HP].
Qed.
Lemma p0_int s a n x m1 : place 0 s a n -> chg [] (mem s) m1 -> int_at (mem s) a n x -> int_at m1 a n x.
Proof. intros _ C H. refine (int_at_chg _ _ _ _ _ _ C _ H). constructor. Qed.

Section NC.
  Variables (c : cfg) (il : bool) (T : Z) (s : state).
  Notation g := (rg s).
  (** addNC, [n] components; subNC *)
  Section Rep.
  Variables (n : nat) (xs ys : Z -> Z).
  Notation N := (4 * n)%nat.
  Lemma Fp_addNC_api : place 0 s (rdi g) N -> place 0 s (rsi g) N -> place 0 s (rdx g) N ->
    same_or_apart (rdi g) (rsi g) N -> same_or_apart (rdi g) (rdx g) N ->
    (forall i, 0 <= i < Z.of_nat n -> int_at (mem s) (rsi g + 32 * i) 4 (xs i)) ->
    (forall i, 0 <= i < Z.of_nat n -> int_at (mem s) (rdx g + 32 * i) 4 (ys i)) ->
    mapped (mem s) (rdi g) N ->
    called (make_Fp_addNC il n) s -> calls (make_Fp_addNC il n) s (fun s' =>
    (forall i, 0 <= i < Z.of_nat n -> int_at (mem s') (rdi g + 32 * i) 4 (fp_addNC (xs i) (ys i))) /\ only 0 (rdi g) N s s').
  Proof.
    intros Ho Hx Hy Ox Oy Ix Iy Mo Hc.
    apply (leaf (rep n 0 (fun i => load_add_rm il RAX R9 R10 R11 (Ad RSI (32 * i)) (Ad RDX (32 * i)) false ++ store_mr (Ad RDI (32 * i)) RAX R9 R10 R11))
      [RAX; R9; R10; R11] (rdi g) N s (fun m => forall i, 0 <= i < Z.of_nat n -> int_at m (rdi g + 32 * i) 4 (fp_addNC (xs i) (ys i))) Hc Ho eq_refl eq_refl).
    intros Q H. pose proof (proj1 Ho) as [Ho1 Ho2]. pose proof (proj1 Hx) as [Hx1 Hx2]. pose proof (proj1 Hy) as [Hy1 Hy2].
    rewrite <- (app_nil_r (rep _ _ _)).
    apply soa_ovn in Ox. apply soa_ovn in Oy. replace (8 * Z.of_nat N) with (8 * Z.of_nat 4 * Z.of_nat n) in Ox, Oy by lia.
    destruct s as [g0 X0 f0 m0] eqn:Es. cbn [rg mem] in *.
    eapply (rep_gen 4 (fun z x y => load_add_rm il RAX R9 R10 R11 x y false ++ store_mr z RAX R9 R10 R11) fp_addNC [RAX; R9; R10; R11] (fun _ => True) (fun _ => True) (fun _ => True)) with
      (ZA := fun i => Ad RDI (32 * i)) (XA := fun i => Ad RSI (32 * i)) (YA := fun i => Ad RDX (32 * i))
      (z := rdi g0) (a := rsi g0) (b := rdx g0) (xs := xs) (ys := ys) (n := n) (g0 := g0) (m0 := m0).
    - reflexivity.
    - change (8 * Z.of_nat 4) with 32. intros k1 g1 X f m Q0 ZZ A A' z a a' x y _ _ _ H4 H5 H6 H7 H8 H9 _ _ H12. rewrite <- app_assoc.
      eapply m_load_add; [reflexivity|apply (isat_sub [RAX; R9; R10; R11] _ _ _ _ 32); [intros r Hr; right; exact Hr|lia|exact H5]|exact H6|exact H8|exact H9|].
      intros g2 f2 K2 L2 _. eapply m_store; [apply (isat_keep _ _ _ _ _ _ _ K2); exact H4|exact H7|exact L2|].
      intros m2 C2 L3. apply H12; [exact K2|exact C2|exact L3].
    - trivial.
    - trivial.
    - exact Ox.
    - exact Oy.
    - trivial.
    - intros i Hi. change (8 * Z.of_nat 4) with 32 in *. apply (isat_ad _ _ _ _ (rdi g0)); [reflexivity|reflexivity|lia|lia|lia].
    - intros i Hi. change (8 * Z.of_nat 4) with 32 in *. apply (isat_ad _ _ _ _ (rsi g0)); [reflexivity|reflexivity|lia|lia|lia].
    - intros i Hi. change (8 * Z.of_nat 4) with 32 in *. apply (isat_ad _ _ _ _ (rdx g0)); [reflexivity|reflexivity|lia|lia|lia].
    - lia.
    - lia.
    - exact I.
    - exact I.
    - apply (keep_incl [] _); [intros r []|apply keep_refl].
    - intros j Hj. exact (mapped_sub _ _ N j 4 n Mo eq_refl Hj).
    - intros j Hj. exact (Ix j Hj).
    - intros j Hj. exact (Iy j Hj).
    - intros j Hj. lia.
    - apply (chg_sub []); [intros; constructor|apply chg_refl].
    - intros g' f' m' K' C' R'. cbn [wps]. apply H.
      + exact K'.
      + replace (8 * Z.of_nat N) with (8 * Z.of_nat 4 * Z.of_nat n) by lia. exact C'.
      + exact R'.
  Qed.
  End Rep.
  Variables (x y : Z).
  Lemma Fp_subNC_api : place 0 s (rdi g) 4 -> place 0 s (rsi g) 4 -> place 0 s (rdx g) 4 ->
    int_at (mem s) (rsi g) 4 x -> int_at (mem s) (rdx g) 4 y -> mapped (mem s) (rdi g) 4 ->
    called (make_Fp_subNC il) s -> calls (make_Fp_subNC il) s (fun s' => int_at (mem s') (rdi g) 4 (fp_subNC x y) /\ only 0 (rdi g) 4 s s').
  Proof.
    intros Ho Hx Hy Ix Iy Mo. unfold make_Fp_subNC. rewrite app_assoc. intros Hc.
    apply (leaf _ [RSI; R9; R10; R11] (rdi g) 4 s (fun m => int_at m (rdi g) 4 (fp_subNC x y)) Hc Ho eq_refl eq_refl).
    intros Q H. pose proof (proj1 Ho) as [Ho1 Ho2]. pose proof (proj1 Hx) as [Hx1 Hx2]. pose proof (proj1 Hy) as [Hy1 Hy2]. change (8 * Z.of_nat 4) with 32 in *.
    destruct s as [g0 X0 f0 m0] eqn:Es. cbn [rg mem] in *.
    eapply m_load_sub; [reflexivity|apply (isat_ad _ _ _ _ (rsi g0)); [reflexivity|reflexivity|apply Z.add_0_r|lia|lia]|apply (isat_ad _ _ _ _ (rdx g0)); [reflexivity|reflexivity|apply Z.add_0_r|lia|lia]|exact Ix|exact Iy|].
    intros g2 f2 K2 L2 _. rewrite <- (app_nil_r (store_mr _ _ _ _ _)).
    eapply m_store; [apply (isat_keep _ _ _ _ _ _ _ K2); apply (isat_ad _ _ _ _ (rdi g0)); [reflexivity|reflexivity|apply Z.add_0_r|lia|lia]|exact Mo|exact L2|].
    intros m2 C2 L3. cbn [wps]. apply H; [exact K2|exact C2|exact L3].
  Qed.
  Lemma lor4_0 x0 x1 x2 x3 : isU x0 -> isU x1 -> isU x2 -> isU x3 -> (Z.lor (Z.lor (Z.lor x0 x1) x2) x3 =? 0) = (lv [x0; x1; x2; x3] =? 0).
  Proof.
    intros U0 U1 U2 U3. unfold isU in *. pose proof B_pos. apply Bool.eq_iff_eq_true. rewrite !Z.eqb_eq, !Z.lor_eq_0_iff. cbn [lv]. split.
    - intros [[[-> ->] ->] ->]. ring.
    - intros E. assert (x0 = 0 /\ x1 + B * (x2 + B * (x3 + B * 0)) = 0) as [E0 E1] by nia.
      assert (x1 = 0 /\ x2 + B * (x3 + B * 0) = 0) as [E2 E3] by nia. assert (x2 = 0 /\ x3 = 0) as [E4 E5] by nia. auto.
  Qed.
  Lemma Fp_neg_api : place 0 s (rdi g) 4 -> place 0 s (rsi g) 4 -> table c 0 s T ->
    int_at (mem s) (rsi g) 4 x -> mapped (mem s) (rdi g) 4 ->
    called (make_Fp_neg il T) s -> calls (make_Fp_neg il T) s (fun s' => int_at (mem s') (rdi g) 4 (fp_neg c x) /\ only 0 (rdi g) 4 s s').
  Proof.
    intros Ho Hx [HT Ht] Ix Mo Hc. pose proof (proj1 Ht) as [Ht1 Ht2].
    apply (leaf_ret _ [RAX; R8; R9; R10; R11] (rdi g) 4 s (fun m => int_at m (rdi g) 4 (fp_neg c x)) Hc Ho eq_refl eq_refl).
    intros Q H. pose proof (proj1 Ho) as [Ho1 Ho2]. pose proof (proj1 Hx) as [Hx1 Hx2]. change (8 * Z.of_nat 4) with 32 in *.
    assert (TU : 0 <= T < B) by lia.
    destruct s as [g0 X0 f0 m0] eqn:Es. cbn [rg mem] in *.
    set (C := make_Fp_neg il T) in *.
    assert (SP : exists pre mid, pre = load_rm R8 R9 R10 R11 (Ad RSI 0) ++ [Mov (R RAX) (R R11); Or (R RAX) (R R10); Or (R RAX) (R R9); Or (R RAX) (R R8)] /\
      mid = [Mov (R RAX) (Im T)] ++ load_sub_rm il R8 R9 R10 R11 (Ad RAX 0) (Ad RSI 0) false /\
      C = pre ++ Jcc CZ 1 :: mid ++ Lab 1 :: store_mr (Ad RDI 0) R8 R9 R10 R11 ++ [Ret]).
    { eexists. eexists. split; [reflexivity|]. split; [reflexivity|]. unfold C, make_Fp_neg. rewrite <- !app_assoc. reflexivity. }
    destruct SP as (pre & mid & Ep & Emi & EC).
    destruct (at_app _ _ pre _ (eq_ind C (at_ C 0) (at_self C) _ EC)) as [A1 A2]. destruct (at_cons _ _ _ _ A2) as [A3 A4].
    destruct (at_app _ _ mid _ A4) as [A5 A6].
    assert (F1 : find C 1 0 = Some (0 + Z.of_nat (length pre) + 1 + Z.of_nat (length mid))) by (rewrite Ep, Emi; unfold C; destruct il; reflexivity).
    apply (wp_block _ _ pre _ _ A1). rewrite Ep. 
    eapply m_load; [reflexivity|apply (isat_ad _ _ _ _ (rsi g0)); [reflexivity|reflexivity|apply Z.add_0_r|lia|lia]|exact Ix|].
    intros g1 K1 L1. destruct (reg4 _ _ _ _ _ _ L1) as (x0 & x1 & x2 & x3 & U0 & U1 & U2 & U3 & G0 & G1 & G2 & G3 & V).
    eapply k_mov; [apply rd_reg; exact G0|]. intros g2 K2 R2.
    eapply k_or; [exact R2|apply rd_reg; rewrite (K2 R10 eq_refl); exact G1|]. intros g3 f3 K3 R3 _.
    eapply k_or; [exact R3|apply rd_reg; rewrite (K3 R9 eq_refl), (K2 R9 eq_refl); exact G2|]. intros g4 f4 K4 R4 _.
    eapply k_or; [exact R4|apply rd_reg; rewrite (K4 R8 eq_refl), (K3 R8 eq_refl), (K2 R8 eq_refl); exact G3|]. intros g5 f5 K5 R5 Z5.
    assert (K15 : keep [RAX] g1 g5).
    { refine (keep_idem _ _ _ _ K2 (keep_idem _ _ _ _ K3 (keep_idem _ _ _ _ K4 K5))). }
    assert (K05 : keep [RAX; R8; R9; R10; R11] g0 g5).
    { refine (keep_incl _ _ _ _ _ (keep_trans _ _ _ _ _ K1 K15)). intros r. cbn. tauto. }
    assert (L5 : regn g5 [R11; R10; R9; R8] x) by (refine (regn_keep _ _ _ _ _ K15 _ L1); reflexivity).
    rewrite lor4_0, V in Z5 by assumption. cbn [wps]. rewrite <- Ep.
    assert (FIN : forall g6 f6, keep [RAX; R8; R9; R10; R11] g0 g6 -> regn g6 [R11; R10; R9; R8] (fp_neg c x) ->
      wp C (0 + Z.of_nat (length pre) + 1 + Z.of_nat (length mid)) (mkSt g6 X0 f6 m0) Q).
    { intros g6 f6 K6 L6. destruct (at_cons _ _ _ _ A6) as [A7 A8]. eapply wp_ex; [exact A7|reflexivity|].
      destruct (at_app _ _ _ _ A8) as [A9 A10]. apply (wp_block _ _ _ _ _ A9). rewrite <- (app_nil_r (store_mr _ _ _ _ _)).
      eapply m_store; [apply (isat_keep _ _ _ _ _ _ _ K6); apply (isat_ad _ _ _ _ (rdi g0)); [reflexivity|reflexivity|apply Z.add_0_r|lia|lia]|exact Mo|exact L6|].
      intros m7 C7 L7. cbn [wps]. rewrite app_nil_r. apply H; [exact (proj1 (at_cons _ _ _ _ A10))|exact K6|exact C7|exact L7]. }
    eapply wp_jcc; [exact A3|exact F1|cbn [holds fl]; exact Z5| |].
    - intros E. apply FIN; [exact K05|]. unfold fp_neg. rewrite E. apply Z.eqb_eq in E. rewrite <- E. exact L5.
    - intros E. apply (wp_block _ _ mid _ _ A5). rewrite Emi. cbn [app]. eapply k_mov; [apply rd_imm; exact TU|]. intros g6 K6 R6.
      rewrite <- (app_nil_r (load_sub_rm _ _ _ _ _ _ _ _)).
      assert (G5 : getr g6 RSI = rsi g0) by (rewrite (K6 RSI eq_refl), (K05 RSI eq_refl); reflexivity).
      eapply m_load_sub; [reflexivity|apply (isat_ad _ _ _ _ T); [reflexivity|exact R6|apply Z.add_0_r|lia|lia]|apply (isat_ad _ _ _ _ (rsi g0)); [reflexivity|exact G5|apply Z.add_0_r|lia|lia]|exact HT|exact Ix|].
      intros g7 f7 K7 L7 _. cbn [wps]. rewrite app_nil_r. change (Mov (R RAX) (Im T) :: load_sub_rm il R8 R9 R10 R11 (Ad RAX 0) (Ad RSI 0) false) with ([Mov (R RAX) (Im T)] ++ load_sub_rm il R8 R9 R10 R11 (Ad RAX 0) (Ad RSI 0) false).
      rewrite <- Emi. apply FIN.
      + refine (keep_incl _ _ _ _ _ (keep_trans _ _ _ _ _ K05 (keep_trans _ _ _ _ _ K6 K7))). intros r. cbn. tauto.
      + unfold fp_neg. rewrite E. exact L7.
  Qed.
End NC.

(** ** shr *)
Lemma shrd_val q r a b : 0 < q -> 0 < r -> 0 <= a < q * r -> 0 <= b -> ((a + q * r * b) / q) mod (q * r) = a / q + r * (b mod q).
Proof.
  intros Hq Hr Ha Hb. replace (a + q * r * b) with (a + r * b * q) by ring. rewrite Z.div_add by lia.
  assert (E : b = q * (b / q) + b mod q) by (apply Z.div_mod; lia). assert (Hm : 0 <= b mod q < q) by (apply Z.mod_pos_bound; lia).
  assert (Ha2 : 0 <= a / q < r) by (split; [apply Z.div_pos; lia|apply Z.div_lt_upper_bound; lia]).
  replace (a / q + r * b) with (a / q + r * (b mod q) + (b / q) * (q * r)).
  - rewrite Z.mod_add by nia. apply Z.mod_small. nia.
  - rewrite E at 3. ring.
Qed.
Lemma shr_val n x0 x1 x2 x3 : 0 < n < 64 -> isU x0 -> isU x1 -> isU x2 -> isU x3 ->
  let y0 := (x0 + B * x1) / 2 ^ n mod B in let y1 := (x1 + B * x2) / 2 ^ n mod B in let y2 := (x2 + B * x3) / 2 ^ n mod B in let y3 := x3 / 2 ^ n in
  isU y0 /\ isU y1 /\ isU y2 /\ isU y3 /\ lv [y0; y1; y2; y3] = lv [x0; x1; x2; x3] / 2 ^ n.
Proof.
  intros Hn U0 U1 U2 U3 y0 y1 y2 y3. pose proof B_pos as HB.
  assert (Hq : 0 < 2 ^ n) by (apply Z.pow_pos_nonneg; lia). assert (Hr : 0 < 2 ^ (64 - n)) by (apply Z.pow_pos_nonneg; lia).
  assert (EB : B = 2 ^ n * 2 ^ (64 - n)) by (rewrite <- Z.pow_add_r by lia; replace (n + (64 - n)) with 64 by lia; reflexivity).
  split; [apply Z.mod_pos_bound; exact HB|]. split; [apply Z.mod_pos_bound; exact HB|]. split; [apply Z.mod_pos_bound; exact HB|].
  unfold isU in *. split.
  { unfold y3. split; [apply Z.div_pos; lia|]. apply Z.div_lt_upper_bound; [exact Hq|]. clear -U3 Hq HB. nia. }
  assert (E0 : y0 = x0 / 2 ^ n + 2 ^ (64 - n) * (x1 mod 2 ^ n)) by (unfold y0; rewrite EB in *; apply shrd_val; lia).
  assert (E1 : y1 = x1 / 2 ^ n + 2 ^ (64 - n) * (x2 mod 2 ^ n)) by (unfold y1; rewrite EB in *; apply shrd_val; lia).
  assert (E2 : y2 = x2 / 2 ^ n + 2 ^ (64 - n) * (x3 mod 2 ^ n)) by (unfold y2; rewrite EB in *; apply shrd_val; lia).
  cbn [lv]. rewrite E0, E1, E2. unfold y3. clear y0 y1 y2 y3 E0 E1 E2.
  set (q := 2 ^ n) in *. set (r := 2 ^ (64 - n)) in *. clearbody q r.
  pose proof (Z.div_mod x0 q ltac:(lia)) as D0. pose proof (Z.div_mod x1 q ltac:(lia)) as D1. pose proof (Z.div_mod x2 q ltac:(lia)) as D2. pose proof (Z.div_mod x3 q ltac:(lia)) as D3.
  pose proof (Z.mod_pos_bound x0 q Hq) as M0.
  apply (Z.div_unique _ _ _ (x0 mod q)); [left; exact M0|].
  rewrite D0 at 1. rewrite D1 at 1. rewrite D2 at 1. rewrite D3 at 1. 
  generalize dependent (x0 / q). generalize dependent (x1 / q). generalize dependent (x2 / q). generalize dependent (x3 / q).
  generalize dependent (x0 mod q). generalize (x1 mod q) (x2 mod q) (x3 mod q). intros. rewrite EB. ring.
Qed.
Lemma Fp_shr_api n s x : let g := rg s in 0 < n < 64 -> place 0 s (rdi g) 4 -> place 0 s (rsi g) 4 ->
  int_at (mem s) (rsi g) 4 x -> mapped (mem s) (rdi g) 4 ->
  called (make_Fp_shr n) s -> calls (make_Fp_shr n) s (fun s' => int_at (mem s') (rdi g) 4 (x / 2 ^ n) /\ only 0 (rdi g) 4 s s').
Proof.
  intros g Hn Ho Hx Ix Mo. unfold g in *. clear g. unfold make_Fp_shr. rewrite !app_assoc. intros Hc.
  apply (leaf _ [R8; R9; R10; R11] (rdi (rg s)) 4 s (fun m => int_at m (rdi (rg s)) 4 (x / 2 ^ n)) Hc Ho eq_refl eq_refl).
  intros Q H. pose proof (proj1 Ho) as [Ho1 Ho2]. pose proof (proj1 Hx) as [Hx1 Hx2]. change (8 * Z.of_nat 4) with 32 in *.
  destruct s as [g0 X0 f0 m0] eqn:Es. cbn [rg mem] in *. rewrite <- !app_assoc.
  eapply m_load; [reflexivity|apply (isat_ad _ _ _ _ (rsi g0)); [reflexivity|reflexivity|apply Z.add_0_r|lia|lia]|exact Ix|].
  intros g1 K1 L1. destruct (reg4 _ _ _ _ _ _ L1) as (x0 & x1 & x2 & x3 & U0 & U1 & U2 & U3 & G0 & G1 & G2 & G3 & V).
  unfold shrn. cbn [app].
  eapply k_shrd; [exact G0|exact G1|]. intros g2 f2 K2 R2.
  eapply k_shrd; [rewrite (K2 R10 eq_refl); exact G1|rewrite (K2 R9 eq_refl); exact G2|]. intros g3 f3 K3 R3.
  eapply k_shrd; [rewrite (K3 R9 eq_refl), (K2 R9 eq_refl); exact G2|rewrite (K3 R8 eq_refl), (K2 R8 eq_refl); exact G3|]. intros g4 f4 K4 R4.
  eapply k_shr; [rewrite (K4 R8 eq_refl), (K3 R8 eq_refl), (K2 R8 eq_refl); exact G3|]. intros g5 f5 K5 R5.
  destruct (shr_val n x0 x1 x2 x3 Hn U0 U1 U2 U3) as (Y0 & Y1 & Y2 & Y3 & E).
  assert (K05 : keep [R8; R9; R10; R11] g0 g5).
  { refine (keep_incl _ _ _ _ _ (keep_trans _ _ _ _ _ K1 (keep_trans _ _ _ _ _ K2 (keep_trans _ _ _ _ _ K3 (keep_trans _ _ _ _ _ K4 K5))))). intros r. cbn. tauto. }
  change ([Mov (M (plus (Ad RDI 0) 0)) (R R11); Mov (M (plus (Ad RDI 0) 8)) (R R10); Mov (M (plus (Ad RDI 0) 16)) (R R9); Mov (M (plus (Ad RDI 0) 24)) (R R8)]) with (store_mr (Ad RDI 0) R8 R9 R10 R11).
  rewrite <- (app_nil_r (store_mr _ _ _ _ _)).
  eapply m_store; [apply (isat_keep _ _ _ _ _ _ _ K05); apply (isat_ad _ _ _ _ (rdi g0)); [reflexivity|reflexivity|apply Z.add_0_r|lia|lia]|exact Mo| |].
  - refine (reg4_mk _ _ _ _ _ _ _ _ _ _ Y0 Y1 Y2 Y3 _ _ _ _ E).
    + rewrite (K5 R11 eq_refl), (K4 R11 eq_refl), (K3 R11 eq_refl). exact R2.
    + rewrite (K5 R10 eq_refl), (K4 R10 eq_refl). exact R3.
    + rewrite (K5 R9 eq_refl). exact R4.
    + exact R5.
  - intros m6 C6 L6. cbn [wps]. rewrite V in L6. apply H; [exact K05|exact C6|exact L6].
Qed.

(** ** FpDbl::addNC: one call of the subroutine per component, the pointers advanced in between *)
Notation gc := [gt4; gt3; gt2; gt1; gp1; gp2; gp3].
Section Step.
  Variables (C : code) (il : bool) (t pc d : Z).
  Hypothesis Ft : find C L_FpDbl_addNC 0 = Some t.
  Hypothesis At : at_ C t (p_FpDbl_addNC il).
  Hypothesis Ap : at_ C pc (smart_set_gp (Ad gp1 d) (Ad gp2 d) (Ad gp3 d) ++ [Call L_FpDbl_addNC]).
  Lemma addNC_step g X f m sp z a b x y (Q : Z -> state -> Prop) :
    getr g RSP = sp -> 0 <= sp - 8 -> sp < B -> (exists v, m (sp - 8) = Some v) ->
    getr g gp1 + d = z -> getr g gp2 + d = a -> getr g gp3 + d = b ->
    0 <= z /\ z + 64 <= B -> 0 <= a /\ a + 64 <= B -> 0 <= b /\ b + 64 <= B ->
    clear_of (sp - 8) 8 (z, 64) -> clear_of (sp - 8) 8 (a, 64) -> clear_of (sp - 8) 8 (b, 64) ->
    mapped m z 8 -> int_at m a 8 x -> int_at m b 8 y -> ov64 z a -> ov64 z b ->
    (forall g3 X3 f3 m3, keep gc g g3 -> getr g3 gp1 = z -> getr g3 gp2 = a -> getr g3 gp3 = b ->
      chg [(sp - 8, 8); (z, 64)] m m3 -> int_at m3 z 8 (dbl_addNC x y) -> wp C (pc + 4) (mkSt g3 X3 f3 m3) Q) ->
    wp C pc (mkSt g X f m) Q.
  Proof using All.
    intros Gs S1 S2 S3 Gz Ga Gb Bz Ba Bb Oz Oa Ob Mz Ix Iy Ova Ovb H.
    destruct (at_app _ _ _ _ Ap) as [A1 A2]. apply (wp_block _ _ _ _ _ A1). unfold smart_set_gp.
    change (aeqb (Ad gp2 d) (Ad gp1 d)) with false. change (aeqb (Ad gp3 d) (Ad gp1 d)) with false. change (aeqb (Ad gp3 d) (Ad gp2 d)) with false.
    eapply k_lea; [eapply ea_ad; [reflexivity|rewrite Gz; lia|exact Gz]|]. intros g1 K1 R1.
    eapply k_lea; [eapply ea_ad; [rewrite (K1 gp2 eq_refl); reflexivity|rewrite Ga; lia|exact Ga]|]. intros g2 K2 R2.
    eapply k_lea; [eapply ea_ad; [rewrite (K2 gp3 eq_refl), (K1 gp3 eq_refl); reflexivity|rewrite Gb; lia|exact Gb]|]. intros g3 K3 R3.
    cbn [wps length]. 
    assert (E1 : getr g3 gp1 = z) by (rewrite (K3 gp1 eq_refl), (K2 gp1 eq_refl); exact R1).
    assert (E2 : getr g3 gp2 = a) by (rewrite (K3 gp2 eq_refl); exact R2).
    assert (K03 : keep gc g g3).
    { refine (keep_incl _ _ _ _ _ (keep_trans _ _ _ _ _ K1 (keep_trans _ _ _ _ _ K2 K3))). intros r. cbn. tauto. }
    eapply (call_wp C _ L_FpDbl_addNC t (in_Fp_addNC il (Ad gp1 0) (Ad gp2 0) (Ad gp3 0) ++ in_Fp_adcNC il (Ad gp1 32) (Ad gp2 32) (Ad gp3 32)) g3 X f m sp
      [gt4; gt3; gt2; gt1] [(z, 64)] (fun m => int_at m z 8 (dbl_addNC x y)) Q).
    - exact (proj1 (at_cons _ _ _ _ A2)).
    - exact Ft.
    - unfold p_FpDbl_addNC in At. rewrite <- app_assoc. exact At.
    - rewrite (K03 RSP eq_refl). exact Gs.
    - exact S1.
    - exact S2.
    - exact S3.
    - reflexivity.
    - constructor; [exact Oz|constructor].
    - intros g4 m4 Q' K4 G4 C4 HQ. rewrite <- (app_nil_r (_ ++ _)), <- app_assoc.
      eapply (m_Dbl_addNC il [] g4 X f m4 Q' (Ad gp1 0) (Ad gp2 0) (Ad gp3 0) z a b x y).
      + exact (chg_mapped _ _ _ _ _ C4 Mz).
      + refine (int_at_chg _ _ _ _ _ _ C4 _ Ix). constructor; [|constructor]. unfold clear_of in *. cbn [fst snd] in *. change (8 * Z.of_nat 8) with 64. lia.
      + refine (int_at_chg _ _ _ _ _ _ C4 _ Iy). constructor; [|constructor]. unfold clear_of in *. cbn [fst snd] in *. change (8 * Z.of_nat 8) with 64. lia.
      + exact Ova.
      + exact Ovb.
      + apply (isat_ad _ _ _ _ z); [reflexivity|rewrite (K4 gp1 eq_refl); exact E1|apply Z.add_0_r|lia|lia].
      + apply (isat_ad _ _ _ _ a); [reflexivity|rewrite (K4 gp2 eq_refl); exact E2|apply Z.add_0_r|lia|lia].
      + apply (isat_ad _ _ _ _ b); [reflexivity|rewrite (K4 gp3 eq_refl); exact R3|apply Z.add_0_r|lia|lia].
      + apply (isat_ad _ _ _ _ z); [reflexivity|rewrite (K4 gp1 eq_refl); exact E1|reflexivity|lia|lia].
      + apply (isat_ad _ _ _ _ a); [reflexivity|rewrite (K4 gp2 eq_refl); exact E2|reflexivity|lia|lia].
      + apply (isat_ad _ _ _ _ b); [reflexivity|rewrite (K4 gp3 eq_refl); exact R3|reflexivity|lia|lia].
      + intros g5 f5 m5 K5 C5 L5. cbn [wps]. apply HQ; [exact K5|exact C5|exact L5].
    - intros g5 X5 f5 m5 K5 C5 L5. rewrite <- Z.add_assoc. change (Z.of_nat 3 + 1) with 4. apply H.
      + refine (keep_incl _ _ _ _ _ (keep_trans _ _ _ _ _ K03 K5)). intros r. cbn. tauto.
      + rewrite (K5 gp1 eq_refl). exact E1.
      + rewrite (K5 gp2 eq_refl). exact E2.
      + rewrite (K5 gp3 eq_refl). exact R3.
      + exact C5.
      + exact L5.
  Qed.
End Step.
Section DblAddNC.
  Variables (il : bool) (n : nat) (s : state) (xs ys : Z -> Z).
  Notation g := (rg s).
  Notation N := (8 * n)%nat.
  Hypothesis Hn : n = 1%nat \/ n = 2%nat.
  Hypothesis Hst : stack 4 s.
  Hypothesis Ho : place 4 s (rdi g) N.
  Hypothesis Hx : place 4 s (rsi g) N.
  Hypothesis Hy : place 4 s (rdx g) N.
  Hypothesis Ox : same_or_apart (rdi g) (rsi g) N.
  Hypothesis Oy : same_or_apart (rdi g) (rdx g) N.
  Hypothesis Ix : forall i, 0 <= i < Z.of_nat n -> int_at (mem s) (rsi g + 64 * i) 8 (xs i).
  Hypothesis Iy : forall i, 0 <= i < Z.of_nat n -> int_at (mem s) (rdx g + 64 * i) 8 (ys i).
  Hypothesis Mo : mapped (mem s) (rdi g) N.
  Let body := rep n 0 (fun i => smart_set_gp (Ad gp1 (64 * i)) (Ad gp2 (64 * i)) (Ad gp3 (64 * i)) ++ [Call L_FpDbl_addNC]).
  Lemma Dbl_addNC_api : called (make_FpDbl_addNC il n) s -> calls (make_FpDbl_addNC il n) s (fun s' =>
    (forall i, 0 <= i < Z.of_nat n -> int_at (mem s') (rdi g + 64 * i) 8 (dbl_addNC (xs i) (ys i))) /\ only 4 (rdi g) N s s').
  Proof using All.
    intros Hc. set (C := make_FpDbl_addNC il n) in *. assert (EC : C = frame 7 0 body ++ p_FpDbl_addNC il) by reflexivity.
    destruct (at_app C 0 (frame 7 0 body) (p_FpDbl_addNC il) (eq_ind C (at_ C 0) (at_self C) _ EC)) as [A1 A2].
    assert (Ft : find C L_FpDbl_addNC 0 = Some (0 + Z.of_nat (length (frame 7 0 body)))).
    { rewrite EC. unfold p_FpDbl_addNC. apply find_app. unfold body. destruct Hn as [-> | ->]; reflexivity. }
    pose proof (proj1 Ho) as [Ho1 Ho2]. pose proof (proj2 Ho) as Ho3. pose proof (proj1 Hx) as [Hx1 Hx2]. pose proof (proj2 Hx) as Hx3. pose proof (proj1 Hy) as [Hy1 Hy2]. pose proof (proj2 Hy) as Hy3.
    unfold apart in Ho3, Hx3, Hy3. destruct Hst as [S1 S2]. pose proof (proj2 Hc) as [B1 B2].
    apply (frame0 C body 7 1 4 gc (rdi g) N s (fun m => forall i, 0 <= i < Z.of_nat n -> int_at m (rdi g + 64 * i) 8 (dbl_addNC (xs i) (ys i))) ltac:(lia) ltac:(lia) eq_refl A1 Hc Hst Ho eq_refl eq_refl).
    change (getr g RSP) with (rsp g). intros pc g1 f1 m1 Q A K1 G1 G9 C1 HQ.
    assert (Gd : getr g1 gp1 = rdi g) by (rewrite (K1 gp1 eq_refl); reflexivity).
    assert (Gs : getr g1 gp2 = rsi g) by (rewrite (K1 gp2 eq_refl); reflexivity).
    set (sp := rsp g - 8 * (7 - 4)) in *.
    assert (Msp : forall m, chg [(sp, 8 * (7 - 4))] (mem s) m -> exists v, m (sp - 8) = Some v).
    { intros m Cm. pose proof (chg_mapped _ _ _ _ _ Cm S2) as M. destruct M as [M _]. unfold sp. replace (rsp g - 8 * (7 - 4) - 8) with (rsp g - 8 * Z.of_nat 4) by lia. exact M. }
    assert (C1' : chg [(rsp g - 8 * Z.of_nat 3, 8 * Z.of_nat 3)] (mem s) m1) by exact C1.
    assert (I1 : forall i, 0 <= i < Z.of_nat n -> int_at m1 (rsi g + 64 * i) 8 (xs i)).
    { intros i Hi. refine (pro_sub 4 3 _ _ _ _ _ _ _ Hx ltac:(lia) _ _ C1' (Ix i Hi)); lia. }
    assert (I2 : forall i, 0 <= i < Z.of_nat n -> int_at m1 (rdx g + 64 * i) 8 (ys i)).
    { intros i Hi. refine (pro_sub 4 3 _ _ _ _ _ _ _ Hy ltac:(lia) _ _ C1' (Iy i Hi)); lia. }
    assert (M1 : forall i, 0 <= i < Z.of_nat n -> mapped m1 (rdi g + 64 * i) 8).
    { intros i Hi. refine (chg_mapped _ _ _ _ _ C1 _). exact (mapped_sub _ _ N i 8 n Mo eq_refl Hi). }
    unfold same_or_apart, apart in Ox, Oy.
    destruct Hn as [En|En].
    - subst n. unfold body in A, HQ. cbn [rep] in A, HQ. change (64 * 0) with 0 in A, HQ. rewrite app_nil_r in A. change (8 * Z.of_nat (8 * 1)) with 64 in *.
      eapply (addNC_step C il _ pc 0 Ft A2 A g1 _ f1 m1 sp (rdi g) (rsi g) (rdx g) (xs 0) (ys 0)).
      + exact G1.
      + unfold sp. lia.
      + unfold sp. lia.
      + exact (Msp m1 C1).
      + rewrite Gd. apply Z.add_0_r.
      + rewrite Gs. apply Z.add_0_r.
      + rewrite G9. apply Z.add_0_r.
      + lia.
      + lia.
      + lia.
      + unfold clear_of, sp. cbn [fst snd]. lia.
      + unfold clear_of, sp. cbn [fst snd]. lia.
      + unfold clear_of, sp. cbn [fst snd]. lia.
      + rewrite <- (Z.add_0_r (rdi g)). apply (M1 0). lia.
      + rewrite <- (Z.add_0_r (rsi g)). apply (I1 0). lia.
      + rewrite <- (Z.add_0_r (rdx g)). apply (I2 0). lia.
      + exact Ox.
      + exact Oy.
      + intros g3 X3 f3 m3 K3 _ _ _ C3 L3. apply HQ; [exact K3| |].
        * refine (chg_sub _ _ _ _ _ C3). intros b Hb. apply off2 in Hb. apply off2. lia.
        * intros i Hi. assert (i = 0) as -> by lia. change (64 * 0) with 0. rewrite Z.add_0_r. exact L3.
    - subst n. unfold body in A, HQ. cbn [rep] in A, HQ. change (64 * 0) with 0 in A, HQ. change (64 * (0 + 1)) with 64 in A, HQ. rewrite app_nil_r in A, HQ. change (8 * Z.of_nat (8 * 2)) with 128 in *.
      destruct (at_app _ _ _ _ A) as [A3 A4]. change (Z.of_nat (length (smart_set_gp (Ad gp1 0) (Ad gp2 0) (Ad gp3 0) ++ [Call L_FpDbl_addNC]))) with 4 in A4.
      change (Z.of_nat (length ((smart_set_gp (Ad gp1 0) (Ad gp2 0) (Ad gp3 0) ++ [Call L_FpDbl_addNC]) ++ smart_set_gp (Ad gp1 64) (Ad gp2 64) (Ad gp3 64) ++ [Call L_FpDbl_addNC]))) with 8 in HQ.
      eapply (addNC_step C il _ pc 0 Ft A2 A3 g1 _ f1 m1 sp (rdi g) (rsi g) (rdx g) (xs 0) (ys 0)).
      + exact G1.
      + unfold sp. lia.
      + unfold sp. lia.
      + exact (Msp m1 C1).
      + rewrite Gd. apply Z.add_0_r.
      + rewrite Gs. apply Z.add_0_r.
      + rewrite G9. apply Z.add_0_r.
      + lia.
      + lia.
      + lia.
      + unfold clear_of, sp. cbn [fst snd]. lia.
      + unfold clear_of, sp. cbn [fst snd]. lia.
      + unfold clear_of, sp. cbn [fst snd]. lia.
      + rewrite <- (Z.add_0_r (rdi g)). apply (M1 0). lia.
      + rewrite <- (Z.add_0_r (rsi g)). apply (I1 0). lia.
      + rewrite <- (Z.add_0_r (rdx g)). apply (I2 0). lia.
      + unfold ov64. lia.
      + unfold ov64. lia.
      + intros g3 X3 f3 m3 K3 E1 E2 E3 C3 L3.
        eapply (addNC_step C il _ (pc + 4) 64 Ft A2 A4 g3 _ f3 m3 sp (rdi g + 64) (rsi g + 64) (rdx g + 64) (xs 1) (ys 1)).
        * rewrite (K3 RSP eq_refl). exact G1.
        * unfold sp. lia.
        * unfold sp. lia.
        * destruct (Msp m1 C1) as [v Ev]. exact (proj2 C3 _ _ Ev).
        * rewrite E1. reflexivity.
        * rewrite E2. reflexivity.
        * rewrite E3. reflexivity.
        * lia.
        * lia.
        * lia.
        * unfold clear_of, sp. cbn [fst snd]. lia.
        * unfold clear_of, sp. cbn [fst snd]. lia.
        * unfold clear_of, sp. cbn [fst snd]. lia.
        * refine (chg_mapped _ _ _ _ _ C3 _). apply (M1 1). lia.
        * refine (int_at_chg _ _ _ _ _ _ C3 _ (I1 1 _)); [|lia]. constructor; [|constructor; [|constructor]]; unfold clear_of, sp; cbn [fst snd]; lia.
        * refine (int_at_chg _ _ _ _ _ _ C3 _ (I2 1 _)); [|lia]. constructor; [|constructor; [|constructor]]; unfold clear_of, sp; cbn [fst snd]; lia.
        * unfold ov64. lia.
        * unfold ov64. lia.
        * intros g5 X5 f5 m5 K5 _ _ _ C5 L5. rewrite <- Z.add_assoc. apply HQ.
          -- exact (keep_idem _ _ _ _ K3 K5).
          -- refine (chg_sub _ _ _ _ _ (chg_trans _ _ _ _ _ C3 C5)). intros b Hb. apply off2 in Hb.
             apply Forall_app. split; apply off2; lia.
          -- intros i Hi. assert (i = 0 \/ i = 1) as [-> | ->] by lia.
             ++ change (64 * 0) with 0. rewrite Z.add_0_r. refine (int_at_chg _ _ _ _ _ _ C5 _ L3). constructor; [|constructor; [|constructor]]; unfold clear_of, sp; cbn [fst snd]; lia.
             ++ exact L5.
  Qed.
End DblAddNC.
