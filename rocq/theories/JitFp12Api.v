(** Calls of the generated functions on Fp12. *)
From Coq Require Import ZArith List Bool Lia.
From Verif Require Import X64 XLog JitSpec JitFpSpec XTac XReg JitFp JitMac JitMac2 JitFrame JitRep JitFpApi JitFpApi2 JitFp2 JitFp2Spec JitFp2Mac JitFp2Mac2 JitFp2Api JitFp2Api2 JitSym JitSub JitLib JitFp6Spec JitFp6 JitFp6Sub JitFp6Mul JitTop JitFp6Api.
From Verif Require Import Base Prim Primes FpSpec Cfg FpM TowerSpec TowerM.
Import ListNotations.
Local Open Scope Z_scope.
Local Notation find := X64.find.
Local Notation length := List.length.

Definition sh (o : Z) (fs : list fld) : list fld := map (fun e => (o + fst e, snd e)) fs.
Lemma reads_sh m a o fs vs : reads m (a + o) fs vs <-> reads m a (sh o fs) vs.
Proof.
  split; revert vs; induction fs as [|e fs IH]; intros vs H; inversion H as [|? ? ? ? H1 H2]; subst; constructor; try (apply IH; exact H2); cbn [fst snd] in *.
  - rewrite Z.add_assoc. exact H1.
  - rewrite Z.add_assoc in H1. exact H1.
Qed.
Definition W4x12 : list fld := Eval cbv in W4x6 ++ sh 192 W4x6.
Definition l12 (x : F2 (F3 (F2 Z))) : list Z := l6 (a2 x) ++ l6 (b2 x).
Lemma twelve_reads m a x : twelve m a x -> reads m a W4x12 (l12 x).
Proof. intros [H1 H2]. apply six4_reads in H1. apply six4_reads in H2. apply (proj1 (reads_sh _ _ _ _ _)) in H2. exact (Forall2_app H1 H2). Qed.
Lemma reads_twelve m a x : reads m a W4x12 (l12 x) -> twelve m a x.
Proof.
  intros H. change W4x12 with (W4x6 ++ sh 192 W4x6) in H. unfold l12, reads in H. destruct (Forall2_app_inv_l _ _ H) as (l1 & l2 & H1 & H2 & E).
  assert (EL : length l1 = 6%nat) by exact (reads_len _ _ _ _ H1).
  assert (E1 : l1 = l6 (a2 x)) by (destruct l1 as [|? [|? [|? [|? [|? [|? [|]]]]]]]; try discriminate EL; cbn in E; injection E as E1 E2 E3 E4 E5 E6 _; subst; reflexivity).
  subst l1. apply app_inv_head in E. subst l2. split; apply reads_six4; [exact H1|]. apply reads_sh. exact H2.
Qed.
Lemma l12_inj x y : l12 x = l12 y -> x = y.
Proof.
  unfold l12. intros H. assert (E : l6 (a2 x) = l6 (a2 y) /\ l6 (b2 x) = l6 (b2 y)) by (unfold l6 in *; cbn [app] in H; injection H as -> -> -> -> -> -> -> -> -> -> -> ->; split; reflexivity).
  destruct E as [E1 E2]. apply l6_inj in E1. apply l6_inj in E2. destruct x, y; cbn in *; congruence.
Qed.
Definition m12 (l : list Z) : F2 (F3 (F2 Z)) :=
  match l with [x0; x1; x2; x3; x4; x5; x6; x7; x8; x9; x10; x11] => mk2 (mk3 (mk2 x0 x1) (mk2 x2 x3) (mk2 x4 x5)) (mk3 (mk2 x6 x7) (mk2 x8 x9) (mk2 x10 x11))
  | _ => mk2 (mk3 (mk2 0 0) (mk2 0 0) (mk2 0 0)) (mk3 (mk2 0 0) (mk2 0 0) (mk2 0 0)) end.
Definition m6 (l : list Z) : F3 (F2 Z) :=
  match l with [x0; x1; x2; x3; x4; x5] => mk3 (mk2 x0 x1) (mk2 x2 x3) (mk2 x4 x5) | _ => mk3 (mk2 0 0) (mk2 0 0) (mk2 0 0) end.
Lemma m12_l12 x : m12 (l12 x) = x.
Proof. destruct x as [[[] [] []] [[] [] []]]. reflexivity. Qed.
Lemma m6_l6 x : m6 (l6 x) = x.
Proof. destruct x as [[] [] []]. reflexivity. Qed.
Definition fn1212 (F : F2 (F3 (F2 Z)) -> F2 (F3 (F2 Z)) -> F2 (F3 (F2 Z))) (l : list Z) : list Z := l12 (F (m12 (firstn 12 l)) (m12 (skipn 12 l))).
Definition fn126 (F : F2 (F3 (F2 Z)) -> F3 (F2 Z) -> F2 (F3 (F2 Z))) (l : list Z) : list Z := l12 (F (m12 (firstn 12 l)) (m6 (skipn 12 l))).
Definition fn112 (F : F2 (F3 (F2 Z)) -> F2 (F3 (F2 Z))) (l : list Z) : list Z := l12 (F (m12 l)).
Definition r_12mul F : rout := mkRt 48 48 48 W4x12 W4x12 W4x12 true true gfp6 [] 82 (fn1212 F) tt_ false false.
Definition r_024 F : rout := mkRt 48 48 24 W4x12 W4x6 W4x12 true true gfp6 [] 17 (fn126 F) tt_ false false.
Definition r_12sq F : rout := mkRt 48 48 0 W4x12 [] W4x12 true true gfp6 [] 131 (fn112 F) tt_ false false.
Lemma alias12 (bx by_ : bool) z x y m x6 y6 n : (if bx then x = z else apart z n x n) -> (if by_ then y = z else apart z n y n) ->
  twelve m x x6 -> twelve m y y6 -> bx = true -> by_ = true -> x6 = y6.
Proof. intros H1 H2 S1 S2 -> ->. subst x y. apply l12_inj. exact (reads_fun _ _ _ _ _ (twelve_reads _ _ _ S1) (twelve_reads _ _ _ S2)). Qed.
Ltac lz12 := lazy -[fp_add fp_sub fp_addNC fp_mul dbl_add dbl_sub dbl_addNC dbl_subNC dbl_subOpt1 dbl_mod d2_mulOpt d2_mul_xi f2_mul f2_square d2_square f2_divBy2 f2_mul_xi d6_mul f6_mul f6_add f6_sub f2_add f2_sub f2_addNC f12_mul f12_square f12_mul_024 l12 a2 b2 a3 b3 c3 cp cr cpp snark].

Section Top.
  Variables (c : cfg) (il mx : bool) (T NT HF : Z) (s : state) (x y : F2 (F3 (F2 Z))) (u : F3 (F2 Z)).
  Local Notation g := (rg s).
  Local Notation L := (lib il mx (snark c) T (cpp c) NT).
  Local Notation tabs := (ctabs c T NT HF).
  Ltac trk := repeat (apply Forall_cons; [first [exact I | reflexivity]|]); apply Forall_nil.
  Ltac red12 := cbn [a2 b2 a3 b3 c3].
  Ltac ds6 t := let q := fresh in generalize t; intros q; destruct q as [[? ?] [? ?] [? ?]]; red12.
  Ltac fin12 := ex_; [unfold l12, l6, f12_mul, d6_mod, d2_mod, d6_add, d6_sub, d6_mul_gamma_add, d2_add, d2_sub; cbv zeta; red12;
    repeat lazymatch goal with |- context [f6_add c ?a ?b] => ds6 (f6_add c a b) end;
    repeat lazymatch goal with |- context [d6_mul c ?a ?b] => ds6 (d6_mul c a b) end; 
    repeat lazymatch goal with |- context [d2_mul_xi c ?a] => generalize (d2_mul_xi c a); intros [? ?]; red12 end; reflexivity|reflexivity|..]; discriminate.
  (** ** Fp12_mul *)
  Definition adds (n : nat) (z a b : Z) : list item := map (fun i => i_add8 c il T RSP (z + 64 * Z.of_nat i) RSP (a + 64 * Z.of_nat i) RSP (b + 64 * Z.of_nat i)) (seq 0 n).
  Definition subs_ (n : nat) (z a b : Z) : list item := map (fun i => i_sub8 c il T RSP (z + 64 * Z.of_nat i) RSP (a + 64 * Z.of_nat i) RSP (b + 64 * Z.of_nat i)) (seq 0 n).
  Definition m12a : code :=
    [Mov (M (Ad RSP 2304)) (R gp1); Mov (M (Ad RSP 2312)) (R gp2); Mov (M (Ad RSP 2320)) (R gp3)] ++
    [Lea gp1 (Ad RSP 384)] ++ movq345 ++
    [Mov (R gt9) (M (Ad RSP 2312)); Mov (R gt10) (M (Ad RSP 2320))] ++
    [Lea gp1 (Ad RSP 768); Lea gp2 (Ad gt9 192); Lea gp3 (Ad gt10 192)] ++ movq345 ++
    [Mov (R gt9) (M (Ad RSP 2312))] ++ lea3 (Ad RSP 0) (Ad gt9 0) (Ad gt9 192) L_Fp6_add ++
    [Mov (R gt10) (M (Ad RSP 2320))] ++ lea3 (Ad RSP 192) (Ad gt10 0) (Ad gt10 192) L_Fp6_add ++
    [Lea gp1 (Ad RSP 1536); Lea gp2 (Ad RSP 0); Lea gp3 (Ad RSP 192)] ++ movq345.
  Definition m12b : code := c_Fp2Dbl_mul_xi T (Ad RSP 1536) (Ad RSP 1024).
  Definition m12c : code := rep 12 0 (fun i => [Mov (R gp1) (M (Ad RSP 2304))] ++ (if 0 <? i then [X64.Add (R gp1) (Im (32 * i))] else []) ++
    [Lea gp2 (Ad RSP (1536 + 64 * i)); Call L_FpDbl_mod]).
  Definition m12_items : list item :=
    tr (tb3 c) m12a ++ adds 6 1152 384 768 ++ subs_ 6 1920 1536 1152 ++ tr (tb3 c) m12b ++
    adds 2 1536 1536 384 ++ adds 2 1664 768 512 ++ adds 2 1792 896 640 ++ tr (tb3 c) m12c.
  Lemma flat_adds base n z a b : flat base (adds n z a b) = in_FpDbl_add_n il T n (Ad RSP z) (Ad RSP a) (Ad RSP b).
  Proof.
    unfold adds, in_FpDbl_add_n. change 0 with (Z.of_nat 0) at 1. generalize 0%nat as j. induction n as [|n IH]; intros j; [reflexivity|].
    cbn [seq map rep]. change (flat base (?i :: ?r)) with (flat1 base i ++ flat base r). rewrite IH, Nat2Z.inj_succ. reflexivity.
  Qed.
  Lemma flat_subs base n z a b : flat base (subs_ n z a b) = in_FpDbl_sub_n il T n (Ad RSP z) (Ad RSP a) (Ad RSP b).
  Proof.
    unfold subs_, in_FpDbl_sub_n. change 0 with (Z.of_nat 0) at 1. generalize 0%nat as j. induction n as [|n IH]; intros j; [reflexivity|].
    cbn [seq map rep]. change (flat base (?i :: ?r)) with (flat1 base i ++ flat base r). rewrite IH, Nat2Z.inj_succ. reflexivity.
  Qed.
  Lemma m12_flat base : base RT = T -> flat base m12_items = b_Fp12_mul il T.
  Proof.
    intros E. unfold m12_items. rewrite !flat_app, !flat_adds, flat_subs, !(flat_tr base T (tb3 c) _ E); [|trk..].
    unfold b_Fp12_mul, m12a, m12b, m12c. rewrite <- !app_assoc. reflexivity.
  Qed.
  Lemma m12_ok pre : nolab pre = true -> Forall (aokT (pre ++ L) T tabs) m12_items.
  Proof.
    intros NP. pose proof (tb3_ok c il mx T NT HF pre NP) as TB.
    assert (AD : forall n z a b, Forall (aokT (pre ++ L) T tabs) (adds n z a b)) by (intros; unfold adds; apply Forall_map, Forall_forall; intros; apply ok_add8; reflexivity).
    assert (SD : forall n z a b, Forall (aokT (pre ++ L) T tabs) (subs_ n z a b)) by (intros; unfold subs_; apply Forall_map, Forall_forall; intros; apply ok_sub8; reflexivity).
    unfold m12_items. rewrite !Forall_app. 
    split; [apply tr_ok; exact TB|]. split; [apply AD|]. split; [apply SD|]. split; [apply tr_ok; exact TB|]. split; [apply AD|]. split; [apply AD|]. split; [apply AD|apply tr_ok; exact TB].
  Qed.
  Lemma soa12 k n z a : same_or_apart z a n -> place k s a n -> exists b : bool, place k s a n /\ (if b then a = z else apart z n a n).
  Proof. apply soa. Qed.
  Lemma Fp12_mul_api : call2 (make_Fp12_mul il mx (snark c) T (cpp c) NT) 379 48 48 s -> aliased 48 s -> consts c 379 s T NT HF (rdi g) 48 ->
    twelve (mem s) (rsi g) x -> twelve (mem s) (rdx g) y ->
    calls (make_Fp12_mul il mx (snark c) T (cpp c) NT) s (fun s' => twelve (mem s') (rdi g) (f12_mul c x y) /\ only 379 (rdi g) 48 s s').
  Proof.
    intros (Hc & Hst & Ho & Hx & Hy & Mo) [A1 A2] HT Ix Iy. set (C := make_Fp12_mul il mx (snark c) T (cpp c) NT) in *.
    destruct (soa _ _ _ _ _ A1 Hx) as (bx & HX). destruct (soa _ _ _ _ _ A2 Hy) as (by_ & HY).
    pose proof (alias12 bx by_ _ _ _ _ _ _ 48 (proj2 HX) (proj2 HY) Ix Iy) as AE.
    eapply calls_mono; [refine (top_ok C c T NT HF 10 291 m12_items (b_Fp12_mul il T) gp2 gp3 (r_12mul (f12_mul c)) bx by_ s (l12 x) (l12 y) ltac:(clear; lia) _ m12_flat _ _ eq_refl eq_refl eq_refl eq_refl eq_refl _ (proj1 (at_app C 0 _ _ (at_self C))) Hc Hst Ho Mo (or_intror HX) (or_intror HY) (twelve_reads _ _ _ Ix) (twelve_reads _ _ _ Iy) _ _ HT)|].
    - refine (m12_ok (frame 10 291 (b_Fp12_mul il T)) _). clear. destruct il; vm_compute; reflexivity.
    - intro; discriminate.
    - intro; discriminate.
    - clear -AE. destruct x as [[[] [] []] [[] [] []]], y as [[[] [] []] [[] [] []]]. unfold l12, l6. red12. destruct bx, by_; [injection (AE eq_refl eq_refl); intros; subst|..]; clear AE; lz12; fin12.
    - wid.
    - wid.
    - intros s' [H1 H2]. split; [|exact H2]. cbn [r_z r_fn r_12mul] in H1. apply reads_twelve. revert H1. 
      change (fn1212 (f12_mul c) (l12 x ++ l12 y)) with (l12 (f12_mul c (m12 (l12 x)) (m12 (l12 y)))). rewrite !m12_l12. exact (fun H => H).
  Qed.
  (** ** Fp12Dbl_mul_Fp2_024 *)
  Lemma mul_024_api : call1 (make_Fp12Dbl_mul_Fp2_024 il mx (snark c) T (cpp c) NT) 151 48 24 s -> apart (rdi g) 48 (rsi g) 24 -> consts c 151 s T NT HF (rdi g) 48 ->
    twelve (mem s) (rdi g) x -> six 4 (mem s) (rsi g) u ->
    calls (make_Fp12Dbl_mul_Fp2_024 il mx (snark c) T (cpp c) NT) s (fun s' => twelve (mem s') (rdi g) (f12_mul_024 c x u) /\ only 151 (rdi g) 48 s s').
  Proof.
    intros (Hc & Hst & Ho & Hy & Mo) A1 HT Ix Iy. set (C := make_Fp12Dbl_mul_Fp2_024 il mx (snark c) T (cpp c) NT) in *.
    eapply calls_mono; [refine (top_ok C c T NT HF 10 128 (tr (tb3 c) (b_mul_024 T)) (b_mul_024 T) gp1 gp2 (r_024 (f12_mul_024 c)) true false s (l12 x) (l6 u) ltac:(clear; lia) _ _ _ _ eq_refl eq_refl eq_refl eq_refl eq_refl _ (proj1 (at_app C 0 _ _ (at_self C))) Hc Hst Ho Mo (or_intror (conj Ho eq_refl)) (or_intror (conj Hy A1)) (twelve_reads _ _ _ Ix) (six4_reads _ _ _ Iy) _ _ HT)|].
    - apply tr_ok. exact (tb3_ok c il mx T NT HF (frame 10 128 (b_mul_024 T)) eq_refl).
    - intros base E. apply (flat_tr base T _ _ E). trk.
    - intro; discriminate.
    - intro; discriminate.
    - clear. unfold l12, l6. lz12. (ex_; [|reflexivity|..]); [|discriminate..].
     unfold f12_mul_024, d2_mulOpt2, d2_mod, d2_add, d2_sub; cbv zeta. cbn [a2 b2 a3 b3 c3]. rewrite ?eta3, ?eta2. unfold l12, l6. cbn [a2 b2 a3 b3 c3]. reflexivity.
    - wid.
    - wid.
    - intros s' [H1 H2]. split; [|exact H2]. cbn [r_z r_fn r_024] in H1. apply reads_twelve. revert H1.
      change (fn126 (f12_mul_024 c) (l12 x ++ l6 u)) with (l12 (f12_mul_024 c (m12 (l12 x)) (m6 (l6 u)))). rewrite m12_l12, m6_l6. exact (fun H => H).
  Qed.
  (** ** Fp12_square *)
  Definition i_add4g bz oz bx ox by_ oy := IA (in_Fp_add il (Ad bz oz) (Ad bx ox) (Ad by_ oy)) (AR bz oz) (AR bx ox) (AR by_ oy) (r_fpT (fp_add c)).
  Definition i_sub4g bz oz bx ox by_ oy := IA (in_Fp_sub il (Ad bz oz) (Ad bx ox) (Ad by_ oy)) (AR bz oz) (AR bx ox) (AR by_ oy) (r_fpT (fp_sub c)).
  Definition i_xi oz ox : list item := [IT RAX (RT, 0); i_sub4g RSP oz gt10 ox gt10 (ox + 32); i_add4g RSP (oz + 32) gt10 ox gt10 (ox + 32)].
  Definition sqa : code := [Mov (R gt10) (R gp1); Mov (M (Ad RSP 384)) (R gp1)] ++ lea3 (Ad RSP 0) (Ad gt10 0) (Ad gt10 192) L_Fp6_add.
  Definition mga (mz x y : addr) : code := c_Fp2_add (plus mz 0) (plus mz 0) (plus y 0) ++
    c_Fp2_add (plus mz 64) (plus x 0) (plus y 64) ++ c_Fp2_add (plus mz 128) (plus x 64) (plus y 128).
  Definition sqb : code := mga (Ad RSP 192) (Ad gt10 192) (Ad gt10 0) ++
    [Lea gp1 (Ad gt10 192); Mov (R gp2) (R gp1); Mov (R gp3) (R gt10); Call L_Fp6_mul] ++
    [Mov (R gp1) (M (Ad RSP 384)); Lea gp2 (Ad RSP 0); Lea gp3 (Ad RSP 192); Call L_Fp6_mul] ++ [Mov (R gt10) (M (Ad RSP 384))].
  Definition sqc : code := mga (Ad RSP 192) (Ad gt10 192) (Ad gt10 192) ++
    [Mov (R gt10) (M (Ad RSP 384)); Mov (R gp1) (R gt10); Mov (R gp2) (R gt10); Lea gp3 (Ad RSP 192); Call L_Fp6_sub] ++
    [Lea gp1 (Ad gt10 192); Mov (R gp2) (R gp1); Mov (R gp3) (R gp1); Call L_Fp6_add].
  Definition sq_items : list item := tr (tb3 c) sqa ++ i_xi 192 320 ++ tr (tb3 c) sqb ++ i_xi 192 320 ++ tr (tb3 c) sqc.
  Lemma sq_flat base : base RT = T -> flat base sq_items = b_Fp12_square il mx false T.
  Proof.
    intros E. unfold sq_items. rewrite !flat_app, !(flat_tr base T (tb3 c) _ E); [|trk..].
    unfold b_Fp12_square, mul_gamma_add, sqa, sqb, sqc, mga, in_Fp2_mul_xi. cbn [flat flat_map flat1 i_xi i_sub4g i_add4g fst snd]. rewrite Z.eqb_refl, E, !app_nil_r. rewrite <- !app_assoc. reflexivity.
  Qed.
  Lemma sq_ok pre : nolab pre = true -> Forall (aokT (pre ++ L) T tabs) sq_items.
  Proof.
    intros NP. pose proof (tb3_ok c il mx T NT HF pre NP) as TB.
    assert (XI : forall oz ox, Forall (aokT (pre ++ L) T tabs) (i_xi oz ox)).
    { intros oz ox. unfold i_xi. constructor; [exact I|]. constructor; [apply a_sub4; reflexivity|]. constructor; [apply a_add4; reflexivity|constructor]. }
    unfold sq_items. rewrite !Forall_app. split; [apply tr_ok; exact TB|]. split; [apply XI|]. split; [apply tr_ok; exact TB|]. split; [apply XI|apply tr_ok; exact TB].
  Qed.
  Lemma Fp12_square_api : snark c = false -> called (make_Fp12_square il mx false T (cpp c) NT) s -> stack 186 s -> place 186 s (rdi g) 48 -> mapped (mem s) (rdi g) 48 -> consts c 186 s T NT HF (rdi g) 48 ->
    twelve (mem s) (rdi g) x ->
    calls (make_Fp12_square il mx false T (cpp c) NT) s (fun s' => twelve (mem s') (rdi g) (f12_square c x) /\ only 186 (rdi g) 48 s s').
  Proof.
    intros Es Hc Hst Ho Mo HT Ix. set (C := make_Fp12_square il mx false T (cpp c) NT) in *.
    eapply calls_mono; [refine (top_ok C c T NT HF 10 49 sq_items (b_Fp12_square il mx false T) gp1 gp2 (r_12sq (f12_square c)) true false s (l12 x) [] ltac:(clear; lia) _ sq_flat _ _ eq_refl eq_refl eq_refl eq_refl eq_refl _ (proj1 (at_app C 0 _ _ (at_self C))) Hc Hst Ho Mo (or_intror (conj Ho eq_refl)) (or_introl eq_refl) (twelve_reads _ _ _ Ix) _ _ _ HT)|].
    - pose proof (sq_ok (frame 10 49 (b_Fp12_square il mx false T))) as OK. rewrite Es in OK. apply OK. clear. destruct il; vm_compute; reflexivity.
    - intro; discriminate.
    - intros _. reflexivity.
    - clear -Es. destruct x as [[[] [] []] [[] [] []]]. unfold l12, l6. red12. lz12. ex_; [|reflexivity|discriminate..].
      unfold f12_square, f6_mul_gamma_add. cbv zeta. red12. unfold f2_mul_xi. rewrite Es. red12.
      unfold l12, l6. red12. rewrite ?eta3, ?eta2. reflexivity.
    - constructor.
    - wid.
    - wid.
    - intros s' [H1 H2]. split; [|exact H2]. cbn [r_z r_fn r_12sq] in H1. apply reads_twelve. revert H1.
      change (fn112 (f12_square c) (l12 x ++ [])) with (l12 (f12_square c (m12 (l12 x)))). rewrite m12_l12. exact (fun H => H).
  Qed.
End Top.
