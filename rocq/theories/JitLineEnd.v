(** The generated doubling step: what a call computes, in the field; an example of a call. *)
From Coq Require Import ZArith List Bool Lia.
From Verif Require Import X64 XLog JitSpec JitFpSpec XTac XReg JitFp JitMac JitMac2 JitFpApi JitFpEnd JitFp2 JitFp2Spec JitFp2Api2 JitFp2End JitFp6Spec JitFp6 JitFp6Sub JitFp6Api JitFp12Api JitFp6End JitLineSpec JitLine JitLineApi.
From Verif Require Import Base Prim Vuint Primes FpSpec Cfg FpM FpProofs TowerSpec TowerField TowerM Fp2Proofs Fp6Proofs Frob ParamM ParamProofs FinalM TowerApi Poly EcSpec EcM EcProofs EcInst EcFrob EcApi PairM PairProofs PairBil PairLin PairApi PairObj PairLine JitTangentSpec.
Import ListNotations.
Local Open Scope Z_scope.
Local Notation mem := X64.mem.
Local Notation length := List.length.

Lemma can0 c : can c 0.
Proof. unfold can. pose proof (cp_pos c). lia. Qed.
Section E.
  Variables (c : cfg) (il mx : bool) (T NT HF BI : Z) (s : state) (P : param).
  Hypothesis HI : paramInit (snark c) (curveOf c) = Ok P.
  Notation g := (rg s).
  Variables (R : F3 (F2 Z)) (X Y Z : K2 c) (x y : K2 c).
  Hypotheses (HR : repR c R (mk3 X Y Z)) (HA : hom (K2F c) (mk3 X Y Z) = @EAff (K2F c) x y) (HC : on_curve (K2F c) (cb2 c) (@EAff (K2F c) x y)) (Hy : y <> rz).
  Lemma leavesL_mono C k (l r : F3 (F2 BinNums.Z)) (Q : F3 (F2 BinNums.Z) -> F3 (F2 BinNums.Z) -> Prop) : calls C s (fun s' => six 4 (mem s') (rdi g) l /\ six 4 (mem s') (rsi g) r /\ only2 k (rdi g) 24 (rsi g) 24 s s') -> Q l r ->
    calls C s (leavesL k Q s).
  Proof. intros H HQ. eapply calls_mono; [exact H|]. intros s' (H1 & H2 & O). split; [exists l, r; split; [exact H1|split; [exact H2|exact HQ]]|exact O]. Qed.
  Local Notation mk wop := (make_pointDblLineEval il mx (snark c) T (cpp c) HF NT (cb c) BI wop).
  Hypothesis HB : snark c = true -> cb c <> 82%Z -> const2 136 s BI (par_binvxi P).
  Lemma R_in : inL c P R.
  Proof. clear -HR HI. destruct HR as (H1 & H2 & H3). destruct (ok_binvxi c P (param_par_ok c P HI)) as (w & H4 & _). split; [exact (rep_in2 _ _ _ H1)|]. split; [exact (rep_in2 _ _ _ H2)|]. split; [exact (rep_in2 _ _ _ H3)|exact (rep_in2 _ _ _ H4)]. Qed.
  Lemma dblLine_end xc yc (xp yp : FpR (cp c)) : callL (mk false) 136 s -> operL 136 8 s -> constsL c 136 s T NT HF -> six 4 (mem s) (rsi g) R ->
    int_at (mem s) (rdx g) 4 xc -> int_at (mem s) (rdx g + 32) 4 yc -> rep1 c xc xp -> rep1 c yc yp ->
    calls (mk false) s (leavesL 136 (fun l r => (exists lv, rep6 c l lv /\ tangent c x y xp yp lv) /\ doubled c x y r) s).
  Proof.
    intros H1 H2 H3 H4 I1 I2 R1 R2. apply (leavesL_mono _ 136 _ _ _ (dblLine_api c il mx T NT HF BI P s R HB xc yc H1 H2 H3 R_in H4 I1 I2)).
    destruct (dblLine_ok c P (param_par_ok c P HI) R X Y Z x y xc yc xp yp HR HA HC Hy R1 R2) as (lc & lv & k & l & E1 & E2 & E3 & E4 & E5 & E6).
    split; [|exact E6]. exists lv. split; [rewrite E1; exact E2|]. exists k, l. split; [exact E3|]. split; [exact E4|exact E5].
  Qed.
  Lemma dblLineWP_end : callL (mk true) 136 s -> constsL c 136 s T NT HF -> six 4 (mem s) (rsi g) R ->
    calls (mk true) s (leavesL 136 (fun l r => (forall xc yc (xp yp : FpR (cp c)), rep1 c xc xp -> rep1 c yc yp -> exists lv, rep6 c (mulFp6_24 c l xc yc) lv /\ tangent c x y xp yp lv) /\ doubled c x y r) s).
  Proof.
    intros H1 H3 H4. apply (leavesL_mono _ 136 _ _ _ (dblLineWP_api c il mx T NT HF BI P s R HB H1 H3 R_in H4)).
    assert (F : forall xc yc, fst (dblLine c P R xc yc) = mulFp6_24 c (fst (dblLineWP c P R)) xc yc /\ snd (dblLine c P R xc yc) = snd (dblLineWP c P R)) by (intros; unfold dblLine; destruct (dblLineWP c P R); split; reflexivity).
    split.
    - intros xc yc xp yp R1 R2. destruct (dblLine_ok c P (param_par_ok c P HI) R X Y Z x y xc yc xp yp HR HA HC Hy R1 R2) as (lc & lv & k & l & E1 & E2 & E3 & E4 & E5 & _).
      exists lv. split; [rewrite <- (proj1 (F xc yc)), E1; exact E2|]. exists k, l. split; [exact E3|]. split; [exact E4|exact E5].
    - destruct (dblLine_ok c P (param_par_ok c P HI) R X Y Z x y 0 0 (fv c 0) (fv c 0) HR HA HC Hy (conj (can0 c) eq_refl) (conj (can0 c) eq_refl)) as (lc & lv & k & l & _ & _ & _ & _ & _ & E6). rewrite <- (proj2 (F 0 0)). exact E6.
  Qed.
End E.

(** the generators of the test-suite as points of the Miller loop *)
Section Wit.
  Variable c : cfg.
  Add Ring KRe : (rth (K2 c)).
  Lemma one_mul_ (x : K2 c) : x = rmul x (rmul ro ro). Proof. ring. Qed.
  Lemma one_mul3_ (x : K2 c) : x = rmul x (rmul (rmul ro ro) ro). Proof. ring. Qed.
  Lemma mul_1_ (x : K2 c) : rmul x ro = x. Proof. ring. Qed.
  Lemma wit_aux (R : F3 fp2) (x y : K2 c) : rep2 c (a3 R) x -> rep2 c (b3 R) y -> rep2 c (c3 R) ro -> y <> rz -> on_curve (K2F c) (cb2 c) (ptP G2 c R) ->
    exists X Y Z (x y : K2 c), repR c R (mk3 X Y Z) /\ hom (K2F c) (mk3 X Y Z) = @EAff (K2F c) x y /\ on_curve (K2F c) (cb2 c) (@EAff (K2F c) x y) /\ y <> rz.
  Proof.
    intros Rx Ry R1 Hy HC. rewrite (ptP_def2 c R x y ro Rx Ry R1) in HC.
    assert (J : jac (K2F c) (mk3 (x : K2F c) y ro) = @EAff (K2F c) x y) by (rewrite (one_mul_ x) at 1; rewrite (one_mul3_ y) at 1; exact (jac_aff (K2F c) x y ro (field_nz _ (K2_field c)))).
    pose proof (eq_ind _ (on_curve (K2F c) (cb2 c)) HC _ J) as HC1. clear HC. rename HC1 into HC.
    destruct (hom_aff (K2F c) x y ro (field_nz _ (K2_field c))) as (x' & y' & E & EX & EY).
    exists x, y, ro, x', y'. split; [exact (conj Rx (conj Ry R1))|]. split; [exact E|].
    assert (Ex : x = x') by (transitivity (rmul (x' : K2 c) ro); [exact EX|apply mul_1_]). assert (Ey : y = y') by (transitivity (rmul (y' : K2 c) ro); [exact EY|apply mul_1_]).
    rewrite <- Ex, <- Ey. split; [exact HC|exact Hy].
  Qed.
End Wit.
Definition gen2y (c : cfg) : BinNums.Z := match c with BNb => 13891744915211034074451795021214165905772212241412891944830863846330766296736 | SNARK1 => 644888581738283025171396578091639672120333224302184904896215738366765861164 | SNARK2 => 13523979532236795535820810482891703536907572704519492618036353386190612673074 end.
Lemma wit_gen c : exists X Y Z (x y : K2 c), repR c (gen2 c) (mk3 X Y Z) /\ hom (K2F c) (mk3 X Y Z) = @EAff (K2F c) x y /\ on_curve (K2F c) (cb2 c) (@EAff (K2F c) x y) /\ y <> rz.
Proof.
  pose proof (gen_on G2 c) as HO. unfold onE in HO. rewrite gb2 in HO. change (gen G2 c) with (gen2 c) in HO.
  assert (RR : forall a b, rep2 c (mk2 (rr c a) (rr c b)) (mk2 (mk (cp c) a) (mk (cp c) b))).
  { intros a b. apply rep2_can2. split; [split; apply can_rr|]. unfold f2v. cbn [a2 b2]. rewrite !fv_rr. reflexivity. }
  assert (E : exists a b d, gen2 c = mk3 (mk2 (rr c a) (rr c b)) (mk2 (rr c (gen2y c)) (rr c d)) (f2_1 c)) by (destruct c; do 3 eexists; reflexivity).
  destruct E as (a & b & d & E). rewrite E in *. clear E.
  refine (wit_aux c (mk3 (mk2 (rr c a) (rr c b)) (mk2 (rr c (gen2y c)) (rr c d)) (f2_1 c)) (mk2 (mk (cp c) a) (mk (cp c) b)) (mk2 (mk (cp c) (gen2y c)) (mk (cp c) d)) (RR a b) (RR (gen2y c) d) (f2_1_rep_ c) _ HO).
  intros F. apply (f_equal a2) in F. cbn [a2] in F. change (mk (cp c) (gen2y c) = mk (cp c) 0) in F. apply mk_eq in F. clear -F. destruct c; vm_compute in F; discriminate F.
Qed.
Definition ex_BI : BinNums.Z := 8256.
Lemma exL_some c il mx P : paramInit (snark c) (curveOf c) = Ok P -> exists R X Y Z (x y : K2 c) xc yc (xp yp : FpR (cp c)),
  repR c R (mk3 X Y Z) /\ hom (K2F c) (mk3 X Y Z) = @EAff (K2F c) x y /\ on_curve (K2F c) (cb2 c) (@EAff (K2F c) x y) /\ y <> rz /\ rep1 c xc xp /\ rep1 c yc yp /\
  let s := ex6 c 12288 4096 (l6 R) [xc; yc; a2 (par_binvxi P); b2 (par_binvxi P)] in
  six 4 (mem s) (rsi (rg s)) R /\ int_at (mem s) (rdx (rg s)) 4 xc /\ int_at (mem s) (rdx (rg s) + 32) 4 yc /\ const2 136 s ex_BI (par_binvxi P) /\
  (forall wop, callL (make_pointDblLineEval il mx (snark c) ex_T (cpp c) ex_HF ex_NT (cb c) ex_BI wop) 136 s) /\ operL 136 8 s /\ constsL c 136 s ex_T ex_NT ex_HF.
Proof.
  intros HI. destruct (ok_binvxi c P (param_par_ok c P HI)) as (w & [[B1 _] [B2 _]] & _). set (bv := par_binvxi P) in *. clearbody bv.
  destruct (wit_gen c) as (X & Y & Z & x & y & H1 & H2 & H3 & H4).
  exists (gen2 c), X, Y, Z, x, y, 7, 11, (fv c 7), (fv c 11). split; [exact H1|]. split; [exact H2|]. split; [exact H3|]. split; [exact H4|].
  assert (C7 : can c 7) by (unfold can; split; [discriminate|destruct c; vm_compute; reflexivity]). assert (C11 : can c 11) by (unfold can; split; [discriminate|destruct c; vm_compute; reflexivity]).
  split; [split; [exact C7|reflexivity]|]. split; [split; [exact C11|reflexivity]|]. set (ly := [7; 11; a2 bv; b2 bv]). intros s.
  assert (RX : Forall (fun v => 0 <= v < W) (l6 (gen2 c))) by exact (rep6_W c (gen2 c) _ H1).
  assert (RY : Forall (fun v => 0 <= v < W) ly) by (unfold ly; repeat (constructor; [apply (can_W c); assumption|]); constructor).
  assert (D : 12288 = 4096 \/ 12288 = 12288) by (right; reflexivity). assert (D2 : 4096 = 4096 \/ 4096 = 8192) by (left; reflexivity).
  assert (L1 : (length (l6 (gen2 c)) <= 12)%nat) by (change (length (l6 (gen2 c))) with 6%nat; lia). assert (L2 : (length ly <= 12)%nat) by (cbn; lia).
  split; [sx 4096 0%nat (l6 (gen2 c)) (gen2 c) (ex6_x c 12288 4096 (l6 (gen2 c)) ly RX)|].
  split; [exact (ex6_y c 12288 4096 (l6 (gen2 c)) ly L1 L2 RY 0%nat ltac:(cbn; lia))|]. split; [exact (ex6_y c 12288 4096 (l6 (gen2 c)) ly L1 L2 RY 1%nat ltac:(cbn; lia))|].
  split; [|split; [|split]].
  - split; [split; [exact (ex6_y c 12288 4096 (l6 (gen2 c)) ly L1 L2 RY 2%nat ltac:(cbn; lia))|exact (ex6_y c 12288 4096 (l6 (gen2 c)) ly L1 L2 RY 3%nat ltac:(cbn; lia))]|].
    split; [apply ex6_place; solve [assumption|unfold ex_BI; lia]|]. split; unfold apart, ex_BI; unfold s; cbn [rg rdi rsi rdx ex6]; lia.
  - intros wop. split; [apply ex6_called; try assumption; apply Z.leb_le; destruct c, il, mx, wop; vm_compute; reflexivity|]. split; [apply ex6_stack; solve [assumption|lia]|].
    split; [apply ex6_place; solve [assumption|lia|unfold s; cbn [rg rdi ex6]; lia]|]. split; [apply ex6_place; solve [assumption|lia|unfold s; cbn [rg rsi ex6]; lia]|]. split; [apply ex6_mapped; solve [assumption|lia]|]. unfold apart; unfold s; cbn [rg rdi rsi ex6]; lia.
  - split; [apply ex6_place; solve [assumption|lia|unfold s; cbn [rg rdx ex6]; lia]|]. split; unfold apart; unfold s; cbn [rg rdi rsi rdx ex6]; lia.
  - assert (H : consts c 136 s ex_T ex_NT ex_HF (rdi (rg s)) 24) by (apply ex6_consts; solve [assumption|lia]). split; [exact H|].
    destruct H as (P1 & P2 & _ & P4 & P5 & _ & P7 & P8 & _).
    split; [exact P1|]. split; [exact P2|]. split; [unfold apart, ex_T; unfold s; cbn [rg rsi ex6]; lia|]. split; [exact P4|]. split; [exact P5|]. split; [unfold apart, ex_NT; unfold s; cbn [rg rsi ex6]; lia|]. split; [exact P7|]. split; [exact P8|]. unfold apart, ex_HF; unfold s; cbn [rg rsi ex6]; lia.
Qed.
