(** The machine code of the doubling step of the Miller loop with the line evaluation
    (src/zm2.cpp, PairingCode::make_pointDblLineEval), instruction by instruction, with all the
    subroutines it calls.  Notions of P_JitFp6.v (memory, constants) and P_Pair.v (C41); JitLineSpec.v:
    [callL C k s]: the state at the call f(l, R, ...), l and R apart; [operL k n s]: the third argument
    is apart from both; [leavesL k Q s s']: the call leaves a line value and a point with the property
    [Q] at l and R and changes nothing else but [k] words below the stack pointer.  JitTangentSpec.v:
    [tangent]: the line value is the tangent at (x, y), evaluated at (xp, yp), up to a factor in Fp2;
    [doubled]: the point is 2 (x, y).  [const2 k s a v]: the constant v of Fp2 (b / xi) stands at a, as
    init puts it there; only the SNARK curves whose b is not 82 read it. *)
From Coq Require Import ZArith List.
From Verif Require Import X64 JitSpec JitFpSpec JitFpEnd JitFp2Spec JitFp2End JitFp6Spec JitFp6Sub JitFp6End JitLineSpec JitLine JitLineEnd.
From Verif Require Import Base FpSpec Cfg FpM FpProofs TowerSpec TowerField TowerM Fp2Proofs Fp6Proofs ParamM FinalM EcSpec EcM EcInst PairM PairProofs PairLine JitTangentSpec.
Import ListNotations.
Local Open Scope Z_scope.
Local Notation mem := X64.mem.

(** pointDblLineEval(l, R, P), R = (X : Y : Z) any homogeneous representative *)
Theorem C41_code_double c il mx T NT HF BI s P R X Y Z (x y : K2 c) xc yc (xp yp : FpR (cp c)) : paramInit (snark c) (curveOf c) = Ok P ->
  repR c R (mk3 X Y Z) -> hom (K2F c) (mk3 X Y Z) = @EAff (K2F c) x y -> on_curve (K2F c) (cb2 c) (@EAff (K2F c) x y) -> y <> rz -> rep1 c xc xp -> rep1 c yc yp ->
  callL (make_pointDblLineEval il mx (snark c) T (cpp c) HF NT (cb c) BI false) 136 s -> operL 136 8 s -> constsL c 136 s T NT HF ->
  (snark c = true -> cb c <> 82 -> const2 136 s BI (par_binvxi P)) ->
  six 4 (mem s) (rsi (rg s)) R -> int_at (mem s) (rdx (rg s)) 4 xc -> int_at (mem s) (rdx (rg s) + 32) 4 yc ->
  calls (make_pointDblLineEval il mx (snark c) T (cpp c) HF NT (cb c) BI false) s
    (leavesL 136 (fun l r => (exists lv, rep6 c l lv /\ tangent c x y xp yp lv) /\ doubled c x y r) s).
Proof.
  intros HI HR HA HC Hy R1 R2 H1 H2 H3 HB H4 I1 I2.
  exact (dblLine_end c il mx T NT HF BI s P HI R X Y Z x y HR HA HC Hy HB xc yc xp yp H1 H2 H3 H4 I1 I2 R1 R2).
Qed.
(** pointDblLineEvalWithoutP(l, R): the coefficients, which [mulFp6_24] (C++) later scales by any P *)
Theorem C41_code_double_without_point c il mx T NT HF BI s P R X Y Z (x y : K2 c) : paramInit (snark c) (curveOf c) = Ok P ->
  repR c R (mk3 X Y Z) -> hom (K2F c) (mk3 X Y Z) = @EAff (K2F c) x y -> on_curve (K2F c) (cb2 c) (@EAff (K2F c) x y) -> y <> rz ->
  callL (make_pointDblLineEval il mx (snark c) T (cpp c) HF NT (cb c) BI true) 136 s -> constsL c 136 s T NT HF ->
  (snark c = true -> cb c <> 82 -> const2 136 s BI (par_binvxi P)) -> six 4 (mem s) (rsi (rg s)) R ->
  calls (make_pointDblLineEval il mx (snark c) T (cpp c) HF NT (cb c) BI true) s
    (leavesL 136 (fun l r => (forall xc yc (xp yp : FpR (cp c)), rep1 c xc xp -> rep1 c yc yp -> exists lv, rep6 c (mulFp6_24 c l xc yc) lv /\ tangent c x y xp yp lv) /\ doubled c x y r) s).
Proof.
  intros HI HR HA HC Hy H1 H3 HB H4.
  exact (dblLineWP_end c il mx T NT HF BI s P HI R X Y Z x y HR HA HC Hy HB H1 H3 H4).
Qed.
(** A state meeting the hypotheses, for each curve: the generator of C51 doubled, evaluated at two numbers. *)
Example C41_code_some c il mx P : paramInit (snark c) (curveOf c) = Ok P -> exists R X Y Z (x y : K2 c) xc yc (xp yp : FpR (cp c)),
  repR c R (mk3 X Y Z) /\ hom (K2F c) (mk3 X Y Z) = @EAff (K2F c) x y /\ on_curve (K2F c) (cb2 c) (@EAff (K2F c) x y) /\ y <> rz /\ rep1 c xc xp /\ rep1 c yc yp /\
  let s := ex6 c 12288 4096 (l6 R) [xc; yc; a2 (par_binvxi P); b2 (par_binvxi P)] in
  six 4 (mem s) (rsi (rg s)) R /\ int_at (mem s) (rdx (rg s)) 4 xc /\ int_at (mem s) (rdx (rg s) + 32) 4 yc /\ const2 136 s ex_BI (par_binvxi P) /\
  (forall wop, callL (make_pointDblLineEval il mx (snark c) ex_T (cpp c) ex_HF ex_NT (cb c) ex_BI wop) 136 s) /\ operL 136 8 s /\ constsL c 136 s ex_T ex_NT ex_HF.
Proof. exact (exL_some c il mx P). Qed.

(** One query covers all theorems of this file. *)
Definition all_theorems_P_JitLine :=
  (@C41_code_double,
   @C41_code_double_without_point).
Print Assumptions all_theorems_P_JitLine.
