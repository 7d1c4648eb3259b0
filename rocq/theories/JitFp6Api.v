(** Calls of the generated functions on Fp6. *)
From Coq Require Import ZArith List Bool Lia.
From Verif Require Import X64 XLog JitSpec JitFpSpec XTac XReg JitFp JitMac JitMac2 JitFrame JitRep JitFpApi JitFpApi2 JitFp2 JitFp2Spec JitFp2Mac JitFp2Mac2 JitFp2Api JitFp2Api2 JitSym JitSub JitLib JitFp6Spec JitFp6 JitFp6Sub JitFp6Mul JitTop.
From Verif Require Import Base Prim Primes FpSpec Cfg FpM TowerSpec TowerM.
Import ListNotations.
Local Open Scope Z_scope.
Local Notation find := X64.find.
Local Notation length := List.length.

Lemma add0 a : a + 0 = a. Proof. lia. Qed.
Lemma six4_reads m a x : six 4 m a x -> reads m a W4x6 (l6 x).
Proof.
  unfold six, pair. change (8 * Z.of_nat 4) with 32. change (16 * Z.of_nat 4) with 64. cbv zeta. intros ((H1 & H2) & (H3 & H4) & (H5 & H6)).
  unfold W4x6, l6. repeat (constructor; [cbn [fst snd]|]); [rewrite add0; exact H1|exact H2|exact H3|replace (a + 96) with (a + 64 + 32) by lia; exact H4|exact H5|replace (a + 160) with (a + 128 + 32) by lia; exact H6|constructor].
Qed.
Lemma reads_six4 m a x : reads m a W4x6 (l6 x) -> six 4 m a x.
Proof.
  unfold six, pair, W4x6, l6, reads. change (8 * Z.of_nat 4) with 32. change (16 * Z.of_nat 4) with 64. cbv zeta. intros H.
  inversion H as [|? ? ? ? H1 K1]; subst; clear H. inversion K1 as [|? ? ? ? H2 K2]; subst; clear K1. inversion K2 as [|? ? ? ? H3 K3]; subst; clear K2.
  inversion K3 as [|? ? ? ? H4 K4]; subst; clear K3. inversion K4 as [|? ? ? ? H5 K5]; subst; clear K4. inversion K5 as [|? ? ? ? H6 K6]; subst; clear K5.
  cbn [fst snd] in *. rewrite add0 in H1. replace (a + 96) with (a + 64 + 32) in H4 by lia. replace (a + 160) with (a + 2 * 64 + 32) in H6 by lia. 
  split; [split; assumption|]. split; split; assumption.
Qed.
Lemma reads_six8 m a x : reads m a W8x6 (l6 x) -> six 8 m a x.
Proof.
  unfold six, pair, W8x6, l6, reads. change (8 * Z.of_nat 8) with 64. change (16 * Z.of_nat 8) with 128. cbv zeta. intros H.
  inversion H as [|? ? ? ? H1 K1]; subst; clear H. inversion K1 as [|? ? ? ? H2 K2]; subst; clear K1. inversion K2 as [|? ? ? ? H3 K3]; subst; clear K2.
  inversion K3 as [|? ? ? ? H4 K4]; subst; clear K3. inversion K4 as [|? ? ? ? H5 K5]; subst; clear K4. inversion K5 as [|? ? ? ? H6 K6]; subst; clear K5.
  cbn [fst snd] in *. rewrite add0 in H1. replace (a + 192) with (a + 128 + 64) in H4 by lia. replace (a + 320) with (a + 2 * 128 + 64) in H6 by lia. 
  split; [split; assumption|]. split; split; assumption.
Qed.
Lemma l6_inj x y : l6 x = l6 y -> x = y.
Proof. destruct x as [[] [] []], y as [[] [] []]. unfold l6. intros H. cbn in H. injection H as -> -> -> -> -> ->. reflexivity. Qed.
(** the alias flag of an operand *)
Lemma soa n z x k s : same_or_apart z x n -> place k s x n -> exists b : bool, place k s x n /\ (if b then x = z else apart z n x n).
Proof. intros [E|E] P; [exists true; split; [exact P|symmetry; exact E]|exists false; split; [exact P|exact E]]. Qed.
Lemma alias_eq (bx by_ : bool) z x y m x6 y6 n : (if bx then x = z else apart z n x n) -> (if by_ then y = z else apart z n y n) ->
  six 4 m x x6 -> six 4 m y y6 -> bx = true -> by_ = true -> x6 = y6.
Proof. intros H1 H2 S1 S2 -> ->. subst x y. apply l6_inj. exact (reads_fun _ _ _ _ _ (six4_reads _ _ _ S1) (six4_reads _ _ _ S2)). Qed.
Lemma fn66_l6 F x y : fn66 F (l6 x ++ l6 y) = l6 (F x y).
Proof. destruct x as [[] [] []], y as [[] [] []]. reflexivity. Qed.

Ltac wid := repeat constructor; cbn; intro; discriminate.
Ltac ent := repeat (apply Forall_cons; [first [exact I | reflexivity]|]); apply Forall_nil.
Section Top2.
  Variables (c : cfg) (il mx : bool) (T NT HF : Z) (s : state) (x y : F3 (F2 Z)).
  Local Notation g := (rg s).
  Local Notation L := (lib il mx (snark c) T (cpp c) NT).
  Ltac bin C gtn items body R bx by_ Hc Hst Ho Mo HX HY Ix Iy HT :=
    eapply calls_mono; [refine (top_ok C c T NT HF gtn 0 items body gp2 gp3 R bx by_ s (l6 x) (l6 y) ltac:(clear; lia) _ _ _ _ eq_refl eq_refl eq_refl eq_refl eq_refl _ (proj1 (at_app C 0 _ _ (at_self C))) Hc Hst Ho Mo (or_intror HX) (or_intror HY) (six4_reads _ _ _ Ix) (six4_reads _ _ _ Iy) _ _ HT)|].
  Ltac fin2 AE bx by_ := clear -AE; unfold l6; destruct bx, by_; [rewrite (AE eq_refl eq_refl)|..]; clear AE; lz; (ex_; [rewrite ?eta3, ?eta2; reflexivity|reflexivity|..]); discriminate.
  Ltac post := let s' := fresh in let H1 := fresh in let H2 := fresh in intros s' [H1 H2]; split; [|exact H2]; cbn [r_z r_fn bump r_fp6 r_f6mul r_d6mul] in H1; rewrite fn66_l6 in H1; first [exact (reads_six4 _ _ _ H1)|exact (reads_six8 _ _ _ H1)].
  Ltac bin_ C gtn l R K := 
    let Hc := fresh in let Hst := fresh in let Ho := fresh in let Hx := fresh in let Hy := fresh in let Mo := fresh in let A1 := fresh in let A2 := fresh in
    let HT := fresh in let Ix := fresh in let Iy := fresh in let bx := fresh "bx" in let by_ := fresh "by_" in let HX := fresh in let HY := fresh in let AE := fresh "AE" in
    intros (Hc & Hst & Ho & Hx & Hy & Mo) [A1 A2] HT Ix Iy;
    destruct (soa _ _ _ _ _ A1 Hx) as (bx & HX); destruct (soa _ _ _ _ _ A2 Hy) as (by_ & HY);
    pose proof (alias_eq bx by_ _ _ _ _ _ _ 24 (proj2 HX) (proj2 HY) Ix Iy) as AE;
    bin C gtn [IA [Call l] (AR gp1 0) (AR gp2 0) (AR gp3 0) R] [Call l] R bx by_ Hc Hst Ho Mo HX HY Ix Iy HT;
    [constructor; [K|constructor]|intros; reflexivity|intro; discriminate|intro; discriminate|fin2 AE bx by_|wid|wid|post].
  Lemma Fp6_add_api : call2 (make_Fp6_add il mx (snark c) T (cpp c) NT) 4 24 24 s -> aliased 24 s -> consts c 4 s T NT HF (rdi g) 24 ->
    six 4 (mem s) (rsi g) x -> six 4 (mem s) (rdx g) y ->
    calls (make_Fp6_add il mx (snark c) T (cpp c) NT) s (fun s' => six 4 (mem s') (rdi g) (f6_add c x y) /\ only 4 (rdi g) 24 s s').
  Proof. bin_ (make_Fp6_add il mx (snark c) T (cpp c) NT) 7 L_Fp6_add (bump (r_fp6 (f6_add c))) ltac:(exact (k_add6 c il mx T NT HF (frame 7 0 [Call L_Fp6_add]) eq_refl)). Qed.
  Lemma Fp6_sub_api : call2 (make_Fp6_sub il mx (snark c) T (cpp c) NT) 4 24 24 s -> aliased 24 s -> consts c 4 s T NT HF (rdi g) 24 ->
    six 4 (mem s) (rsi g) x -> six 4 (mem s) (rdx g) y ->
    calls (make_Fp6_sub il mx (snark c) T (cpp c) NT) s (fun s' => six 4 (mem s') (rdi g) (f6_sub c x y) /\ only 4 (rdi g) 24 s s').
  Proof. bin_ (make_Fp6_sub il mx (snark c) T (cpp c) NT) 7 L_Fp6_sub (bump (r_fp6 (f6_sub c))) ltac:(exact (k_sub6 c il mx T NT HF (frame 7 0 [Call L_Fp6_sub]) eq_refl)). Qed.
  Lemma Fp6_mul_api : call2 (make_Fp6_mul il mx (snark c) T (cpp c) NT) 137 24 24 s -> aliased 24 s -> consts c 137 s T NT HF (rdi g) 24 ->
    six 4 (mem s) (rsi g) x -> six 4 (mem s) (rdx g) y ->
    calls (make_Fp6_mul il mx (snark c) T (cpp c) NT) s (fun s' => six 4 (mem s') (rdi g) (f6_mul c x y) /\ only 137 (rdi g) 24 s s').
  Proof. bin_ (make_Fp6_mul il mx (snark c) T (cpp c) NT) 10 L_Fp6_mul (bump (r_f6mul c)) ltac:(exact (k_f6 c il mx T NT HF (frame 10 0 [Call L_Fp6_mul]) eq_refl)). Qed.
  Lemma Fp6Dbl_mul_api : call2 (make_Fp6Dbl_mul il mx (snark c) T (cpp c) NT) 88 48 24 s -> apart (rdi g) 48 (rsi g) 24 -> apart (rdi g) 48 (rdx g) 24 -> consts c 88 s T NT HF (rdi g) 48 ->
    six 4 (mem s) (rsi g) x -> six 4 (mem s) (rdx g) y ->
    calls (make_Fp6Dbl_mul il mx (snark c) T (cpp c) NT) s (fun s' => six 8 (mem s') (rdi g) (d6_mul c x y) /\ only 88 (rdi g) 48 s s').
  Proof.
    intros (Hc & Hst & Ho & Hx & Hy & Mo) A1 A2 HT Ix Iy. set (pre := frame 10 0 movq345).
    bin (make_Fp6Dbl_mul il mx (snark c) T (cpp c) NT) 10 (tr (tb3 c) movq345) movq345 (bump (r_d6mul c)) false false Hc Hst Ho Mo (conj Hx A1) (conj Hy A2) Ix Iy HT.
    - apply tr_ok. exact (tb3_ok c il mx T NT HF pre eq_refl).
    - intros base E. apply (flat_tr base T _ _ E). ent.
    - intro; discriminate.
    - intro; discriminate.
    - unfold l6. lz. ex_; [rewrite ?eta3, ?eta2; reflexivity|reflexivity|..]; discriminate.
    - wid.
    - wid.
    - post.
  Qed.
End Top2.
