(** A call of the generated Fp12_square of the SNARK build. *)
From Coq Require Import ZArith List Bool Lia.
From Verif Require Import X64 XLog JitSpec JitFpSpec XTac XReg JitFp JitMac JitMac2 JitFrame JitRep JitFpApi JitFpApi2 JitFp2 JitFp2Spec JitFp2Mac JitFp2Mac2 JitFp2Api JitFp2Api2 JitSym JitSub JitLib JitFp6Spec JitFp6 JitFp6Sub JitFp6Mul JitTop JitFp6Api JitFp12Api JitMul9.
From Verif Require Import Base Prim Primes FpSpec Cfg FpM TowerSpec TowerM.
Import ListNotations.
Local Open Scope Z_scope.
Local Notation find := X64.find.
Local Notation length := List.length.

Ltac lz9 := lazy -[fp_add fp_sub fp_addNC fp_mul fp_mul9 inp dbl_add dbl_sub dbl_addNC dbl_subNC dbl_subOpt1 dbl_mod d2_mulOpt d2_mul_xi f2_mul f2_square d2_square f2_divBy2 f2_mul_xi d6_mul f6_mul f6_add f6_sub f2_add f2_sub f2_addNC f12_mul f12_square f12_mul_024 l12 a2 b2 a3 b3 c3 cp cr cpp snark].
Section Top.
  Variables (c : cfg) (il mx : bool) (T NT HF : Z) (s : state) (x : F2 (F3 (F2 Z))).
  Hypothesis Es : snark c = true.
  Local Notation g := (rg s).
  Local Notation L := (lib il mx (snark c) T (cpp c) NT).
  Local Notation tabs := (ctabs c T NT HF).
  Ltac trk := repeat (apply Forall_cons; [first [exact I | reflexivity]|]); apply Forall_nil.
  Ltac red12 := cbn [a2 b2 a3 b3 c3].
  Definition i_xi9 oz ox : list item := [IT RAX (RT, 0); i_mul9 c mx T false RSP oz gt10 ox gt10 (ox + 32); i_mul9 c mx T true RSP (oz + 32) gt10 (ox + 32) gt10 ox].
  Definition sq9_items : list item := tr (tb3 c) sqa ++ i_xi9 192 320 ++ tr (tb3 c) sqb ++ i_xi9 192 320 ++ tr (tb3 c) sqc.
  Lemma sq9_flat base : base RT = T -> flat base sq9_items = b_Fp12_square il mx true T.
  Proof.
    intros E. unfold sq9_items. rewrite !flat_app, !(flat_tr base T (tb3 c) _ E); [|trk..].
    unfold b_Fp12_square, mul_gamma_add, sqa, sqb, sqc, mga, in_Fp2_mul_xi. cbn [flat flat_map flat1 i_xi9 i_mul9 fst snd]. rewrite Z.eqb_refl, E, !app_nil_r. rewrite <- !app_assoc. reflexivity.
  Qed.
  Lemma sq9_ok pre : nolab pre = true -> Forall (aokT (pre ++ L) T tabs) sq9_items.
  Proof.
    intros NP. pose proof (tb3_ok c il mx T NT HF pre NP) as TB.
    assert (XI : forall oz ox, Forall (aokT (pre ++ L) T tabs) (i_xi9 oz ox)).
    { intros oz ox. unfold i_xi9. constructor; [exact I|]. constructor; [apply a_mul9; [exact Es|reflexivity..]|]. constructor; [apply a_mul9; [exact Es|reflexivity..]|constructor]. }
    unfold sq9_items. rewrite !Forall_app. split; [apply tr_ok; exact TB|]. split; [apply XI|]. split; [apply tr_ok; exact TB|]. split; [apply XI|apply tr_ok; exact TB].
  Qed.
  Definition below2 (v : F2 Z) : Prop := 0 <= a2 v < cp c /\ 0 <= b2 v < cp c.
  Lemma inp_ab v : below2 v -> inp c [a2 v; b2 v].
  Proof. intros [H1 H2]. constructor; [exact H1|constructor; [exact H2|constructor]]. Qed.
  Lemma inp_ba v : below2 v -> inp c [b2 v; a2 v].
  Proof. intros [H1 H2]. constructor; [exact H2|constructor; [exact H1|constructor]]. Qed.
  Lemma Fp12_square_api9 : below2 (c3 (b2 x)) -> below2 (c3 (f6_mul c (b2 x) (a2 x))) ->
    called (make_Fp12_square il mx true T (cpp c) NT) s -> stack 186 s -> place 186 s (rdi g) 48 -> mapped (mem s) (rdi g) 48 -> consts c 186 s T NT HF (rdi g) 48 ->
    twelve (mem s) (rdi g) x ->
    calls (make_Fp12_square il mx true T (cpp c) NT) s (fun s' => twelve (mem s') (rdi g) (f12_square c x) /\ only 186 (rdi g) 48 s s').
  Proof.
    intros B1 B2 Hc Hst Ho Mo HT Ix. set (C := make_Fp12_square il mx true T (cpp c) NT) in *.
    eapply calls_mono; [refine (top_ok C c T NT HF 10 49 sq9_items (b_Fp12_square il mx true T) gp1 gp2 (r_12sq (f12_square c)) true false s (l12 x) [] ltac:(clear; lia) _ sq9_flat _ _ eq_refl eq_refl eq_refl eq_refl eq_refl _ (proj1 (at_app C 0 _ _ (at_self C))) Hc Hst Ho Mo (or_intror (conj Ho eq_refl)) (or_introl eq_refl) (twelve_reads _ _ _ Ix) _ _ _ HT)|].
    - pose proof (sq9_ok (frame 10 49 (b_Fp12_square il mx true T))) as OK. rewrite Es in OK. apply OK. clear. destruct il, mx; vm_compute; reflexivity.
    - intro; discriminate.
    - intros _. reflexivity.
    - pose proof (inp_ab _ B1) as P1. pose proof (inp_ba _ B1) as P2. pose proof (inp_ab _ B2) as P3. pose proof (inp_ba _ B2) as P4. clear -Es P1 P2 P3 P4.
      destruct x as [[[] [] []] [[] [] []]]. revert P1 P2 P3 P4. red12. intros P1 P2 P3 P4. unfold l12, l6. red12. lz9.
      ex_; lazymatch goal with |- inp c ?l => first [match type of P1 with inp c l => exact P1 end|match type of P2 with inp c l => exact P2 end|match type of P3 with inp c l => exact P3 end|match type of P4 with inp c l => exact P4 end] | |- Some (_ :: _) = _ => idtac | |- Some _ = Some _ => reflexivity | |- _ => discriminate end.
      unfold f12_square, f6_mul_gamma_add. cbv zeta. red12. unfold f2_mul_xi. rewrite Es. red12.
      unfold l12, l6. red12. rewrite ?eta3, ?eta2. reflexivity.
    - constructor.
    - wid.
    - wid.
    - intros s' [H1 H2]. split; [|exact H2]. cbn [r_z r_fn r_12sq] in H1. apply reads_twelve. revert H1.
      change (fn112 (f12_square c) (l12 x ++ [])) with (l12 (f12_square c (m12 (l12 x)))). rewrite m12_l12. exact (fun H => H).
  Qed.
End Top.
