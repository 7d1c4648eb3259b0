(** The code generated by a loop over the components of an element. *)
From Coq Require Import ZArith List Bool Lia.
From Verif Require Import Base Prim Primes FpSpec Cfg FpM X64 XLog JitSpec XTac XReg JitFp JitMac JitMac2 JitFrame.
Import ListNotations.
Local Open Scope Z_scope.

(** ranges of [n] bytes that are the same or apart *)
Definition ovn (n z a : Z) : Prop := z = a \/ z + n <= a \/ a + n <= z.
Lemma isat_idem L g g' A a n : keep L g g' -> isat L g A a n -> isat L g' A a n.
Proof.
  intros K H g2 j K2 Hj. apply H; [|exact Hj]. refine (keep_incl _ _ _ _ _ (keep_trans _ _ _ _ _ K K2)).
  intros r. rewrite in_app_iff. tauto.
Qed.
Lemma keep_idem L g g' g'' : keep L g g' -> keep L g' g'' -> keep L g g''.
Proof. intros K K2. refine (keep_incl _ _ _ _ _ (keep_trans _ _ _ _ _ K K2)). intros r. rewrite in_app_iff. tauto. Qed.
Lemma chg_mapped1 l m m' a n : chg l m m' -> mapped m a n -> mapped m' a n.
Proof. apply chg_mapped. Qed.

Section Rep.
  Variables (w : nat) (mac : addr -> addr -> addr -> code) (op : Z -> Z -> Z) (L : list reg) (Tok : memory -> Prop) (Inv : regs -> Prop) (Zok : Z -> Prop).
  Let sz := 8 * Z.of_nat w.
  Hypothesis wpos : 0 < sz.
  Hypothesis step : forall k g X f m Q ZZ A A' z a a' x y, Tok m -> Inv g -> Zok z -> isat L g ZZ z sz -> isat L g A a sz -> isat L g A' a' sz ->
    mapped m z w -> int_at m a w x -> int_at m a' w y -> ovn sz z a -> ovn sz z a' ->
    (forall g' f' m', keep L g g' -> chg [(z, sz)] m m' -> int_at m' z w (op x y) -> wps k (mkSt g' X f' m') Q) ->
    wps (mac ZZ A A' ++ k) (mkSt g X f m) Q.
  Hypothesis Inv_keep : forall g g', Inv g -> keep L g g' -> Inv g'.
  Hypothesis Tok_chg : forall z m m', Zok z -> chg [(z, sz)] m m' -> Tok m -> Tok m'.
  Variables (n : nat) (ZA XA YA : Z -> addr) (z a b : Z) (xs ys : Z -> Z).
  Let N := sz * Z.of_nat n.
  Hypothesis Hza : ovn N z a.
  Hypothesis Hzb : ovn N z b.
  Hypothesis HZ : forall i, 0 <= i < Z.of_nat n -> Zok (z + sz * i).
  Lemma ovi i j : 0 <= i < Z.of_nat n -> 0 <= j < Z.of_nat n -> forall u, ovn N z u -> ovn sz (z + sz * i) (u + sz * j) /\ (i <> j -> z + sz * i + sz <= u + sz * j \/ u + sz * j + sz <= z + sz * i).
  Proof.
    intros Hi Hj u [E|E]; unfold ovn, N in *.
    - subst u. split.
      + destruct (Z.lt_trichotomy i j) as [H|[->|H]]; [right; left; nia|left; reflexivity|right; right; nia].
      + intros Ne. destruct (Z.lt_trichotomy i j) as [H|[->|H]]; [left; nia|contradiction|right; nia].
    - assert (z + sz * i + sz <= u + sz * j \/ u + sz * j + sz <= z + sz * i) by (destruct E; [left|right]; nia). split; [right; assumption|auto].
  Qed.
  Variables (g0 : regs) (m0 : memory).
  Hypothesis AZ : forall i, 0 <= i < Z.of_nat n -> isat L g0 (ZA i) (z + sz * i) sz.
  Hypothesis AX : forall i, 0 <= i < Z.of_nat n -> isat L g0 (XA i) (a + sz * i) sz.
  Hypothesis AY : forall i, 0 <= i < Z.of_nat n -> isat L g0 (YA i) (b + sz * i) sz.
  Lemma rep_gen k X Q r : forall i g f m, 0 <= i -> i + Z.of_nat r = Z.of_nat n -> Tok m -> Inv g -> keep L g0 g ->
    (forall j, 0 <= j < Z.of_nat n -> mapped m (z + sz * j) w) ->
    (forall j, i <= j < Z.of_nat n -> int_at m (a + sz * j) w (xs j)) -> (forall j, i <= j < Z.of_nat n -> int_at m (b + sz * j) w (ys j)) ->
    (forall j, 0 <= j < i -> int_at m (z + sz * j) w (op (xs j) (ys j))) -> chg [(z, N)] m0 m ->
    (forall g' f' m', keep L g0 g' -> chg [(z, N)] m0 m' -> (forall j, 0 <= j < Z.of_nat n -> int_at m' (z + sz * j) w (op (xs j) (ys j))) -> wps k (mkSt g' X f' m') Q) ->
    wps (rep r i (fun i => mac (ZA i) (XA i) (YA i)) ++ k) (mkSt g X f m) Q.
  Proof using All.
    induction r as [|r IH]; intros i g f m H0 H1 HT HI HK HM Ha Hb Hd HC H.
    - cbn [rep app]. apply H; [exact HK|exact HC|]. intros j Hj. apply Hd. lia.
    - cbn [rep]. rewrite <- app_assoc.
      assert (Hi : 0 <= i < Z.of_nat n) by lia.
      eapply (step _ g X f m Q (ZA i) (XA i) (YA i) (z + sz * i) (a + sz * i) (b + sz * i) (xs i) (ys i)).
      + exact HT.
      + exact HI.
      + apply HZ. exact Hi.
      + exact (isat_idem _ _ _ _ _ _ HK (AZ i Hi)).
      + exact (isat_idem _ _ _ _ _ _ HK (AX i Hi)).
      + exact (isat_idem _ _ _ _ _ _ HK (AY i Hi)).
      + apply HM. exact Hi.
      + apply Ha. lia.
      + apply Hb. lia.
      + apply ovi; assumption.
      + apply ovi; assumption.
      + intros g' f' m' K C R. apply IH; try lia.
        * exact (Tok_chg _ _ _ (HZ i Hi) C HT).
        * exact (Inv_keep _ _ HI K).
        * exact (keep_idem _ _ _ _ HK K).
        * intros j Hj. exact (chg_mapped _ _ _ _ _ C (HM j Hj)).
        * intros j Hj. refine (int_at_chg _ _ _ _ _ _ C _ (Ha j ltac:(lia))). constructor; [|constructor]. unfold clear_of. cbn [fst snd].
          destruct (ovi i j Hi ltac:(lia) a Hza) as [_ O]. fold sz. specialize (O ltac:(lia)). lia.
        * intros j Hj. refine (int_at_chg _ _ _ _ _ _ C _ (Hb j ltac:(lia))). constructor; [|constructor]. unfold clear_of. cbn [fst snd].
          destruct (ovi i j Hi ltac:(lia) b Hzb) as [_ O]. fold sz. specialize (O ltac:(lia)). lia.
        * intros j Hj. destruct (Z.eq_dec j i) as [->|Ne]; [exact R|].
          refine (int_at_chg _ _ _ _ _ _ C _ (Hd j ltac:(lia))). constructor; [|constructor]. unfold clear_of. cbn [fst snd]. fold sz.
          left. clear -Hj Ne wpos. nia.
        * eapply chg_sub; [|exact (chg_trans _ _ _ _ _ HC C)]. intros b0 Hb0. apply off1 in Hb0. cbn [app]. apply off2. split; [exact Hb0|]. unfold N in Hb0. clear -Hb0 wpos Hi. nia.
        * exact H.
  Qed.
End Rep.
