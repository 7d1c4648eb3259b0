(** Witnesses: reachable inputs on which the extension field code departs from the
    specification, and non-trivial inputs meeting the hypotheses of the theorems. *)
From Coq Require Import ZArith Znumtheory List Lia Ring.
From Verif Require Import Base Prim Power FpSpec Cfg FpM FpProofs FpApi FpApiProofs FpWit TowerSpec TowerField TowerM Fp2Proofs Fp6Proofs Frob.
Import ListNotations.
Local Open Scope Z_scope.

Definition allc (c : cfg) (l : list Z) : bool := forallb (fun x => (0 <=? x) && (x <? cp c)) l.
Lemma allc_can c l : allc c l = true -> Forall (can c) l.
Proof.
  unfold allc. rewrite forallb_forall, Forall_forall. intros H x Hx. specialize (H x Hx). apply andb_prop in H as [H1 H2].
  apply Z.leb_le in H1. apply Z.ltb_lt in H2. split; assumption.
Qed.
Lemma can_rep1 c x : can c x -> rep1 c x (fv c x).
Proof. intros H. split; [exact H|reflexivity]. Qed.
Definition v2 (c : cfg) (x : fp2) : K2 c := mk2 (fv c (a2 x)) (fv c (b2 x)).
Definition v6 (c : cfg) (x : fp6) : K6 c := mk3 (v2 c (a3 x)) (v2 c (b3 x)) (v2 c (c3 x)).
Definition v12 (c : cfg) (x : fp12) : K12 c := mk2 (v6 c (a2 x)) (v6 c (b2 x)).
Lemma can_rep2 c x : Forall (can c) [a2 x; b2 x] -> rep2 c x (v2 c x).
Proof. intros H. inversion H as [|? ? H1 H']; subst. inversion H' as [|? ? H2 _]; subst. split; apply can_rep1; assumption. Qed.
Lemma can_rep6 c x : Forall (can c) [a2 (a3 x); b2 (a3 x); a2 (b3 x); b2 (b3 x); a2 (c3 x); b2 (c3 x)] -> rep6 c x (v6 c x).
Proof.
  intros H. repeat match goal with H : Forall _ (_ :: _) |- _ => inversion H; clear H; subst end.
  destruct x as [x y z]. cbn [a3 b3 c3] in *. apply rep6_mk; cbn [v6 a3 b3 c3]; apply can_rep2; (constructor; [assumption|constructor; [assumption|constructor]]).
Qed.

(** ** SNARK: Fp6::mul leaves the canonical range *)
Definition w6 (i : Z) : fp6 := let f := mk2 (cp SNARK1 - 1 - i) (cp SNARK1 - 1 - i) in mk3 f f f.
Lemma cp_s12 : cp SNARK2 = cp SNARK1. Proof. reflexivity. Qed.
Lemma w6_rep c : snark c = true -> rep6 c (w6 3) (v6 c (w6 3)) /\ rep6 c (w6 0) (v6 c (w6 0)).
Proof. intros Hc. split; apply can_rep6, allc_can; (destruct c; [discriminate Hc|vm_compute; reflexivity|vm_compute; reflexivity]). Qed.
Lemma f6_mul_noncanonical c : snark c = true -> exists x y v w, rep6 c x v /\ rep6 c y w /\ ~ can c (b2 (c3 (f6_mul c x y))).
Proof.
  intros Hc. exists (w6 3), (w6 0), (v6 c (w6 3)), (v6 c (w6 0)).
  destruct (w6_rep c Hc) as [H3 H0]. split; [exact H3|]. split; [exact H0|].
  intros [_ H]. apply Z.ltb_lt in H.
  assert (E : (b2 (c3 (f6_mul c (w6 3) (w6 0))) <? cp c) = false) by (clear H; destruct c; [discriminate Hc| |]; vm_compute; reflexivity).
  discriminate (eq_trans (eq_sym E) H).
Qed.

(** ** SNARK: Fp12::mul returns a wrong product *)
Definition wa6 : fp6 := let f := mk2 (cp SNARK1 - 1) (cp SNARK1 - 3 * 2 ^ 247) in mk3 f f f.
Definition wx6 : fp6 := mk3 f2_0 (mk2 (cp SNARK1 - 1) 0) f2_0.
Definition wy6 : fp6 := mk3 f2_0 f2_0 (mk2 (4 * cp SNARK1 / 25) 0).
Definition wx12 : fp12 := mk2 wx6 wa6.
Definition wy12 : fp12 := mk2 wy6 wa6.
Lemma wcan c : snark c = true -> rep6 c wa6 (v6 c wa6) /\ rep6 c wx6 (v6 c wx6) /\ rep6 c wy6 (v6 c wy6).
Proof.
  intros Hc. split; [|split]; apply can_rep6, allc_can; (destruct c; [discriminate Hc|vm_compute; reflexivity|vm_compute; reflexivity]).
Qed.
Section W12.
Variable c : cfg.
Add Ring KRw : (rth (K2 c)).
Local Open Scope r_scope.
Lemma w12_expected : snark c = true ->
  rep2 c (f2_add c (f2_mul_xi c (f2_mul c (b3 wx6) (c3 wy6))) (f2_mul_xi c (c3 (f6_square c wa6)))) (a3 (a2 (v12 c wx12 * v12 c wy12))).
Proof.
  intros Hc. destruct (wcan c Hc) as (Ha & Hx & Hy).
  destruct (f6_square_rep c _ _ Ha) as (_ & _ & Hs). destruct Hx as (X0 & X1 & X2). destruct Hy as (Y0 & Y1 & Y2).
  assert (Z0 : forall r, rep2 c f2_0 r -> r = 0) by (intros r Hr; exact (rep2_fun c _ _ _ Hr (f2_0_rep c))).
  pose proof (Z0 _ X0) as EX0. pose proof (Z0 _ X2) as EX2. pose proof (Z0 _ Y0) as EY0. pose proof (Z0 _ Y1) as EY1.
  assert (G : forall (x0 x1 x2 y0 y1 y2 : K2 c) (a : K6 c), x0 = 0 -> x2 = 0 -> y0 = 0 -> y1 = 0 ->
    xi c * (x1 * y2) + xi c * c3 (a * a) = a3 (a2 ((mk2 (mk3 x0 x1 x2) a : K12 c) * mk2 (mk3 y0 y1 y2) a))).
  { intros x0 x1 x2 y0 y1 y2 [a b d] -> -> -> ->. cbn [rmul radd K12 K6 quad cubic qmul kmul kadd kgen a2 b2 a3 b3 c3]. ring. }
  eapply rep2_eq; [apply f2_add_rep; apply f2_mul_xi_rep; [exact (f2_mul_rep c _ _ _ _ X1 Y2)|exact Hs]|].
  exact (G _ _ _ _ _ _ _ EX0 EX2 EY0 EY1).
Qed.
End W12.
Lemma f12_mul_wrong c : snark c = true -> exists x y v w, rep12 c x v /\ rep12 c y w /\
  fv c (a2 (a3 (a2 (f12_mul c x y)))) <> a2 (a3 (a2 (rmul v w))).
Proof.
  intros Hc. exists wx12, wy12, (v12 c wx12), (v12 c wy12). destruct (wcan c Hc) as (Ha & Hx & Hy).
  split; [split; assumption|]. split; [split; assumption|].
  pose proof (w12_expected c Hc) as [[C1 E1] _]. intros E. rewrite <- E1 in E.
  rewrite <- (fv_mod c (a2 (a3 (a2 (f12_mul c wx12 wy12))))) in E.
  apply fv_inj in E; [|unfold can; apply Z.mod_pos_bound; apply cp_pos|exact C1].
  apply Z.eqb_eq in E. revert E. clear E1 C1; destruct c; [discriminate Hc| |]; clear; vm_compute; discriminate.
Qed.

(** What remains true of Fp6::mul on every curve: the value, and all ranges but one. *)
Section V6.
Variable c : cfg.
Local Open Scope r_scope.
Lemma f6_mul_value x y v w : rep6 c x v -> rep6 c y w ->
  let z := f6_mul c x y in
  rep2 c (a3 z) (a3 (v * w)) /\ rep2 c (b3 z) (b3 (v * w)) /\ rep1 c (a2 (c3 z)) (a2 (c3 (v * w))) /\
  fv c (b2 (c3 z)) = b2 (c3 (v * w)) /\ (0 <= b2 (c3 z) < 2 * cp c)%Z.
Proof.
  intros Hx Hy. destruct (d6_mul_gen c _ _ _ _ Hx Hy) as (A1 & A2 & A3 & A4 & A5). cbv zeta. unfold f6_mul.
  set (t := d6_mul c x y) in *. clearbody t. cbn [d6_mod a3 b3 c3].
  split; [apply d2_mod_rep; exact A1|]. split; [apply d2_mod_rep; exact A2|]. split; [apply mod_rep1; exact A3|].
  cbn [d2_mod b2]. set (u := b2 (c3 t)) in *. clearbody u.
  pose proof (cp_bounds c) as Hb. pose proof W_val as HW. pose proof (cp_pos c) as Hp.
  assert (HW4 : (4 * cp c < W)%Z) by lia. assert (HW7 : (6 * cp c < 2 * W)%Z) by lia. clear Hb HW.
  assert (U1 : (u + W * cp c <= W * W)%Z) by (clear A1 A2 A3 A5 Hx Hy; nia).
  split; [rewrite dbl_mod_val; [exact A5|lia|exact U1]|].
  destruct (mod_rounds c u ltac:(lia) U1) as (q & -> & Q & HQ & Hq & EQ).
  assert (q < 3 * cp c)%Z by (clear A1 A2 A3 A5 Hx Hy; nia).
  unfold add_modp. destruct (Z.ltb_spec q (cp c)); lia.
Qed.
End V6.
