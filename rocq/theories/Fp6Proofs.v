(** Fp6, Fp12 and their double-width versions compute in K6 and K12. *)
From Coq Require Import ZArith Lia Bool Ring.
From Verif Require Import Base Prim Loop FpSpec Cfg TowerSpec FpM FpProofs FpApiProofs TowerField TowerM Fp2Proofs.
Local Open Scope Z_scope.

Definition rep6 (c : cfg) (x : fp6) (v : K6 c) : Prop :=
  rep2 c (a3 x) (a3 v) /\ rep2 c (b3 x) (b3 v) /\ rep2 c (c3 x) (c3 v).
Definition drep6 (c : cfg) (x : dbl6) (v : K6 c) : Prop :=
  drep2 c (a3 x) (a3 v) /\ drep2 c (b3 x) (b3 v) /\ drep2 c (c3 x) (c3 v).
Definition rep12 (c : cfg) (x : fp12) (v : K12 c) : Prop := rep6 c (a2 x) (a2 v) /\ rep6 c (b2 x) (b2 v).

(** Find what a variable represents, syntactically. *)
Ltac hyp_rep := match goal with
  | H : rep2 ?c ?x _ |- rep2 ?c ?x _ => exact H
  | H : drep2 ?c ?x _ |- drep2 ?c ?x _ => exact H
  | H : rep1 ?c ?x _ |- rep1 ?c ?x _ => exact H
  end.
Ltac op_rep := lazymatch goal with
  | |- rep2 _ (f2_add _ _ _) _ => eapply f2_add_rep
  | |- rep2 _ (f2_sub _ _ _) _ => eapply f2_sub_rep
  | |- rep2 _ (f2_neg _ _) _ => eapply f2_neg_rep
  | |- rep2 _ (f2_mul _ _ _) _ => eapply f2_mul_rep
  | |- rep2 _ (f2_square _ _) _ => eapply f2_square_rep
  | |- rep2 _ (f2_mul_xi _ _) _ => eapply f2_mul_xi_rep
  | |- rep2 _ (f2_mul_x _ _) _ => eapply f2_mul_x_rep
  | |- rep2 _ (f2_mul_Fp_0 _ _ _) _ => eapply f2_mul_Fp_0_rep
  | |- rep2 _ (f2_mul_Fp_1 _ _ _) _ => eapply f2_mul_Fp_1_rep
  | |- rep2 _ (d2_mod _ _) _ => eapply d2_mod_rep
  | |- drep2 _ (d2_add _ _ _) _ => eapply d2_add_rep
  | |- drep2 _ (d2_sub _ _ _) _ => eapply d2_sub_rep
  | |- drep2 _ (d2_mul_xi _ _) _ => eapply d2_mul_xi_rep
  | |- drep2 _ (d2_mulOpt2 _ _ _) _ => eapply d2_mulOpt2_rep
  | |- drep2 _ (d2_square _ _) _ => eapply d2_square_rep
  end.
Ltac rep_solve := first [hyp_rep | op_rep; rep_solve].

(** One let of a straight-line function: name the value, record what it represents. *)
Ltac letI P := match goal with |- context [let t := ?e in @?b t] => apply (letP P e b) end.
Ltac stepL P :=
  letI P;
  let t := fresh "t" in let E := fresh "E" in
  intros t E; cbv beta;
  first [ let H := fresh "R" in eassert (H : rep2 _ t _) by (rewrite E; rep_solve)
        | let H := fresh "R" in eassert (H : drep2 _ t _) by (rewrite E; rep_solve)];
  clear E.

Section L6.
Variable c : cfg.
Local Notation p := (cp c).
Local Notation rep1 := (rep1 c).
Local Notation drep1 := (drep1 c).
Local Notation rep2 := (rep2 c).
Local Notation drep2 := (drep2 c).
Local Notation rep6 := (rep6 c).
Local Notation drep6 := (drep6 c).
Local Notation rep12 := (rep12 c).
Add Ring FRc : (rth (FpR (cp c))).
Add Ring KRc : (rth (K2 c)).
Add Ring KR6c : (rth (K6 c)).
Local Open Scope r_scope.
Ltac k6 := cbn [radd rmul rsub ropp rz ro K6 cubic kadd ksub kopp kmul k0 k1 kgen a3 b3 c3].
Ltac k12 := cbn [radd rmul rsub ropp rz ro K12 quad qadd qsub qopp qmul q0 q1 a2 b2].

Lemma rep6_mk x y z v : rep2 x (a3 v) -> rep2 y (b3 v) -> rep2 z (c3 v) -> rep6 (mk3 x y z) v.
Proof. intros; repeat split; assumption || apply H || apply H0 || apply H1. Qed.
Lemma drep6_mk x y z v : drep2 x (a3 v) -> drep2 y (b3 v) -> drep2 z (c3 v) -> drep6 (mk3 x y z) v.
Proof. intros; repeat split; assumption || apply H || apply H0 || apply H1. Qed.
Lemma rep6_eq x v w : rep6 x v -> v = w -> rep6 x w.
Proof. intros H <-. exact H. Qed.
Lemma drep6_eq x v w : drep6 x v -> v = w -> drep6 x w.
Proof. intros H <-. exact H. Qed.
Lemma rep6_inj x y v : rep6 x v -> rep6 y v -> x = y.
Proof. intros (H1 & H2 & H3) (H4 & H5 & H6). apply F3_eq; eapply rep2_inj; eauto. Qed.
Lemma rep6_fun x v w : rep6 x v -> rep6 x w -> v = w.
Proof. intros (H1 & H2 & H3) (H4 & H5 & H6). apply F3_eq; eapply rep2_fun; eauto. Qed.
Lemma rep6_surj v : exists x, rep6 x v.
Proof.
  destruct (rep2_surj c (a3 v)) as (x & Hx). destruct (rep2_surj c (b3 v)) as (y & Hy). destruct (rep2_surj c (c3 v)) as (z & Hz).
  exists (mk3 x y z). apply rep6_mk; auto.
Qed.
Lemma f2_1_rep : rep2 (f2_1 c) 1.
Proof. destruct (fp_1_ok c) as (H1 & H2 & H3). rewrite H3 in *. apply rep2_mk; [split; assumption|apply zero_rep1]. Qed.
Lemma f6_add_rep x y v w : rep6 x v -> rep6 y w -> rep6 (f6_add c x y) (v + w).
Proof. intros (? & ? & ?) (? & ? & ?). apply rep6_mk; apply f2_add_rep; auto. Qed.
Lemma f6_sub_rep x y v w : rep6 x v -> rep6 y w -> rep6 (f6_sub c x y) (v - w).
Proof. intros (? & ? & ?) (? & ? & ?). apply rep6_mk; apply f2_sub_rep; auto. Qed.
Lemma f6_neg_rep x v : rep6 x v -> rep6 (f6_neg c x) (- v).
Proof. intros (? & ? & ?). apply rep6_mk; apply f2_neg_rep; auto. Qed.
Lemma f6_0_rep : rep6 f6_0 0.
Proof. apply rep6_mk; apply f2_0_rep. Qed.
Lemma f6_1_rep : rep6 (f6_1 c) 1.
Proof. apply rep6_mk; [apply f2_1_rep|apply f2_0_rep|apply f2_0_rep]. Qed.
Lemma d6_add_rep x y v w : drep6 x v -> drep6 y w -> drep6 (d6_add c x y) (v + w).
Proof. intros (? & ? & ?) (? & ? & ?). apply drep6_mk; apply d2_add_rep; auto. Qed.
Lemma d6_sub_rep x y v w : drep6 x v -> drep6 y w -> drep6 (d6_sub c x y) (v - w).
Proof. intros (? & ? & ?) (? & ? & ?). apply drep6_mk; apply d2_sub_rep; auto. Qed.
Lemma d6_mod_rep x v : drep6 x v -> rep6 (d6_mod c x) v.
Proof. intros (? & ? & ?). apply rep6_mk; apply d2_mod_rep; auto. Qed.
Lemma f6_square_rep x v : rep6 x v -> rep6 (f6_square c x) (v * v).
Proof.
  destruct x as [xa xb xc], v as [va vb vc]. intros (Ha & Hb & Hc). cbn [a3 b3 c3] in *. cbv beta iota delta [f6_square a3 b3 c3].
  repeat stepL (fun r => rep6 r ((mk3 va vb vc : K6 c) * (mk3 va vb vc : K6 c))).
  apply rep6_mk; (eapply rep2_eq; [eassumption|k6; ring]).
Qed.
Lemma f6_inverse_rep x v : rep6 x v -> exists y w, f6_inverse c x = Ok y /\ rep6 y w /\ (v <> 0 -> w * v = 1) /\ (v = 0 -> w = 0).
Proof.
  intros H. set (Q := fun r => exists y w, r = Ok y /\ rep6 y w /\ (v <> 0 -> w * v = 1) /\ (v = 0 -> w = 0)).
  change (Q (f6_inverse c x)).
  destruct x as [xa xb xc]. destruct v as [va vb vc]. destruct H as (Ha & Hb & Hc). cbn [a3 b3 c3] in *.
  cbv beta iota delta [f6_inverse a3 b3 c3].
  do 3 (letI Q; intros ? ->; cbv beta).
  repeat stepL Q.
  match goal with |- Q (bind (f2_inverse c ?t) _) => match goal with R : rep2 t _ |- _ =>
    destruct (f2_inverse_rep c _ _ R) as (n & wn & En & Rn & Hn & Hn0) end end.
  rewrite En. cbn [bind]. subst Q.
  eexists _, _. split; [reflexivity|]. split; [|split].
  - apply rep6_mk; [eapply (rep2_eq c); [apply f2_mul_rep; eassumption|]..].
    1: instantiate (1 := kmul (K2 c) (xi c) (kemb (K2 c) wn) (kadj (K2 c) (xi c) (mk3 va vb vc))).
    all: cbn [a3 b3 c3 kmul kemb kadj]; ring.
  - intros Hv. pose proof (knorm_nz (K2 c) (xi c) (K2_field c) (xi_noncube c) _ Hv) as Nz.
    assert (Hw : wn * knorm (K2 c) (xi c) (mk3 va vb vc) = 1).
    { etransitivity; [|apply Hn].
      - reflexivity.
      - intros E. apply Nz. rewrite <- E. unfold knorm, kadj. cbn [a3 b3 c3]. ring. }
    transitivity (kmul (K2 c) (xi c) (kemb (K2 c) wn) (kmul (K2 c) (xi c) (kadj (K2 c) (xi c) (mk3 va vb vc)) (mk3 va vb vc))).
    + apply F3_eq; cbn [a3 b3 c3 kmul rmul K6 cubic kemb kadj]; ring.
    + rewrite kadj_mul. apply F3_eq; cbn [a3 b3 c3 kmul kemb ro K6 cubic k1]; [rewrite Hw|..]; ring.
  - intros E. assert (va = 0 /\ vb = 0 /\ vc = 0) as (-> & -> & ->).
    { split; [exact (f_equal a3 E)|]. split; [exact (f_equal b3 E)|exact (f_equal c3 E)]. }
    apply F3_eq; cbn [a3 b3 c3 kmul kemb kadj rz K6 cubic k0]; ring.
Qed.

(** ** The product of Fp6, with its lazy reductions *)
Definition q4 : Z := pNTbl c 2.
Lemma q4_eq : (4 * q4 = p * W)%Z /\ dv c q4 = f0.
Proof.
  unfold q4, pNTbl, pN. assert (E : (W = 4 * (W / 4))%Z) by (rewrite W_val; reflexivity).
  assert (E2 : (p * W / 2 ^ 2 = p * (W / 4))%Z).
  { change (2 ^ 2)%Z with 4%Z. rewrite E at 1. replace (p * (4 * (W / 4)))%Z with (p * (W / 4) * 4)%Z by ring. apply Z.div_mul. lia. }
  rewrite E2. split; [rewrite E at 2; ring|apply dv_pk].
Qed.
Definition can2 (x : fp2) : Prop := can c (a2 x) /\ can c (b2 x).
Lemma rep2_can x v : rep2 x v -> can2 x.
Proof. intros [[H _] [H2 _]]. split; assumption. Qed.
Lemma mulOpt1_a x y : can2 x -> can2 y ->
  a2 (d2_mulOpt1 c x y) = (a2 x * a2 y + q4 - b2 x * b2 y)%Z.
Proof.
  intros [X1 X2] [Y1 Y2]. unfold d2_mulOpt1, d2_mulOpt, dbl_subOpt1. cbn [a2 b2]. fold q4. unfold dbl_mul.
  pose proof (canb c _ _ X1 Y1). pose proof (canb c _ _ X2 Y2). pose proof (proj1 q4_eq). pose proof (pp_W c). pose proof (pW_W2' c).
  pose proof (cp_pos c). pose proof W_pos.
  rewrite dbl_addNC_small by lia. apply dbl_subNC_small. lia.
Qed.
(** The three products x_i y_i *)
Definition tpart (x y : fp2) (T : dbl2) : Prop :=
  a2 T = (a2 x * a2 y + q4 - b2 x * b2 y)%Z /\ b2 T = (a2 x * b2 y + b2 x * a2 y)%Z.
Lemma can2_lt2 x : can2 x -> lt2 c x.
Proof. intros [H1 H2]. split; apply can_lt2p; assumption. Qed.
Lemma tpart_ok x y : can2 x -> can2 y -> tpart x y (d2_mulOpt1 c x y).
Proof. intros. split; [apply mulOpt1_a; auto|apply mulOpt_b; apply can2_lt2; auto]. Qed.
Lemma tpart_rep x y v w T : rep2 x v -> rep2 y w -> tpart x y T -> drep2 T (v * w).
Proof.
  intros [[X1 EX1] [X2 EX2]] [[Y1 EY1] [Y2 EY2]] [Ea Eb].
  pose proof (canb c _ _ X1 Y1). pose proof (canb c _ _ X2 Y2). pose proof (canb c _ _ X1 Y2). pose proof (canb c _ _ X2 Y1).
  pose proof (proj1 q4_eq). pose proof (pp_W c). pose proof (cp_pos c). pose proof W_pos.
  split.
  - rewrite Ea. split; [lia|]. rewrite dv_sub, dv_add, !dv_mul, (proj2 q4_eq), EX1, EX2, EY1, EY2.
    cbn [rmul K2 quad qmul a2 b2]. change (a2 v * a2 w + 0 - b2 v * b2 w = a2 v * a2 w + - (1) * (b2 v * b2 w) :> FpR p). ring.
  - rewrite Eb. split; [lia|]. rewrite dv_add, !dv_mul, EX1, EX2, EY1, EY2. reflexivity.
Qed.
(** (x + y)(x' + y') - x x' - y y', lazily *)
Definition crossZ (x y x' y' : fp2) : Z := (a2 x * b2 y' + b2 x * a2 y' + (a2 y * b2 x' + b2 y * a2 x'))%Z.
Lemma addNC_eq x y : can2 x -> can2 y -> f2_addNC x y = mk2 (a2 x + a2 y)%Z (b2 x + b2 y)%Z.
Proof.
  intros [X1 X2] [Y1 Y2]. unfold can in *. pose proof (cp_lt_W c). unfold f2_addNC. rewrite !fp_addNC_small by lia. reflexivity.
Qed.
Lemma cross_ok x y x' y' v w v' w' T T' : rep2 x v -> rep2 y w -> rep2 x' v' -> rep2 y' w' ->
  tpart x x' T -> tpart y y' T' ->
  let zc := d2_mulOpt2 c (f2_addNC x y) (f2_addNC x' y') in
  let zb := d2_addNC T T' in
  drep1 (dbl_sub c (a2 zc) (a2 zb)) (a2 (v * w' + w * v')) /\
  dbl_subNC (b2 zc) (b2 zb) = crossZ x y x' y' /\
  (0 <= crossZ x y x' y' <= 4 * (p * p))%Z /\ dv c (crossZ x y x' y') = b2 (v * w' + w * v').
Proof.
  intros Hx Hy Hx' Hy' HT HT' zc zb.
  pose proof (rep2_can _ _ Hx) as Cx. pose proof (rep2_can _ _ Hy) as Cy. pose proof (rep2_can _ _ Hx') as Cx'. pose proof (rep2_can _ _ Hy') as Cy'.
  assert (Rb : drep1 (a2 zb) (a2 (v * v' + w * w')) /\ b2 zb = (b2 T + b2 T')%Z /\ (0 <= b2 T + b2 T' <= 4 * (p * p))%Z).
  { unfold zb, d2_addNC. cbn [a2 b2].
    pose proof (tpart_rep _ _ _ _ _ Hx Hx' HT) as [[A1 A2] [B1 B2]]. pose proof (tpart_rep _ _ _ _ _ Hy Hy' HT') as [[A1' A2'] [B1' B2']].
    pose proof (pW_W2' c). pose proof (pp_W c) as HpW. pose proof (cp_pos c). pose proof W_pos. pose proof (proj1 q4_eq) as Hq.
    assert (a2 T + a2 T' < p * W)%Z.
    { destruct HT as [-> _], HT' as [-> _]. destruct Cx as [X1 X2], Cy as [Y1 Y2], Cx' as [X1' X2'], Cy' as [Y1' Y2'].
      pose proof (canb c _ _ X1 X1'). pose proof (canb c _ _ Y1 Y1'). pose proof (canb c _ _ X2 X2'). pose proof (canb c _ _ Y2 Y2'). lia. }
    rewrite !dbl_addNC_small by lia. split; [|split].
    - split; [lia|]. rewrite dv_add, A2, A2'. reflexivity.
    - reflexivity.
    - destruct HT as [_ ->], HT' as [_ ->]. destruct Cx as [X1 X2], Cy as [Y1 Y2], Cx' as [X1' X2'], Cy' as [Y1' Y2'].
      pose proof (canb c _ _ X1 X2'). pose proof (canb c _ _ Y1 Y2'). pose proof (canb c _ _ X2 X1'). pose proof (canb c _ _ Y2 Y1'). lia. }
  destruct Rb as (Rba & Ebb & Hbb).
  assert (Lt : lt2 c (f2_addNC x y) /\ lt2 c (f2_addNC x' y')).
  { rewrite !addNC_eq by assumption. unfold lt2, lt2p. cbn [a2 b2]. destruct Cx, Cy, Cx', Cy'. unfold can in *. clear Rba. lia. }
  destruct Lt as [L1 L2].
  pose proof (mulOpt2_a c _ _ L1 L2) as Ma. pose proof (mulOpt_b c false _ _ L1 L2) as Mb. fold (d2_mulOpt2 c) in Mb. fold zc in Ma, Mb.
  clearbody zc zb. rewrite !addNC_eq in Ma, Mb by assumption. cbn [a2 b2] in Ma, Mb. clear L1 L2.
  destruct Hx as [[X1 EX1] [X2 EX2]], Hx' as [[X1' EX1'] [X2' EX2']], Hy as [[Y1 EY1] [Y2 EY2]], Hy' as [[Y1' EY1'] [Y2' EY2']].
  split; [|split; [|split]].
  - eapply drep1_eq; [apply dsub_rep1; [exact Ma|exact Rba]|].
    rewrite !dv_mul, !fv_add, EX1, EX2, EY1, EY2, EX1', EX2', EY1', EY2'.
    cbn [radd rmul K2 quad qadd qmul a2 b2].
    change ((a2 v + a2 w) * (a2 v' + a2 w') - (b2 v + b2 w) * (b2 v' + b2 w') -
      (a2 v * a2 v' + - (1) * (b2 v * b2 v') + (a2 w * a2 w' + - (1) * (b2 w * b2 w'))) =
      a2 v * a2 w' + - (1) * (b2 v * b2 w') + (a2 w * a2 v' + - (1) * (b2 w * b2 v')) :> FpR p). ring.
  - rewrite Mb, Ebb. destruct HT as [_ ET], HT' as [_ ET']. rewrite ET, ET'. clear Rba Ma Mb Hbb ET ET'.
    pose proof (canb c _ _ X1 Y2'). pose proof (canb c _ _ X2 Y1'). pose proof (canb c _ _ Y1 X2'). pose proof (canb c _ _ Y2 X1').
    pose proof (pp_W c). pose proof (pW_W2' c). pose proof (cp_pos c). pose proof W_pos.
    rewrite dbl_subNC_small; [unfold crossZ; ring|].
    match goal with |- (0 <= ?e < _)%Z => replace e with (crossZ x y x' y') by (unfold crossZ; ring) end.
    unfold crossZ. lia.
  - pose proof (canb c _ _ X1 Y2'). pose proof (canb c _ _ X2 Y1'). pose proof (canb c _ _ Y1 X2'). pose proof (canb c _ _ Y2 X1').
    unfold crossZ. lia.
  - unfold crossZ. rewrite !dv_add, !dv_mul, EX1, EX2, EY1, EY2, EX1', EX2', EY1', EY2'. reflexivity.
Qed.
Lemma xiT2 x y v w T : rep2 x v -> rep2 y w -> tpart x y T ->
  drep2 (if snark c then d2_mul_xi c T else mk2 (dbl_subOpt1 c (a2 T) (b2 T)) (dbl_add c (a2 T) (b2 T))) (xi c * (v * w)).
Proof.
  intros Hx Hy HT. pose proof (tpart_rep _ _ _ _ _ Hx Hy HT) as R.
  destruct (snark c) eqn:Es; [apply d2_mul_xi_rep, R|].
  assert (H6 : (6 * p < W)%Z) by (destruct c; [apply cp_6|discriminate|discriminate]).
  rewrite (xi_B c Es). destruct R as [Ra Rb]. apply drep2_mk; cbn [rmul K2 quad qmul a2 b2].
  - unfold dbl_subOpt1. fold q4. pose proof Ra as [Ra1 Ra2]. pose proof Rb as [Rb1 Rb2].
    destruct (rep2_can _ _ Hx) as [X1 X2], (rep2_can _ _ Hy) as [Y1 Y2].
    pose proof (canb c _ _ X1 Y1). pose proof (canb c _ _ X2 Y2). pose proof (canb c _ _ X1 Y2). pose proof (canb c _ _ X2 Y1).
    pose proof (proj1 q4_eq) as Hq. pose proof (pp_W c). pose proof (pW_W2' c). pose proof (cp_pos c). pose proof W_pos.
    assert (H66 : (6 * (p * p) < p * W)%Z) by nia.
    destruct HT as [Ea Eb].
    rewrite dbl_addNC_small by lia. rewrite dbl_subNC_small by (rewrite Ea, Eb in *; lia).
    split; [rewrite Ea, Eb in *; lia|].
    rewrite dv_sub, dv_add, Ra2, Rb2, (proj2 q4_eq). cbn [rmul K2 quad qmul a2 b2].
    set (A := a2 v * a2 w + _). set (D := a2 v * b2 w + _).
    change (A + 0 - D = 1 * A + - (1) * (1 * D) :> FpR p). ring.
  - eapply drep1_eq; [apply dadd_rep1; eassumption|]. cbn [rmul K2 quad qmul a2 b2].
    set (A := a2 v * a2 w + _). set (D := a2 v * b2 w + _).
    change (A + D = 1 * D + 1 * A :> FpR p). ring.
Qed.
Lemma d6_mul_gen x y v w : rep6 x v -> rep6 y w ->
  let z := d6_mul c x y in
  drep2 (a3 z) (a3 (v * w)) /\ drep2 (b3 z) (b3 (v * w)) /\ drep1 (a2 (c3 z)) (a2 (c3 (v * w))) /\
  (0 <= b2 (c3 z) <= 6 * (p * p))%Z /\ dv c (b2 (c3 z)) = b2 (c3 (v * w)).
Proof.
  destruct x as [xa xb xc], y as [ya yb yc], v as [va vb vc], w as [wa wb wc].
  intros (Xa & Xb & Xc) (Ya & Yb & Yc). cbn [a3 b3 c3] in Xa, Xb, Xc, Ya, Yb, Yc.
  set (Q := fun z : dbl6 => drep2 (a3 z) (a3 ((mk3 va vb vc : K6 c) * mk3 wa wb wc)) /\
    drep2 (b3 z) (b3 ((mk3 va vb vc : K6 c) * mk3 wa wb wc)) /\
    drep1 (a2 (c3 z)) (a2 (c3 ((mk3 va vb vc : K6 c) * mk3 wa wb wc))) /\
    (0 <= b2 (c3 z) <= 6 * (p * p))%Z /\ dv c (b2 (c3 z)) = b2 (c3 ((mk3 va vb vc : K6 c) * mk3 wa wb wc))).
  change (Q (d6_mul c (mk3 xa xb xc) (mk3 ya yb yc))).
  cbv beta iota delta [d6_mul a3 b3 c3].
  letI Q. intros T0 E0. cbv beta. letI Q. intros T1 E1. cbv beta. letI Q. intros T2 E2. cbv beta.
  assert (P0 : tpart xa ya T0) by (rewrite E0; apply tpart_ok; eapply rep2_can; eassumption).
  assert (P1 : tpart xb yb T1) by (rewrite E1; apply tpart_ok; eapply rep2_can; eassumption).
  assert (P2 : tpart xc yc T2) by (rewrite E2; apply tpart_ok; eapply rep2_can; eassumption).
  clear E0 E1 E2.
  pose proof (cross_ok _ _ _ _ _ _ _ _ _ _ Xb Xc Yb Yc P1 P2) as (A1 & A2 & A3 & A4).
  pose proof (cross_ok _ _ _ _ _ _ _ _ _ _ Xa Xb Ya Yb P0 P1) as (B1 & B2 & B3 & B4).
  pose proof (cross_ok _ _ _ _ _ _ _ _ _ _ Xa Xc Ya Yc P0 P2) as (C1 & C2 & C3 & C4).
  pose proof (xiT2 _ _ _ _ _ Xc Yc P2) as D.
  pose proof (tpart_rep _ _ _ _ _ Xa Ya P0) as R0. pose proof (tpart_rep _ _ _ _ _ Xb Yb P1) as R1.
  cbv zeta in A1, A2, B1, B2, C1, C2 |- *. cbn [a2 b2] in *. subst Q. cbv beta. cbn [a3 b3 c3].
  replace (d2_addNC T2 T0) with (d2_addNC T0 T2).
  2:{ unfold d2_addNC, dbl_addNC. f_equal; f_equal; lia. }
  pose proof (pp_W c) as HpW.
  split; [|split; [|split]].
  - rewrite A2. eapply (drep2_eq c).
    + apply d2_add_rep; [apply d2_mul_xi_rep|exact R0].
      instantiate (1 := vb * wc + vc * wb). apply drep2_mk; [exact A1|split; [lia|exact A4]].
    + k6. ring.
  - rewrite B2. eapply (drep2_eq c).
    + apply d2_add_rep; [exact D|].
      instantiate (1 := va * wb + vb * wa). apply drep2_mk; [exact B1|split; [lia|exact B4]].
    + k6. ring.
  - eapply drep1_eq; [apply dadd_rep1; [exact C1|exact (proj1 R1)]|]. k6.
    cbn [radd K2 quad qadd a2]. ring.
  - rewrite C2. destruct P1 as [_ P1]. rewrite P1. destruct R1 as [_ [_ R1]]. rewrite P1 in R1.
    destruct (rep2_can _ _ Xb) as [Z1 Z2], (rep2_can _ _ Yb) as [Z3 Z4].
    pose proof (canb c _ _ Z1 Z4). pose proof (canb c _ _ Z2 Z3). pose proof (cp_pos c). pose proof W_pos. pose proof (pW_W2' c).
    rewrite dbl_addNC_small by lia. cbn [b2]. split; [lia|]. rewrite dv_add, C4, R1. k6. cbn [radd K2 quad qadd b2]. 
    set (q1 := b2 (va * wc)). set (q2 := b2 (vc * wa)). set (q3 := b2 (vb * wb)). change (q1 + q2 + q3 = q1 + q3 + q2 :> FpR p). ring.
Qed.
Lemma d6_mul_rep x y v w : (6 * p < W)%Z -> rep6 x v -> rep6 y w -> drep6 (d6_mul c x y) (v * w).
Proof.
  intros H6 Hx Hy. destruct (d6_mul_gen _ _ _ _ Hx Hy) as (A1 & A2 & A3 & A4 & A5).
  repeat split; try apply A1; try apply A2; try apply A3; [lia| |exact A5]. pose proof (cp_pos c). nia.
Qed.

(** ** Fp12 *)
Lemma rep12_mk x y v : rep6 x (a2 v) -> rep6 y (b2 v) -> rep12 (mk2 x y) v.
Proof. intros; split; assumption. Qed.
Lemma rep12_eq x v w : rep12 x v -> v = w -> rep12 x w.
Proof. intros H <-. exact H. Qed.
Lemma rep12_inj x y v : rep12 x v -> rep12 y v -> x = y.
Proof. intros (H1 & H2) (H4 & H5). apply F2_eq; eapply rep6_inj; eauto. Qed.
Lemma rep12_fun x v w : rep12 x v -> rep12 x w -> v = w.
Proof. intros (H1 & H2) (H4 & H5). apply F2_eq; eapply rep6_fun; eauto. Qed.
Lemma rep12_surj v : exists x, rep12 x v.
Proof. destruct (rep6_surj (a2 v)) as (x & Hx). destruct (rep6_surj (b2 v)) as (y & Hy). exists (mk2 x y). apply rep12_mk; auto. Qed.
Lemma f12_add_rep x y v w : rep12 x v -> rep12 y w -> rep12 (f12_add c x y) (v + w).
Proof. intros [] []. apply rep12_mk; apply f6_add_rep; auto. Qed.
Lemma f12_sub_rep x y v w : rep12 x v -> rep12 y w -> rep12 (f12_sub c x y) (v - w).
Proof. intros [] []. apply rep12_mk; apply f6_sub_rep; auto. Qed.
Lemma f12_neg_rep x v : rep12 x v -> rep12 (f12_neg c x) (- v).
Proof. intros []. apply rep12_mk; apply f6_neg_rep; auto. Qed.
Lemma f12_0_rep : rep12 f12_0 0.
Proof. apply rep12_mk; apply f6_0_rep. Qed.
Lemma f12_1_rep : rep12 (f12_1 c) 1.
Proof. apply rep12_mk; [apply f6_1_rep|apply f6_0_rep]. Qed.
Lemma d6_mul_gamma_add_rep x y v w : drep6 x v -> drep6 y w -> drep6 (d6_mul_gamma_add c x y) ((kgen (K2 c) : K6 c) * v + w).
Proof.
  intros (A & A' & A'') (D & D' & D''). unfold d6_mul_gamma_add. apply drep6_mk.
  - eapply (drep2_eq c); [apply d2_add_rep; [apply d2_mul_xi_rep|]; eassumption|k6; ring].
  - eapply (drep2_eq c); [apply d2_add_rep; eassumption|k6; ring].
  - eapply (drep2_eq c); [apply d2_add_rep; eassumption|k6; ring].
Qed.
Lemma f6_mul_gamma_add_rep x y v w : rep6 x v -> rep6 y w -> rep6 (f6_mul_gamma_add c x y) ((kgen (K2 c) : K6 c) * v + w).
Proof.
  intros (A & A' & A'') (D & D' & D''). unfold f6_mul_gamma_add. apply rep6_mk.
  - eapply (rep2_eq c); [apply f2_add_rep; [apply f2_mul_xi_rep|]; eassumption|k6; ring].
  - eapply (rep2_eq c); [apply f2_add_rep; eassumption|k6; ring].
  - eapply (rep2_eq c); [apply f2_add_rep; eassumption|k6; ring].
Qed.
Lemma f6_eqb_rep x y v w : rep6 x v -> rep6 y w -> (f6_eqb x y = true <-> v = w).
Proof.
  intros (A & A' & A'') (D & D' & D''). unfold f6_eqb. rewrite !andb_true_iff.
  rewrite (f2_eqb_rep c _ _ _ _ A D), (f2_eqb_rep c _ _ _ _ A' D'), (f2_eqb_rep c _ _ _ _ A'' D'').
  split; [intros [[] ?]; apply F3_eq; auto|intros ->; auto].
Qed.
Lemma f6_isZero_rep x v : rep6 x v -> (f6_isZero x = true <-> v = 0).
Proof.
  intros (A & A' & A''). unfold f6_isZero. rewrite !andb_true_iff.
  rewrite (f2_isZero_rep c _ _ A), (f2_isZero_rep c _ _ A'), (f2_isZero_rep c _ _ A'').
  split; [intros [[] ?]; apply F3_eq; auto|intros ->; auto].
Qed.
Lemma f12_eqb_rep x y v w : rep12 x v -> rep12 y w -> (f12_eqb x y = true <-> v = w).
Proof.
  intros (A & A') (D & D'). unfold f12_eqb. rewrite !andb_true_iff.
  rewrite (f6_eqb_rep _ _ _ _ A D), (f6_eqb_rep _ _ _ _ A' D').
  split; [intros []; apply F2_eq; auto|intros ->; auto].
Qed.
Lemma f12_isZero_rep x v : rep12 x v -> (f12_isZero x = true <-> v = 0).
Proof.
  intros (A & A'). unfold f12_isZero. rewrite !andb_true_iff.
  rewrite (f6_isZero_rep _ _ A), (f6_isZero_rep _ _ A').
  split; [intros []; apply F2_eq; auto|intros ->; auto].
Qed.

Section Six.
Hypothesis H6 : (6 * p < W)%Z.
Lemma f6_mul_rep x y v w : rep6 x v -> rep6 y w -> rep6 (f6_mul c x y) (v * w).
Proof. intros. apply d6_mod_rep, d6_mul_rep; auto. Qed.
Lemma f12_mul_rep x y v w : rep12 x v -> rep12 y w -> rep12 (f12_mul c x y) (v * w).
Proof.
  intros [Xa Xb] [Ya Yb]. unfold f12_mul. cbv zeta.
  pose proof (d6_mul_rep _ _ _ _ H6 Xa Ya) as T0. pose proof (d6_mul_rep _ _ _ _ H6 Xb Yb) as T1.
  pose proof (d6_mul_rep _ _ _ _ H6 (f6_add_rep _ _ _ _ Xa Xb) (f6_add_rep _ _ _ _ Ya Yb)) as Td.
  apply rep12_mk; k12; apply d6_mod_rep.
  - eapply drep6_eq; [exact (d6_mul_gamma_add_rep _ _ _ _ T1 T0)|ring].
  - eapply drep6_eq; [exact (d6_sub_rep _ _ _ _ Td (d6_add_rep _ _ _ _ T0 T1))|ring].
Qed.
Lemma f12_square_rep x v : rep12 x v -> rep12 (f12_square c x) (v * v).
Proof.
  intros [Xa Xb]. unfold f12_square. cbv zeta.
  pose proof (f6_add_rep _ _ _ _ Xa Xb) as T0. pose proof (f6_mul_gamma_add_rep _ _ _ _ Xb Xa) as T1.
  pose proof (f6_mul_rep _ _ _ _ Xb Xa) as Zb. pose proof (f6_mul_rep _ _ _ _ T0 T1) as Za.
  pose proof (f6_mul_gamma_add_rep _ _ _ _ Zb Zb) as T2.
  apply rep12_mk; k12.
  - eapply rep6_eq; [exact (f6_sub_rep _ _ _ _ Za T2)|ring].
  - eapply rep6_eq; [exact (f6_add_rep _ _ _ _ Zb Zb)|ring].
Qed.
Lemma f12_inverse_rep x v : rep12 x v -> exists y w, f12_inverse c x = Ok y /\ rep12 y w /\ (v <> 0 -> w * v = 1) /\ (v = 0 -> w = 0).
Proof.
  intros [Xa Xb]. unfold f12_inverse. cbv zeta.
  pose proof (f6_square_rep _ _ Xa) as (S1 & S2 & S3). pose proof (f6_square_rep _ _ Xb) as (T1 & T2 & T3).
  set (sa := f6_square c (a2 x)) in *. set (sb := f6_square c (b2 x)) in *. clearbody sa sb.
  set (N := a2 v * a2 v - (kgen (K2 c) : K6 c) * (b2 v * b2 v)).
  assert (RN : rep6 (mk3 (f2_sub c (a3 sa) (f2_mul_xi c (c3 sb))) (f2_sub c (b3 sa) (a3 sb)) (f2_sub c (c3 sa) (b3 sb))) N).
  { unfold N. apply rep6_mk.
    - eapply (rep2_eq c); [apply f2_sub_rep; [|apply f2_mul_xi_rep]; eassumption|k6; ring].
    - eapply (rep2_eq c); [apply f2_sub_rep; eassumption|k6; ring].
    - eapply (rep2_eq c); [apply f2_sub_rep; eassumption|k6; ring]. }
  destruct (f6_inverse_rep _ _ RN) as (n & wn & En & Rn & Hn & Hn0). rewrite En. cbn [bind].
  eexists _, (mk2 (a2 v * wn) (- (b2 v * wn)) : K12 c). split; [reflexivity|]. split; [|split].
  - apply rep12_mk; k12; [apply f6_mul_rep|apply f6_neg_rep, f6_mul_rep]; auto.
  - intros Hv. pose proof (qnorm_nz (K6 c) (kgen (K2 c)) (K6_field c) (fun x => kgen_nonsquare (K2 c) (xi c) (xi_nonsquare c) x) v Hv) as Nz.
    specialize (Hn Nz). apply F2_eq; k12; [|ring]. rewrite <- Hn. unfold N. ring.
  - intros ->. apply F2_eq; k12; ring.
Qed.
End Six.

(** ** sqru, and the sparse products *)
Lemma sq_Fp4_rep x0 x1 v0 v1 : rep2 x0 v0 -> rep2 x1 v1 ->
  rep2 (fst (sq_Fp4 c x0 x1)) (v0 * v0 + xi c * (v1 * v1)) /\ rep2 (snd (sq_Fp4 c x0 x1)) (v0 * v1 + v0 * v1).
Proof.
  intros H0 H1. unfold sq_Fp4. cbv zeta. cbn [fst snd]. split.
  - eapply (rep2_eq c); [rep_solve|ring].
  - eapply (rep2_eq c); [rep_solve|ring].
Qed.
Definition two : K2 c := 1 + 1.
Definition three : K2 c := 1 + 1 + 1.
Lemma f2_3t_sub_2z_rep t z v w : rep2 t v -> rep2 z w -> rep2 (f2_3t_sub_2z c t z) (three * v - two * w).
Proof. intros. unfold f2_3t_sub_2z. cbv zeta. eapply (rep2_eq c); [rep_solve|unfold two, three; ring]. Qed.
Lemma f2_3t_add_2z_rep t z v w : rep2 t v -> rep2 z w -> rep2 (f2_3t_add_2z c t z) (three * v + two * w).
Proof. intros. unfold f2_3t_add_2z. cbv zeta. eapply (rep2_eq c); [rep_solve|unfold two, three; ring]. Qed.

(** x + y v^2 + z v w as an element of Fp12: what the triple (a, b, c) of a line function stands for. *)
Definition line12 (l : K6 c) : K12 c := mk2 (mk3 (a3 l) 0 (c3 l)) (mk3 0 (b3 l) 0).
Lemma f12_mul_024_rep z x v w : rep12 z v -> rep6 x w -> rep12 (f12_mul_024 c z x) (v * line12 w).
Proof.
  destruct z as [[z0 z1 z2] [z3 z4 z5]], v as [[v0 v1 v2] [v3 v4 v5]], x as [xa xb xc], w as [wa wb wc].
  intros ((Z0 & Z1 & Z2) & (Z3 & Z4 & Z5)) (X0 & X4 & X2). cbn [a2 b2 a3 b3 c3] in *.
  set (Q := fun r => rep12 r ((mk2 (mk3 v0 v1 v2) (mk3 v3 v4 v5) : K12 c) * line12 (mk3 wa wb wc))).
  change (Q (f12_mul_024 c (mk2 (mk3 z0 z1 z2) (mk3 z3 z4 z5)) (mk3 xa xb xc))).
  cbv beta iota delta [f12_mul_024 a2 b2 a3 b3 c3].
  do 9 (letI Q; intros ? ->; cbv beta).
  repeat stepL Q. subst Q. cbv beta.
  apply rep12_mk; apply rep6_mk; (eapply (rep2_eq c); [eassumption|unfold line12; k12; k6; ring]).
Qed.
Lemma f12_mul_024_024_rep x y v w : rep6 x v -> rep6 y w -> rep12 (f12_mul_024_024 c x y) (line12 v * line12 w).
Proof.
  destruct x as [x0 x4 x2], v as [v0 v4 v2], y as [y0 y4 y2], w as [w0 w4 w2].
  intros (X0 & X4 & X2) (Y0 & Y4 & Y2). cbn [a2 b2 a3 b3 c3] in *.
  set (Q := fun r => rep12 r (line12 (mk3 v0 v4 v2) * line12 (mk3 w0 w4 w2))).
  change (Q (f12_mul_024_024 c (mk3 x0 x4 x2) (mk3 y0 y4 y2))).
  cbv beta iota delta [f12_mul_024_024 a2 b2 a3 b3 c3].
  do 6 (letI Q; intros ? ->; cbv beta).
  repeat stepL Q. subst Q. cbv beta.
  apply rep12_mk; apply rep6_mk; (eapply (rep2_eq c); [first [eassumption|apply f2_0_rep]|unfold line12; k12; k6; ring]).
Qed.
End L6.
