(** The checked Miller loops on the SNARK curves: if they go through, millerLoop and millerLoop2
    return the same and their values multiply; the pairing then has order dividing r. *)
From Coq Require Import ZArith Znumtheory List Bool Lia Ring.
From Verif Require Import Base Prim Loop Power Alg FpSpec Cfg FpM FpProofs TowerSpec TowerField TowerM Fp2Proofs Fp6Proofs Frob ParamM ParamProofs FinalM FinalProofs FinalExp TowerApi TowerWit SnarkPow SnarkRun SnarkFinal EcSpec EcM EcInst EcApi PairM PairProofs PairStep PairApi PairObj SnarkWit.
Import ListNotations.
Local Open Scope Z_scope.

Section Mil.
Variables (c : cfg) (P : param).
Hypothesis HI : paramInit (snark c) (curveOf c) = Ok P.
Hypothesis HS : snark c = true.
Add Ring KRsm : (rth (K12 c)).
Local Open Scope r_scope.
Lemma csquare_ok x y v : csquare c x = Some y -> rep12 c x v -> y = f12_square c x /\ rep12 c y (v * v).
Proof.
  unfold csquare. destruct (in12sqb c x) eqn:E; [|discriminate]. intros H Hx. injection H as <-. split; [reflexivity|].
  apply (f12_square_in c); [|exact Hx]. unfold in12sqb in E. apply andb_true_iff in E as [E1 E2]. split; apply in6b_ok; assumption.
Qed.
Lemma cline_ok v i x y xp yp l : cline c v i x y = Some l -> wfL c v -> rep1 c x xp -> rep1 c y yp ->
  exists l0 w, at_ v i = Ok l0 /\ l = mulFp6_24 c l0 x y /\ rep6 c l w.
Proof.
  unfold cline, at_. intros H W Hx Hy. destruct (nth_error v i) as [l0|] eqn:E; [|discriminate H]. injection H as <-.
  assert (A : at_ v i = Ok l0) by (unfold at_; rewrite E; reflexivity).
  destruct (ln_rep c v i l0 x y xp yp W A Hx Hy) as (w & Hw). exists l0, w. auto.
Qed.
Section One.
Variables (v : list fp6) (x y : Z) (xp yp : FpR (cp c)).
Hypothesis W : wfL c v.
Hypothesis Hx : rep1 c x xp.
Hypothesis Hy : rep1 c y yp.
Lemma cmloop_ok ds : forall f g i s, cmloop c v x y ds f i = Some s -> rep12 c f g ->
  foldR (mloop_step c v x y) ds (f, i) = Ok s /\ exists h, rep12 c (fst s) h.
Proof.
  induction ds as [|d ds IH]; intros f g i s H Hf; cbn [cmloop foldR] in *.
  - injection H as <-. split; [reflexivity|]. exists g. exact Hf.
  - destruct (cline c v i x y) as [l|] eqn:El; [|discriminate H]. destruct (csquare c f) as [f1|] eqn:Ef; [|discriminate H].
    destruct (cline_ok _ _ _ _ _ _ _ El W Hx Hy) as (l0 & w & A & -> & Rl). destruct (csquare_ok _ _ _ Ef Hf) as [-> R1].
    unfold mloop_step at 1. rewrite A. cbn [bind]. pose proof (f12_mul_024_rep c _ _ _ _ R1 Rl) as R2. destruct (d =? 0)%Z.
    + cbn [bind]. exact (IH _ _ _ _ H R2).
    + destruct (cline c v (S i) x y) as [l'|] eqn:El'; [|discriminate H]. destruct (cline_ok _ _ _ _ _ _ _ El' W Hx Hy) as (l0' & w' & A' & -> & Rl').
      rewrite A'. cbn [bind]. exact (IH _ _ _ _ H (f12_mul_024_rep c _ _ _ _ R2 Rl')).
Qed.
Lemma cmiller_ok f : cmillerLoop c P v x y = Some f -> millerLoop c P v x y = Ok f /\ exists g, rep12 c f g.
Proof.
  unfold cmillerLoop, millerLoop. destruct (cline c v 0 x y) as [d|] eqn:Ed; [|discriminate]. destruct (cline c v 1 x y) as [e|] eqn:Ee; [|discriminate].
  destruct (cline_ok _ _ _ _ _ _ _ Ed W Hx Hy) as (d0 & wd & Ad & -> & Rd). destruct (cline_ok _ _ _ _ _ _ _ Ee W Hx Hy) as (e0 & we & Ae & -> & Re).
  destruct (cmloop c v x y (skipn 2 (par_si P)) (f12_mul_024_024 c (mulFp6_24 c d0 x y) (mulFp6_24 c e0 x y)) 2) as [[f1 i]|] eqn:E1; [|discriminate].
  destruct (cmloop_ok _ _ _ _ _ E1 (f12_mul_024_024_rep c _ _ _ _ Rd Re)) as (F1 & h & Rh). cbn [fst] in Rh.
  destruct (cline c v i x y) as [d'|] eqn:Ed'; [|discriminate]. destruct (cline c v (S i) x y) as [e'|] eqn:Ee'; [|discriminate]. intros H.
  destruct (cline_ok _ _ _ _ _ _ _ Ed' W Hx Hy) as (d1 & wd1 & Ad1 & -> & Rd1). destruct (cline_ok _ _ _ _ _ _ _ Ee' W Hx Hy) as (e1 & we1 & Ae1 & -> & Re1).
  destruct (cmul_ok c _ _ _ _ _ H Rh (f12_mul_024_024_rep c _ _ _ _ Rd1 Re1)) as [-> R].
  rewrite Ad, Ae. cbn [bind]. rewrite F1. cbn [bind]. rewrite HS, Ad1, Ae1. cbn [bind]. split; [reflexivity|]. eexists. exact R.
Qed.
Lemma cpairing_ok y' : cpairing c P v x y = Some y' ->
  exists f g, millerLoop c P v x y = Ok f /\ rep12 c f g /\ g <> 0 /\ f12_final_exp c P f = Ok y' /\
    rep12 c y' (rpz g ((cp c ^ 12 - 1) / cr c * fexp_mult c)%Z) /\ exists w, rep12 c y' w /\ rpz w (cr c) = 1.
Proof.
  unfold cpairing. destruct (cmillerLoop c P v x y) as [f|] eqn:E; [|discriminate]. destruct (f12_isZero f) eqn:Z; [discriminate|]. intros H.
  destruct (cmiller_ok _ E) as (M & g & R). exists f, g. split; [exact M|]. split; [exact R|].
  assert (N : g <> 0). { intros ->. rewrite (proj2 (f12_isZero_rep c _ _ R) eq_refl) in Z. discriminate Z. }
  split; [exact N|]. destruct (cfinal_ok c P HI HS f g y' H R N) as [F1 F2]. split; [exact F1|]. split; [exact F2|].
  exact (proj2 (cfinal_order c P f g y' HI HS H R N)).
Qed.
End One.
Section Both.
Variables (v1 v2 : list fp6) (x1 y1 x2 y2 : Z) (xp1 yp1 xp2 yp2 : FpR (cp c)).
Hypothesis V1 : wfL c v1.
Hypothesis V2 : wfL c v2.
Hypothesis X1 : rep1 c x1 xp1.
Hypothesis Y1 : rep1 c y1 yp1.
Hypothesis X2 : rep1 c x2 xp2.
Hypothesis Y2 : rep1 c y2 yp2.
Ltac ln H V X Y l w A R := match type of H with cline _ _ _ _ _ = Some _ => destruct (cline_ok _ _ _ _ _ _ _ H V X Y) as (l & w & A & -> & R) end.
Ltac opt E := match goal with |- context [match ?t with Some _ => _ | None => None end = Some _] => destruct t eqn:E; [|discriminate] end.
Lemma cmloop2_ok ds : forall f f1 f2 g1 g2 i s s1 s2, rep12 c f (g1 * g2) -> rep12 c f1 g1 -> rep12 c f2 g2 ->
  cmloop2 c v1 x1 y1 v2 x2 y2 ds f i = Some s -> cmloop c v1 x1 y1 ds f1 i = Some s1 -> cmloop c v2 x2 y2 ds f2 i = Some s2 ->
  foldR (mloop2_step c v1 x1 y1 v2 x2 y2) ds (f, i) = Ok s /\ snd s1 = snd s /\ snd s2 = snd s /\
  exists h1 h2, rep12 c (fst s) (h1 * h2) /\ rep12 c (fst s1) h1 /\ rep12 c (fst s2) h2.
Proof.
  induction ds as [|d ds IH]; intros f f1 f2 g1 g2 i s s1 s2 Hf H1 H2 E E1 E2; cbn [cmloop2 cmloop foldR] in *.
  - injection E as <-. injection E1 as <-. injection E2 as <-. cbn [fst snd]. split; [reflexivity|]. split; [reflexivity|]. split; [reflexivity|]. exists g1, g2. auto.
  - destruct (cline c v1 i x1 y1) as [l1|] eqn:L1; [|discriminate E]. destruct (cline c v2 i x2 y2) as [l2|] eqn:L2; [|discriminate E].
    destruct (csquare c f) as [q|] eqn:Q; [|discriminate E]. destruct (csquare c f1) as [q1|] eqn:Q1; [|discriminate E1]. destruct (csquare c f2) as [q2|] eqn:Q2; [|discriminate E2].
    ln L1 V1 X1 Y1 a1 w1 A1 R1. ln L2 V2 X2 Y2 a2' w2 A2 R2.
    destruct (csquare_ok _ _ _ Q Hf) as [-> S0]. destruct (csquare_ok _ _ _ Q1 H1) as [-> S1]. destruct (csquare_ok _ _ _ Q2 H2) as [-> S2].
    destruct (cmul c (f12_square c f) _) as [p|] eqn:Ep; [|discriminate E]. destruct (cmul_ok c _ _ _ _ _ Ep S0 (f12_mul_024_024_rep c _ _ _ _ R1 R2)) as [-> Rp].
    pose proof (f12_mul_024_rep c _ _ _ _ S1 R1) as T1. pose proof (f12_mul_024_rep c _ _ _ _ S2 R2) as T2.
    unfold mloop2_step at 1. rewrite A1, A2. cbn [bind]. destruct (d =? 0)%Z.
    + cbn [bind]. refine (IH _ _ _ _ _ _ _ _ _ _ T1 T2 E E1 E2). eapply (rep12_eq c); [exact Rp|]. ring.
    + destruct (cline c v1 (S i) x1 y1) as [l1'|] eqn:L1'; [|discriminate E]. destruct (cline c v2 (S i) x2 y2) as [l2'|] eqn:L2'; [|discriminate E].
      ln L1' V1 X1 Y1 b1 u1 B1 U1. ln L2' V2 X2 Y2 b2' u2 B2 U2.
      match type of E with match cmul c ?a ?b with _ => _ end = _ => destruct (cmul c a b) as [p|] eqn:Ep'; [|discriminate E] end.
      destruct (cmul_ok c _ _ _ _ _ Ep' Rp (f12_mul_024_024_rep c _ _ _ _ U1 U2)) as [-> Rp'].
      rewrite B1, B2. cbn [bind].
      refine (IH _ _ _ _ _ _ _ _ _ _ (f12_mul_024_rep c _ _ _ _ T1 U1) (f12_mul_024_rep c _ _ _ _ T2 U2) E E1 E2). eapply (rep12_eq c); [exact Rp'|]. ring.
Qed.
Lemma cmiller2_ok f f1 f2 : cmillerLoop c P v1 x1 y1 = Some f1 -> cmillerLoop c P v2 x2 y2 = Some f2 -> cmillerLoop2 c P v1 x1 y1 v2 x2 y2 = Some f ->
  millerLoop c P v1 x1 y1 = Ok f1 /\ millerLoop c P v2 x2 y2 = Ok f2 /\ millerLoop2 c P v1 x1 y1 v2 x2 y2 = Ok f /\
  exists g1 g2, rep12 c f (g1 * g2) /\ rep12 c f1 g1 /\ rep12 c f2 g2.
Proof.
  intros M1 M2 M. split; [exact (proj1 (cmiller_ok v1 x1 y1 xp1 yp1 V1 X1 Y1 f1 M1))|]. split; [exact (proj1 (cmiller_ok v2 x2 y2 xp2 yp2 V2 X2 Y2 f2 M2))|].
  unfold cmillerLoop in M1, M2. unfold cmillerLoop2 in M. unfold millerLoop2.
  destruct (cline c v1 0 x1 y1) as [d1|] eqn:D1; [|discriminate M]. destruct (cline c v2 0 x2 y2) as [d2|] eqn:D2; [|discriminate M].
  destruct (cline c v1 1 x1 y1) as [e1|] eqn:E1; [|discriminate M]. destruct (cline c v2 1 x2 y2) as [e2|] eqn:E2; [|discriminate M].
  ln D1 V1 X1 Y1 a1 w1 A1 R1. ln D2 V2 X2 Y2 a2' w2 A2 R2. ln E1 V1 X1 Y1 b1 u1 B1 U1. ln E2 V2 X2 Y2 b2' u2 B2 U2.
  match type of M with match cmul c ?a ?b with _ => _ end = _ => destruct (cmul c a b) as [p|] eqn:Ep; [|discriminate M] end.
  pose proof (f12_mul_024_024_rep c _ _ _ _ R1 U1) as F1. pose proof (f12_mul_024_024_rep c _ _ _ _ R2 U2) as F2.
  destruct (cmul_ok c _ _ _ _ _ Ep F1 F2) as [-> Rp].
  match type of M with match cmloop2 ?a ?b ?cc ?d ?e ?f ?g ?h ?i ?j with _ => _ end = _ => destruct (cmloop2 a b cc d e f g h i j) as [[q i']|] eqn:Q; [|discriminate M] end.
  match type of M1 with match cmloop ?a ?b ?cc ?d ?e ?f ?g with _ => _ end = _ => destruct (cmloop a b cc d e f g) as [[q1 i1]|] eqn:Q1; [|discriminate M1] end.
  match type of M2 with match cmloop ?a ?b ?cc ?d ?e ?f ?g with _ => _ end = _ => destruct (cmloop a b cc d e f g) as [[q2 i2]|] eqn:Q2; [|discriminate M2] end.
  destruct (cmloop2_ok _ _ _ _ _ _ _ _ _ _ Rp F1 F2 Q Q1 Q2) as (L & I1 & I2 & h1 & h2 & Rh & Rh1 & Rh2). cbn [fst snd] in *. subst i1 i2.
  destruct (cline c v1 i' x1 y1) as [d1|] eqn:D1'; [|discriminate M]. destruct (cline c v2 i' x2 y2) as [d2|] eqn:D2'; [|discriminate M].
  destruct (cline c v1 (S i') x1 y1) as [e1|] eqn:E1'; [|discriminate M]. destruct (cline c v2 (S i') x2 y2) as [e2|] eqn:E2'; [|discriminate M].
  ln D1' V1 X1 Y1 a1' w1' A1' R1'. ln D2' V2 X2 Y2 a2'' w2' A2' R2'. ln E1' V1 X1 Y1 b1' u1' B1' U1'. ln E2' V2 X2 Y2 b2'' u2' B2' U2'.
  pose proof (f12_mul_024_024_rep c _ _ _ _ R1' U1') as F1'. pose proof (f12_mul_024_024_rep c _ _ _ _ R2' U2') as F2'.
  match type of M with match cmul c ?a ?b with _ => _ end = _ => destruct (cmul c a b) as [p|] eqn:Ep'; [|discriminate M] end.
  destruct (cmul_ok c _ _ _ _ _ Ep' Rh F1') as [-> T1]. destruct (cmul_ok c _ _ _ _ _ M T1 F2') as [-> T2].
  destruct (cmul_ok c _ _ _ _ _ M1 Rh1 F1') as [-> T3]. destruct (cmul_ok c _ _ _ _ _ M2 Rh2 F2') as [-> T4].
  rewrite A1, A2, B1, B2. cbn [bind]. rewrite L. cbn [bind]. rewrite HS, A1', A2', B1', B2'. cbn [bind]. split; [reflexivity|].
  eexists _, _. split; [|split; [exact T3|exact T4]]. eapply (rep12_eq c); [exact T2|]. ring.
Qed.
End Both.
End Mil.

(** a run that goes through: all lines are 1 except the last but one, which is 2 *)
Definition cnt (ds : list Z) : nat := fold_right (fun d n => ((if (d =? 0)%Z then 1 else 2) + n)%nat) 0%nat ds.
Section Wit.
Variables (c : cfg) (P : param).
Hypothesis HI : paramInit (snark c) (curveOf c) = Ok P.
Hypothesis HS : snark c = true.
Variables (x y : Z) (xp yp : FpR (cp c)).
Hypothesis Hx : rep1 c x xp.
Hypothesis Hy : rep1 c y yp.
Add Ring KRsmw : (rth (K12 c)).
Add Ring KRsmw6 : (rth (K6 c)).
Add Ring KRsmw2 : (rth (K2 c)).
Add Ring KRsmw1 : (rth (FpR (cp c))).
Local Open Scope r_scope.
Local Notation o := (f12_1 c).
Lemma i6_6u a : rep6u c (i6 c a) (e6 c (mk (cp c) a)).
Proof. apply rep6_6u. apply i6_rep; assumption. Qed.
Lemma mul24_i6 a : mulFp6_24 c (i6 c a) x y = i6 c a.
Proof.
  apply (rep6_inj c _ _ (e6 c (mk (cp c) a))); [|apply i6_rep; assumption].
  eapply (rep6_eq c); [exact (mulFp6_24_rep c _ _ x y xp yp (i6_6u a) Hx Hy)|].
  unfold e6. apply F3_eq; cbn [a3 b3 c3]; try reflexivity; ring.
Qed.
Lemma line_e6 a : line12 c (e6 c a) = e12 c a.
Proof. reflexivity. Qed.
Lemma m024_1 : f12_mul_024 c o (i6 c 1) = o.
Proof.
  apply (rep12_inj c _ _ _ (f12_mul_024_rep c _ _ _ _ (f12_1_rep c) (i6_rep c HS 1))). rewrite line_e6, e12_1. rewrite one_one. apply f12_1_rep.
Qed.
Lemma m024_024 a : f12_mul_024_024 c (i6 c a) (i6 c 1) = i12 c a.
Proof.
  apply (rep12_inj c _ _ _ (f12_mul_024_024_rep c _ _ _ _ (i6_rep c HS a) (i6_rep c HS 1))). rewrite !line_e6, e12_1.
  eapply (rep12_eq c); [apply i12_rep; assumption|]. ring.
Qed.
Lemma i12_o : i12 c 1 = o.
Proof. apply (rep12_inj c _ _ _ (i12_rep c HS 1)). rewrite e12_1. apply f12_1_rep. Qed.
Lemma o_square : csquare c o = Some o.
Proof.
  assert (I : in12sq c o) by (unfold in12sq, in6; rewrite <- !Z.ltb_lt; clear -HS; split; (destruct c; [discriminate HS| |]; vm_compute; reflexivity)).
  unfold csquare, in12sqb. rewrite (proj2 (in6b_ok c _ _) (proj1 I)), (proj2 (in6b_ok c _ _) (proj2 I)). cbn [andb]. f_equal.
  apply (rep12_inj c _ _ _ (f12_square_in c _ _ I (f12_1_rep c))). rewrite one_one. apply f12_1_rep.
Qed.
Lemma o_i2 : cmul c o (i12 c 2) = Some (i12 c 2).
Proof.
  assert (I : in12 c o (i12 c 2)) by (unfold in12, in6; rewrite <- !Z.ltb_lt; clear -HS; split; [|split]; (destruct c; [discriminate HS| |]; vm_compute; reflexivity)).
  unfold cmul. rewrite (proj2 (in12b_ok c _ _) I). f_equal.
  apply (rep12_inj c _ _ _ (f12_mul_in c _ _ _ _ I (f12_1_rep c) (i12_rep c HS 2))). eapply (rep12_eq c); [apply i12_rep; assumption|]. ring.
Qed.
Definition wv (a : Z) (n : nat) : list fp6 := repeat (i6 c 1) n ++ [i6 c a; i6 c 1].
Lemma cline_1 a n i : (i < n)%nat -> cline c (wv a n) i x y = Some (i6 c 1).
Proof.
  intros H. unfold cline, wv. rewrite nth_error_app1 by (rewrite repeat_length; exact H).
  rewrite (nth_error_repeat _ H). rewrite mul24_i6. reflexivity.
Qed.
Lemma wv_loop a n ds : forall i, (i + cnt ds <= n)%nat -> cmloop c (wv a n) x y ds o i = Some (o, (i + cnt ds)%nat).
Proof.
  induction ds as [|d ds IH]; intros i H; cbn [cmloop]; unfold cnt in *; cbn [fold_right] in *.
  - rewrite Nat.add_0_r. reflexivity.
  - destruct (d =? 0)%Z.
    + rewrite cline_1, o_square by lia. rewrite m024_1. rewrite IH by lia. do 2 f_equal. lia.
    + rewrite cline_1, o_square by lia. rewrite m024_1, cline_1 by lia. rewrite m024_1. rewrite IH by lia. do 2 f_equal. lia.
Qed.
Definition wn : nat := (2 + cnt (skipn 2 (par_si P)))%nat.
Lemma wv_miller a : cmillerLoop c P (wv a wn) x y = cmul c o (i12 c a).
Proof.
  assert (L : (2 <= wn)%nat) by (unfold wn; lia).
  unfold cmillerLoop. rewrite !cline_1 by lia. rewrite m024_024, i12_o. rewrite wv_loop by (unfold wn; lia). fold wn.
  assert (E1 : cline c (wv a wn) wn x y = Some (i6 c a)).
  { unfold cline, wv. rewrite nth_error_app2 by (rewrite repeat_length; lia). rewrite repeat_length, Nat.sub_diag. cbn [nth_error]. rewrite mul24_i6. reflexivity. }
  assert (E2 : cline c (wv a wn) (S wn) x y = Some (i6 c 1)).
  { unfold cline, wv. rewrite nth_error_app2 by (rewrite repeat_length; lia). rewrite repeat_length. replace (S wn - wn)%nat with 1%nat by lia. cbn [nth_error]. rewrite mul24_i6. reflexivity. }
  rewrite E1, E2, m024_024. reflexivity.
Qed.
Lemma cline_w a : cline c (wv a wn) wn x y = Some (i6 c a) /\ cline c (wv a wn) (S wn) x y = Some (i6 c 1).
Proof.
  unfold cline, wv. rewrite !nth_error_app2 by (rewrite repeat_length; lia). rewrite repeat_length, Nat.sub_diag. replace (S wn - wn)%nat with 1%nat by lia.
  cbn [nth_error]. rewrite !mul24_i6. split; reflexivity.
Qed.
Lemma wv_loop2 a a' n ds : forall i, (i + cnt ds <= n)%nat -> cmloop2 c (wv a n) x y (wv a' n) x y ds o i = Some (o, (i + cnt ds)%nat).
Proof.
  pose proof (o_mul c HS) as OM.
  induction ds as [|d ds IH]; intros i H; cbn [cmloop2]; unfold cnt in *; cbn [fold_right] in *.
  - rewrite Nat.add_0_r. reflexivity.
  - destruct (d =? 0)%Z.
    + rewrite !cline_1, o_square by lia. rewrite m024_024, i12_o, OM. rewrite IH by lia. do 2 f_equal. lia.
    + rewrite !cline_1, o_square by lia. rewrite m024_024, i12_o, OM, OM. rewrite IH by lia. do 2 f_equal. lia.
Qed.
Lemma wv_miller2 : cmillerLoop2 c P (wv 1 wn) x y (wv 2 wn) x y = Some (i12 c 2).
Proof.
  pose proof (o_mul c HS) as OM. assert (L : (2 <= wn)%nat) by (unfold wn; lia).
  unfold cmillerLoop2. rewrite !cline_1 by lia. rewrite m024_024, i12_o, OM. rewrite wv_loop2 by (unfold wn; lia). fold wn.
  rewrite !(proj1 (cline_w _)), !(proj2 (cline_w _)). rewrite !m024_024, i12_o, OM. exact o_i2.
Qed.
Lemma wv_wf a n : wfL c (wv a n).
Proof.
  apply Forall_app. split; [|repeat constructor; eexists; apply i6_6u].
  apply Forall_forall. intros l H. apply repeat_spec in H. subst l. eexists. apply i6_6u.
Qed.
Lemma i2_nz : f12_isZero (i12 c 2) = false.
Proof.
  destruct (f12_isZero (i12 c 2)) eqn:E; [|reflexivity]. apply (f12_isZero_rep c _ _ (i12_rep c HS 2)) in E. exfalso.
  pose proof (cp_bounds c) as Bd. apply (f_equal (fun v => a2 (a3 (a2 v)))) in E. change (mk (cp c) 2 = mk (cp c) 0) in E. apply mk_eq in E. rewrite !Z.mod_small in E by lia. discriminate E.
Qed.
Lemma wv_pairing : cpairing c P (wv 2 wn) x y = Some o.
Proof. unfold cpairing. rewrite wv_miller, o_i2, i2_nz. apply x2_final; assumption. Qed.
End Wit.
Lemma cpairing_ex c P x y xp yp : paramInit (snark c) (curveOf c) = Ok P -> snark c = true -> rep1 c x xp -> rep1 c y yp ->
  exists v f, wfL c v /\ cpairing c P v x y = Some f.
Proof. intros HI HS Hx Hy. exists (wv c 2 (wn P)), (f12_1 c). split; [apply wv_wf; assumption|]. exact (wv_pairing c P HI HS x y xp yp Hx Hy). Qed.
Lemma cmiller2_ex c P x y xp yp : paramInit (snark c) (curveOf c) = Ok P -> snark c = true -> rep1 c x xp -> rep1 c y yp ->
  exists v1 v2 e1 e2 f e, wfL c v1 /\ wfL c v2 /\ cpairing c P v1 x y = Some e1 /\ cpairing c P v2 x y = Some e2 /\
    cmillerLoop2 c P v1 x y v2 x y = Some f /\ cfinal c P f = Some e.
Proof.
  intros HI HS Hx Hy. exists (wv c 1 (wn P)), (wv c 2 (wn P)), (f12_1 c), (f12_1 c), (i12 c 2), (f12_1 c). split; [apply wv_wf; assumption|]. split; [apply wv_wf; assumption|].
  split; [|split; [exact (wv_pairing c P HI HS x y xp yp Hx Hy)|split; [exact (wv_miller2 c P HI HS x y xp yp Hx Hy)|apply x2_final; assumption]]].
  unfold cpairing. rewrite (wv_miller c P HI HS x y xp yp Hx Hy). pose proof (i12_o c HS) as E. rewrite E. rewrite (o_mul c HS).
  destruct (f12_isZero (f12_1 c)) eqn:Z.
  - apply (f12_isZero_rep c _ _ (f12_1_rep c)) in Z. exfalso. exact (field_nz _ (K12_field c) Z).
  - pose proof (o_final c P HI HS) as F. rewrite E in F. exact F.
Qed.
Lemma cpairing_loop c P v x y xp yp e : paramInit (snark c) (curveOf c) = Ok P -> snark c = true -> wfL c v -> rep1 c x xp -> rep1 c y yp ->
  cpairing c P v x y = Some e -> (let! f := millerLoop c P v x y in f12_final_exp c P f) = Ok e /\ exists w, rep12 c e w /\ rpz w (cr c) = ro.
Proof.
  intros HI HS V Hx Hy H. destruct (cpairing_ok c P HI HS v x y xp yp V Hx Hy e H) as (f & g & M & _ & _ & F & _ & O). split; [|exact O].
  rewrite M. exact F.
Qed.
(** opt_atePairing *)
Lemma cpairing_ate c P xq yq vx vy x y xp yp f : paramInit (snark c) (curveOf c) = Ok P -> snark c = true -> rep2 c xq vx -> rep2 c yq vy -> rep1 c x xp -> rep1 c y yp ->
  cpairing c P (preG2 c P xq yq) x y = Some f -> opt_ate c P xq yq x y = Ok f /\ exists w, rep12 c f w /\ rpz w (cr c) = ro.
Proof.
  intros HI HS Qx Qy Hx Hy H. destruct (cpairing_ok c P HI HS _ x y xp yp (preG2_wf c P (param_par_ok c P HI) _ _ _ _ Qx Qy) Hx Hy f H) as (g & gv & M & _ & _ & F & _ & O).
  split; [|exact O]. rewrite (pre_ate c P xq yq x y), M. exact F.
Qed.
(** the two exponentiations multiply *)
Lemma cmiller2_final c P v1 v2 x1 y1 x2 y2 xp1 yp1 xp2 yp2 f e1 e2 e : paramInit (snark c) (curveOf c) = Ok P -> snark c = true -> wfL c v1 -> wfL c v2 ->
  rep1 c x1 xp1 -> rep1 c y1 yp1 -> rep1 c x2 xp2 -> rep1 c y2 yp2 ->
  cpairing c P v1 x1 y1 = Some e1 -> cpairing c P v2 x2 y2 = Some e2 -> cmillerLoop2 c P v1 x1 y1 v2 x2 y2 = Some f -> cfinal c P f = Some e ->
  (let! m := millerLoop2 c P v1 x1 y1 v2 x2 y2 in f12_final_exp c P m) = Ok e /\ exists w1 w2, rep12 c e1 w1 /\ rep12 c e2 w2 /\ rep12 c e (rmul w1 w2).
Proof.
  intros HI HS V1 V2 X1 Y1 X2 Y2 H1 H2 H E.
  destruct (cpairing_ok c P HI HS _ _ _ _ _ V1 X1 Y1 _ H1) as (f1 & g1 & M1 & R1 & N1 & _ & P1 & _).
  destruct (cpairing_ok c P HI HS _ _ _ _ _ V2 X2 Y2 _ H2) as (f2 & g2 & M2 & R2 & N2 & _ & P2 & _).
  unfold cpairing in H1, H2. destruct (cmillerLoop c P v1 x1 y1) as [h1|] eqn:C1; [|discriminate H1]. destruct (cmillerLoop c P v2 x2 y2) as [h2|] eqn:C2; [|discriminate H2].
  destruct (cmiller2_ok c P HS v1 v2 x1 y1 x2 y2 xp1 yp1 xp2 yp2 V1 V2 X1 Y1 X2 Y2 f h1 h2 C1 C2 H) as (K1 & K2 & K & k1 & k2 & Rf & Rk1 & Rk2).
  rewrite M1 in K1. injection K1 as <-. rewrite M2 in K2. injection K2 as <-.
  assert (k1 = g1) by exact (rep12_fun c _ _ _ Rk1 R1). assert (k2 = g2) by exact (rep12_fun c _ _ _ Rk2 R2). subst k1 k2.
  assert (N : rmul g1 g2 <> rz) by (intros F; apply (field_integral _ (K12_field c)) in F; destruct F; contradiction).
  destruct (cfinal_ok c P HI HS f _ e E Rf N) as [F R]. rewrite K. cbn [bind]. split; [exact F|]. eexists _, _. split; [exact P1|]. split; [exact P2|].
  eapply (rep12_eq c); [exact R|]. apply rpz_mulb.
Qed.
