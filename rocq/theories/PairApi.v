(** The pairing functions of the library: precomputed and combined Miller loops, points as
    objects, representatives, infinity. *)
From Coq Require Import ZArith Znumtheory Lia Ring List Bool.
From Verif Require Import Base Prim FpSpec Pock Primes Cfg FpProofs FpM TowerSpec TowerField TowerM Fp2Proofs Fp6Proofs Frob ParamM ParamProofs FinalM FinalProofs FinalExp TowerApi Poly EcSpec EcGroup EcM EcProofs EcInst EcFrob EcApi EcTors Cocyc Biext PairM PairProofs PairE PairH PairStep PairBil PairLin.
Import ListNotations.
Local Open Scope Z_scope.

(** ** precomputeG2 + millerLoop = the Miller loop of opt_atePairing *)
Section Pre.
Variables (c : cfg) (P : param).
Lemma at_app v l u : at_ (v ++ l :: u) (length v) = Ok l.
Proof. unfold at_. rewrite nth_error_app2 by lia. rewrite Nat.sub_diag. reflexivity. Qed.
Lemma at_app2 v l l' u : at_ (v ++ l :: l' :: u) (S (length v)) = Ok l'.
Proof. unfold at_. rewrite nth_error_app2 by lia. replace (S (length v) - length v)%nat with 1%nat by lia. reflexivity. Qed.
Lemma pre_loop xq yq yqn xp yp ds : forall v T f,
  let '(v', T') := fold_left (pre_step c P xq yq yqn) ds (v, T) in
  let '(f', T'') := fold_left (miller_step c P xq yq yqn xp yp) ds (f, T) in
  T' = T'' /\ forall u, foldR (mloop_step c (v' ++ u) xp yp) ds (f, length v) = Ok (f', length v') /\ exists w, v' = v ++ w.
Proof.
  induction ds as [|d ds IH]; intros v T f; cbn [fold_left foldR].
  - split; [reflexivity|]. intros u. split; [reflexivity|]. exists []. symmetry. apply app_nil_r.
  - unfold pre_step at 2. unfold miller_step at 2. unfold dblLine. destruct (dblLineWP c P T) as [l T1].
    assert (Hd : (d >? 0 = true /\ d =? 0 = false) \/ (d >? 0 = false /\ d <? 0 = true /\ d =? 0 = false) \/ (d >? 0 = false /\ d <? 0 = false /\ d =? 0 = true)).
    { destruct (Z.eqb_spec d 0); destruct (Z.gtb_spec d 0); destruct (Z.ltb_spec d 0); try lia; auto 6. }
    set (f1 := f12_mul_024 c (f12_square c f) (mulFp6_24 c l xp yp)).
    destruct Hd as [[G Z0] | [(G & L & Z0) | (G & L & Z0)]]; rewrite ?G, ?L.
    + unfold addLine. destruct (addLineWP c T1 xq yq) as [l2 T2]. set (f2 := f12_mul_024 c f1 (mulFp6_24 c l2 xp yp)).
      specialize (IH ((v ++ [l]) ++ [l2]) T2 f2). destruct (fold_left (pre_step c P xq yq yqn) ds ((v ++ [l]) ++ [l2], T2)) as [v' T'].
      destruct (fold_left (miller_step c P xq yq yqn xp yp) ds (f2, T2)) as [f' T'']. destruct IH as [IT IH]. split; [exact IT|]. intros u.
      destruct (IH u) as [IF (w & Ew)]. assert (Ev : v' ++ u = v ++ l :: l2 :: w ++ u) by (rewrite Ew, <- !app_assoc; reflexivity).
      split; [|exists (l :: l2 :: w); rewrite Ew, <- !app_assoc; reflexivity].
      unfold mloop_step at 1. rewrite Ev, at_app. cbn [bind]. rewrite at_app2, Z0. cbn [bind]. rewrite <- Ev.
      fold f1. fold f2. rewrite <- IF. do 2 f_equal. rewrite !app_length. cbn [length]. lia.
    + unfold addLine. destruct (addLineWP c T1 xq yqn) as [l2 T2]. set (f2 := f12_mul_024 c f1 (mulFp6_24 c l2 xp yp)).
      specialize (IH ((v ++ [l]) ++ [l2]) T2 f2). destruct (fold_left (pre_step c P xq yq yqn) ds ((v ++ [l]) ++ [l2], T2)) as [v' T'].
      destruct (fold_left (miller_step c P xq yq yqn xp yp) ds (f2, T2)) as [f' T'']. destruct IH as [IT IH]. split; [exact IT|]. intros u.
      destruct (IH u) as [IF (w & Ew)]. assert (Ev : v' ++ u = v ++ l :: l2 :: w ++ u) by (rewrite Ew, <- !app_assoc; reflexivity).
      split; [|exists (l :: l2 :: w); rewrite Ew, <- !app_assoc; reflexivity].
      unfold mloop_step at 1. rewrite Ev, at_app. cbn [bind]. rewrite at_app2, Z0. cbn [bind]. rewrite <- Ev.
      fold f1. fold f2. rewrite <- IF. do 2 f_equal. rewrite !app_length. cbn [length]. lia.
    + specialize (IH (v ++ [l]) T1 f1). destruct (fold_left (pre_step c P xq yq yqn) ds (v ++ [l], T1)) as [v' T'].
      destruct (fold_left (miller_step c P xq yq yqn xp yp) ds (f1, T1)) as [f' T'']. destruct IH as [IT IH]. split; [exact IT|]. intros u.
      destruct (IH u) as [IF (w & Ew)]. assert (Ev : v' ++ u = v ++ l :: w ++ u) by (rewrite Ew, <- !app_assoc; reflexivity).
      split; [|exists (l :: w); rewrite Ew, <- !app_assoc; reflexivity].
      unfold mloop_step at 1. rewrite Ev, at_app, Z0. cbn [bind]. rewrite <- Ev.
      fold f1. rewrite <- IF. do 2 f_equal. rewrite !app_length. cbn [length]. lia.
Qed.
Lemma pre_miller xq yq xp yp : millerLoop c P (preG2 c P xq yq) xp yp = Ok (miller c P xq yq xp yp).
Proof.
  unfold millerLoop, preG2, miller. unfold dblLine, addLine. destruct (dblLineWP c P (mk3 xq yq (f2_1 c))) as [d T]. destruct (addLineWP c T xq yq) as [e T0].
  set (f0 := f12_mul_024_024 c (mulFp6_24 c d xp yp) (mulFp6_24 c e xp yp)).
  pose proof (pre_loop xq yq (f2_neg c yq) xp yp (skipn 2 (par_si P)) [d; e] T0 f0) as L.
  destruct (fold_left (pre_step c P xq yq (f2_neg c yq)) (skipn 2 (par_si P)) ([d; e], T0)) as [v T1].
  destruct (fold_left (miller_step c P xq yq (f2_neg c yq) xp yp) (skipn 2 (par_si P)) (f0, T0)) as [f T1']. destruct L as [<- L].
  destruct (FrobEnd1 c P xq yq) as [xq1 yq1]. destruct (if snark c then let '(x, y) := FrobEnd2 c P xq yq in (x, f2_neg c y) else FrobEnd8 c P xq yq) as [xq2 yq2].
  assert (ET : (if snark c then (f, T1) else (mk2 (a2 f) (f6_neg c (b2 f)), mk3 (a3 T1) (f2_neg c (b3 T1)) (c3 T1))) =
    (if snark c then f else mk2 (a2 f) (f6_neg c (b2 f)), if snark c then T1 else mk3 (a3 T1) (f2_neg c (b3 T1)) (c3 T1))) by (destruct (snark c); reflexivity).
  rewrite ET. clear ET. set (T2 := if snark c then T1 else _). set (f1 := if snark c then f else _).
  destruct (addLineWP c T2 xq1 yq1) as [d1 T3]. destruct (addLineWP c T3 xq2 yq2) as [d2 T4].
  destruct (L [d1; d2]) as [LF (w & Ew)]. assert (Ev : (v ++ [d1]) ++ [d2] = v ++ [d1; d2]) by (rewrite <- app_assoc; reflexivity).
  rewrite Ev. assert (A0 : at_ (v ++ [d1; d2]) 0 = Ok d) by (rewrite Ew; reflexivity). assert (A1 : at_ (v ++ [d1; d2]) 1 = Ok e) by (rewrite Ew; reflexivity).
  rewrite A0, A1. cbn [bind]. fold f0. cbn [length] in LF. rewrite LF. cbn [bind]. fold f1. rewrite at_app, at_app2. reflexivity.
Qed.
End Pre.

(** ** millerLoop2 = product of two Miller loops *)
Section M2.
Local Open Scope r_scope.
Variable c : cfg.
Variable P : param.
Hypothesis HB : snark c = false.
Add Ring KR12a : (rth (K12 c)).
Add Ring KR6a : (rth (K6 c)).
Ltac k12 := cbn [radd rmul rsub ropp rz ro K12 quad qadd qsub qopp qmul q0 q1 a2 b2].
(** a vector of lines as precomputeG2 returns it: coefficients of Fp2, the third below 3p *)
Definition wfL (v : list fp6) : Prop := Forall (fun l => exists w, rep6u c l w) v.
Lemma at_wf v i l : wfL v -> at_ v i = Ok l -> exists w, rep6u c l w.
Proof using. intros H E. unfold at_ in E. destruct (nth_error v i) as [l'|] eqn:N; [|discriminate E]. injection E as <-. exact (proj1 (Forall_forall _ v) H l' (nth_error_In _ _ N)). Qed.
Lemma ln_rep v i l x y xp yp : wfL v -> at_ v i = Ok l -> rep1 c x xp -> rep1 c y yp -> exists w, rep6 c (mulFp6_24 c l x y) w.
Proof using. intros H E Hx Hy. destruct (at_wf v i l H E) as (w & Hw). eexists. apply mulFp6_24_rep; eassumption. Qed.
Lemma conj12_mul (x y : K12 c) : conj12 c (x * y) = conj12 c x * conj12 c y.
Proof using. unfold conj12. apply F2_eq; k12; ring. Qed.
Variables (v1 v2 : list fp6) (x1 y1 x2 y2 : Z) (xp1 yp1 xp2 yp2 : FpR (cp c)).
Hypothesis V1 : wfL v1.
Hypothesis V2 : wfL v2.
Hypothesis X1 : rep1 c x1 xp1.
Hypothesis Y1 : rep1 c y1 yp1.
Hypothesis X2 : rep1 c x2 xp2.
Hypothesis Y2 : rep1 c y2 yp2.
Local Notation mul_rep := (f12_mul_rep c (cp_6_c c HB)).
Local Notation sq_rep := (f12_square_rep c (cp_6_c c HB)).
Lemma bind_Ok {A B} (m : res A) (k : A -> res B) b : bind m k = Ok b -> exists a, m = Ok a /\ k a = Ok b.
Proof using. destruct m as [a| | | |]; cbn [bind]; intros H; try discriminate H. exists a. auto. Qed.
Lemma mstep1 v x y xp yp f g i d s : wfL v -> rep1 c x xp -> rep1 c y yp -> rep12 c f g -> mloop_step c v x y (f, i) d = Ok s ->
  exists l w, at_ v i = Ok l /\ rep6 c (mulFp6_24 c l x y) w /\
  if (d =? 0)%Z then rep12 c (fst s) (g * g * line12 c w) /\ snd s = S i
  else exists l' w', at_ v (S i) = Ok l' /\ rep6 c (mulFp6_24 c l' x y) w' /\ rep12 c (fst s) (g * g * line12 c w * line12 c w') /\ snd s = S (S i).
Proof using HB.
  intros Hv Hx Hy Hf H. unfold mloop_step in H. apply bind_Ok in H as (l & El & H). destruct (ln_rep v i l x y xp yp Hv El Hx Hy) as (w & Hw).
  exists l, w. split; [exact El|]. split; [exact Hw|]. pose proof (f12_mul_024_rep c _ _ _ _ (sq_rep _ _ Hf) Hw) as R1. destruct (Z.eqb d 0).
  - injection H as <-. split; [exact R1|reflexivity].
  - apply bind_Ok in H as (l' & El' & H). destruct (ln_rep v (S i) l' x y xp yp Hv El' Hx Hy) as (w' & Hw'). exists l', w'. split; [exact El'|]. split; [exact Hw'|].
    injection H as <-. split; [|reflexivity]. exact (f12_mul_024_rep c _ _ _ _ R1 Hw').
Qed.
Lemma mloop2_ok ds : forall f f1 f2 g1 g2 i s1 s2, rep12 c f (g1 * g2) -> rep12 c f1 g1 -> rep12 c f2 g2 ->
  foldR (mloop_step c v1 x1 y1) ds (f1, i) = Ok s1 -> foldR (mloop_step c v2 x2 y2) ds (f2, i) = Ok s2 ->
  exists f' g1' g2' j, foldR (mloop2_step c v1 x1 y1 v2 x2 y2) ds (f, i) = Ok (f', j) /\ snd s1 = j /\ snd s2 = j /\
    rep12 c f' (g1' * g2') /\ rep12 c (fst s1) g1' /\ rep12 c (fst s2) g2'.
Proof using HB V1 V2 X1 Y1 X2 Y2.
  induction ds as [|d ds IH]; intros f f1 f2 g1 g2 i s1 s2 Hf H1 H2 E1 E2; cbn [foldR] in *.
  - injection E1 as <-. injection E2 as <-. exists f, g1, g2, i. auto 6.
  - apply bind_Ok in E1 as ([n1 j1] & S1 & E1). apply bind_Ok in E2 as ([n2 j2] & S2 & E2).
    destruct (mstep1 _ _ _ _ _ _ _ _ _ _ V1 X1 Y1 H1 S1) as (l1 & w1 & A1 & W1 & T1).
    destruct (mstep1 _ _ _ _ _ _ _ _ _ _ V2 X2 Y2 H2 S2) as (l2 & w2 & A2 & W2 & T2). cbn [fst snd] in *.
    unfold mloop2_step at 1. rewrite A1, A2. cbn [bind].
    pose proof (mul_rep _ _ _ _ (sq_rep _ _ Hf) (f12_mul_024_024_rep c _ _ _ _ W1 W2)) as R1. destruct (Z.eqb d 0).
    + destruct T1 as [T1 ->], T2 as [T2 ->]. cbn [bind].
      refine (IH _ n1 n2 (g1 * g1 * line12 c w1) (g2 * g2 * line12 c w2) (S i) s1 s2 _ T1 T2 E1 E2). eapply (rep12_eq c); [exact R1|]. ring.
    + destruct T1 as (l1' & w1' & A1' & W1' & T1 & ->), T2 as (l2' & w2' & A2' & W2' & T2 & ->). rewrite A1', A2'. cbn [bind].
      pose proof (mul_rep _ _ _ _ R1 (f12_mul_024_024_rep c _ _ _ _ W1' W2')) as R2.
      refine (IH _ n1 n2 (g1 * g1 * line12 c w1 * line12 c w1') (g2 * g2 * line12 c w2 * line12 c w2') (S (S i)) s1 s2 _ T1 T2 E1 E2). eapply (rep12_eq c); [exact R2|]. ring.
Qed.
Theorem millerLoop2_ok f1 f2 : millerLoop c P v1 x1 y1 = Ok f1 -> millerLoop c P v2 x2 y2 = Ok f2 ->
  exists f g1 g2, millerLoop2 c P v1 x1 y1 v2 x2 y2 = Ok f /\ rep12 c f (g1 * g2) /\ rep12 c f1 g1 /\ rep12 c f2 g2.
Proof using HB V1 V2 X1 Y1 X2 Y2.
  intros E1 E2. unfold millerLoop in E1, E2.
  apply bind_Ok in E1 as (d1 & A1 & E1). apply bind_Ok in E1 as (e1 & B1 & E1). apply bind_Ok in E1 as (s1 & S1 & E1).
  apply bind_Ok in E2 as (d2 & A2 & E2). apply bind_Ok in E2 as (e2 & B2 & E2). apply bind_Ok in E2 as (s2 & S2 & E2).
  destruct (ln_rep _ _ _ _ _ _ _ V1 A1 X1 Y1) as (wd1 & D1). destruct (ln_rep _ _ _ _ _ _ _ V1 B1 X1 Y1) as (we1 & De1).
  destruct (ln_rep _ _ _ _ _ _ _ V2 A2 X2 Y2) as (wd2 & D2). destruct (ln_rep _ _ _ _ _ _ _ V2 B2 X2 Y2) as (we2 & De2).
  pose proof (f12_mul_024_024_rep c _ _ _ _ D1 De1) as R1. pose proof (f12_mul_024_024_rep c _ _ _ _ D2 De2) as R2.
  destruct (mloop2_ok _ _ _ _ _ _ _ _ _ (mul_rep _ _ _ _ R1 R2) R1 R2 S1 S2) as (f' & g1 & g2 & j & EL & J1 & J2 & Rf & Rg1 & Rg2).
  destruct s1 as [h1 j1], s2 as [h2 j2]. cbn [fst snd] in *. subst j1 j2. rewrite HB in E1, E2.
  apply bind_Ok in E1 as (a1 & C1 & E1). apply bind_Ok in E1 as (b1 & F1 & E1). injection E1 as <-.
  apply bind_Ok in E2 as (a2' & C2 & E2). apply bind_Ok in E2 as (b2' & F2 & E2). injection E2 as <-.
  destruct (ln_rep _ _ _ _ _ _ _ V1 C1 X1 Y1) as (wa1 & Da1). destruct (ln_rep _ _ _ _ _ _ _ V1 F1 X1 Y1) as (wb1 & Db1).
  destruct (ln_rep _ _ _ _ _ _ _ V2 C2 X2 Y2) as (wa2 & Da2). destruct (ln_rep _ _ _ _ _ _ _ V2 F2 X2 Y2) as (wb2 & Db2).
  unfold millerLoop2. rewrite A1, A2, B1, B2. cbn [bind]. rewrite EL. cbn [bind]. rewrite C1, C2, F1, F2. cbn [bind]. rewrite HB.
  pose proof (f12_mul_024_024_rep c _ _ _ _ Da1 Db1) as Q1. pose proof (f12_mul_024_024_rep c _ _ _ _ Da2 Db2) as Q2.
  eexists _, _, _. split; [reflexivity|]. split; [|split].
  2:{ exact (mul_rep _ _ _ _ (f12_conj_rep c _ _ Rg1) Q1). }
  2:{ exact (mul_rep _ _ _ _ (f12_conj_rep c _ _ Rg2) Q2). }
  eapply (rep12_eq c); [exact (mul_rep _ _ _ _ (mul_rep _ _ _ _ (f12_conj_rep c _ _ Rf) Q1) Q2)|]. rewrite conj12_mul. ring.
Qed.
End M2.

(** ** precomputeG2 yields well-formed lines, and every Miller value is an element of Fp12 *)
Section PreWf.
Variable c : cfg.
Variable P : param.
Hypothesis HP : par_ok c P.
Lemma wfL_app v l w : wfL c v -> rep6u c l w -> wfL c (v ++ [l]).
Proof using. intros H Hl. apply Forall_app. split; [exact H|]. constructor; [exists w; exact Hl|constructor]. Qed.
Lemma pre_step_wf xq yq yqn vx vy vyn s d : rep2 c xq vx -> rep2 c yq vy -> rep2 c yqn vyn -> wfL c (fst s) -> (exists t, repR c (snd s) t) ->
  let s' := pre_step c P xq yq yqn s d in wfL c (fst s') /\ exists t, repR c (snd s') t.
Proof using HP.
  intros Hx Hy Hn Hs (t & Ht). destruct s as [v T]. cbn [fst snd] in *. unfold pre_step.
  destruct (dblLineWP_rep c P HP T t Ht) as [L1 R1]. destruct (dblLineWP c P T) as [l T1]. cbn [fst snd] in *.
  pose proof (wfL_app _ _ _ Hs L1) as W1. destruct (d >? 0); [|destruct (d <? 0)].
  - destruct (addLineWP_rep c T1 _ xq yq _ _ R1 Hx Hy) as [L2 R2]. destruct (addLineWP c T1 xq yq) as [l2 T2]. cbn [fst snd] in *.
    split; [exact (wfL_app _ _ _ W1 (rep6_6u c _ _ L2))|eexists; exact R2].
  - destruct (addLineWP_rep c T1 _ xq yqn _ _ R1 Hx Hn) as [L2 R2]. destruct (addLineWP c T1 xq yqn) as [l2 T2]. cbn [fst snd] in *.
    split; [exact (wfL_app _ _ _ W1 (rep6_6u c _ _ L2))|eexists; exact R2].
  - split; [exact W1|eexists; exact R1].
Qed.
Lemma pre_fold_wf xq yq yqn vx vy vyn ds : rep2 c xq vx -> rep2 c yq vy -> rep2 c yqn vyn -> forall s, wfL c (fst s) -> (exists t, repR c (snd s) t) ->
  let s' := fold_left (pre_step c P xq yq yqn) ds s in wfL c (fst s') /\ exists t, repR c (snd s') t.
Proof using HP.
  intros Hx Hy Hn. induction ds as [|d ds IH]; intros s Hs Ht; cbn [fold_left]; [split; assumption|].
  destruct (pre_step_wf xq yq yqn vx vy vyn s d Hx Hy Hn Hs Ht) as [A B]. exact (IH _ A B).
Qed.
Lemma preG2_wf xq yq vx vy : rep2 c xq vx -> rep2 c yq vy -> wfL c (preG2 c P xq yq).
Proof using HP.
  intros Hx Hy. unfold preG2. pose proof (f2_neg_rep c _ _ Hy) as Hn.
  assert (R0 : repR c (mk3 xq yq (f2_1 c)) (mk3 vx vy ro)) by (split; [exact Hx|]; split; [exact Hy|exact (f2_1_rep_ c)]).
  destruct (dblLineWP_rep c P HP _ _ R0) as [L1 R1]. destruct (dblLineWP c P (mk3 xq yq (f2_1 c))) as [d T]. cbn [fst snd] in *.
  destruct (addLineWP_rep c T _ xq yq _ _ R1 Hx Hy) as [L2 R2]. destruct (addLineWP c T xq yq) as [e T0]. cbn [fst snd] in *.
  assert (W0 : wfL c [d; e]) by (constructor; [eexists; exact L1|constructor; [eexists; exact (rep6_6u c _ _ L2)|constructor]]).
  destruct (pre_fold_wf xq yq (f2_neg c yq) _ _ _ (skipn 2 (par_si P)) Hx Hy Hn ([d; e], T0) W0 (ex_intro _ _ R2)) as [W1 (t & R3)].
  destruct (fold_left (pre_step c P xq yq (f2_neg c yq)) (skipn 2 (par_si P)) ([d; e], T0)) as [v T1]. cbn [fst snd] in *.
  destruct (FrobEnd1_rep c P xq yq vx vy HP Hx Hy) as [F1 F2]. destruct (FrobEnd1 c P xq yq) as [xq1 yq1]. cbn [fst snd] in *.
  assert (G : exists u w, rep2 c (fst (if snark c then let '(x, y) := FrobEnd2 c P xq yq in (x, f2_neg c y) else FrobEnd8 c P xq yq)) u /\
     rep2 c (snd (if snark c then let '(x, y) := FrobEnd2 c P xq yq in (x, f2_neg c y) else FrobEnd8 c P xq yq)) w).
  { destruct (snark c).
    - destruct (FrobEnd2_rep c P xq yq vx vy HP Hx Hy) as [G1 G2]. destruct (FrobEnd2 c P xq yq) as [x' y']. cbn [fst snd] in *. eexists _, _. split; [exact G1|exact (f2_neg_rep c _ _ G2)].
    - destruct (FrobEnd8_rep c P xq yq vx vy HP Hx Hy) as [G1 G2]. eexists _, _. split; [exact G1|exact G2]. }
  destruct G as (u & w & G1 & G2). destruct (if snark c then let '(x, y) := FrobEnd2 c P xq yq in (x, f2_neg c y) else FrobEnd8 c P xq yq) as [xq2 yq2]. cbn [fst snd] in *.
  assert (R4 : exists t', repR c (if snark c then T1 else mk3 (a3 T1) (f2_neg c (b3 T1)) (c3 T1)) t').
  { destruct (snark c); [exists t; exact R3|]. destruct R3 as (Q1 & Q2 & Q3). eexists (mk3 (a3 t) _ (c3 t)). split; [exact Q1|]. split; [exact (f2_neg_rep c _ _ Q2)|exact Q3]. }
  destruct R4 as (t' & R4). set (T2 := if snark c then T1 else _) in *.
  destruct (addLineWP_rep c T2 _ xq1 yq1 _ _ R4 F1 F2) as [L3 R5]. destruct (addLineWP c T2 xq1 yq1) as [d1 T3]. cbn [fst snd] in *.
  destruct (addLineWP_rep c T3 _ xq2 yq2 _ _ R5 G1 G2) as [L4 R6]. destruct (addLineWP c T3 xq2 yq2) as [d2 T4]. cbn [fst snd] in *.
  apply (wfL_app _ _ _ (wfL_app _ _ _ W1 (rep6_6u c _ _ L3)) (rep6_6u c _ _ L4)).
Qed.
Lemma miller_val (HB : snark c = false) xq yq vx vy x y xp yp : rep2 c xq vx -> rep2 c yq vy -> rep1 c x xp -> rep1 c y yp -> exists g, rep12 c (miller c P xq yq x y) g.
Proof using HP.
  intros Hx Hy Hxp Hyp. pose proof (preG2_wf xq yq vx vy Hx Hy) as W1. pose proof (pre_miller c P xq yq x y) as E.
  destruct (millerLoop2_ok c P HB _ _ x y x y xp yp xp yp W1 W1 Hxp Hyp Hxp Hyp _ _ E E) as (f & g1 & g2 & _ & _ & R & _). exists g1. exact R.
Qed.
End PreWf.
