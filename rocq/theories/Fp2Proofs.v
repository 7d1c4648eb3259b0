(** Fp2 and Fp2::Dbl compute in K2 = Fp[u]/(u^2+1). *)
From Coq Require Import ZArith Lia Bool Ring.
From Verif Require Import Base Prim Loop FpSpec Cfg TowerSpec FpM FpProofs FpInvProofs FpWit TowerField TowerM.
Local Open Scope Z_scope.

(** x is the canonical content for v; d is a double-width content below pN for v. *)
Definition rep1 (c : cfg) (x : Z) (v : FpR (cp c)) : Prop := can c x /\ fv c x = v.
Definition drep1 (c : cfg) (d : Z) (v : FpR (cp c)) : Prop := 0 <= d < cp c * W /\ dv c d = v.
Definition rep2 (c : cfg) (x : fp2) (v : K2 c) : Prop := rep1 c (a2 x) (a2 v) /\ rep1 c (b2 x) (b2 v).
Definition drep2 (c : cfg) (x : dbl2) (v : K2 c) : Prop := drep1 c (a2 x) (a2 v) /\ drep1 c (b2 x) (b2 v).

(** Step through "let t := e in b". *)
Lemma letP {A R : Type} (P : R -> Prop) (e : A) (b : A -> R) : (forall t, t = e -> P (b t)) -> P (let t := e in b t).
Proof. intros H. apply (H e eq_refl). Qed.

Section Level1.
Variable c : cfg.
Local Notation p := (cp c).
Local Notation rep1 := (rep1 c).
Local Notation drep1 := (drep1 c).
Add Ring FRa : (rth (FpR (cp c))).
Local Open Scope r_scope.
Lemma add_rep1 x y v w : rep1 x v -> rep1 y w -> rep1 (fp_add c x y) (v + w).
Proof. intros [H1 <-] [H2 <-]. apply (fp_add_ok c); auto. Qed.
Lemma sub_rep1 x y v w : rep1 x v -> rep1 y w -> rep1 (fp_sub c x y) (v - w).
Proof. intros [H1 <-] [H2 <-]. apply (fp_sub_ok c); auto. Qed.
Lemma neg_rep1 x v : rep1 x v -> rep1 (fp_neg c x) (- v).
Proof. intros [H1 <-]. apply (fp_neg_ok c); auto. Qed.
Lemma mul_rep1 x y v w : rep1 x v -> rep1 y w -> rep1 (fp_mul c x y) (v * w).
Proof. intros [H1 <-] [H2 <-]. apply (fp_mul_ok c); auto. Qed.
Lemma zero_rep1 : rep1 0 0.
Proof. split; [unfold can; pose proof (cp_pos c); lia|apply fv_0]. Qed.
Lemma dadd_rep1 x y v w : drep1 x v -> drep1 y w -> drep1 (dbl_add c x y) (v + w).
Proof. intros [H1 <-] [H2 <-]. apply (dbl_add_ok c); auto. Qed.
Lemma dsub_rep1 x y v w : drep1 x v -> drep1 y w -> drep1 (dbl_sub c x y) (v - w).
Proof. intros [H1 <-] [H2 <-]. apply (dbl_sub_ok c); auto. Qed.
Lemma mod_rep1 x v : drep1 x v -> rep1 (dbl_mod c x) v.
Proof. intros [H1 <-]. apply (dbl_mod_ok c); auto. Qed.
Lemma rep1_eq x v w : rep1 x v -> v = w -> rep1 x w.
Proof. intros H <-. exact H. Qed.
Lemma drep1_eq x v w : drep1 x v -> v = w -> drep1 x w.
Proof. intros H <-. exact H. Qed.
Lemma rep1_inj x y v : rep1 x v -> rep1 y v -> x = y.
Proof. intros [H1 E1] [H2 E2]. apply (fv_inj c); auto. congruence. Qed.
Lemma rep1_surj v : exists x, rep1 x v.
Proof. exact (fv_surj c v). Qed.

Lemma canb x y : can c x -> can c y -> (0 <= x * y <= p * p)%Z.
Proof. unfold can. intros. nia. Qed.
Lemma pp_W : (5 * (p * p) < p * W)%Z.
Proof. pose proof (cp_lt_W c). pose proof (cp_pos c). nia. Qed.
Lemma pW_W2' : (5 * (p * W) < W2)%Z.
Proof. pose proof (cp_lt_W c). pose proof W_pos. unfold W2. nia. Qed.
End Level1.

(** The quotient estimate of in_Fp_mul_xi_addsub. *)
Lemma mul9_core (c : cfg) t : snark c = true -> 0 <= t < 10 * cp c ->
  let q := (((t / 2 ^ 193) mod B) * pRev) / 2 ^ 124 in
  can c (add_modp c ((t mod W - pTbl c q) mod W)) /\ fv c (add_modp c ((t mod W - pTbl c q) mod W)) = fv c t.
Proof.
  intros Hs Ht q.
  assert (Ep : cp c = 21888242871839275222246405745257275088696311157297823662689037894645226208583).
  { destruct c; [discriminate| |]; reflexivity. }
  assert (Hd : 0 <= t / 2 ^ 193 < B).
  { split; [apply Z.div_pos; lia|]. rewrite B_val. apply Z.div_lt_upper_bound; [lia|]. rewrite Ep in Ht. lia. }
  assert (Hq : 0 <= t - q * cp c < 2 * cp c).
  { unfold q. rewrite (Z.mod_small _ _ Hd). unfold pRev.
    pose proof (Z.div_mod t (2 ^ 193) ltac:(lia)) as E1. pose proof (Z.mod_pos_bound t (2 ^ 193) ltac:(lia)) as E2.
    set (d := t / 2 ^ 193) in *. clearbody d. set (m := t mod 2 ^ 193) in *. clearbody m.
    pose proof (Z.div_mod (d * 0xa948e8c4c474094e) (2 ^ 124) ltac:(lia)) as E3.
    pose proof (Z.mod_pos_bound (d * 0xa948e8c4c474094e) (2 ^ 124) ltac:(lia)) as E4.
    set (f := _ / 2 ^ 124) in *. clearbody f. set (n := _ mod 2 ^ 124) in *. clearbody n.
    clear q. rewrite Ep in *. clear Ep. lia. }
  clearbody q. unfold pTbl.
  assert (E : (t mod W - (q * cp c) mod W) mod W = t - q * cp c).
  { rewrite <- Zminus_mod. apply Z.mod_small. pose proof (cp_lt_W c). lia. }
  rewrite E. destruct (add_modp_ok c (t - q * cp c) Hq) as (H1 & H2 & _). split; [exact H1|].
  rewrite H2. rewrite fv_sub, fv_kp. apply fsub_0r.
Qed.
Lemma mul9_add_rep (c : cfg) x y v w : snark c = true -> rep1 c x v -> rep1 c y w ->
  rep1 c (fp_mul9 c x y true) (fadd (fmul (mk (cp c) 9) v) w).
Proof.
  intros Hs [Hx <-] [Hy <-]. unfold can in Hx, Hy. unfold fp_mul9. pose proof (cp_lt_W c). pose proof W_pos.
  assert (HB : 10 * cp c < B * W) by (rewrite B_val; lia).
  rewrite (Z.mod_small (9 * x)) by lia. rewrite (Z.mod_small (9 * x + y)) by lia.
  destruct (mul9_core c (9 * x + y) Hs ltac:(lia)) as (A1 & A2). split; [exact A1|].
  rewrite A2, fv_add, fv_mulZ. reflexivity.
Qed.
Lemma mul9_sub_rep (c : cfg) x y v w : snark c = true -> rep1 c x v -> rep1 c y w ->
  rep1 c (fp_mul9 c x y false) (fsub (fmul (mk (cp c) 9) v) w).
Proof.
  intros Hs [Hx <-] [Hy <-]. unfold can in Hx, Hy. unfold fp_mul9. pose proof (cp_lt_W c). pose proof W_pos.
  assert (HB : 10 * cp c < B * W) by (rewrite B_val; lia).
  rewrite (Z.mod_small (9 * x)) by lia. rewrite (Z.mod_small (9 * x + cp c - y)) by lia.
  destruct (mul9_core c (9 * x + cp c - y) Hs ltac:(lia)) as (A1 & A2). split; [exact A1|].
  rewrite A2, fv_sub, fv_add, fv_mulZ, fv_p. clear.
  pose proof (Fp_ring (cp c)) as R. rewrite (Radd_comm R), (Radd_0_l R). reflexivity.
Qed.

Section Level2.
Variable c : cfg.
Local Notation p := (cp c).
Local Notation rep1 := (rep1 c).
Local Notation drep1 := (drep1 c).
Local Notation rep2 := (rep2 c).
Local Notation drep2 := (drep2 c).
Add Ring FRb : (rth (FpR (cp c))).
Add Ring KRb : (rth (K2 c)).
Local Open Scope r_scope.
Ltac kk := cbn [radd rmul rsub ropp rz ro K2 quad qadd qsub qopp qmul q0 q1 a2 b2].

Lemma rep2_mk x y v : rep1 x (a2 v) -> rep1 y (b2 v) -> rep2 (mk2 x y) v.
Proof. intros; split; assumption. Qed.
Lemma drep2_mk x y v : drep1 x (a2 v) -> drep1 y (b2 v) -> drep2 (mk2 x y) v.
Proof. intros; split; assumption. Qed.
Lemma rep2_eq x v w : rep2 x v -> v = w -> rep2 x w.
Proof. intros H <-. exact H. Qed.
Lemma drep2_eq x v w : drep2 x v -> v = w -> drep2 x w.
Proof. intros H <-. exact H. Qed.
Lemma rep2_inj x y v : rep2 x v -> rep2 y v -> x = y.
Proof. intros [H1 H2] [H3 H4]. apply F2_eq; eapply rep1_inj; eauto. Qed.
Lemma rep2_fun x v w : rep2 x v -> rep2 x w -> v = w.
Proof. intros [[_ H1] [_ H2]] [[_ H3] [_ H4]]. apply F2_eq; congruence. Qed.
Lemma rep2_surj v : exists x, rep2 x v.
Proof. destruct (rep1_surj c (a2 v)) as (x & Hx). destruct (rep1_surj c (b2 v)) as (y & Hy). exists (mk2 x y). split; auto. Qed.

Lemma f2_add_rep x y v w : rep2 x v -> rep2 y w -> rep2 (f2_add c x y) (v + w).
Proof. intros [] []. apply rep2_mk; apply add_rep1; auto. Qed.
Lemma f2_sub_rep x y v w : rep2 x v -> rep2 y w -> rep2 (f2_sub c x y) (v - w).
Proof. intros [] []. apply rep2_mk; apply sub_rep1; auto. Qed.
Lemma f2_neg_rep x v : rep2 x v -> rep2 (f2_neg c x) (- v).
Proof. intros []. apply rep2_mk; apply neg_rep1; auto. Qed.
Lemma f2_0_rep : rep2 f2_0 0.
Proof. apply rep2_mk; apply zero_rep1. Qed.
Lemma f2_divBy2_rep x v : rep2 x v -> exists w, rep2 (f2_divBy2 c x) w /\ w + w = v.
Proof.
  intros [[H1 E1] [H2 E2]]. destruct (fp_divBy2_ok c _ H1) as [A1 A2]. destruct (fp_divBy2_ok c _ H2) as [B1 B2].
  exists (mk2 (fv c (fp_divBy2 c (a2 x))) (fv c (fp_divBy2 c (b2 x)))). split; [repeat split; auto; apply A1 || apply B1|].
  apply F2_eq; kk; [rewrite <- E1; exact A2|rewrite <- E2; exact B2].
Qed.
Lemma f2_mul_Fp_0_rep x b v w : rep2 x v -> rep1 b w -> rep2 (f2_mul_Fp_0 c x b) (v * (mk2 w 0 : K2 c)).
Proof.
  intros [] Hb. apply rep2_mk; kk; (eapply rep1_eq; [apply mul_rep1; eassumption|kk; ring]).
Qed.
Lemma f2_mul_x_rep x v : rep2 x v -> rep2 (f2_mul_x c x) (v * (mk2 0 1 : K2 c)).
Proof.
  intros []. apply rep2_mk; kk.
  - eapply rep1_eq; [apply neg_rep1; eassumption|kk; ring].
  - eapply rep1_eq; [eassumption|kk; ring].
Qed.
Lemma f2_mul_Fp_1_rep x b v w : rep2 x v -> rep1 b w -> rep2 (f2_mul_Fp_1 c x b) (v * (mk2 0 w : K2 c)).
Proof.
  intros [] Hb. unfold f2_mul_Fp_1. apply rep2_mk; kk.
  - eapply rep1_eq; [apply neg_rep1, mul_rep1; eassumption|kk; ring].
  - eapply rep1_eq; [apply mul_rep1; eassumption|kk; ring].
Qed.
Lemma mk9 : mk p 9 = (1 + 1 + 1 + 1 + 1 + 1 + 1 + 1 + 1 : FpR p).
Proof. cbn [FpR radd ro]. unfold f1. rewrite <- !mk_add. reflexivity. Qed.
Lemma xi_S : snark c = true -> xi c = mk2 (mk p 9) f1.
Proof. destruct c; [discriminate| |]; reflexivity. Qed.
Lemma xi_B : snark c = false -> xi c = mk2 f1 f1.
Proof. destruct c; [reflexivity|discriminate|discriminate]. Qed.
Lemma f2_mul_xi_rep x v : rep2 x v -> rep2 (f2_mul_xi c x) (xi c * v).
Proof.
  intros [Ha Hb]. unfold f2_mul_xi. destruct (snark c) eqn:Es.
  - rewrite (xi_S Es). apply rep2_mk; kk.
    + eapply rep1_eq; [apply mul9_sub_rep; eassumption|]. 
      set (n9 := mk p 9 : FpR p). clearbody n9. change (n9 * a2 v - b2 v = n9 * a2 v + - (1) * (1 * b2 v)). ring.
    + eapply rep1_eq; [apply mul9_add_rep; eassumption|].
      set (n9 := mk p 9 : FpR p). clearbody n9. change (n9 * b2 v + a2 v = n9 * b2 v + 1 * a2 v). ring.
  - rewrite (xi_B Es). apply rep2_mk; kk.
    + eapply rep1_eq; [apply sub_rep1; eassumption|].
      change (rsub (a2 v) (b2 v) = 1 * a2 v + - (1) * (1 * b2 v) :> FpR p). ring.
    + eapply rep1_eq; [apply add_rep1; eassumption|].
      change (radd (a2 v) (b2 v) = 1 * b2 v + 1 * a2 v :> FpR p). ring.
Qed.

(** Dbl level *)
Lemma d2_add_rep x y v w : drep2 x v -> drep2 y w -> drep2 (d2_add c x y) (v + w).
Proof. intros [] []. apply drep2_mk; apply dadd_rep1; auto. Qed.
Lemma d2_sub_rep x y v w : drep2 x v -> drep2 y w -> drep2 (d2_sub c x y) (v - w).
Proof. intros [] []. apply drep2_mk; apply dsub_rep1; auto. Qed.
Lemma d2_mod_rep x v : drep2 x v -> rep2 (d2_mod c x) v.
Proof. intros []. apply rep2_mk; apply mod_rep1; auto. Qed.
Lemma d2_mul_xi_rep x v : drep2 x v -> drep2 (d2_mul_xi c x) (xi c * v).
Proof.
  intros [Ha Hb]. unfold d2_mul_xi. destruct (snark c) eqn:Es.
  - rewrite (xi_S Es). rewrite mk9. cbv zeta. apply drep2_mk; kk.
    + eapply drep1_eq; [repeat (apply dadd_rep1 || apply dsub_rep1); eassumption|].
      change (@f1 p) with (1 : FpR p). ring.
    + eapply drep1_eq; [repeat (apply dadd_rep1 || apply dsub_rep1); eassumption|].
      change (@f1 p) with (1 : FpR p). ring.
  - rewrite (xi_B Es). apply drep2_mk; kk; change (@f1 p) with (1 : FpR p).
    + eapply drep1_eq; [apply dsub_rep1; eassumption|ring].
    + eapply drep1_eq; [apply dadd_rep1; eassumption|ring].
Qed.
(** Exact values of the lazy product: inputs below 2p. *)
Definition lt2p (x : Z) : Prop := (0 <= x < 2 * p)%Z.
Definition lt2 (x : fp2) : Prop := lt2p (a2 x) /\ lt2p (b2 x).
Lemma can_lt2p x : can c x -> lt2p x.
Proof. unfold can, lt2p. pose proof (cp_pos c). lia. Qed.
Lemma rep2_lt2 x v : rep2 x v -> lt2 x.
Proof. intros [[] []]. split; apply can_lt2p; assumption. Qed.
Lemma mulOpt_b mode x y : lt2 x -> lt2 y ->
  b2 (d2_mulOpt c mode x y) = (a2 x * b2 y + b2 x * a2 y)%Z.
Proof.
  intros [X1 X2] [Y1 Y2]. unfold lt2p in *. unfold d2_mulOpt. cbn [a2 b2]. pose proof (cp_lt_W c). unfold dbl_mul.
  rewrite (fp_addNC_small (a2 x)) by lia. rewrite (fp_addNC_small (a2 y)) by lia.
  destruct x as [xa xb], y as [ya yb]. cbn [a2 b2] in *.
  assert (H0 : (0 <= xa * ya < W * W)%Z) by nia.
  assert (H1 : (0 <= xb * yb)%Z) by nia. assert (H2 : (0 <= xa * yb)%Z) by nia. assert (H3 : (0 <= xb * ya)%Z) by nia.
  assert (H4 : ((xa + xb) * (ya + yb) < W * W)%Z) by nia.
  assert (E : ((xa + xb) * (ya + yb) = xa * ya + xb * yb + xa * yb + xb * ya)%Z) by ring.
  rewrite E in *.
  rewrite (dbl_subNC_small (xa * ya + xb * yb + xa * yb + xb * ya)) by (unfold W2; lia).
  rewrite dbl_subNC_small by (unfold W2; lia). lia.
Qed.
Lemma mulOpt2_a x y : lt2 x -> lt2 y ->
  drep1 (a2 (d2_mulOpt2 c x y)) (fsub (dv c (a2 x * a2 y)) (dv c (b2 x * b2 y))).
Proof.
  intros [X1 X2] [Y1 Y2]. unfold lt2p in *. unfold d2_mulOpt2, d2_mulOpt. cbn [a2 b2]. unfold dbl_mul.
  pose proof (cp_lt_W c). pose proof (pp_W c).
  assert (forall s t, (0 <= s < 2 * p -> 0 <= t < 2 * p -> 0 <= s * t <= 4 * (p * p))%Z) as M by (intros; nia).
  pose proof (M _ _ X1 Y1). pose proof (M _ _ X2 Y2). pose proof (cp_pos c).
  apply (dbl_sub_ok c); nia.
Qed.
Lemma d2_mulOpt2_rep x y v w : rep2 x v -> rep2 y w -> drep2 (d2_mulOpt2 c x y) (v * w).
Proof.
  intros Hx Hy. pose proof (rep2_lt2 _ _ Hx) as Lx. pose proof (rep2_lt2 _ _ Hy) as Ly.
  destruct (mulOpt2_a _ _ Lx Ly) as [A1 A2]. pose proof (mulOpt_b false _ _ Lx Ly) as Bb.
  destruct Hx as [[X1 EX1] [X2 EX2]], Hy as [[Y1 EY1] [Y2 EY2]]. clear Lx Ly.
  split; kk.
  - eapply drep1_eq; [split; [exact A1|exact A2]|]. rewrite !dv_mul, EX1, EX2, EY1, EY2.
    change (rsub (a2 v * a2 w) (b2 v * b2 w) = a2 v * a2 w + - (1) * (b2 v * b2 w) :> FpR p). ring.
  - unfold d2_mulOpt2. rewrite Bb. split.
    + pose proof (canb c _ _ X1 Y2). pose proof (canb c _ _ X2 Y1). pose proof (pp_W c). lia.
    + rewrite dv_add, !dv_mul, EX1, EX2, EY1, EY2. reflexivity.
Qed.
Lemma f2_mul_d x y : f2_mul c x y = d2_mod c (d2_mulOpt2 c x y).
Proof. reflexivity. Qed.
Lemma f2_mul_rep x y v w : rep2 x v -> rep2 y w -> rep2 (f2_mul c x y) (v * w).
Proof. intros Hx Hy. rewrite f2_mul_d. apply d2_mod_rep, d2_mulOpt2_rep; auto. Qed.
Lemma d2_square_rep x v : rep2 x v -> drep2 (d2_square c x) (v * v).
Proof.
  intros [[X1 EX1] [X2 EX2]]. unfold d2_square, dbl_mul. cbv zeta. pose proof (cp_lt_W c). pose proof (cp_pos c).
  pose proof (pp_W c) as Hp. pose proof X1 as X1'. pose proof X2 as X2'. unfold can in X1', X2'.
  rewrite (fp_addNC_small (b2 x) (b2 x)) by lia. rewrite (fp_addNC_small (a2 x) p) by lia.
  rewrite (fp_addNC_small (a2 x) (b2 x)) by lia. rewrite fp_subNC_small by lia.
  apply drep2_mk; kk.
  - split; [nia|]. rewrite dv_mul, !fv_sub, !fv_add, fv_p, EX1, EX2.
    change ((a2 v + b2 v) * (a2 v + 0 - b2 v) = a2 v * a2 v + - (1) * (b2 v * b2 v) :> FpR p). ring.
  - split; [nia|]. rewrite dv_mul, !fv_add, EX1, EX2.
    change ((b2 v + b2 v) * a2 v = a2 v * b2 v + b2 v * a2 v :> FpR p). ring.
Qed.
Lemma f2_square_rep x v : rep2 x v -> rep2 (f2_square c x) (v * v).
Proof.
  intros Hx. unfold f2_square. cbv zeta. destruct (snark c) eqn:Es.
  - destruct Hx as [Ha Hb]. pose proof (add_rep1 c _ _ _ _ Hb Hb) as [B1 B2]. pose proof (add_rep1 c _ _ _ _ Ha Hb) as [C1 C2].
    destruct Ha as [X1 EX1]. destruct Hb as [X2 EX2]. pose proof X1 as X1'. pose proof X2 as X2'.
    pose proof C1 as C1'. pose proof B1 as B1'. unfold can in X1', X2', C1', B1'.
    pose proof (cp_lt_W c). pose proof (cp_pos c). pose proof (pp_W c) as Hp.
    rewrite (fp_addNC_small (a2 x) p) by lia. rewrite fp_subNC_small by lia. unfold dbl_mul.
    apply rep2_mk; kk; apply mod_rep1.
    + split; [nia|]. rewrite dv_mul, !fv_sub, !fv_add, fv_p, EX1, EX2, C2.
      change ((a2 v + 0 - b2 v) * (a2 v + b2 v) = a2 v * a2 v + - (1) * (b2 v * b2 v) :> FpR p). ring.
    + split; [nia|]. rewrite dv_mul, EX1, B2.
      change ((b2 v + b2 v) * a2 v = a2 v * b2 v + b2 v * a2 v :> FpR p). ring.
  - pose proof (d2_mod_rep _ _ (d2_square_rep x v Hx)) as H. unfold d2_square, d2_mod in H. cbv zeta in H. cbn [a2 b2] in H.
    unfold dbl_mul in *. rewrite (Z.mul_comm (fp_subNC (fp_addNC (a2 x) p) (b2 x))). exact H.
Qed.
(** inverse *)
Definition inv2_spec (v w : K2 c) : Prop := (v <> 0 -> w * v = 1) /\ (v = 0 -> w = 0).
Lemma f2_inverse_rep x v : rep2 x v -> exists y w, f2_inverse c x = Ok y /\ rep2 y w /\ (v <> 0 -> w * v = 1) /\ (v = 0 -> w = 0).
Proof.
  intros [Ha Hb]. unfold f2_inverse. cbv zeta.
  pose proof (add_rep1 c _ _ _ _ (mul_rep1 c _ _ _ _ Hb Hb) (mul_rep1 c _ _ _ _ Ha Ha)) as Hn.
  destruct Hn as [N1 N2]. destruct (fp_inv_ok c _ N1) as (y & Ey & Cy & Vy). rewrite Ey. cbn [bind].
  assert (Hy : rep1 y (fv c y)) by (split; auto). eexists _, (mk2 (a2 v * fv c y) ((- b2 v) * fv c y) : K2 c).
  split; [reflexivity|]. split; [|split].
  - apply rep2_mk; kk; apply mul_rep1; auto. apply neg_rep1; auto.
  - intros Hnz. rewrite Vy, N2.
    assert (Hq : radd (rmul (b2 v) (b2 v)) (rmul (a2 v) (a2 v)) <> (0 : FpR p)).
    { intros E. apply (qnorm_nz (FpR p) (- (1)) (K1_field c) (fun x => m1_nonsquare c x) v Hnz).
      unfold qnorm. rewrite <- E. ring. }
    pose proof (finv_l p (cp_prime c) _ Hq) as L.
    clear Vy. revert L. set (f := finv _). clearbody f. intros L.
    change (@rmul (FpR p) f (b2 v * b2 v + a2 v * a2 v) = 1) in L. apply F2_eq; kk.
    + etransitivity; [|exact L]. ring.
    + ring.
  - intros ->. apply F2_eq; kk; ring.
Qed.
Lemma f2_eqb_rep x y v w : rep2 x v -> rep2 y w -> (f2_eqb x y = true <-> v = w).
Proof.
  intros [[X1 EX1] [X2 EX2]] [[Y1 EY1] [Y2 EY2]]. unfold f2_eqb. rewrite andb_true_iff.
  rewrite (fp_eqb_ok c), (fp_eqb_ok c) by assumption. rewrite EX1, EX2, EY1, EY2.
  split; [intros []; apply F2_eq; auto|intros ->; auto].
Qed.
Lemma f2_isZero_rep x v : rep2 x v -> (f2_isZero x = true <-> v = 0).
Proof.
  intros [[X1 EX1] [X2 EX2]]. unfold f2_isZero, fp_isZero. rewrite andb_true_iff, !Z.eqb_eq.
  rewrite <- (fv_eq0 c), <- (fv_eq0 c) by assumption. rewrite EX1, EX2.
  split; [intros []; apply F2_eq; auto|intros ->; auto].
Qed.
End Level2.
