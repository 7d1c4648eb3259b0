(** Proofs about Fp and Fp::Dbl. *)
From Coq Require Import ZArith Znumtheory Lia Bool Ring Field.
From Verif Require Import Base Prim Loop Power Alg FpSpec Cfg FpM.
Local Open Scope Z_scope.

(** a canonical representative: what every reachable Fp object holds *)
Definition can (c : cfg) (x : Z) : Prop := 0 <= x < cp c.

(** The field element denoted by an Fp object: content / R. *)
Definition fv (c : cfg) (x : Z) : Fp (cp c) := fdiv (mk (cp c) x) (mk (cp c) W).
(** The field element denoted by a Dbl object: content / R^2. *)
Definition dv (c : cfg) (x : Z) : Fp (cp c) := fdiv (mk (cp c) x) (fmul (mk (cp c) W) (mk (cp c) W)).

Lemma dv_def c x : dv c x = fdiv (mk (cp c) x) (fmul (mk (cp c) W) (mk (cp c) W)).
Proof. reflexivity. Qed.
Lemma fv_def c x : fv c x = fdiv (mk (cp c) x) (mk (cp c) W).
Proof. reflexivity. Qed.

Section FpP.
Variable c : cfg.
Local Notation p := (cp c).
Local Notation mkp := (mk (cp c)).
Add Field FpF : (Fp_field (cp c) (cp_prime c)).

Lemma fsub_0r (a : Fp (cp c)) : fsub a f0 = a.
Proof. ring. Qed.

Lemma W_nz : mkp W <> f0.
Proof.
  intros E. apply mk_eq in E. rewrite Zmod_0_l in E. apply Z.mod_divide in E; [|pose proof (cp_pos c); lia].
  rewrite W_B in E.
  assert (Hd : (p | 2)).
  { assert (E2 : (p | 2 ^ 256)) by (rewrite B_val in E; exact E).
    clear E. revert E2. change 256 with (Z.of_nat 256). generalize 256%nat; intros m; induction m as [|n IH]; intros E2.
    - change (2 ^ Z.of_nat 0) with 1 in E2. exfalso. apply Z.divide_1_r in E2. pose proof (cp_bounds c). lia.
    - rewrite Nat2Z.inj_succ, Z.pow_succ_r in E2 by lia. apply (prime_mult _ (cp_prime c)) in E2.
      destruct E2; auto. }
  apply Z.divide_pos_le in Hd; pose proof (cp_bounds c); lia.
Qed.

(** fv and dv are additive on all integers and kill p. *)
Lemma fv_add x y : fv c (x + y) = fadd (fv c x) (fv c y).
Proof. unfold fv. rewrite mk_add. field. apply W_nz. Qed.
Lemma fv_sub x y : fv c (x - y) = fsub (fv c x) (fv c y).
Proof. unfold fv. rewrite mk_sub. field. apply W_nz. Qed.
Lemma fv_opp x : fv c (- x) = fopp (fv c x).
Proof. unfold fv. rewrite mk_opp. field. apply W_nz. Qed.
Lemma fv_0 : fv c 0 = f0.
Proof. unfold fv. rewrite mk_0. field. apply W_nz. Qed.
Lemma fv_p : fv c p = f0.
Proof. unfold fv. rewrite mk_p. field. apply W_nz. Qed.
Lemma fv_mulZ k x : fv c (k * x) = fmul (mkp k) (fv c x).
Proof. unfold fv. rewrite mk_mul. field. apply W_nz. Qed.
Lemma fv_kp k : fv c (k * p) = f0.
Proof. rewrite fv_mulZ, fv_p. ring. Qed.
Lemma fv_W x : fv c (x * W) = mkp x.
Proof. unfold fv. rewrite mk_mul. field. apply W_nz. Qed.
Lemma fv_mod x : fv c (x mod p) = fv c x.
Proof. unfold fv. f_equal. apply mk_eq. apply Zmod_mod. Qed.
Lemma dv_add x y : dv c (x + y) = fadd (dv c x) (dv c y).
Proof. unfold dv. rewrite mk_add. field. apply W_nz. Qed.
Lemma dv_sub x y : dv c (x - y) = fsub (dv c x) (dv c y).
Proof. unfold dv. rewrite mk_sub. field. apply W_nz. Qed.
Lemma dv_opp x : dv c (- x) = fopp (dv c x).
Proof. unfold dv. rewrite mk_opp. field. apply W_nz. Qed.
Lemma dv_0 : dv c 0 = f0.
Proof. unfold dv. rewrite mk_0. field. apply W_nz. Qed.
Lemma dv_kp k : dv c (k * p) = f0.
Proof. unfold dv. rewrite mk_mul, mk_p. field. apply W_nz. Qed.
Lemma dv_pk k : dv c (p * k) = f0.
Proof. rewrite Z.mul_comm. apply dv_kp. Qed.
Lemma dv_mul x y : dv c (x * y) = fmul (fv c x) (fv c y).
Proof. unfold dv, fv. rewrite mk_mul. field. apply W_nz. Qed.
Lemma dv_mulZ k x : dv c (k * x) = fmul (mkp k) (dv c x).
Proof. unfold dv. rewrite mk_mul. field. apply W_nz. Qed.
Lemma dv_fv x d : mkp (x * W) = mkp d -> fv c x = dv c d.
Proof. unfold fv, dv. intros H. rewrite <- H, mk_mul. field. apply W_nz. Qed.

(** canonical representatives are unique *)
Lemma fv_inj x y : can c x -> can c y -> fv c x = fv c y -> x = y.
Proof.
  intros Hx Hy H. assert (E : mkp x = mkp y).
  { transitivity (fmul (fv c x) (mkp W)); [|rewrite H]; unfold fv; field; apply W_nz. }
  apply mk_eq in E. unfold can in *. rewrite !Z.mod_small in E by auto. exact E.
Qed.
Lemma fv_surj (a : Fp p) : exists x, can c x /\ fv c x = a.
Proof.
  exists (zv (fmul a (mkp W))). split; [apply zv_range, cp_pos|].
  unfold fv. rewrite mk_zv. field. apply W_nz.
Qed.

(** ** add, sub, neg *)
Lemma can_W x : can c x -> 0 <= x < W.
Proof. unfold can. pose proof (cp_lt_W c). lia. Qed.

Lemma add_modp_ok s : 0 <= s < 2 * p -> can c (add_modp c s) /\ fv c (add_modp c s) = fv c s /\ dv c (add_modp c s * W) = dv c (s * W).
Proof.
  intros Hs. unfold add_modp, can. destruct (Z.ltb_spec s p).
  - auto with zarith.
  - split; [lia|]. split.
    + rewrite fv_sub, fv_p. ring.
    + rewrite Z.mul_sub_distr_r, dv_sub, dv_pk. ring.
Qed.

Lemma fp_addNC_small x y : 0 <= x + y < W -> fp_addNC x y = x + y.
Proof. intros. unfold fp_addNC. apply Z.mod_small. auto. Qed.
Lemma fp_subNC_small x y : 0 <= x - y < W -> fp_subNC x y = x - y.
Proof. intros. unfold fp_subNC. apply Z.mod_small. auto. Qed.

Lemma fp_add_ok x y : can c x -> can c y ->
  can c (fp_add c x y) /\ fv c (fp_add c x y) = fadd (fv c x) (fv c y).
Proof.
  unfold can. intros Hx Hy. unfold fp_add. pose proof (cp_lt_W c).
  rewrite Z.mod_small by lia. rewrite <- fv_add.
  destruct (add_modp_ok (x + y)) as (H1 & H2 & _); [lia|]. auto.
Qed.

(** sub is correct as soon as the difference is above -p. *)
Lemma fp_sub_gen x y : 0 <= x < W -> 0 <= y < W -> - p <= x - y < p ->
  can c (fp_sub c x y) /\ fv c (fp_sub c x y) = fsub (fv c x) (fv c y).
Proof.
  unfold can. intros Hx Hy Hd. unfold fp_sub. pose proof (cp_lt_W c). pose proof (cp_pos c).
  destruct (Z.ltb_spec x y).
  - replace ((x - y) mod W) with (x - y + W).
    2:{ symmetry. rewrite <- (Z_mod_plus_full (x - y) 1 W). rewrite Z.mod_small; lia. }
    replace (x - y + W + p) with (x - y + p + 1 * W) by lia. rewrite Z_mod_plus_full, Z.mod_small by lia.
    split; [lia|]. rewrite fv_add, fv_sub, fv_p. ring.
  - rewrite Z.mod_small by lia. split; [lia|]. apply fv_sub.
Qed.
Lemma fp_sub_ok x y : can c x -> can c y ->
  can c (fp_sub c x y) /\ fv c (fp_sub c x y) = fsub (fv c x) (fv c y).
Proof. intros Hx Hy. pose proof (can_W _ Hx). pose proof (can_W _ Hy). apply fp_sub_gen; auto. unfold can in *; lia. Qed.

Lemma fp_neg_ok x : can c x -> can c (fp_neg c x) /\ fv c (fp_neg c x) = fopp (fv c x).
Proof.
  unfold can. intros Hx. unfold fp_neg. pose proof (cp_lt_W c).
  destruct (Z.eqb_spec x 0) as [->|Hn].
  - split; [lia|]. rewrite fv_0. ring.
  - rewrite Z.mod_small by lia. split; [lia|]. rewrite fv_sub, fv_p. ring.
Qed.

(** ** Montgomery multiplication *)
Lemma mont_q a : let q := ((a mod B) * cpp c) mod B in
  0 <= q < B /\ (a + q * p) mod B = 0.
Proof.
  intros q. pose proof B_pos. split; [apply Z.mod_pos_bound; auto|].
  unfold q.
  rewrite Zmult_mod_idemp_l.
  rewrite Zplus_mod, Zmult_mod_idemp_l, <- Zplus_mod.
  replace (a + a * cpp c * p) with (a * (p * cpp c + 1)) by ring.
  rewrite Zmult_mod, cpp_ok, Z.mul_0_r. apply Zmod_0_l.
Qed.

Lemma mont1_eq acc x y : 0 <= acc -> 0 <= x -> 0 <= y < B -> acc + x * y < B * W ->
  exists q, 0 <= q < B /\ B * mont1 c acc x y = acc + x * y + q * p.
Proof.
  intros Ha Hx Hy Hb. unfold mont1. rewrite Z.mod_small by nia.
  destruct (mont_q (acc + x * y)) as [Hq Hm].
  set (q := (((acc + x * y) mod B) * cpp c) mod B) in *. exists q. split; auto.
  symmetry. apply Z_div_exact_full_2; [pose proof B_pos; lia|auto].
Qed.

(** value of the four units of y *)
Lemma limbs4 y : 0 <= y < W ->
  y = y mod B + B * ((y / B) mod B) + B * B * ((y / (B * B)) mod B) + B * B * B * ((y / (B * B * B)) mod B).
Proof.
  intros Hy. pose proof B_pos as HB.
  assert (Hd : forall k, 0 < k -> y / (k * B) = y / k / B) by (intros k Hk; symmetry; apply Z.div_div; lia).
  rewrite (Hd (B * B)) by nia. rewrite (Hd B) by lia.
  assert (H3 : (y / B / B / B) mod B = y / B / B / B).
  { apply Z.mod_small. rewrite !Z.div_div by nia. split; [apply Z.div_pos; nia|].
    apply Z.div_lt_upper_bound; [nia|]. rewrite W_B in Hy. lia. }
  rewrite H3.
  pose proof (Z.div_mod y B ltac:(lia)) as E1. pose proof (Z.div_mod (y / B) B ltac:(lia)) as E2.
  pose proof (Z.div_mod (y / B / B) B ltac:(lia)) as E3. nia.
Qed.

Lemma digits4 q0 q1 q2 q3 : 0 <= q0 < B -> 0 <= q1 < B -> 0 <= q2 < B -> 0 <= q3 < B ->
  0 <= q0 + B * q1 + B * B * q2 + B * B * B * q3 < W.
Proof.
  intros H0 H1 H2 H3. rewrite W_B.
  assert (A : 0 <= q2 + B * q3 < B * B) by nia.
  assert (A1 : 0 <= q1 + B * (q2 + B * q3) < B * B * B) by nia.
  nia.
Qed.

Lemma modlim a : 0 <= a mod B < B.
Proof. apply Z.mod_pos_bound, B_pos. Qed.

Lemma mont_chain x y0 y1 y2 y3 : 0 <= x < W -> x + p < W ->
  0 <= y0 < B -> 0 <= y1 < B -> 0 <= y2 < B -> 0 <= y3 < B ->
  exists Q t, mont1 c (mont1 c (mont1 c (mont1 c 0 x y0) x y1) x y2) x y3 = t /\
    0 <= Q < W /\ 0 <= t /\
    B * B * B * B * t = x * (y0 + B * y1 + B * B * y2 + B * B * B * y3) + Q * p.
Proof.
  intros Hx Hb Y0 Y1 Y2 Y3.
  pose proof B_pos as HB. pose proof (cp_pos c) as Hp.
  assert (step : forall acc z, 0 <= acc < x + p -> 0 <= z < B ->
     exists q t, mont1 c acc x z = t /\ 0 <= q < B /\ B * t = acc + x * z + q * p /\ 0 <= t < x + p).
  { clear - Hx Hb HB Hp. intros acc z Ha Hz.
    destruct (mont1_eq acc x z) as (q & Hq & E); try lia; try nia.
    exists q, (mont1 c acc x z). split; auto. split; auto. split; auto. split; [nia|].
    assert (B * mont1 c acc x z < B * (x + p)) by nia. nia. }
  destruct (step 0 y0) as (q0 & t0 & -> & Hq0 & E0 & R0); [lia|auto|].
  destruct (step t0 y1) as (q1 & t1 & -> & Hq1 & E1 & R1); [auto|auto|].
  destruct (step t1 y2) as (q2 & t2 & -> & Hq2 & E2 & R2); [auto|auto|].
  destruct (step t2 y3) as (q3 & t3 & -> & Hq3 & E3 & R3); [auto|auto|].
  exists (q0 + B * q1 + B * B * q2 + B * B * B * q3), t3. split; auto.
  split; [apply digits4; auto|].
  split; [lia|]. clear - E0 E1 E2 E3.
  replace (B * B * B * B * t3) with (B * B * B * (B * t3)) by ring. rewrite E3.
  replace (B * B * B * (t2 + x * y3 + q3 * p)) with (B * B * (B * t2) + B * B * B * (x * y3 + q3 * p)) by ring. rewrite E2.
  replace (B * B * (t1 + x * y2 + q2 * p)) with (B * (B * t1) + B * B * (x * y2 + q2 * p)) by ring. rewrite E1.
  replace (B * (t0 + x * y1 + q1 * p)) with (B * t0 + B * (x * y1 + q1 * p)) by ring. rewrite E0. ring.
Qed.

Lemma mul_rounds x y : 0 <= x < W -> 0 <= y < W -> x + p < W ->
  exists t, fp_mul c x y = add_modp c (t mod W) /\
    exists Q, 0 <= Q < W /\ 0 <= t /\ W * t = x * y + Q * p.
Proof.
  intros Hx Hy Hb.
  destruct (mont_chain x (y mod B) ((y / B) mod B) ((y / (B * B)) mod B) ((y / (B * B * B)) mod B))
    as (Q & t & E & HQ & Ht & EW); auto using modlim.
  exists t. split; [unfold fp_mul; cbv zeta; rewrite E; reflexivity|].
  exists Q. do 2 (split; auto). rewrite <- (limbs4 y Hy), <- W_B in EW. exact EW.
Qed.

(** Multiplication is exact for any operands whose product is below p * 2^256. *)
Lemma fp_mul_gen x y : 0 <= x < W -> 0 <= y < W -> x + p < W -> x * y < p * W ->
  can c (fp_mul c x y) /\ fv c (fp_mul c x y) = fmul (fv c x) (fv c y).
Proof.
  intros Hx Hy Hb Hxy.
  destruct (mul_rounds x y Hx Hy Hb) as (t & -> & Q & HQ & Ht & E).
  pose proof (cp_lt_W c). pose proof (cp_pos c). pose proof W_pos.
  assert (t < 2 * p) by nia.
  rewrite (Z.mod_small t W) by lia.
  destruct (add_modp_ok t) as (H1' & H2' & _); [lia|]. split; auto. rewrite H2', <- dv_mul.
  apply dv_fv. rewrite Z.mul_comm, E, mk_add, mk_mul, (mk_mul _ Q p), mk_p. ring.
Qed.

Lemma fp_mul_ok x y : can c x -> can c y ->
  can c (fp_mul c x y) /\ fv c (fp_mul c x y) = fmul (fv c x) (fv c y).
Proof.
  unfold can. intros Hx Hy. pose proof (cp_lt_W c).
  apply fp_mul_gen; try lia. nia.
Qed.

(** ** Dbl *)
Lemma W2_val : W2 = W * W. Proof. reflexivity. Qed.
Lemma dbl_addNC_small x y : 0 <= x + y < W2 -> dbl_addNC x y = x + y.
Proof. intros. unfold dbl_addNC. apply Z.mod_small. auto. Qed.
Lemma dbl_subNC_small x y : 0 <= x - y < W2 -> dbl_subNC x y = x - y.
Proof. intros. unfold dbl_subNC. apply Z.mod_small. auto. Qed.

Lemma dbl_add_gen x y : 0 <= x -> 0 <= y -> x + y < 2 * p * W ->
  0 <= dbl_add c x y < p * W /\ dv c (dbl_add c x y) = fadd (dv c x) (dv c y).
Proof.
  intros Hx Hy Hs. unfold dbl_add. pose proof (cp_lt_W c). pose proof (cp_pos c). pose proof W_pos.
  rewrite (Z.mod_small (x + y)) by (unfold W2; nia).
  rewrite <- dv_add. set (s := x + y) in *.
  pose proof (Z.div_mod s W ltac:(lia)) as E. pose proof (Z.mod_pos_bound s W ltac:(lia)) as Hm.
  assert (Hh : 0 <= s / W < 2 * p).
  { split; [apply Z.div_pos; lia|]. apply Z.div_lt_upper_bound; lia. }
  destruct (add_modp_ok (s / W) Hh) as (H1' & _ & H3'). unfold can in H1'.
  split; [nia|]. rewrite dv_add, H3', <- dv_add. f_equal. lia.
Qed.
Lemma dbl_add_ok x y : 0 <= x < p * W -> 0 <= y < p * W ->
  0 <= dbl_add c x y < p * W /\ dv c (dbl_add c x y) = fadd (dv c x) (dv c y).
Proof. intros. apply dbl_add_gen; lia. Qed.

Lemma dbl_sub_gen x y : 0 <= x < W2 -> 0 <= y < W2 -> - (p * W) <= x - y < p * W ->
  0 <= dbl_sub c x y < p * W /\ dv c (dbl_sub c x y) = fsub (dv c x) (dv c y).
Proof.
  intros Hx Hy Hd. unfold dbl_sub. pose proof (cp_lt_W c). pose proof (cp_pos c). pose proof W_pos.
  assert (HpW : p * W < W2) by (unfold W2; nia).
  destruct (Z.ltb_spec x y).
  - replace ((x - y) mod W2) with (x - y + W2).
    2:{ symmetry. rewrite <- (Z_mod_plus_full (x - y) 1 W2). rewrite Z.mod_small; lia. }
    set (d := x - y + W2).
    pose proof (Z.div_mod d W ltac:(lia)) as E. pose proof (Z.mod_pos_bound d W ltac:(lia)) as Hm.
    assert (Hh : W - p <= d / W < W).
    { split; [apply Z.div_le_lower_bound; [lia|unfold d, W2; nia]|].
      apply Z.div_lt_upper_bound; [lia|]. unfold d, W2. nia. }
    assert (E2 : (d / W + p) mod W = d / W + p - W).
    { rewrite <- (Z_mod_plus_full (d / W + p) (-1) W). rewrite Z.mod_small; lia. }
    rewrite E2.
    assert (E3 : (d / W + p - W) * W + d mod W = x - y + p * W) by (unfold d, W2 in *; nia).
    rewrite E3. split; [nia|]. rewrite dv_add, dv_sub, dv_pk. ring.
  - rewrite Z.mod_small by lia. split; [lia|]. apply dv_sub.
Qed.
Lemma pW_W2 : p * W < W2.
Proof. pose proof (cp_lt_W c). pose proof (cp_pos c). pose proof W_pos. unfold W2; nia. Qed.
Lemma dbl_sub_ok x y : 0 <= x < p * W -> 0 <= y < p * W ->
  0 <= dbl_sub c x y < p * W /\ dv c (dbl_sub c x y) = fsub (dv c x) (dv c y).
Proof. intros. pose proof pW_W2. apply dbl_sub_gen; lia. Qed.

Lemma dbl_neg_ok x : 0 <= x < p * W ->
  0 <= dbl_neg c x <= p * W /\ dv c (dbl_neg c x) = fopp (dv c x).
Proof.
  intros Hx. unfold dbl_neg, pN. pose proof pW_W2.
  rewrite Z.mod_small by lia. split; [lia|]. rewrite dv_sub, dv_pk. ring.
Qed.

Lemma modround_eq wd x : 0 <= x -> x + (B - 1) * p < wd ->
  exists q, 0 <= q < B /\ B * modround c wd x = x + q * p.
Proof.
  intros Hx Hw. unfold modround. destruct (mont_q x) as [Hq Hm].
  set (q := ((x mod B) * cpp c) mod B) in *. exists q. split; auto.
  pose proof (cp_pos c). pose proof B_pos.
  rewrite (Z.mod_small (x + q * p)) by nia.
  symmetry. apply Z_div_exact_full_2; [lia|auto].
Qed.

Lemma modround_inv x k wd t Q : x + W * p <= W * W -> 0 < k -> k * wd = W * W -> k * B <= W ->
  0 <= t -> k * t = x + Q * p -> 0 <= Q < k ->
  exists Q' t', modround c wd t = t' /\ 0 <= t' /\ k * B * t' = x + Q' * p /\ 0 <= Q' < k * B.
Proof.
  intros Hb Hk Hwd HkB Ht E HQ. pose proof B_pos as HB. pose proof (cp_pos c) as Hp.
  destruct (modround_eq wd t) as (q & Hq & Eq); auto.
  { assert (A : k * (t + (B - 1) * p) < k * wd).
    { rewrite Hwd, Z.mul_add_distr_l, E.
      assert (Q * p + k * ((B - 1) * p) < W * p).
      { replace (Q * p + k * ((B - 1) * p)) with ((Q + k * B - k) * p) by ring.
        apply Z.mul_lt_mono_pos_r; auto. lia. }
      lia. }
    clear - A Hk. nia. }
  exists (Q + k * q), (modround c wd t). split; auto.
  split; [clear - Eq Hq Ht HB Hp; nia|]. split.
  - replace (k * B * modround c wd t) with (k * (B * modround c wd t)) by ring. rewrite Eq.
    rewrite Z.mul_add_distr_l, E. ring.
  - clear - HQ Hq Hk. nia.
Qed.

Lemma mod_rounds x : 0 <= x -> x + W * p <= W2 ->
  exists t, dbl_mod c x = add_modp c t /\ exists Q, 0 <= Q < W /\ 0 <= t /\ W * t = x + Q * p.
Proof.
  intros Hx Hb. unfold W2 in Hb. pose proof B_pos as HB. pose proof W_pos as HW.
  assert (HBW : W = B * B * B * B) by apply W_B.
  destruct (modround_inv x 1 (W * W) x 0) as (Q0 & t0 & D0 & T0 & E0 & R0);
    [auto|lia|lia|rewrite B_val, W_val; lia|auto|lia|lia|].
  destruct (modround_inv x (1 * B) (W * B * B * B) t0 Q0) as (Q1 & t1 & D1 & T1 & E1 & R1);
    [auto|lia|rewrite HBW; ring|rewrite B_val, W_val; lia|auto|auto|auto|].
  destruct (modround_inv x (1 * B * B) (W * B * B) t1 Q1) as (Q2 & t2 & D2 & T2 & E2 & R2);
    [auto|clear - HB; nia|rewrite HBW; ring|rewrite B_val, W_val; lia|auto|auto|auto|].
  destruct (modround_inv x (1 * B * B * B) (W * B) t2 Q2) as (Q3 & t3 & D3 & T3 & E3 & R3);
    [auto|clear - HB; nia|rewrite HBW; ring|rewrite B_val, W_val; lia|auto|auto|auto|].
  exists t3. split.
  - unfold dbl_mod. cbv zeta. unfold W2. rewrite D0, D1, D2, D3. reflexivity.
  - exists Q3. replace W with (1 * B * B * B * B) by (rewrite HBW; ring). auto.
Qed.

(** Reduction: canonical for contents below p * 2^256; the class is right for all contents
    for which no carry is lost. *)
Lemma dbl_mod_val x : 0 <= x -> x + W * p <= W2 -> fv c (dbl_mod c x) = dv c x.
Proof.
  intros Hx Hb. destruct (mod_rounds x Hx Hb) as (t & -> & Q & HQ & Ht & E).
  assert (E1 : fv c (add_modp c t) = fv c t).
  { unfold add_modp. destruct (t <? p); auto. rewrite fv_sub, fv_p. ring. }
  rewrite E1. apply dv_fv. rewrite Z.mul_comm, E, mk_add, (mk_mul _ Q p), mk_p. ring.
Qed.
Lemma dbl_mod_ok x : 0 <= x < p * W -> can c (dbl_mod c x) /\ fv c (dbl_mod c x) = dv c x.
Proof.
  intros Hx. pose proof (cp_lt_W c). pose proof (cp_pos c). pose proof W_pos.
  split; [|apply dbl_mod_val; unfold W2; nia].
  destruct (mod_rounds x) as (t & -> & Q & HQ & Ht & E); [lia|unfold W2; nia|].
  destruct (add_modp_ok t) as (H1' & _); [nia|auto].
Qed.

(** ** divBy2, divBy4 *)
Lemma p_half : 2 * ((p + 1) / 2) = p + 1.
Proof. pose proof (cp_odd c). pose proof (Z.div_mod (p + 1) 2 ltac:(lia)).
  assert ((p + 1) mod 2 = 0) by (rewrite Zplus_mod, H; reflexivity). lia. Qed.
Lemma p_quarter : 4 * ((p + 1) / 4) = p + 1.
Proof. pose proof (cp_mod4 c). pose proof (Z.div_mod (p + 1) 4 ltac:(lia)).
  assert ((p + 1) mod 4 = 0) by (rewrite Zplus_mod, H; reflexivity). lia. Qed.

Lemma fp_divBy2_ok x : can c x -> can c (fp_divBy2 c x) /\ fadd (fv c (fp_divBy2 c x)) (fv c (fp_divBy2 c x)) = fv c x.
Proof.
  unfold can. intros Hx. unfold fp_divBy2, fp_shr1, halfTbl, fp_addNC. pose proof p_half. pose proof (cp_lt_W c).
  pose proof (Z.div_mod x 2 ltac:(lia)). pose proof (Z.mod_pos_bound x 2 ltac:(lia)).
  rewrite <- fv_add.
  destruct (Z.eqb_spec (x mod 2) 0) as [E|E].
  - rewrite Z.mod_small by lia. split; [lia|]. f_equal. lia.
  - rewrite Z.mod_small by lia. split; [lia|].
    replace (x / 2 + (p + 1) / 2 + (x / 2 + (p + 1) / 2)) with (x + p) by lia. rewrite fv_add, fv_p. ring.
Qed.
Lemma fp_divBy4_ok x : can c x ->
  can c (fp_divBy4 c x) /\ fmul (mkp 4) (fv c (fp_divBy4 c x)) = fv c x.
Proof.
  unfold can. intros Hx. unfold fp_divBy4, fp_shr2, quarterTbl, fp_addNC. pose proof p_quarter. pose proof (cp_lt_W c).
  pose proof (Z.div_mod x 4 ltac:(lia)). pose proof (Z.mod_pos_bound x 4 ltac:(lia)).
  rewrite <- fv_mulZ. set (i := x mod 4) in *.
  assert (E : 4 * (x / 4 + i * ((p + 1) / 4)) = x + i * p) by nia.
  rewrite Z.mod_small by nia. split; [nia|]. rewrite E, fv_add, fv_kp. ring.
Qed.

(** ** fast_modp: the contract [0, 6p] holds for BNb *)
End FpP.

Lemma fast_modp_BNb z : 0 <= z <= 6 * cp BNb ->
  can BNb (fp_fast_modp BNb z) /\ fv BNb (fp_fast_modp BNb z) = fv BNb z.
Proof.
  intros Hz. unfold fp_fast_modp, pTbl. pose proof cp_6. pose proof (cp_pos BNb).
  set (t := z / 2 ^ 253).
  assert (Hp : 16 * cp BNb = 16 * 16798108731015832284940804142231733909889187121439069848933715426072753864723) by reflexivity.
  assert (Ht : 0 <= t <= 6 /\ t * cp BNb - cp BNb <= z < t * cp BNb + cp BNb).
  { pose proof (Z.div_mod z (2 ^ 253) ltac:(discriminate)) as E. fold t in E.
    pose proof (Z.mod_pos_bound z (2 ^ 253) ltac:(reflexivity)) as Hm.
    change (2 ^ 253) with 14474011154664524427946373126085988481658748083205070504932198000989141204992 in *. lia. }
  rewrite (Z.mod_small (t * cp BNb)) by (clear - Ht H H0; nia).
  destruct (fp_sub_gen BNb z (t * cp BNb)) as [H1 H2].
  - lia.
  - clear - Ht H H0; nia.
  - lia.
  - split; [exact H1|]. rewrite H2, fv_kp. apply fsub_0r.
Qed.
Global Opaque fv dv.
