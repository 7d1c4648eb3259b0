From Verif Require Import Base Prim PrimProofs Loop Vuint VuintProofs VDiv VDivProofs ZmZ.
From Coq Require Import Znumtheory.

Section Mod.
Variable m : vuint.
Hypothesis Hm : vwf m.
Hypothesis Hm2 : 2 <= lv m.

Definition zred (x : vuint) : Prop := vwf x /\ lv x < lv m.

Lemma zadd_ok x y : zred x -> zred y -> 2 * lv m <= B ^ 9 ->
  exists z, zadd m x y = Ok z /\ zred z /\ lv z = (lv x + lv y) mod lv m.
Proof.
  intros [Hx X] [Hy Y] HB. unfold zadd. pose proof (vwf_nonneg x Hx). pose proof (vwf_nonneg y Hy).
  destruct (vadd_ok x y Hx Hy ltac:(lia)) as (s & -> & S1 & S2). cbn [bind].
  destruct (vcmp_ops s m S1 Hm) as (-> & _). destruct (Z.ltb_spec (lv s) (lv m)) as [C|C]; cbn [negb].
  - exists s. split; [reflexivity|]. split; [split; auto|]. rewrite <- S2. symmetry. apply Z.mod_small. lia.
  - destruct (vsub_ok s m S1 Hm C) as (z & -> & Z1 & Z2). exists z. split; [reflexivity|].
    assert (E : lv z = (lv x + lv y) mod lv m).
    { rewrite Z2, S2. apply Z.mod_unique with 1; lia. }
    split; [split; [exact Z1|]|exact E]. lia.
Qed.

Lemma zsub_ok x y : zred x -> zred y -> 2 * lv m <= B ^ 9 ->
  exists z, zsub m x y = Ok z /\ zred z /\ lv z = (lv x - lv y) mod lv m.
Proof.
  intros [Hx X] [Hy Y] HB. unfold zsub. pose proof (vwf_nonneg x Hx). pose proof (vwf_nonneg y Hy).
  destruct (vcmp_ops x y Hx Hy) as (-> & _). destruct (Z.ltb_spec (lv x) (lv y)) as [C|C].
  - destruct (vadd_ok x m Hx Hm ltac:(lia)) as (s & -> & S1 & S2). cbn [bind].
    destruct (vsub_ok s y S1 Hy ltac:(lia)) as (z & -> & Z1 & Z2). exists z. split; [reflexivity|].
    split; [split; [exact Z1|lia]|]. rewrite Z2, S2. apply Z.mod_unique with (-1); lia.
  - destruct (vsub_ok x y Hx Hy C) as (z & -> & Z1 & Z2). exists z. split; [reflexivity|].
    split; [split; [exact Z1|lia]|]. rewrite Z2. symmetry. apply Z.mod_small. lia.
Qed.

Lemma zneg_ok x : zred x -> exists z, zneg m x = Ok z /\ zred z /\ lv z = (- lv x) mod lv m.
Proof.
  intros [Hx X]. unfold zneg. rewrite (visZero_spec x Hx). pose proof (vwf_nonneg x Hx).
  destruct (Z.eqb_spec (lv x) 0) as [E|E].
  - exists x. split; [reflexivity|]. split; [split; auto|]. rewrite E. reflexivity.
  - destruct (vsub_ok m x Hm Hx ltac:(lia)) as (z & -> & Z1 & Z2). exists z. split; [reflexivity|].
    split; [split; [exact Z1|lia]|]. rewrite Z2. apply Z.mod_unique with (-1); lia.
Qed.

Lemma zmod_ok x : vwf x -> (length m < 9)%nat -> exists z, zmod m x = Ok z /\ zred z /\ lv z = lv x mod lv m.
Proof.
  intros Hx HL. unfold zmod. destruct (vmod_ok x m Hx Hm ltac:(lia) HL) as (r & -> & R1 & R2). cbn [bind].
  exists r. split; [reflexivity|]. split; [split; [exact R1|]|exact R2].
  rewrite R2. apply Z.mod_pos_bound. lia.
Qed.

Lemma zred_len x : zred x -> (length x <= length m)%nat.
Proof.
  intros [Hx X]. destruct (le_lt_dec (length x) (length m)) as [L|L]; [exact L|].
  pose proof (vwf_len_lt m x Hm Hx L). lia.
Qed.

Lemma zmul_ok x y : zred x -> zred y -> (length x + length y <= 9)%nat -> (length m < 9)%nat ->
  exists z, zmul m x y = Ok z /\ zred z /\ lv z = (lv x * lv y) mod lv m.
Proof.
  intros [Hx X] [Hy Y] HL HM. unfold zmul. destruct (vmul_ok x y Hx Hy HL) as (t & -> & T1 & T2). cbn [bind].
  destruct (zmod_ok t T1 HM) as (z & E & Z1 & Z2). exists z. rewrite T2 in Z2. auto.
Qed.

Lemma zmul_exit x y : (9 < length x + length y)%nat -> zmul m x y = Exit.
Proof. intros H. unfold zmul. rewrite vmul_exit by exact H. reflexivity. Qed.

Lemma zset_int_ok x : - lv m <= x < lv m -> - 2 ^ 31 < x < 2 ^ 31 ->
  exists z, zset_int m x = Ok z /\ zred z /\ lv z = x mod lv m.
Proof.
  intros R I. unfold zset_int. destruct (Z.eqb_spec x 0) as [->|N].
  - exists (vset 0). split; [reflexivity|]. assert (vwf (vset 0)) by (unfold vset; vwf_lit).
    split; [split; [auto|cbn [lv vset]; lia]|]. reflexivity.
  - destruct (Z.ltb_spec 0 x).
    + assert (U : isU x) by (unfold isU; rewrite B_val; lia). destruct (vset_vwf x U) as [V1 V2].
      exists (vset x). split; [reflexivity|]. split; [split; [exact V1|lia]|]. rewrite V2. symmetry. apply Z.mod_small. lia.
    + destruct (Z.eqb_spec x (- 2 ^ 31)); [lia|].
      assert (U : isU (- x)) by (unfold isU; rewrite B_val; lia). destruct (vset_vwf (- x) U) as [V1 V2].
      destruct (vcmp_ops m (vset (- x)) Hm V1) as (-> & _). rewrite V2.
      destruct (Z.ltb_spec (lv m) (- x)); [lia|].
      destruct (vsub_ok m (vset (- x)) Hm V1 ltac:(lia)) as (z & E & Z1 & Z2). exists z. rewrite V2 in Z2.
      split; [exact E|]. split; [split; [exact Z1|lia]|]. rewrite Z2. apply Z.mod_unique with (-1); lia.
Qed.

Lemma zset_int_too_small x : x < - lv m -> - 2 ^ 31 <= x -> zset_int m x = Exit.
Proof.
  intros R I. unfold zset_int. destruct (Z.eqb_spec x 0); [lia|]. destruct (Z.ltb_spec 0 x); [lia|].
  destruct (Z.eqb_spec x (- 2 ^ 31)); [reflexivity|].
  assert (U : isU (- x)) by (unfold isU; rewrite B_val; lia). destruct (vset_vwf (- x) U) as [V1 V2].
  destruct (vcmp_ops m (vset (- x)) Hm V1) as (-> & _). rewrite V2.
  destruct (Z.ltb_spec (lv m) (- x)); [reflexivity|lia].
Qed.

Lemma zdivs_ok q r x y : vwf x -> vwf y -> lv y <> 0 -> (length y < 9)%nat ->
  exists q' r', zdivs q r x y = Ok (q', r') /\ vwf q' /\ vwf r' /\ lv x = lv q' * lv y + lv r' /\ 0 <= lv r' < lv y.
Proof.
  intros Hx Hy Y L. unfold zdivs. destruct (vdiv_euclid x y Hx Hy Y L) as (q' & r' & -> & H). cbn [bind].
  exists q', r'. tauto.
Qed.

(** ** inv *)
Section Inv.
Variable x : Z.
Hypothesis HL : (2 * length m <= 9)%nat.

(** (a, b, s, t): s = a x, t = b x modulo m, gcd(s, t) = 1, 0 < t < s < m *)
Definition invI (st : zinv_state) : Prop :=
  let '(a, b, s, t, q) := st in
  zred a /\ zred b /\ zred s /\ zred t /\ 0 < lv t < lv s /\ rel_prime (lv s) (lv t) /\
  (lv s - lv a * x) mod lv m = 0 /\ (lv t - lv b * x) mod lv m = 0.

Definition invQ (z : vuint) : Prop := zred z /\ (lv z * x) mod lv m = 1.

Lemma modz_diff a b : (a - b) mod lv m = 0 -> b mod lv m = a mod lv m.
Proof.
  intros H. apply Z.mod_divide in H; [|lia]. destruct H as [k H]. replace b with (a + (- k) * lv m) by lia.
  apply Z.mod_add. lia.
Qed.

Lemma inv_step_lin s t a b q s' a' : s = q * t + s' -> (s - a * x) mod lv m = 0 -> (t - b * x) mod lv m = 0 ->
  (a' - (a - b * q)) mod lv m = 0 -> (s' - a' * x) mod lv m = 0.
Proof.
  intros E H1 H2 H3. apply Z.mod_divide in H1, H2, H3; try lia. apply Z.mod_divide; [lia|].
  destruct H1 as [k1 H1], H2 as [k2 H2], H3 as [k3 H3]. exists (k1 - q * k2 - k3 * x).
  replace s' with (s - q * t) by lia. replace a' with (a - b * q + k3 * lv m) by lia.
  replace s with (a * x + k1 * lv m) by lia. replace t with (b * x + k2 * lv m) by lia. ring.
Qed.

Lemma rel_prime_step s t q s' : s = q * t + s' -> rel_prime s t -> rel_prime t s'.
Proof.
  intros E H. apply rel_prime_bezout in H. destruct H as [u v H]. apply bezout_rel_prime.
  apply Bezout_intro with (u := u * q + v) (v := u). rewrite <- H, E. ring.
Qed.

Lemma invQ_of b t s : zred b -> 0 < t -> rel_prime s t -> (exists q, s = q * t) ->
  (t - lv b * x) mod lv m = 0 -> invQ b.
Proof.
  intros Hb T R [q E] H. assert (t = 1).
  { assert (D : (t | 1)). { destruct R as [_ _ R]. apply R; [exists q; lia|apply Z.divide_refl]. }
    apply Z.divide_1_r_nonneg in D; lia. }
  subst t. split; [exact Hb|]. apply modz_diff in H. rewrite H. apply Z.mod_small. lia.
Qed.

Lemma z2m : 2 * lv m <= B ^ 9.
Proof.
  pose proof (vwf_ub m Hm). pose proof (Bpow_mono (length m) 8 ltac:(lia)) as H1.
  change (Z.of_nat 8) with 8 in H1. replace (B ^ 9) with (B ^ 8 * B) by (change 9 with (8 + 1); rewrite Z.pow_add_r, Z.pow_1_r by lia; reflexivity).
  rewrite B_val in *. set (P := _ ^ 8) in *. set (P2 := _ ^ Z.of_nat _) in *. clearbody P P2. lia.
Qed.

Lemma q_red s q t s' : zred s -> vwf q -> lv s = lv q * lv t + lv s' -> 0 <= lv s' -> 0 < lv t -> zred q.
Proof. intros [H1 H2] Q E S T. split; [exact Q|]. pose proof (vwf_nonneg q Q). nia. Qed.

Lemma zmul_ok' u v : zred u -> zred v -> exists z, zmul m u v = Ok z /\ zred z /\ lv z = (lv u * lv v) mod lv m.
Proof.
  intros Hu Hv. apply zmul_ok; auto; [pose proof (zred_len u Hu); pose proof (zred_len v Hv)|]; lia.
Qed.

Lemma sub_mul_mod u w v : w = v mod lv m -> ((u - w) mod lv m - (u - v)) mod lv m = 0.
Proof.
  intros ->. rewrite Zminus_mod_idemp_l. replace (u - v mod lv m - (u - v)) with (v - v mod lv m) by ring.
  rewrite Zminus_mod_idemp_r, Z.sub_diag. apply Z.mod_0_l. lia.
Qed.

Lemma zinv_body_ok st : invI st ->
  match zinv_body m st with
  | Ok (Next st') => invI st' /\ 0 <= lv (snd (fst st')) < lv (snd (fst st))
  | Ok (Done r) => invQ r
  | _ => False
  end.
Proof.
  destruct st as [[[[a b] s] t] q]. intros (Ha & Hb & Hs & Ht & C & RP & E1 & E2). cbn [fst snd].
  unfold zinv_body.
  assert (Lt' : (length t < 9)%nat) by (pose proof (zred_len t Ht); clear - H HL; lia).
  assert (T0 : lv t <> 0) by (clear - C; lia). assert (Tp : 0 < lv t) by (clear - C; lia).
  destruct (zdivs_ok q s s t (proj1 Hs) (proj1 Ht) T0 Lt') as (q1 & s1 & D & Q1 & S1 & D1 & D2).
  rewrite D. cbn [bind]. rewrite (visZero_spec s1 S1).
  assert (Hs1 : zred s1) by (split; [exact S1|destruct Ht as [_ Ht]; clear - Ht D2; lia]).
  destruct (Z.eqb_spec (lv s1) 0) as [Z0|Z0].
  { apply (invQ_of b (lv t) (lv s)); auto. exists (lv q1). clear - D1 Z0. lia. }
  assert (S1p : 0 < lv s1) by (clear - D2 Z0; lia).
  assert (Hq1 : zred q1) by (apply (q_red s q1 t s1); auto; apply D2).
  destruct (zmul_ok' b q1 Hb Hq1) as (bq & -> & B1 & B2). cbn [bind].
  destruct (zsub_ok a bq Ha B1 z2m) as (a1 & -> & A1 & A2). cbn [bind].
  assert (E1' : (lv s1 - lv a1 * x) mod lv m = 0).
  { apply (inv_step_lin (lv s) (lv t) (lv a) (lv b) (lv q1)); auto. rewrite A2. apply sub_mul_mod. exact B2. }
  assert (RP1 : rel_prime (lv t) (lv s1)) by (apply (rel_prime_step (lv s) (lv t) (lv q1)); auto).
  assert (Ls1 : (length s1 < 9)%nat) by (pose proof (zred_len s1 Hs1); clear - H HL; lia).
  destruct (zdivs_ok q1 t t s1 (proj1 Ht) S1 Z0 Ls1) as (q2 & t1 & F & Q2 & T1 & F1 & F2).
  rewrite F. cbn [bind]. rewrite (visZero_spec t1 T1).
  destruct (Z.eqb_spec (lv t1) 0) as [Z1|Z1].
  { apply (invQ_of a1 (lv s1) (lv t)); auto. exists (lv q2). clear - F1 Z1. lia. }
  assert (Hq2 : zred q2) by (apply (q_red t q2 s1 t1); auto; apply F2).
  assert (Ht1 : zred t1) by (split; [exact T1|destruct Hs1 as [_ Hs1]; clear - Hs1 F2; lia]).
  destruct (zmul_ok' a1 q2 A1 Hq2) as (aq & -> & G1 & G2). cbn [bind].
  destruct (zsub_ok b aq Hb G1 z2m) as (b1 & -> & H1 & H2). cbn [bind].
  assert (E2' : (lv t1 - lv b1 * x) mod lv m = 0).
  { apply (inv_step_lin (lv t) (lv s1) (lv b) (lv a1) (lv q2)); auto. rewrite H2. apply sub_mul_mod. exact G2. }
  assert (RP2 : rel_prime (lv s1) (lv t1)) by (apply (rel_prime_step (lv t) (lv s1) (lv q2)); auto).
  cbn [fst snd]. split; [|clear - D2 F2; lia]. unfold invI. split; [exact A1|]. split; [exact H1|]. split; [exact Hs1|].
  split; [exact Ht1|]. split; [clear - F2 Z1; lia|]. auto.
Qed.
End Inv.

Lemma zinv_ok x : zred x -> (2 * length m <= 9)%nat -> rel_prime (lv x) (lv m) ->
  exists z, zinv m x = Ok z /\ zred z /\ (lv z * lv x) mod lv m = 1.
Proof.
  intros Hx HL RP. pose proof (vwf_nonneg x (proj1 Hx)) as X0.
  assert (U1 : isU 1) by (unfold isU; rewrite B_val; lia). destruct (vset_vwf 1 U1) as [W1 V1].
  assert (R1 : zred (vset 1)) by (split; [exact W1|lia]).
  unfold zinv. destruct (vcmp_ops (vset 1) x W1 (proj1 Hx)) as (_ & -> & _). rewrite V1.
  destruct (Z.eqb_spec 1 (lv x)) as [E|E].
  { exists (vset 1). split; [reflexivity|]. split; [exact R1|]. rewrite V1, <- E. apply Z.mod_small. lia. }
  assert (X : lv x <> 0).
  { intros E0. rewrite E0 in RP. destruct RP as [_ _ RP].
    assert (D : (lv m | 1)) by (apply RP; [exists 0; lia|apply Z.divide_refl]).
    apply Z.divide_1_r_nonneg in D; lia. }
  assert (Lx : (length x < 9)%nat) by (pose proof (zred_len x Hx); lia).
  destruct (zdivs_ok (vset 0) (vset 0) m x Hm (proj1 Hx) X Lx) as (q & t & -> & Q & T & D1 & D2). cbn [bind].
  assert (Hq : zred q). { split; [exact Q|]. pose proof (vwf_nonneg q Q). nia. }
  destruct (zneg_ok q Hq) as (b & -> & B1 & B2). cbn [bind].
  assert (RP' : rel_prime (lv x) (lv t)).
  { apply (rel_prime_step (lv m) (lv x) (lv q)); [exact D1|apply rel_prime_sym; exact RP]. }
  assert (T0 : lv t <> 0).
  { intros E0. rewrite E0 in RP'. destruct RP' as [_ _ R']. 
    assert (D : (lv x | 1)) by (apply R'; [apply Z.divide_refl|exists 0; lia]).
    apply Z.divide_1_r_nonneg in D; lia. }
  destruct (loopR_total (zinv_body m) (invI (lv x)) (invQ (lv x)) (fun st => lv (snd (fst st)))
              (zinv_body_ok (lv x) HL) 600 (vset 1, b, x, t, q)) as (r & E2 & R2 & R3).
  - unfold invI. split; [exact R1|]. split; [exact B1|]. split; [exact Hx|].
    split; [split; [exact T|destruct Hx; lia]|]. split; [lia|]. split; [exact RP'|]. split.
    + rewrite V1. replace (lv x - 1 * lv x) with 0 by ring. apply Z.mod_0_l. lia.
    + rewrite B2. rewrite Zminus_mod, Zmult_mod, Z.mod_mod, <- Zmult_mod, <- Zminus_mod by lia.
      replace (lv t - - lv q * lv x) with (1 * lv m) by lia. apply Z.mod_mul. lia.
  - cbn [fst snd]. pose proof (vwf_range t T). assert (B ^ 9 < 2 ^ Z.of_nat 600); [|lia].
    rewrite B_val. reflexivity.
  - exists r. rewrite E2. auto.
Qed.
End Mod.

Lemma zset_int_unreduced : exists z, zset_int [7] 10 = Ok z /\ lv z = 10.
Proof. eexists. split; reflexivity. Qed.

Lemma zinv_zero : zinv [7] [0] = Ok [0].
Proof. vm_compute. reflexivity. Qed.

Lemma zinv_noncoprime : zinv [15] [5] = Ok [10].
Proof. vm_compute. reflexivity. Qed.

Lemma zinv_example : exists m x, vwf m /\ 2 <= lv m /\ (2 * length m <= 9)%nat /\
  (vwf x /\ lv x < lv m) /\ rel_prime (lv x) (lv m) /\ zinv m x = Ok [11068046444225730975; 1].
Proof.
  exists [13; 4], [5]. split; [vwf_lit|]. split; [cbn [lv]; rewrite B_val; lia|]. split; [cbn [length]; lia|].
  split; [split; [vwf_lit|cbn [lv]; rewrite B_val; lia]|]. split; [|vm_compute; reflexivity].
  apply Zgcd_1_rel_prime. cbn [lv]. rewrite B_val. reflexivity.
Qed.
