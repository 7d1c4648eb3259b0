(** Correctness of the Vuint operations other than division and text. *)
From Verif Require Import Base Prim PrimProofs Loop Vuint.

Lemma alloc_ok n : (n <= cap)%nat -> alloc n = Ok tt.
Proof. intros H. unfold alloc. destruct (Nat.ltb_spec cap n); [lia|reflexivity]. Qed.
Lemma alloc_exit n : (cap < n)%nat -> alloc n = Exit.
Proof. intros H. unfold alloc. destruct (Nat.ltb_spec cap n); [reflexivity|lia]. Qed.

Lemma strip_spec l : limbs l ->
  limbs (strip l) /\ (length (strip l) <= length l)%nat /\ lv (strip l) = lv l /\
  (strip l <> [] -> last (strip l) 0 <> 0).
Proof.
  intros Hl. induction Hl as [|d l Hd Hl IH]; cbn [strip].
  - repeat split; auto using limbs_nil.
  - destruct IH as (I1 & I2 & I3 & I4). destruct (strip l) as [|s sl] eqn:E.
    + cbn [lv] in I3. destruct (Z.eqb_spec d 0) as [->|Hd0].
      * cbn [lv length]. repeat split; auto using limbs_nil; try lia; try contradiction.
      * cbn [lv length last]. split; [apply limbs_cons; auto using limbs_nil|]. split; [lia|]. split; [lia|auto].
    + cbn [lv length] in *. repeat split; try lia.
      * apply limbs_cons. auto.
      * intros _. apply I4. discriminate.
Qed.

Lemma trim_spec l : limbs l -> l <> [] ->
  limbs (trim l) /\ (1 <= length (trim l) <= length l)%nat /\ lv (trim l) = lv l /\
  (length (trim l) = 1%nat \/ last (trim l) 0 <> 0).
Proof.
  intros Hl Hn. destruct (strip_spec l Hl) as (I1 & I2 & I3 & I4). unfold trim.
  destruct (strip l) as [|s sl] eqn:E.
  - destruct l as [|d l]; [contradiction|]. cbn [firstn length lv] in *.
    apply limbs_cons in Hl. destruct Hl as [Hd Hl].
    repeat split; try lia; [apply limbs_cons; auto using limbs_nil|].
    pose proof (lv_nonneg l Hl). unfold isU in Hd. pose proof B_pos. nia.
  - repeat split; auto; cbn [length] in *; try lia. right. apply I4. discriminate.
Qed.

Lemma trim_vwf l : limbs l -> (1 <= length l <= cap)%nat -> vwf (trim l) /\ lv (trim l) = lv l.
Proof.
  intros Hl HL. destruct (trim_spec l Hl) as (I1 & I2 & I3 & I4).
  { intros ->. cbn in HL. lia. }
  split; auto. unfold vwf. repeat split; auto; lia.
Qed.

Lemma vwf_limbs x : vwf x -> limbs x.
Proof. intros H. apply H. Qed.
Lemma vwf_len x : vwf x -> (1 <= length x <= cap)%nat.
Proof. intros H. apply H. Qed.
Lemma vwf_nonneg x : vwf x -> 0 <= lv x.
Proof. intros H. apply lv_nonneg, vwf_limbs, H. Qed.
Lemma vwf_nonnil x : vwf x -> x <> [].
Proof. intros H ->. apply vwf_len in H. cbn in H. lia. Qed.
Lemma vwf_ub x : vwf x -> lv x < B ^ Z.of_nat (length x).
Proof. intros H. apply lv_bound, vwf_limbs, H. Qed.

Lemma last_lb l : limbs l -> l <> [] -> last l 0 <> 0 ->
  B ^ (Z.of_nat (length l) - 1) <= lv l.
Proof.
  intros Hl Hn Hlast. rewrite (app_removelast_last 0 Hn) in Hl |- *.
  set (h := last l 0) in *. set (t := removelast l) in *.
  rewrite lv_app. cbn [lv]. rewrite app_length. cbn [length].
  apply limbs_app in Hl. destruct Hl as [Ht Hh]. apply limbs_cons in Hh. destruct Hh as [Hh _].
  replace (Z.of_nat (length t + 1) - 1) with (Z.of_nat (length t)) by lia.
  pose proof (lv_nonneg t Ht). pose proof (Bpow_pos (length t)). unfold isU in Hh. nia.
Qed.

Lemma vwf_lb x : vwf x -> (1 < length x)%nat -> B ^ (Z.of_nat (length x) - 1) <= lv x.
Proof.
  intros H HL. apply last_lb; [apply vwf_limbs, H | apply vwf_nonnil, H |].
  destruct H as (_ & _ & [H|H]); [lia|exact H].
Qed.

Lemma Bpow_mono a b : (a <= b)%nat -> B ^ Z.of_nat a <= B ^ Z.of_nat b.
Proof. intros H. apply Z.pow_le_mono_r; [apply B_pos | lia]. Qed.

(** More units means a larger value. *)
Lemma vwf_len_lt x y : vwf x -> vwf y -> (length x < length y)%nat -> lv x < lv y.
Proof.
  intros Hx Hy HL. pose proof (vwf_ub x Hx). pose proof (vwf_len x Hx).
  pose proof (vwf_lb y Hy ltac:(lia)) as H1.
  pose proof (Bpow_mono (length x) (length y - 1) ltac:(lia)) as H2.
  replace (Z.of_nat (length y) - 1) with (Z.of_nat (length y - 1)) in H1 by lia. lia.
Qed.

Lemma vcompare_spec x y : vwf x -> vwf y -> vcompare x y = (lv x ?= lv y).
Proof.
  intros Hx Hy. unfold vcompare, prim_compare.
  destruct (Nat.eqb_spec (length x) (length y)) as [E|E]; cbn [negb].
  - apply cmp_limbs_spec; auto using vwf_limbs.
  - destruct (Nat.ltb_spec (length y) (length x)) as [L|L]; symmetry.
    + apply Z.compare_gt_iff. apply vwf_len_lt; auto.
    + apply Z.compare_lt_iff. apply vwf_len_lt; auto. lia.
Qed.

Lemma vwf_inj x y : vwf x -> vwf y -> lv x = lv y -> x = y.
Proof.
  intros Hx Hy H.
  destruct (lt_eq_lt_dec (length x) (length y)) as [[L|L]|L].
  - pose proof (vwf_len_lt x y Hx Hy L). lia.
  - apply lv_inj; auto using vwf_limbs.
  - pose proof (vwf_len_lt y x Hy Hx L). lia.
Qed.

Lemma vset_vwf x : isU x -> vwf (vset x) /\ lv (vset x) = x.
Proof.
  intros Hx. unfold vset, vwf. cbn [length lv]. unfold cap. repeat split; try lia.
  apply limbs_cons. auto using limbs_nil.
Qed.

(** A canonical representation exists for every integer in range. *)
Fixpoint to_limbs (n : nat) (v : Z) : list Z :=
  match n with
  | O => []
  | S n' => v mod B :: to_limbs n' (v / B)
  end.

Lemma to_limbs_spec n v : 0 <= v < B ^ Z.of_nat n ->
  limbs (to_limbs n v) /\ length (to_limbs n v) = n /\ lv (to_limbs n v) = v.
Proof.
  revert v; induction n as [|n IH]; intros v Hv.
  - cbn in *. repeat split; auto using limbs_nil. lia.
  - cbn [to_limbs length lv]. rewrite Nat2Z.inj_succ, Z.pow_succ_r in Hv by lia.
    pose proof B_pos. destruct (IH (v / B)) as (I1 & I2 & I3).
    { split; [apply Z.div_pos; lia | apply Z.div_lt_upper_bound; lia]. }
    pose proof (Z.div_mod v B ltac:(lia)). pose proof (Z.mod_pos_bound v B ltac:(lia)).
    rewrite limbs_cons, I3. repeat split; auto; try (unfold isU; lia); lia.
Qed.

Definition vOf (v : Z) : vuint := trim (to_limbs cap v).
Lemma vOf_spec v : 0 <= v < B ^ 9 -> vwf (vOf v) /\ lv (vOf v) = v.
Proof.
  intros Hv. destruct (to_limbs_spec cap v) as (H1 & H2 & H3).
  { exact Hv. }
  destruct (trim_vwf (to_limbs cap v)) as [H4 H5]; auto.
  { rewrite H2. unfold cap. lia. }
  split; auto. unfold vOf. lia.
Qed.

Lemma vOf_lv x : vwf x -> vOf (lv x) = x.
Proof.
  intros Hx. assert (H : 0 <= lv x < B ^ 9).
  { split; [apply vwf_nonneg; auto|]. pose proof (vwf_ub x Hx). pose proof (vwf_len x Hx).
    pose proof (Bpow_mono (length x) cap ltac:(lia)). change (Z.of_nat cap) with 9 in *. lia. }
  destruct (vOf_spec (lv x) H). apply vwf_inj; auto.
Qed.

Lemma vwf_range x : vwf x -> 0 <= lv x < B ^ 9.
Proof.
  intros Hx. split; [apply vwf_nonneg; auto|]. pose proof (vwf_ub x Hx). pose proof (vwf_len x Hx).
  pose proof (Bpow_mono (length x) cap ltac:(lia)). change (Z.of_nat cap) with 9 in *. lia.
Qed.

Lemma b2z_isU b : isU (b2z b).
Proof. unfold isU. pose proof B_val. destruct b; cbn [b2z]; lia. Qed.

(** ** Addition *)
Lemma vadd_in_spec x y : vwf x -> vwf y ->
  exists out c, vadd_in x y = Ok (out, c) /\ limbs out /\
    length out = Nat.max (length x) (length y) /\
    lv out + (if c : bool then B ^ Z.of_nat (length out) else 0) = lv x + lv y.
Proof.
  intros Hx Hy. unfold vadd_in.
  assert (HP : exists px py, (if Nat.ltb (length x) (length y) then (y, x) else (x, y)) = (px, py)
     /\ vwf px /\ vwf py /\ (length py <= length px)%nat
     /\ length px = Nat.max (length x) (length y) /\ lv px + lv py = lv x + lv y).
  { destruct (Nat.ltb_spec (length x) (length y)).
    - exists y, x. repeat split; try apply Hx; try apply Hy; lia.
    - exists x, y. repeat split; try apply Hx; try apply Hy; lia. }
  destruct HP as (px & py & -> & Hpx & Hpy & HLe & HLm & HS).
  rewrite (alloc_ok _ (proj2 (vwf_len _ Hpx))). cbn [bind].
  set (min := length py) in *.
  assert (Hf : length (firstn min px) = min) by (apply firstn_length_le; auto).
  pose proof (in_addN_spec (firstn min px) py (limbs_firstn _ _ (vwf_limbs _ Hpx)) (vwf_limbs _ Hpy) Hf) as HA.
  destruct (in_addN (firstn min px) py) as [lo c]. destruct HA as (A1 & A2 & A3). rewrite Hf in *.
  pose proof (lv_split min px) as HV. rewrite Hf in HV.
  destruct (Nat.ltb_spec min (length px)) as [L|L].
  - assert (Hsk : skipn min px <> []).
    { intros E. apply (f_equal (@length Z)) in E. rewrite skipn_length in E. cbn in E. lia. }
    pose proof (in_add_spec (skipn min px) (b2z c) (limbs_skipn _ _ (vwf_limbs _ Hpx)) Hsk (b2z_isU c)) as HB.
    destruct (in_add (skipn min px) (b2z c)) as [hi c2]. destruct HB as (B1 & B2 & B3).
    exists (lo ++ hi), c2. rewrite skipn_length in *.
    assert (HLL : length (lo ++ hi) = length px) by (rewrite app_length; lia).
    repeat split; auto.
    + apply limbs_app; auto.
    + lia.
    + rewrite HLL, lv_app, A2.
      replace (Z.of_nat (length px)) with (Z.of_nat min + Z.of_nat (length px - min)) by lia.
      rewrite Z.pow_add_r by lia. destruct c, c2; cbn [b2z] in *; nia.
  - exists lo, c. assert (min = length px) by lia. repeat split; auto; try lia.
    rewrite A2. replace (skipn min px) with (@nil Z) in HV.
    + cbn [lv] in HV. lia.
    + symmetry. apply skipn_all2. lia.
Qed.

Lemma app_last1 (l : list Z) d : last (l ++ [d]) 0 = d.
Proof. apply last_last. Qed.

Lemma vadd_ok x y : vwf x -> vwf y -> lv x + lv y < B ^ 9 ->
  exists z, vadd x y = Ok z /\ vwf z /\ lv z = lv x + lv y.
Proof.
  intros Hx Hy HR. unfold vadd.
  destruct (vadd_in_spec x y Hx Hy) as (out & c & E & H1 & H2 & H3). rewrite E. cbn [bind].
  pose proof (vwf_len x Hx). pose proof (vwf_len y Hy).
  destruct c.
  - assert (HL : (length out + 1 <= cap)%nat).
    { destruct (Nat.le_gt_cases (length out + 1) cap) as [L|L]; auto. exfalso.
      assert (length out = cap) by lia. rewrite H4 in *. pose proof (lv_nonneg out H1).
      change (Z.of_nat cap) with 9 in *. lia. }
    rewrite (alloc_ok _ HL). cbn [bind]. exists (out ++ [1]). split; auto.
    assert (HV : lv (out ++ [1]) = lv x + lv y) by (rewrite lv_app; cbn [lv]; lia).
    split; auto. unfold vwf. rewrite app_length, app_last1. cbn [length].
    repeat split; try lia. apply limbs_app. split; auto. apply limbs_cons. split; auto using limbs_nil.
    apply (b2z_isU true).
  - destruct (trim_vwf out H1 ltac:(lia)) as [T1 T2]. exists (trim out). repeat split; try apply T1. lia.
Qed.

Lemma vadd_exit x y : vwf x -> vwf y -> B ^ 9 <= lv x + lv y -> vadd x y = Exit.
Proof.
  intros Hx Hy HR. unfold vadd.
  destruct (vadd_in_spec x y Hx Hy) as (out & c & E & H1 & H2 & H3). rewrite E. cbn [bind].
  pose proof (vwf_len x Hx). pose proof (vwf_len y Hy).
  pose proof (lv_bound out H1) as HB. pose proof (Bpow_mono (length out) cap ltac:(lia)) as HM.
  change (Z.of_nat cap) with 9 in *.
  destruct c; [|lia].
  rewrite alloc_exit; auto.
  destruct (Nat.le_gt_cases (length out + 1) cap) as [L|L]; auto. exfalso.
  pose proof (Bpow_mono (length out + 1) cap L) as HM2. change (Z.of_nat cap) with 9 in *.
  replace (Z.of_nat (length out + 1)) with (Z.succ (Z.of_nat (length out))) in HM2 by lia.
  rewrite Z.pow_succ_r in HM2 by lia. pose proof B_val. pose proof (Bpow_pos (length out)). nia.
Qed.

Lemma vadd32_ok x y : vwf x -> 0 <= y < 2 ^ 32 -> lv x + y < B ^ 9 ->
  exists z, vadd32 x y = Ok z /\ vwf z /\ lv z = lv x + y.
Proof.
  intros Hx Hy HR. unfold vadd32. pose proof (vwf_len x Hx) as HL.
  rewrite alloc_ok by lia. cbn [bind].
  assert (HyU : isU y) by (unfold isU; pose proof B_val; lia).
  pose proof (in_add_spec x y (vwf_limbs _ Hx) (vwf_nonnil _ Hx) HyU) as HA.
  destruct (in_add x y) as [out c]. destruct HA as (A1 & A2 & A3).
  destruct c.
  - assert (HLL : (length x + 1 <= cap)%nat).
    { destruct (Nat.le_gt_cases (length x + 1) cap) as [L|L]; auto. exfalso.
      assert (length x = cap) as E by lia. rewrite E in *. pose proof (lv_nonneg out A1).
      change (Z.of_nat cap) with 9 in *. lia. }
    rewrite (alloc_ok _ HLL). cbn [bind]. exists (out ++ [1]). split; auto.
    assert (HV : lv (out ++ [1]) = lv x + y) by (rewrite lv_app, A2; cbn [lv]; lia).
    split; auto. unfold vwf. rewrite app_length, app_last1. cbn [length].
    repeat split; try lia. apply limbs_app. split; auto. apply limbs_cons. split; auto using limbs_nil.
    apply (b2z_isU true).
  - exists out. split; auto. split; [|lia]. unfold vwf. rewrite A2. repeat split; auto; try lia.
    destruct (Nat.eq_dec (length x) 1) as [E|E]; [left; auto|right].
    intros E2. pose proof (vwf_lb x Hx ltac:(lia)) as HLB.
    assert (Hn : out <> []) by (intros ->; cbn in A2; lia).
    pose proof (app_removelast_last 0 Hn) as HO. rewrite E2 in HO.
    assert (lv out = lv (removelast out)) by (rewrite HO at 1; rewrite lv_app; cbn [lv]; lia).
    assert (limbs (removelast out)) by (rewrite HO in A1; apply limbs_app in A1; apply A1).
    pose proof (lv_bound (removelast out) H0) as HUB.
    assert (length (removelast out) = length x - 1)%nat.
    { rewrite HO in A2. rewrite app_length in A2. cbn in A2. lia. }
    rewrite H1 in HUB. replace (Z.of_nat (length x - 1)) with (Z.of_nat (length x) - 1) in HUB by lia. lia.
Qed.

Lemma vadd32_exit x y : vwf x -> 0 <= y < 2 ^ 32 -> B ^ 9 <= lv x + y -> vadd32 x y = Exit.
Proof.
  intros Hx Hy HR. unfold vadd32. pose proof (vwf_len x Hx) as HL.
  rewrite alloc_ok by lia. cbn [bind].
  assert (HyU : isU y) by (unfold isU; pose proof B_val; lia).
  pose proof (in_add_spec x y (vwf_limbs _ Hx) (vwf_nonnil _ Hx) HyU) as HA.
  destruct (in_add x y) as [out c]. destruct HA as (A1 & A2 & A3).
  pose proof (lv_bound out A1) as HB. pose proof (Bpow_mono (length out) cap ltac:(lia)) as HM.
  change (Z.of_nat cap) with 9 in *.
  destruct c; [|lia]. rewrite alloc_exit; auto.
  destruct (Nat.le_gt_cases (length x + 1) cap) as [L|L]; auto. exfalso.
  pose proof (Bpow_mono (length x + 1) cap L) as HM2. change (Z.of_nat cap) with 9 in *.
  replace (Z.of_nat (length x + 1)) with (Z.succ (Z.of_nat (length x))) in HM2 by lia.
  rewrite Z.pow_succ_r in HM2 by lia. pose proof B_val. pose proof (Bpow_pos (length x)).
  rewrite A2 in *. nia.
Qed.

(** ** Subtraction *)
Lemma vsub_in_spec x y : vwf x -> vwf y -> (length y <= length x)%nat ->
  exists out c, vsub_in x y = Ok (out, c) /\ limbs out /\ length out = length x /\
    lv out - (if c : bool then B ^ Z.of_nat (length out) else 0) = lv x - lv y.
Proof.
  intros Hx Hy HLe. unfold vsub_in.
  destruct (Nat.ltb_spec (length x) (length y)) as [L|_]; [lia|].
  rewrite (alloc_ok _ (proj2 (vwf_len _ Hx))). cbn [bind].
  set (min := length y) in *.
  assert (Hf : length (firstn min x) = min) by (apply firstn_length_le; auto).
  pose proof (in_subN_spec (firstn min x) y (limbs_firstn _ _ (vwf_limbs _ Hx)) (vwf_limbs _ Hy) Hf) as HA.
  destruct (in_subN (firstn min x) y) as [lo c]. destruct HA as (A1 & A2 & A3). rewrite Hf in *.
  pose proof (lv_split min x) as HV. rewrite Hf in HV.
  destruct (Nat.ltb_spec min (length x)) as [L|L].
  - assert (Hsk : skipn min x <> []).
    { intros E. apply (f_equal (@length Z)) in E. rewrite skipn_length in E. cbn in E. lia. }
    pose proof (in_sub_spec (skipn min x) (b2z c) (limbs_skipn _ _ (vwf_limbs _ Hx)) Hsk (b2z_isU c)) as HB.
    destruct (in_sub (skipn min x) (b2z c)) as [hi c2]. destruct HB as (B1 & B2 & B3).
    exists (lo ++ hi), c2. rewrite skipn_length in *.
    assert (HLL : length (lo ++ hi) = length x) by (rewrite app_length; lia).
    repeat split; auto.
    + apply limbs_app; auto.
    + rewrite HLL, lv_app, A2.
      replace (Z.of_nat (length x)) with (Z.of_nat min + Z.of_nat (length x - min)) by lia.
      rewrite Z.pow_add_r by lia. destruct c, c2; cbn [b2z] in *; nia.
  - exists lo, c. assert (min = length x) by lia. repeat split; auto; try lia.
    rewrite A2. replace (skipn min x) with (@nil Z) in HV.
    + cbn [lv] in HV. lia.
    + symmetry. apply skipn_all2. lia.
Qed.

Lemma vsub_ok x y : vwf x -> vwf y -> lv y <= lv x ->
  exists z, vsub x y = Ok z /\ vwf z /\ lv z = lv x - lv y.
Proof.
  intros Hx Hy HR. unfold vsub.
  assert (HL : (length y <= length x)%nat).
  { destruct (Nat.le_gt_cases (length y) (length x)) as [L|L]; auto.
    pose proof (vwf_len_lt x y Hx Hy L). lia. }
  destruct (vsub_in_spec x y Hx Hy HL) as (out & c & E & H1 & H2 & H3). rewrite E. cbn [bind].
  pose proof (lv_bound out H1). destruct c; [lia|].
  destruct (trim_vwf out H1) as [T1 T2]; [rewrite H2; apply vwf_len; auto|].
  exists (trim out). repeat split; try apply T1. lia.
Qed.

Lemma vsub_exit x y : vwf x -> vwf y -> lv x < lv y -> length x = length y -> vsub x y = Exit.
Proof.
  intros Hx Hy HR HL. unfold vsub.
  destruct (vsub_in_spec x y Hx Hy ltac:(lia)) as (out & c & E & H1 & H2 & H3). rewrite E. cbn [bind].
  pose proof (lv_nonneg out H1). destruct c; [reflexivity|lia].
Qed.

Lemma vsub_ub x y : (length x < length y)%nat -> vsub x y = UB.
Proof.
  intros HL. unfold vsub, vsub_in.
  destruct (Nat.ltb_spec (length x) (length y)); [reflexivity|lia].
Qed.

(** ** Multiplication *)
Lemma vmul1_ok x y : vwf x -> isU y -> (length x < cap)%nat ->
  exists z, vmul1 x y = Ok z /\ vwf z /\ lv z = lv x * y.
Proof.
  intros Hx Hy HL. unfold vmul1. rewrite alloc_ok by lia. cbn [bind].
  destruct (in_mul_spec x y (vwf_limbs _ Hx) Hy) as (H1 & H2 & H3).
  destruct (trim_vwf (in_mul x y) H1) as [T1 T2]; [lia|].
  exists (trim (in_mul x y)). split; [reflexivity|]. split; auto. lia.
Qed.

Lemma skipn_skipn' {A} n m (l : list A) : skipn n (skipn m l) = skipn (n + m) l.
Proof.
  revert l; induction m as [|m IH]; intros l; [rewrite Nat.add_0_r; reflexivity|].
  rewrite Nat.add_succ_r. destruct l as [|d l]; [rewrite !skipn_nil; reflexivity|].
  cbn [skipn]. apply IH.
Qed.

Lemma raw_mul_loop_spec x ys : forall out i done_,
  limbs x -> x <> [] -> limbs ys -> limbs done_ -> limbs out ->
  length done_ = i -> length out = (length x + i + length ys)%nat ->
  lv out = lv x * lv done_ ->
  limbs (raw_mul_loop x out i ys) /\
  length (raw_mul_loop x out i ys) = length out /\
  lv (raw_mul_loop x out i ys) = lv x * lv (done_ ++ ys).
Proof.
  induction ys as [|yi ys IH]; intros out i done_ Hx Hxn Hys Hd Ho Hi HL HV.
  - cbn [raw_mul_loop]. rewrite app_nil_r. auto.
  - cbn [raw_mul_loop]. apply limbs_cons in Hys. destruct Hys as [Hyi Hys].
    cbn [length] in HL.
    destruct (in_mul_spec x yi Hx Hyi) as (M1 & M2 & M3).
    set (n := S (length x)) in *.
    assert (Hlo : length (firstn i out) = i) by (apply firstn_length_le; lia).
    assert (Hskl : length (skipn i out) = (length x + S (length ys))%nat) by (rewrite skipn_length; lia).
    assert (Hmid : length (firstn n (skipn i out)) = n) by (apply firstn_length_le; lia).
    pose proof (in_addN_spec (firstn n (skipn i out)) (in_mul x yi)
      (limbs_firstn _ _ (limbs_skipn _ _ Ho)) M1 ltac:(lia)) as HA.
    unfold raw_mul_step. fold n.
    destruct (in_addN (firstn n (skipn i out)) (in_mul x yi)) as [s c] eqn:Es.
    destruct HA as (A1 & A2 & A3). cbn [fst]. rewrite Hmid in *.
    (* values of the three parts *)
    pose proof (lv_split i out) as V1. rewrite Hlo in V1.
    pose proof (lv_split n (skipn i out)) as V2. rewrite Hmid in V2.
    rewrite skipn_skipn' in V2.
    pose proof (lv_bound done_ Hd) as Bd. rewrite Hi in Bd.
    pose proof (lv_bound x Hx) as Bx. pose proof (lv_nonneg x Hx) as Nx.
    pose proof (lv_nonneg done_ Hd) as Nd.
    pose proof (lv_nonneg _ (limbs_firstn i out Ho)) as Nlo.
    pose proof (lv_nonneg _ (limbs_firstn n _ (limbs_skipn i out Ho))) as Nmid.
    pose proof (lv_nonneg _ (limbs_skipn (n + i) out Ho)) as Nhi.
    pose proof (lv_nonneg s A1) as Ns.
    set (P := B ^ Z.of_nat i) in *. assert (HP : 0 < P) by apply Bpow_pos.
    assert (Hn : B ^ Z.of_nat n = B * B ^ Z.of_nat (length x)).
    { unfold n. rewrite Nat2Z.inj_succ, Z.pow_succ_r by lia. reflexivity. }
    set (X := B ^ Z.of_nat (length x)) in *. assert (HX : 0 < X) by apply Bpow_pos.
    pose proof B_val as HBv. unfold isU in Hyi.
    set (lo := lv (firstn i out)) in *. set (mid := lv (firstn n (skipn i out))) in *.
    set (hi := lv (skipn (n + i) out)) in *. rewrite Hn in *.
    assert (Hprod : lv x * lv done_ <= (X - 1) * (P - 1)) by nia.
    assert (Hskip : lv (skipn i out) <= X - 1).
    { assert (P * lv (skipn i out) <= (X - 1) * (P - 1)) by lia. nia. }
    assert (Hhi : hi = 0) by nia.
    assert (Hc : c = false).
    { destruct c; auto. exfalso. assert (mid <= X - 1) by nia.
      assert (lv x * yi <= (X - 1) * (B - 1)) by nia. nia. }
    subst c. rewrite Z.add_0_r in A3.
    assert (Lhi : limbs (skipn (i + n) out)) by (apply limbs_skipn; auto).
    replace (i + n)%nat with (n + i)%nat in * by lia.
    set (out' := firstn i out ++ s ++ skipn (n + i) out).
    assert (L1 : limbs out') by (apply limbs_app; split; [apply limbs_firstn; auto | apply limbs_app; auto]).
    assert (L2 : length out' = length out).
    { unfold out'. rewrite !app_length, Hlo, A2, skipn_length. lia. }
    assert (L3 : lv out' = lv x * lv (done_ ++ [yi])).
    { unfold out'. rewrite !lv_app, Hlo, A2, Hi. fold lo hi P. cbn [lv].
      rewrite Hhi. rewrite A3, M3. fold mid. nia. }
    destruct (IH out' (S i) (done_ ++ [yi]) Hx Hxn Hys) as (I1 & I2 & I3); auto.
    + apply limbs_app. split; auto. apply limbs_cons. unfold isU. auto using limbs_nil.
    + rewrite app_length. cbn. lia.
    + rewrite L2. lia.
    + repeat split; auto; [lia|]. rewrite I3, <- app_assoc. reflexivity.
Qed.

Lemma raw_mul_spec x y : limbs x -> limbs y -> x <> [] -> y <> [] ->
  limbs (raw_mul x y) /\ length (raw_mul x y) = (length x + length y)%nat /\
  lv (raw_mul x y) = lv x * lv y.
Proof.
  intros Hx Hy Hxn Hyn. unfold raw_mul.
  assert (HP : exists px py, (if Nat.ltb (length x) (length y) then (y, x) else (x, y)) = (px, py)
     /\ limbs px /\ limbs py /\ px <> [] /\ py <> []
     /\ (length px + length py = length x + length y)%nat /\ lv px * lv py = lv x * lv y).
  { destruct (Nat.ltb_spec (length x) (length y)).
    - exists y, x. repeat split; auto; lia.
    - exists x, y. repeat split; auto; lia. }
  destruct HP as (px & py & -> & Hpx & Hpy & Hpxn & Hpyn & HLm & HS).
  destruct py as [|y0 ys]; [contradiction|].
  apply limbs_cons in Hpy. destruct Hpy as [Hy0 Hys].
  destruct (in_mul_spec px y0 Hpx Hy0) as (M1 & M2 & M3).
  destruct (raw_mul_loop_spec px ys (in_mul px y0 ++ repeat 0 (length ys)) 1 [y0]) as (I1 & I2 & I3); auto.
  - apply limbs_cons. auto using limbs_nil.
  - apply limbs_app. auto using limbs_repeat0.
  - rewrite app_length, repeat_length, M2. cbn [length] in *. lia.
  - rewrite lv_app, lv_repeat0, M3. cbn [lv]. lia.
  - repeat split; auto.
    + rewrite I2, app_length, repeat_length, M2. cbn [length] in *. lia.
    + rewrite I3. cbn [app]. auto.
Qed.

Lemma vmul_ok x y : vwf x -> vwf y -> (length x + length y <= cap)%nat ->
  exists z, vmul x y = Ok z /\ vwf z /\ lv z = lv x * lv y.
Proof.
  intros Hx Hy HL. unfold vmul. rewrite (alloc_ok _ HL). cbn [bind].
  destruct (raw_mul_spec x y (vwf_limbs _ Hx) (vwf_limbs _ Hy) (vwf_nonnil _ Hx) (vwf_nonnil _ Hy)) as (H1 & H2 & H3).
  pose proof (vwf_len x Hx). destruct (trim_vwf (raw_mul x y) H1) as [T1 T2]; [lia|].
  exists (trim (raw_mul x y)). repeat split; try apply T1. lia.
Qed.

Lemma vmul_exit x y : (cap < length x + length y)%nat -> vmul x y = Exit.
Proof. intros HL. unfold vmul. rewrite (alloc_exit _ HL). reflexivity. Qed.

Lemma vdiv1_ok x y : vwf x -> 0 < y < B ->
  exists q r, vdiv1 x y = Ok (q, r) /\ vwf q /\ lv x = lv q * y + r /\ 0 <= r < y.
Proof.
  intros Hx Hy. unfold vdiv1. destruct (Z.eqb_spec y 0); [lia|].
  pose proof (vwf_len x Hx). rewrite alloc_ok by lia. cbn [bind].
  pose proof (in_div_spec x y (vwf_limbs _ Hx) Hy) as HD.
  destruct (in_div x y) as [q r]. destruct HD as (D1 & D2 & D3 & D4).
  destruct (trim_vwf q D1 ltac:(lia)) as [T1 T2].
  exists (trim q), r. split; [reflexivity|]. split; [exact T1|]. split; [|exact D4]. lia.
Qed.

(** ** Shifts *)
Lemma B_pow2 n : 0 < n < 64 -> B = 2 ^ n * 2 ^ (64 - n).
Proof. intros H. rewrite <- Z.pow_add_r by lia. replace (n + (64 - n)) with 64 by lia. reflexivity. Qed.

Lemma lor_disjoint_add a b k : 0 <= k -> 0 <= a < 2 ^ k -> Z.lor (b * 2 ^ k) a = b * 2 ^ k + a.
Proof.
  intros Hk Ha. symmetry. rewrite <- Z.lxor_lor; [apply Z.add_nocarry_lxor|];
  (apply Z.bits_inj'; intros i Hi; rewrite Z.land_spec, Z.bits_0;
   destruct (Z.ltb_spec i k) as [L|L];
   [rewrite Z.mul_pow2_bits_low by lia; reflexivity
   | replace (Z.testbit a i) with false;
     [apply andb_false_r|
      symmetry; destruct (Z.eq_dec a 0) as [->|Na]; [apply Z.bits_0|];
      apply Z.bits_above_log2; [lia|];
      apply Z.log2_lt_pow2; [lia|]; apply Z.lt_le_trans with (2 ^ k); [lia|];
      apply Z.pow_le_mono_r; lia]]).
Qed.

Lemma shlBit_unit t p n : 0 < n < 64 -> isU t -> isU p ->
  let o := Z.lor (Z.shiftl t n mod B) (Z.shiftr p (64 - n)) in
  isU o /\ o + B * Z.shiftr t (64 - n) = t * 2 ^ n + Z.shiftr p (64 - n).
Proof.
  intros Hn Ht Hp. cbn zeta.
  rewrite !Z.shiftr_div_pow2, Z.shiftl_mul_pow2 by lia.
  assert (P1 : 0 < 2 ^ n) by (apply Z.pow_pos_nonneg; lia).
  assert (P2 : 0 < 2 ^ (64 - n)) by (apply Z.pow_pos_nonneg; lia).
  assert (Hpd : 0 <= p / 2 ^ (64 - n) < 2 ^ n).
  { unfold isU in Hp. rewrite (B_pow2 n Hn) in Hp. split; [apply Z.div_pos; lia|].
    apply Z.div_lt_upper_bound; lia. }
  assert (E : Z.lor ((t * 2 ^ n) mod B) (p / 2 ^ (64 - n)) =
              t mod 2 ^ (64 - n) * 2 ^ n + p / 2 ^ (64 - n)).
  { rewrite (B_pow2 n Hn), (Z.mul_comm (2 ^ n)), Z.mul_mod_distr_r by lia.
    apply lor_disjoint_add; lia. }
  rewrite E. unfold isU. rewrite (B_pow2 n Hn).
  pose proof (Z.div_mod t (2 ^ (64 - n)) ltac:(lia)) as D.
  pose proof (Z.mod_pos_bound t (2 ^ (64 - n)) ltac:(lia)) as M.
  set (m := t mod 2 ^ (64 - n)) in *. set (d := t / 2 ^ (64 - n)) in *.
  split; [nia|]. rewrite D. ring.
Qed.

Lemma shlBit_loop_spec x n prev : 0 < n < 64 -> limbs x -> isU prev ->
  let '(out, p) := shlBit_loop prev x n in
  limbs out /\ length out = length x /\
  0 <= p < 2 ^ n /\ (x = [] -> p = Z.shiftr prev (64 - n)) /\
  lv out + B ^ Z.of_nat (length x) * p = lv x * 2 ^ n + Z.shiftr prev (64 - n).
Proof.
  intros Hn Hx. revert prev. induction Hx as [|t x Ht Hx IH]; intros prev Hp.
  - cbn [shlBit_loop lv length]. change (Z.of_nat 0) with 0. rewrite Z.pow_0_r.
    repeat split; auto using limbs_nil; try lia.
    + apply Z.shiftr_nonneg. unfold isU in Hp. lia.
    + rewrite Z.shiftr_div_pow2 by lia. apply Z.div_lt_upper_bound; [apply Z.pow_pos_nonneg; lia|].
      rewrite Z.mul_comm, <- (B_pow2 n Hn). apply Hp.
  - cbn [shlBit_loop lv length].
    pose proof (shlBit_unit t prev n Hn Ht Hp) as HU. cbn zeta in HU. destruct HU as [U1 U2].
    set (o := Z.lor (Z.shiftl t n mod B) (Z.shiftr prev (64 - n))) in *.
    specialize (IH t Ht). destruct (shlBit_loop t x n) as [out p].
    destruct IH as (I1 & I2 & I3 & _ & I4). cbn [lv length]. rewrite limbs_cons.
    rewrite Nat2Z.inj_succ, Z.pow_succ_r by lia.
    repeat split; auto; try lia; try apply U1; try discriminate; try nia.
Qed.

Lemma last_cons_ne (d : Z) l : l <> [] -> last (d :: l) 0 = last l 0.
Proof. destruct l; [contradiction|reflexivity]. Qed.

(** A limb vector with positive leading part keeps its length when its value is large enough. *)
Lemma last_nonzero l : limbs l -> l <> [] -> B ^ (Z.of_nat (length l) - 1) <= lv l -> last l 0 <> 0.
Proof.
  intros Hl Hn HB E. pose proof (app_removelast_last 0 Hn) as HO. rewrite E in HO.
  assert (lv l = lv (removelast l)) by (rewrite HO at 1; rewrite lv_app; cbn [lv]; lia).
  assert (limbs (removelast l)) by (rewrite HO in Hl; apply limbs_app in Hl; apply Hl).
  pose proof (lv_bound (removelast l) H0) as HUB.
  assert (length (removelast l) = length l - 1)%nat.
  { rewrite HO at 2. rewrite app_length. cbn. lia. }
  rewrite H1 in HUB. destruct l as [|d l]; [contradiction|].
  replace (Z.of_nat (length (d :: l) - 1)) with (Z.of_nat (length (d :: l)) - 1) in HUB by (cbn [length]; lia). lia.
Qed.

Lemma vshlBit_ok x n : vwf x -> 0 < n < 64 -> lv x * 2 ^ n < B ^ 9 ->
  exists z, vshlBit x n = Ok z /\ vwf z /\ lv z = lv x * 2 ^ n.
Proof.
  intros Hx Hn HR. unfold vshlBit. pose proof (vwf_len x Hx). rewrite alloc_ok by lia. cbn [bind].
  assert (H0 : isU 0) by apply (b2z_isU false).
  pose proof (shlBit_loop_spec x n 0 Hn (vwf_limbs _ Hx) H0) as HS.
  destruct (shlBit_loop 0 x n) as [out p]. destruct HS as (S1 & S2 & S3 & _ & S4).
  rewrite Z.shiftr_0_l, Z.add_0_r in S4.
  assert (P1 : 0 < 2 ^ n) by (apply Z.pow_pos_nonneg; lia).
  pose proof (vwf_nonneg x Hx).
  destruct (Z.eqb_spec p 0) as [->|Hp].
  - exists out. split; auto. rewrite Z.mul_0_r, Z.add_0_r in S4. split; auto.
    unfold vwf. rewrite S2. repeat split; auto; try lia.
    destruct (Nat.eq_dec (length x) 1); [left; auto|right].
    apply last_nonzero; auto; [intros ->; cbn in S2; lia|].
    rewrite S2. pose proof (vwf_lb x Hx ltac:(lia)). nia.
  - assert (HL : (length x + 1 <= cap)%nat).
    { destruct (Nat.le_gt_cases (length x + 1) cap) as [L|L]; auto. exfalso.
      assert (E : length x = cap) by lia. rewrite E in S4. change (Z.of_nat cap) with 9 in S4.
      pose proof (lv_nonneg out S1). pose proof (Bpow_pos 9). change (Z.of_nat 9) with 9 in *. nia. }
    rewrite (alloc_ok _ HL). cbn [bind]. exists (out ++ [p]). split; auto.
    split; [|rewrite lv_app, S2; cbn [lv]; lia].
    unfold vwf. rewrite app_length, app_last1. cbn [length]. repeat split; try lia.
    apply limbs_app. split; auto. apply limbs_cons. split; auto using limbs_nil.
    unfold isU. rewrite (B_pow2 n Hn). assert (P2 : 0 < 2 ^ (64 - n)) by (apply Z.pow_pos_nonneg; lia). nia.
Qed.

Lemma vshlBit_exit x n : vwf x -> 0 < n < 64 -> B ^ 9 <= lv x * 2 ^ n -> vshlBit x n = Exit.
Proof.
  intros Hx Hn HR. unfold vshlBit. pose proof (vwf_len x Hx) as HLx. rewrite alloc_ok by lia. cbn [bind].
  assert (H0 : isU 0) by apply (b2z_isU false).
  pose proof (shlBit_loop_spec x n 0 Hn (vwf_limbs _ Hx) H0) as HS.
  destruct (shlBit_loop 0 x n) as [out p]. destruct HS as (S1 & S2 & S3 & _ & S4).
  rewrite Z.shiftr_0_l, Z.add_0_r in S4.
  pose proof (lv_bound out S1) as HB. rewrite S2 in HB.
  pose proof (Bpow_mono (length x) cap ltac:(lia)) as HM. change (Z.of_nat cap) with 9 in HM.
  destruct (Z.eqb_spec p 0) as [->|Hp]; [lia|].
  rewrite alloc_exit; auto.
  destruct (Nat.le_gt_cases (length x + 1) cap) as [L|L]; auto. exfalso.
  pose proof (Bpow_mono (length x + 1) cap L) as HM2. change (Z.of_nat cap) with 9 in *.
  replace (Z.of_nat (length x + 1)) with (Z.succ (Z.of_nat (length x))) in HM2 by lia.
  rewrite Z.pow_succ_r in HM2 by lia. pose proof B_pos. pose proof (Bpow_pos (length x)).
  assert (p + 1 <= B).
  { rewrite (B_pow2 n Hn). assert (P2 : 0 < 2 ^ (64 - n)) by (apply Z.pow_pos_nonneg; lia). nia. }
  nia.
Qed.

Lemma vshlUnit_ok x q : vwf x -> 0 <= q -> Z.of_nat (length x) + q <= 9 ->
  exists z, vshlUnit x q = Ok z /\ vwf z /\ lv z = lv x * B ^ q.
Proof.
  intros Hx Hq HL. unfold vshlUnit. change (Z.of_nat cap) with 9.
  destruct (Z.ltb_spec 9 (Z.of_nat (length x) + q)); [lia|].
  pose proof (vwf_len x Hx).
  destruct (trim_vwf (repeat 0 (Z.to_nat q) ++ x)) as [T1 T2].
  - apply limbs_app. split; [apply limbs_repeat0 | apply vwf_limbs; auto].
  - rewrite app_length, repeat_length. unfold cap. lia.
  - exists (trim (repeat 0 (Z.to_nat q) ++ x)). repeat split; try apply T1.
    rewrite T2, lv_app, lv_repeat0, repeat_length, Z2Nat.id by lia. lia.
Qed.

Lemma vshlUnit_exit x q : 9 < Z.of_nat (length x) + q -> vshlUnit x q = Exit.
Proof.
  intros HL. unfold vshlUnit. change (Z.of_nat cap) with 9.
  destruct (Z.ltb_spec 9 (Z.of_nat (length x) + q)); [reflexivity|lia].
Qed.

(** units needed by x << n before the sub-unit shift *)
Lemma pow2_split n : 0 <= n -> 2 ^ n = B ^ (n / 64) * 2 ^ (n mod 64).
Proof.
  intros Hn. Local Transparent B. unfold B. rewrite <- Z.pow_mul_r by (try apply Z.div_pos; lia).
  rewrite <- Z.pow_add_r.
  - f_equal. apply Z.div_mod. lia.
  - pose proof (Z.div_pos n 64 Hn ltac:(lia)). lia.
  - apply Z.mod_pos_bound. lia.
Qed.
Local Opaque B.

Lemma vshl_ok x n : vwf x -> 0 <= n -> 0 < lv x -> lv x * 2 ^ n < B ^ 9 ->
  exists z, vshl x n = Ok z /\ vwf z /\ lv z = lv x * 2 ^ n.
Proof.
  intros Hx Hn Hpos HR. unfold vshl. destruct (Z.eqb_spec n 0) as [->|Hn0].
  { exists x. repeat split; try apply Hx. rewrite Z.pow_0_r. lia. }
  pose proof (Z.mod_pos_bound n 64 ltac:(lia)) as Hr. pose proof (Z.div_pos n 64 Hn ltac:(lia)) as Hq.
  rewrite (pow2_split n Hn) in HR |- *. set (q := n / 64) in *. set (r := n mod 64) in *.
  assert (P2 : 0 < 2 ^ r) by (apply Z.pow_pos_nonneg; lia).
  assert (PB : 0 < B ^ q) by (apply Z.pow_pos_nonneg; [apply B_pos|lia]).
  assert (HLq : Z.of_nat (length x) + q <= 9).
  { destruct (Z.le_gt_cases (Z.of_nat (length x) + q) 9) as [L|L]; auto. exfalso.
    assert (B ^ (Z.of_nat (length x) - 1) <= lv x).
    { destruct (Nat.eq_dec (length x) 1) as [E|E].
      - rewrite E. change (Z.of_nat 1 - 1) with 0. rewrite Z.pow_0_r. lia.
      - apply vwf_lb; auto. pose proof (vwf_len x Hx). lia. }
    assert (B ^ 9 <= B ^ (Z.of_nat (length x) - 1) * B ^ q).
    { rewrite <- Z.pow_add_r; [|pose proof (vwf_len x Hx); lia|lia].
      apply Z.pow_le_mono_r; [apply B_pos|lia]. }
    assert (B ^ (Z.of_nat (length x) - 1) * B ^ q <= lv x * B ^ q) by (apply Z.mul_le_mono_nonneg_r; lia).
    assert (lv x * B ^ q * 1 <= lv x * B ^ q * 2 ^ r) by (apply Z.mul_le_mono_nonneg_l; nia).
    lia. }
  assert (HP : exists p, (if q =? 0 then Ok x else vshlUnit x q) = Ok p /\ vwf p /\ lv p = lv x * B ^ q).
  { destruct (Z.eqb_spec q 0) as [E|E].
    - exists x. rewrite E, Z.pow_0_r, Z.mul_1_r. auto.
    - apply vshlUnit_ok; auto. }
  destruct HP as (p & -> & Hp & Hpv). cbn [bind].
  destruct (Z.eqb_spec r 0) as [E|E].
  - exists p. repeat split; try apply Hp. rewrite E, Z.pow_0_r. lia.
  - destruct (vshlBit_ok p r Hp ltac:(lia)) as (z & Ez & Hz & Hzv); [nia|].
    exists z. repeat split; try apply Hz; auto. lia.
Qed.

Lemma vshl_exit x n : vwf x -> 0 <= n -> 0 < lv x -> B ^ 9 <= lv x * 2 ^ n -> vshl x n = Exit.
Proof.
  intros Hx Hn Hpos HR. unfold vshl. destruct (Z.eqb_spec n 0) as [->|Hn0].
  { rewrite Z.pow_0_r in HR. pose proof (vwf_range x Hx). lia. }
  pose proof (Z.mod_pos_bound n 64 ltac:(lia)) as Hr. pose proof (Z.div_pos n 64 Hn ltac:(lia)) as Hq.
  rewrite (pow2_split n Hn) in HR. set (q := n / 64) in *. set (r := n mod 64) in *.
  assert (P2 : 0 < 2 ^ r) by (apply Z.pow_pos_nonneg; lia).
  destruct (Z.le_gt_cases (Z.of_nat (length x) + q) 9) as [L|L].
  - assert (HP : exists p, (if q =? 0 then Ok x else vshlUnit x q) = Ok p /\ vwf p /\ lv p = lv x * B ^ q).
    { destruct (Z.eqb_spec q 0) as [E|E].
      - exists x. rewrite E, Z.pow_0_r, Z.mul_1_r. auto.
      - apply vshlUnit_ok; auto. }
    destruct HP as (p & -> & Hp & Hpv). cbn [bind].
    destruct (Z.eqb_spec r 0) as [E|E].
    + rewrite E, Z.pow_0_r in HR. pose proof (vwf_range p Hp). lia.
    + apply vshlBit_exit; auto; [lia|]. nia.
  - destruct (Z.eqb_spec q 0) as [E|E].
    + pose proof (vwf_len x Hx). unfold cap in *. lia.
    + rewrite vshlUnit_exit by lia. reflexivity.
Qed.

Lemma shrBit_loop_spec x n : 0 < n < 64 -> limbs x ->
  let '(out, prev) := shrBit_loop x n in
  limbs out /\ length out = length x /\ prev = hd 0 x /\ lv out = lv x / 2 ^ n.
Proof.
  intros Hn Hx.
  assert (P1 : 0 < 2 ^ n) by (apply Z.pow_pos_nonneg; lia).
  assert (P2 : 0 < 2 ^ (64 - n)) by (apply Z.pow_pos_nonneg; lia).
  induction Hx as [|t x Ht Hx IH].
  - cbn. repeat split; auto using limbs_nil.
  - cbn [shrBit_loop]. destruct (shrBit_loop x n) as [out prev].
    destruct IH as (I1 & I2 & I3 & I4). cbn [lv length hd].
    assert (Hh : isU prev).
    { subst prev. destruct Hx; cbn [hd]; auto. apply (b2z_isU false). }
    assert (Htd : 0 <= t / 2 ^ n < 2 ^ (64 - n)).
    { unfold isU in Ht. rewrite (B_pow2 n Hn) in Ht. split; [apply Z.div_pos; lia|].
      apply Z.div_lt_upper_bound; lia. }
    assert (E : Z.lor (Z.shiftr t n) (Z.shiftl prev (64 - n) mod B) =
                prev mod 2 ^ n * 2 ^ (64 - n) + t / 2 ^ n).
    { rewrite Z.shiftr_div_pow2, Z.shiftl_mul_pow2 by lia.
      rewrite (B_pow2 n Hn), Z.mul_mod_distr_r by lia.
      rewrite Z.lor_comm. apply lor_disjoint_add; lia. }
    rewrite E.
    pose proof (Z.mod_pos_bound prev (2 ^ n) ltac:(lia)) as Hpm.
    assert (Hmod : prev mod 2 ^ n = lv x mod 2 ^ n).
    { subst prev. destruct x as [|x0 x]; [reflexivity|]. cbn [hd lv].
      rewrite (B_pow2 n Hn).
      replace (x0 + 2 ^ n * 2 ^ (64 - n) * lv x) with (x0 + 2 ^ (64 - n) * lv x * 2 ^ n) by ring.
      rewrite Z_mod_plus_full. reflexivity. }
    rewrite limbs_cons. split; [split; [unfold isU; rewrite (B_pow2 n Hn); nia|exact I1]|].
    split; [lia|]. split; [reflexivity|].
    rewrite I4, (B_pow2 n Hn), Hmod.
    replace (t + 2 ^ n * 2 ^ (64 - n) * lv x) with (t + (2 ^ (64 - n) * lv x) * 2 ^ n) by ring.
    rewrite Z.div_add by lia.
    pose proof (Z.div_mod (lv x) (2 ^ n) ltac:(lia)) as D.
    rewrite D at 3. ring.
Qed.

Lemma vshrBit_ok x n : vwf x -> 0 < n < 64 ->
  exists z, vshrBit x n = Ok z /\ vwf z /\ lv z = lv x / 2 ^ n.
Proof.
  intros Hx Hn. unfold vshrBit. pose proof (vwf_len x Hx). rewrite alloc_ok by lia. cbn [bind].
  pose proof (shrBit_loop_spec x n Hn (vwf_limbs _ Hx)) as HS.
  destruct (shrBit_loop x n) as [out prev]. destruct HS as (S1 & S2 & _ & S4). cbn [fst].
  destruct (trim_vwf out S1 ltac:(lia)) as [T1 T2].
  exists (trim out). repeat split; try apply T1. lia.
Qed.

Lemma last_skipn n (l : list Z) : (n < length l)%nat -> last (skipn n l) 0 = last l 0.
Proof.
  revert l; induction n as [|n IH]; intros [|d l] H; cbn [length] in H; try lia; auto.
  cbn [skipn]. rewrite IH by lia. destruct l; [cbn in H; lia|reflexivity].
Qed.

Lemma vshrUnit_ok x q : vwf x -> 0 <= q ->
  exists z, vshrUnit x q = Ok z /\ vwf z /\ lv z = lv x / B ^ q.
Proof.
  intros Hx Hq. unfold vshrUnit. pose proof (vwf_len x Hx) as HL. pose proof (vwf_nonneg x Hx).
  assert (PB : 0 < B ^ q) by (apply Z.pow_pos_nonneg; [apply B_pos|lia]).
  destruct (Z.leb_spec (Z.of_nat (length x)) q) as [L|L].
  - destruct (vset_vwf 0 (b2z_isU false)) as [V1 V2]. exists (vset 0). repeat split; try apply V1.
    rewrite V2. symmetry. apply Z.div_small. split; auto.
    apply Z.lt_le_trans with (1 := vwf_ub x Hx). apply Z.pow_le_mono_r; [apply B_pos|lia].
  - rewrite alloc_ok by lia. cbn [bind]. exists (skipn (Z.to_nat q) x). split; auto.
    assert (HLf : length (firstn (Z.to_nat q) x) = Z.to_nat q) by (apply firstn_length_le; lia).
    split.
    + unfold vwf. rewrite skipn_length. repeat split; try lia; [apply limbs_skipn, vwf_limbs; auto|].
      destruct Hx as (_ & _ & [E|E]); [left; lia|]. right. rewrite last_skipn by lia. auto.
    + apply Z.div_unique_pos with (r := lv (firstn (Z.to_nat q) x)).
      * split; [apply lv_nonneg, limbs_firstn, vwf_limbs; auto|].
        pose proof (lv_bound _ (limbs_firstn (Z.to_nat q) x (vwf_limbs _ Hx))) as HB.
        rewrite HLf, Z2Nat.id in HB by lia. auto.
      * rewrite (lv_split (Z.to_nat q) x) at 1. rewrite HLf, Z2Nat.id by lia. lia.
Qed.

Lemma vshr_ok x n : vwf x -> 0 <= n ->
  exists z, vshr x n = Ok z /\ vwf z /\ lv z = lv x / 2 ^ n.
Proof.
  intros Hx Hn. unfold vshr. destruct (Z.eqb_spec n 0) as [->|Hn0].
  { exists x. repeat split; try apply Hx. rewrite Z.pow_0_r, Z.div_1_r. lia. }
  pose proof (Z.mod_pos_bound n 64 ltac:(lia)) as Hr. pose proof (Z.div_pos n 64 Hn ltac:(lia)) as Hq.
  rewrite (pow2_split n Hn). set (q := n / 64) in *. set (r := n mod 64) in *.
  assert (P2 : 0 < 2 ^ r) by (apply Z.pow_pos_nonneg; lia).
  assert (PB : 0 < B ^ q) by (apply Z.pow_pos_nonneg; [apply B_pos|lia]).
  rewrite <- Z.div_div by lia.
  assert (HP : exists p, (if q =? 0 then Ok x else vshrUnit x q) = Ok p /\ vwf p /\ lv p = lv x / B ^ q).
  { destruct (Z.eqb_spec q 0) as [E|E].
    - exists x. rewrite E, Z.pow_0_r, Z.div_1_r. auto.
    - apply vshrUnit_ok; auto. }
  destruct HP as (p & -> & Hp & Hpv). cbn [bind]. rewrite <- Hpv.
  destruct (Z.eqb_spec r 0) as [E|E].
  - exists p. repeat split; try apply Hp. rewrite E, Z.pow_0_r, Z.div_1_r. lia.
  - apply vshrBit_ok; auto. lia.
Qed.

(** ** testBit *)
Lemma isU_bits_above d i : isU d -> 64 <= i -> Z.testbit d i = false.
Proof.
  intros Hd Hi. destruct (Z.eq_dec d 0) as [->|Hd0]; [apply Z.bits_0|].
  unfold isU in Hd. rewrite B_val in Hd. apply Z.bits_above_log2; [lia|].
  apply Z.lt_le_trans with 64; [|lia]. apply Z.log2_lt_pow2; lia.
Qed.

Lemma lv_testbit l n i : limbs l -> 0 <= i < 64 -> (n < length l)%nat ->
  Z.testbit (lv l) (Z.of_nat n * 64 + i) = Z.testbit (nth n l 0) i.
Proof.
  intros Hl Hi. revert n. induction Hl as [|d l Hd Hl IH]; intros n Hn; [cbn in Hn; lia|].
  cbn [lv length nth] in *.
  assert (E : d + B * lv l = Z.lor (lv l * 2 ^ 64) d).
  { rewrite lor_disjoint_add; [change (2 ^ 64) with B; lia|lia|]. apply Hd. }
  rewrite E, Z.lor_spec. destruct n as [|n].
  - change (Z.of_nat 0 * 64 + i) with i. rewrite Z.mul_pow2_bits_low by lia. reflexivity.
  - rewrite (isU_bits_above d) by (auto; lia). rewrite orb_false_r.
    rewrite Z.mul_pow2_bits by lia.
    replace (Z.of_nat (S n) * 64 + i - 64) with (Z.of_nat n * 64 + i) by lia.
    apply IH. lia.
Qed.

Lemma land_pow2_testbit d i : 0 <= i -> negb (Z.land d (2 ^ i) =? 0) = Z.testbit d i.
Proof.
  intros Hi. rewrite <- Z.shiftl_1_l.
  destruct (Z.testbit d i) eqn:E.
  - destruct (Z.eqb_spec (Z.land d (Z.shiftl 1 i)) 0) as [H|H]; auto.
    apply (f_equal (fun z => Z.testbit z i)) in H. rewrite Z.land_spec, Z.bits_0, E in H.
    rewrite Z.shiftl_spec, Z.sub_diag in H by lia. discriminate.
  - destruct (Z.eqb_spec (Z.land d (Z.shiftl 1 i)) 0) as [H|H]; auto. exfalso. apply H.
    apply Z.bits_inj'. intros j Hj. rewrite Z.land_spec, Z.bits_0.
    destruct (Z.eq_dec j i) as [->|Hji]; [rewrite E; reflexivity|].
    rewrite Z.shiftl_1_l, Z.pow2_bits_false by auto. apply andb_false_r.
Qed.

Lemma vtestBit_ok x i : vwf x -> 0 <= i < 64 * Z.of_nat (length x) ->
  vtestBit x i = Ok (Z.testbit (lv x) i).
Proof.
  intros Hx Hi. unfold vtestBit. pose proof (vwf_len x Hx) as HL.
  pose proof (Z.div_mod i 64 ltac:(lia)). pose proof (Z.mod_pos_bound i 64 ltac:(lia)).
  assert (Hq : 0 <= i / 64 < Z.of_nat (length x)).
  { split; [apply Z.div_pos; lia|]. apply Z.div_lt_upper_bound; lia. }
  destruct (Z.ltb_spec (Z.of_nat cap) (i / 64)) as [L|L]; [lia|].
  destruct (nth_error x (Z.to_nat (i / 64))) as [d|] eqn:E.
  - f_equal. rewrite land_pow2_testbit by lia.
    assert (Hlt : (Z.to_nat (i / 64) < length x)%nat) by lia.
    rewrite (nth_error_nth' x 0 Hlt) in E. injection E as <-.
    pose proof (lv_testbit x (Z.to_nat (i / 64)) (i mod 64) (vwf_limbs _ Hx) ltac:(lia) Hlt) as HT.
    rewrite Z2Nat.id in HT by lia. rewrite <- HT. f_equal. lia.
  - apply nth_error_None in E. lia.
Qed.

(** ** Further facts and witnesses *)
Ltac vwf_lit := unfold vwf, cap; cbn [length last]; split;
  [repeat (apply Forall_cons; [unfold isU; rewrite B_val; lia|]); apply Forall_nil
  | split; [lia | first [left; lia | right; lia]]].

Lemma vsub_ub_witness : exists x y, vwf x /\ vwf y /\ lv x < lv y /\ vsub x y = UB.
Proof.
  exists [5], [0; 1]. split; [vwf_lit|]. split; [vwf_lit|].
  split; [cbn [lv]; rewrite B_val; lia | reflexivity].
Qed.

Lemma vuint_example :
  exists x y, vwf x /\ vwf y /\ lv y <= lv x /\ lv x + lv y < B ^ 9 /\ (2 <= length x)%nat.
Proof.
  exists [7; 9; 1], [3; 8]. split; [vwf_lit|]. split; [vwf_lit|].
  cbn [lv length]. rewrite B_val. split; [lia|]. split; [lia|lia].
Qed.

Lemma vtestBit_witness : exists x i, vwf x /\ 0 <= i /\ vtestBit x i = UB.
Proof. exists [5], 64. split; [vwf_lit|]. split; [lia|reflexivity]. Qed.

Lemma vwf_zero x : vwf x -> lv x = 0 -> x = [0].
Proof.
  intros Hx E. apply vwf_inj; [exact Hx|vwf_lit|]. cbn [lv]. lia.
Qed.

Lemma visZero_spec x : vwf x -> visZero x = (lv x =? 0).
Proof.
  intros Hx. destruct (Z.eqb_spec (lv x) 0) as [E|E].
  - rewrite (vwf_zero x Hx E). reflexivity.
  - destruct x as [|d [|d2 x]]; try reflexivity. cbn [visZero]. cbn [lv] in E.
    destruct (Z.eqb_spec d 0); [lia|reflexivity].
Qed.

Lemma vcmp_ops x y : vwf x -> vwf y ->
  vlt x y = (lv x <? lv y) /\ veq x y = (lv x =? lv y) /\ vgt x y = (lv y <? lv x) /\
  visZero x = (lv x =? 0).
Proof.
  intros Hx Hy. unfold vlt, veq, vgt. rewrite (vcompare_spec x y Hx Hy), (visZero_spec x Hx).
  destruct (Z.compare_spec (lv x) (lv y)); repeat split; lia.
Qed.

Lemma strip_repeat0 n : strip (repeat 0 n) = [].
Proof. induction n as [|n IH]; cbn [repeat strip]; [reflexivity|rewrite IH; reflexivity]. Qed.

Lemma vshl_zero x n : vwf x -> 0 <= n -> lv x = 0 ->
  (n < 576 -> vshl x n = Ok x) /\ (576 <= n -> vshl x n = Exit).
Proof.
  intros Hx Hn E. rewrite (vwf_zero x Hx E). clear x Hx E. unfold vshl.
  pose proof (Z.mod_pos_bound n 64 ltac:(lia)) as Hr. pose proof (Z.div_pos n 64 Hn ltac:(lia)) as Hq.
  pose proof (Z.div_mod n 64 ltac:(lia)) as DM.
  set (q := n / 64) in *. set (r := n mod 64) in *. split; intros H.
  - destruct (Z.eqb_spec n 0); [reflexivity|].
    match goal with |- bind ?m _ = _ => assert (HP : m = Ok [0]) end.
    { destruct (Z.eqb_spec q 0); [reflexivity|]. unfold vshlUnit. change (Z.of_nat cap) with 9.
      change (Z.of_nat (length [0])) with 1. destruct (Z.ltb_spec 9 (1 + q)); [lia|].
      change [0] with (repeat 0 1). rewrite <- repeat_app. unfold trim. rewrite strip_repeat0.
      rewrite Nat.add_1_r. reflexivity. }
    rewrite HP. cbn [bind]. destruct (Z.eqb_spec r 0); [reflexivity|].
    unfold vshlBit. cbn [length shlBit_loop]. rewrite Z.shiftl_0_l, !Z.shiftr_0_l, Z.mod_0_l by (pose proof B_pos; lia).
    reflexivity.
  - destruct (Z.eqb_spec n 0); [lia|]. destruct (Z.eqb_spec q 0); [lia|].
    rewrite vshlUnit_exit; [reflexivity|]. change (Z.of_nat (length [0])) with 1. lia.
Qed.

Lemma vset64_ok l : limbs l -> (length l <= 9)%nat ->
  exists z, vset64 l = Ok z /\ vwf z /\ lv z = lv l.
Proof.
  intros Hl HL. unfold vset64. destruct l as [|d l].
  - exists (vset 0). split; [reflexivity|]. destruct (vset_vwf 0 (b2z_isU false)). auto.
  - rewrite alloc_ok by (unfold cap; auto). cbn [bind].
    destruct (trim_vwf (d :: l) Hl) as [T1 T2]; [unfold cap; cbn [length] in *; lia|].
    exists (trim (d :: l)). auto.
Qed.

Lemma pack32_spec : forall n l, (length l <= n)%nat -> Forall (fun d => 0 <= d < 2 ^ 32) l ->
  limbs (pack32 l) /\ length (pack32 l) = ((length l + 1) / 2)%nat /\
  lv (pack32 l) = fold_right (fun d v => d + 2 ^ 32 * v) 0 l.
Proof.
  induction n as [|n IH]; intros l HL Hl.
  - destruct l; [|cbn in HL; lia]. repeat split. apply limbs_nil.
  - destruct l as [|a [|b l]].
    + repeat split. apply limbs_nil.
    + inversion_clear Hl. cbn [pack32 lv fold_right length]. split; [|split; [reflexivity|lia]].
      apply limbs_cons. split; [unfold isU; rewrite B_val; lia|apply limbs_nil].
    + inversion_clear Hl as [|? ? Ha Hl']. inversion_clear Hl' as [|? ? Hb Hl2].
      destruct (IH l) as (I1 & I2 & I3); [cbn [length] in HL; lia|auto|].
      cbn [pack32 lv fold_right length]. rewrite I2, I3. split; [|split].
      * apply limbs_cons. split; auto. unfold isU. rewrite B_val. lia.
      * replace (S (S (length l)) + 1)%nat with (length l + 1 + 1 * 2)%nat by lia.
        rewrite Nat.div_add by lia. lia.
      * rewrite B_val. change (2 ^ 32) with 4294967296. lia.
Qed.

Lemma vset32_ok l : Forall (fun d => 0 <= d < 2 ^ 32) l -> (length l <= 18)%nat ->
  exists z, vset32 l = Ok z /\ vwf z /\ lv z = fold_right (fun d v => d + 2 ^ 32 * v) 0 l.
Proof.
  intros Hl HL. unfold vset32. destruct l as [|d l].
  - exists (vset 0). split; [reflexivity|]. destruct (vset_vwf 0 (b2z_isU false)). auto.
  - destruct (pack32_spec _ (d :: l) (le_n _) Hl) as (P1 & P2 & P3).
    assert (HL2 : (1 <= (length (d :: l) + 1) / 2 <= 9)%nat).
    { split; [apply Nat.div_le_lower_bound; cbn [length]; lia|].
      apply Nat.lt_succ_r, Nat.div_lt_upper_bound; lia. }
    rewrite alloc_ok by (unfold cap; lia). cbn [bind].
    destruct (trim_vwf (pack32 (d :: l)) P1) as [T1 T2]; [unfold cap; lia|].
    exists (trim (pack32 (d :: l))). rewrite <- P3. auto.
Qed.
