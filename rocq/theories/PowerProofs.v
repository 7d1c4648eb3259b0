From Verif Require Import Base Prim PrimProofs Loop Vuint VuintProofs Dbl VDiv VDivProofs Power.

Lemma bit_split v j m : 0 <= j -> 0 <= v ->
  (v / 2 ^ j) mod 2 ^ Z.succ m = b2z (Z.testbit v j) + 2 * ((v / 2 ^ (j + 1)) mod 2 ^ m) \/ m < 0.
Proof.
  intros Hj Hv. destruct (Z.lt_ge_cases m 0) as [H|H]; [auto|left].
  rewrite Z.pow_succ_r by lia. rewrite Z.pow_add_r, Z.pow_1_r, <- Z.div_div by lia.
  set (u := v / 2 ^ j). rewrite Z.rem_mul_r by lia. 
  assert (E : u mod 2 = b2z (Z.testbit v j)).
  { unfold u. rewrite <- Z.testbit_spec' by lia. destruct (Z.testbit v j); reflexivity. }
  rewrite E. reflexivity.
Qed.

Section PowerProof.
Context {T : Type}.
Variable mul : T -> T -> T.
Variable one : T.
Hypothesis mulA : forall a b c, mul a (mul b c) = mul (mul a b) c.
Hypothesis mul1l : forall a, mul one a = a.
Hypothesis mul1r : forall a, mul a one = a.

Notation npow := (npow mul one).
Definition zpow (x : T) (e : Z) : T := npow x (Z.to_nat e).

Lemma npow_add x a b : npow x (a + b) = mul (npow x a) (npow x b).
Proof. induction a as [|a IH]; cbn [Nat.add Power.npow]; [symmetry; apply mul1l|]. rewrite IH. apply mulA. Qed.

Lemma zpow_add x a b : 0 <= a -> 0 <= b -> zpow x (a + b) = mul (zpow x a) (zpow x b).
Proof. intros. unfold zpow. rewrite Z2Nat.inj_add by auto. apply npow_add. Qed.

Lemma zpow_1 x : zpow x 1 = x.
Proof. unfold zpow. change (Z.to_nat 1) with 1%nat. cbn [Power.npow]. apply mul1r. Qed.


Lemma pow_loop_spec x m : forall v j a b t out, 0 <= j -> 0 <= v -> 0 <= a -> 0 <= b ->
  t = zpow x a -> out = zpow x b ->
  pow_loop mul m v j t out = (zpow x (a * 2 ^ Z.of_nat m), zpow x (b + a * ((v / 2 ^ j) mod 2 ^ Z.of_nat m))).
Proof.
  induction m as [|m IH]; intros v j a b t out Hj Hv Ha Hb Et Eo; cbn [pow_loop].
  - change (Z.of_nat 0) with 0. rewrite Z.pow_0_r, Z.mod_1_r, Z.mul_1_r, Z.mul_0_r, Z.add_0_r. subst. reflexivity.
  - rewrite (IH v (j + 1) (2 * a) (b + a * b2z (Z.testbit v j))); try lia.
    + rewrite Nat2Z.inj_succ. destruct (bit_split v j (Z.of_nat m) Hj Hv) as [E|E]; [|lia].
      rewrite E, Z.pow_succ_r by lia. f_equal; f_equal; ring.
    + destruct (Z.testbit v j); cbn [b2z]; lia.
    + subst t. replace (2 * a) with (a + a) by lia. symmetry. apply zpow_add; lia.
    + subst t out. destruct (Z.testbit v j); cbn [b2z].
      * rewrite Z.mul_1_r. symmetry. apply zpow_add; lia.
      * rewrite Z.mul_0_r, Z.add_0_r. reflexivity.
Qed.

Lemma top_bits_spec m v : 0 <= v < 2 ^ Z.of_nat m -> v < 2 ^ Z.of_nat (top_bits m v).
Proof.
  induction m as [|m IH]; intros H; [cbn in *; lia|]. cbn [top_bits].
  destruct (Z.testbit v (Z.of_nat m)) eqn:E; [lia|]. apply IH. split; [lia|].
  destruct (Z.lt_ge_cases v (2 ^ Z.of_nat m)) as [C|C]; [exact C|exfalso].
  assert (Z.log2 v = Z.of_nat m).
  { apply Z.log2_unique; [lia|]. rewrite Nat2Z.inj_succ in H. lia. }
  rewrite <- H0, Z.bit_log2 in E; [discriminate E|]. pose proof (Z.pow_pos_nonneg 2 (Z.of_nat m) ltac:(lia) ltac:(lia)). lia.
Qed.

(** value of the blocks *)
Definition blockval (w : nat) (bs : list Z) : Z := fold_right (fun v a => v + 2 ^ Z.of_nat w * a) 0 bs.

Lemma blockval_nonneg w bs : Forall (fun v => 0 <= v < 2 ^ Z.of_nat w) bs -> 0 <= blockval w bs.
Proof.
  induction 1 as [|v bs Hv H IH]; cbn [blockval fold_right]; [lia|]. fold (blockval w bs).
  pose proof (Z.pow_pos_nonneg 2 (Z.of_nat w) ltac:(lia) ltac:(lia)). nia.
Qed.

Lemma pow_blocks_spec x w bs : forall a b t out, Forall (fun v => 0 <= v < 2 ^ Z.of_nat w) bs -> 0 <= a -> 0 <= b ->
  t = zpow x a -> out = zpow x b -> pow_blocks mul w bs t out = zpow x (b + a * blockval w bs).
Proof.
  induction bs as [|v bs IH]; intros a b t out H Ha Hb Et Eo.
  - cbn. subst. f_equal. lia.
  - apply Forall_cons_iff in H. destruct H as [Hv H]. cbn [pow_blocks blockval fold_right].
    fold (blockval w bs). destruct bs as [|v' bs].
    + rewrite (pow_loop_spec x _ v 0 a b t out) by (auto; lia). cbn [snd blockval fold_right].
      rewrite Z.pow_0_r, Z.div_1_r, Z.mod_small by (pose proof (top_bits_spec w v Hv); lia). f_equal. lia.
    + rewrite (pow_loop_spec x w v 0 a b t out) by (auto; lia).
      rewrite Z.pow_0_r, Z.div_1_r, Z.mod_small by lia.
      pose proof (Z.pow_pos_nonneg 2 (Z.of_nat w) ltac:(lia) ltac:(lia)).
      rewrite (IH (a * 2 ^ Z.of_nat w) (b + a * v)) by (auto; nia). f_equal. ring.
Qed.

Lemma power_v_spec x y : vwf y -> power_v mul one x y = npow x (Z.to_nat (lv y)).
Proof.
  intros Hy. unfold power_v. pose proof (vwf_limbs y Hy) as L.
  assert (E : blockval 64 y = lv y).
  { unfold blockval. clear. induction y as [|d y IH]; [reflexivity|]. cbn [fold_right lv]. rewrite IH, B_val. reflexivity. }
  rewrite (pow_blocks_spec x 64 y 1 0); try lia.
  - rewrite E, Z.mul_1_l, Z.add_0_l. reflexivity.
  - eapply Forall_impl; [|exact L]. unfold isU. rewrite B_val. cbn beta. intros d Hd. change (2 ^ Z.of_nat 64) with 18446744073709551616. exact Hd.
  - symmetry. apply zpow_1.
  - reflexivity.
Qed.

Lemma power_size_spec x y : 0 <= y < 2 ^ 64 -> power_size mul one x y = npow x (Z.to_nat y).
Proof.
  intros Hy. unfold power_size. rewrite (pow_blocks_spec x 64 [y] 1 0); try lia.
  - unfold zpow. f_equal. f_equal. unfold blockval. cbn [fold_right]. lia.
  - constructor; [exact Hy|constructor].
  - symmetry. apply zpow_1.
  - reflexivity.
Qed.

Lemma power_int_spec x y : - 2 ^ 31 <= y < 2 ^ 31 ->
  power_int mul one x y = npow x (Z.to_nat (if y <? 0 then 2 ^ 32 + y else y)).
Proof.
  intros Hy. unfold power_int.
  assert (E : y mod 2 ^ 32 = if y <? 0 then 2 ^ 32 + y else y).
  { destruct (Z.ltb_spec y 0); [symmetry; apply Z.mod_unique with (-1); lia|apply Z.mod_small; lia]. }
  rewrite E. rewrite (pow_blocks_spec x 32 _ 1 0); try lia.
  - unfold zpow. f_equal. f_equal. unfold blockval. cbn [fold_right]. lia.
  - constructor; [|constructor]. change (2 ^ Z.of_nat 32) with (2 ^ 32). destruct (Z.ltb_spec y 0); lia.
  - symmetry. apply zpow_1.
  - reflexivity.
Qed.
End PowerProof.

(** ** Recodings *)
Lemma bval_acc v : forall a, fold_left (fun a d => 2 * a + d) v a = a * 2 ^ Z.of_nat (length v) + bval v.
Proof.
  unfold bval. induction v as [|d v IH]; intros a; cbn [fold_left length].
  - change (Z.of_nat 0) with 0. rewrite Z.pow_0_r. lia.
  - rewrite IH, (IH (2 * 0 + d)), Nat2Z.inj_succ, Z.pow_succ_r by lia. ring.
Qed.
Lemma bval_cons d v : bval (d :: v) = d * 2 ^ Z.of_nat (length v) + bval v.
Proof. unfold bval at 1. cbn [fold_left]. rewrite bval_acc. f_equal. Qed.
Lemma bval_snoc v d : bval (v ++ [d]) = 2 * bval v + d.
Proof. unfold bval. rewrite fold_left_app. reflexivity. Qed.

Lemma upd_length v : forall i d, length (upd v i d) = length v.
Proof. induction v as [|c v IH]; intros [|i] d; cbn [upd length]; auto. Qed.
Lemma upd_nth v : forall i j d, nth j (upd v i d) 0 = if (Nat.eqb i j && Nat.ltb i (length v))%bool then d else nth j v 0.
Proof.
  induction v as [|c v IH]; intros [|i] [|j] d; cbn [upd nth length]; try reflexivity.
  - rewrite andb_false_r. reflexivity.
  - rewrite IH. cbn [Nat.eqb]. destruct (Nat.eqb i j); cbn [andb]; [|reflexivity]. 
    destruct (Nat.ltb_spec i (length v)), (Nat.ltb_spec (S i) (S (length v))); try lia; reflexivity.
Qed.
Lemma upd_bval v : forall i d, (i < length v)%nat ->
  bval (upd v i d) = bval v + (d - nth i v 0) * 2 ^ (Z.of_nat (length v) - 1 - Z.of_nat i).
Proof.
  induction v as [|c v IH]; intros i d Hi; [cbn in Hi; lia|]. destruct i as [|i]; cbn [upd nth length] in *.
  - rewrite !bval_cons. replace (Z.of_nat (S (length v)) - 1 - Z.of_nat 0) with (Z.of_nat (length v)) by lia. ring.
  - rewrite !bval_cons, upd_length, IH by lia.
    replace (Z.of_nat (S (length v)) - 1 - Z.of_nat (S i)) with (Z.of_nat (length v) - 1 - Z.of_nat i) by lia. ring.
Qed.

Lemma getv_ok v i : (i < length v)%nat -> getv v i = Ok (nth i v 0).
Proof.
  intros H. unfold getv. destruct (nth_error v i) eqn:E.
  - rewrite (nth_error_nth v i 0 E). reflexivity.
  - apply nth_error_None in E. lia.
Qed.

Lemma gcv_spec v val : forall pos, (pos < length v)%nat -> (1 <= pos)%nat ->
  exists p, getContinuousVal v pos val = Ok p /\ (1 <= p <= pos)%nat /\
    (forall i, (p < i <= pos)%nat -> nth i v 0 = val) /\ ((1 < p)%nat -> nth p v 0 <> val).
Proof.
  induction pos as [|pos IH]; intros H1 H2; [lia|]. cbn [getContinuousVal].
  destruct (Nat.leb_spec 2 (S pos)) as [C|C].
  - rewrite getv_ok by exact H1. cbn [bind]. destruct (Z.eqb_spec (nth (S pos) v 0) val) as [E|E].
    + destruct (IH ltac:(lia) ltac:(lia)) as (p & P1 & P2 & P3 & P4). exists p. split; [exact P1|]. split; [lia|].
      split; [|exact P4]. intros i Hi. destruct (Nat.eq_dec i (S pos)) as [->|N]; [exact E|apply P3; lia].
    + exists (S pos). split; [reflexivity|]. split; [lia|]. split; [lia|auto].
  - exists (S pos). split; [reflexivity|]. split; [lia|]. split; [lia|]. lia.
Qed.

Definition digit3 (d : Z) : Prop := -1 <= d <= 1.

Lemma zero_run v : forall k q, (q + k < length v)%nat ->
  (forall i, (q < i <= q + k)%nat -> nth i v 0 = 1) ->
  let v' := fold_left (fun v i => upd v i 0) (seq (q + 1) k) v in
  length v' = length v /\
  bval v' = bval v - (2 ^ (Z.of_nat (length v) - 1 - Z.of_nat q) - 2 ^ (Z.of_nat (length v) - 1 - Z.of_nat (q + k))) /\
  (forall i, (i <= q \/ q + k < i)%nat -> nth i v' 0 = nth i v 0) /\
  (forall i, (q < i <= q + k)%nat -> nth i v' 0 = 0).
Proof.
  induction k as [|k IH]; intros q H1 H2; cbv zeta.
  - cbn [seq fold_left]. rewrite Nat.add_0_r. split; [reflexivity|]. split; [lia|]. split; [auto|lia].
  - rewrite seq_S, fold_left_app. cbn [fold_left].
    destruct (IH q ltac:(lia)) as (I1 & I2 & I3 & I4); [intros; apply H2; lia|]. cbv zeta in *.
    set (v1 := fold_left _ _ v) in *. split; [rewrite upd_length; exact I1|].
    split.
    { rewrite upd_bval by lia. rewrite I2, I1, I3 by lia. rewrite H2 by lia.
      replace (Z.of_nat (length v) - 1 - Z.of_nat (q + k)) with (Z.succ (Z.of_nat (length v) - 1 - Z.of_nat (q + 1 + k))) by lia.
      rewrite Z.pow_succ_r by lia. replace (q + S k)%nat with (q + 1 + k)%nat by lia. ring. }
    split; intros i Hi; rewrite upd_nth.
    + destruct (Nat.eqb_spec (q + 1 + k) i); cbn [andb]; [lia|]. apply I3. lia.
    + destruct (Nat.eqb_spec (q + 1 + k) i); cbn [andb].
      * destruct (Nat.ltb_spec (q + 1 + k) (length v1)); [reflexivity|lia].
      * apply I4. lia.
Qed.

Definition nafInv (v0 : list Z) (s : list Z * nat) : Prop :=
  let '(v, pos) := s in
  length v = length v0 /\ (1 <= pos < length v)%nat /\ bval v = bval v0 /\
  (forall i, (i <= pos)%nat -> nth i v 0 = 0 \/ nth i v 0 = 1) /\
  (forall i, (i < length v)%nat -> digit3 (nth i v 0)).
Definition nafPost (v0 v : list Z) : Prop := length v = length v0 /\ bval v = bval v0 /\ Forall digit3 v.

Lemma nth_digit3 v : (forall i, (i < length v)%nat -> digit3 (nth i v 0)) -> Forall digit3 v.
Proof.
  intros H. apply Forall_forall. intros d Hd. apply (In_nth v d 0) in Hd. destruct Hd as (i & Hi & <-). auto.
Qed.

Lemma naf_body_ok v0 s : nafInv v0 s ->
  match naf_body s with
  | Ok (Next s') => nafInv v0 s' /\ 0 <= Z.of_nat (snd s') < Z.of_nat (snd s)
  | Ok (Done r) => nafPost v0 r
  | _ => False
  end.
Proof.
  destruct s as [v pos]. intros (H1 & H2 & H3 & H4 & H5). unfold naf_body. cbn [snd].
  destruct (gcv_spec v 0 pos) as (p & -> & P1 & P2 & P3); [lia|lia|]. cbn [bind].
  destruct (Nat.eqb_spec p 1) as [Ep|Np]; [split; [exact H1|]; split; [exact H3|apply nth_digit3, H5]|].
  assert (Vp : nth p v 0 = 1) by (destruct (H4 p ltac:(lia)); [exfalso; apply P3; auto; lia|auto]).
  destruct (gcv_spec v 1 p) as (q & -> & Q1 & Q2 & Q3); [lia|lia|]. cbn [bind].
  destruct (Nat.eqb_spec q 1) as [Eq|Nq]; [split; [exact H1|]; split; [exact H3|apply nth_digit3, H5]|].
  assert (Vq : nth q v 0 = 0) by (destruct (H4 q ltac:(lia)); [auto|exfalso; apply Q3; auto; lia]).
  assert (q <> p) by (intros ->; lia).
  destruct (Nat.leb_spec (p - q) 1) as [C|C].
  - destruct (Nat.eqb_spec p 0); [lia|]. cbn [snd]. split; [|lia]. split; [exact H1|]. split; [lia|].
    split; [exact H3|]. split; [|exact H5]. intros i Hi. apply H4. lia.
  - cbn [snd]. split; [|lia].
    assert (L1 : length (upd v q 1) = length v) by apply upd_length.
    destruct (zero_run (upd v q 1) (p - q - 1) q) as (Z1 & Z2 & Z3 & Z4).
    { rewrite L1. lia. }
    { intros i Hi. rewrite upd_nth. destruct (Nat.eqb_spec q i); [lia|]. cbn [andb]. apply Q2. lia. }
    cbv zeta in *. set (v1 := fold_left _ _ _) in *. rewrite L1 in *.
    replace (q + (p - q - 1))%nat with (p - 1)%nat in * by lia.
    assert (Np1 : nth p v1 0 = 1).
    { rewrite Z3 by lia. rewrite upd_nth. destruct (Nat.eqb_spec q p); [lia|]. exact Vp. }
    assert (NN : forall i, nth i (upd v1 p (-1)) 0 =
      if Nat.eqb i p then -1 else if (Nat.ltb q i && Nat.ltb i p)%bool then 0 else if Nat.eqb i q then 1 else nth i v 0).
    { intros i. rewrite upd_nth. destruct (Nat.eqb_spec i p) as [->|Ni].
      - rewrite Nat.eqb_refl. destruct (Nat.ltb_spec p (length v1)); [reflexivity|lia].
      - destruct (Nat.eqb_spec p i); [lia|]. cbn [andb].
        destruct (Nat.ltb_spec q i), (Nat.ltb_spec i p); cbn [andb].
        + apply Z4. lia.
        + rewrite Z3 by lia. rewrite upd_nth. destruct (Nat.eqb_spec q i), (Nat.eqb_spec i q); try lia. reflexivity.
        + rewrite Z3 by lia. rewrite upd_nth. destruct (Nat.eqb_spec q i), (Nat.eqb_spec i q); try lia; cbn [andb].
          * destruct (Nat.ltb_spec q (length v)); [reflexivity|lia].
          * reflexivity.
        + lia. }
    split; [rewrite upd_length; lia|]. rewrite upd_length. split; [lia|]. split.
    { rewrite upd_bval by lia. rewrite Np1, Z2, Z1, upd_bval by lia. rewrite Vq, H3.
      replace (Z.of_nat (length v) - 1 - Z.of_nat (p - 1)) with (Z.succ (Z.of_nat (length v) - 1 - Z.of_nat p)) by lia.
      rewrite Z.pow_succ_r by lia. ring. }
    split.
    + intros i Hi. rewrite NN. destruct (Nat.eqb_spec i p); [lia|].
      destruct (Nat.ltb_spec q i), (Nat.ltb_spec i p); cbn [andb]; auto;
      destruct (Nat.eqb_spec i q); auto; apply H4; lia.
    + intros i Hi. rewrite NN. unfold digit3. destruct (Nat.eqb_spec i p); [lia|].
      destruct (Nat.ltb_spec q i), (Nat.ltb_spec i p); cbn [andb]; try lia;
      (destruct (Nat.eqb_spec i q); [lia|apply H5; lia]).
Qed.

Lemma naf_ok v : (2 <= length v)%nat -> Z.of_nat (length v) < 2 ^ 64 -> Forall (fun d => d = 0 \/ d = 1) v ->
  exists w, convertToNAF v = Ok w /\ length w = length v /\ bval w = bval v /\ Forall digit3 w.
Proof.
  intros HL HB Hd. unfold convertToNAF. destruct v as [|d0 v0]; [cbn in HL; lia|].
  set (v := d0 :: v0) in *.
  destruct (loopR_total naf_body (nafInv v) (nafPost v) (fun s => Z.of_nat (snd s)) (naf_body_ok v) 64 (v, (length v - 1)%nat))
    as (w & E & W1 & W2 & W3).
  - split; [reflexivity|]. split; [lia|]. split; [reflexivity|].
    assert (D : forall i, (i < length v)%nat -> nth i v 0 = 0 \/ nth i v 0 = 1).
    { intros i Hi. apply (proj1 (Forall_forall _ v) Hd). apply nth_In. exact Hi. }
    split; intros i Hi; [apply D; lia|]. destruct (D i Hi) as [-> | ->]; unfold digit3; lia.
  - cbn [snd]. change (Z.of_nat 64) with 64. lia.
  - exists w. auto.
Qed.

Lemma naf_one_ub d : d = 0 \/ d = 1 -> convertToNAF [d] = UB.
Proof. intros [-> | ->]; vm_compute; reflexivity. Qed.

(** convertToBinary *)
Lemma bin_loop x len : vwf x -> forall k, (k <= Z.to_nat len)%nat -> 0 <= len <= 64 * Z.of_nat (length x) ->
  exists v, fold_left (fun acc i =>
      let! v := acc in
      let! b := vtestBit x (len - 1 - Z.of_nat i) in
      Ok (v ++ [b2z b])) (seq 0 k) (Ok []) = Ok v /\ length v = k /\ Forall (fun d => d = 0 \/ d = 1) v /\
    bval v = (lv x / 2 ^ (len - Z.of_nat k)) mod 2 ^ Z.of_nat k.
Proof.
  intros Hx. induction k as [|k IH]; intros Hk HL.
  - exists []. cbn [seq fold_left]. split; [reflexivity|]. split; [reflexivity|]. split; [constructor|].
    change (Z.of_nat 0) with 0. rewrite Z.pow_0_r, Z.mod_1_r. reflexivity.
  - destruct (IH ltac:(lia) HL) as (v & E & L & F & V). rewrite seq_S, fold_left_app, E. cbn [fold_left bind Nat.add].
    rewrite (vtestBit_ok x) by (auto; lia). cbn [bind]. eexists. split; [reflexivity|].
    rewrite app_length, L. cbn [length]. split; [lia|]. split.
    { apply Forall_app. split; [exact F|]. constructor; [|constructor]. destruct (Z.testbit _ _); cbn; auto. }
    rewrite bval_snoc, V. pose proof (vwf_nonneg x Hx).
    replace (len - Z.of_nat k) with ((len - Z.of_nat (S k)) + 1) by lia.
    replace (len - 1 - Z.of_nat k) with (len - Z.of_nat (S k)) by lia.
    destruct (bit_split (lv x) (len - Z.of_nat (S k)) (Z.of_nat k)) as [EB|EB]; [lia|lia| |lia].
    rewrite Nat2Z.inj_succ in *. rewrite EB. lia.
Qed.

Lemma convertToBinary_ok x : vwf x -> lv x <> 0 -> starts_with_54_ones (last x 0) = false ->
  exists v, convertToBinary x = Ok v /\ Z.of_nat (length v) = Z.log2 (lv x) + 1 /\
    Forall (fun d => d = 0 \/ d = 1) v /\ bval v = lv x.
Proof.
  intros Hx X0 H54. unfold convertToBinary. rewrite (vbitLen_nz x Hx X0), H54, Z.add_0_r. cbn [bind].
  pose proof (vwf_nonneg x Hx) as N. pose proof (Z.log2_nonneg (lv x)) as LN.
  pose proof (Z.log2_spec (lv x) ltac:(lia)) as LS. unfold Z.succ in LS.
  destruct (bin_loop x (Z.log2 (lv x) + 1) Hx (Z.to_nat (Z.log2 (lv x) + 1)) ltac:(lia)) as (v & E & L & F & V).
  { split; [lia|]. pose proof (vwf_ub x Hx) as U.
    assert (EB : B ^ Z.of_nat (length x) = 2 ^ (64 * Z.of_nat (length x))).
    { rewrite B_val. change 18446744073709551616 with (2 ^ 64). rewrite <- Z.pow_mul_r by lia. reflexivity. }
    rewrite EB in U. apply Z.log2_lt_pow2 in U; lia. }
  exists v. split; [exact E|]. split; [lia|]. split; [exact F|]. rewrite V, Z2Nat.id by lia.
  rewrite Z.sub_diag, Z.pow_0_r, Z.div_1_r. apply Z.mod_small. lia.
Qed.

Lemma getGoodRepl_ok x : vwf x -> 2 <= lv x -> starts_with_54_ones (last x 0) = false ->
  exists v b, getGoodRepl x = Ok (v, b) /\ bval v = lv x /\ Forall digit3 v.
Proof.
  intros Hx X2 H54. unfold getGoodRepl.
  destruct (convertToBinary_ok x Hx ltac:(lia) H54) as (v & -> & L & F & V). cbn [bind].
  pose proof (Z.log2_le_mono 2 (lv x) X2) as LM. change (Z.log2 2) with 1 in LM.
  assert (LB : Z.of_nat (length v) < 2 ^ 64).
  { rewrite L. pose proof (vwf_range x Hx) as R. assert (EB : B ^ 9 = 2 ^ 576) by (rewrite B_val; reflexivity).
    rewrite EB in R. destruct R as [R0 R]. apply Z.log2_lt_pow2 in R; lia. }
  destruct (naf_ok v ltac:(lia) LB F) as (w & -> & W1 & W2 & W3). cbn [bind].
  destruct (Nat.ltb _ _).
  - exists w, true. split; [reflexivity|]. split; [lia|exact W3].
  - exists v, false. split; [reflexivity|]. split; [lia|].
    eapply Forall_impl; [|exact F]. cbn beta. unfold digit3. lia.
Qed.

Lemma getGoodRepl_one_ub : getGoodRepl [1] = UB.
Proof. vm_compute. reflexivity. Qed.
Lemma convertToBinary_ub : convertToBinary [18446744073709551615] = UB.
Proof. vm_compute. reflexivity. Qed.
Lemma goodRepl_example : exists x v, vwf x /\ 2 <= lv x /\ starts_with_54_ones (last x 0) = false /\
  getGoodRepl x = Ok (v, true) /\ v = [1; 0; 1; 0; 0; 0; 0; 0; -1].
Proof.
  exists [319]. eexists. split; [vwf_lit|]. split; [cbn [lv]; rewrite B_val; lia|]. split; [vm_compute; reflexivity|].
  split; vm_compute; reflexivity.
Qed.
Lemma power_example : (forall a b c : Z, a * (b * c) = a * b * c) /\ power_v Z.mul 1 3 [5] = 243.
Proof. split; [intros; ring|vm_compute; reflexivity]. Qed.
