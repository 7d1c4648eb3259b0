(** Proofs about mpz_class scalars and the Java interface *)
From Coq Require Import ZArith Znumtheory List Lia Bool.
From Verif Require Import Base Prim PrimProofs Loop Vuint VuintProofs Power PowerProofs FpSpec Cfg FpM FpProofs FpApi FpApiProofs TowerSpec TowerField TowerM Fp2Proofs Fp6Proofs Frob ParamM ParamProofs FinalM FinalProofs TowerApi Poly EcSpec EcGroup EcM EcProofs EcInst EcFrob EcApi MpzM.
Import ListNotations.
Local Open Scope Z_scope.

(** ** limbs *)
Lemma B_pow n : B ^ Z.of_nat n = 2 ^ (64 * Z.of_nat n).
Proof. change B with (2 ^ 64). rewrite <- Z.pow_mul_r by lia. reflexivity. Qed.
Lemma mpz_len_bound x : 0 <= Z.abs x < B ^ Z.of_nat (mpz_len x).
Proof.
  unfold mpz_len. destruct (Z.eqb_spec x 0) as [->|N]; [cbn; lia|]. split; [lia|].
  rewrite B_pow. assert (H : 0 < Z.abs x) by lia. pose proof (proj2 (Z.log2_spec _ H)) as L.
  pose proof (Z.log2_nonneg (Z.abs x)) as Hl. set (l := Z.log2 (Z.abs x)) in *.
  eapply Z.lt_le_trans; [exact L|]. apply Z.pow_le_mono_r; [lia|].
  rewrite Nat2Z.inj_succ, Z2Nat.id by (apply Z.div_pos; lia). pose proof (Z.div_mod l 64 ltac:(lia)). pose proof (Z.mod_pos_bound l 64 ltac:(lia)). lia.
Qed.
Lemma mpz_len_low x n : mpz_len x = S n -> B ^ Z.of_nat n <= Z.abs x.
Proof.
  unfold mpz_len. destruct (Z.eqb_spec x 0) as [->|N]; [discriminate|]. intros E. injection E as <-.
  rewrite B_pow. assert (H : 0 < Z.abs x) by lia. pose proof (proj1 (Z.log2_spec _ H)) as L.
  pose proof (Z.log2_nonneg (Z.abs x)) as Hl. set (l := Z.log2 (Z.abs x)) in *.
  eapply Z.le_trans; [|exact L]. apply Z.pow_le_mono_r; [lia|].
  rewrite Z2Nat.id by (apply Z.div_pos; lia). pose proof (Z.div_mod l 64 ltac:(lia)). pose proof (Z.mod_pos_bound l 64 ltac:(lia)). lia.
Qed.
Lemma mpz_limbs_ok x : limbs (mpz_limbs x) /\ length (mpz_limbs x) = mpz_len x /\ lv (mpz_limbs x) = Z.abs x.
Proof. apply to_limbs_spec, mpz_len_bound. Qed.
Lemma mpz_len_pos x : x <> 0 -> (0 < mpz_len x)%nat.
Proof. intros N. unfold mpz_len. destruct (Z.eqb_spec x 0); [contradiction|lia]. Qed.
Lemma to_limbs_snoc n : forall v, 0 <= v -> to_limbs (S n) v = to_limbs n v ++ [(v / B ^ Z.of_nat n) mod B].
Proof.
  induction n as [|n IH]; intros v Hv.
  - cbn [to_limbs app Z.of_nat]. rewrite Z.pow_0_r, Z.div_1_r. reflexivity.
  - change (to_limbs (S (S n)) v) with (v mod B :: to_limbs (S n) (v / B)). rewrite IH by (apply Z.div_pos; pose proof B_pos; lia).
    cbn [to_limbs app]. rewrite Z.div_div; [|pose proof B_pos; lia|apply Z.pow_pos_nonneg; [apply B_pos|lia]].
    rewrite Nat2Z.inj_succ, Z.pow_succ_r by lia. reflexivity.
Qed.
Lemma mpz_top x : x <> 0 -> exists v l, rev (mpz_limbs x) = v :: l /\ v <> 0.
Proof.
  intros N. pose proof (mpz_len_pos x N) as HL. unfold mpz_limbs. destruct (mpz_len x) as [|n] eqn:E; [lia|].
  rewrite to_limbs_snoc by lia. rewrite rev_app_distr. cbn [rev app]. eexists _, _. split; [reflexivity|].
  pose proof (mpz_len_low x n E) as H1. pose proof (mpz_len_bound x) as H2. rewrite E, Nat2Z.inj_succ, Z.pow_succ_r in H2 by lia.
  pose proof B_pos as HB. assert (HP : 0 < B ^ Z.of_nat n) by (apply Z.pow_pos_nonneg; lia).
  assert (H3 : 1 <= Z.abs x / B ^ Z.of_nat n) by (apply Z.div_le_lower_bound; lia).
  assert (H4 : Z.abs x / B ^ Z.of_nat n < B) by (apply Z.div_lt_upper_bound; lia).
  rewrite Z.mod_small; lia.
Qed.
Lemma block_ok x i : (i < mpz_len x)%nat -> M_block x (Z.of_nat i) = Ok (nth i (mpz_limbs x) 0).
Proof.
  intros H. unfold M_block. destruct (Z.leb_spec 0 (Z.of_nat i)); [|lia]. destruct (Z.ltb_spec (Z.of_nat i) (Z.of_nat (mpz_len x))); [|lia].
  cbn [andb]. rewrite Nat2Z.id. reflexivity.
Qed.
Lemma block_ub x i : i < 0 \/ Z.of_nat (mpz_len x) <= i -> M_block x i = UB.
Proof. intros H. unfold M_block. destruct (Z.leb_spec 0 i); [|reflexivity]. destruct (Z.ltb_spec i (Z.of_nat (mpz_len x))); [lia|reflexivity]. Qed.
Lemma bsize_pos y : mpz_ok y -> 0 <= y -> M_blockSize y = Z.of_nat (mpz_len y).
Proof. unfold mpz_ok, M_blockSize, mpz_size. intros H Hy. destruct (Z.ltb_spec y 0); [lia|]. apply Z.mod_small. change (2 ^ 31) with 2147483648 in H. change (2 ^ 64) with 18446744073709551616. lia. Qed.
Lemma bsize_neg y : mpz_ok y -> y < 0 -> M_blockSize y = 2 ^ 64 - Z.of_nat (mpz_len y).
Proof.
  unfold mpz_ok, M_blockSize, mpz_size. intros H Hy. destruct (Z.ltb_spec y 0); [|lia]. pose proof (mpz_len_pos y ltac:(lia)).
  change (2 ^ 31) with 2147483648 in H. symmetry. apply Z.mod_unique with (-1); change (2 ^ 64) with 18446744073709551616; lia.
Qed.

(** ** power *)
Section PZ.
Context {T : Type} (mul : T -> T -> T) (one : T).
Lemma skipn_nth {A} (d : A) l i : (i < length l)%nat -> skipn i l = nth i l d :: skipn (S i) l.
Proof. revert i. induction l as [|a l IH]; intros [|i] H; cbn in *; try lia; [reflexivity|]. apply IH. lia. Qed.
Lemma pow_z_blocks y : forall r i t out, (i + r = mpz_len y)%nat ->
  pow_z mul (S r) y (Z.of_nat i) (Z.of_nat (mpz_len y)) t out = Ok (pow_blocks mul 64 (skipn i (mpz_limbs y)) t out).
Proof.
  destruct (mpz_limbs_ok y) as (_ & HL & _).
  induction r as [|r IH]; intros i t out H.
  - cbn [pow_z]. destruct (Z.ltb_spec (Z.of_nat i) (Z.of_nat (mpz_len y))); [lia|]. rewrite skipn_all2 by lia. reflexivity.
  - cbn [pow_z]. destruct (Z.ltb_spec (Z.of_nat i) (Z.of_nat (mpz_len y))); [|lia]. rewrite block_ok by lia. cbn [bind].
    rewrite (skipn_nth 0 (mpz_limbs y) i) by lia. set (v := nth i (mpz_limbs y) 0).
    replace (Z.of_nat i + 1) with (Z.of_nat (S i)) by lia.
    destruct (Z.eqb_spec (Z.of_nat i) (Z.of_nat (mpz_len y) - 1)) as [E|N].
    + assert (r = 0%nat) by lia. subst r. rewrite (skipn_all2 (n := S i)) by lia. cbn [pow_blocks].
      destruct (pow_loop mul (top_bits 64 v) v 0 t out) as [t' o'] eqn:EL.
      pose proof (IH (S i) t' o' ltac:(lia)) as R. rewrite (skipn_all2 (n := S i)) in R by lia. cbn [pow_blocks] in R.
      etransitivity; [exact R|]. cbn [snd]. reflexivity.
    + rewrite (skipn_nth 0 (mpz_limbs y) (S i)) by lia. cbn [pow_blocks].
      destruct (pow_loop mul 64 v 0 t out) as [t' o'] eqn:EL.
      pose proof (IH (S i) t' o' ltac:(lia)) as R. rewrite (skipn_nth 0 (mpz_limbs y) (S i)) in R by lia. exact R.
Qed.
Lemma pow_z_fuel y : forall f i n t out x, pow_z mul f y i n t out = Ok x -> pow_z mul (S f) y i n t out = Ok x.
Proof.
  induction f as [|f IH]; intros i n t out x H; [discriminate|]. cbn [pow_z] in H. remember (S f) as g eqn:Eg. cbn [pow_z].
  destruct (i <? n); [|exact H]. destruct (M_block y i) as [v| | | |]; cbn [bind] in *; try discriminate.
  destruct (pow_loop mul (if i =? n - 1 then top_bits 64 v else 64%nat) v 0 t out) as [t' o']. subst g. apply IH, H.
Qed.
Lemma power_z_blocks x y : mpz_ok y -> 0 <= y -> power_z mul one x y = Ok (pow_blocks mul 64 (mpz_limbs y) x one).
Proof.
  intros H Hy. unfold power_z. rewrite bsize_pos by assumption. apply pow_z_fuel.
  exact (pow_z_blocks y (mpz_len y) 0 x one eq_refl).
Qed.
Lemma power_z_neg x y : mpz_ok y -> y < 0 -> power_z mul one x y = UB.
Proof.
  intros H Hy. unfold power_z. rewrite bsize_neg by assumption. unfold mpz_ok in H. change (2 ^ 31) with 2147483648 in H.
  assert (G : forall r i t out, (i + r = mpz_len y)%nat -> forall f, (r < f)%nat -> pow_z mul f y (Z.of_nat i) (2 ^ 64 - Z.of_nat (mpz_len y)) t out = UB).
  { change (2 ^ 64) with 18446744073709551616.
    induction r as [|r IH]; intros i t out E [|f] Hf; try lia; cbn [pow_z].
    - destruct (Z.ltb_spec (Z.of_nat i) (18446744073709551616 - Z.of_nat (mpz_len y))); [|lia]. rewrite block_ub by lia. reflexivity.
    - destruct (Z.ltb_spec (Z.of_nat i) (18446744073709551616 - Z.of_nat (mpz_len y))); [|lia]. rewrite block_ok by lia. cbn [bind].
      destruct (pow_loop mul _ _ 0 t out) as [t' o']. replace (Z.of_nat i + 1) with (Z.of_nat (S i)) by lia. apply IH; lia. }
  apply (G (mpz_len y) 0%nat); lia.
Qed.
Hypothesis mulA : forall a b c, mul a (mul b c) = mul (mul a b) c.
Hypothesis mul1l : forall a, mul one a = a.
Hypothesis mul1r : forall a, mul a one = a.
Lemma blocks_npow x y : pow_blocks mul 64 (mpz_limbs y) x one = npow mul one x (Z.to_nat (Z.abs y)).
Proof.
  destruct (mpz_limbs_ok y) as (L & _ & V).
  assert (E : blockval 64 (mpz_limbs y) = Z.abs y).
  { rewrite <- V. unfold blockval. clear. induction (mpz_limbs y) as [|d l IH]; [reflexivity|]. cbn [fold_right lv]. rewrite IH, B_val. reflexivity. }
  rewrite (pow_blocks_spec mul one mulA mul1l mul1r x 64 (mpz_limbs y) 1 0); try lia.
  - rewrite E, Z.mul_1_l, Z.add_0_l. reflexivity.
  - eapply Forall_impl; [|exact L]. unfold isU. rewrite B_val. cbn beta. intros d Hd. change (2 ^ Z.of_nat 64) with 18446744073709551616. exact Hd.
  - symmetry. apply zpow_1. exact mul1r.
  - reflexivity.
Qed.
Lemma power_z_spec x y : mpz_ok y -> 0 <= y -> power_z mul one x y = Ok (npow mul one x (Z.to_nat y)).
Proof. intros H Hy. rewrite power_z_blocks, blocks_npow by assumption. rewrite Z.abs_eq by exact Hy. reflexivity. Qed.
End PZ.
(** the same along a relation to a multiplication that is associative *)
Section PZR.
Context {T : Type} (mul : T -> T -> T) (one : T) (K : cring) (R : T -> K -> Prop).
Hypothesis R1 : R one ro.
Hypothesis Rm : forall x y v w, R x v -> R y w -> R (mul x y) (rmul v w).
Lemma pl_R : forall m v j t out vt vo, R t vt -> R out vo ->
  R (fst (pow_loop mul m v j t out)) (fst (pow_loop (@rmul K) m v j vt vo)) /\
  R (snd (pow_loop mul m v j t out)) (snd (pow_loop (@rmul K) m v j vt vo)).
Proof.
  induction m as [|m IH]; intros v0 j t out vt vo Ht Ho; cbn [pow_loop fst snd]; [split; assumption|].
  apply IH; [apply Rm; assumption|]. destruct (Z.testbit v0 j); [apply Rm; assumption|assumption].
Qed.
Lemma pb_R w : forall bs t out vt vo, R t vt -> R out vo -> R (pow_blocks mul w bs t out) (pow_blocks (@rmul K) w bs vt vo).
Proof.
  induction bs as [|b bs IH]; intros t out vt vo Ht Ho; cbn [pow_blocks]; [assumption|].
  destruct bs as [|b' bs].
  - apply pl_R; assumption.
  - destruct (pl_R w b 0%Z t out vt vo Ht Ho) as [L1 L2].
    destruct (pow_loop mul w b 0 t out) as [t' out']. destruct (pow_loop (@rmul K) w b 0 vt vo) as [vt' vo'].
    apply IH; assumption.
Qed.
Lemma power_z_R x v y : mpz_ok y -> 0 <= y -> R x v -> exists z, power_z mul one x y = Ok z /\ R z (rpz v y).
Proof.
  intros H Hy Hx. eexists. split; [apply power_z_blocks; assumption|].
  replace (rpz v y) with (pow_blocks (@rmul K) 64 (mpz_limbs y) v ro); [apply pb_R; assumption|].
  unfold rpz, rpw. rewrite blocks_npow, Z.abs_eq by (try exact Hy; intros;
    (apply (Ring_theory.Rmul_assoc (rth K)) || apply (Ring_theory.Rmul_1_l (rth K)) || (rewrite (Ring_theory.Rmul_comm (rth K)); apply (Ring_theory.Rmul_1_l (rth K))))). reflexivity.
Qed.
End PZR.
