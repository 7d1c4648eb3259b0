From Coq Require Import ZArith Znumtheory Lia List Bool Ring Field.
From Verif Require Import Base Prim PrimProofs Loop Vuint VuintProofs VDiv VDivProofs StrSpec VStr VStrProofs ZmZ ZmZProofs
  Power PowerProofs FpSpec Cfg FpM FpProofs FpInvProofs FpApi.
Import ListNotations.
Local Open Scope Z_scope.

(** power commutes with a map that respects multiplication on an invariant *)
Section Hom.
Context {T U : Type} (mul : T -> T -> T) (one : T) (mul' : U -> U -> U) (P : T -> Prop) (h : T -> U).
Hypothesis HM : forall a b, P a -> P b -> P (mul a b) /\ h (mul a b) = mul' (h a) (h b).
Lemma pow_loop_hom m : forall v j t out, P t -> P out ->
  let r := pow_loop mul m v j t out in
  P (fst r) /\ P (snd r) /\ pow_loop mul' m v j (h t) (h out) = (h (fst r), h (snd r)).
Proof.
  induction m as [|m IH]; intros v j t out Ht Ho; cbn [pow_loop].
  - cbn [fst snd]. auto.
  - destruct (HM t t Ht Ht) as [P1 E1]. destruct (HM out t Ho Ht) as [P2 E2].
    assert (P3 : P (if Z.testbit v j then mul out t else out)) by (destruct (Z.testbit v j); assumption).
    specialize (IH v (j + 1) (mul t t) _ P1 P3). cbv zeta in *. destruct IH as (I1 & I2 & I3).
    split; [exact I1|]. split; [exact I2|]. rewrite <- I3, <- E1, <- E2. destruct (Z.testbit v j); reflexivity.
Qed.
Lemma pow_blocks_hom w bs : forall t out, P t -> P out ->
  P (pow_blocks mul w bs t out) /\ pow_blocks mul' w bs (h t) (h out) = h (pow_blocks mul w bs t out).
Proof.
  induction bs as [|v bs IH]; intros t out Ht Ho; cbn [pow_blocks]; [auto|].
  destruct bs as [|v2 bs].
  - destruct (pow_loop_hom (top_bits w v) v 0 t out Ht Ho) as (_ & H2 & ->). auto.
  - destruct (pow_loop_hom w v 0 t out Ht Ho) as (H1 & H2 & ->).
    destruct (pow_loop mul w v 0 t out) as [t' out']. cbn [fst snd] in *. apply IH; auto.
Qed.
Lemma power_v_hom x y : P one -> P x ->
  P (power_v mul one x y) /\ h (power_v mul one x y) = power_v mul' (h one) (h x) y.
Proof.
  intros H1 Hx. destruct (pow_blocks_hom 64 y x one Hx H1) as [A E]. unfold power_v. auto.
Qed.
End Hom.

Section Api.
Variable c : cfg.
Local Notation p := (cp c).
Local Notation mkp := (mk (cp c)).
Add Field FpF3 : (Fp_field (cp c) (cp_prime c)).

Lemma B4 : B ^ 4 = W.
Proof. rewrite W_B. ring. Qed.
Lemma B8 : B ^ 8 = W2.
Proof. unfold W2. rewrite W_B. ring. Qed.
Lemma W_lt_B9 : W < B ^ 9.
Proof. rewrite W_val, B_val. reflexivity. Qed.
Lemma W2_lt_B9 : W2 < B ^ 9.
Proof. unfold W2. rewrite W_val, B_val. reflexivity. Qed.

Lemma vOfW v : 0 <= v < W -> vwf (vOf v) /\ lv (vOf v) = v /\ (length (vOf v) <= 4)%nat.
Proof.
  intros Hv. pose proof W_lt_B9. destruct (vOf_spec v ltac:(lia)) as [H1 H2]. split; [exact H1|]. split; [exact H2|].
  destruct (le_lt_dec (length (vOf v)) 4) as [L|L]; [exact L|exfalso].
  pose proof (vwf_lb _ H1 ltac:(lia)) as H3. rewrite H2 in H3.
  assert (B ^ 4 <= B ^ (Z.of_nat (length (vOf v)) - 1)) by (apply Z.pow_le_mono_r; [rewrite B_val|]; lia).
  rewrite B4 in *. lia.
Qed.
Lemma vOfW2 v : 0 <= v < W2 -> vwf (vOf v) /\ lv (vOf v) = v /\ (length (vOf v) <= 8)%nat.
Proof.
  intros Hv. pose proof W2_lt_B9. destruct (vOf_spec v ltac:(lia)) as [H1 H2]. split; [exact H1|]. split; [exact H2|].
  destruct (le_lt_dec (length (vOf v)) 8) as [L|L]; [exact L|exfalso].
  pose proof (vwf_lb _ H1 ltac:(lia)) as H3. rewrite H2 in H3.
  assert (B ^ 8 <= B ^ (Z.of_nat (length (vOf v)) - 1)) by (apply Z.pow_le_mono_r; [rewrite B_val|]; lia).
  rewrite B8 in *. lia.
Qed.

Lemma lv_firstn n l : limbs l -> lv (firstn n l) = lv l mod B ^ Z.of_nat n.
Proof.
  intros HL. pose proof B_pos.
  destruct (le_lt_dec n (length l)) as [L|L].
  - pose proof (lv_splitP n l) as S. rewrite Bp_eq, firstn_length, Nat.min_l in S by lia.
    rewrite S. rewrite Z.mul_comm, Z.mod_add by (apply Z.pow_nonzero; lia). symmetry. apply Z.mod_small.
    assert (H1 : limbs (firstn n l)).
    { unfold limbs in *. rewrite <- (firstn_skipn n l) in HL. apply Forall_app in HL. tauto. }
    pose proof (lv_boundP _ H1) as H2. rewrite Bp_eq, firstn_length, Nat.min_l in H2 by lia.
    pose proof (lv_nonneg _ H1). lia.
  - rewrite firstn_all2 by lia. symmetry. apply Z.mod_small. pose proof (lv_boundP _ HL) as H2. rewrite Bp_eq in H2.
    pose proof (lv_nonneg _ HL). pose proof (Bpow_mono (length l) n ltac:(lia)). lia.
Qed.
Lemma setDirect4_spec l : vwf l -> setDirect4 l = lv l mod W.
Proof. intros H. unfold setDirect4. rewrite lv_firstn by (apply vwf_limbs; exact H). change (Z.of_nat 4) with 4. rewrite B4. reflexivity. Qed.
Lemma setDirect8_spec l : vwf l -> setDirect8 l = lv l mod W2.
Proof. intros H. unfold setDirect8. rewrite lv_firstn by (apply vwf_limbs; exact H). change (Z.of_nat 8) with 8. rewrite B8. reflexivity. Qed.
Lemma vfp_ok x : 0 <= x < W -> exists v, vfp x = Ok v /\ vwf v /\ lv v = x /\ (length v <= 4)%nat.
Proof.
  intros Hx. unfold vfp, units4. destruct (to_limbs_spec 4 x) as (H1 & H2 & H3).
  { change (Z.of_nat 4) with 4. rewrite B4. exact Hx. }
  destruct (vset64_ok (to_limbs 4 x) H1 ltac:(lia)) as (v & E & V1 & V2). exists v. split; [exact E|].
  split; [exact V1|]. rewrite V2, H3. split; [reflexivity|].
  destruct (vOfW x Hx) as (A1 & A2 & A3). replace v with (vOf x); [exact A3|]. apply vwf_inj; auto. lia.
Qed.
Lemma vdbl_ok x : 0 <= x < W2 -> exists v, vdbl x = Ok v /\ vwf v /\ lv v = x /\ (length v <= 8)%nat.
Proof.
  intros Hx. unfold vdbl, units8. destruct (to_limbs_spec 8 x) as (H1 & H2 & H3).
  { change (Z.of_nat 8) with 8. rewrite B8. exact Hx. }
  destruct (vset64_ok (to_limbs 8 x) H1 ltac:(lia)) as (v & E & V1 & V2). exists v. split; [exact E|].
  split; [exact V1|]. rewrite V2, H3. split; [reflexivity|].
  destruct (vOfW2 x Hx) as (A1 & A2 & A3). replace v with (vOf x); [exact A3|]. apply vwf_inj; auto. lia.
Qed.

Lemma pV_ok : vwf (pV c) /\ lv (pV c) = p /\ (length (pV c) <= 4)%nat.
Proof. apply vOfW. pose proof (cp_lt_W c). pose proof (cp_pos c). lia. Qed.
Lemma cR_can : can c (cR c).
Proof. unfold can, cR. apply Z.mod_pos_bound, cp_pos. Qed.
Lemma cR2_can : can c (cR2 c).
Proof. unfold can, cR2. apply Z.mod_pos_bound, cp_pos. Qed.
Lemma fv_cR : fv c (cR c) = f1.
Proof. unfold cR. rewrite fv_mod. rewrite <- (Z.mul_1_l W), fv_W. reflexivity. Qed.
Lemma fv_cR2 : fv c (cR2 c) = mkp W.
Proof.
  unfold cR2. rewrite fv_mod, fv_def, mk_mul. replace (mkp (cR c)) with (mkp W); [field; apply W_nz|].
  apply mk_eq. unfold cR. rewrite Zmod_mod. reflexivity.
Qed.
Lemma RV_ok : vwf (RV c) /\ lv (RV c) = cR c /\ (length (RV c) <= 4)%nat.
Proof. apply vOfW. apply (can_W c), cR_can. Qed.
Lemma fp_1_ok : can c (fp_1 c) /\ fv c (fp_1 c) = f1 /\ fp_1 c = cR c.
Proof.
  destruct RV_ok as (H1 & H2 & _). unfold fp_1. rewrite setDirect4_spec, H2 by exact H1.
  rewrite Z.mod_small by (apply (can_W c), cR_can).
  split; [apply cR_can|]. split; [apply fv_cR|reflexivity].
Qed.
Lemma fv_mulR2 x : can c x -> can c (fp_mul c x (cR2 c)) /\ fv c (fp_mul c x (cR2 c)) = mkp x.
Proof.
  intros Hx. destruct (fp_mul_ok c x (cR2 c) Hx cR2_can) as [H1 H2]. split; [exact H1|].
  rewrite H2, fv_cR2, fv_def. field. apply W_nz.
Qed.
Lemma fv_toMont x : can c x -> can c (fp_toMont c x) /\ fv c (fp_toMont c x) = mkp x.
Proof. exact (fv_mulR2 x). Qed.
Lemma can_1 : can c 1.
Proof. unfold can. pose proof (cp_bounds c). lia. Qed.
Lemma fromMont_ok x : can c x -> can c (fp_fromMont c x) /\ mkp (fp_fromMont c x) = fv c x.
Proof.
  intros Hx. unfold fp_fromMont. destruct (fp_mul_ok c x 1 Hx can_1) as [H1 H2]. split; [exact H1|].
  rewrite !fv_def, mk_1 in H2. rewrite fv_def.
  transitivity (fmul (fdiv (mkp (fp_mul c x 1)) (mkp W)) (mkp W)); [field; apply W_nz|].
  rewrite H2. field. apply W_nz.
Qed.
Lemma fromMont_zv x : can c x -> fp_fromMont c x = zv (fv c x).
Proof.
  intros Hx. destruct (fromMont_ok x Hx) as [H1 H2]. rewrite <- H2. cbn [zv mk]. symmetry. apply Z.mod_small. exact H1.
Qed.

Lemma fp_setInt_ok x : - 2 ^ 31 < x < 2 ^ 31 -> exists z, fp_setInt c x = Ok z /\ can c z /\ fv c z = mkp x.
Proof.
  intros Hx. unfold fp_setInt. pose proof (cp_bounds c) as HP.
  assert (H31 : forall y, 0 < y < 2 ^ 31 -> can c y).
  { intros y Hy. unfold can. assert (2 ^ 31 < 2 ^ 253) by reflexivity. lia. }
  destruct (Z.eqb_spec x 0) as [->|N0].
  { exists 0. split; [reflexivity|]. split; [unfold can; lia|rewrite fv_0, mk_0; reflexivity]. }
  destruct (Z.eqb_spec x 1) as [->|N1].
  { destruct fp_1_ok as (A1 & A2 & _). unfold fp_1 in A1, A2. eexists. split; [reflexivity|]. split; [exact A1|]. rewrite A2, mk_1. reflexivity. }
  destruct (Z.ltb_spec 0 x) as [L|L].
  { destruct (fv_mulR2 x (H31 x ltac:(lia))) as [A1 A2].
    eexists. split; [reflexivity|]. split; [exact A1|exact A2]. }
  destruct (Z.eqb_spec x (- 2 ^ 31)) as [E|E]; [lia|].
  destruct (fv_mulR2 (- x) (H31 (- x) ltac:(lia))) as [A1 A2].
  destruct (fp_neg_ok c _ A1) as [C1 C2]. eexists. split; [reflexivity|]. split; [exact C1|].
  rewrite C2, A2, mk_opp. ring.
Qed.

Lemma fp_setV_ok x : vwf x -> (length x <= 5)%nat -> exists z, fp_setV c x = Ok z /\ can c z /\ fv c z = mkp (lv x).
Proof.
  intros Hx HL. unfold fp_setV. destruct RV_ok as (R1 & R2 & R3). destruct pV_ok as (P1 & P2 & P3).
  destruct (vmul_ok x (RV c) Hx R1 ltac:(unfold cap; lia)) as (y & -> & Y1 & Y2). cbn [bind].
  pose proof (cp_bounds c).
  destruct (zmod_ok (pV c) P1 ltac:(lia) y Y1 ltac:(lia)) as (z & -> & [Z0 Z1] & Z2). cbn [bind].
  pose proof (vwf_nonneg z Z0). pose proof (cp_lt_W c).
  assert (E : setDirect4 z = lv z) by (rewrite setDirect4_spec by exact Z0; apply Z.mod_small; lia).
  exists (setDirect4 z). split; [reflexivity|]. rewrite E. split; [unfold can; lia|].
  rewrite Z2, P2, Y2, R2, fv_mod, fv_mulZ, fv_cR. ring.
Qed.
Lemma RV_len4 : length (RV c) = 4%nat.
Proof.
  destruct RV_ok as (R1 & R2 & R3). destruct (le_lt_dec 4 (length (RV c))) as [L|L]; [lia|exfalso].
  pose proof (vwf_ub _ R1) as H. pose proof (Bpow_mono (length (RV c)) 3 ltac:(lia)) as H2. change (Z.of_nat 3) with 3 in H2.
  rewrite R2 in H. assert (B ^ 3 <= cR c); [|lia].
  clear. unfold cR. rewrite B_val, W_val. destruct c; vm_compute; discriminate.
Qed.
Lemma fp_setV_exit x : (6 <= length x)%nat -> fp_setV c x = Exit.
Proof. intros H. unfold fp_setV. rewrite vmul_exit; [reflexivity|]. rewrite RV_len4. unfold cap. lia. Qed.

Lemma fp_get_ok x : can c x -> exists v, fp_get c x = Ok v /\ vwf v /\ lv v = zv (fv c x) /\ (length v <= 4)%nat.
Proof.
  intros Hx. destruct (fromMont_ok x Hx) as [H1 _].
  destruct (vfp_ok (fp_fromMont c x) (can_W c _ H1)) as (v & E & V1 & V2 & V3). exists v.
  split; [exact E|]. split; [exact V1|]. split; [|exact V3]. rewrite V2. apply fromMont_zv, Hx.
Qed.
Lemma fp_getset x : vwf x -> lv x < p -> exists z, fp_setV c x = Ok z /\ can c z /\ fp_get c z = Ok x.
Proof.
  intros Hx HL. destruct (fp_setV_ok x Hx) as (z & E & Z1 & Z2).
  { destruct (le_lt_dec (length x) 5) as [L|L]; [exact L|exfalso].
    destruct pV_ok as (P1 & P2 & P3). pose proof (vwf_len_lt _ _ P1 Hx ltac:(lia)). lia. }
  exists z. split; [exact E|]. split; [exact Z1|].
  destruct (fp_get_ok z Z1) as (v & -> & V1 & V2 & _). f_equal. apply vwf_inj; auto.
  rewrite V2, Z2. cbn [zv mk]. apply Z.mod_small. pose proof (vwf_nonneg x Hx). lia.
Qed.
Lemma fp_setget x : can c x -> exists v, fp_get c x = Ok v /\ fp_setV c v = Ok x.
Proof.
  intros Hx. destruct (fp_get_ok x Hx) as (v & E & V1 & V2 & V3). exists v. split; [exact E|].
  destruct (fp_setV_ok v V1 ltac:(lia)) as (z & E2 & Z1 & Z2). rewrite E2. f_equal.
  apply (fv_inj c); [exact Z1|exact Hx|]. rewrite Z2, V2, mk_zv. reflexivity.
Qed.
Lemma fp_getLow_ok x : can c x -> fp_getLow c x = zv (fv c x) mod 2 ^ 64 /\ fp_isOdd c x = Z.odd (zv (fv c x)).
Proof.
  intros Hx. unfold fp_isOdd, fp_getLow. rewrite (fromMont_zv x Hx). split; [rewrite B_val; reflexivity|].
  set (v := zv (fv c x)). rewrite B_val. change 18446744073709551616 with (2 * 9223372036854775808).
  rewrite Z.rem_mul_r by lia. rewrite <- !Z.negb_even. f_equal. rewrite Z.even_add_mul_2, Zmod_even.
  destruct (Z.even v); reflexivity.
Qed.

(** text *)
Lemma fp_toString_ok x : can c x -> exists s, fp_toString c 10 x = Ok s /\ dec_numeral s (zv (fv c x)) /\ fp_setStr c s = Ok x.
Proof.
  intros Hx. unfold fp_toString, fp_setStr. destruct (fp_setget x Hx) as (v & Ev & Es).
  destruct (fp_get_ok x Hx) as (v' & Ev' & V1 & V2 & V3). rewrite Ev in Ev'. injection Ev' as <-. rewrite Ev. cbn [bind].
  destruct (vtoString10 v V1) as (s & E1 & E2). exists s. split; [exact E1|]. split; [rewrite <- V2; exact E2|].
  assert (HB : lv v / 10 ^ 9 < 2 ^ 512).
  { apply Z.div_lt_upper_bound; [lia|]. rewrite V2. pose proof (zv_range p (fv c x) (cp_pos c)). pose proof (cp_bounds c).
    assert (2 ^ 254 < 10 ^ 9 * 2 ^ 512) by reflexivity. lia. }
  destruct (roundtrip10 v 0 ltac:(auto) V1 HB) as (s' & F1 & F2). rewrite E1 in F1. injection F1 as <-. rewrite F2. exact Es.
Qed.
Lemma fp_toString16_ok x : can c x -> exists s, fp_toString c 16 x = Ok s /\ hex_numeral s (zv (fv c x)) /\ fp_setStr c s = Ok x.
Proof.
  intros Hx. unfold fp_toString, fp_setStr. destruct (fp_setget x Hx) as (v & Ev & Es).
  destruct (fp_get_ok x Hx) as (v' & Ev' & V1 & V2 & V3). rewrite Ev in Ev'. injection Ev' as <-. rewrite Ev. cbn [bind].
  destruct (vtoString16 v V1) as (s & E1 & E2). exists s. split; [exact E1|]. split; [rewrite <- V2; exact E2|].
  destruct (roundtrip16 v 0 ltac:(auto) V1) as (s' & F1 & F2). rewrite E1 in F1. injection F1 as <-. rewrite F2. exact Es.
Qed.

(** Reading from a stream: the digits up to the first character that is none. *)
Definition not_digit_head (r : list Z) : Prop := match r with [] => True | ch :: _ => digit_of ch < 0 /\ ch <> 120 end.
Lemma getDigits_run s : forall ws pos f r, forallb (is_digit 10) s = true -> not_digit_head r -> (ws = false \/ pos = O /\ s <> []) ->
  getDigits_loop false ws pos f (s ++ r) = (s, r).
Proof.
  induction s as [|d s IH]; intros ws pos f r Hd Hr Hw.
  - destruct Hw as [->|[_ Hw]]; [|congruence]. cbn [app]. destruct r as [|ch r]; [reflexivity|]. cbn [getDigits_loop andb orb].
    cbn [not_digit_head] in Hr. destruct Hr as [H1 H2].
    destruct (Z.leb_spec 0 (digit_of ch)); [lia|]. destruct (Z.eqb_spec ch 120); [congruence|]. rewrite andb_false_r. reflexivity.
  - cbn [forallb] in Hd. apply andb_prop in Hd. destruct Hd as [D1 D2]. cbn [app getDigits_loop].
    unfold is_digit in D1. apply andb_prop in D1. destruct D1 as [D1 D3].
    assert (E : ((9 <=? d) && (d <=? 13) || (d =? 32)) = false).
    { apply Z.leb_le in D1. apply Z.ltb_lt in D3. pose proof (digit_of_cases d). lia. }
    rewrite E, andb_false_r, D1. cbn [orb]. rewrite (IH false (S pos) _ r D2 Hr); auto.
Qed.
Lemma fp_read_ok ws x r : can c x -> not_digit_head r ->
  exists s, fp_write c x = Ok s /\ fp_read c ws (s ++ r) = Ok (x, r).
Proof.
  intros Hx Hr. destruct (fp_toString_ok x Hx) as (s & E1 & D & E2). exists s. split; [exact E1|].
  unfold fp_read. destruct D as [[D0 D1] _]. unfold getDigits. rewrite getDigits_run; auto. rewrite E2. reflexivity.
Qed.

(** power and square root *)
Lemma fp_pow_ok x y : can c x -> vwf y -> can c (fp_pow c x y) /\ fv c (fp_pow c x y) = npow fmul f1 (fv c x) (Z.to_nat (lv y)).
Proof.
  intros Hx Hy. destruct fp_1_ok as (H1 & H2 & _).
  destruct (power_v_hom (fp_mul c) (fp_1 c) fmul (can c) (fv c) (fp_mul_ok c) x y H1 Hx) as [A1 A2].
  split; [exact A1|]. unfold fp_pow. rewrite A2, H2. apply power_v_spec; auto.
  - intros. ring.
  - intros. ring.
  - intros. ring.
Qed.
Lemma npow_npow (a : Fp p) m n : npow fmul f1 (npow fmul f1 a m) n = npow fmul f1 a (m * n).
Proof.
  induction n as [|n IH]; [rewrite Nat.mul_0_r; reflexivity|].
  cbn [npow]. rewrite IH, Nat.mul_succ_r, Nat.add_comm. symmetry. apply npow_add; intros; ring.
Qed.
Lemma p14_spec : 0 <= (p + 1) / 4 < W /\ (Z.to_nat ((p + 1) / 4) * 4 = S (Z.to_nat p))%nat.
Proof.
  pose proof (p_quarter c). pose proof (cp_pos c). pose proof (cp_lt_W c).
  split; [lia|]. apply Nat2Z.inj. rewrite Nat2Z.inj_mul, Nat2Z.inj_succ, !Z2Nat.id by lia. lia.
Qed.
Lemma p14_nat : npow fmul (@f1 (cp c)) = npow fmul f1 -> forall b : Fp p, npow fmul f1 (fmul b b) (Z.to_nat ((p + 1) / 4) + Z.to_nat ((p + 1) / 4)) = fmul b b.
Proof.
  intros _ b. destruct p14_spec as [_ H2].
  replace (fmul b b) with (npow fmul f1 b 2) at 1 by (cbn [npow]; ring).
  rewrite npow_npow. replace (2 * (Z.to_nat ((p + 1) / 4) + Z.to_nat ((p + 1) / 4)))%nat with (S (Z.to_nat p)) by lia.
  cbn [npow]. rewrite (fermat p (cp_prime c)). reflexivity.
Qed.
Lemma fp_sqrt_pow x : can c x -> let t := fp_pow c x (p14V c) in
  can c t /\ fv c t = npow fmul f1 (fv c x) (Z.to_nat ((p + 1) / 4)).
Proof.
  intros Hx. cbv zeta. destruct p14_spec as [H1 _]. destruct (vOfW _ H1) as (V1 & V2 & _).
  destruct (fp_pow_ok x (p14V c) Hx V1) as [A1 A2]. split; [exact A1|]. rewrite A2. unfold p14V. rewrite V2. reflexivity.
Qed.
Lemma fp_sqrt_some x y : can c x -> fp_sqrt c x = Some y -> can c y /\ fmul (fv c y) (fv c y) = fv c x.
Proof.
  intros Hx. unfold fp_sqrt. destruct (fp_sqrt_pow x Hx) as [T1 T2]. unfold fp_eqb.
  destruct (fp_mul_ok c _ _ T1 T1) as [M1 M2].
  destruct (Z.eqb_spec (fp_mul c (fp_pow c x (p14V c)) (fp_pow c x (p14V c))) x) as [E|E]; [|discriminate].
  intros H. injection H as <-. split; [exact T1|]. rewrite <- M2. f_equal. exact E.
Qed.
Lemma fp_sqrt_square x b : can c x -> fv c x = fmul b b -> exists y, fp_sqrt c x = Some y.
Proof.
  intros Hx Hb. unfold fp_sqrt. destruct (fp_sqrt_pow x Hx) as [T1 T2]. unfold fp_eqb.
  destruct (fp_mul_ok c _ _ T1 T1) as [M1 M2].
  destruct (Z.eqb_spec (fp_mul c (fp_pow c x (p14V c)) (fp_pow c x (p14V c))) x) as [E|E]; [eexists; reflexivity|].
  exfalso. apply E. apply (fv_inj c); [exact M1|exact Hx|]. rewrite M2, T2, Hb.
  rewrite <- (npow_add fmul f1); try (intros; ring). apply p14_nat. reflexivity.
Qed.
Lemma fp_sqrt_none x : can c x -> (fp_sqrt c x = None <-> forall b, fmul b b <> fv c x).
Proof.
  intros Hx. split.
  - intros H b Hb. destruct (fp_sqrt_square x b Hx (eq_sym Hb)) as [y E]. congruence.
  - intros H. destruct (fp_sqrt c x) as [y|] eqn:E; [|reflexivity].
    destruct (fp_sqrt_some x y Hx E) as [_ H2]. destruct (H _ H2).
Qed.
End Api.
