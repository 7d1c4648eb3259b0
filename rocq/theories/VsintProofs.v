From Verif Require Import Base Prim PrimProofs Loop Vuint VuintProofs VDiv VDivProofs StrSpec VStr VStrProofs Vsint.

Lemma sv_abs x : swf x -> Z.abs (sv x) = lv (sm x).
Proof. intros H. pose proof (vwf_nonneg _ H). unfold sv. destruct (sn x); lia. Qed.

Lemma s_compare_spec x y : swf x -> swf y -> s_compare x y = (sv x ?= sv y).
Proof.
  intros Hx Hy. unfold s_compare, sv. pose proof (vwf_nonneg _ Hx). pose proof (vwf_nonneg _ Hy).
  rewrite (visZero_spec _ Hx), (visZero_spec _ Hy), (vcompare_spec _ _ Hx Hy).
  destruct (sn x), (sn y); cbn [xorb].
  - destruct (Z.compare_spec (lv (sm x)) (lv (sm y))); cbn [CompOpp]; symmetry;
      rewrite ?Z.compare_eq_iff, ?Z.compare_lt_iff, ?Z.compare_gt_iff; lia.
  - destruct (Z.eqb_spec (lv (sm x)) 0), (Z.eqb_spec (lv (sm y)) 0); cbn [andb]; symmetry;
      rewrite ?Z.compare_eq_iff, ?Z.compare_lt_iff; lia.
  - destruct (Z.eqb_spec (lv (sm x)) 0), (Z.eqb_spec (lv (sm y)) 0); cbn [andb]; symmetry;
      rewrite ?Z.compare_eq_iff, ?Z.compare_gt_iff; lia.
  - reflexivity.
Qed.

Ltac cmp_cases x y Hx Hy :=
  rewrite (vcompare_spec _ _ Hx Hy); destruct (Z.compare_spec (lv (sm x)) (lv (sm y))).

Lemma s_add_ok x y : swf x -> swf y -> Z.abs (sv x + sv y) < B ^ 9 ->
  exists z, s_add x y = Ok z /\ swf z /\ sv z = sv x + sv y.
Proof.
  intros Hx Hy HB. unfold s_add. pose proof (vwf_nonneg _ Hx) as N1. pose proof (vwf_nonneg _ Hy) as N2.
  unfold swf, sv in *. destruct (negb (xorb (sn x) (sn y))) eqn:S.
  - destruct (vadd_ok (sm x) (sm y) Hx Hy) as (z & -> & Z1 & Z2).
    { destruct (sn x), (sn y); try discriminate S; lia. }
    exists (mkS z (sn x)). cbn [bind sm sn]. split; [reflexivity|]. split; [exact Z1|].
    rewrite Z2. destruct (sn x), (sn y); try discriminate S; lia.
  - cmp_cases x y Hx Hy.
    + destruct (vsub_ok (sm x) (sm y) Hx Hy) as (z & -> & Z1 & Z2); [lia|].
      exists (mkS z (sn x)). cbn [bind sm sn]. split; [reflexivity|]. split; [exact Z1|].
      rewrite Z2. destruct (sn x), (sn y); try discriminate S; lia.
    + destruct (vsub_ok (sm y) (sm x) Hy Hx) as (z & -> & Z1 & Z2); [lia|].
      exists (mkS z (sn y)). cbn [bind sm sn]. split; [reflexivity|]. split; [exact Z1|].
      rewrite Z2. destruct (sn x), (sn y); try discriminate S; lia.
    + destruct (vsub_ok (sm x) (sm y) Hx Hy) as (z & -> & Z1 & Z2); [lia|].
      exists (mkS z (sn x)). cbn [bind sm sn]. split; [reflexivity|]. split; [exact Z1|].
      rewrite Z2. destruct (sn x), (sn y); try discriminate S; lia.
Qed.

Lemma s_add_exit x y : swf x -> swf y -> B ^ 9 <= Z.abs (sv x + sv y) -> s_add x y = Exit.
Proof.
  intros Hx Hy HB. unfold s_add. pose proof (vwf_range _ Hx) as N1. pose proof (vwf_range _ Hy) as N2.
  unfold swf, sv in *. destruct (negb (xorb (sn x) (sn y))) eqn:S.
  - rewrite vadd_exit; [reflexivity|auto|auto|]. destruct (sn x), (sn y); try discriminate S; lia.
  - exfalso. destruct (sn x), (sn y); try discriminate S; lia.
Qed.

Lemma s_neg_ok x : swf x -> swf (s_neg x) /\ sv (s_neg x) = - sv x.
Proof. intros Hx. split; [exact Hx|]. unfold sv, s_neg. cbn [sm sn]. destruct (sn x); cbn [negb]; lia. Qed.

Lemma s_sub_add x y : swf x -> swf y -> s_sub x y = s_add x (s_neg y).
Proof.
  intros _ _. unfold s_sub, s_add, s_neg. cbn [sm sn]. destruct (sn x), (sn y); reflexivity.
Qed.

Lemma s_sub_ok x y : swf x -> swf y -> Z.abs (sv x - sv y) < B ^ 9 ->
  exists z, s_sub x y = Ok z /\ swf z /\ sv z = sv x - sv y.
Proof.
  intros Hx Hy HB. rewrite s_sub_add by auto. destruct (s_neg_ok y Hy) as [N1 N2].
  destruct (s_add_ok x (s_neg y) Hx N1) as (z & E & Z1 & Z2); [rewrite N2; exact HB|].
  exists z. rewrite N2 in Z2. split; [exact E|]. split; [exact Z1|]. lia.
Qed.

Lemma s_sub_exit x y : swf x -> swf y -> B ^ 9 <= Z.abs (sv x - sv y) -> s_sub x y = Exit.
Proof.
  intros Hx Hy HB. rewrite s_sub_add by auto. destruct (s_neg_ok y Hy) as [N1 N2].
  apply s_add_exit; auto. rewrite N2. exact HB.
Qed.

Lemma s_mul_ok x y : swf x -> swf y -> (length (sm x) + length (sm y) <= 9)%nat ->
  exists z, s_mul x y = Ok z /\ swf z /\ sv z = sv x * sv y.
Proof.
  intros Hx Hy HL. unfold s_mul. destruct (vmul_ok (sm x) (sm y) Hx Hy HL) as (z & -> & Z1 & Z2).
  exists (mkS z (xorb (sn x) (sn y))). cbn [bind]. split; [reflexivity|]. split; [exact Z1|].
  unfold sv. cbn [sm sn]. rewrite Z2. destruct (sn x), (sn y); cbn [xorb]; lia.
Qed.

Lemma s_mul_exit x y : (9 < length (sm x) + length (sm y))%nat -> s_mul x y = Exit.
Proof. intros H. unfold s_mul. rewrite vmul_exit by exact H. reflexivity. Qed.

Lemma floor_uniq x y q r : x = q * y + r -> (0 <= r < y \/ y < r <= 0) -> q = x / y /\ r = x mod y.
Proof.
  intros E H. split; [eapply Z.div_unique with (r := r)|eapply Z.mod_unique with (q := q)]; lia.
Qed.

Lemma s_div_core x y q r : swf x -> swf y -> sv y <> 0 ->
  vdiv (sm x) (sm y) = Ok (Some (q, r)) -> vwf q -> vwf r ->
  lv (sm x) = lv q * lv (sm y) + lv r -> 0 <= lv r < lv (sm y) ->
  exists q r, s_div x y = Ok (Some (q, r)) /\ swf q /\ swf r /\ sv q = sv x / sv y /\ sv r = sv x mod sv y.
Proof.
  intros Hx Hy Y E Q R E1 E2. unfold s_div. rewrite E. cbn [bind].
  pose proof (vwf_nonneg q Q) as Q0. pose proof (vwf_range _ Hx) as XR.
  assert (SY : sv y = if sn y then - lv (sm y) else lv (sm y)) by reflexivity.
  assert (SX : sv x = if sn x then - lv (sm x) else lv (sm x)) by reflexivity.
  rewrite (visZero_spec r R). destruct (Z.eqb_spec (lv r) 0) as [Z0|Z0].
  - exists (mkS q (xorb (sn x) (sn y))), (mkS r false). split; [reflexivity|].
    split; [exact Q|]. split; [exact R|].
    assert (V1 : sv (mkS q (xorb (sn x) (sn y))) = if xorb (sn x) (sn y) then - lv q else lv q) by reflexivity.
    assert (V2 : sv (mkS r false) = lv r) by reflexivity. rewrite V1, V2.
    apply floor_uniq; destruct (sn x), (sn y); cbn [xorb] in *; nia.
  - destruct (xorb (sn x) (sn y)) eqn:S.
    + assert (HB : lv q + 1 < B ^ 9) by nia.
      destruct (vadd32_ok q 1 Q ltac:(lia) HB) as (q' & -> & Q1 & Q2). cbn [bind].
      destruct (vsub_ok (sm y) r Hy R ltac:(lia)) as (r' & -> & R1 & R2). cbn [bind].
      exists (mkS q' true), (mkS r' (sn y)). split; [reflexivity|]. split; [exact Q1|]. split; [exact R1|].
      assert (V1 : sv (mkS q' true) = - lv q') by reflexivity.
      assert (V2 : sv (mkS r' (sn y)) = if sn y then - lv r' else lv r') by reflexivity. rewrite V1, V2, Q2, R2.
      apply floor_uniq; destruct (sn x), (sn y); try discriminate S; nia.
    + exists (mkS q false), (mkS r (sn y)). split; [reflexivity|]. split; [exact Q|]. split; [exact R|].
      assert (V1 : sv (mkS q false) = lv q) by reflexivity.
      assert (V2 : sv (mkS r (sn y)) = if sn y then - lv r else lv r) by reflexivity. rewrite V1, V2.
      apply floor_uniq; destruct (sn x), (sn y); try discriminate S; nia.
Qed.

Lemma sv_nz y : swf y -> sv y <> 0 -> lv (sm y) <> 0.
Proof. unfold sv. destruct (sn y); lia. Qed.

Lemma s_div_ok x y : swf x -> swf y -> sv y <> 0 -> (length (sm y) < 9)%nat ->
  exists q r, s_div x y = Ok (Some (q, r)) /\ swf q /\ swf r /\ sv q = sv x / sv y /\ sv r = sv x mod sv y.
Proof.
  intros Hx Hy Y L. destruct (vdiv_euclid (sm x) (sm y) Hx Hy (sv_nz y Hy Y) L) as (q & r & E & Q & R & E1 & E2).
  apply (s_div_core x y q r); auto.
Qed.

Lemma s_div_full_le x y : swf x -> swf y -> length (sm y) = 9%nat -> Z.abs (sv x) <= Z.abs (sv y) ->
  exists q r, s_div x y = Ok (Some (q, r)) /\ swf q /\ swf r /\ sv q = sv x / sv y /\ sv r = sv x mod sv y.
Proof.
  intros Hx Hy L C. rewrite !sv_abs in C by auto.
  destruct (vdiv_nine_euclid (sm x) (sm y) Hx Hy L C) as (q & r & E & Q & R & E1 & E2).
  apply (s_div_core x y q r); auto. unfold sv. destruct (sn y); lia.
Qed.

Lemma s_div_zero x y : swf y -> sv y = 0 -> s_div x y = Ok None.
Proof.
  intros Hy E. unfold s_div. rewrite vdiv_zero; [reflexivity|exact Hy|].
  unfold sv in E. destruct (sn y); lia.
Qed.

(** text *)
Lemma s_toString_ok x : swf x ->
  exists s, dec_numeral s (lv (sm x)) /\ s_toString 10 x = Ok (if sn x then 45 :: s else s).
Proof.
  intros Hx. unfold s_toString. destruct (vtoString10 (sm x) Hx) as (s & -> & D). exists s. auto.
Qed.

Lemma s_negzero : exists x y z, s_of_int (-5) = Ok x /\ s_of_int 0 = Ok y /\ s_mul x y = Ok z /\
  sv z = 0 /\ s_toString 10 z = Ok [45; 48].
Proof. eexists _, _, _. split; [reflexivity|]. split; [reflexivity|]. split; [reflexivity|]. split; reflexivity. Qed.

Lemma c_str_id s : forallb (fun c => negb (c =? 0)) s = true -> c_str s = s.
Proof.
  induction s as [|c s IH]; intros H; [reflexivity|]. cbn [forallb] in H. apply andb_prop in H. destruct H as [H1 H2].
  cbn [c_str]. apply negb_true_iff in H1. rewrite H1, (IH H2). reflexivity.
Qed.

Lemma digits_nonzero b s : b <= 16 -> forallb (is_digit b) s = true -> forallb (fun c => negb (c =? 0)) s = true.
Proof.
  intros Hb. induction s as [|c s IH]; intros H; [reflexivity|]. cbn [forallb] in *.
  apply andb_prop in H. destruct H as [H1 H2]. rewrite (IH H2). pose proof (is_digit_range b c Hb H1). lia.
Qed.

Lemma s_roundtrip x : swf x -> lv (sm x) / 10 ^ 9 < 2 ^ 512 ->
  exists s, s_toString 10 x = Ok s /\ s_setStr s 10 = Ok x.
Proof.
  intros Hx HV. destruct (s_toString_ok x Hx) as (s & D & E). rewrite E.
  destruct (vsetStr_dec_ok s (lv (sm x)) 10 ltac:(auto) D HV) as (z & E2 & Z1 & Z2).
  assert (EZ : z = sm x) by (apply vwf_inj; auto). subst z.
  destruct (sn x) eqn:S.
  - exists (45 :: s). split; [reflexivity|]. cbn [s_setStr]. change (45 =? 45) with true. cbv iota.
    rewrite (c_str_id s) by (apply (digits_nonzero 10); [lia|apply (proj1 D)]). rewrite E2. cbn [bind].
    destruct x as [m n]. cbn [sm sn] in *. subst n. reflexivity.
  - exists s. split; [reflexivity|]. destruct D as ([D1 D2] & D3). destruct s as [|c s]; [contradiction|].
    cbn [s_setStr]. assert (C : (c =? 45) = false).
    { cbn [forallb] in D2. apply andb_prop in D2. destruct D2 as [D2 _].
      pose proof (is_digit_range 10 c ltac:(lia) D2). lia. }
    rewrite C, E2. cbn [bind]. destruct x as [m n]. cbn [sm sn] in *. subst n. reflexivity.
Qed.

(** assignment *)
Lemma s_set_unit_ok old x : sn old = false -> isU x -> swf (s_set_unit old x) /\ sv (s_set_unit old x) = x.
Proof.
  intros S Hx. unfold s_set_unit, swf, sv. cbn [sm sn]. rewrite S. apply vset_vwf; exact Hx.
Qed.

Lemma s_set_unit_stale old x : sn old = true -> isU x -> swf (s_set_unit old x) /\ sv (s_set_unit old x) = - x.
Proof.
  intros S Hx. unfold s_set_unit, swf, sv. cbn [sm sn]. rewrite S. destruct (vset_vwf x Hx) as [H1 H2].
  split; [exact H1|]. rewrite H2. reflexivity.
Qed.

Lemma s_set_units_spec old l : limbs l -> (length l <= 9)%nat ->
  exists z, s_set_units old l = Ok z /\ swf z /\ sv z = if sn old then - lv l else lv l.
Proof.
  intros Hl HL. unfold s_set_units. destruct (vset64_ok l Hl HL) as (z & -> & Z1 & Z2). cbn [bind].
  exists (mkS z (sn old)). split; [reflexivity|]. split; [exact Z1|]. unfold sv. cbn [sm sn]. rewrite Z2. reflexivity.
Qed.

Lemma s_set_i64_ok x : - 2 ^ 63 < x < 2 ^ 63 -> exists z, s_set_i64 x = Ok z /\ swf z /\ sv z = x.
Proof.
  intros Hx. unfold s_set_i64. destruct (Z.eqb_spec x (- 2 ^ 63)); [lia|].
  assert (U : isU (if x <? 0 then - x else x)) by (unfold isU; rewrite B_val; destruct (Z.ltb_spec x 0); lia).
  destruct (vset_vwf _ U) as [H1 H2]. eexists. split; [reflexivity|]. split; [exact H1|].
  unfold sv. cbn [sm sn]. rewrite H2. destruct (Z.ltb_spec x 0); lia.
Qed.

Lemma s_of_int_ok x : - 2 ^ 31 < x < 2 ^ 31 -> exists z, s_of_int x = Ok z /\ swf z /\ sv z = x.
Proof.
  intros Hx. unfold s_of_int. destruct (Z.eqb_spec x (- 2 ^ 31)); [lia|].
  assert (U : isU (Z.abs x)) by (unfold isU; rewrite B_val; lia).
  destruct (vset_vwf _ U) as [H1 H2]. eexists. split; [reflexivity|]. split; [exact H1|].
  unfold sv. cbn [sm sn]. rewrite H2. destruct (Z.ltb_spec x 0); lia.
Qed.

Lemma s_set_stale_witness : exists x, s_of_int (-5) = Ok x /\ sv (s_set_unit x 7) = -7.
Proof. eexists. split; [reflexivity|]. reflexivity. Qed.

(** shifts *)
Lemma s_shl_ok x n : swf x -> 0 <= n -> sv x <> 0 -> Z.abs (sv x) * 2 ^ n < B ^ 9 ->
  exists z, s_shl x n = Ok z /\ swf z /\ sv z = sv x * 2 ^ n.
Proof.
  intros Hx Hn H0 HB. rewrite (sv_abs x Hx) in HB. pose proof (vwf_nonneg _ Hx). pose proof (sv_nz x Hx H0).
  unfold s_shl. destruct (vshl_ok (sm x) n Hx Hn ltac:(lia) HB) as (z & -> & Z1 & Z2). cbn [bind].
  exists (mkS z (sn x)). split; [reflexivity|]. split; [exact Z1|]. unfold sv. cbn [sm sn]. rewrite Z2. destruct (sn x); lia.
Qed.

Lemma s_shr_ok x n : swf x -> 0 <= n -> 0 <= sv x ->
  exists z, s_shr x n = Ok z /\ swf z /\ sv z = sv x / 2 ^ n.
Proof.
  intros Hx Hn HP. unfold s_shr, s_isZero. rewrite (visZero_spec _ Hx). pose proof (vwf_nonneg _ Hx).
  destruct (Z.eqb_spec (lv (sm x)) 0) as [E|E].
  - exists s_clear. split; [reflexivity|]. assert (W0 : vwf (vset 0)) by (unfold vset; vwf_lit).
    split; [exact W0|]. unfold sv. rewrite E. destruct (sn x); reflexivity.
  - unfold sv in HP |- *. destruct (sn x); [lia|].
    destruct (vshr_ok (sm x) n Hx Hn) as (z & -> & Z1 & Z2). cbn [bind]. exists (mkS z false). auto.
Qed.

Lemma s_shr_exit x n : swf x -> sv x < 0 -> s_shr x n = Exit.
Proof.
  intros Hx HP. unfold s_shr, s_isZero. rewrite (visZero_spec _ Hx). pose proof (vwf_nonneg _ Hx).
  unfold sv in HP. destruct (sn x); [|lia]. destruct (Z.eqb_spec (lv (sm x)) 0); [lia|reflexivity].
Qed.

Lemma s_set_unit_spec old x : isU x ->
  swf (s_set_unit old x) /\ sv (s_set_unit old x) = if sn old then - x else x.
Proof.
  intros Hx. destruct (sn old) eqn:S; [apply s_set_unit_stale|apply s_set_unit_ok]; auto.
Qed.

Lemma s_text_canonical x : swf x -> sv x <> 0 \/ sn x = false ->
  exists s, dec_numeral s (Z.abs (sv x)) /\ s_toString 10 x = Ok (if sv x <? 0 then 45 :: s else s).
Proof.
  intros Hx H. destruct (s_toString_ok x Hx) as (s & D & E). exists s. rewrite (sv_abs x Hx).
  split; [exact D|]. rewrite E. f_equal. pose proof (vwf_nonneg _ Hx). unfold sv in *.
  destruct (sn x).
  - destruct H as [H|H]; [|discriminate H]. destruct (Z.ltb_spec (- lv (sm x)) 0); [reflexivity|lia].
  - destruct (Z.ltb_spec (lv (sm x)) 0); [lia|reflexivity].
Qed.

Lemma s_roundtrip' x : swf x -> Z.abs (sv x) / 10 ^ 9 < 2 ^ 512 ->
  exists s, s_toString 10 x = Ok s /\ s_setStr s 10 = Ok x.
Proof. intros Hx. rewrite (sv_abs x Hx). apply s_roundtrip, Hx. Qed.

Lemma s_hex_witness : s_setStr [48; 120; 49; 50] 10 = Exit.
Proof. reflexivity. Qed.

Lemma s_example : exists x y, swf x /\ swf y /\ sv x = -12345 /\ sv y = 678 /\
  Z.abs (sv x + sv y) < B ^ 9 /\ (length (sm x) + length (sm y) <= 9)%nat.
Proof.
  exists (mkS [12345] true), (mkS [678] false). unfold swf, sv. cbn [sm sn lv length].
  split; [vwf_lit|]. split; [vwf_lit|]. split; [reflexivity|]. split; [reflexivity|].
  split; [rewrite B_val; reflexivity|lia].
Qed.

Lemma s_div_example : exists x y q r, swf x /\ swf y /\ sv x = -13 /\ sv y = 5 /\
  s_div x y = Ok (Some (q, r)) /\ sv q = -3 /\ sv r = 2.
Proof.
  exists (mkS [13] true), (mkS [5] false). eexists _, _. unfold swf. cbn [sm].
  split; [vwf_lit|]. split; [vwf_lit|]. split; [reflexivity|]. split; [reflexivity|].
  split; [vm_compute; reflexivity|]. split; reflexivity.
Qed.
