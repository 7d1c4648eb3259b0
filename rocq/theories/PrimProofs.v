(** Correctness of the portable limb kernels. *)
From Verif Require Import Base Prim.

Local Ltac bz := pose proof B_pos; unfold isU in *.

Lemma mod_B_case a : 0 <= a < 2 * B -> a mod B = if a <? B then a else a - B.
Proof.
  intros H. pose proof B_pos. destruct (Z.ltb_spec a B) as [h|h].
  - apply Z.mod_small. lia.
  - symmetry. apply Z.mod_unique_pos with (q := 1); lia.
Qed.

Lemma mod_B_neg a : - B <= a < B -> a mod B = if a <? 0 then a + B else a.
Proof.
  intros H. pose proof B_pos. destruct (Z.ltb_spec a 0) as [h|h].
  - symmetry. apply Z.mod_unique_pos with (q := -1); lia.
  - apply Z.mod_small. lia.
Qed.

Lemma in_addN_loop_spec x y c :
  limbs x -> limbs y -> length x = length y -> 0 <= c <= 1 ->
  let '(out, c') := in_addN_loop c x y in
  limbs out /\ length out = length x /\ 0 <= c' <= 1 /\
  lv out + B ^ Z.of_nat (length x) * c' = lv x + lv y + c.
Proof.
  revert y c; induction x as [|xi x IH]; intros [|yi y] c Hx Hy HL Hc; try discriminate HL.
  - cbn [in_addN_loop lv length]. change (Z.of_nat 0) with 0. rewrite Z.pow_0_r.
    repeat split; try apply limbs_nil; lia.
  - cbn [in_addN_loop lv length]. injection HL as HL.
    apply limbs_cons in Hx. apply limbs_cons in Hy. destruct Hx as [Hxi Hx], Hy as [Hyi Hy].
    rewrite Nat2Z.inj_succ, Z.pow_succ_r by lia.
    bz. rewrite mod_B_case by lia.
    set (xc := if xi + c <? B then xi + c else xi + c - B).
    destruct (xc <? c) eqn:E.
    + specialize (IH y c Hx Hy HL Hc). destruct (in_addN_loop c x y) as [out c'].
      destruct IH as (I1 & I2 & I3 & I4). cbn [lv length]. rewrite limbs_cons. unfold isU.
      assert (xi + c = B /\ c = 1) by (unfold xc in E; destruct (xi + c <? B) eqn:E2; lia).
      repeat split; auto; try lia; try nia.
    + assert (Hxc : xc = xi + c /\ 0 <= xc < B) by (unfold xc in *; destruct (xi + c <? B) eqn:E2; lia).
      clearbody xc. rewrite mod_B_case by lia.
      set (xd := if xc + yi <? B then xc + yi else xc + yi - B).
      set (d := if yi >? xd then 1 else 0).
      assert (Hd : 0 <= d <= 1) by (unfold d; destruct (yi >? xd); lia).
      specialize (IH y d Hx Hy HL Hd). destruct (in_addN_loop d x y) as [out c'].
      destruct IH as (I1 & I2 & I3 & I4). cbn [lv length]. rewrite limbs_cons. unfold isU.
      assert (0 <= xd < B /\ xd + B * d = xi + yi + c).
      { unfold d, xd. destruct (xc + yi <? B) eqn:E2.
        - replace (yi >? xc + yi) with false by lia. lia.
        - replace (yi >? xc + yi - B) with true by lia. lia. }
      repeat split; auto; try lia; try nia.
Qed.

Lemma in_addN_spec x y :
  limbs x -> limbs y -> length x = length y ->
  let '(out, c) := in_addN x y in
  limbs out /\ length out = length x /\
  lv out + (if c then B ^ Z.of_nat (length x) else 0) = lv x + lv y.
Proof.
  intros Hx Hy HL. unfold in_addN.
  pose proof (in_addN_loop_spec x y 0 Hx Hy HL ltac:(lia)) as H.
  destruct (in_addN_loop 0 x y) as [out c]. destruct H as (H1 & H2 & H3 & H4).
  repeat split; auto. assert (Hc : c = 0 \/ c = 1) by lia. destruct Hc; subst c; cbn [negb Z.eqb]; lia.
Qed.

Lemma in_add_loop_spec x c :
  limbs x -> 0 <= c <= 1 ->
  let '(out, c') := in_add_loop c x in
  limbs out /\ length out = length x /\ 0 <= c' <= 1 /\
  lv out + B ^ Z.of_nat (length x) * c' = lv x + c.
Proof.
  revert c; induction x as [|xi x IH]; intros c Hx Hc.
  - cbn [in_add_loop lv length]. change (Z.of_nat 0) with 0. rewrite Z.pow_0_r.
    repeat split; try apply limbs_nil; lia.
  - cbn [in_add_loop lv length].
    apply limbs_cons in Hx. destruct Hx as [Hxi Hx].
    rewrite Nat2Z.inj_succ, Z.pow_succ_r by lia.
    bz. rewrite mod_B_case by lia.
    set (xc := if xi + c <? B then xi + c else xi + c - B).
    destruct (xc <? c) eqn:E.
    + specialize (IH c Hx Hc). destruct (in_add_loop c x) as [out c'].
      destruct IH as (I1 & I2 & I3 & I4). cbn [lv length]. rewrite limbs_cons. unfold isU.
      assert (xi + c = B /\ c = 1) by (unfold xc in E; destruct (xi + c <? B) eqn:E2; lia).
      repeat split; auto; try lia; try nia.
    + assert (Hxc : xc = xi + c /\ 0 <= xc < B) by (unfold xc in *; destruct (xi + c <? B) eqn:E2; lia).
      specialize (IH 0 Hx ltac:(lia)). destruct (in_add_loop 0 x) as [out c'].
      destruct IH as (I1 & I2 & I3 & I4). cbn [lv length]. rewrite limbs_cons. unfold isU.
      repeat split; auto; try lia; try nia.
Qed.

Lemma in_add_spec x y :
  limbs x -> x <> [] -> isU y ->
  let '(out, c) := in_add x y in
  limbs out /\ length out = length x /\
  lv out + (if c then B ^ Z.of_nat (length x) else 0) = lv x + y.
Proof.
  intros Hx Hn Hy. destruct x as [|x0 x]; [contradiction|]. unfold in_add.
  apply limbs_cons in Hx. destruct Hx as [Hx0 Hx]. cbn [lv length].
  rewrite Nat2Z.inj_succ, Z.pow_succ_r by lia.
  bz. rewrite mod_B_case by lia.
  set (xd := if x0 + y <? B then x0 + y else x0 + y - B).
  set (d := if y >? xd then 1 else 0).
  assert (Hd : 0 <= d <= 1) by (unfold d; destruct (y >? xd); lia).
  pose proof (in_add_loop_spec x d Hx Hd) as H1.
  destruct (in_add_loop d x) as [out c']. destruct H1 as (I1 & I2 & I3 & I4).
  cbn [lv length]. rewrite limbs_cons. unfold isU.
  assert (0 <= xd < B /\ xd + B * d = x0 + y).
  { unfold d, xd. destruct (x0 + y <? B) eqn:E2.
    - replace (y >? x0 + y) with false by lia. lia.
    - replace (y >? x0 + y - B) with true by lia. lia. }
  repeat split; auto; try lia.
  assert (Hc : c' = 0 \/ c' = 1) by lia. destruct Hc; subst c'; cbn [negb Z.eqb]; nia.
Qed.

Lemma in_subN_loop_spec x y c :
  limbs x -> limbs y -> length x = length y -> 0 <= c <= 1 ->
  let '(out, c') := in_subN_loop c x y in
  limbs out /\ length out = length x /\ 0 <= c' <= 1 /\
  lv out - B ^ Z.of_nat (length x) * c' = lv x - lv y - c.
Proof.
  revert y c; induction x as [|xi x IH]; intros [|yi y] c Hx Hy HL Hc; try discriminate HL.
  - cbn [in_subN_loop lv length]. change (Z.of_nat 0) with 0. rewrite Z.pow_0_r.
    repeat split; try apply limbs_nil; lia.
  - cbn [in_subN_loop lv length]. injection HL as HL.
    apply limbs_cons in Hx. apply limbs_cons in Hy. destruct Hx as [Hxi Hx], Hy as [Hyi Hy].
    rewrite Nat2Z.inj_succ, Z.pow_succ_r by lia.
    bz. rewrite mod_B_case by lia.
    set (yc := if yi + c <? B then yi + c else yi + c - B).
    destruct (yc <? c) eqn:E.
    + specialize (IH y c Hx Hy HL Hc). destruct (in_subN_loop c x y) as [out c'].
      destruct IH as (I1 & I2 & I3 & I4). cbn [lv length]. rewrite limbs_cons. unfold isU.
      assert (yi + c = B /\ c = 1) by (unfold yc in E; destruct (yi + c <? B) eqn:E2; lia).
      repeat split; auto; try lia; try nia.
    + assert (Hyc : yc = yi + c /\ 0 <= yc < B) by (unfold yc in *; destruct (yi + c <? B) eqn:E2; lia).
      clearbody yc. set (d := if xi <? yc then 1 else 0).
      assert (Hd : 0 <= d <= 1) by (unfold d; destruct (xi <? yc); lia).
      specialize (IH y d Hx Hy HL Hd). destruct (in_subN_loop d x y) as [out c'].
      destruct IH as (I1 & I2 & I3 & I4). cbn [lv length]. rewrite limbs_cons. unfold isU.
      rewrite mod_B_neg by lia.
      set (o := if xi - yc <? 0 then xi - yc + B else xi - yc).
      assert (0 <= o < B /\ o - B * d = xi - yi - c).
      { unfold o, d. destruct (xi <? yc) eqn:E2.
        - replace (xi - yc <? 0) with true by lia. lia.
        - replace (xi - yc <? 0) with false by lia. lia. }
      repeat split; auto; try lia; try nia.
Qed.

Lemma in_subN_spec x y :
  limbs x -> limbs y -> length x = length y ->
  let '(out, c) := in_subN x y in
  limbs out /\ length out = length x /\
  lv out - (if c then B ^ Z.of_nat (length x) else 0) = lv x - lv y.
Proof.
  intros Hx Hy HL. unfold in_subN.
  pose proof (in_subN_loop_spec x y 0 Hx Hy HL ltac:(lia)) as H.
  destruct (in_subN_loop 0 x y) as [out c]. destruct H as (H1 & H2 & H3 & H4).
  repeat split; auto. assert (Hc : c = 0 \/ c = 1) by lia. destruct Hc; subst c; cbn [negb Z.eqb]; lia.
Qed.

Lemma in_sub_loop_spec x c :
  limbs x -> 0 <= c <= 1 ->
  let '(out, c') := in_sub_loop c x in
  limbs out /\ length out = length x /\ 0 <= c' <= 1 /\
  lv out - B ^ Z.of_nat (length x) * c' = lv x - c.
Proof.
  revert c; induction x as [|xi x IH]; intros c Hx Hc.
  - cbn [in_sub_loop lv length]. change (Z.of_nat 0) with 0. rewrite Z.pow_0_r.
    repeat split; try apply limbs_nil; lia.
  - cbn [in_sub_loop lv length].
    apply limbs_cons in Hx. destruct Hx as [Hxi Hx].
    rewrite Nat2Z.inj_succ, Z.pow_succ_r by lia. bz.
    destruct (xi <? c) eqn:E.
    + specialize (IH c Hx Hc). destruct (in_sub_loop c x) as [out c'].
      destruct IH as (I1 & I2 & I3 & I4). cbn [lv length]. rewrite limbs_cons. unfold isU.
      assert (xi = 0 /\ c = 1) by lia.
      repeat split; auto; try lia; try nia.
    + specialize (IH 0 Hx ltac:(lia)). destruct (in_sub_loop 0 x) as [out c'].
      destruct IH as (I1 & I2 & I3 & I4). cbn [lv length]. rewrite limbs_cons. unfold isU.
      repeat split; auto; try lia; try nia.
Qed.

Lemma in_sub_spec x y :
  limbs x -> x <> [] -> isU y ->
  let '(out, c) := in_sub x y in
  limbs out /\ length out = length x /\
  lv out - (if c then B ^ Z.of_nat (length x) else 0) = lv x - y.
Proof.
  intros Hx Hn Hy. destruct x as [|x0 x]; [contradiction|]. unfold in_sub.
  apply limbs_cons in Hx. destruct Hx as [Hx0 Hx]. cbn [lv length].
  rewrite Nat2Z.inj_succ, Z.pow_succ_r by lia.
  bz. set (d := if x0 <? y then 1 else 0).
  assert (Hd : 0 <= d <= 1) by (unfold d; destruct (x0 <? y); lia).
  pose proof (in_sub_loop_spec x d Hx Hd) as H1.
  destruct (in_sub_loop d x) as [out c']. destruct H1 as (I1 & I2 & I3 & I4).
  cbn [lv length]. rewrite limbs_cons. unfold isU.
  rewrite mod_B_neg by lia.
  set (o := if x0 - y <? 0 then x0 - y + B else x0 - y).
  assert (0 <= o < B /\ o - B * d = x0 - y).
  { unfold o, d. destruct (x0 <? y) eqn:E2.
    - replace (x0 - y <? 0) with true by lia. lia.
    - replace (x0 - y <? 0) with false by lia. lia. }
  repeat split; auto; try lia.
  assert (Hc : c' = 0 \/ c' = 1) by lia. destruct Hc; subst c'; cbn [negb Z.eqb]; nia.
Qed.

Lemma mulUnit_spec a b : isU a -> isU b ->
  let '(H, L) := mulUnit a b in
  0 <= L < B /\ 0 <= H <= B - 2 /\ H * B + L = a * b.
Proof.
  intros Ha Hb. unfold mulUnit. bz.
  pose proof (Z.div_mod (a * b) B ltac:(lia)).
  pose proof (Z.mod_pos_bound (a * b) B ltac:(lia)).
  assert (0 <= a * b <= (B - 1) * (B - 1)) by nia.
  assert (0 <= a * b / B) by (apply Z.div_pos; lia).
  assert (a * b / B <= B - 2) by (pose proof B_val; apply Z.lt_succ_r, Z.div_lt_upper_bound; nia).
  repeat split; lia.
Qed.

Lemma in_mul_loop_spec x y h :
  limbs x -> isU y -> isU h ->
  limbs (in_mul_loop h x y) /\ length (in_mul_loop h x y) = S (length x) /\
  lv (in_mul_loop h x y) = lv x * y + h.
Proof.
  revert h; induction x as [|xi x IH]; intros h Hx Hy Hh.
  - cbn [in_mul_loop lv length]. split; [|split; [reflexivity|lia]].
    constructor; [exact Hh | constructor].
  - apply limbs_cons in Hx. destruct Hx as [Hxi Hx]. cbn [in_mul_loop].
    pose proof (mulUnit_spec xi y Hxi Hy) as HM. destruct (mulUnit xi y) as [H L].
    destruct HM as (M1 & M2 & M3). cbn [lv length].
    assert (Ho : isU ((h + L) mod B)) by (apply Z.mod_pos_bound, B_pos).
    set (H' := if (h + L) mod B <? h then (H + 1) mod B else H).
    assert (HH : isU H' /\ (h + L) mod B + B * H' = h + L + B * H).
    { unfold H'. bz. rewrite (mod_B_case (h + L)) by lia.
      destruct (h + L <? B) eqn:E.
      - replace (h + L <? h) with false by lia. lia.
      - replace (h + L - B <? h) with true by lia. rewrite Z.mod_small by lia. lia. }
    destruct HH as [HH1 HH2].
    destruct (IH H' Hx Hy HH1) as (I1 & I2 & I3).
    rewrite limbs_cons. repeat split; auto; try (unfold isU in Ho; lia); try (rewrite I3; nia).
Qed.

Lemma in_mul_spec x y :
  limbs x -> isU y ->
  limbs (in_mul x y) /\ length (in_mul x y) = S (length x) /\ lv (in_mul x y) = lv x * y.
Proof.
  intros Hx Hy. unfold in_mul.
  destruct (in_mul_loop_spec x y 0 Hx Hy) as (H1 & H2 & H3).
  { unfold isU. pose proof B_pos. lia. }
  repeat split; auto. lia.
Qed.

Lemma in_div_spec x y :
  limbs x -> 0 < y < B ->
  let '(q, r) := in_div x y in
  limbs q /\ length q = length x /\ lv x = lv q * y + r /\ 0 <= r < y.
Proof.
  intros Hx Hy. induction Hx as [|xi x Hxi Hx IH]; cbn [in_div].
  - cbn. repeat split; try apply limbs_nil; lia.
  - destruct (in_div x y) as [q r]. destruct IH as (I1 & I2 & I3 & I4).
    unfold divUnit. cbn [lv length]. rewrite limbs_cons. bz.
    set (t := r * B + xi). assert (Ht : 0 <= t < y * B) by (unfold t; nia).
    assert (Hq : 0 <= t / y < B).
    { split; [apply Z.div_pos; lia|]. apply Z.div_lt_upper_bound; lia. }
    pose proof (Z.div_mod t y ltac:(lia)). pose proof (Z.mod_pos_bound t y ltac:(lia)).
    rewrite (Z.mod_small (t / y)) by lia.
    unfold isU. repeat split; auto; try lia; try (unfold t in *; nia).
Qed.

Lemma in_mod_spec x y : in_mod x y = snd (in_div x y).
Proof.
  induction x as [|xi x IH]; cbn [in_mod in_div]; [reflexivity|].
  rewrite IH. destruct (in_div x y) as [q r]. unfold divUnit. reflexivity.
Qed.

Lemma cmp_limbs_spec x y :
  limbs x -> limbs y -> length x = length y -> cmp_limbs x y = (lv x ?= lv y).
Proof.
  revert y; induction x as [|xi x IH]; intros [|yi y] Hx Hy HL; try discriminate HL.
  - reflexivity.
  - injection HL as HL. apply limbs_cons in Hx. apply limbs_cons in Hy.
    destruct Hx as [Hxi Hx], Hy as [Hyi Hy]. cbn [cmp_limbs lv]. rewrite (IH y Hx Hy HL).
    bz. destruct (Z.compare_spec (lv x) (lv y)) as [E|E|E]; symmetry.
    + destruct (xi =? yi) eqn:E1; [apply Z.compare_eq_iff; nia|].
      destruct (xi >? yi) eqn:E2; [apply Z.compare_gt_iff; nia | apply Z.compare_lt_iff; nia].
    + apply Z.compare_lt_iff. nia.
    + apply Z.compare_gt_iff. nia.
Qed.
