From Verif Require Import Base Prim PrimProofs Loop Vuint VuintProofs VDivProofs StrSpec VStr.

(** ** Numerals *)
Lemma numval_acc b s : forall a, fold_left (fun a c => a * b + digit_of c) s a = a * b ^ Z.of_nat (length s) + numval b s.
Proof.
  unfold numval. induction s as [|c s IH]; intros a; cbn [fold_left length].
  - change (Z.of_nat 0) with 0. rewrite Z.pow_0_r. lia.
  - rewrite IH, (IH (0 * b + digit_of c)), Nat2Z.inj_succ, Z.pow_succ_r by lia. ring.
Qed.

Lemma numval_app b s t : numval b (s ++ t) = numval b s * b ^ Z.of_nat (length t) + numval b t.
Proof. unfold numval at 1. rewrite fold_left_app. fold (numval b s). apply numval_acc. Qed.

Lemma numval_cons b c s : numval b (c :: s) = digit_of c * b ^ Z.of_nat (length s) + numval b s.
Proof. change (c :: s) with ([c] ++ s). rewrite numval_app. unfold numval at 1. cbn [fold_left]. rewrite Z.mul_0_l, Z.add_0_l. reflexivity. Qed.

Lemma numval_nil b : numval b [] = 0.
Proof. reflexivity. Qed.

Lemma numval_one b c : numval b [c] = digit_of c.
Proof. unfold numval. cbn [fold_left]. lia. Qed.

Lemma numval_bound b s : 0 < b -> forallb (is_digit b) s = true -> 0 <= numval b s < b ^ Z.of_nat (length s).
Proof.
  intros Hb. induction s as [|c s IH]; intros H.
  - rewrite numval_nil. cbn. lia.
  - cbn [forallb] in H. apply andb_prop in H. destruct H as [H1 H2]. specialize (IH H2).
    rewrite numval_cons. cbn [length]. rewrite Nat2Z.inj_succ, Z.pow_succ_r by lia.
    unfold is_digit in H1. assert (0 <= digit_of c <= b - 1) by lia.
    set (P := b ^ Z.of_nat (length s)) in *. clearbody P. nia.
Qed.

(** ** Printing one machine integer *)
Lemma digit_char_of d : 0 <= d < 16 -> digit_of (digit_char d) = d.
Proof.
  intros H. unfold digit_char, digit_of. destruct (Z.ltb_spec d 10);
  repeat match goal with |- context [?a <=? ?b] => destruct (Z.leb_spec a b) end; cbn [andb]; lia.
Qed.
Lemma digit_char_nz d : 0 < d < 16 -> digit_char d <> 48.
Proof. intros H. unfold digit_char. destruct (Z.ltb_spec d 10); lia. Qed.
Lemma digit_char_low d : 0 <= d < 16 -> ~ 65 <= digit_char d <= 70.
Proof. intros H. unfold digit_char. destruct (Z.ltb_spec d 10); lia. Qed.

Definition lowcase (s : list Z) : Prop := Forall (fun c => ~ 65 <= c <= 70) s.

Lemma print_uint_spec b : 2 <= b <= 16 -> forall fuel n, 0 <= n < b ^ Z.of_nat (S fuel) ->
  let s := print_uint (S fuel) b n in
  digits b s /\ numval b s = n /\ lowcase s /\ no_leading_zero s /\ (n <> 0 -> hd 0 s <> 48) /\
  (length s <= S fuel)%nat /\ (n <> 0 -> b ^ (Z.of_nat (length s) - 1) <= n).
Proof.
  intros Hb. induction fuel as [|fuel IH]; intros n Hn; cbv zeta.
  - change (Z.of_nat 1) with 1 in Hn. rewrite Z.pow_1_r in Hn.
    cbn [print_uint]. destruct (Z.ltb_spec n b); [|lia].
    assert (D : digit_of (digit_char n) = n) by (apply digit_char_of; lia).
    split; [split; [discriminate|]; cbn [forallb]; unfold is_digit; rewrite D; lia|].
    rewrite numval_one. split; [exact D|]. split; [repeat constructor; apply digit_char_low; lia|].
    assert (n <> 0 -> digit_char n <> 48) by (intros; apply digit_char_nz; lia).
    split; [unfold no_leading_zero; cbn [hd]; destruct (Z.eq_dec n 0) as [->|]; [left; reflexivity|right; auto]|].
    split; [exact H0|]. cbn [length]. split; [lia|]. change (Z.of_nat 1 - 1) with 0. rewrite Z.pow_0_r. lia.
  - remember (S fuel) as f eqn:Ef. cbn [print_uint]. destruct (Z.ltb_spec n b).
    + assert (D : digit_of (digit_char n) = n) by (apply digit_char_of; lia).
      split; [split; [discriminate|]; cbn [forallb]; unfold is_digit; rewrite D; lia|].
      rewrite numval_one. split; [exact D|]. split; [repeat constructor; apply digit_char_low; lia|].
      assert (n <> 0 -> digit_char n <> 48) by (intros; apply digit_char_nz; lia).
      split; [unfold no_leading_zero; cbn [hd]; destruct (Z.eq_dec n 0) as [->|]; [left; reflexivity|right; auto]|].
      split; [exact H0|]. cbn [length]. split; [lia|]. change (Z.of_nat 1 - 1) with 0. rewrite Z.pow_0_r. lia.
    + assert (Hq : 0 < n / b < b ^ Z.of_nat f).
      { split; [apply Z.div_str_pos; lia|]. apply Z.div_lt_upper_bound; [lia|].
        rewrite Nat2Z.inj_succ, Z.pow_succ_r in Hn by lia. lia. }
      destruct (IH (n / b) ltac:(lia)) as ((I1 & I2) & I3 & I4 & I5 & I6 & I7 & I8).
      set (s := print_uint f b (n / b)) in *. pose proof (Z.mod_pos_bound n b ltac:(lia)) as M.
      assert (D : digit_of (digit_char (n mod b)) = n mod b) by (apply digit_char_of; lia).
      assert (HH : hd 0 (s ++ [digit_char (n mod b)]) = hd 0 s) by (destruct s; [contradiction|reflexivity]).
      split; [split; [destruct s; discriminate|]|].
      { rewrite forallb_app, I2. cbn [forallb]. unfold is_digit. rewrite D. lia. }
      rewrite numval_app, I3. cbn [length]. change (Z.of_nat 1) with 1. rewrite Z.pow_1_r, numval_one, D.
      split; [rewrite (Z.div_mod n b) at 3 by lia; lia|].
      split; [apply Forall_app; split; [exact I4|]; repeat constructor; apply digit_char_low; lia|].
      unfold no_leading_zero. rewrite HH.
      split; [right; apply I6; lia|]. split; [intros _; apply I6; lia|].
      rewrite app_length. cbn [length]. split; [lia|]. intros _.
      assert (s <> []) by exact I1. assert (1 <= length s)%nat by (destruct s; [contradiction|cbn [length]; lia]).
      replace (Z.of_nat (length s + 1) - 1) with (Z.succ (Z.of_nat (length s) - 1)) by lia.
      rewrite Z.pow_succ_r by lia. specialize (I8 ltac:(lia)). rewrite (Z.div_mod n b) by lia.
      set (P := b ^ (Z.of_nat (length s) - 1)) in *. clearbody P. nia.
Qed.

Lemma put_uint_spec b n : b = 10 \/ b = 16 -> 0 <= n < B ->
  let s := put_uint b n in
  digits b s /\ numval b s = n /\ lowcase s /\ no_leading_zero s /\ (n <> 0 -> hd 0 s <> 48) /\
  (n <> 0 -> b ^ (Z.of_nat (length s) - 1) <= n).
Proof.
  intros Hb Hn. unfold put_uint.
  destruct (print_uint_spec b ltac:(lia) 63 n) as (I1 & I2 & I3 & I4 & I5 & I6 & I7).
  - rewrite B_val in Hn. split; [lia|].
    apply Z.lt_le_trans with (10 ^ 20); [lia|].
    apply Z.le_trans with (b ^ 20); [apply Z.pow_le_mono_l; lia|apply Z.pow_le_mono_r; lia].
  - cbv zeta. auto 10.
Qed.

Lemma repeat48_spec b k s : 2 <= b -> forallb (is_digit b) s = true ->
  forallb (is_digit b) (repeat 48 k ++ s) = true /\ numval b (repeat 48 k ++ s) = numval b s.
Proof.
  intros Hb Hs. induction k as [|k [I1 I2]]; cbn [repeat app]; [auto|]. split.
  - cbn [forallb]. rewrite I1. unfold is_digit. change (digit_of 48) with 0. lia.
  - rewrite numval_cons, I2. change (digit_of 48) with 0. lia.
Qed.

Lemma put_uint_w_spec w b n : b = 10 \/ b = 16 -> (1 <= w)%nat -> 0 <= n < b ^ Z.of_nat w -> n < B ->
  let s := put_uint_w w b n in
  forallb (is_digit b) s = true /\ length s = w /\ numval b s = n /\ lowcase s.
Proof.
  intros Hb Hw Hn HB. cbv zeta. unfold put_uint_w.
  destruct (put_uint_spec b n Hb ltac:(lia)) as ((I1 & I2) & I3 & I4 & I5 & I6 & I7).
  set (s := put_uint b n) in *.
  assert (HL : (length s <= w)%nat).
  { destruct (Z.eq_dec n 0) as [E|E].
    - assert (H : s = [48]) by (unfold s; rewrite E; destruct Hb as [-> | ->]; reflexivity).
      rewrite H. cbn [length]. lia.
    - specialize (I7 E). assert (H : b ^ (Z.of_nat (length s) - 1) < b ^ Z.of_nat w) by lia.
      apply Z.pow_lt_mono_r_iff in H; lia. }
  destruct (repeat48_spec b (w - length s) s ltac:(lia) I2) as [R1 R2].
  split; [exact R1|]. split; [rewrite app_length, repeat_length; lia|]. rewrite R2.
  split; [exact I3|]. apply Forall_app. split; [|exact I4].
  apply Forall_forall. intros c Hc. apply repeat_spec in Hc. subst c. lia.
Qed.

(** concatenation of fixed-width groups *)
Lemma concat_w w b l : b = 10 \/ b = 16 -> (1 <= w)%nat -> Forall (fun n => 0 <= n < b ^ Z.of_nat w /\ n < B) l ->
  let s := concat (map (put_uint_w w b) l) in
  forallb (is_digit b) s = true /\ lowcase s /\
  numval b s = fold_left (fun a n => a * b ^ Z.of_nat w + n) l 0.
Proof.
  intros Hb Hw. induction l as [|n l IH] using rev_ind; intros H; cbv zeta.
  - cbn. repeat split; constructor.
  - apply Forall_app in H. destruct H as [H1 H2]. apply Forall_inv in H2.
    destruct (IH H1) as (I1 & I2 & I3). destruct (put_uint_w_spec w b n Hb Hw ltac:(lia) ltac:(lia)) as (J1 & J2 & J3 & J4).
    rewrite map_app, concat_app. cbn [map concat]. rewrite app_nil_r, forallb_app, I1, J1.
    split; [reflexivity|]. split; [apply Forall_app; auto|].
    rewrite numval_app, I3, J2, J3, fold_left_app. reflexivity.
Qed.

Lemma fold_acc (W : Z) l : forall a, fold_left (fun a n => a * W + n) l a
  = a * W ^ Z.of_nat (length l) + fold_left (fun a n => a * W + n) l 0.
Proof.
  induction l as [|n l IH]; intros a; cbn [fold_left length].
  - change (Z.of_nat 0) with 0. rewrite Z.pow_0_r. lia.
  - rewrite IH, (IH (0 * W + n)), Nat2Z.inj_succ, Z.pow_succ_r by lia. ring.
Qed.

Lemma concat_len w b l : b = 10 \/ b = 16 -> (1 <= w)%nat -> Forall (fun n => 0 <= n < b ^ Z.of_nat w /\ n < B) l ->
  length (concat (map (put_uint_w w b) l)) = (w * length l)%nat.
Proof.
  intros Hb Hw H. induction H as [|n l Hn H IH]; cbn [map concat length]; [lia|].
  rewrite app_length, IH. destruct (put_uint_w_spec w b n Hb Hw ltac:(lia) ltac:(lia)) as (_ & -> & _). lia.
Qed.

(** a group list with a non-zero top prints as a numeral *)
Lemma groups_spec w b top rest : b = 10 \/ b = 16 -> (1 <= w)%nat ->
  0 <= top < B -> (rest <> [] -> top <> 0) -> Forall (fun n => 0 <= n < b ^ Z.of_nat w /\ n < B) rest ->
  let s := put_uint b top ++ concat (map (put_uint_w w b) rest) in
  digits b s /\ no_leading_zero s /\ lowcase s /\
  numval b s = fold_left (fun a n => a * b ^ Z.of_nat w + n) (top :: rest) 0.
Proof.
  intros Hb Hw Ht Hnz Hr. cbv zeta.
  destruct (put_uint_spec b top Hb Ht) as ((I1 & I2) & I3 & I4 & I5 & I6 & I7).
  destruct (concat_w w b rest Hb Hw Hr) as (J1 & J2 & J3).
  pose proof (concat_len w b rest Hb Hw Hr) as J4.
  set (s := put_uint b top) in *. set (c := concat _) in *.
  split; [split; [destruct s; [contradiction|discriminate]|rewrite forallb_app, I2, J1; reflexivity]|].
  split.
  { destruct rest as [|r rest].
    - assert (E : c = []) by reflexivity. rewrite E, app_nil_r. exact I5.
    - right. destruct s as [|d s]; [contradiction|]. cbn [app hd]. apply I6, Hnz. discriminate. }
  split; [apply Forall_app; auto|].
  rewrite numval_app, I3, J3, J4. cbn [fold_left]. rewrite (fold_acc _ rest (0 * _ + top)).
  rewrite Nat2Z.inj_mul, Z.pow_mul_r by lia. ring.
Qed.

(** ** toString, base 10 *)
Definition lv9 (t : list Z) : Z := fold_left (fun a n => a * 1000000000 + n) (rev t) 0.

Lemma lv9_snoc t r : lv9 (t ++ [r]) = r * 1000000000 ^ Z.of_nat (length t) + lv9 t.
Proof.
  unfold lv9. rewrite rev_app_distr. cbn [rev app fold_left]. rewrite fold_acc, rev_length. f_equal.
Qed.

Definition decInv (v : Z) (s : vuint * list Z) : Prop :=
  let '(x, t) := s in
  vwf x /\ lv x * 1000000000 ^ Z.of_nat (length t) + lv9 t = v /\
  Forall (fun n => 0 <= n < 1000000000) t /\ (lv x = 0 -> t = [] \/ last t 0 <> 0).

Lemma dec_loop x : vwf x -> exists t, loopR 600 dec_body (x, []) = Ok t /\
  lv9 t = lv x /\ Forall (fun n => 0 <= n < 1000000000) t /\ (t = [] \/ last t 0 <> 0).
Proof.
  intros Hx.
  apply (loopR_total dec_body (decInv (lv x))
           (fun t => lv9 t = lv x /\ Forall (fun n => 0 <= n < 1000000000) t /\ (t = [] \/ last t 0 <> 0))
           (fun s => lv (fst s))).
  - intros [y t] (H1 & H2 & H3 & H4). unfold dec_body.
    assert (W0 : vwf (vset 0)) by (unfold vset; vwf_lit).
    destruct (vcmp_ops y (vset 0) H1 W0) as (_ & _ & -> & _). change (lv (vset 0)) with 0.
    pose proof (vwf_nonneg y H1) as N.
    destruct (Z.ltb_spec 0 (lv y)) as [C|C].
    + destruct (vdiv1_ok y 1000000000 H1) as (q & r & E & Q & E1 & E2); [rewrite B_val; lia|].
      rewrite E. cbn [bind fst]. rewrite (Z.mod_small r) by lia. pose proof (vwf_nonneg q Q).
      split; [|lia]. unfold decInv. split; [exact Q|].
      rewrite app_length, lv9_snoc. cbn [length]. rewrite Nat2Z.inj_add. change (Z.of_nat 1) with 1.
      rewrite Z.pow_add_r, Z.pow_1_r by lia. rewrite E1 in H2. split; [rewrite <- H2; ring|].
      split; [apply Forall_app; split; [exact H3|constructor; [lia|constructor]]|].
      intros Z0. right. rewrite last_last. lia.
    + assert (E : lv y = 0) by lia. rewrite E in H2. split; [lia|]. split; [exact H3|]. apply H4, E.
  - unfold decInv. cbn [length]. change (lv9 []) with 0. split; [exact Hx|].
    split; [change (Z.of_nat 0) with 0; rewrite Z.pow_0_r; lia|]. split; [constructor|]. auto.
  - cbn [fst]. pose proof (vwf_range x Hx). assert (B ^ 9 < 2 ^ Z.of_nat 600); [|lia].
    rewrite B_val. reflexivity.
Qed.

Lemma vtoString10 x : vwf x -> exists s, vtoString 10 x = Ok s /\ dec_numeral s (lv x).
Proof.
  intros Hx. unfold vtoString. rewrite Z.eqb_refl.
  destruct (dec_loop x Hx) as (t & E & H1 & H2 & H3). rewrite E. cbn [bind].
  unfold lv9 in H1. assert (H2' : Forall (fun n => 0 <= n < 1000000000) (rev t)) by (apply Forall_rev; exact H2).
  destruct (rev t) as [|top rest] eqn:R.
  - exists [48]. split; [reflexivity|]. cbn in H1. split; [split; [discriminate|reflexivity]|].
    split; [left; reflexivity|]. rewrite <- H1. reflexivity.
  - exists (put_uint 10 top ++ concat (map (put_uint_w 9 10) rest)). split; [reflexivity|].
    apply Forall_cons_iff in H2'. destruct H2' as [G1 G2].
    assert (Top : top <> 0).
    { destruct H3 as [->|H3]; [discriminate R|]. rewrite <- (rev_involutive t), R in H3. cbn [rev] in H3.
      rewrite last_last in H3. exact H3. }
    destruct (groups_spec 9 10 top rest) as (K1 & K2 & K3 & K4); auto; [lia|rewrite B_val; lia| |].
    + eapply Forall_impl; [|exact G2]. cbn beta. intros a Ha. rewrite B_val. change (10 ^ Z.of_nat 9) with 1000000000. lia.
    + split; [exact K1|]. split; [exact K2|]. rewrite K4. exact H1.
Qed.

(** ** toString, base 16 *)
Lemma fold_lv x : fold_left (fun a n => a * 16 ^ Z.of_nat 16 + n) (rev x) 0 = lv x.
Proof.
  assert (EB : 16 ^ Z.of_nat 16 = B) by (rewrite B_val; reflexivity). rewrite EB.
  induction x as [|d x IH]; [reflexivity|]. cbn [rev]. rewrite fold_left_app, IH. cbn [fold_left lv]. lia.
Qed.

Lemma vtoString16 x : vwf x -> exists s, vtoString 16 x = Ok s /\ hex_numeral s (lv x).
Proof.
  intros Hx. unfold vtoString. change (16 =? 10) with false. rewrite Z.eqb_refl. cbv iota.
  destruct (rev x) as [|top rest] eqn:R.
  - apply (f_equal (@rev Z)) in R. rewrite rev_involutive in R. cbn in R. apply vwf_nonnil in Hx. contradiction.
  - exists (48 :: 120 :: put_uint 16 top ++ concat (map (put_uint_w 16 16) rest)). split; [reflexivity|].
    pose proof (vwf_limbs x Hx) as L. unfold limbs in L. apply Forall_rev in L. rewrite R in L.
    apply Forall_cons_iff in L. destruct L as [G1 G2].
    assert (EB : 16 ^ Z.of_nat 16 = B) by (rewrite B_val; reflexivity).
    assert (Top : rest <> [] -> top <> 0).
    { intros Hr. destruct Hx as (_ & _ & [L1|L1]).
      - apply (f_equal (@length Z)) in R. rewrite rev_length, L1 in R. destruct rest; [contradiction|discriminate R].
      - rewrite <- (rev_involutive x), R in L1. cbn [rev] in L1. rewrite last_last in L1. exact L1. }
    destruct (groups_spec 16 16 top rest) as (K1 & K2 & K3 & K4); auto; [lia| |].
    + eapply Forall_impl; [|exact G2]. cbn beta. intros a Ha. unfold isU in Ha. rewrite EB. lia.
    + exists (put_uint 16 top ++ concat (map (put_uint_w 16 16) rest)).
      split; [reflexivity|]. split; [exact K1|]. split; [exact K2|]. split; [|exact K3].
      rewrite K4, <- R. apply fold_lv.
Qed.

(** ** Parsing *)
Lemma digit_of_cases c : (48 <= c <= 57 /\ digit_of c = c - 48) \/ (97 <= c <= 102 /\ digit_of c = c - 87) \/
  (65 <= c <= 70 /\ digit_of c = c - 55) \/ digit_of c = -1.
Proof.
  unfold digit_of. destruct (Z.leb_spec 48 c), (Z.leb_spec c 57), (Z.leb_spec 97 c), (Z.leb_spec c 102),
    (Z.leb_spec 65 c), (Z.leb_spec c 70); cbn [andb]; lia.
Qed.
Lemma is_digit_range b c : b <= 16 -> is_digit b c = true -> 48 <= c <= 57 \/ 97 <= c <= 102 \/ 65 <= c <= 70.
Proof. unfold is_digit. intros Hb H. pose proof (digit_of_cases c). lia. Qed.

Lemma take_digits_all b s : forallb (is_digit b) s = true -> take_digits b s = (s, []).
Proof.
  induction s as [|c s IH]; intros H; [reflexivity|]. cbn [forallb] in H. apply andb_prop in H. destruct H as [H1 H2].
  cbn [take_digits]. rewrite H1, (IH H2). reflexivity.
Qed.

Lemma strto_digits b s : b <= 16 -> digits b s -> strto b s = (numval b s, []).
Proof.
  intros Hb [Hn H]. destruct s as [|c s]; [contradiction|].
  assert (H' := H). cbn [forallb] in H. apply andb_prop in H. destruct H as [H1 H2].
  pose proof (is_digit_range b c Hb H1) as Rc.
  unfold strto. cbn [skip_space].
  assert (E1 : ((9 <=? c) && (c <=? 13)) || (c =? 32) = false) by lia. rewrite E1.
  assert (E2 : (c =? 45) = false) by lia. assert (E3 : (c =? 43) = false) by lia. rewrite E2, E3.
  assert (E4 : skip_0x b (c :: s) = c :: s).
  { unfold skip_0x. destruct s as [|x [|h s]]; [reflexivity|reflexivity|].
    cbn [forallb] in H2. apply andb_prop in H2. destruct H2 as [H2 _].
    pose proof (is_digit_range b x Hb H2) as Rx.
    assert (E5 : (x =? 120) || (x =? 88) = false) by lia. rewrite E5, andb_false_r. reflexivity. }
  rewrite E4, (take_digits_all b _ H'). reflexivity.
Qed.

Lemma cut_chunks_nil fuel k b : cut_chunks fuel k b [] = Some [].
Proof. destruct fuel; reflexivity. Qed.

Lemma cut_chunks_digits k b : b = 10 \/ b = 16 -> (1 <= k)%nat -> b ^ Z.of_nat k <= 2 ^ 32 ->
  forall fuel t, (length t <= fuel)%nat -> forallb (is_digit b) t = true ->
  exists x, cut_chunks fuel k b t = Some x /\ Forall (fun n => 0 <= n < b ^ Z.of_nat k) x /\
    fold_left (fun a n => a * b ^ Z.of_nat k + n) (rev x) 0 = numval b t /\
    (k * length x < length t + k)%nat /\ (length t <= k * length x)%nat.
Proof.
  intros Hb Hk HW. induction fuel as [|fuel IH]; intros t HL Ht.
  - destruct t; [|cbn [length] in HL; lia]. exists []. repeat split; cbn; auto; lia.
  - destruct t as [|c t0]; [exists []; repeat split; cbn; auto; lia|].
    remember (c :: t0) as t eqn:Et. assert (Hn : t <> []) by (subst t; discriminate).
    assert (L1 : (1 <= length t)%nat) by (subst t; cbn [length]; lia).
    assert (EC : cut_chunks (S fuel) k b t =
          let remain := Nat.min (length t) k in
          let '(v, r) := strto b (skipn (length t - remain) t) in
          if at_end r then
            match cut_chunks fuel k b (firstn (length t - remain) t) with
            | Some x => Some (v mod 2 ^ 32 :: x)
            | None => None
            end
          else None) by (subst t; reflexivity).
    rewrite EC. clear EC Et c t0. cbv zeta. set (n := Nat.min (length t) k).
    assert (Hn1 : (1 <= n <= k)%nat) by lia. assert (Hn2 : (n <= length t)%nat) by lia.
    set (lo := skipn (length t - n) t). set (hi := firstn (length t - n) t).
    assert (Esplit : t = hi ++ lo) by (symmetry; apply firstn_skipn).
    assert (Llo : length lo = n) by (unfold lo; rewrite skipn_length; lia).
    assert (Lhi : length hi = (length t - n)%nat) by (unfold hi; rewrite firstn_length; lia).
    rewrite Esplit, forallb_app in Ht. apply andb_prop in Ht. destruct Ht as [Hhi Hlo].
    assert (Dlo : digits b lo). { split; [intros E; rewrite E in Llo; cbn in Llo; lia|exact Hlo]. }
    rewrite (strto_digits b lo ltac:(lia) Dlo). cbn [at_end].
    destruct (IH hi) as (x & E & F1 & F2 & F3 & F4); [lia|exact Hhi|]. rewrite E.
    pose proof (numval_bound b lo ltac:(lia) Hlo) as NB. rewrite Llo in NB.
    assert (HP : b ^ Z.of_nat n <= b ^ Z.of_nat k) by (apply Z.pow_le_mono_r; lia).
    rewrite (Z.mod_small (numval b lo)) by lia.
    exists (numval b lo :: x). split; [reflexivity|]. split; [constructor; [lia|exact F1]|].
    cbn [rev length]. rewrite fold_left_app, F2. cbn [fold_left].
    assert (LL : (length t = length hi + n)%nat) by lia.
    split.
    { replace (numval b t) with (numval b (hi ++ lo)) by (rewrite <- Esplit; reflexivity).
      rewrite numval_app, Llo. destruct (Nat.eq_dec n k) as [->|Nk]; [reflexivity|].
      assert (EH : hi = []) by (destruct hi; [reflexivity|cbn [length] in Lhi; lia]).
      rewrite EH, numval_nil. lia. }
    destruct (Nat.eq_dec n k) as [Ek|Nk].
    + nia.
    + assert (length hi = 0%nat) by lia. assert (length x = 0%nat) by nia. nia.
Qed.

(** decimal accumulation *)
Lemma vwf_len8 x : vwf x -> (lv x < B ^ 8 <-> (length x <= 8)%nat).
Proof.
  intros Hx. pose proof (vwf_len x Hx) as L. unfold cap in L. split; intros H.
  - destruct (Nat.eq_dec (length x) 9) as [E|E]; [|lia].
    pose proof (vwf_lb x Hx ltac:(lia)) as LB. rewrite E in LB. change (Z.of_nat 9 - 1) with 8 in LB. lia.
  - pose proof (vwf_ub x Hx). pose proof (Bpow_mono (length x) 8 H) as M. change (Z.of_nat 8) with 8 in M. lia.
Qed.

Definition W9 : Z := 1000000000.
Lemma fold9_ge l : forall a, 0 <= a -> Forall (fun n => 0 <= n < W9) l ->
  a <= fold_left (fun a n => a * W9 + n) l a.
Proof.
  induction l as [|n l IH]; intros a Ha Hl; cbn [fold_left]; [lia|].
  apply Forall_cons_iff in Hl. destruct Hl as [H1 H2].
  specialize (IH (a * W9 + n)). unfold W9 in *. specialize (IH ltac:(lia) H2). lia.
Qed.

Lemma fold9_div n l a : 0 <= a -> Forall (fun n => 0 <= n < W9) (n :: l) ->
  a <= fold_left (fun a n => a * W9 + n) (n :: l) a / W9.
Proof.
  intros Ha Hl. apply Forall_cons_iff in Hl. destruct Hl as [H1 H2]. cbn [fold_left].
  apply Z.div_le_lower_bound; [unfold W9; lia|].
  pose proof (fold9_ge l (a * W9 + n)) as H. unfold W9 in *. specialize (H ltac:(lia) H2). lia.
Qed.

Lemma dec_step acc x : vwf acc -> 0 <= x < W9 -> lv acc < B ^ 8 ->
  exists z, (let! a := vmul acc (vset W9) in vadd32 a x) = Ok z /\ vwf z /\ lv z = lv acc * W9 + x.
Proof.
  intros Ha Hx HB. apply (vwf_len8 acc Ha) in HB as HL.
  assert (WW : isU W9) by (unfold isU; rewrite B_val; unfold W9; lia).
  destruct (vset_vwf W9 WW) as [S1 S2].
  destruct (vmul_ok acc (vset W9) Ha S1) as (m & E & M1 & M2); [unfold cap; cbn [length vset]; lia|].
  rewrite E. cbn [bind]. rewrite S2 in M2.
  assert (HR : lv m + x < B ^ 9).
  { rewrite M2. replace (B ^ 9) with (B ^ 8 * B) by (change 9 with (8 + 1); rewrite Z.pow_add_r, Z.pow_1_r by lia; reflexivity).
    pose proof (vwf_nonneg acc Ha). unfold isU in WW. set (M := B ^ 8) in *. clearbody M.
    assert ((lv acc + 1) * W9 <= M * B) by (apply Z.mul_le_mono_nonneg; lia). lia. }
  destruct (vadd32_ok m x M1) as (z & E2 & Z1 & Z2); [unfold W9 in Hx; lia|exact HR|].
  exists z. rewrite E2, Z2, M2. auto.
Qed.

Lemma dec_accum_ok xs : forall acc, vwf acc -> Forall (fun n => 0 <= n < W9) xs ->
  xs = [] \/ fold_left (fun a n => a * W9 + n) xs (lv acc) / W9 < B ^ 8 ->
  exists z, dec_accum acc xs = Ok z /\ vwf z /\ lv z = fold_left (fun a n => a * W9 + n) xs (lv acc).
Proof.
  induction xs as [|x xs IH]; intros acc Ha Hx HB.
  - exists acc. auto.
  - destruct HB as [HB|HB]; [discriminate HB|].
    pose proof (vwf_nonneg acc Ha) as N. pose proof (fold9_div x xs (lv acc) N Hx) as HD.
    apply Forall_cons_iff in Hx. destruct Hx as [H1 H2].
    destruct (dec_step acc x Ha H1 ltac:(lia)) as (z & E & Z1 & Z2). cbn [dec_accum].
    destruct (vmul acc (vset 1000000000)) as [a| | | |] eqn:EM; unfold W9 in E; rewrite EM in E;
      cbn [bind] in E; try discriminate E. cbn [bind]. rewrite E. cbn [bind].
    destruct (IH z Z1 H2) as (r & R1 & R2 & R3).
    + destruct xs as [|y ys]; [left; reflexivity|right]. rewrite Z2. exact HB.
    + exists r. rewrite Z2 in R3. auto.
Qed.

Lemma dec_accum_exit xs : forall acc, vwf acc -> Forall (fun n => 0 <= n < W9) xs ->
  xs <> [] -> B ^ 8 <= fold_left (fun a n => a * W9 + n) xs (lv acc) / W9 -> dec_accum acc xs = Exit.
Proof.
  induction xs as [|x xs IH]; intros acc Ha Hx Hn HB; [contradiction|].
  apply Forall_cons_iff in Hx. destruct Hx as [H1 H2]. cbn [dec_accum].
  destruct (Z.lt_ge_cases (lv acc) (B ^ 8)) as [C|C].
  - destruct (dec_step acc x Ha H1 C) as (z & E & Z1 & Z2).
    destruct (vmul acc (vset 1000000000)) as [a| | | |] eqn:EM; unfold W9 in E; rewrite EM in E;
      cbn [bind] in E; try discriminate E. cbn [bind]. rewrite E. cbn [bind].
    cbn [fold_left] in HB. rewrite <- Z2 in HB. destruct xs as [|y ys].
    + exfalso. cbn [fold_left] in HB. rewrite Z2 in HB. rewrite Z.div_add_l in HB by (unfold W9; lia).
      rewrite (Z.div_small x W9) in HB by lia. lia.
    + apply IH; auto. discriminate.
  - assert (HL : ~ (length acc <= 8)%nat) by (intros L; apply (vwf_len8 acc Ha) in L; lia).
    rewrite vmul_exit by (unfold cap; cbn [length vset]; lia). reflexivity.
Qed.

Lemma hex_not_dec_prefix s v : dec_numeral s v -> forall c0 c1 r, s = c0 :: c1 :: r -> (c0 =? 48) = false.
Proof.
  intros (_ & [H|H] & _) c0 c1 r E; rewrite E in H; [discriminate H|]. cbn [hd] in H. lia.
Qed.

Lemma vsetStr_dec_front s v base : base = 0 \/ base = 10 -> dec_numeral s v ->
  exists x, vsetStr s base = dec_accum (vset 0) (rev x) /\ Forall (fun n => 0 <= n < W9) (rev x) /\ rev x <> [] /\
    fold_left (fun a n => a * W9 + n) (rev x) 0 = v.
Proof.
  intros Hb D. destruct (proj1 D) as [Hn Hd]. destruct D as (D1 & D2 & D3).
  destruct (cut_chunks_digits 9 10 ltac:(auto) ltac:(lia) ltac:(vm_compute; discriminate) (length s) s ltac:(lia) Hd)
    as (x & E & F1 & F2 & F3 & F4).
  exists x. change (10 ^ Z.of_nat 9) with W9 in *. rewrite D3 in F2.
  split.
  - unfold vsetStr.
    assert (EQ : (match s with
      | c0 :: c1 :: rest =>
        if c0 =? 48 then
          if c1 =? 120 then
            if negb (base =? 0) && negb (base =? 16) then Exit else Ok (16, rest)
          else Exit
        else Ok (base, [])
      | _ => Ok (base, []) end) = Ok (base, [])).
    { destruct s as [|c0 [|c1 r]]; [reflexivity|reflexivity|].
      rewrite (hex_not_dec_prefix (c0 :: c1 :: r) v (conj D1 (conj D2 D3)) c0 c1 r eq_refl). reflexivity. }
    rewrite EQ. cbn [bind].
    destruct Hb as [-> | ->]; cbv iota; change (0 =? 0) with true; change (10 =? 0) with false;
      change (10 =? 16) with false; cbv iota; rewrite E; reflexivity.
  - split; [apply Forall_rev; exact F1|]. split; [|exact F2].
    intros E0. apply (f_equal (@length Z)) in E0. rewrite rev_length in E0. cbn [length] in E0. rewrite E0 in F4.
    destruct s; [contradiction|cbn [length] in F4; lia].
Qed.

Lemma vsetStr_dec_ok s v base : base = 0 \/ base = 10 -> dec_numeral s v -> v / 10 ^ 9 < 2 ^ 512 ->
  exists z, vsetStr s base = Ok z /\ vwf z /\ lv z = v.
Proof.
  intros Hb D HV. destruct (vsetStr_dec_front s v base Hb D) as (x & E & F1 & F2 & F3). rewrite E.
  assert (W0 : vwf (vset 0)) by (unfold vset; vwf_lit).
  assert (EB : B ^ 8 = 2 ^ 512) by (rewrite B_val; reflexivity).
  destruct (dec_accum_ok (rev x) (vset 0) W0 F1) as (z & Z1 & Z2 & Z3).
  - right. change (lv (vset 0)) with 0. rewrite F3, EB. exact HV.
  - exists z. change (lv (vset 0)) with 0 in Z3. rewrite F3 in Z3. auto.
Qed.

Lemma vsetStr_dec_exit s v base : base = 0 \/ base = 10 -> dec_numeral s v -> 2 ^ 512 <= v / 10 ^ 9 ->
  vsetStr s base = Exit.
Proof.
  intros Hb D HV. destruct (vsetStr_dec_front s v base Hb D) as (x & E & F1 & F2 & F3). rewrite E.
  assert (W0 : vwf (vset 0)) by (unfold vset; vwf_lit).
  assert (EB : B ^ 8 = 2 ^ 512) by (rewrite B_val; reflexivity).
  apply dec_accum_exit; auto. change (lv (vset 0)) with 0. rewrite F3, EB. exact HV.
Qed.

(** hexadecimal *)
Lemma fold_rev32 x : fold_left (fun a n => a * 16 ^ Z.of_nat 8 + n) (rev x) 0
  = fold_right (fun d v => d + 2 ^ 32 * v) 0 x.
Proof.
  change (16 ^ Z.of_nat 8) with (2 ^ 32). induction x as [|d x IH]; [reflexivity|].
  cbn [rev fold_right]. rewrite fold_left_app, IH. cbn [fold_left]. lia.
Qed.

Lemma vsetStr_hex_front h base : base = 0 \/ base = 16 -> digits 16 h ->
  exists x, vsetStr (48 :: 120 :: h) base = vset32 x /\ Forall (fun n => 0 <= n < 2 ^ 32) x /\
    fold_right (fun d v => d + 2 ^ 32 * v) 0 x = numval 16 h /\
    (8 * length x < length h + 8)%nat /\ (length h <= 8 * length x)%nat.
Proof.
  intros Hb [Hn Hd].
  destruct (cut_chunks_digits 8 16 ltac:(auto) ltac:(lia) ltac:(vm_compute; discriminate) (length h) h ltac:(lia) Hd)
    as (x & E & F1 & F2 & F3 & F4).
  rewrite fold_rev32 in F2. exists x. split; [|auto].
  unfold vsetStr. change (48 =? 48) with true. change (120 =? 120) with true. cbv iota.
  assert (EQ : negb (base =? 0) && negb (base =? 16) = false) by lia. rewrite EQ. cbn [bind].
  change (16 =? 0) with false. change (16 =? 16) with true. cbv iota.
  destruct h as [|c h]; [contradiction|]. rewrite E.
  destruct x; [cbn [length] in F4; lia|]. reflexivity.
Qed.

Lemma vsetStr_hex_ok h base : base = 0 \/ base = 16 -> digits 16 h -> (length h <= 144)%nat ->
  exists z, vsetStr (48 :: 120 :: h) base = Ok z /\ vwf z /\ lv z = numval 16 h.
Proof.
  intros Hb D HL. destruct (vsetStr_hex_front h base Hb D) as (x & E & F1 & F2 & F3 & F4). rewrite E, <- F2.
  apply vset32_ok; [exact F1|]. lia.
Qed.

Lemma vsetStr_hex_exit h base : base = 0 \/ base = 16 -> digits 16 h -> (144 < length h)%nat ->
  vsetStr (48 :: 120 :: h) base = Exit.
Proof.
  intros Hb D HL. destruct (vsetStr_hex_front h base Hb D) as (x & E & F1 & F2 & F3 & F4). rewrite E.
  unfold vset32. destruct x as [|d x]; [cbn [length] in F4; lia|].
  rewrite alloc_exit; [reflexivity|]. unfold cap.
  assert ((19 + 1) / 2 <= (length (d :: x) + 1) / 2)%nat by (apply Nat.div_le_mono; lia).
  change ((19 + 1) / 2)%nat with 10%nat in H. lia.
Qed.

(** round trips *)
Lemma roundtrip10 x base : base = 0 \/ base = 10 -> vwf x -> lv x / 10 ^ 9 < 2 ^ 512 ->
  exists s, vtoString 10 x = Ok s /\ vsetStr s base = Ok x.
Proof.
  intros Hb Hx HV. destruct (vtoString10 x Hx) as (s & E & D). exists s. split; [exact E|].
  destruct (vsetStr_dec_ok s (lv x) base Hb D HV) as (z & E2 & Z1 & Z2). rewrite E2. f_equal.
  apply vwf_inj; auto.
Qed.

Lemma roundtrip10_exit x base : base = 0 \/ base = 10 -> vwf x -> 2 ^ 512 <= lv x / 10 ^ 9 ->
  exists s, vtoString 10 x = Ok s /\ vsetStr s base = Exit.
Proof.
  intros Hb Hx HV. destruct (vtoString10 x Hx) as (s & E & D). exists s. split; [exact E|].
  exact (vsetStr_dec_exit s (lv x) base Hb D HV).
Qed.

Lemma numval_len_lb b h : 2 <= b -> forallb (is_digit b) h = true -> hd 0 h <> 48 -> h <> [] ->
  (forall c, is_digit b c = true -> digit_of c = 0 -> c = 48) ->
  b ^ (Z.of_nat (length h) - 1) <= numval b h.
Proof.
  intros Hb Hd H0 Hn Hz. destruct h as [|c h]; [contradiction|]. cbn [hd] in H0. cbn [forallb] in Hd.
  apply andb_prop in Hd. destruct Hd as [H1 H2]. rewrite numval_cons. cbn [length].
  replace (Z.of_nat (S (length h)) - 1) with (Z.of_nat (length h)) by lia.
  pose proof (numval_bound b h ltac:(lia) H2).
  assert (1 <= digit_of c).
  { destruct (Z.eq_dec (digit_of c) 0) as [E|E]; [exfalso; apply H0, Hz; auto|].
    unfold is_digit in H1. lia. }
  set (P := b ^ Z.of_nat (length h)) in *. clearbody P. nia.
Qed.

Lemma hex_len h v : digits 16 h -> no_leading_zero h -> numval 16 h = v -> v < B ^ 9 -> (length h <= 144)%nat.
Proof.
  intros [Hn Hd] [->|H0] E HV; [cbn [length]; lia|].
  assert (HZ : forall c, is_digit 16 c = true -> digit_of c = 0 -> c = 48).
  { intros c _ E0. pose proof (digit_of_cases c). lia. }
  pose proof (numval_len_lb 16 h ltac:(lia) Hd H0 Hn HZ) as LB. rewrite E in LB.
  assert (EB : B ^ 9 = 16 ^ 144) by (rewrite B_val; reflexivity). rewrite EB in HV.
  assert (H : 16 ^ (Z.of_nat (length h) - 1) < 16 ^ 144) by lia.
  apply Z.pow_lt_mono_r_iff in H; lia.
Qed.

Lemma roundtrip16 x base : base = 0 \/ base = 16 -> vwf x ->
  exists s, vtoString 16 x = Ok s /\ vsetStr s base = Ok x.
Proof.
  intros Hb Hx. destruct (vtoString16 x Hx) as (s & E & h & -> & D1 & D2 & D3 & D4).
  exists (48 :: 120 :: h). split; [exact E|]. pose proof (vwf_range x Hx) as R.
  destruct (vsetStr_hex_ok h base Hb D1) as (z & E2 & Z1 & Z2).
  - apply (hex_len h (lv x) D1 D2 D3). lia.
  - rewrite E2. f_equal. apply vwf_inj; auto. congruence.
Qed.

Lemma roundtrip10_witness : exists x s, vwf x /\ vtoString 10 x = Ok s /\ vsetStr s 10 = Exit.
Proof.
  assert (W : vwf [0;0;0;0;0;0;0;0;1000000000]) by vwf_lit.
  destruct (roundtrip10_exit [0;0;0;0;0;0;0;0;1000000000] 10 ltac:(auto) W) as (s & E1 & E2).
  - cbn [lv]. rewrite B_val. vm_compute. discriminate.
  - eexists. exists s. eauto.
Qed.

Lemma garbage_witness :
  vsetStr [45; 53] 0 = Ok [4294967291] /\ vsetStr [32; 53] 0 = Ok [5] /\
  vsetStr [48; 120; 48; 120; 49; 50] 0 = Ok [18].
Proof. vm_compute. auto. Qed.

Lemma str_example : exists x, vwf x /\ length x = 5%nat /\ lv x / 10 ^ 9 < 2 ^ 512 /\
  dec_numeral [49; 56; 52; 52; 54; 55; 52; 52; 48; 55; 51; 55; 48; 57; 53; 53; 49; 54; 50; 48] (lv [4; 1]) /\
  digits 16 [48; 65; 102].
Proof.
  exists [1;2;3;4;5]. split; [vwf_lit|]. split; [reflexivity|].
  split; [cbn [lv]; rewrite B_val; vm_compute; reflexivity|].
  split; [|split; [discriminate|reflexivity]].
  split; [split; [discriminate|reflexivity]|]. split; [right; discriminate|].
  cbn [lv]. rewrite B_val. reflexivity.
Qed.
