(** The double-precision quotient estimate of Vuint division. *)
From Verif Require Import Base Prim PrimProofs Loop Vuint VuintProofs Dbl DblProofs VDiv.

Local Notation W := (2 ^ 256).

Lemma isU_2_64 x : isU x <-> 0 <= x < 2 ^ 64.
Proof. unfold isU. rewrite B_val. reflexivity. Qed.

(** ** The approximation of the two leading units *)
Section App.
Variables (H L : Z).
Hypothesis HH : 0 < H < 2 ^ 64.
Hypothesis HL : 0 <= L < 2 ^ 64.
Let T := H * B + L.

(** the double before the optional increment, as in getApp *)
Definition app_t (d0 : dbl) : res dbl :=
  if expo_len d0 <? 53 then Ok (or_frac d0 (Z.shiftr L (expo_len d0 + 11)))
  else of_u64 (Z.ldiff H (2 ^ (expo_len d0 - 53) - 1)).

Lemma app_core : exists d0 t j,
  of_u64 H = Ok d0 /\ app_t d0 = Ok t /\ dnorm t /\
  1 <= expo_len d0 <= 65 /\ -52 <= snd t <= 12 /\
  dv t = j * 2 ^ (expo_len d0 + 203) /\ 2 ^ 51 <= j < 2 ^ 53 /\
  dv t * B <= T * W /\ (T + 1) * W <= (dv t + 2 ^ (expo_len d0 + 203)) * B.
Proof.
  destruct (of_u64_spec H HH) as (m & e & E & N & Er & Es & _).
  pose proof (Z.log2_spec H ltac:(lia)) as LS. unfold Z.succ in LS.
  pose proof (Z.log2_nonneg H) as N0.
  assert (L63 : Z.log2 H <= 63).
  { apply Z.lt_succ_r. apply Z.log2_lt_pow2; [lia|]. apply HH. }
  set (l := Z.log2 H) in *.
  rewrite Z.pow_add_r, Z.pow_1_r in LS by lia.
  unfold dnorm in *. cbn [fst] in N.
  unfold app_t, expo_len. cbn [snd].
  destruct (Z.ltb_spec (e + 53) 53) as [C|C].
  - (* H below 2^52 *)
    destruct Es as [-> ->]; [lia|].
    exists (H * 2 ^ (52 - l), l - 52).
    unfold app_t, expo_len. cbn [snd].
    destruct (Z.ltb_spec (l - 52 + 53) 53) as [_|]; [|lia].
    unfold or_frac. cbn [fst snd].
    replace (l - 52 + 53 + 11) with (l + 12) by lia.
    set (s := Z.shiftr L (l + 12)).
    assert (Ds : s = L / 2 ^ (l + 12)) by (apply Z.shiftr_div_pow2; lia).
    pose proof (p2pos (l + 12) ltac:(lia)) as Pl. pose proof (p2pos (52 - l) ltac:(lia)) as Pk.
    assert (X : 2 ^ (l + 12) * 2 ^ (52 - l) = B).
    { rewrite <- Z.pow_add_r by lia. replace (l + 12 + (52 - l)) with 64 by lia. reflexivity. }
    assert (Bs : 0 <= s < 2 ^ (52 - l)).
    { rewrite Ds. split; [apply Z.div_pos; lia|]. apply Z.div_lt_upper_bound; [lia|].
      rewrite X, B_val. lia. }
    rewrite lor_disjoint_add by lia.
    pose proof (Z.div_mod L (2 ^ (l + 12)) ltac:(lia)) as DM. rewrite <- Ds in DM.
    pose proof (Z.mod_pos_bound L (2 ^ (l + 12)) ltac:(lia)) as MB.
    set (k := 2 ^ (52 - l)) in *. set (g := 2 ^ (l + 12)) in *.
    assert (X2 : 2 ^ l * k = 2 ^ 52) by (unfold k; rewrite <- Z.pow_add_r by lia; f_equal; lia).
    exists (H * k + s, l - 52), (H * k + s).
    assert (HN : 2 ^ 52 <= H * k + s < 2 ^ 53).
    { change (2 ^ 53) with (2 * 2 ^ 52). rewrite <- X2. nia. }
    assert (X3 : 2 ^ (l - 52 + 53 + 203) * B = g * W).
    { unfold g. rewrite B_val. change 18446744073709551616 with (2 ^ 64). rewrite <- !Z.pow_add_r by lia. f_equal. lia. }
    unfold dv. cbn [fst snd]. replace (l - 52 + 256) with (l - 52 + 53 + 203) by lia.
    pose proof (p2pos 256 ltac:(lia)) as PW.
    split; [exact E|]. split; [reflexivity|]. split; [exact HN|]. split; [lia|]. split; [lia|].
    split; [reflexivity|]. split; [lia|]. split.
    + rewrite <- Z.mul_assoc, X3. unfold T. rewrite <- X. nia.
    + replace (((H * k + s) * 2 ^ (l - 52 + 53 + 203) + 2 ^ (l - 52 + 53 + 203)) * B)
        with ((H * k + s + 1) * (2 ^ (l - 52 + 53 + 203) * B)) by ring.
      rewrite X3. unfold T. rewrite <- X. nia.
  - exists (m, e). unfold app_t, expo_len. cbn [snd].
    destruct (Z.ltb_spec (e + 53) 53) as [|_]; [lia|].
    replace (e + 53 - 53) with e by lia.
    assert (EL : Z.ldiff H (2 ^ e - 1) = H / 2 ^ e * 2 ^ e).
    { replace (2 ^ e - 1) with (Z.ones e) by (rewrite Z.ones_equiv; lia).
      rewrite Z.ldiff_ones_r, Z.shiftl_mul_pow2, Z.shiftr_div_pow2 by lia. reflexivity. }
    rewrite EL.
    pose proof (p2pos e ltac:(lia)) as Pe.
    pose proof (Z.div_mod H (2 ^ e) ltac:(lia)) as DM.
    pose proof (Z.mod_pos_bound H (2 ^ e) ltac:(lia)) as MB.
    set (j := H / 2 ^ e) in *.
    assert (Bj : 2 ^ 51 <= j < 2 ^ 53).
    { unfold j. split; [apply Z.div_le_lower_bound; [lia|] | apply Z.div_lt_upper_bound; [lia|]].
      - rewrite <- Z.pow_add_r by lia. apply Z.le_trans with (2 ^ l); [|lia]. apply Z.pow_le_mono_r; lia.
      - rewrite <- Z.pow_add_r by lia. apply Z.lt_le_trans with (2 ^ l * 2); [lia|].
        replace (2 ^ l * 2) with (2 ^ (l + 1)) by (rewrite Z.pow_add_r by lia; reflexivity).
        apply Z.pow_le_mono_r; lia. }
    assert (X3 : 2 ^ (e + 53 + 203) = 2 ^ e * W).
    { rewrite <- Z.pow_add_r by lia. f_equal. lia. }
    assert (HT : j * 2 ^ e * B <= T /\ T + 1 <= (j * 2 ^ e + 2 ^ e) * B).
    { unfold T. rewrite B_val. lia. }
    pose proof (p2pos 256 ltac:(lia)) as PW.
    assert (HV : exists t, of_u64 (j * 2 ^ e) = Ok t /\ dnorm t /\ e - 1 <= snd t <= e /\ dv t = j * 2 ^ e * W).
    { pose proof (p2pos 51 ltac:(lia)) as P51.
      assert (J0 : 0 < j * 2 ^ e) by nia.
      pose proof (Z.log2_nonneg (j * 2 ^ e)).
      unfold of_u64, dnorm, dv.
      destruct (Z.le_gt_cases (2 ^ 52) j) as [J|J].
      - exists (j, e). cbn [fst snd]. split; [|split; [lia|split; [lia|]]].
        + apply rnd_exact; try lia. change (Z.log2 1) with 0. lia.
          rewrite Z.mul_1_l, Z.pow_add_r by lia. ring.
        + rewrite Z.pow_add_r by lia. ring.
      - exists (2 * j, e - 1). cbn [fst snd].
        assert (X4 : 2 ^ (e - 1 + 256) * 2 = 2 ^ e * W).
        { rewrite <- Z.pow_add_r by lia.
          replace (e + 256) with (Z.succ (e - 1 + 256)) by lia. rewrite Z.pow_succ_r by lia. ring. }
        split; [|split; [lia|split; [lia|]]].
        + apply rnd_exact; try lia. change (Z.log2 1) with 0. lia.
        + lia. }
    destruct HV as (t & -> & Nt & Rt & Vt). exists t, j.
    rewrite Vt, X3. set (w := W) in *. clearbody w.
    split; [exact E|]. split; [reflexivity|]. split; [exact Nt|]. split; [lia|]. split; [lia|].
    split; [ring|]. split; [lia|]. split; nia.
Qed.

Lemma fadd_tie : forall len, 1 <= len <= 65 ->
  rnd ((2 ^ 53 + 1) * 2 ^ (len + 203)) W = Ok (2 ^ 52, len - 52).
Proof.
  assert (HF : forallb (fun n => match rnd ((2 ^ 53 + 1) * 2 ^ (Z.of_nat n + 203)) W with
      | Ok (a, b) => (a =? 2 ^ 52) && (b =? Z.of_nat n - 52) | _ => false end) (seq 1 65) = true)
    by (vm_compute; reflexivity).
  intros len Hl. rewrite forallb_forall in HF. specialize (HF (Z.to_nat len)).
  rewrite Z2Nat.id in HF by lia.
  destruct (rnd ((2 ^ 53 + 1) * 2 ^ (len + 203)) W) as [[a b]| | | |];
  try (discriminate HF; apply in_seq; lia).
  assert ((a =? 2 ^ 52) && (b =? len - 52) = true) as HH2 by (apply HF, in_seq; lia).
  apply andb_prop in HH2. destruct HH2 as [HA HB].
  apply Z.eqb_eq in HA. apply Z.eqb_eq in HB. subst. reflexivity.
Qed.

Lemma app_up d0 t : of_u64 H = Ok d0 -> app_t d0 = Ok t ->
  exists yt, fadd t (of_expo (expo_len d0 + 1022 - 52 + 1)) = Ok yt /\ dnorm yt /\
    -60 <= snd yt <= 20 /\
    ((2 ^ 53 + 1) * ((T + 1) * W) <= 2 ^ 53 * (dv yt * B) \/
     (fst yt = 2 ^ 52 /\ (T + 1) * W <= dv yt * B)).
Proof.
  intros E0 Et. destruct app_core as (d0' & t' & j & E0' & Et' & N & Rl & Rs & Vj & Bj & _ & UB).
  rewrite E0 in E0'. injection E0' as <-. rewrite Et in Et'. injection Et' as <-.
  set (len := expo_len d0) in *. unfold fadd. rewrite Vj in *.
  replace (dv (of_expo (len + 1022 - 52 + 1))) with (2 * 2 ^ (len + 203)).
  2:{ unfold dv, of_expo. cbn [fst snd]. rewrite <- Z.pow_succ_r, <- Z.pow_add_r by lia. f_equal. lia. }
  rewrite <- Z.mul_add_distr_r.
  pose proof (p2pos (len + 203) ltac:(lia)) as Pu. pose proof (p2pos 256 ltac:(lia)) as PW.
  pose proof (p2pos 51 ltac:(lia)) as P51.
  assert (Llo : len + 203 <= Z.log2 ((j + 2) * 2 ^ (len + 203))).
  { rewrite Z.log2_mul_pow2 by lia. pose proof (Z.log2_nonneg (j + 2)). lia. }
  pose proof B_pos as PB.
  assert (Key : (2 ^ 53 + 1) * ((T + 1) * W) <= 2 ^ 53 * ((j + 2) * 2 ^ (len + 203) * B)).
  { apply Z.le_trans with ((2 ^ 53 + 1) * ((j * 2 ^ (len + 203) + 2 ^ (len + 203)) * B)).
    - apply Z.mul_le_mono_nonneg_l; [lia|exact UB].
    - set (u := 2 ^ (len + 203)) in *. change (2 ^ 53) with (2 * (2 * 2 ^ 51)) in *.
      set (P := 2 ^ 51) in *. clearbody u P.
      replace ((2 * (2 * P) + 1) * ((j * u + u) * B)) with (((2 * (2 * P) + 1) * (j + 1)) * (u * B)) by ring.
      replace (2 * (2 * P) * ((j + 2) * u * B)) with ((2 * (2 * P) * (j + 2)) * (u * B)) by ring.
      apply Z.mul_le_mono_nonneg_r; nia. }
  assert (C : j + 2 < 2 ^ 52 \/ 2 ^ 52 <= j + 2 < 2 ^ 53 \/ j + 2 = 2 ^ 53 \/ j + 2 = 2 ^ 53 + 1) by lia.
  assert (Lw : Z.log2 W = 256) by reflexivity.
  destruct C as [C|[C|[C|C]]].
  - exists (2 * (j + 2), len - 54). unfold dnorm, dv. cbn [fst snd].
    assert (X : 2 * 2 ^ (len - 54 + 256) = 2 ^ (len + 203)).
    { rewrite <- Z.pow_succ_r by lia. f_equal. lia. }
    split; [|split; [lia|split; [lia|left]]].
    + apply rnd_exact; [apply Z.mul_pos_pos; lia|lia|lia|lia|lia|]. rewrite <- X. ring.
    + replace (2 * (j + 2) * 2 ^ (len - 54 + 256)) with ((j + 2) * 2 ^ (len + 203)) by (rewrite <- X; ring).
      exact Key.
  - exists (j + 2, len - 53). unfold dnorm, dv. cbn [fst snd].
    replace (len - 53 + 256) with (len + 203) by lia.
    split; [|split; [lia|split; [lia|left; exact Key]]].
    apply rnd_exact; [apply Z.mul_pos_pos; lia|lia|lia|lia|lia|]. replace (len - 53 + 256) with (len + 203) by lia. ring.
  - exists (2 ^ 52, len - 52). rewrite C in *. unfold dnorm, dv. cbn [fst snd].
    assert (X : 2 * 2 ^ (len + 203) = 2 ^ (len - 52 + 256)).
    { rewrite <- Z.pow_succ_r by lia. f_equal. lia. }
    assert (X2 : 2 ^ 53 * 2 ^ (len + 203) = 2 ^ 52 * 2 ^ (len - 52 + 256)) by (rewrite <- X; ring).
    split; [|split; [lia|split; [lia|left; rewrite <- X2; exact Key]]].
    apply rnd_exact; [apply Z.mul_pos_pos; lia|lia|lia|lia|lia|]. rewrite X2. ring.
  - exists (2 ^ 52, len - 52). rewrite C, fadd_tie by lia.
    unfold dnorm, dv. cbn [fst snd]. split; [reflexivity|].
    split; [lia|]. split; [lia|]. right. split; [reflexivity|].
    assert (X : 2 * 2 ^ (len + 203) = 2 ^ (len - 52 + 256)).
    { rewrite <- Z.pow_succ_r by lia. f_equal. lia. }
    rewrite <- X. eapply Z.le_trans; [exact UB|]. replace j with (2 ^ 53 - 1) by lia.
    apply Z.mul_le_mono_nonneg_r; [lia|]. change (2 ^ 53) with (2 * 2 ^ 52). nia.
Qed.
End App.

(** ** The quotient estimate never exceeds the true quotient *)
Lemma fdiv_under xt yt Ty : dnorm xt -> dnorm yt -> -60 <= snd xt <= 100 -> -60 <= snd yt <= 20 ->
  0 <= Ty ->
  ((2 ^ 53 + 1) * ((Ty + 1) * W) <= 2 ^ 53 * (dv yt * B) \/
   (fst yt = 2 ^ 52 /\ (Ty + 1) * W <= dv yt * B)) ->
  exists v, fdiv xt yt = Ok v /\ 0 <= dv v /\ dv v * (Ty + 1) <= dv xt * B.
Proof.
  intros Nx Ny Rx Ry HT HC. unfold fdiv. destruct xt as [mx ex], yt as [my ey].
  unfold dnorm in *. cbn [fst snd] in *.
  pose proof (p2pos 52 ltac:(lia)) as P52. pose proof (p2pos 256 ltac:(lia)) as PW. pose proof B_pos as PB.
  pose proof (p2pos (ex + 256) ltac:(lia)) as Px. pose proof (p2pos (ey + 256) ltac:(lia)) as Py.
  assert (Dx : 0 < dv (mx, ex)) by (unfold dv; cbn [fst snd]; nia).
  assert (Dy : 0 < dv (my, ey)) by (unfold dv; cbn [fst snd]; nia).
  assert (LG : -256 <= Z.log2 (dv (mx, ex)) - Z.log2 (dv (my, ey)) - 53).
  { unfold dv. cbn [fst snd]. rewrite !log2_53 by lia. lia. }
  destruct HC as [HC|[HC1 HC2]].
  - destruct (rnd_upper _ _ Dx Dy LG) as (v & -> & V0 & V1). exists v. split; [reflexivity|]. split; [exact V0|].
    set (a := 2 ^ 53) in *. assert (0 < a) by (apply p2pos; lia).
    set (X := dv (mx, ex)) in *. set (Y := dv (my, ey)) in *. set (V := dv v) in *.
    set (w := W) in *. set (S := Ty + 1) in *. clearbody a X Y V w S.
    assert (H1 : V * ((a + 1) * (S * w)) <= V * (a * (Y * B))) by (apply Z.mul_le_mono_nonneg_l; lia).
    assert (H2 : B * (a * (V * Y)) <= B * ((a + 1) * (X * w))) by (apply Z.mul_le_mono_nonneg_l; lia).
    assert (H3 : ((a + 1) * w) * (V * S) <= ((a + 1) * w) * (X * B)) by lia.
    apply Z.mul_le_mono_pos_l in H3; [exact H3|]. nia.
  - subst my. exists (mx, ex - ey - 52). unfold dv in *. cbn [fst snd] in *.
    pose proof (p2pos (ex - ey - 52 + 256) ltac:(lia)) as Pz.
    assert (X : 2 ^ (ex - ey - 52 + 256) * (2 ^ 52 * 2 ^ (ey + 256)) = 2 ^ (ex + 256) * W).
    { rewrite <- !Z.pow_add_r by lia. f_equal. lia. }
    split; [|split; [nia|]].
    + apply rnd_exact; lia.
    + set (D := 2 ^ (ex - ey - 52 + 256)) in *. set (Y := 2 ^ 52 * 2 ^ (ey + 256)) in *.
      set (E := 2 ^ (ex + 256)) in *. set (w := W) in *. set (S := Ty + 1) in *.
      clearbody D Y E w S.
      assert (H1 : (mx * D) * (S * w) <= (mx * D) * (Y * B)) by (apply Z.mul_le_mono_nonneg_l; nia).
      replace (mx * D * (Y * B)) with (mx * B * (D * Y)) in H1 by ring. rewrite X in H1.
      assert (H2 : w * (mx * D * S) <= w * (mx * E * B)) by lia.
      apply Z.mul_le_mono_pos_l in H2; auto.
Qed.

(** ** getApp on a unit vector *)
Lemma top2 (x : list Z) : (2 <= length x)%nat ->
  exists lo L H, x = lo ++ [L; H] /\ nth (length x - 1) x 0 = H /\ nth (length x - 2) x 0 = L /\
    length x = S (S (length lo)).
Proof.
  intros HL. assert (Hn : x <> []) by (intros ->; cbn in HL; lia).
  rewrite (app_removelast_last 0 Hn) in *. set (h := last x 0) in *. set (t := removelast x) in *.
  clearbody h t. rewrite app_length in *. cbn [length] in *.
  assert (Hn2 : t <> []) by (intros ->; cbn in HL; lia).
  rewrite (app_removelast_last 0 Hn2). set (l := last t 0). set (lo := removelast t). clearbody l lo.
  exists lo, l, h. rewrite <- app_assoc. cbn [app]. rewrite !app_length. cbn [length].
  repeat split; try lia.
  - rewrite app_nth2 by lia. replace (length lo + 1 + 1 - 1 - length lo)%nat with 1%nat by lia. reflexivity.
  - rewrite app_nth2 by lia. replace (length lo + 1 + 1 - 2 - length lo)%nat with 0%nat by lia. reflexivity.
Qed.

Lemma getApp_unfold x up lo L H : x = lo ++ [L; H] -> nth (length x - 1) x 0 = H ->
  nth (length x - 2) x 0 = L -> 0 < H -> (2 <= length x)%nat ->
  getApp x up = let! d0 := of_u64 H in let! t := app_t H L d0 in
    if up then fadd t (of_expo (expo_len d0 + 1022 - 52 + 1)) else Ok t.
Proof.
  intros Ex N1 N2 HP HL. unfold getApp. rewrite N1, N2.
  destruct (Nat.ltb_spec (length x) 2); [lia|]. destruct (Z.eqb_spec H 0); [lia|]. cbn [orb].
  destruct (of_u64 H) as [d0| | | |]; reflexivity.
Qed.

Lemma lv_top2 lo L H : limbs lo -> 
  exists l, 0 <= l < B ^ Z.of_nat (length lo) /\
    lv (lo ++ [L; H]) = l + B ^ Z.of_nat (length lo) * (H * B + L).
Proof.
  intros Hl. exists (lv lo). split; [split; [apply lv_nonneg|apply lv_bound]; auto|].
  rewrite lv_app. cbn [lv]. ring.
Qed.

Lemma limbs_top2 lo L H : limbs (lo ++ [L; H]) -> limbs lo /\ isU L /\ isU H.
Proof.
  intros Hl. apply limbs_app in Hl. destruct Hl as [H1 H2].
  apply limbs_cons in H2. destruct H2 as [H2 H3]. apply limbs_cons in H3. tauto.
Qed.

(** lower approximation of x *)
Lemma getApp_down x : limbs x -> (2 <= length x)%nat -> last x 0 <> 0 ->
  exists t T, getApp x false = Ok t /\ dnorm t /\ -52 <= snd t <= 12 /\ dv t * B <= T * W /\ 0 <= T /\
    T * B ^ Z.of_nat (length x - 2) <= lv x.
Proof.
  intros Hx HL Hlast. destruct (top2 x HL) as (lo & L & H & Ex & N1 & N2 & HLx).
  rewrite Ex in Hx. destruct (limbs_top2 _ _ _ Hx) as (Hlo & HLU & HHU).
  assert (last x 0 = H) by (rewrite Ex; change [L; H] with ([L] ++ [H]); rewrite app_assoc; apply last_last).
  assert (HP : 0 < H) by (unfold isU in HHU; lia).
  rewrite (getApp_unfold x false lo L H) by auto.
  rewrite isU_2_64 in HLU, HHU. assert (HHP : 0 < H < 2 ^ 64) by lia.
  destruct (app_core H L HHP HLU) as (d0 & t & j & E0 & Et & N & _ & Rs & _ & _ & LB & _).
  rewrite E0. cbn [bind]. rewrite Et. cbn [bind]. exists t, (H * B + L).
  pose proof B_pos. split; [reflexivity|]. split; [exact N|]. split; [exact Rs|]. split; [exact LB|]. split; [nia|].
  destruct (lv_top2 lo L H Hlo) as (l & Hl & El). rewrite HLx, Ex, El.
  replace (S (S (length lo)) - 2)%nat with (length lo) by lia. lia.
Qed.

(** upper approximation of y *)
Lemma getApp_up y : limbs y -> (2 <= length y)%nat -> last y 0 <> 0 ->
  exists t T, getApp y true = Ok t /\ dnorm t /\ -60 <= snd t <= 20 /\ 0 <= T /\
    ((2 ^ 53 + 1) * ((T + 1) * W) <= 2 ^ 53 * (dv t * B) \/
     (fst t = 2 ^ 52 /\ (T + 1) * W <= dv t * B)) /\
    lv y < (T + 1) * B ^ Z.of_nat (length y - 2).
Proof.
  intros Hx HL Hlast. destruct (top2 y HL) as (lo & L & H & Ex & N1 & N2 & HLx).
  rewrite Ex in Hx. destruct (limbs_top2 _ _ _ Hx) as (Hlo & HLU & HHU).
  assert (last y 0 = H) by (rewrite Ex; change [L; H] with ([L] ++ [H]); rewrite app_assoc; apply last_last).
  assert (HP : 0 < H) by (unfold isU in HHU; lia).
  rewrite (getApp_unfold y true lo L H) by auto.
  rewrite isU_2_64 in HLU, HHU. assert (HHP : 0 < H < 2 ^ 64) by lia.
  destruct (app_core H L HHP HLU) as (d0 & t & j & E0 & Et & _).
  rewrite E0. cbn [bind]. rewrite Et. cbn [bind].
  destruct (app_up H L HHP HLU d0 t E0 Et) as (yt & -> & N & R & C).
  exists yt, (H * B + L). pose proof B_pos.
  split; [reflexivity|]. split; [exact N|]. split; [exact R|]. split; [nia|]. split; [exact C|].
  destruct (lv_top2 lo L H Hlo) as (l & Hl & El). rewrite HLx, Ex, El.
  replace (S (S (length lo)) - 2)%nat with (length lo) by lia. lia.
Qed.

(** ** helpers of the loop *)
Lemma rev_last (l : list Z) : last (rev l) 0 = hd 0 l.
Proof. destruct l as [|d l]; [reflexivity|]. cbn [rev hd]. apply last_last. Qed.

Lemma limbs_rev l : limbs l -> limbs (rev l).
Proof. apply Forall_rev. Qed.

Lemma drop_top_spec rx yn : limbs rx -> (1 <= yn)%nat ->
  let r := drop_top rx yn in
  limbs r /\ lv (rev r) = lv (rev rx) /\ (length r <= length rx)%nat /\
  ((yn <= length r)%nat -> hd 0 r <> 0).
Proof.
  intros Hr Hyn. induction Hr as [|d rx Hd Hr IH].
  - cbn. repeat split; auto using limbs_nil. lia.
  - cbn [drop_top]. destruct (Nat.leb_spec yn (length (d :: rx))) as [L|L]; cbn [andb].
    + destruct (Z.eqb_spec d 0) as [->|Hd0].
      * destruct IH as (I1 & I2 & I3 & I4). cbn zeta. split; [auto|]. split; [|split; [cbn [length]; lia|auto]].
        rewrite I2. cbn [rev]. rewrite lv_app. cbn [lv]. lia.
      * split; [apply limbs_cons; auto|]. split; [reflexivity|]. split; [lia|]. cbn [hd]. auto.
    + split; [apply limbs_cons; auto|]. split; [reflexivity|]. split; [lia|]. lia.
Qed.

Lemma upd_add_spec q i qt : limbs q -> (i < length q)%nat -> 0 <= qt -> nth i q 0 + qt < B ->
  limbs (upd_add q i qt) /\ length (upd_add q i qt) = length q /\
  lv (upd_add q i qt) = lv q + qt * B ^ Z.of_nat i /\
  firstn i (upd_add q i qt) = firstn i q /\ nth i (upd_add q i qt) 0 = nth i q 0 + qt.
Proof.
  intros Hq Hi H0 HB. unfold upd_add.
  destruct (nth_split q 0 Hi) as (l1 & l2 & E & HL).
  set (d := nth i q 0) in *. clearbody d. subst q. rewrite <- HL in *. clear i HL Hi.
  rewrite firstn_app, Nat.sub_diag, firstn_all, firstn_O, app_nil_r.
  rewrite skipn_app, Nat.sub_diag, skipn_all. cbn [skipn app].
  apply limbs_app in Hq. destruct Hq as [H1 H2]. apply limbs_cons in H2. destruct H2 as [H2 H3].
  unfold isU in H2. rewrite Z.mod_small by lia.
  split; [apply limbs_app; split; [auto|apply limbs_cons; split; [unfold isU; lia|auto]]|].
  split; [rewrite !app_length; reflexivity|].
  split; [rewrite !lv_app; cbn [lv]; ring|].
  split; [rewrite firstn_app, Nat.sub_diag, firstn_all, firstn_O, app_nil_r; reflexivity|].
  rewrite app_nth2, Nat.sub_diag by lia. reflexivity.
Qed.

Lemma firstn_repeat0 (q : list Z) P i : firstn P q = repeat 0 P -> (i <= P)%nat -> firstn i q = repeat 0 i.
Proof.
  intros E Hi. rewrite <- (Nat.min_l i P Hi) at 1. rewrite <- firstn_firstn, E.
  clear E. revert P Hi. induction i as [|i IH]; intros P Hi; [reflexivity|].
  destruct P as [|P]; [lia|]. cbn [repeat firstn]. f_equal. apply IH. lia.
Qed.

Lemma nth_of_firstn0 (q : list Z) P i : firstn P q = repeat 0 P -> (i < P)%nat -> nth i q 0 = 0.
Proof.
  intros E Hi. pose proof (firstn_repeat0 q P (S i) E ltac:(lia)) as F.
  apply (f_equal (fun l => nth i l 0)) in F.
  rewrite nth_repeat in F. transitivity (nth i (firstn (S i) q) 0); [|exact F].
  clear. revert i. induction q as [|d q IH]; intros [|i]; try reflexivity.
  change (nth i q 0 = nth i (firstn (S i) q) 0). apply IH.
Qed.

