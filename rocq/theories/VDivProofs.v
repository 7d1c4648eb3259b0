(** Correctness of Vuint division and of bitLen. *)
From Verif Require Import Base Prim PrimProofs Loop Vuint VuintProofs Dbl DblProofs VDiv VDivEst.

Local Notation W := (2 ^ 256).

(** B^n, hidden from the power saturation of lia *)
Definition Bp (n : nat) : Z := B ^ Z.of_nat n.
Lemma Bp_eq n : Bp n = B ^ Z.of_nat n. Proof. reflexivity. Qed.
Global Opaque Bp.

Lemma Bp_pos n : 0 < Bp n.
Proof. rewrite Bp_eq. apply Bpow_pos. Qed.
Lemma Bp_mono a b : (a <= b)%nat -> Bp a <= Bp b.
Proof. rewrite !Bp_eq. apply Bpow_mono. Qed.
Lemma Bp_add a b : Bp (a + b) = Bp a * Bp b.
Proof. rewrite !Bp_eq, Nat2Z.inj_add. apply Z.pow_add_r; lia. Qed.
Lemma Bp_S a : Bp (S a) = B * Bp a.
Proof. rewrite !Bp_eq, Nat2Z.inj_succ, Z.pow_succ_r by lia. reflexivity. Qed.
Lemma Bp_0 : Bp 0 = 1.
Proof. reflexivity. Qed.
Lemma Bp_1 : Bp 1 = B.
Proof. rewrite Bp_S, Bp_0. lia. Qed.
Lemma lv_boundP l : limbs l -> lv l < Bp (length l).
Proof. rewrite Bp_eq. apply lv_bound. Qed.
Lemma lv_splitP n l : lv l = lv (firstn n l) + Bp (length (firstn n l)) * lv (skipn n l).
Proof. rewrite Bp_eq. apply lv_split. Qed.
Lemma lv_appP a b : lv (a ++ b) = lv a + Bp (length a) * lv b.
Proof. rewrite Bp_eq. apply lv_app. Qed.
Lemma last_lbP l : limbs l -> (1 <= length l)%nat -> last l 0 <> 0 -> Bp (length l - 1) <= lv l.
Proof.
  intros Hl HL H. rewrite Bp_eq. replace (Z.of_nat (length l - 1)) with (Z.of_nat (length l) - 1) by lia.
  apply last_lb; auto. intros ->. cbn in HL. lia.
Qed.
Lemma upd_addP q i qt : limbs q -> (i < length q)%nat -> 0 <= qt -> nth i q 0 + qt < B ->
  limbs (upd_add q i qt) /\ length (upd_add q i qt) = length q /\
  lv (upd_add q i qt) = lv q + qt * Bp i /\
  firstn i (upd_add q i qt) = firstn i q /\ nth i (upd_add q i qt) 0 = nth i q 0 + qt.
Proof. rewrite Bp_eq. apply upd_add_spec. Qed.
Lemma in_subNP x y :
  limbs x -> limbs y -> length x = length y ->
  let '(out, c) := in_subN x y in
  limbs out /\ length out = length x /\
  lv out - (if c then Bp (length x) else 0) = lv x - lv y.
Proof. rewrite Bp_eq. apply in_subN_spec. Qed.

Lemma prim_compare_eqlen a b : length a = length b -> limbs a -> limbs b -> prim_compare a b = (lv a ?= lv b).
Proof.
  intros E Ha Hb. unfold prim_compare. rewrite E, Nat.eqb_refl. cbn [negb]. apply cmp_limbs_spec; auto.
Qed.

(** ** One turn of the loop *)

(** the loop condition *)
Lemma div_cmp x y : limbs x -> limbs y -> (1 <= length y)%nat -> last y 0 <> 0 ->
  ((length y <= length x)%nat -> last x 0 <> 0) ->
  match prim_compare x y with
  | Lt => lv x < lv y
  | _ => (length y <= length x)%nat /\ lv y <= lv x
  end.
Proof.
  intros Hx Hy HyL Hyt Hlast.
  pose proof (last_lbP y Hy HyL Hyt) as Ylb. pose proof (lv_boundP y Hy) as Yub.
  destruct (Nat.eq_dec (length x) (length y)) as [E|E].
  - rewrite prim_compare_eqlen by auto. rewrite E.
    destruct (Z.compare_spec (lv x) (lv y)); [split; lia | assumption | split; lia].
  - unfold prim_compare. rewrite (proj2 (Nat.eqb_neq _ _) E). cbn [negb].
    destruct (Nat.ltb_spec (length y) (length x)) as [L|L].
    + pose proof (last_lbP x Hx ltac:(lia) (Hlast ltac:(lia))) as LB.
      pose proof (Bp_mono (length y) (length x - 1) ltac:(lia)). split; lia.
    + pose proof (lv_boundP x Hx). pose proof (Bp_mono (length x) (length y - 1) ltac:(lia)). lia.
Qed.

(** the position of the next digit *)
Lemma div_pos x y : limbs x -> limbs y -> (1 <= length y)%nat -> last y 0 <> 0 -> last x 0 <> 0 ->
  (length y <= length x)%nat -> lv y <= lv x ->
  let less := match prim_compare (skipn (length x - length y) x) y with Lt => true | _ => false end in
  let len := if less then S (length y) else length y in
  let pos := (length x - len)%nat in
  (len <= length x)%nat /\ lv y * Bp pos <= lv x < lv y * Bp (S pos).
Proof.
  intros Hx Hy HyL Hyt Hxt Hlen HYX. cbn zeta.
  pose proof (last_lbP y Hy HyL Hyt) as Ylb. pose proof (lv_boundP y Hy) as Yub.
  pose proof (lv_boundP x Hx) as Xub.
  pose proof (last_lbP x Hx ltac:(lia) Hxt) as Xlb.
  assert (Hsk : limbs (skipn (length x - length y) x)) by (apply limbs_skipn; auto).
  assert (HskL : length (skipn (length x - length y) x) = length y) by (rewrite skipn_length; lia).
  rewrite prim_compare_eqlen by auto.
  pose proof (lv_splitP (length x - length y) x) as SP. rewrite firstn_length_le in SP by lia.
  pose proof (lv_nonneg _ (limbs_firstn (length x - length y) x Hx)) as Nf.
  pose proof (lv_boundP _ (limbs_firstn (length x - length y) x Hx)) as Uf. rewrite firstn_length_le in Uf by lia.
  assert (Hge : lv y <= lv (skipn (length x - length y) x) ->
    lv y * Bp (length x - length y) <= lv x < lv y * Bp (S (length x - length y))).
  { intros G. pose proof (Bp_pos (length x - length y)) as Pp. split.
    - rewrite SP. set (b := Bp (length x - length y)) in *. clearbody b. nia.
    - apply Z.lt_le_trans with (1 := Xub).
      replace (length x) with ((length y - 1) + S (length x - length y))%nat at 1 by lia.
      rewrite Bp_add. apply Z.mul_le_mono_nonneg_r; [|exact Ylb].
      pose proof (Bp_pos (S (length x - length y))). lia. }
  destruct (Z.compare_spec (lv (skipn (length x - length y) x)) (lv y)) as [C|C|C].
  - split; [lia|]. apply Hge. lia.
  - assert (L : (length y < length x)%nat).
    { destruct (Nat.eq_dec (length x) (length y)) as [E|E]; [|lia]. exfalso. rewrite E, Nat.sub_diag in C.
      cbn [skipn] in C. lia. }
    split; [lia|].
    replace (S (length x - S (length y))) with (length x - length y)%nat by lia. split.
    + apply Z.le_trans with (2 := Xlb). replace (length x - 1)%nat with (length y + (length x - S (length y)))%nat by lia.
      rewrite Bp_add. pose proof (Bp_pos (length x - S (length y))). nia.
    + rewrite SP. pose proof (Bp_pos (length x - length y)) as Pp.
      set (b := Bp (length x - length y)) in *. clearbody b. nia.
  - split; [lia|]. apply Hge. lia.
Qed.

(** the scaled estimate stays below the true digit *)
Lemma est_scale qt Ty Tx Y X xn yn pos k :
  0 <= qt -> 0 <= Tx -> qt * (Ty + 1) <= Tx * Bp k ->
  Y < (Ty + 1) * Bp (yn - 2) -> Tx * Bp (xn - 2) <= X ->
  (xn - 2 = k + (yn - 2) + pos)%nat ->
  qt * Y * Bp pos <= X.
Proof.
  intros Q0 T0 Q1 HY HX E. apply Z.le_trans with (2 := HX). rewrite E, !Bp_add.
  pose proof (Bp_pos k) as Pk. pose proof (Bp_pos (yn - 2)) as Py. pose proof (Bp_pos pos) as Pp.
  set (b := Bp (yn - 2)) in *. set (c := Bp k) in *. set (d := Bp pos) in *.
  clearbody b c d. clear E HX.
  assert (H1 : qt * Y <= qt * ((Ty + 1) * b)) by (apply Z.mul_le_mono_nonneg_l; lia).
  assert (H2 : qt * (Ty + 1) * b <= Tx * c * b) by (apply Z.mul_le_mono_nonneg_r; lia).
  replace (Tx * (c * b * d)) with (Tx * c * b * d) by ring.
  apply Z.mul_le_mono_nonneg_r; lia.
Qed.

(** [estOK yt y]: yt is an upper approximation of y good enough for the estimate *)
Definition estOK (yt : dbl) (y : list Z) : Prop :=
  exists T, dnorm yt /\ -60 <= snd yt <= 20 /\ 0 <= T /\
    ((2 ^ 53 + 1) * ((T + 1) * W) <= 2 ^ 53 * (dv yt * B) \/
     (fst yt = 2 ^ 52 /\ (T + 1) * W <= dv yt * B)) /\
    lv y < (T + 1) * Bp (length y - 2).

Lemma div_digit x y yt (less : bool) pos :
  limbs x -> (2 <= length y)%nat -> 0 < lv y ->
  (length y <= length x)%nat -> last x 0 <> 0 ->
  estOK yt y ->
  (length x - length y = (if less then 1 else 0) + pos)%nat ->
  lv y * Bp pos <= lv x < lv y * Bp (S pos) ->
  exists xt v qt,
    getApp x false = Ok xt /\ fdiv (if less then fmul2_64 xt else xt) yt = Ok v /\ to_u64 v = Ok qt /\
    (let q := if qt =? 0 then 1 else qt in 1 <= q < B /\ q * lv y * Bp pos <= lv x).
Proof.
  intros Hx HyL HYp Hlen Hxt (Ty & Ny & Ry & HT & HC & HY) Epos Hbr.
  destruct (getApp_down x Hx) as (xt & Tx & Ext & Nx & Rx & LBx & HTx & LVx); [lia|auto|]. rewrite <- Bp_eq in LVx.
  pose proof B_pos as PB. pose proof (p2pos 256 ltac:(lia)) as PW.
  assert (Hxt' : dnorm (if less then fmul2_64 xt else xt) /\ -60 <= snd (if less then fmul2_64 xt else xt) <= 100 /\
     dv (if less then fmul2_64 xt else xt) * B <= Tx * Bp (if less then 1 else 0) * W).
  { destruct less.
    - unfold fmul2_64, dnorm, dv in *. cbn [fst snd]. split; [exact Nx|]. split; [lia|].
      replace (snd xt + 64 + 256) with (snd xt + 256 + 64) by lia.
      rewrite (Z.pow_add_r 2 (snd xt + 256) 64) by lia. change (2 ^ 64) with 18446744073709551616.
      rewrite <- B_val. rewrite Bp_1.
      set (w := W) in *. set (p := fst xt * 2 ^ (snd xt + 256)) in *.
      replace (fst xt * (2 ^ (snd xt + 256) * B) * B) with (p * B * B) by (unfold p; ring).
      clearbody w p. clear - LBx PB. nia.
    - split; [exact Nx|]. split; [lia|]. rewrite Bp_0, Z.mul_1_r. exact LBx. }
  destruct Hxt' as (N1 & N2 & N3).
  destruct (fdiv_under _ yt Ty N1 Ny N2 Ry HT HC) as (v & Ev & V0 & V1).
  clear HC Ny Ry N1 N2 Rx Nx LBx.
  assert (Q0 : 0 <= dv v / W) by (apply Z.div_pos; lia).
  set (k := if less then 1%nat else 0%nat) in *.
  set (xt' := dv (if less then fmul2_64 xt else xt)) in *.
  assert (Q1 : dv v / W * (Ty + 1) <= Tx * Bp k).
  { pose proof (Z.mul_div_le (dv v) W ltac:(lia)) as MD. set (w := W) in *. set (d := dv v / w) in *.
    set (Bk := Bp k) in *. clearbody w d xt' Bk.
    clear - MD V1 N3 PW HT.
    assert (w * d * (Ty + 1) <= dv v * (Ty + 1)) by (apply Z.mul_le_mono_nonneg_r; lia).
    assert (H0 : w * (d * (Ty + 1)) <= w * (Tx * Bk)) by lia.
    apply Z.mul_le_mono_pos_l in H0; auto. }
  assert (Q2 : dv v / W * lv y * Bp pos <= lv x).
  { apply (est_scale _ Ty Tx _ _ (length x) (length y) pos k); auto. lia. }
  rewrite Bp_S in Hbr. pose proof (Bp_pos pos) as Ppos.
  set (d := dv v / W) in *. 
  assert (HdB : d < B).
  { clear - Hbr Q2 HYp Ppos. set (bp := Bp pos) in *. clearbody d bp.
    assert (H : d * (lv y * bp) < B * (lv y * bp)) by lia. apply Z.mul_lt_mono_pos_r in H; auto. nia. }
  exists xt, v, d. split; [exact Ext|]. split; [exact Ev|]. split.
  - unfold to_u64. fold d. destruct (Z.ltb_spec d B); [reflexivity|lia].
  - cbn zeta. destruct (Z.eqb_spec d 0) as [E|E].
    + split; [pose proof B_val; lia|]. lia.
    + split; [lia|exact Q2].
Qed.

(** the subtraction at position pos *)
Lemma div_sub x y qt len pos :
  limbs x -> limbs y -> (len <= length x)%nat -> pos = (length x - len)%nat -> (len <= S (length y))%nat ->
  1 <= qt < B -> qt * lv y * Bp pos <= lv x ->
  exists hi c, in_subN (skipn pos x) (firstn len (in_mul y qt)) = (hi, c) /\
    limbs (firstn pos x ++ hi) /\ length (firstn pos x ++ hi) = length x /\
    lv (firstn pos x ++ hi) = lv x - qt * lv y * Bp pos.
Proof.
  intros Hx Hy Hlen Epos Hlen2 Rq Hqx.
  destruct (in_mul_spec y qt Hy ltac:(unfold isU; lia)) as (M1 & M2 & M3).
  pose proof (lv_splitP pos x) as SP2. rewrite firstn_length_le in SP2 by lia.
  pose proof (lv_nonneg _ (limbs_firstn pos x Hx)) as Nf2.
  pose proof (lv_boundP _ (limbs_firstn pos x Hx)) as Uf2. rewrite firstn_length_le in Uf2 by lia.
  assert (Hsk2 : limbs (skipn pos x)) by (apply limbs_skipn; auto).
  assert (HskL2 : length (skipn pos x) = len) by (rewrite skipn_length; lia).
  pose proof (Bp_pos pos) as Ppos.
  assert (Htop : qt * lv y <= lv (skipn pos x)).
  { rewrite SP2 in Hqx. set (bp := Bp pos) in *. set (s := lv (skipn pos x)) in *. clearbody bp s.
    clear - Hqx Uf2 Ppos. nia. }
  assert (Hft : limbs (firstn len (in_mul y qt)) /\ length (firstn len (in_mul y qt)) = len /\
                lv (firstn len (in_mul y qt)) = qt * lv y).
  { split; [apply limbs_firstn; auto|]. split; [apply firstn_length_le; lia|].
    pose proof (lv_splitP len (in_mul y qt)) as S3. rewrite firstn_length_le in S3 by lia.
    pose proof (lv_boundP _ Hsk2) as U3. rewrite HskL2 in U3.
    pose proof (lv_nonneg _ (limbs_firstn len _ M1)). pose proof (lv_nonneg _ (limbs_skipn len _ M1)).
    pose proof (Bp_pos len). assert (lv (skipn len (in_mul y qt)) = 0) by nia. nia. }
  destruct Hft as (F1 & F2 & F3).
  pose proof (in_subNP (skipn pos x) (firstn len (in_mul y qt)) Hsk2 F1 ltac:(lia)) as HS.
  destruct (in_subN (skipn pos x) (firstn len (in_mul y qt))) as [hi c]. destruct HS as (S1 & S2 & S3).
  rewrite HskL2 in *. rewrite F3 in S3. exists hi, c. split; [reflexivity|].
  assert (c = false).
  { destruct c; auto. pose proof (lv_boundP hi S1) as U. rewrite S2 in U. lia. }
  subst c. rewrite Z.sub_0_r in S3.
  split; [apply limbs_app; split; [apply limbs_firstn; auto|auto]|].
  split; [rewrite app_length, firstn_length_le, S2 by lia; lia|].
  rewrite lv_appP, firstn_length_le, S3, SP2 by lia. ring.
Qed.

(** the quotient digits never overflow *)
Lemma div_q q P pos qt Y X X' :
  limbs q -> (P < length q)%nat -> (pos < length q)%nat -> firstn P q = repeat 0 P ->
  0 < Y -> 0 <= X' -> 1 <= qt ->
  nth P q 0 * Y * Bp P + X < Y * Bp (S P) ->
  Y * Bp pos <= X < Y * Bp (S pos) ->
  X' = X - qt * Y * Bp pos ->
  limbs (upd_add q pos qt) /\ length (upd_add q pos qt) = length q /\
  lv (upd_add q pos qt) = lv q + qt * Bp pos /\
  firstn pos (upd_add q pos qt) = repeat 0 pos /\
  nth pos (upd_add q pos qt) 0 * Y * Bp pos + X' < Y * Bp (S pos).
Proof.
  intros Hq HP Hpos HP0 HYp HX' Rq HPd Hbr EX'.
  assert (HPP : (pos <= P)%nat).
  { destruct (Nat.le_gt_cases pos P) as [|C]; auto. exfalso.
    pose proof (Bp_mono (S P) pos ltac:(lia)) as M.
    assert (nthP : 0 <= nth P q 0).
    { assert (isU (nth P q 0)). { apply (proj1 (Forall_forall isU q) Hq). apply nth_In. lia. } unfold isU in *; lia. }
    pose proof (Bp_pos P). assert (0 <= nth P q 0 * Y * Bp P) by nia.
    assert (Y * Bp (S P) <= Y * Bp pos) by (apply Z.mul_le_mono_nonneg_l; lia). lia. }
  assert (HD : nth pos q 0 * Y * Bp pos + X < Y * Bp (S pos)).
  { destruct (Nat.eq_dec pos P) as [->|NE]; [exact HPd|].
    rewrite (nth_of_firstn0 q P pos HP0) by lia. lia. }
  assert (HD2 : nth pos q 0 + qt < B).
  { rewrite Bp_S in HD. pose proof (Bp_pos pos) as Ppos.
    clear - HD EX' HX' HYp Ppos.
    set (bp := Bp pos) in *. set (d := nth pos q 0) in *. clearbody bp d.
    assert (H : (d + qt) * (Y * bp) < B * (Y * bp)) by lia. apply Z.mul_lt_mono_pos_r in H; auto. nia. }
  destruct (upd_addP q pos qt Hq Hpos ltac:(lia) HD2) as (U1 & U2 & U3 & U4 & U5).
  split; [exact U1|]. split; [exact U2|]. split; [exact U3|].
  split; [rewrite U4; apply (firstn_repeat0 q P); auto|].
  rewrite U5, EX'. lia.
Qed.

Section DivLoop.
Variables (y : list Z) (yt : dbl) (X0 : Z) (qn : nat).
Hypothesis Hy : limbs y.
Hypothesis HyL : (2 <= length y)%nat.
Hypothesis Hyt : last y 0 <> 0.
Hypothesis Hest : estOK yt y.

Definition divInv (s : list Z * list Z) : Prop :=
  let '(x, q) := s in
  limbs x /\ limbs q /\ length q = qn /\
  (length x <= length y + qn - 1)%nat /\
  ((length y <= length x)%nat -> last x 0 <> 0) /\
  lv q * lv y + lv x = X0 /\
  exists P, (P < qn)%nat /\ firstn P q = repeat 0 P /\
    nth P q 0 * lv y * Bp P + lv x < lv y * Bp (S P).

Definition divPost (s : list Z * list Z) : Prop :=
  let '(x, q) := s in
  limbs x /\ limbs q /\ length q = qn /\ (length x <= length y + qn - 1)%nat /\
  lv q * lv y + lv x = X0 /\ lv x < lv y.

Lemma div_body_ok s : divInv s ->
  match div_body y yt s with
  | Ok (Next s') => divInv s' /\ 0 <= lv (fst s') < lv (fst s)
  | Ok (Done r) => divPost r
  | _ => False
  end.
Proof.
  intros HI. destruct s as [x q]. destruct HI as (Hx & Hq & Hqn & HxL & Hlast & HE & P & HP & HP0 & HPd).
  assert (HYp : 0 < lv y).
  { pose proof (last_lbP y Hy ltac:(lia) Hyt). pose proof (Bp_pos (length y - 1)). lia. }
  pose proof (div_cmp x y Hx Hy ltac:(lia) Hyt Hlast) as Hcmp.
  unfold div_body.
  destruct (prim_compare x y); [| cbn; auto 10 |].
  all: destruct Hcmp as [Hlen HYX]; specialize (Hlast Hlen);
    pose proof (div_pos x y Hx Hy ltac:(lia) Hyt Hlast Hlen HYX) as HPos; cbn zeta in HPos;
    set (less := match prim_compare (skipn (length x - length y) x) y with Lt => true | _ => false end) in *;
    set (len := if less then S (length y) else length y) in *;
    set (pos := (length x - len)%nat) in *;
    destruct HPos as [Hlen2 Hbr];
    destruct (div_digit x y yt less pos Hx HyL HYp Hlen Hlast Hest) as (xt & v & qt0 & -> & Ev & Eq & Hq0);
    [ unfold pos, len; destruct less; unfold len in Hlen2; cbn [Nat.add]; lia | exact Hbr |];
    cbn [bind]; cbn zeta in *;
    (destruct (Nat.ltb_spec (length x) len) as [C|_]; [exfalso; clear - C Hlen2; lia|]);
    rewrite Ev; cbn [bind]; rewrite Eq; cbn [bind];
    set (qt := if qt0 =? 0 then 1 else qt0) in *;
    destruct Hq0 as [Rq Hqx];
    destruct (div_sub x y qt len pos Hx Hy Hlen2 eq_refl) as (hi & c & -> & X1 & X2 & X3);
    [ unfold len; destruct less; clear; lia | exact Rq | exact Hqx |];
    set (x' := firstn pos x ++ hi) in *;
    destruct (drop_top_spec (rev x') (length y) (limbs_rev _ X1) ltac:(clear - HyL; lia)) as (D1 & D2 & D3 & D4);
    cbn zeta in *; set (r := drop_top (rev x') (length y)) in *; rewrite rev_involutive in D2; rewrite rev_length in D3;
    pose proof (lv_nonneg x' X1) as Nx';
    (assert (Hpos : (pos < length q)%nat) by
      (unfold pos, len; clear - Hlen HxL Hqn HyL; destruct less; lia));
    destruct (div_q q P pos qt (lv y) (lv x) (lv x') Hq ltac:(clear - HP Hqn; lia) Hpos HP0 HYp Nx' ltac:(clear - Rq; lia) HPd Hbr X3)
      as (U1 & U2 & U3 & U4 & U5);
    cbn [fst]; rewrite D2; (split;
    [ split; [apply limbs_rev; auto|]; split; [exact U1|]; split; [clear - U2 Hqn; lia|];
      split; [rewrite rev_length; clear - D3 X2 HxL; lia|];
      split; [rewrite rev_length, rev_last; exact D4|];
      split; [rewrite U3, D2, X3, <- HE; ring|];
      exists pos; split; [clear - Hpos Hqn; lia|]; split; [exact U4|];
      rewrite D2; exact U5
    | split; [exact Nx'|]; rewrite X3; pose proof (Bp_pos pos) as Ppos;
      assert (0 < qt * lv y * Bp pos); [|lia];
      apply Z.mul_pos_pos; [apply Z.mul_pos_pos; [clear - Rq; lia|exact HYp]|exact Ppos] ]).
Qed.
End DivLoop.

Lemma getApp_est y : limbs y -> (2 <= length y)%nat -> last y 0 <> 0 ->
  exists t, getApp y true = Ok t /\ estOK t y.
Proof.
  intros Hy HyL Hyt. destruct (getApp_up y Hy HyL Hyt) as (t & T & E & H).
  exists t. split; [exact E|]. exists T. rewrite Bp_eq. tauto.
Qed.

Lemma B9_600 : B ^ 9 < 2 ^ 600.
Proof. rewrite B_val. reflexivity. Qed.

Lemma raw_div_ok x y : limbs x -> limbs y -> (2 <= length y <= length x)%nat -> (length x <= 9)%nat ->
  (length y < 9)%nat -> last x 0 <> 0 -> last y 0 <> 0 ->
  exists q r, raw_div x y = Ok (q, r) /\ limbs q /\ limbs r /\
    length q = (length x - length y + 1)%nat /\ length r = length x /\
    lv x = lv q * lv y + lv r /\ lv r < lv y.
Proof.
  intros Hx Hy HL HxL HyL9 Hxt Hyt. unfold raw_div.
  rewrite alloc_ok by (unfold cap; lia). cbn [bind].
  destruct (getApp_est y Hy ltac:(lia) Hyt) as (yt & -> & Hest). cbn [bind].
  set (q0 := repeat 0 (length x - length y + 1)).
  pose proof (last_lbP y Hy ltac:(lia) Hyt) as Ylb. pose proof (lv_boundP x Hx) as Xub.
  assert (HI : divInv y (lv x) (length x - length y + 1) (x, q0)).
  { split; [exact Hx|]. split; [apply limbs_repeat0|]. split; [apply repeat_length|]. split; [lia|].
    split; [auto|]. split; [unfold q0; rewrite lv_repeat0; lia|].
    exists (length x - length y)%nat. split; [lia|]. split.
    - apply (firstn_repeat0 q0 (length x - length y + 1)); [|lia]. unfold q0.
      rewrite <- (repeat_length 0 (length x - length y + 1)) at 1. apply firstn_all.
    - unfold q0. rewrite nth_repeat.
      replace (0 * lv y * Bp (length x - length y) + lv x) with (lv x) by ring. apply Z.lt_le_trans with (1 := Xub).
      replace (length x) with ((length y - 1) + S (length x - length y))%nat at 1 by lia.
      rewrite Bp_add. apply Z.mul_le_mono_nonneg_r; [|exact Ylb].
      pose proof (Bp_pos (S (length x - length y))). lia. }
  destruct (loopR_total (div_body y yt) (divInv y (lv x) (length x - length y + 1))
     (divPost y (lv x) (length x - length y + 1)) (fun s => lv (fst s))) with (k := 600%nat) (s := (x, q0))
     as (r & E & HP); auto.
  - intros s Hs. apply div_body_ok; auto. lia.
  - cbn [fst]. change (Z.of_nat 600) with 600. pose proof B9_600.
    pose proof (Bp_mono (length x) 9 HxL) as M. rewrite (Bp_eq 9) in M. change (Z.of_nat 9) with 9 in M. lia.
  - rewrite E. cbn [bind]. destruct r as [x' q']. destruct HP as (P1 & P2 & P3 & P4 & P5 & P6).
    exists q', (x' ++ repeat 0 (length x - length x')). split; [reflexivity|]. split; [exact P2|].
    split; [apply limbs_app; split; [exact P1|apply limbs_repeat0]|]. split; [exact P3|].
    split; [rewrite app_length, repeat_length; lia|].
    rewrite lv_appP, lv_repeat0, Z.mul_0_r, Z.add_0_r. split; lia.
Qed.

Lemma divmod_unique q r x y : 0 <= r < y -> x = q * y + r -> q = x / y /\ r = x mod y.
Proof.
  intros Hr E. split.
  - apply Z.div_unique with r; lia.
  - apply Z.mod_unique with q; lia.
Qed.

Lemma vwf_last x : vwf x -> (2 <= length x)%nat -> last x 0 <> 0.
Proof. intros (_ & _ & [H|H]) HL; [lia|exact H]. Qed.

Lemma vcompare_gt_len x y : prim_compare x y = Gt -> (length y <= length x)%nat.
Proof.
  unfold prim_compare. destruct (Nat.eqb_spec (length x) (length y)); cbn [negb]; [lia|].
  destruct (Nat.ltb_spec (length y) (length x)); [lia|discriminate].
Qed.

Lemma vdiv_ok x y : vwf x -> vwf y -> lv y <> 0 -> (length y < 9)%nat ->
  exists q r, vdiv x y = Ok (Some (q, r)) /\ vwf q /\ vwf r /\ lv q = lv x / lv y /\ lv r = lv x mod lv y.
Proof.
  intros Hx Hy HY HyL. pose proof (vwf_len x Hx) as Lx. pose proof (vwf_len y Hy) as Ly.
  pose proof (vwf_nonneg x Hx) as X0. pose proof (vwf_nonneg y Hy) as Y0.
  assert (V : forall a, isU a -> vwf (vset a) /\ lv (vset a) = a) by apply vset_vwf.
  unfold cap in *.
  assert (Hgen : (2 <= length y)%nat -> exists q r,
     (match prim_compare x y with
      | Lt => Ok (Some (vset 0, x))
      | Eq => Ok (Some (vset 1, vset 0))
      | Gt => let! _ := alloc (length x - length y + 1) in
              let! (q, r) := raw_div x y in Ok (Some (trim q, trim r))
      end) = Ok (Some (q, r)) /\ vwf q /\ vwf r /\ lv q = lv x / lv y /\ lv r = lv x mod lv y).
  { intros L2. pose proof (vcompare_spec x y Hx Hy) as HC. unfold vcompare in HC.
    destruct (V 0 (b2z_isU false)) as [V0 V0']. destruct (V 1 (b2z_isU true)) as [V1 V1'].
    destruct (prim_compare x y) eqn:EC.
    - symmetry in HC. apply Z.compare_eq in HC. exists (vset 1), (vset 0).
      split; [reflexivity|]. split; [exact V1|]. split; [exact V0|].
      rewrite V1', V0', HC, Z.div_same, Z.mod_same by lia. auto.
    - symmetry in HC. rewrite Z.compare_lt_iff in HC. exists (vset 0), x.
      split; [reflexivity|]. split; [exact V0|]. split; [exact Hx|].
      rewrite V0', Z.div_small, Z.mod_small by lia. auto.
    - pose proof (vcompare_gt_len x y EC) as HLc.
      rewrite alloc_ok by (unfold cap; lia). cbn [bind].
      destruct (raw_div_ok x y) as (q & r & -> & D1 & D2 & D3 & D4 & D5 & D6);
        try (apply vwf_limbs; auto); try (apply vwf_last; auto; lia); try lia.
      cbn [bind]. exists (trim q), (trim r).
      destruct (trim_vwf q D1) as [T1 T2]; [unfold cap; lia|].
      destruct (trim_vwf r D2) as [T3 T4]; [unfold cap; lia|].
      split; [reflexivity|]. split; [exact T1|]. split; [exact T3|].
      rewrite T2, T4. apply divmod_unique; [|exact D5].
      split; [apply lv_nonneg; auto|exact D6]. }
  unfold vdiv. destruct y as [|y0 [|y1 y]].
  - cbn in Ly. lia.
  - cbn [lv] in HY. destruct (Z.eqb_spec y0 0) as [E|E]; [lia|].
    assert (Hy0 : isU y0) by (destruct Hy as [Hy _]; apply limbs_cons in Hy; tauto).
    destruct (vdiv1_ok x y0 Hx) as (q & r & -> & D1 & D2 & D3); [unfold isU in Hy0; lia|].
    cbn [bind]. destruct (V r) as [V1 V2]; [unfold isU in *; lia|].
    exists q, (vset r). split; [reflexivity|]. split; [exact D1|]. split; [exact V1|].
    rewrite V2. cbn [lv]. rewrite Z.mul_0_r, Z.add_0_r. apply divmod_unique; auto.
  - apply Hgen. cbn [length]. lia.
Qed.

Lemma vdiv_zero x y : vwf y -> lv y = 0 -> vdiv x y = Ok None.
Proof. intros Hy E. rewrite (vwf_zero y Hy E). reflexivity. Qed.

(** with a divisor of nine units the temporary buffer is too small *)
Lemma vdiv_nine x y : vwf x -> vwf y -> length y = 9%nat -> lv y < lv x -> vdiv x y = Exit.
Proof.
  intros Hx Hy HL HC. unfold vdiv.
  destruct y as [|y0 [|y1 y]]; try discriminate HL.
  pose proof (vcompare_spec x (y0 :: y1 :: y) Hx Hy) as E. unfold vcompare in E. rewrite E.
  rewrite (proj2 (Z.compare_gt_iff _ _) HC).
  pose proof (vwf_len x Hx). unfold cap in *.
  rewrite alloc_ok by (unfold cap; rewrite HL; lia). cbn [bind]. unfold raw_div.
  rewrite HL, alloc_exit by (unfold cap; lia). reflexivity.
Qed.

Lemma vdiv_nine_le x y : vwf x -> vwf y -> (2 <= length y)%nat -> lv x <= lv y ->
  vdiv x y = Ok (Some (if lv x =? lv y then (vset 1, vset 0) else (vset 0, x))).
Proof.
  intros Hx Hy HL HC. unfold vdiv.
  destruct y as [|y0 [|y1 y]]; cbn [length] in HL; try lia.
  pose proof (vcompare_spec x (y0 :: y1 :: y) Hx Hy) as E. unfold vcompare in E. rewrite E.
  destruct (Z.compare_spec (lv x) (lv (y0 :: y1 :: y))) as [C|C|C]; [| |lia].
  - rewrite (proj2 (Z.eqb_eq _ _) C). reflexivity.
  - rewrite (proj2 (Z.eqb_neq _ _)) by lia. reflexivity.
Qed.

Lemma vmod_vdiv x y : vwf x -> vwf y -> (length y < 9)%nat ->
  vmod x y = match vdiv x y with
             | Ok (Some (_, r)) => Ok (Some r) | Ok None => Ok None
             | Exit => Exit | Throw => Throw | UB => UB | Diverge => Diverge end.
Proof.
  intros Hx Hy HL. pose proof (vwf_len x Hx) as Lx. unfold cap in *.
  unfold vmod, vdiv. destruct y as [|y0 [|y1 y]].
  - destruct Hy as (_ & Hy & _). cbn in Hy. lia.
  - destruct (Z.eqb_spec y0 0) as [E|E]; [reflexivity|].
    assert (Hy0 : isU y0) by (destruct Hy as [Hy _]; apply limbs_cons in Hy; tauto).
    unfold isU in Hy0. unfold vdiv1. destruct (Z.eqb_spec y0 0); [contradiction|].
    rewrite alloc_ok by (unfold cap; lia). cbn [bind].
    rewrite (in_mod_spec x y0). destruct (in_div x y0) as [q r]. reflexivity.
  - destruct (prim_compare x (y0 :: y1 :: y)); try reflexivity.
    rewrite alloc_ok by (unfold cap; cbn [length] in *; lia). cbn [bind].
    destruct (raw_div x (y0 :: y1 :: y)) as [[q r]| | | |]; reflexivity.
Qed.

(** ** bitLen *)
Lemma lv_log2 x : limbs x -> (1 <= length x)%nat -> last x 0 <> 0 ->
  Z.log2 (lv x) = 64 * (Z.of_nat (length x) - 1) + Z.log2 (last x 0).
Proof.
  intros Hx HL Ht. assert (Hn : x <> []) by (intros ->; cbn in HL; lia).
  rewrite (app_removelast_last 0 Hn) in Hx |- *. rewrite last_last.
  set (h := last x 0) in *. set (t := removelast x) in *.
  rewrite lv_app, app_length. cbn [lv length].
  apply limbs_app in Hx. destruct Hx as [H1 H2]. apply limbs_cons in H2. destruct H2 as [H2 _].
  pose proof (lv_nonneg t H1) as N. pose proof (lv_bound t H1) as U. unfold isU in H2.
  assert (EB : B ^ Z.of_nat (length t) = 2 ^ (64 * Z.of_nat (length t))).
  { rewrite B_val. change 18446744073709551616 with (2 ^ 64). rewrite <- Z.pow_mul_r by lia. reflexivity. }
  rewrite EB in *. replace (h + B * 0) with h by lia.
  set (n := 64 * Z.of_nat (length t)) in *. assert (0 <= n) by lia.
  pose proof (Z.log2_spec h ltac:(lia)) as LS. pose proof (Z.log2_nonneg h).
  apply Z.log2_unique; [lia|].
  replace (64 * (Z.of_nat (length t + 1) - 1) + Z.log2 h) with (n + Z.log2 h) by lia.
  unfold Z.succ in *. rewrite (Z.pow_add_r 2 (n + Z.log2 h) 1), !Z.pow_add_r in * by lia.
  rewrite Z.pow_1_r in *. pose proof (p2pos n ltac:(lia)). set (p := 2 ^ n) in *. set (l := 2 ^ Z.log2 h) in *.
  clearbody p l. clear - LS N U H3. nia.
Qed.

(** x's top unit rounds up to a power of two when converted to double *)
Definition starts_with_54_ones (h : Z) : bool :=
  (53 <=? Z.log2 h) && (2 ^ 54 - 1 <=? h / 2 ^ (Z.log2 h - 53)).

Lemma vbitLen_spec x : vwf x ->
  vbitLen x = Ok (if lv x =? 0 then 0 else
                  Z.log2 (lv x) + 1 + (if starts_with_54_ones (last x 0) then 1 else 0)).
Proof.
  intros Hx. unfold vbitLen. rewrite (visZero_spec x Hx). destruct (Z.eqb_spec (lv x) 0) as [E|E]; [reflexivity|].
  pose proof (vwf_len x Hx) as HL. pose proof (vwf_limbs x Hx) as Hl.
  assert (Ht : last x 0 <> 0).
  { destruct Hx as (_ & _ & [H|H]); [|exact H]. destruct x as [|d [|]]; try discriminate H.
    cbn [lv last] in *. lia. }
  assert (HU : 0 < last x 0 < 2 ^ 64).
  { assert (isU (last x 0)).
    { apply (proj1 (Forall_forall isU x) Hl). rewrite (app_removelast_last 0 (vwf_nonnil x Hx)) at 2.
      apply in_or_app. right. left. reflexivity. }
    rewrite isU_2_64 in H. lia. }
  destruct (of_u64_spec (last x 0) HU) as (m & e & -> & N & R & _ & RU). cbn [bind]. f_equal.
  unfold expo_len. cbn [snd]. rewrite (lv_log2 x Hl ltac:(lia) Ht). unfold starts_with_54_ones.
  set (h := last x 0) in *. 
  destruct (Z.leb_spec 53 (Z.log2 h)) as [C|C]; cbn [andb].
  - destruct (Z.leb_spec (2 ^ 54 - 1) (h / 2 ^ (Z.log2 h - 53))) as [C2|C2].
    + assert (e = Z.log2 h - 51) by (apply RU; auto). lia.
    + assert (e <> Z.log2 h - 51) by (intros E2; apply RU in E2; lia). lia.
  - assert (e <> Z.log2 h - 51) by (intros E2; apply RU in E2; lia). lia.
Qed.

(** ** Forms used by the property file *)
Lemma vdiv_euclid x y : vwf x -> vwf y -> lv y <> 0 -> (length y < 9)%nat ->
  exists q r, vdiv x y = Ok (Some (q, r)) /\ vwf q /\ vwf r /\
              lv x = lv q * lv y + lv r /\ 0 <= lv r < lv y.
Proof.
  intros Hx Hy Y L. destruct (vdiv_ok x y Hx Hy Y L) as (q & r & E & Q & R & E1 & E2).
  exists q, r. rewrite E1, E2. pose proof (vwf_nonneg y Hy).
  split; [exact E|]. split; [exact Q|]. split; [exact R|]. split.
  - rewrite Z.mul_comm. apply Z.div_mod. exact Y.
  - apply Z.mod_pos_bound. lia.
Qed.

Lemma vmod_ok x y : vwf x -> vwf y -> lv y <> 0 -> (length y < 9)%nat ->
  exists r, vmod x y = Ok (Some r) /\ vwf r /\ lv r = lv x mod lv y.
Proof.
  intros Hx Hy Y L. destruct (vdiv_ok x y Hx Hy Y L) as (q & r & E & Q & R & E1 & E2).
  exists r. rewrite (vmod_vdiv x y Hx Hy L), E. auto.
Qed.

Lemma vdiv_nine_euclid x y : vwf x -> vwf y -> length y = 9%nat -> lv x <= lv y ->
  exists q r, vdiv x y = Ok (Some (q, r)) /\ vwf q /\ vwf r /\
              lv x = lv q * lv y + lv r /\ 0 <= lv r < lv y.
Proof.
  intros Hx Hy L C. rewrite (vdiv_nine_le x y Hx Hy) by lia.
  pose proof (vwf_nonneg y Hy) as Y0. pose proof (vwf_nonneg x Hx) as X0.
  assert (W0 : vwf (vset 0)) by (unfold vset; vwf_lit).
  assert (W1 : vwf (vset 1)) by (unfold vset; vwf_lit).
  assert (V0 : lv (vset 0) = 0) by reflexivity.
  assert (V1 : lv (vset 1) = 1) by reflexivity.
  assert (Y1 : lv y <> 0).
  { intros E. rewrite (vwf_zero y Hy E) in L. discriminate L. }
  destruct (Z.eqb_spec (lv x) (lv y)) as [E|E].
  - exists (vset 1), (vset 0). rewrite V0, V1. do 3 (split; [auto|]). lia.
  - exists (vset 0), x. rewrite V0. do 3 (split; [auto|]). lia.
Qed.

Lemma vdiv_exit_witness : exists x y, vwf x /\ vwf y /\ lv y <> 0 /\ vdiv x y = Exit.
Proof.
  exists [1;0;0;0;0;0;0;0;1], [0;0;0;0;0;0;0;0;1].
  split; [vwf_lit|]. split; [vwf_lit|]. split; [cbn [lv]; rewrite B_val; lia|]. vm_compute. reflexivity.
Qed.

Lemma vdiv_example :
  exists x y, vwf x /\ vwf y /\ lv y <> 0 /\ length y = 3%nat /\ length x = 5%nat /\
    vdiv x y = Ok (Some ([35; 5], [18446744073709551382; 18446744073709551287; 163])).
Proof.
  exists [11; 22; 18446744073709551615; 4; 5], [7; 9; 18446744073709551610].
  split; [vwf_lit|]. split; [vwf_lit|]. split; [cbn [lv]; rewrite B_val; lia|].
  split; [reflexivity|]. split; [reflexivity|]. vm_compute. reflexivity.
Qed.

Lemma vbitLen_nz x : vwf x -> lv x <> 0 ->
  vbitLen x = Ok (Z.log2 (lv x) + 1 + (if starts_with_54_ones (last x 0) then 1 else 0)).
Proof. intros H E. rewrite (vbitLen_spec x H). apply Z.eqb_neq in E. rewrite E. reflexivity. Qed.

Lemma vbitLen_z x : vwf x -> lv x = 0 -> vbitLen x = Ok 0.
Proof. intros H E. rewrite (vbitLen_spec x H), E. reflexivity. Qed.

Lemma vbitLen_witness : exists x, vwf x /\ lv x < B /\ vbitLen x = Ok 65.
Proof.
  exists [18446744073709551615]. split; [vwf_lit|]. split; [cbn [lv]; rewrite B_val; lia|]. vm_compute. reflexivity.
Qed.

Lemma vbitLen_example : exists x, vwf x /\ lv x <> 0 /\
  starts_with_54_ones (last x 0) = false /\ vbitLen x = Ok 67.
Proof.
  exists [7; 4]. split; [vwf_lit|]. split; [cbn [lv]; rewrite B_val; lia|]. split; vm_compute; reflexivity.
Qed.
