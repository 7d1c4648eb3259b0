From Coq Require Import ZArith Lia List Bool.
From Verif Require Import TextSpec Base Prim Loop Vuint VuintProofs StrSpec VStr VStrProofs Vsint Cfg FpSpec FpM FpProofs FpApi FpApiProofs TowerSpec TowerField TowerM Fp2Proofs Fp6Proofs ParamM Poly EcSpec EcM EcProofs EcInst EcApi TextM.
Import ListNotations.
Local Open Scope Z_scope.

(** Text of one number: decimal digits, or 0x and hexadecimal digits. *)
Definition numtext (s : list Z) : Prop :=
  (s <> [] /\ forallb (is_digit 10) s = true) \/ exists h, s = 48 :: 120 :: h /\ forallb (is_digit 16) h = true.
Definition plain (ch : Z) : Prop := is_space ch = false /\ ch <> 95 /\ ch <> 0.

Lemma is_digit_plain b ch : is_digit b ch = true -> plain ch.
Proof.
  unfold is_digit. intros H. apply andb_prop in H. destruct H as [H _]. apply Z.leb_le in H. pose proof (digit_of_cases ch). unfold plain, is_space. lia.
Qed.
Lemma getDigits_run16 s : forall pos f r, (2 <= pos)%nat -> forallb (is_digit 16) s = true -> not_digit_head r ->
  getDigits_loop false false pos f (s ++ r) = (s, r).
Proof.
  induction s as [|d s IH]; intros pos f r Hp Hd Hr.
  - cbn [app]. destruct r as [|ch r]; [reflexivity|]. cbn [getDigits_loop andb orb].
    cbn [not_digit_head] in Hr. destruct Hr as [H1 H2].
    destruct (Z.leb_spec 0 (digit_of ch)); [lia|]. destruct (Z.eqb_spec ch 120); [congruence|]. rewrite andb_false_r. reflexivity.
  - cbn [forallb] in Hd. apply andb_prop in Hd. destruct Hd as [D1 D2]. cbn [app getDigits_loop].
    unfold is_digit in D1. apply andb_prop in D1. destruct D1 as [D1 D3].
    rewrite andb_false_l, D1. cbn [orb]. rewrite (IH (S pos) _ r); auto.
Qed.
Lemma numtext_run ws s r : numtext s -> not_digit_head r -> getDigits false ws (s ++ r) = (s, r).
Proof.
  intros [[N D]|(h & -> & D)] Hr; unfold getDigits.
  - apply getDigits_run; auto.
  - cbn [app getDigits_loop]. change ((9 <=? 48) && (48 <=? 13) || (48 =? 32)) with false. rewrite andb_false_r.
    change (0 <=? digit_of 48) with true. cbn [orb andb Nat.eqb]. change (48 =? 48) with true. change (120 =? 120) with true. change (0 <=? digit_of 120) with false. cbn [orb andb].
    rewrite getDigits_run16; auto.
Qed.
Lemma numtext_plain s : numtext s -> Forall plain s.
Proof.
  assert (G : forall b h, forallb (is_digit b) h = true -> Forall plain h).
  { intros b h H. apply Forall_forall. intros x Hx. rewrite forallb_forall in H. apply (is_digit_plain b), H, Hx. }
  intros [[_ D]|(h & -> & D)]; [apply (G 10), D|]. constructor; [unfold plain; cbn; lia|]. constructor; [unfold plain; cbn; lia|]. apply (G 16), D.
Qed.
Lemma rd_digits_run ws s r : numtext s -> not_digit_head r -> rd_digits false ws (s ++ r, true) = (s, (r, live r)).
Proof. intros H Hr. unfold rd_digits. rewrite numtext_run; auto. Qed.
Lemma rd_char_run ws ch r : is_space ch = false -> rd_char ws (ch :: r, true) = (Some ch, (r, true)).
Proof.
  intros H. unfold rd_char. destruct ws; [|reflexivity]. cbn [skip_space]. unfold is_space in H. rewrite H. reflexivity.
Qed.

Section Fields.
Variable c : cfg.
Lemma fp_out_ok base x : base = 10 \/ base = 16 -> can c x ->
  exists s, fp_out c base x = Ok s /\ numtext s /\ fp_setStr c s = Ok x /\ (base = 16 -> hex_numeral s (zv (fv c x))) /\ (base = 10 -> dec_numeral s (zv (fv c x))).
Proof.
  intros [->| ->] Hx.
  - destruct (fp_toString_ok c x Hx) as (s & E & D & R). exists s. split; [exact E|]. split; [left; apply D|]. split; [exact R|]. split; [discriminate|intros _; exact D].
  - destruct (fp_toString16_ok c x Hx) as (s & E & D & R). exists s. split; [exact E|].
    split; [right; destruct D as (h & -> & [_ H] & _); exists h; auto|]. split; [exact R|]. split; [intros _; exact D|discriminate].
Qed.
Lemma fp_in_ok base ws x r : base = 10 \/ base = 16 -> can c x -> not_digit_head r ->
  exists s, fp_out c base x = Ok s /\ numtext s /\ fp_in c ws (s ++ r, true) = Ok (x, (r, live r)).
Proof.
  intros Hb Hx Hr. destruct (fp_out_ok base x Hb Hx) as (s & E & N & R & _). exists s. split; [exact E|]. split; [exact N|].
  unfold fp_in. rewrite rd_digits_run; auto. rewrite R. reflexivity.
Qed.
Local Notation can2 := (EcInst.can2 c).
Definition can6 (x : fp6) : Prop := can2 (a3 x) /\ can2 (b3 x) /\ can2 (c3 x).
Definition can12 (x : fp12) : Prop := can6 (a2 x) /\ can6 (b2 x).
Definition plain2 (s : list Z) : Prop := Forall plain s /\ (2 <= length s)%nat.
Lemma nd44 r : not_digit_head (44 :: r). Proof. cbn. lia. Qed.
Lemma nd93 r : not_digit_head (93 :: r). Proof. cbn. lia. Qed.
Lemma f2_in_ok base ws x r : base = 10 \/ base = 16 -> can2 x ->
  exists s, f2_out c base x = Ok s /\ plain2 s /\ f2_in c ws (s ++ r, true) = Ok (x, (r, true)).
Proof.
  intros Hb [Ha Hbb]. destruct x as [xa xb]. cbn [a2 b2] in *.
  destruct (fp_out_ok base xb Hb Hbb) as (sb & Eb & Nb & Rb & _).
  destruct (fp_out_ok base xa Hb Ha) as (sa & Ea & Na & Ra & _).
  unfold f2_out. cbn [a2 b2]. rewrite Ea. cbn [bind]. rewrite Eb. cbn [bind]. eexists. split; [reflexivity|]. split.
  { split; [|cbn [app length]; rewrite app_length; cbn; lia]. apply numtext_plain in Na, Nb. cbn [app]. constructor; [unfold plain; cbn; lia|]. apply Forall_app. split; [exact Na|].
    constructor; [unfold plain; cbn; lia|]. apply Forall_app. split; [exact Nb|]. constructor; [unfold plain; cbn; lia|constructor]. }
  unfold f2_in. rewrite <- ?app_assoc. cbn [app]. rewrite rd_char_run by reflexivity. unfold fp_in.
  rewrite rd_digits_run by (auto using nd44). rewrite Ra. cbn [bind live]. rewrite rd_char_run by reflexivity.
  rewrite <- ?app_assoc. cbn [app]. rewrite rd_digits_run by (auto using nd93). rewrite Rb. cbn [bind live]. rewrite rd_char_run by reflexivity.
  reflexivity.
Qed.
Lemma f2_in_ok' base x : base = 10 \/ base = 16 -> can2 x ->
  exists s, f2_out c base x = Ok s /\ plain2 s /\ forall ws r, f2_in c ws (s ++ r, true) = Ok (x, (r, true)).
Proof.
  intros Hb Hx. destruct (f2_in_ok base true x [] Hb Hx) as (s & E & P & _). exists s. split; [exact E|]. split; [exact P|].
  intros ws r. destruct (f2_in_ok base ws x r Hb Hx) as (s' & E' & _ & R). rewrite E in E'. injection E' as <-. exact R.
Qed.
Lemma rd_nl (r : list Z) : rd_char true (10 :: 32 :: r, true) = rd_char true (r, true). Proof. reflexivity. Qed.
Lemma f2_in_nl r : f2_in c true (10 :: 32 :: r, true) = f2_in c true (r, true).
Proof. unfold f2_in. rewrite rd_nl. reflexivity. Qed.
Lemma f6_in_nl r : f6_in c true (10 :: 32 :: r, true) = f6_in c true (r, true).
Proof. unfold f6_in. rewrite rd_nl. reflexivity. Qed.
Lemma f6_in_ok base x : base = 10 \/ base = 16 -> can6 x ->
  exists s, f6_out c base x = Ok s /\ forall r, f6_in c true (s ++ r, true) = Ok (x, (r, true)).
Proof.
  intros Hb (Ha & Hbb & Hc). destruct x as [xa xb xc]. cbn [a3 b3 c3] in *.
  destruct (f2_in_ok' base xa Hb Ha) as (sa & Ea & _ & Ra). destruct (f2_in_ok' base xb Hb Hbb) as (sb & Eb & _ & Rb).
  destruct (f2_in_ok' base xc Hb Hc) as (sc & Ec & _ & Rc).
  unfold f6_out. cbn [a3 b3 c3]. rewrite Ea. cbn [bind]. rewrite Eb. cbn [bind]. rewrite Ec. cbn [bind]. eexists. split; [reflexivity|]. intros r.
  unfold f6_in. rewrite <- ?app_assoc. cbn [app]. rewrite rd_char_run by reflexivity. rewrite Ra. cbn [bind]. rewrite rd_char_run by reflexivity.
  rewrite f2_in_nl. rewrite <- ?app_assoc. rewrite Rb. cbn [bind app]. rewrite rd_char_run by reflexivity. rewrite f2_in_nl. rewrite <- ?app_assoc. rewrite Rc. cbn [bind app].
  rewrite rd_char_run by reflexivity. reflexivity.
Qed.
Lemma f12_in_ok base x : base = 10 \/ base = 16 -> can12 x ->
  exists s, f12_out c base x = Ok s /\ forall r, f12_in c true (s ++ r, true) = Ok (x, (r, true)).
Proof.
  intros Hb (Ha & Hbb). destruct x as [xa xb]. cbn [a2 b2] in *.
  destruct (f6_in_ok base xa Hb Ha) as (sa & Ea & Ra). destruct (f6_in_ok base xb Hb Hbb) as (sb & Eb & Rb).
  unfold f12_out. cbn [a2 b2]. rewrite Ea. cbn [bind]. rewrite Eb. cbn [bind]. eexists. split; [reflexivity|]. intros r.
  unfold f12_in. rewrite <- ?app_assoc. cbn [app]. rewrite rd_char_run by reflexivity. rewrite Ra. cbn [bind]. rewrite rd_char_run by reflexivity.
  rewrite f6_in_nl. rewrite <- ?app_assoc. rewrite Rb. cbn [bind app]. rewrite rd_char_run by reflexivity. reflexivity.
Qed.
Lemma f2_setStr_ok base x : base = 10 \/ base = 16 -> can2 x -> exists s, f2_out c base x = Ok s /\ plain2 s /\ f2_setStr c s = Ok x.
Proof.
  intros Hb Hx. destruct (f2_in_ok' base x Hb Hx) as (s & E & P & R). exists s. split; [exact E|]. split; [exact P|].
  unfold f2_setStr. rewrite <- (app_nil_r s), R. reflexivity.
Qed.
End Fields.

(** ** Points *)
Lemma take_token_plain s r : Forall plain s -> match r with [] => True | ch :: _ => is_space ch = true end -> take_token (s ++ r) = (s, r).
Proof.
  induction s as [|ch s IH]; intros H Hr.
  - destruct r as [|ch r]; [reflexivity|]. cbn [app take_token]. rewrite Hr. reflexivity.
  - apply Forall_cons_iff in H as [[H _] Hs]. cbn [app take_token]. rewrite H, IH; auto.
Qed.
Lemma skip_space_id s r : Forall plain s -> s <> [] -> skip_space (s ++ r) = s ++ r.
Proof.
  destruct s as [|ch s]; intros H N; [congruence|]. apply Forall_cons_iff in H as [[H _] _]. cbn [app skip_space]. unfold is_space in H. rewrite H. reflexivity.
Qed.
Lemma cut_at_ok x y : Forall plain x -> cut_at 95 (x ++ [95] ++ y) = Some (x, y).
Proof.
  induction x as [|ch x IH]; intros H; [reflexivity|]. apply Forall_cons_iff in H as [[_ [H _]] Hs]. cbn [app cut_at] in *.
  destruct (Z.eqb_spec ch 95); [contradiction|]. rewrite IH; auto.
Qed.
Lemma c_str_plain x : Forall plain x -> c_str x = x.
Proof.
  induction x as [|ch x IH]; intros H; [reflexivity|]. apply Forall_cons_iff in H as [[_ [_ H]] Hs]. cbn [c_str].
  destruct (Z.eqb_spec ch 0); [contradiction|]. rewrite IH; auto.
Qed.
Definition plain' (ch : Z) : Prop := is_space ch = false /\ ch <> 0.
Lemma take_token_plain' s r : Forall (fun ch => is_space ch = false) s -> match r with [] => True | ch :: _ => is_space ch = true end -> take_token (s ++ r) = (s, r).
Proof.
  induction s as [|ch s IH]; intros H Hr.
  - destruct r as [|ch r]; [reflexivity|]. cbn [app take_token]. rewrite Hr. reflexivity.
  - apply Forall_cons_iff in H as [H Hs]. cbn [app take_token]. rewrite H, IH; auto.
Qed.
(** what may follow a point in the stream *)
Definition after (r : list Z) : Prop := match r with [] => True | ch :: _ => is_space ch = true end.

Section EcText.
Variables (O : fops) (K : fld) (X : fimpl O K).
Variable pr : fT O -> res (list Z).
Variable rd : list Z -> res (fT O).
Hypothesis prd : forall x, ok X x -> exists s, pr x = Ok s /\ Forall plain s /\ (2 <= length s)%nat /\ rd s = Ok x.
Local Notation wf := (okp O K X). Local Notation pt := (pt O K X).
Lemma ec_text_ok (m : mem O) o : wf (m o) ->
  exists s m', ec_out O pr m o = Ok (s, m') /\ pt (m' o) = pt (m o) /\ (forall q, o <> q -> m' q = m q) /\
    Forall (fun ch => is_space ch = false) s /\
    forall ws m1 o1 r, after r -> exists m2, ec_in O rd ws m1 o1 (s ++ r, true) = Ok (m2, (r, live r)) /\
      wf (m2 o1) /\ pt (m2 o1) = pt (m o) /\ (forall q, o1 <> q -> m2 q = m1 q).
Proof.
  intros Hw. unfold ec_out, ec_isZero. pose proof (i_isZero _ _ X (c3 (m o)) (proj1 Hw)) as Hz. pose proof (i_0 _ _ X) as H0. pose proof (i_1 _ _ X) as H1.
  destruct (o_isZero O (c3 (m o))) eqn:Ez.
  - assert (Pi : pt (m o) = EInf).
    { apply (pt_inf O K X). split; [apply Hw|]. apply Hz. reflexivity. }
    exists [48], m. split; [reflexivity|]. split; [reflexivity|]. split; [reflexivity|]. split; [repeat constructor|].
    intros ws m1 o1 r Hr. exists (m_clear O m1 o1). rewrite clear_same. split.
    { unfold ec_in, rd_token. replace (if ws then skip_space ([48] ++ r) else [48] ++ r) with ([48] ++ r) by (destruct ws; reflexivity).
      rewrite take_token_plain'; [|repeat constructor|exact Hr]. cbn [live]. rewrite andb_true_r. reflexivity. }
    destruct (pt_inf O K X (mk3 (o_0 O) (o_0 O) (o_0 O)) H0) as [I1 I2]. split; [exact I1|]. split; [rewrite I2, Pi; reflexivity|].
    intros q Hq. apply clear_other, Hq.
  - assert (Nz : vl X (c3 (m o)) <> rz). { intros E. apply Hz in E. discriminate. }
    destruct (normalize_ok O K X m o Hw) as (m' & E & [D1 D2] & F & _ & A). rewrite E. cbn [bind].
    assert (Np : exists x y, pt (m o) = EAff x y).
    { destruct (pt (m o)) as [|x y] eqn:Ep; [|eauto]. exfalso. apply Nz. exact (pt_z O K X _ Ep). }
    destruct Np as (x & y & Ep). destruct (A x y Ep) as ([X1 X2] & [Y1 Y2] & Z1).
    destruct (prd _ X1) as (sx & Ex & Px & Lx & Rx). destruct (prd _ Y1) as (sy & Ey & Py & Ly & Ry).
    rewrite Ex. cbn [bind]. rewrite Ey. cbn [bind]. exists (sx ++ [95] ++ sy), m'. split; [reflexivity|]. split; [exact D2|]. split; [exact F|].
    assert (Ns : Forall (fun ch => is_space ch = false) (sx ++ [95] ++ sy)).
    { apply Forall_app. split; [apply (Forall_impl _ (fun a (H : plain a) => proj1 H) Px)|]. constructor; [reflexivity|]. apply (Forall_impl _ (fun a (H : plain a) => proj1 H) Py). }
    split; [exact Ns|]. intros ws m1 o1 r Hr.
    exists (st1 O (st0 O (st2 O m1 o1 (o_1 O)) o1 (a3 (m' o))) o1 (b3 (m' o))).
    assert (Em : st1 O (st0 O (st2 O m1 o1 (o_1 O)) o1 (a3 (m' o))) o1 (b3 (m' o)) o1 = m' o).
    { apply F3_eq.
      - rewrite a3_st1, a3_st0. reflexivity.
      - rewrite b3_st1. reflexivity.
      - rewrite c3_st1, c3_st0, c3_st2. symmetry. exact Z1. }
    split.
    { unfold ec_in, rd_token.
      destruct sx as [|c0 [|c1 sx]]; cbn [length] in Lx; try lia.
      assert (Es : (if ws then skip_space (((c0 :: c1 :: sx) ++ [95] ++ sy) ++ r) else ((c0 :: c1 :: sx) ++ [95] ++ sy) ++ r) = ((c0 :: c1 :: sx) ++ [95] ++ sy) ++ r).
      { destruct ws; [|reflexivity]. cbn [app skip_space]. apply Forall_cons_iff in Ns as [N0 _]. unfold is_space in N0. rewrite N0. reflexivity. }
      rewrite Es. rewrite (take_token_plain' _ r Ns Hr). rewrite (cut_at_ok _ sy Px). rewrite !c_str_plain by assumption. rewrite Rx. cbn [bind]. rewrite Ry. cbn [bind].
      cbn [app live]. rewrite andb_true_r. reflexivity. }
    rewrite Em. split; [exact D1|]. split; [rewrite D2; reflexivity|].
    intros q Hq. rewrite st1_other, st0_other, st2_other by exact Hq. reflexivity.
Qed.
End EcText.

(** ** The statements of P_Text.v *)
Lemma rep2_canT c x v : rep2 c x v -> EcInst.can2 c x.
Proof. intros H. apply rep2_can2 in H. apply H. Qed.
Lemma rep6_canT c x v : rep6 c x v -> can6 c x.
Proof. intros (A & B & C). split; [exact (rep2_canT c _ _ A)|]. split; [exact (rep2_canT c _ _ B)|exact (rep2_canT c _ _ C)]. Qed.
Lemma rep12_canT c x v : rep12 c x v -> can12 c x.
Proof. intros (A & B). split; [exact (rep6_canT c _ _ A)|exact (rep6_canT c _ _ B)]. Qed.
Lemma t_fp c base ws x v r : base = 10 \/ base = 16 -> rep1 c x v -> not_digit_head r ->
  exists s, fp_out c base x = Ok s /\ fp_in c ws (s ++ r, true) = Ok (x, (r, live r)).
Proof. intros Hb [Hx _] Hr. destruct (fp_in_ok c base ws x r Hb Hx Hr) as (s & E & _ & R). eauto. Qed.
Lemma t_fp_num c x v : rep1 c x v ->
  (exists s, fp_out c 10 x = Ok s /\ dec_numeral s (zv v)) /\ (exists s, fp_out c 16 x = Ok s /\ hex_numeral s (zv v)).
Proof.
  intros [Hx <-]. split.
  - destruct (fp_out_ok c 10 x ltac:(auto) Hx) as (s & E & _ & _ & _ & D). eauto.
  - destruct (fp_out_ok c 16 x ltac:(auto) Hx) as (s & E & _ & _ & D & _). eauto.
Qed.
Lemma t_fp2 c base ws x v r : base = 10 \/ base = 16 -> rep2 c x v ->
  exists s, f2_out c base x = Ok s /\ f2_in c ws (s ++ r, true) = Ok (x, (r, true)).
Proof. intros Hb Hx. destruct (f2_in_ok c base ws x r Hb (rep2_canT c x v Hx)) as (s & E & _ & R). eauto. Qed.
Lemma t_fp6 c base x v r : base = 10 \/ base = 16 -> rep6 c x v ->
  exists s, f6_out c base x = Ok s /\ f6_in c true (s ++ r, true) = Ok (x, (r, true)).
Proof. intros Hb Hx. destruct (f6_in_ok c base x Hb (rep6_canT c x v Hx)) as (s & E & R). exists s. split; [exact E|apply R]. Qed.
Lemma t_fp12 c base x v r : base = 10 \/ base = 16 -> rep12 c x v ->
  exists s, f12_out c base x = Ok s /\ f12_in c true (s ++ r, true) = Ok (x, (r, true)).
Proof. intros Hb Hx. destruct (f12_in_ok c base x Hb (rep12_canT c x v Hx)) as (s & E & R). exists s. split; [exact E|apply R]. Qed.
Lemma t_fp2_str c base x v : base = 10 \/ base = 16 -> rep2 c x v -> exists s, f2_out c base x = Ok s /\ f2_setStr c s = Ok x.
Proof. intros Hb Hx. destruct (f2_setStr_ok c base x Hb (rep2_canT c x v Hx)) as (s & E & _ & R). eauto. Qed.
Lemma prd1 c x : ok (impl1 c) x -> exists s, fp_out c 16 x = Ok s /\ Forall plain s /\ (2 <= length s)%nat /\ fp_setStr c s = Ok x.
Proof.
  intros Hx. destruct (fp_out_ok c 16 x ltac:(auto) Hx) as (s & E & N & R & H & _). exists s. split; [exact E|]. split; [apply numtext_plain, N|]. split; [|exact R].
  destruct (H eq_refl) as (h & -> & _). cbn. lia.
Qed.
Lemma prd2 c x : ok (impl2 c) x -> exists s, f2_out c 16 x = Ok s /\ Forall plain s /\ (2 <= length s)%nat /\ f2_setStr c s = Ok x.
Proof.
  intros Hx. destruct (f2_setStr_ok c 16 x ltac:(auto) Hx) as (s & E & [P L] & R). exists s. auto.
Qed.
Lemma t_ec1 c (m : mem (fpO c)) o : wfP G1 c (m o) ->
  exists s m', ec1_out c m o = Ok (s, m') /\ ptP G1 c (m' o) = ptP G1 c (m o) /\ (forall q, o <> q -> m' q = m q) /\
    forall ws m1 o1 r, after r -> exists m2, ec1_in c ws m1 o1 (s ++ r, true) = Ok (m2, (r, live r)) /\
      wfP G1 c (m2 o1) /\ ptP G1 c (m2 o1) = ptP G1 c (m o) /\ (forall q, o1 <> q -> m2 q = m1 q).
Proof.
  intros Hw. destruct (ec_text_ok (fpO c) (FpF c) (impl1 c) (fp_out c 16) (fp_setStr c) (prd1 c) m o Hw) as (s & m' & E & P & F & _ & R).
  exists s, m'. split; [exact E|]. split; [exact P|]. split; [exact F|exact R].
Qed.
Lemma t_ec2 c (m : mem (fp2O c)) o : wfP G2 c (m o) ->
  exists s m', ec2_out c m o = Ok (s, m') /\ ptP G2 c (m' o) = ptP G2 c (m o) /\ (forall q, o <> q -> m' q = m q) /\
    forall ws m1 o1 r, after r -> exists m2, ec2_in c ws m1 o1 (s ++ r, true) = Ok (m2, (r, live r)) /\
      wfP G2 c (m2 o1) /\ ptP G2 c (m2 o1) = ptP G2 c (m o) /\ (forall q, o1 <> q -> m2 q = m1 q).
Proof.
  intros Hw. destruct (ec_text_ok (fp2O c) (K2F c) (impl2 c) (f2_out c 16) (f2_setStr c) (prd2 c) m o Hw) as (s & m' & E & P & F & _ & R).
  exists s, m'. split; [exact E|]. split; [exact P|]. split; [exact F|exact R].
Qed.
Lemma setStr_nil c : fp_setStr c [] = Ok 0.
Proof. destruct c; vm_compute; reflexivity. Qed.
Lemma t_fail c ws b : fp_in c ws (b, false) = Ok (0, (b, false)).
Proof. unfold fp_in, rd_digits. rewrite setStr_nil. reflexivity. Qed.
Lemma t_eof c ws x v : rep1 c x v -> exists s, fp_out c 10 x = Ok s /\ fp_in c ws (s, true) = Ok (x, ([], false)).
Proof. intros H. destruct (t_fp c 10 ws x v [] ltac:(auto) H I) as (s & E & R). rewrite app_nil_r in R. eauto. Qed.
(** "[1,2" *)
Lemma t_trunc c ws : f2_in c ws ([91; 49; 44; 50], true) = UB.
Proof. destruct c, ws; vm_compute; reflexivity. Qed.
(** "(1,2)" *)
Lemma t_paren c ws : f2_in c ws ([40; 49; 44; 50; 41], true) = Throw.
Proof. destruct c, ws; vm_compute; reflexivity. Qed.
(** "0x1_0x1" *)
Definition txt11 : list Z := [48; 120; 49; 95; 48; 120; 49].
Definition zero1 (c : cfg) : mem (fpO c) := fun _ => mk3 0 0 0.
Lemma set1 c : fp_setStr c [48; 120; 49] = Ok (cR c).
Proof. destruct c; vm_compute; reflexivity. Qed.
Lemma off1 c : isOnECJac3 c (cb c) (mk3 (cR c) (cR c) (cR c)) = Ok false.
Proof. destruct c; vm_compute; reflexivity. Qed.
Lemma t_off c : exists m, ec1_in c true (zero1 c) (Obj 0) (txt11, true) = Ok (m, ([], false)) /\ wfP G1 c (m (Obj 0)) /\ ~ onE G1 c (ptP G1 c (m (Obj 0))).
Proof.
  exists (st1 (fpO c) (st0 (fpO c) (st2 (fpO c) (zero1 c) (Obj 0) (cR c)) (Obj 0) (cR c)) (Obj 0) (cR c)).
  assert (E0 : st1 (fpO c) (st0 (fpO c) (st2 (fpO c) (zero1 c) (Obj 0) (cR c)) (Obj 0) (cR c)) (Obj 0) (cR c) (Obj 0) = mk3 (cR c) (cR c) (cR c)) by reflexivity.
  split.
  - unfold ec1_in, ec_in. change (rd_token true (txt11, true)) with (txt11, ([] : list Z, false)). cbn [txt11].
    change (cut_at 95 txt11) with (Some ([48; 120; 49], [48; 120; 49])). cbv beta iota. change (c_str [48; 120; 49]) with [48; 120; 49]. rewrite set1. cbn [bind]. reflexivity.
  - rewrite E0. assert (Hw : wfP G1 c (mk3 (cR c) (cR c) (cR c))).
    { pose proof (proj1 (i_1 _ _ (impl1 c))) as H. split; [exact H|]. intros _. split; exact H. }
    split; [exact Hw|]. intros H. destruct (isOnECJac3_ok c _ Hw) as (r & E & R). rewrite off1 in E. injection E as <-. apply R in H. discriminate.
Qed.
Lemma t_any c ws s n r : dec_numeral s n -> n < 2 ^ 320 -> not_digit_head r ->
  exists x, fp_in c ws (s ++ r, true) = Ok (x, (r, live r)) /\ rep1 c x (mk (cp c) n).
Proof.
  intros D Hn Hr. assert (Hn0 : n / 10 ^ 9 < 2 ^ 512).
  { apply Z.div_lt_upper_bound; [reflexivity|]. eapply Z.lt_trans; [exact Hn|]. reflexivity. }
  destruct (vsetStr_dec_ok s n 0 ltac:(auto) D Hn0) as (v & E & V1 & V2).
  assert (L : (length v <= 5)%nat).
  { destruct (Nat.le_gt_cases (length v) 5) as [H|H]; [exact H|exfalso]. pose proof (vwf_lb v V1 ltac:(lia)) as Hl. rewrite V2 in Hl.
    assert (B ^ 5 <= B ^ (Z.of_nat (length v) - 1)) by (apply Z.pow_le_mono_r; [rewrite B_val; lia|lia]). rewrite B_val in *. change (18446744073709551616 ^ 5) with (2 ^ 320) in *. lia. }
  destruct (fp_setV_ok c v V1 L) as (x & Ex & C1 & C2). exists x. split.
  - unfold fp_in. rewrite rd_digits_run; [|left; apply D|exact Hr]. unfold fp_setStr. rewrite E. cbn [bind]. rewrite Ex. reflexivity.
  - split; [exact C1|]. rewrite C2, V2. reflexivity.
Qed.
Lemma t_wit c : rep1 c (rr c 5) (mk (cp c) 5) /\ wfP G1 c (gen1' c) /\ ptP G1 c (gen1' c) <> EInf /\ wfP G2 c (gen2 c).
Proof.
  split; [split; [apply can_rr|apply fv_rr]|]. split; [apply gen1'_wf|]. split; [|exact (gen_wf G2 c)].
  rewrite (proj1 (gen1'_eq c)), gen1_pt. discriminate.
Qed.

(** ** Taking a number from a stream *)
Lemma tok_nil neg : token neg [].
Proof. intros a ch b H. destruct a; discriminate H. Qed.
Lemma loop_takes neg : forall s ws pos f d r pre, getDigits_loop neg ws pos f s = (d, r) ->
  length pre = pos -> (pos <> O -> ws = false /\ hd 0 pre = f) ->
  exists w, s = w ++ d ++ r /\ Forall blank w /\ (ws = false -> w = []) /\
    (forall a ch b, d = a ++ ch :: b -> may_follow neg (pre ++ a) ch) /\
    (forall ch r', r = ch :: r' -> ~ may_follow neg (pre ++ d) ch /\ ~ (ws = true /\ d = [] /\ blank ch)).
Proof.
  induction s as [|c s IH]; intros ws pos f d r pre E Hl Hp.
  - cbn [getDigits_loop] in E. injection E as <- <-. exists []. repeat split.
    + constructor.
    + intros a ch b H. destruct a; discriminate H.
    + discriminate.
    + discriminate.
  - cbn [getDigits_loop] in E.
    destruct (ws && ((9 <=? c) && (c <=? 13) || (c =? 32))) eqn:Eb.
    + apply andb_prop in Eb as [-> Eb].
      assert (HB : blank c).
      { apply orb_prop in Eb as [Eb|Eb]; [left; apply andb_prop in Eb as [A1 A2]; split; apply Z.leb_le; assumption|right; apply Z.eqb_eq; exact Eb]. }
      destruct (IH true pos f d r pre E Hl Hp) as (w & -> & H1 & H2 & H3 & H4).
      exists (c :: w). repeat split; try assumption.
      * constructor; assumption.
      * discriminate.
      * exact (proj1 (H4 ch r' H)).
      * exact (proj2 (H4 ch r' H)).
    + assert (HM : (0 <=? digit_of c) || Nat.eqb pos 1 && (f =? 48) && (c =? 120) || neg && Nat.eqb pos 0 && (c =? 45) = true <-> may_follow neg pre c).
      { unfold may_follow. rewrite !orb_true_iff, !andb_true_iff, !Nat.eqb_eq, !Z.eqb_eq, Z.leb_le.
        assert (Q1 : pos = 1%nat /\ f = 48 <-> pre = [48]).
        { split.
          - intros [-> ->]. destruct (Hp ltac:(discriminate)) as [_ Hh]. destruct pre as [|a [|? ?]]; try discriminate Hl. cbn [hd] in Hh. rewrite Hh. reflexivity.
          - intros ->. cbn [length] in Hl. subst pos. destruct (Hp ltac:(discriminate)) as [_ Hh]. cbn [hd] in Hh. split; [reflexivity|congruence]. }
        assert (Q0 : pos = O <-> pre = []).
        { rewrite <- Hl. destruct pre; cbn [length]; split; intros; congruence. }
        rewrite Q0. tauto. }
      destruct ((0 <=? digit_of c) || Nat.eqb pos 1 && (f =? 48) && (c =? 120) || neg && Nat.eqb pos 0 && (c =? 45)) eqn:Et.
      * destruct (getDigits_loop neg false (S pos) (if Nat.eqb pos 0 then c else f) s) as [d1 r1] eqn:E1. injection E as <- <-.
        destruct (IH false (S pos) _ d1 r1 (pre ++ [c]) E1) as (w & -> & H1 & H2 & H3 & H4).
        { rewrite app_length, Hl. cbn [length]. lia. }
        { intros _. split; [reflexivity|]. destruct pre as [|a pre]; cbn [length] in Hl; subst pos; [reflexivity|]. cbn [Nat.eqb app hd].
          exact (proj2 (Hp ltac:(discriminate))). }
        rewrite (H2 eq_refl) in *. exists []. cbn [app]. repeat split.
        -- constructor.
        -- intros a ch b Ha. destruct a as [|a0 a]; cbn [app] in Ha.
           ++ injection Ha as <- _. rewrite app_nil_r. apply HM. reflexivity.
           ++ injection Ha as <- Ha. specialize (H3 a ch b Ha). rewrite <- app_assoc in H3. exact H3.
        -- pose proof (proj1 (H4 ch r' H)) as Q. rewrite <- app_assoc in Q. exact Q.
        -- intros (_ & Q & _). discriminate Q.
      * injection E as <- <-. exists []. cbn [app]. repeat split.
        -- constructor.
        -- intros a ch b Ha. destruct a; discriminate Ha.
        -- injection H as <- <-. rewrite app_nil_r, <- HM. discriminate.
        -- injection H as <- <-. intros (-> & _ & [Q|Q]).
           ++ rewrite andb_true_l in Eb. apply orb_false_elim in Eb as [Eb _]. apply andb_false_iff in Eb as [Eb|Eb]; apply Z.leb_gt in Eb; lia.
           ++ subst c. discriminate Eb.
Qed.
Lemma takes_ok neg ws s d r : getDigits neg ws s = (d, r) -> takes neg ws s d r.
Proof.
  intros E. destruct (loop_takes neg s ws 0 0 d r [] E eq_refl) as (w & H1 & H2 & H3 & H4 & H5); [congruence|].
  exists w. cbn [app] in H4, H5. repeat split; try assumption; apply (H5 ch r' H).
Qed.
(** the result is determined by the specification *)
Lemma takes_run neg : forall (d d' r r' p : list Z), d ++ r = d' ++ r' ->
  (forall a ch b, d = a ++ ch :: b -> may_follow neg (p ++ a) ch) -> (forall a ch b, d' = a ++ ch :: b -> may_follow neg (p ++ a) ch) ->
  (forall ch t, r = ch :: t -> ~ may_follow neg (p ++ d) ch) -> (forall ch t, r' = ch :: t -> ~ may_follow neg (p ++ d') ch) ->
  d = d' /\ r = r'.
Proof.
  induction d as [|c d IH]; intros d' r r' p E T T' N N'.
  - destruct d' as [|c' d']; [split; [reflexivity|exact E]|]. cbn [app] in E. exfalso.
    apply (N c' (d' ++ r') E). exact (T' [] c' d' eq_refl).
  - destruct d' as [|c' d'].
    + cbn [app] in E. exfalso. apply (N' c (d ++ r) (eq_sym E)). exact (T [] c d eq_refl).
    + cbn [app] in E. injection E as <- E.
      destruct (IH d' r r' (p ++ [c]) E) as [-> ->]; [| | | |split; reflexivity].
      * intros a ch b Ha. rewrite <- app_assoc. apply (T (c :: a) ch b). rewrite Ha. reflexivity.
      * intros a ch b Ha. rewrite <- app_assoc. apply (T' (c :: a) ch b). rewrite Ha. reflexivity.
      * intros ch t Ht. rewrite <- app_assoc. exact (N ch t Ht).
      * intros ch t Ht. rewrite <- app_assoc. exact (N' ch t Ht).
Qed.
Lemma blank_digit ch : blank ch -> digit_of ch = -1 /\ ch <> 45.
Proof.
  intros [H|H]; unfold digit_of.
  - replace (48 <=? ch) with false by (symmetry; apply Z.leb_gt; lia). replace (97 <=? ch) with false by (symmetry; apply Z.leb_gt; lia).
    replace (65 <=? ch) with false by (symmetry; apply Z.leb_gt; lia). cbn [andb]. split; [reflexivity|lia].
  - subst ch. split; [reflexivity|discriminate].
Qed.
Lemma takes_det neg ws s d r d' r' : takes neg ws s d r -> takes neg ws s d' r' -> d = d' /\ r = r'.
Proof.
  intros (w & -> & B & W & T & N) (w' & E & B' & W' & T' & N').
  assert (w = w' /\ d ++ r = d' ++ r') as [_ E'].
  { destruct ws; [|rewrite (W eq_refl), (W' eq_refl) in *; auto].
    clear W W'. revert w' E B'. induction w as [|c w IH]; intros w' E B'.
    - destruct w' as [|c' w']; [auto|]. exfalso. apply Forall_cons_iff in B' as [B' _]. cbn [app] in E.
      destruct d as [|c d]; cbn [app] in E.
      + apply (proj2 (N c' _ E)). auto.
      + injection E as <- E. destruct (blank_digit c B') as [D1 D2]. destruct (T [] c d eq_refl) as [Q|[[Q _]|[_ [_ Q]]]]; [lia|discriminate Q|congruence].
    - apply Forall_cons_iff in B as [Bc B]. destruct w' as [|c' w'].
      + exfalso. cbn [app] in E. destruct d' as [|c' d']; cbn [app] in E.
        * apply (proj2 (N' c _ (eq_sym E))). auto.
        * injection E as <- E. destruct (blank_digit c Bc) as [D1 D2]. destruct (T' [] c d' eq_refl) as [Q|[[Q _]|[_ [_ Q]]]]; [lia|discriminate Q|congruence].
      + cbn [app] in E. injection E as <- E. apply Forall_cons_iff in B' as [_ B']. destruct (IH B w' E B') as [-> H]. auto. }
  apply (takes_run neg d d' r r' [] E').
  - exact T. - exact T'.
  - intros ch t Ht. exact (proj1 (N ch t Ht)).
  - intros ch t Ht. exact (proj1 (N' ch t Ht)).
Qed.
Lemma takes_iff neg ws s d r : getDigits neg ws s = (d, r) <-> takes neg ws s d r.
Proof.
  split; [apply takes_ok|]. intros H. destruct (getDigits neg ws s) as [d' r'] eqn:E. apply takes_ok in E.
  destruct (takes_det _ _ _ _ _ _ _ E H) as [-> ->]. reflexivity.
Qed.
Lemma vread_takes ws s d r : takes false ws s d r -> vread ws s = bind (vsetStr d 0) (fun x => Ok (x, r)).
Proof. intros H. apply takes_iff in H. unfold vread. rewrite H. reflexivity. Qed.
Lemma sread_takes ws s d r : takes true ws s d r -> s_read ws s = bind (s_setStr d 10) (fun x => Ok (x, r)).
Proof. intros H. apply takes_iff in H. unfold s_read. rewrite H. reflexivity. Qed.
Lemma takes_total neg ws s : exists d r, takes neg ws s d r.
Proof. destruct (getDigits neg ws s) as [d r] eqn:E. exists d, r. apply takes_iff. exact E. Qed.
Lemma s_isNegative_ok x : swf x -> s_isNegative x = true <-> sv x < 0.
Proof.
  intros H. unfold s_isNegative, s_isZero, sv. rewrite (visZero_spec _ H). pose proof (vwf_nonneg _ H).
  destruct (sn x); cbn [andb]; [|split; [discriminate|lia]].
  destruct (Z.eqb_spec (lv (sm x)) 0); cbn [negb]; split; intros; try discriminate; try lia; reflexivity.
Qed.
