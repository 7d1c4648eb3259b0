(** A generated function with a stack frame and two outputs, the second one also an operand,
    whose body is a list of items (JitSym): a call. *)
From Coq Require Import ZArith List Bool Lia.
From Verif Require Import X64 XLog JitSpec JitFpSpec XTac XReg JitFp JitMac JitMac2 JitFrame JitRep JitFpApi JitFpApi2 JitFp2Spec JitFp2Mac JitFp2Mac2 JitFp2Api JitFp2Api2 JitSym JitSub JitFp6Spec JitLineSpec JitTop.
From Verif Require Import Base Cfg Prim FpM.
Import ListNotations.
Local Open Scope Z_scope.
Local Notation find := X64.find.
Local Notation length := List.length.

Lemma off3 b a n a' n' a2 n2 : Forall (off b) [(a, n); (a', n'); (a2, n2)] <-> (b < a \/ a + n <= b) /\ (b < a' \/ a' + n' <= b) /\ (b < a2 \/ a2 + n2 <= b).
Proof.
  split; [intros H; split; [exact (Forall_inv H)|]; apply off2; exact (Forall_inv_tail H)|]. intros [H1 H2]. constructor; [exact H1|]. apply off2. exact H2.
Qed.

Section Top2.
  Variables (C : code) (c : cfg) (T NT HF : Z) (gtn : Z) (nq stk nz na nb nc : nat) (KA : Z).
  Variables (items : list item) (body : code) (L : list reg).
  Variables (fz fa fb fc : list fld) (s : state) (va vb vc vz va' : list Z).
  Local Notation nb0 := (Nat.eqb nb 0).
  Local Notation nc0 := (Nat.eqb nc 0).
  Local Notation k := (Z.to_nat (gtn - 4) + nq + stk)%nat.
  Local Notation z := (rdi (rg s)).
  Local Notation x := (rsi (rg s)).
  Local Notation y := (rdx (rg s)).
  Definition tlay2 : layout := fun r =>
    match r with
    | RO => (0, Wd nz, true) | RA => (0, Wd na, true) | RB => (0, Wd nb, false)
    | RS => (- Wd stk, Wd nq, true) | RT => (-32, 288, false) | RN | RH => (0, 64, false) | RC => (0, Wd nc, false)
    end.
  Definition tbase2 (P : Z) : rgn -> Z := fun r =>
    match r with
    | RO => z | RA => x | RB => if nb0 then z else y
    | RS => rsp (rg s) - P | RT => T | RN => NT | RH => HF | RC => if nc0 then z else KA
    end.
  Definition ts2 : sst :=
    mkS ((RSP, (RS, 0)) :: (gp1, (RO, 0)) :: (gp2, (RA, 0)) :: (if nb0 then [] else [(gp3, (RB, 0))])) []
        (addf (RA, 0) fa va (addf (RB, 0) fb vb (addf (RC, 0) fc vc []))) [].
  Definition tK2 (t : sst) : Prop := lookfs (s_f t) (RO, 0) fz = Some vz /\ lookfs (s_f t) (RA, 0) fa = Some va' /\ lookr (s_r t) RSP = Some (RS, 0).
  Hypothesis Hg : 5 <= gtn <= 10.
  Hypothesis AO : Forall (aokT C T (ctabs c T NT HF)) items.
  Hypothesis FL : forall base, base RT = T -> (nc0 = false -> base RC = KA) -> flat base items = body.
  Hypothesis YN : nb = 0%nat -> fb = [].
  Hypothesis CN : nc = 0%nat -> fc = [].
  Hypothesis CL : forallb (fun r => inb r (RSP :: L)) (clob items) = true.
  Hypothesis NL : inb RSP L = false.
  Hypothesis PS : forallb (fun r => if inb r L then inb r (saved gtn) else true) preserved = true.
  Hypothesis EX : exec tlay2 items ts2 tK2.
  Hypothesis HC : at_ C 0 (frame gtn (Z.of_nat nq) body).
  Hypothesis Hc : called C s.
  Hypothesis Hst : stack k s.
  Hypothesis Hz : place k s z nz.
  Hypothesis Hm : mapped (mem s) z nz.
  Hypothesis Hx : place k s x na.
  Hypothesis Hma : mapped (mem s) x na.
  Hypothesis Hzx : apart z nz x na.
  Hypothesis Hy : nb0 = true \/ place k s y nb /\ apart z nz y nb /\ apart x na y nb.
  Hypothesis Hk : nc0 = true \/ place k s KA nc /\ apart z nz KA nc /\ apart x na KA nc.
  Hypothesis Hrx : reads (mem s) x fa va.
  Hypothesis Hry : reads (mem s) y fb vb.
  Hypothesis Hrc : reads (mem s) KA fc vc.
  Hypothesis XW : Forall (fun e => 0 <= fst e /\ fst e + Wd (snd e) <= Wd na) fa.
  Hypothesis YW : Forall (fun e => 0 <= fst e /\ fst e + Wd (snd e) <= Wd nb) fb.
  Hypothesis CW : Forall (fun e => 0 <= fst e /\ fst e + Wd (snd e) <= Wd nc) fc.
  Hypothesis HT : consts c k s T NT HF z nz.
  Hypothesis HT2 : consts c k s T NT HF x na.

  Lemma reads_pro2 m1 P a n fs vs : 0 <= P <= Wd k -> chg [(rsp (rg s) - P, P)] (mem s) m1 -> place k s a n ->
    Forall (fun e => 0 <= fst e /\ fst e + Wd (snd e) <= Wd n) fs -> reads (mem s) a fs vs -> reads m1 a fs vs.
  Proof.
    clear. intros HP CH PL W H. induction H as [|e v fs vs H1 H2 IH]; [constructor|]. inversion W as [|? ? W1 W2]; subst. constructor; [|exact (IH W2)].
    refine (int_at_chg _ _ _ _ _ _ CH _ H1). constructor; [|constructor]. unfold clear_of. cbn [fst snd]. destruct (place_off _ _ _ _ PL) as (_ & _ & D). clear -D W1 HP. lia.
  Qed.

  Lemma top2_ok : calls C s (fun s' => reads (mem s') z fz vz /\ reads (mem s') x fa va' /\ only2 k z nz x na s s').
  Proof.
    pose proof (Wd_nn nz) as W1. pose proof (Wd_nn stk) as W2. pose proof (Wd_nn na) as W3. pose proof (Wd_nn nb) as W4. pose proof (Wd_nn nc) as W6. pose proof (Wd_nn nq) as W5.
    set (P := frameP gtn (Z.of_nat nq)). assert (HP : P = 8 * (gtn - 4) + 8 * Z.of_nat nq) by (unfold P, frameP; clear -Hg; lia).
    assert (Ek : Wd k = P + Wd stk) by (rewrite HP; clear -Hg; lia).
    destruct Hst as [S1 S2]. rewrite Ek in S1, S2.
    assert (HP8 : P / 8 = gtn - 4 + Z.of_nat nq) by (rewrite HP; replace (8 * (gtn - 4) + 8 * Z.of_nat nq) with ((gtn - 4 + Z.of_nat nq) * 8) by ring; apply Z.div_mul; discriminate).
    destruct Hc as [_ [HA1 HA2]]. change (Wd 1) with 8 in HA2.
    destruct (place_off _ _ _ _ Hz) as (Z1 & _ & Z3). rewrite Ek in Z3. assert (Z2 : z + Wd nz < B) by exact (proj2 (proj1 Hz)).
    destruct (place_off _ _ _ _ Hx) as (X1 & _ & X3). rewrite Ek in X3. assert (X2 : x + Wd na < B) by exact (proj2 (proj1 Hx)).
    unfold apart in Hzx.
    destruct HT as (PT & PTp & PTa & PN & PNp & PNa & PH & PHp & PHa). destruct HT2 as (_ & _ & QTa & _ & _ & QNa & _ & _ & QHa).
    unfold apart in PTa, PNa, PHa, QTa, QNa, QHa. change (Wd 40) with 320 in *. change (Wd 8) with 64 in *.
    destruct (place_off _ _ _ _ PTp) as (T1 & _ & T3). pose proof (proj2 (proj1 PTp)) as T2. change (Wd 40) with 320 in T2, T3. rewrite Ek in T3.
    destruct (place_off _ _ _ _ PNp) as (N1 & _ & N3). pose proof (proj2 (proj1 PNp)) as N2. change (Wd 8) with 64 in N2, N3. rewrite Ek in N3.
    destruct (place_off _ _ _ _ PHp) as (H1 & _ & H3). pose proof (proj2 (proj1 PHp)) as H2. change (Wd 8) with 64 in H2, H3. rewrite Ek in H3.
    assert (YY : nb0 = true \/ (0 <= y /\ y + Wd nb < B /\ (y + Wd nb <= rsp (rg s) - (P + Wd stk) \/ rsp (rg s) + 8 <= y)) /\ disj y (Wd nb) z (Wd nz) /\ disj y (Wd nb) x (Wd na)).
    { destruct Hy as [E|(E1 & E2 & E3)]; [left; exact E|right]. destruct (place_off _ _ _ _ E1) as (Y1 & _ & Y3). pose proof (proj2 (proj1 E1)) as Y2. rewrite Ek in Y3. split; [clear -Y1 Y2 Y3; lia|]. unfold apart in E2, E3. unfold disj. clear -E2 E3. lia. }
    assert (KK : nc0 = true \/ (0 <= KA /\ KA + Wd nc < B /\ (KA + Wd nc <= rsp (rg s) - (P + Wd stk) \/ rsp (rg s) + 8 <= KA)) /\ disj KA (Wd nc) z (Wd nz) /\ disj KA (Wd nc) x (Wd na)).
    { destruct Hk as [E|(E1 & E2 & E3)]; [left; exact E|right]. destruct (place_off _ _ _ _ E1) as (Y1 & _ & Y3). pose proof (proj2 (proj1 E1)) as Y2. rewrite Ek in Y3. split; [clear -Y1 Y2 Y3; lia|]. unfold apart in E2, E3. unfold disj. clear -E2 E3. lia. }
    set (base := tbase2 P). set (lay := tlay2).
    assert (Ex : at_p base (RA, 0) = x) by (unfold at_p, base, tbase2; cbn [fst snd]; clear; lia).
    assert (Ey : nb0 = false -> at_p base (RB, 0) = y) by (intros E; unfold at_p, base, tbase2; cbn [fst snd]; rewrite E; clear; lia).
    assert (Ec : nc0 = false -> base RC = KA) by (intros E; unfold base, tbase2; rewrite E; reflexivity).
    assert (Kx : okp lay (RA, 0) = true) by (unfold okp, inr_, lo, hi, lay; cbn [fst snd tlay2]; apply andb_true_intro; split; apply Z.leb_le; clear; lia).
    assert (Ky : okp lay (RB, 0) = true) by (unfold okp, inr_, lo, hi, lay; cbn [fst snd tlay2]; apply andb_true_intro; split; apply Z.leb_le; clear; lia).
    assert (Kz : okp lay (RO, 0) = true) by (unfold okp, inr_, lo, hi, lay; cbn [fst snd tlay2]; apply andb_true_intro; split; apply Z.leb_le; clear; lia).
    assert (Ksp : okp lay (RS, 0) = true) by (unfold okp, inr_, lo, hi, lay; cbn [fst snd tlay2]; apply andb_true_intro; split; apply Z.leb_le; clear; lia).
    assert (PP : 0 <= P /\ Wd nq <= P) by (clear -HP Hg; lia).
    assert (OK : regions_ok lay base).
    { assert (YR : 0 <= base RB + lo lay RB /\ base RB + hi lay RB < B /\ disj (base RB + lo lay RB) (hi lay RB - lo lay RB) z (Wd nz) /\ disj (base RB + lo lay RB) (hi lay RB - lo lay RB) x (Wd na) /\ disj (base RB + lo lay RB) (hi lay RB - lo lay RB) (rsp (rg s) - P - Wd stk) (Wd stk + Wd nq)).
      { unfold base, lay, lo, hi, tbase2, tlay2. cbn [fst snd]. destruct nb0 eqn:E.
        - apply Nat.eqb_eq in E. rewrite E. clear -Z1 Z2 Z3 Hzx W1 W2 W3 W5 PP; unfold disj in *; lia.
        - destruct YY as [D|D]; [discriminate D|]. clear -D W4 W1 W2 W5 PP. unfold disj in *. lia. }
      assert (CR : 0 <= base RC + lo lay RC /\ base RC + hi lay RC < B /\ disj (base RC + lo lay RC) (hi lay RC - lo lay RC) z (Wd nz) /\ disj (base RC + lo lay RC) (hi lay RC - lo lay RC) x (Wd na) /\ disj (base RC + lo lay RC) (hi lay RC - lo lay RC) (rsp (rg s) - P - Wd stk) (Wd stk + Wd nq)).
      { unfold base, lay, lo, hi, tbase2, tlay2. cbn [fst snd]. destruct nc0 eqn:E.
        - apply Nat.eqb_eq in E. rewrite E. clear -Z1 Z2 Z3 Hzx W1 W2 W3 W5 PP; unfold disj in *; lia.
        - destruct KK as [D|D]; [discriminate D|]. clear -D W6 W1 W2 W5 PP. unfold disj in *. lia. }
      split.
      - intros r. destruct r; try (split; [apply YR|apply YR]); try (split; [apply CR|apply CR]); unfold base, lay, lo, hi; cbn [tbase2 tlay2 fst snd]; clear -S1 HA2 PP Z1 Z2 X1 X2 T1 T2 N1 N2 H1 H2 W2 W5; lia.
      - intros r r' Hw Hn. destruct r; try discriminate Hw; destruct r'; try discriminate Hn.
        all: first [ (destruct CR as (_ & _ & YR1 & YR2 & YR3); unfold lo, hi, base, lay in *; cbn [tbase2 tlay2 fst snd] in *; clear -YR1 YR2 YR3 W1 W2 W3 W5; unfold disj in *; lia)
                   | (destruct YR as (_ & _ & YR1 & YR2 & YR3); unfold lo, hi, base, lay in *; cbn [tbase2 tlay2 fst snd] in *; clear -YR1 YR2 YR3 W1 W2 W3 W5; unfold disj in *; lia)
                   | (unfold lo, hi, base, lay; cbn [tbase2 tlay2 fst snd]; clear -Z3 X3 Hzx T3 N3 H3 PTa PNa PHa QTa QNa QHa PP W1 W2 W3 W5; unfold disj in *; lia)]. }
    assert (LX : length va = length fa) by exact (reads_len _ _ _ _ Hrx). assert (LY : length vb = length fb) by exact (reads_len _ _ _ _ Hry).
    eapply calls_mono; [refine (frame_wpl C body gtn (Z.of_nat nq) (Z.of_nat stk) L [(z, Wd nz); (x, Wd na)] s (fun _ m => reads m z fz vz /\ reads m x fa va') Hg _ _ HC Hc _ _ _ NL PS _); fold P; change (getr (rg s) RSP) with (rsp (rg s))|].
    - clear; lia.
    - clear; lia.
    - clear -S1; lia.
    - rewrite HP8. apply mapped_avail in S2. intros j Hj. destruct (S2 j) as [v Ev]; [clear -Hj Hg; lia|]. exists v. rewrite <- Ev. f_equal. clear. lia.
    - constructor; [|constructor; [|constructor]]; unfold clear_of; cbn [fst snd]; [clear -Z3; lia|clear -X3; lia].
    - intros pc g1 f1 m1 Q A K1 G1 G9 C1 HQ. pose proof (regs_at s g1 K1 G9) as RG.
      assert (TAB : Forall (tab_at m1) (ctabs c T NT HF)).
      { assert (HPk : 0 <= P <= Wd k) by (rewrite Ek; clear -PP W2; lia).
        assert (PR : forall a n o w v, place k s a n -> 0 <= o -> o + Wd w <= Wd n -> int_at (mem s) (a + o) w v -> int_at m1 (a + o) w v).
        { intros a n o w v PL O1 O2 IA_. refine (int_at_chg _ _ _ _ _ _ C1 _ IA_). constructor; [|constructor]. unfold clear_of. cbn [fst snd]. destruct (place_off _ _ _ _ PL) as (_ & _ & D). clear -D O1 O2 HPk. lia. }
        unfold ctabs. constructor; [|constructor; [|constructor; [|constructor]]]; unfold tab_at; cbn [t_f t_a].
        - rewrite Forall_forall. intros e He. apply in_map_iff in He. destruct He as (i & <- & Hi). cbn [fst snd]. replace (T + (-32 + 32 * i)) with (T - 32 + 32 * i) by (clear; lia).
          assert (Hi' : 0 <= i <= 9) by (cbn in Hi; clear -Hi; lia). apply (PR _ 40%nat _ _ _ PTp); [clear -Hi'; lia|change (Wd 40) with 320; change (Wd 4) with 32; clear -Hi'; lia|exact (PT i Hi')].
        - constructor; [|constructor]. cbn [fst snd]. apply (PR _ 8%nat _ _ _ PNp); [clear; lia|clear; lia|]. rewrite Z.add_0_r. exact PN.
        - constructor; [|constructor; [|constructor]]; cbn [fst snd]; (apply (PR _ 8%nat _ _ _ PHp); [clear; lia|clear; lia|]).
          + rewrite Z.add_0_r. exact (proj1 PH).
          + exact (proj2 PH). }
      assert (SAT : sat lay base ts2 g1 (xm s) m1).
      { assert (HPk : 0 <= P <= Wd k) by (rewrite Ek; clear -PP W2; lia).
        unfold sat, ts2. cbn [s_r s_x s_f s_p]. split; [|split; [|split; [|split]]].
        - constructor; [cbn [fst snd]; split; [exact Ksp|rewrite G1; unfold at_p, base; cbn [fst snd tbase2]; change (getr (rg s) RSP) with (rsp (rg s)); clear; lia]|].
          constructor; [cbn [fst snd]; split; [exact Kz|rewrite (RG RDI eq_refl); unfold at_p, base; cbn [fst snd tbase2]; change (areg (rg s) RDI) with z; clear; lia]|].
          constructor; [cbn [fst snd]; split; [exact Kx|rewrite (RG RSI eq_refl), Ex; reflexivity]|].
          destruct nb0 eqn:E; [constructor|]. constructor; [|constructor]. cbn [fst snd]. split; [exact Ky|]. rewrite (Ey eq_refl). exact G9.
        - constructor.
        - apply addf_ok; [|apply addf_ok; [|apply addf_ok; [|constructor]]].
          + rewrite Ex. exact (reads_pro2 m1 P _ _ _ _ HPk C1 Hx XW Hrx).
          + destruct nb0 eqn:E; [apply Nat.eqb_eq in E; rewrite (YN E) in Hry |- *; inversion Hry; subst; constructor|]. rewrite (Ey eq_refl). destruct Hy as [D|[D _]]; [discriminate D|]. exact (reads_pro2 m1 P _ _ _ _ HPk C1 D YW Hry).
          + destruct nc0 eqn:E; [apply Nat.eqb_eq in E; rewrite (CN E) in Hrc |- *; inversion Hrc; subst; constructor|]. unfold at_p. cbn [fst snd]. rewrite (Ec eq_refl), Z.add_0_r. destruct Hk as [D|[D _]]; [discriminate D|]. exact (reads_pro2 m1 P _ _ _ _ HPk C1 D CW Hrc).
        - constructor.
        - intros r o Hw L1 L2 L3. assert (MA : forall a n o, mapped (mem s) a n -> 0 <= o -> o + 8 <= Wd n -> o mod 8 = 0 -> exists v, m1 (a + o) = Some v).
          { clear -C1. intros a n o M L1 L2 L3. apply mapped_avail in M. destruct (M (o / 8)) as [v E]; [split; [apply Z.div_pos; lia|apply Z.div_lt_upper_bound; lia]|]. apply (proj2 C1 _ v). rewrite <- E. f_equal. pose proof (Z.div_mod o 8). lia. }
          destruct r; try discriminate Hw; unfold lo, hi, base, lay in *; cbn [tbase2 tlay2 fst snd] in *.
          + rewrite Z.sub_0_r in L3. exact (MA _ _ _ Hm L1 L2 L3).
          + rewrite Z.sub_0_r in L3. exact (MA _ _ _ Hma L1 L2 L3).
          + destruct (MA _ _ (o - - Wd stk) S2 ltac:(clear -L1; lia) ltac:(rewrite Ek; clear -L2 PP; lia) L3) as [v E]. exists v. rewrite <- E. f_equal. clear. lia. }
      refine (exec_ok lay base OK C (ctabs c T NT HF) _ _ items ts2 tK2 pc g1 (xm s) f1 m1 Q AO _ _ SAT TAB _).
      + cbn. repeat apply Forall_cons; [exists RT|exists RN|exists RH|apply Forall_nil]; repeat split; try reflexivity; try (cbn; intro; discriminate); unfold base, lay, lo, hi; cbn [tbase2 tlay2 fst snd t_o t_n]; try (clear; lia).
        all: repeat constructor; cbn; try (intro; discriminate).
      + reflexivity.
      + exact EX.
      + rewrite (FL base eq_refl Ec). exact A.
      + intros s' g' X' f' m' (K2 & K2' & K3) SA' KP XK CH. rewrite (FL base eq_refl Ec).
        assert (GS : getr g' RSP = getr g1 RSP).
        { rewrite (proj2 (lookr_ok _ _ _ _ _ _ _ _ SA' K3)), G1. unfold at_p, base. cbn [fst snd tbase2]. change (getr (rg s) RSP) with (rsp (rg s)). clear. lia. }
        apply HQ.
        * apply (keep_drop RSP); [|exact GS]. intros r Hr. apply KP. destruct (inb r (clob items)) eqn:E; [|reflexivity]. exfalso.
          rewrite forallb_forall in CL. assert (HI : In r (clob items)) by (apply inb_In; exact E). rewrite (CL r HI) in Hr. discriminate.
        * refine (chg_sub _ _ _ _ _ CH). intros b Hb. change (wreg lay base) with [(z + 0, Wd nz - 0); (x + 0, Wd na - 0); (rsp (rg s) - P + - Wd stk, Wd nq - - Wd stk)]. cbn [app] in Hb. apply off3 in Hb. apply off3. clear -Hb. lia.
        * destruct SA' as (_ & _ & S3 & _). pose proof (lookfs_ok _ _ _ _ _ _ S3 K2) as RR. pose proof (lookfs_ok _ _ _ _ _ _ S3 K2') as RR'. unfold at_p, base in RR, RR'. cbn [fst snd tbase2] in RR, RR'. rewrite Z.add_0_r in RR, RR'. split; [exact RR|exact RR'].
    - intros s' [[R1 R2] C1]. split; [exact R1|]. split; [exact R2|]. intros b Hb Hb' Hb2. destruct C1 as [C1 _]. apply C1. change (getr (rg s) RSP) with (rsp (rg s)). cbn [app]. apply off3. rewrite Ek in Hb2. clear -Hb Hb' Hb2. lia.
  Qed.
End Top2.
