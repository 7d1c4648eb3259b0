(** A generated function with a stack frame whose body is a list of items (JitSym): a call. *)
From Coq Require Import ZArith List Bool Lia.
From Verif Require Import X64 XLog JitSpec JitFpSpec XTac XReg JitFp JitMac JitMac2 JitFrame JitRep JitFpApi JitFpApi2 JitFp2Spec JitFp2Mac JitFp2Mac2 JitFp2Api JitFp2Api2 JitSym JitSub JitFp6Spec.
From Verif Require Import Base Cfg Prim FpM.
Import ListNotations.
Local Open Scope Z_scope.
Local Notation find := X64.find.
Local Notation length := List.length.

(** where the argument in the body's register [r] comes from: the frame moves rdx to r9 *)
Definition areg (g : regs) (r : reg) : Z := if reqb r R9 then rdx g else getr g r.

Section Top.
  Variables (C : code) (c : cfg) (T NT HF : Z) (gtn : Z) (nq : nat).
  Variables (items : list item) (body : code) (rx ry : reg) (R : rout) (bx by_ : bool).
  Variables (s : state) (vx vy : list Z).
  Local Notation nx0 := (Nat.eqb (r_nx R) 0).
  Local Notation ny0 := (Nat.eqb (r_ny R) 0).
  Local Notation k := (Z.to_nat (gtn - 4) + nq + r_stk R)%nat.
  Local Notation z := (rdi (rg s)).
  Local Notation x := (areg (rg s) rx).
  Local Notation y := (areg (rg s) ry).
  Definition tlay : layout := fun r =>
    match r with
    | RO => (0, Wd (r_nz R), true) | RA => (0, if bx then 0 else Wd (r_nx R), false) | RB => (0, if by_ then 0 else Wd (r_ny R), false)
    | RS => (- Wd (r_stk R), Wd nq, true) | RT => (-32, 288, false) | RN | RH | RC => (0, 64, false)
    end.
  Definition tbase (P : Z) : rgn -> Z := fun r =>
    match r with
    | RO => z | RA => if bx || nx0 then z else x | RB => if by_ || ny0 then z else y
    | RS => rsp (rg s) - P | RT => T | RN => NT | RH | RC => HF
    end.
  Definition ts0 : sst :=
    mkS ((RSP, (RS, 0)) :: (gp1, (RO, 0)) :: (if nx0 then [] else [(rx, srx bx)]) ++ (if ny0 then [] else [(ry, sry by_)])) []
        (addf (srx bx) (r_x R) vx (addf (sry by_) (r_y R) vy [])) [].
  Definition tK (t : sst) : Prop := lookfs (s_f t) (RO, 0) (r_z R) = Some (r_fn R (vx ++ vy)) /\ lookr (s_r t) RSP = Some (RS, 0).
  Hypothesis Hg : 5 <= gtn <= 10.
  Hypothesis AO : Forall (aokT C T (ctabs c T NT HF)) items.
  Hypothesis FL : forall base, base RT = T -> flat base items = body.
  Hypothesis XN : r_nx R = 0%nat -> r_x R = [].
  Hypothesis YN : r_ny R = 0%nat -> r_y R = [].
  Hypothesis CL : forallb (fun r => inb r (RSP :: r_clob R)) (clob items) = true.
  Hypothesis NL : inb RSP (r_clob R) = false.
  Hypothesis PS : forallb (fun r => if inb r (r_clob R) then inb r (saved gtn) else true) preserved = true.
  Hypothesis RX : inb rx [RSP] = false.
  Hypothesis RY : inb ry [RSP] = false.
  Hypothesis EX : exec tlay items ts0 tK.
  Hypothesis HC : at_ C 0 (frame gtn (Z.of_nat nq) body).
  Hypothesis Hc : called C s.
  Hypothesis Hst : stack k s.
  Hypothesis Hz : place k s z (r_nz R).
  Hypothesis Hm : mapped (mem s) z (r_nz R).
  Hypothesis Hx : nx0 = true \/ place k s x (r_nx R) /\ (if bx then x = z else apart z (r_nz R) x (r_nx R)).
  Hypothesis Hy : ny0 = true \/ place k s y (r_ny R) /\ (if by_ then y = z else apart z (r_nz R) y (r_ny R)).
  Hypothesis Hrx : reads (mem s) x (r_x R) vx.
  Hypothesis Hry : reads (mem s) y (r_y R) vy.
  Hypothesis XW : Forall (fun e => 0 <= fst e /\ fst e + Wd (snd e) <= Wd (r_nx R)) (r_x R).
  Hypothesis YW : Forall (fun e => 0 <= fst e /\ fst e + Wd (snd e) <= Wd (r_ny R)) (r_y R).
  Hypothesis HT : consts c k s T NT HF z (r_nz R).

  Lemma reads_pro m1 P a n fs vs : 0 <= P <= Wd k -> chg [(rsp (rg s) - P, P)] (mem s) m1 -> place k s a n ->
    Forall (fun e => 0 <= fst e /\ fst e + Wd (snd e) <= Wd n) fs -> reads (mem s) a fs vs -> reads m1 a fs vs.
  Proof.
    clear. intros HP CH PL W H. induction H as [|e v fs vs H1 H2 IH]; [constructor|]. inversion W as [|? ? W1 W2]; subst. constructor; [|exact (IH W2)].
    refine (int_at_chg _ _ _ _ _ _ CH _ H1). constructor; [|constructor]. unfold clear_of. cbn [fst snd]. destruct (place_off _ _ _ _ PL) as (_ & _ & D). clear -D W1 HP. lia.
  Qed.
  Lemma regs_at g1 : keep [RSP; R9] (rg s) g1 -> getr g1 R9 = rdx (rg s) -> forall r, inb r [RSP] = false -> getr g1 r = areg (rg s) r.
  Proof. clear. intros K E r H. unfold areg. destruct (reqb r R9) eqn:E9; [apply reqb_eq in E9; subst r; exact E|]. apply K. cbn [inb] in *. destruct (reqb r RSP); [discriminate|]. rewrite E9. reflexivity. Qed.

  Lemma top_ok : calls C s (fun s' => reads (mem s') z (r_z R) (r_fn R (vx ++ vy)) /\ only k z (r_nz R) s s').
  Proof.
    pose proof (Wd_nn (r_nz R)) as W1. pose proof (Wd_nn (r_stk R)) as W2. pose proof (Wd_nn (r_nx R)) as W3. pose proof (Wd_nn (r_ny R)) as W4. pose proof (Wd_nn nq) as W5.
    set (P := frameP gtn (Z.of_nat nq)). assert (HP : P = 8 * (gtn - 4) + 8 * Z.of_nat nq) by (unfold P, frameP; clear -Hg; lia).
    assert (Ek : Wd k = P + Wd (r_stk R)) by (rewrite HP; clear -Hg; lia).
    destruct Hst as [S1 S2]. rewrite Ek in S1, S2.
    assert (HP8 : P / 8 = gtn - 4 + Z.of_nat nq) by (rewrite HP; replace (8 * (gtn - 4) + 8 * Z.of_nat nq) with ((gtn - 4 + Z.of_nat nq) * 8) by ring; apply Z.div_mul; discriminate).
    destruct Hc as [_ [HA1 HA2]]. change (Wd 1) with 8 in HA2.
    destruct (place_off _ _ _ _ Hz) as (Z1 & _ & Z3). rewrite Ek in Z3. assert (Z2 : z + Wd (r_nz R) < B) by exact (proj2 (proj1 Hz)).
    destruct HT as (PT & PTp & PTa & PN & PNp & PNa & PH & PHp & PHa).
    unfold apart in PTa, PNa, PHa. change (Wd 40) with 320 in *. change (Wd 8) with 64 in *.
    destruct (place_off _ _ _ _ PTp) as (T1 & _ & T3). pose proof (proj2 (proj1 PTp)) as T2. change (Wd 40) with 320 in T2, T3. rewrite Ek in T3.
    destruct (place_off _ _ _ _ PNp) as (N1 & _ & N3). pose proof (proj2 (proj1 PNp)) as N2. change (Wd 8) with 64 in N2, N3. rewrite Ek in N3.
    destruct (place_off _ _ _ _ PHp) as (H1 & _ & H3). pose proof (proj2 (proj1 PHp)) as H2. change (Wd 8) with 64 in H2, H3. rewrite Ek in H3.
    assert (XX : nx0 = true \/ (0 <= x /\ x + Wd (r_nx R) < B /\ (x + Wd (r_nx R) <= rsp (rg s) - (P + Wd (r_stk R)) \/ rsp (rg s) + 8 <= x)) /\ (if bx then x = z else disj x (Wd (r_nx R)) z (Wd (r_nz R)))).
    { destruct Hx as [E|[E1 E2]]; [left; exact E|right]. destruct (place_off _ _ _ _ E1) as (X1 & _ & X3). pose proof (proj2 (proj1 E1)) as X2. rewrite Ek in X3. split; [clear -X1 X2 X3; lia|]. destruct bx; [exact E2|]. unfold apart in E2. unfold disj. clear -E2. lia. }
    assert (YY : ny0 = true \/ (0 <= y /\ y + Wd (r_ny R) < B /\ (y + Wd (r_ny R) <= rsp (rg s) - (P + Wd (r_stk R)) \/ rsp (rg s) + 8 <= y)) /\ (if by_ then y = z else disj y (Wd (r_ny R)) z (Wd (r_nz R)))).
    { destruct Hy as [E|[E1 E2]]; [left; exact E|right]. destruct (place_off _ _ _ _ E1) as (X1 & _ & X3). pose proof (proj2 (proj1 E1)) as X2. rewrite Ek in X3. split; [clear -X1 X2 X3; lia|]. destruct by_; [exact E2|]. unfold apart in E2. unfold disj. clear -E2. lia. }
    set (base := tbase P). set (lay := tlay).
    assert (Ex : nx0 = false -> at_p base (srx bx) = x).
    { intros E. destruct XX as [D|[_ D]]; [rewrite D in E; discriminate|]. unfold at_p, srx, base, tbase. destruct bx; cbn [fst snd orb]; [clear -D; lia|]. rewrite E. clear. lia. }
    assert (Ey : ny0 = false -> at_p base (sry by_) = y).
    { intros E. destruct YY as [D|[_ D]]; [rewrite D in E; discriminate|]. unfold at_p, sry, base, tbase. destruct by_; cbn [fst snd orb]; [clear -D; lia|]. rewrite E. clear. lia. }
    assert (Kx : okp lay (srx bx) = true).
    { unfold okp, inr_, srx, lo, hi, lay, tlay. destruct bx; cbn [fst snd]; apply andb_true_intro; split; apply Z.leb_le; clear; lia. }
    assert (Ky : okp lay (sry by_) = true).
    { unfold okp, inr_, sry, lo, hi, lay, tlay. destruct by_; cbn [fst snd]; apply andb_true_intro; split; apply Z.leb_le; clear; lia. }
    assert (Kz : okp lay (RO, 0) = true) by (unfold okp, inr_, lo, hi, lay; cbn [fst snd tlay]; apply andb_true_intro; split; apply Z.leb_le; clear; lia).
    assert (Ksp : okp lay (RS, 0) = true) by (unfold okp, inr_, lo, hi, lay; cbn [fst snd tlay]; apply andb_true_intro; split; apply Z.leb_le; clear; lia).
    assert (PP : 0 <= P /\ Wd nq <= P) by (clear -HP Hg; lia).
    assert (OK : regions_ok lay base).
    { assert (XR : 0 <= base RA + lo lay RA /\ base RA + hi lay RA < B /\ disj (base RA + lo lay RA) (hi lay RA - lo lay RA) z (Wd (r_nz R)) /\ disj (base RA + lo lay RA) (hi lay RA - lo lay RA) (rsp (rg s) - P - Wd (r_stk R)) (Wd (r_stk R) + Wd nq)).
      { unfold base, lay, lo, hi, tbase, tlay. cbn [fst snd]. destruct bx; cbn [orb]; [clear -Z1 Z2 Z3 W1 W2 W5 PP; unfold disj in *; lia|]. destruct nx0 eqn:E.
        - apply Nat.eqb_eq in E. rewrite E. clear -Z1 Z2 Z3 W1 W2 W5 PP; unfold disj in *; lia.
        - destruct XX as [D|D]; [discriminate D|]. clear -D W3 W1 W2 W5 PP. unfold disj in *. lia. }
      assert (YR : 0 <= base RB + lo lay RB /\ base RB + hi lay RB < B /\ disj (base RB + lo lay RB) (hi lay RB - lo lay RB) z (Wd (r_nz R)) /\ disj (base RB + lo lay RB) (hi lay RB - lo lay RB) (rsp (rg s) - P - Wd (r_stk R)) (Wd (r_stk R) + Wd nq)).
      { unfold base, lay, lo, hi, tbase, tlay. cbn [fst snd]. destruct by_; cbn [orb]; [clear -Z1 Z2 Z3 W1 W2 W5 PP; unfold disj in *; lia|]. destruct ny0 eqn:E.
        - apply Nat.eqb_eq in E. rewrite E. clear -Z1 Z2 Z3 W1 W2 W5 PP; unfold disj in *; lia.
        - destruct YY as [D|D]; [discriminate D|]. clear -D W4 W1 W2 W5 PP. unfold disj in *. lia. }
      split.
      - intros r. destruct r; try (split; [apply XR|apply XR]); try (split; [apply YR|apply YR]); unfold base, lay, lo, hi; cbn [tbase tlay fst snd]; clear -S1 HA2 PP Z1 Z2 T1 T2 N1 N2 H1 H2 W2 W5; lia.
      - intros r r' Hw Hn. destruct r; try discriminate Hw; destruct r'; try discriminate Hn.
        all: first [ (destruct XR as (_ & _ & XR1 & XR2); unfold lo, hi, base, lay in *; cbn [tbase tlay fst snd] in *; clear -XR1 XR2 W1 W2 W5; unfold disj in *; lia)
                   | (destruct YR as (_ & _ & YR1 & YR2); unfold lo, hi, base, lay in *; cbn [tbase tlay fst snd] in *; clear -YR1 YR2 W1 W2 W5; unfold disj in *; lia)
                   | (unfold lo, hi, base, lay; cbn [tbase tlay fst snd]; clear -Z3 T3 N3 H3 PTa PNa PHa PP W1 W2 W5; unfold disj in *; lia)]. }
    assert (LX : length vx = length (r_x R)) by exact (reads_len _ _ _ _ Hrx). assert (LY : length vy = length (r_y R)) by exact (reads_len _ _ _ _ Hry).
    eapply calls_mono; [refine (frame_wp C body gtn (Z.of_nat nq) (Z.of_nat (r_stk R)) (r_clob R) z (Wd (r_nz R)) s (fun m => reads m z (r_z R) (r_fn R (vx ++ vy))) Hg _ _ HC Hc _ _ _ NL PS _); fold P; change (getr (rg s) RSP) with (rsp (rg s))|].
    - clear; lia.
    - clear; lia.
    - clear -S1; lia.
    - rewrite HP8. apply mapped_avail in S2. intros j Hj. destruct (S2 j) as [v Ev]; [clear -Hj Hg; lia|]. exists v. rewrite <- Ev. f_equal. clear. lia.
    - clear -Z3. lia.
    - intros pc g1 f1 m1 Q A K1 G1 G9 C1 HQ. pose proof (regs_at g1 K1 G9) as RG.
      assert (TAB : Forall (tab_at m1) (ctabs c T NT HF)).
      { assert (HPk : 0 <= P <= Wd k) by (rewrite Ek; clear -PP W2; lia).
        assert (PR : forall a n o w v, place k s a n -> 0 <= o -> o + Wd w <= Wd n -> int_at (mem s) (a + o) w v -> int_at m1 (a + o) w v).
        { intros a n o w v PL O1 O2 IA_. refine (int_at_chg _ _ _ _ _ _ C1 _ IA_). constructor; [|constructor]. unfold clear_of. cbn [fst snd]. destruct (place_off _ _ _ _ PL) as (_ & _ & D). clear -D O1 O2 HPk. lia. }
        unfold ctabs. constructor; [|constructor; [|constructor; [|constructor]]]; unfold tab_at; cbn [t_f t_a].
        - rewrite Forall_forall. intros e He. apply in_map_iff in He. destruct He as (i & <- & Hi). cbn [fst snd]. replace (T + (-32 + 32 * i)) with (T - 32 + 32 * i) by (clear; lia).
          assert (Hi' : 0 <= i <= 9) by (cbn in Hi; clear -Hi; lia). apply (PR _ 40%nat _ _ _ PTp); [clear -Hi'; lia|change (Wd 40) with 320; change (Wd 4) with 32; clear -Hi'; lia|exact (PT i Hi')].
        - constructor; [|constructor]. cbn [fst snd]. apply (PR _ 8%nat _ _ _ PNp); [clear; lia|clear; lia|]. rewrite Z.add_0_r. exact PN.
        - constructor; [|constructor; [|constructor]]; cbn [fst snd]; (apply (PR _ 8%nat _ _ _ PHp); [clear; lia|clear; lia|]).
          + rewrite Z.add_0_r. exact (proj1 PH).
          + exact (proj2 PH). }
      assert (SAT : sat lay base ts0 g1 (xm s) m1).
      { assert (HPk : 0 <= P <= Wd k) by (rewrite Ek; clear -PP W2; lia).
        unfold sat, ts0. cbn [s_r s_x s_f s_p]. split; [|split; [|split; [|split]]].
        - constructor; [cbn [fst snd]; split; [exact Ksp|rewrite G1; unfold at_p, base; cbn [fst snd tbase]; change (getr (rg s) RSP) with (rsp (rg s)); clear; lia]|].
          constructor; [cbn [fst snd]; split; [exact Kz|rewrite (RG RDI eq_refl); unfold at_p, base; cbn [fst snd tbase]; change (areg (rg s) RDI) with z; clear; lia]|].
          apply Forall_app. split.
          + destruct nx0 eqn:E; [constructor|]. constructor; [|constructor]. cbn [fst snd]. split; [exact Kx|]. rewrite (Ex eq_refl). apply RG. exact RX.
          + destruct ny0 eqn:E; [constructor|]. constructor; [|constructor]. cbn [fst snd]. split; [exact Ky|]. rewrite (Ey eq_refl). apply RG. exact RY.
        - constructor.
        - apply addf_ok; [|apply addf_ok; [|constructor]].
          + destruct nx0 eqn:E; [apply Nat.eqb_eq in E; rewrite (XN E) in Hrx |- *; inversion Hrx; subst; constructor|]. rewrite (Ex eq_refl). destruct Hx as [D|[D _]]; [discriminate D|]. exact (reads_pro m1 P _ _ _ _ HPk C1 D XW Hrx).
          + destruct ny0 eqn:E; [apply Nat.eqb_eq in E; rewrite (YN E) in Hry |- *; inversion Hry; subst; constructor|]. rewrite (Ey eq_refl). destruct Hy as [D|[D _]]; [discriminate D|]. exact (reads_pro m1 P _ _ _ _ HPk C1 D YW Hry).
        - constructor.
        - intros r o Hw L1 L2 L3. assert (MA : forall a n o, mapped (mem s) a n -> 0 <= o -> o + 8 <= Wd n -> o mod 8 = 0 -> exists v, m1 (a + o) = Some v).
          { clear -C1. intros a n o M L1 L2 L3. apply mapped_avail in M. destruct (M (o / 8)) as [v E]; [split; [apply Z.div_pos; lia|apply Z.div_lt_upper_bound; lia]|]. apply (proj2 C1 _ v). rewrite <- E. f_equal. pose proof (Z.div_mod o 8). lia. }
          destruct r; try discriminate Hw; unfold lo, hi, base, lay in *; cbn [tbase tlay fst snd] in *.
          + rewrite Z.sub_0_r in L3. exact (MA _ _ _ Hm L1 L2 L3).
          + destruct (MA _ _ (o - - Wd (r_stk R)) S2 ltac:(clear -L1; lia) ltac:(rewrite Ek; clear -L2 PP; lia) L3) as [v E]. exists v. rewrite <- E. f_equal. clear. lia. }
      refine (exec_ok lay base OK C (ctabs c T NT HF) _ _ items ts0 tK pc g1 (xm s) f1 m1 Q AO _ _ SAT TAB _).
      + cbn. repeat apply Forall_cons; [exists RT|exists RN|exists RH|apply Forall_nil]; repeat split; try reflexivity; try (cbn; intro; discriminate); unfold base, lay, lo, hi; cbn [tbase tlay fst snd t_o t_n]; try (clear; lia).
        all: repeat constructor; cbn; try (intro; discriminate).
      + reflexivity.
      + exact EX.
      + rewrite (FL base eq_refl). exact A.
      + intros s' g' X' f' m' (K2 & K3) SA' KP XK CH. rewrite (FL base eq_refl).
        assert (GS : getr g' RSP = getr g1 RSP).
        { rewrite (proj2 (lookr_ok _ _ _ _ _ _ _ _ SA' K3)), G1. unfold at_p, base. cbn [fst snd tbase]. change (getr (rg s) RSP) with (rsp (rg s)). clear. lia. }
        apply HQ.
        * apply (keep_drop RSP); [|exact GS]. intros r Hr. apply KP. destruct (inb r (clob items)) eqn:E; [|reflexivity]. exfalso.
          rewrite forallb_forall in CL. assert (HI : In r (clob items)) by (apply inb_In; exact E). rewrite (CL r HI) in Hr. discriminate.
        * refine (chg_sub _ _ _ _ _ CH). intros b Hb. apply off2 in Hb. change (wreg lay base) with [(z + 0, Wd (r_nz R) - 0); (rsp (rg s) - P + - Wd (r_stk R), Wd nq - - Wd (r_stk R))]. apply off2. clear -Hb. lia.
        * destruct SA' as (_ & _ & S3 & _). pose proof (lookfs_ok _ _ _ _ _ _ S3 K2) as RR. unfold at_p, base in RR. cbn [fst snd tbase] in RR. rewrite Z.add_0_r in RR. exact RR.
    - intros s' [R1 C1]. split; [exact R1|]. intros b Hb Hb'. destruct C1 as [C1 _]. apply C1. change (getr (rg s) RSP) with (rsp (rg s)). apply off2. rewrite Ek in Hb'. clear -Hb Hb'. lia.
  Qed.
End Top.
