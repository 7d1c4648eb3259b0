(** Calls of the generated Compress::square_n: the loop and the frame. *)
From Coq Require Import ZArith List Bool Lia.
From Verif Require Import X64 XLog JitSpec JitFpSpec XTac XReg JitFp JitMac JitMac2 JitFrame JitRep JitFpApi JitFpApi2 JitFp2 JitFp2Spec JitFp2Mac JitFp2Mac2 JitFp2Api JitFp2Api2 JitSym JitSub JitLib JitFp6Spec JitFp6 JitFp6Sub JitFp6Mul JitTop JitFp6Api JitFp12Api JitLine JitLineSub JitTop2 JitLineApi JitCmp JitCmpSub JitCmpApi.
From Verif Require Import Base Prim Primes FpSpec Cfg FpM TowerSpec TowerM FinalM.
Import ListNotations.
Local Open Scope Z_scope.
Local Notation find := X64.find.
Local Notation length := List.length.

Lemma compress_putc x z : compress (putc x z) = z.
Proof. destruct z. reflexivity. Qed.
Lemma putc_putc x z z' : putc (putc x z) z' = putc x z'.
Proof. reflexivity. Qed.
Lemma putc_self x : putc x (compress x) = x.
Proof. destruct x as [[? ? ?] [? ? ?]]. reflexivity. Qed.

Lemma iter_in {A} (n : nat) (f : A -> A) (a : A) : Nat.iter (S n) f a = Nat.iter n f (f a).
Proof. induction n as [|n IH]; [reflexivity|]. change (f (Nat.iter (S n) f a) = f (Nat.iter n f (f a))). rewrite IH. reflexivity. Qed.

Section Loop.
  Variables (c : cfg) (il mx : bool) (T NT HF : Z) (base : rgn -> Z).
  Local Notation FR := (frame 10 89 (b_square_n il mx false T)).
  Local Notation SB := (subr L_Fp2_2z_add_3x (b_Fp2_2z_add_3x il T)).
  Local Notation C := (FR ++ SB ++ libx il mx false T (cpp c) HF ++ lib il mx false T (cpp c) NT).
  Local Notation tabs := (ctabs c T NT HF).
  Local Notation body := (b_csq il mx false T).
  Hypothesis Es : snark c = false.
  Hypothesis OK : regions_ok clay base.
  Hypothesis ET : base RT = T.
  Hypothesis EN : base RN = NT.
  Hypothesis EH : base RH = HF.
  Local Notation WR := (wreg clay base).
  Lemma cTABS : Forall (fun t => exists r, t_a t = base r /\ wrt clay r = false /\ lo clay r <= t_o t /\ t_o t + Wd (t_n t) <= hi clay r /\
    Forall (fun e => t_o t <= fst (fst e) /\ fst (fst e) + Wd (snd (fst e)) <= t_o t + Wd (t_n t)) (t_f t)) tabs.
  Proof.
    clear -ET EN EH. cbn. repeat apply Forall_cons; [exists RT|exists RN|exists RH|apply Forall_nil]; repeat split; try reflexivity; try (cbn; intro; discriminate); unfold lo, hi; cbn [clay fst snd t_o t_n t_a]; try (symmetry; assumption); try (clear; lia).
    all: repeat constructor; cbn; try (intro; discriminate).
  Qed.
  Lemma int1_word m a n : int_at m a 1 n -> m a = Some n /\ isU n.
  Proof.
    intros (l & L & U & Wl & V). destruct l as [|w [|? ?]]; try discriminate L. cbn [words lv] in *. rewrite Z.mul_0_r, Z.add_0_r in V. subst w. split; [apply Wl|]. exact (Forall_inv U).
  Qed.
  Lemma int1_mk m a n : m a = Some n -> isU n -> int_at m a 1 n.
  Proof. intros H U. exists [n]. split; [reflexivity|]. split; [constructor; [exact U|constructor]|]. cbn [words lv]. split; [split; [exact H|exact I]|clear; lia]. Qed.
  (** the state at the head of the loop *)
  Lemma cs0_sat x n g X m : getr g RSP = base RS -> getr g gt10 = base RO -> getx X X3 = base RO -> reads m (base RO) W4x12 (l12 x) -> m (base RS + 704) = Some n -> isU n -> writ clay base m ->
    sat clay base (cs0 (l12 x) n) g X m.
  Proof.
    clear. intros H1 H2 H3 H4 H5 H6 H7. unfold sat, cs0. cbn [s_r s_x s_f s_p]. split; [|split; [|split; [|split]]].
    - constructor; [cbn [fst snd]; split; [reflexivity|rewrite H1; unfold at_p; cbn [fst snd]; clear; lia]|]. constructor; [cbn [fst snd]; split; [reflexivity|rewrite H2; unfold at_p; cbn [fst snd]; clear; lia]|constructor].
    - constructor; [cbn [fst snd]; split; [reflexivity|rewrite H3; unfold at_p; cbn [fst snd]; clear; lia]|constructor].
    - apply addf_ok; [unfold at_p; cbn [fst snd]; rewrite Z.add_0_r; exact H4|]. apply addf_ok; [|constructor]. apply mk_reads1. unfold at_p. cbn [fst snd]. rewrite Z.add_0_r. exact (int1_mk _ _ _ H5 H6).
    - constructor.
    - exact H7.
  Qed.
  Lemma cs_inv v n t g X m : csK v n t -> sat clay base t g X m ->
    getr g RSP = base RS /\ getr g gt10 = base RO /\ getx X X3 = base RO /\ reads m (base RO) W4x12 v /\ m (base RS + 704) = Some n /\ isU n /\ writ clay base m.
  Proof.
    clear. intros (K1 & K2 & K3 & K4 & K5) SA.
    pose proof (proj2 (lookr_ok _ _ _ _ _ _ _ _ SA K3)) as E1. pose proof (proj2 (lookr_ok _ _ _ _ _ _ _ _ SA K4)) as E2. pose proof (proj2 (lookx_ok _ _ _ _ _ _ _ _ SA K5)) as E3.
    destruct SA as (_ & _ & S3 & _ & S5). pose proof (lookfs_ok _ _ _ _ _ _ S3 K1) as R1. pose proof (lookfs_ok _ _ _ _ _ _ S3 K2) as R2.
    unfold at_p in E1, E2, E3, R1, R2. cbn [fst snd] in E1, E2, E3, R1, R2. rewrite Z.add_0_r in E1, E2, E3, R1.
    destruct (reads1 _ _ _ _ _ R2) as (w & Ew & I2). injection Ew as <-. rewrite Z.add_0_r in I2. destruct (int1_word _ _ _ I2) as [I3 I4].
    split; [exact E1|]. split; [exact E2|]. split; [exact E3|]. split; [exact R1|]. split; [exact I3|]. split; [exact I4|exact S5].
  Qed.
  Lemma reads_chg l m m' a fs vs : chg l m m' -> Forall (fun e => Forall (clear_of (a + fst e) (Wd (snd e))) l) fs -> reads m a fs vs -> reads m' a fs vs.
  Proof.
    clear. intros CH D H. induction H as [|e v fs vs H1 H2 IH]; [constructor|]. inversion D as [|? ? D1 D2]; subst. constructor; [|exact (IH D2)]. exact (int_at_chg _ _ _ _ _ _ CH D1 H1).
  Qed.
  (** one round: the body and the decrement of the count *)
  Lemma cs_round pc Q x n g X f m : at_ C pc (body ++ [X64.Sub (M (Ad RSP 704)) (Im 1)]) -> 
    sat clay base (cs0 (l12 x) n) g X m -> Forall (tab_at m) tabs ->
    (forall g' X' m', sat clay base (cs0 (l12 (putc x (cmp_square c (compress x)))) ((n - 1) mod B)) g' X' m' -> Forall (tab_at m') tabs ->
       keep (clob (cs_items c il T)) g g' -> chg WR m m' -> wp C (pc + Z.of_nat (length body) + 1) (mkSt g' X' (X64.fsub n 1 0) m') Q) ->
    wp C pc (mkSt g X f m) Q.
  Proof.
    intros A SA TB H. destruct (at_app _ _ _ _ A) as [A1 A2]. destruct (at_cons _ _ _ _ A2) as [F1 _]. clear A A2.
    pose proof (proj1 OK RS) as RR. pose proof (proj2 OK RS RO eq_refl eq_refl) as DD. unfold lo, hi in RR, DD. cbn [clay fst snd] in RR, DD. unfold disj in DD.
    assert (AO : Forall (aok base C tabs) (cs_items c il T)).
    { refine (Forall_impl _ _ (cs_ok c il mx T NT HF Es)). intros i. unfold aokT, aok. rewrite ET. exact (fun h => h). }
    refine (exec_ok clay base OK C tabs cTABS eq_refl (cs_items c il T) _ _ pc g X f m Q AO (cs_exec c il T x n Es) _ SA TB _); [rewrite (cs_flat c il mx T base ET); exact A1|].
    intros t g1 X1 f1 m1 HK SA1 KP _ CH. rewrite (cs_flat c il mx T base ET). destruct (cs_inv _ _ _ _ _ _ HK SA1) as (G1 & G2 & G3 & R1 & N1 & UN & WW). clear HK SA1.
    set (x1 := putc x (cmp_square c (compress x))) in *. clearbody x1.
    assert (EA : ea g1 (Ad RSP 704) = base RS + 704) by (cbn [ea]; rewrite G1; apply Z.mod_small; clear -RR; lia).
    eapply wp_ex; [exact F1|unfold ex1, bin, rd, wr; cbn [rg mem fl xm]; rewrite EA, N1; reflexivity|].
    change (1 mod B) with 1. set (m2 := mset m1 (base RS + 704) ((n - 1) mod B)).
    assert (C2 : chg [(base RS + 704, 8)] m1 m2) by exact (chg_mset _ _ _ _ N1).
    assert (C2' : chg WR m1 m2).
    { refine (chg_sub _ _ _ _ _ C2). intros b Hb. change (wreg clay base) with [(base RO + 0, 384 - 0); (base RS + -72, 712 - -72)] in Hb. apply off2 in Hb. apply off1. clear -Hb. lia. }
    assert (CA : chg WR m m2) by exact (chg_idem _ _ _ _ _ CH C2').
    apply H; [|exact (tabs_chg clay base OK tabs cTABS eq_refl _ _ _ CA (fun b h => h) TB)|exact KP|exact CA].
    apply cs0_sat; [exact G1|exact G2|exact G3| |apply mset_eq; reflexivity|apply Z.mod_pos_bound; exact B_pos|exact (writ_chg _ _ _ _ _ C2 WW)].
    refine (reads_chg _ _ _ _ _ _ C2 _ R1). unfold W4x12. repeat (constructor; [constructor; [|constructor]; unfold clear_of; cbn [fst snd]; clear -DD; lia|]). constructor.
  Qed.
  Lemma cs_loop pc Q : at_ C pc (body ++ [X64.Sub (M (Ad RSP 704)) (Im 1); Jcc CNZ L_lp]) -> fetch C (pc - 1) = Some (Lab L_lp) ->
    forall j x g X f m, 0 <= Z.of_nat j < B -> sat clay base (cs0 (l12 x) ((Z.of_nat j + 1) mod B)) g X m -> Forall (tab_at m) tabs ->
    (forall g' X' f' m', sat clay base (cs0 (l12 (putc x (Nat.iter (S j) (cmp_square c) (compress x)))) 0) g' X' m' ->
       keep (clob (cs_items c il T)) g g' -> chg WR m m' -> wp C (pc + Z.of_nat (length body) + 2) (mkSt g' X' f' m') Q) ->
    wp C pc (mkSt g X f m) Q.
  Proof.
    intros A FL. change (body ++ [X64.Sub (M (Ad RSP 704)) (Im 1); Jcc CNZ L_lp]) with (body ++ [X64.Sub (M (Ad RSP 704)) (Im 1)] ++ [Jcc CNZ L_lp]) in A. rewrite (app_assoc body) in A. destruct (at_app _ _ _ _ A) as [A1 A2]. destruct (at_cons _ _ _ _ A2) as [F2 _]. clear A A2.
    rewrite app_length, Nat2Z.inj_add, Z.add_assoc in F2. cbn [length] in F2. change (Z.of_nat 1) with 1 in F2.
    destruct (cs_pre c il mx T NT HF) as (_ & _ & _ & _ & _ & U). pose proof (cnt1 _ _ _ U FL) as FD. clear U.
    induction j as [|j IH]; intros x g X f m Hj SA TB H.
    - apply (cs_round pc Q x _ g X f m A1 SA TB). intros g1 X1 m1 SA1 TB1 K1 C1.
      assert (E0 : ((Z.of_nat 0 + 1) mod B - 1) mod B = 0) by (rewrite B_val; reflexivity). rewrite E0 in SA1.
      eapply wp_jcc; [exact F2|exact FD|cbn [holds fl X64.fsub zf option_map]; rewrite Z.sub_0_r, E0; reflexivity|discriminate|intros _].
      replace (pc + Z.of_nat (length body) + 1 + 1) with (pc + Z.of_nat (length body) + 2) by (clear; lia). apply H; [exact SA1|exact K1|exact C1].
    - apply (cs_round pc Q x _ g X f m A1 SA TB). intros g1 X1 m1 SA1 TB1 K1 C1.
      assert (E0 : ((Z.of_nat (S j) + 1) mod B - 1) mod B = Z.of_nat (S j)) by (rewrite Zminus_mod_idemp_l, Z.add_simpl_r; apply Z.mod_small; exact Hj). rewrite E0 in SA1.
      eapply wp_jcc; [exact F2|exact FD|cbn [holds fl X64.fsub zf option_map]; rewrite Z.sub_0_r, E0; reflexivity|intros _|].
      + eapply wp_ex; [exact FL|reflexivity|]. rewrite Z.sub_add.
        apply (IH (putc x (cmp_square c (compress x))) g1 X1 _ m1); [clear -Hj; lia| |exact TB1|].
        * rewrite Z.mod_small by (clear -Hj; lia). replace (Z.of_nat j + 1) with (Z.of_nat (S j)) by (clear; lia). exact SA1.
        * intros g2 X2 f2 m2 SA2 K2 C2. apply H; [|exact (keep_idem _ _ _ _ K1 K2)|exact (chg_idem _ _ _ _ _ C1 C2)].
          rewrite compress_putc, putc_putc in SA2. rewrite (iter_in (S j)). exact SA2.
      + intros E. exfalso. apply negb_false_iff, Z.eqb_eq in E. clear -E. lia.
  Qed.
End Loop.

Lemma csK_cs0 x n : csK (l12 x) n (cs0 (l12 x) n).
Proof. destruct x as [[[? ?] [? ?] [? ?]] [[? ?] [? ?] [? ?]]]. split; [reflexivity|]. split; [reflexivity|]. split; [reflexivity|]. split; reflexivity. Qed.
Lemma cs_clob c il T : subb ([gt10] ++ clob (cs_items c il T)) (RSP :: gcmp) = true.
Proof. destruct il; vm_compute; reflexivity. Qed.

Section Top.
  Variables (c : cfg) (il mx : bool) (T NT HF : Z) (s : state) (z : Z) (x : F2 (F3 (F2 Z))).
  Local Notation g := (rg s).
  Local Notation C := (make_Compress_square_n il mx false T (cpp c) HF NT).
  Local Notation body := (b_csq il mx false T).
  Local Notation P := 760.
  Definition cbase : rgn -> Z := fun r => match r with RO | RA | RB => z | RS => rsp (rg s) - P | RT => T | RN => NT | RH | RC => HF end.
  Lemma square_n_api : snark c = false -> called C s -> stack 104 s -> place 104 s (rdi g) 1 -> mem s (rdi g) = Some z -> place 104 s z 48 -> twelve (mem s) z x ->
    consts c 104 s T NT HF z 48 -> 0 <= rsi g < B ->
    calls C s (fun s' => twelve (mem s') z (putc x (cmp_square_n c (compress x) (rsi g))) /\ only 104 z 48 s s').
  Proof.
    intros Es Hc Hst Hp Mp Hz IX HT Hn.
    assert (Hm : mapped (mem s) z 48) by (destruct IX as [I1 I2]; apply (mapped_cat _ _ 24 24); [exact (six_mapped _ _ _ I1)|exact (six_mapped _ _ _ I2)]).
    destruct Hst as [S1 S2]. change (8 * Z.of_nat 104) with 832 in S1, S2. destruct Hc as [Hra [HA1 HA2]]. change (Wd 1) with 8 in HA2.
    destruct (place_off _ _ _ _ Hz) as (Z1 & _ & Z3). pose proof (proj2 (proj1 Hz)) as Z2. change (8 * Z.of_nat 48) with 384 in Z2, Z3. change (8 * Z.of_nat 104) with 832 in Z3.
    destruct (place_off _ _ _ _ Hp) as (P1 & _ & P3). pose proof (proj2 (proj1 Hp)) as P2. change (8 * Z.of_nat 1) with 8 in P2, P3. change (8 * Z.of_nat 104) with 832 in P3.
    destruct HT as (PT & PTp & PTa & PN & PNp & PNa & PH & PHp & PHa).
    unfold apart in PTa, PNa, PHa. change (8 * Z.of_nat 48) with 384 in *. change (8 * Z.of_nat 40) with 320 in *. change (8 * Z.of_nat 8) with 64 in *.
    destruct (place_off _ _ _ _ PTp) as (T1 & _ & T3). pose proof (proj2 (proj1 PTp)) as T2. change (8 * Z.of_nat 40) with 320 in T2, T3. change (8 * Z.of_nat 104) with 832 in T3.
    destruct (place_off _ _ _ _ PNp) as (N1 & _ & N3). pose proof (proj2 (proj1 PNp)) as N2. change (8 * Z.of_nat 8) with 64 in N2, N3. change (8 * Z.of_nat 104) with 832 in N3.
    destruct (place_off _ _ _ _ PHp) as (H1 & _ & H3). pose proof (proj2 (proj1 PHp)) as H2. change (8 * Z.of_nat 8) with 64 in H2, H3. change (8 * Z.of_nat 104) with 832 in H3.
    set (base := cbase).
    assert (OK : regions_ok clay base).
    { split.
      - intros r. destruct r; unfold base, cbase, clay, lo, hi; cbn [fst snd]; clear -S1 HA2 Z1 Z2 T1 T2 N1 N2 H1 H2; lia.
      - intros r r' Hw Hn'. destruct r; try discriminate Hw; destruct r'; try discriminate Hn'; unfold base, cbase, clay, lo, hi; cbn [fst snd]; clear -Z3 T3 N3 H3 PTa PNa PHa; unfold disj; lia. }
    eapply calls_mono; [refine (frame_wpl C (b_square_n il mx false T) 10 89 9 gcmp [(z, 384)] s (fun _ m => twelve m z (putc x (cmp_square_n c (compress x) (rsi g)))) _ _ _ (proj1 (at_app C 0 _ _ (at_self C))) (conj Hra (conj HA1 HA2)) _ _ _ eq_refl eq_refl _); change (frameP 10 89) with 760; change (getr (rg s) RSP) with (rsp (rg s))|].
    - clear; lia.
    - clear; lia.
    - clear; lia.
    - clear -S1; lia.
    - apply mapped_avail in S2. intros j Hj. change (760 / 8) with 95 in Hj. destruct (S2 j) as [v Ev]; [clear -Hj; lia|]. exists v. rewrite <- Ev. f_equal. clear. lia.
    - constructor; [|constructor]. unfold clear_of. cbn [fst snd]. clear -Z3; lia.
    - intros pc g1 f1 m1 Q A K1 G1 G9 C1 HQ. change (getr (rg s) RSP) with (rsp (rg s)) in G1.
      assert (PR : forall a n o w v, place 104 s a n -> 0 <= o -> o + Wd w <= Wd n -> int_at (mem s) (a + o) w v -> int_at m1 (a + o) w v).
      { intros a n o w v PL O1 O2 IA_. refine (int_at_chg _ _ _ _ _ _ C1 _ IA_). constructor; [|constructor]. unfold clear_of. cbn [fst snd]. destruct (place_off _ _ _ _ PL) as (_ & _ & D). change (8 * Z.of_nat 104) with 832 in D. clear -D O1 O2. lia. }
      assert (TAB : Forall (tab_at m1) (ctabs c T NT HF)).
      { unfold ctabs. constructor; [|constructor; [|constructor; [|constructor]]]; unfold tab_at; cbn [t_f t_a].
        - rewrite Forall_forall. intros e He. apply in_map_iff in He. destruct He as (i & <- & Hi). cbn [fst snd]. replace (T + (-32 + 32 * i)) with (T - 32 + 32 * i) by (clear; lia).
          assert (Hi' : 0 <= i <= 9) by (cbn in Hi; clear -Hi; lia). apply (PR _ 40%nat _ _ _ PTp); [clear -Hi'; lia|change (Wd 40) with 320; change (Wd 4) with 32; clear -Hi'; lia|exact (PT i Hi')].
        - constructor; [|constructor]. cbn [fst snd]. apply (PR _ 8%nat _ _ _ PNp); [clear; lia|clear; lia|]. rewrite Z.add_0_r. exact PN.
        - constructor; [|constructor; [|constructor]]; cbn [fst snd]; (apply (PR _ 8%nat _ _ _ PHp); [clear; lia|clear; lia|]).
          + rewrite Z.add_0_r. exact (proj1 PH).
          + exact (proj2 PH). }
      pose proof (twelve_reads _ _ _ IX) as RX. apply (reads_pro2 10 89 9 s m1 760 z 48 W4x12 (l12 x)) in RX; [|clear; cbn; split; intro; discriminate|exact C1|exact Hz|wid].
      assert (MP : m1 (rdi g) = Some z) by (rewrite (proj1 C1); [exact Mp|]; constructor; [|constructor]; unfold off; cbn [fst snd]; clear -P3; lia).
      assert (WW : writ clay base m1).
      { intros r o Hw L1 L2 L3. assert (MA : forall a n o, mapped (mem s) a n -> 0 <= o -> o + 8 <= Wd n -> o mod 8 = 0 -> exists v, m1 (a + o) = Some v).
        { clear -C1. intros a n o M L1 L2 L3. apply mapped_avail in M. destruct (M (o / 8)) as [v E]; [split; [apply Z.div_pos; lia|apply Z.div_lt_upper_bound; lia]|]. apply (proj2 C1 _ v). rewrite <- E. f_equal. pose proof (Z.div_mod o 8). lia. }
        destruct r; try discriminate Hw; unfold lo, hi, base in *; cbn [cbase clay fst snd] in *.
        - rewrite Z.sub_0_r in L3. exact (MA _ 48%nat _ Hm L1 L2 L3).
        - destruct (MA _ _ (o - -72) S2 ltac:(clear -L1; lia) ltac:(clear -L2; lia) L3) as [v E]. exists v. rewrite <- E. f_equal. clear. lia. }
      set (n := rsi g) in *. set (j := Z.to_nat ((n - 1) mod B)).
      pose proof (Z.mod_pos_bound (n - 1) B B_pos) as Jb.
      assert (Ej : Z.of_nat j = (n - 1) mod B) by (unfold j; apply Z2Nat.id; apply Jb).
      assert (Ej1 : (Z.of_nat j + 1) mod B = n) by (rewrite Ej, Zplus_mod_idemp_l, Z.sub_add; apply Z.mod_small; exact Hn).
      assert (EF : cmp_square_n c (compress x) n = Nat.iter (S j) (cmp_square c) (compress x)).
      { unfold cmp_square_n. rewrite (Z.mod_small n) by exact Hn. f_equal. apply Nat2Z.inj. rewrite Nat2Z.inj_succ, Ej. clear -Hn. destruct (Z.eqb_spec n 0) as [->|Hn0].
        - rewrite Z2Nat.id by exact (Z.lt_le_incl _ _ B_pos). rewrite B_val. reflexivity.
        - rewrite Z2Nat.id by lia. rewrite Z.mod_small by lia. lia. }
      unfold b_square_n in A. 
      set (e4 := [Mov (R gt10) (M (Ad gp1 0)); Mov (M (Ad RSP 704)) (R gp2); MovqX X3 gt10; Lab L_lp]) in A.
      destruct (at_app _ _ _ _ A) as [A1 A2]. change (Z.of_nat (length e4)) with 4 in A2.
      assert (FL : fetch C (pc + 4 - 1) = Some (Lab L_lp)).
      { unfold e4 in A1. destruct (at_cons _ _ _ _ A1) as [_ B1]. destruct (at_cons _ _ _ _ B1) as [_ B2]. destruct (at_cons _ _ _ _ B2) as [_ B3]. destruct (at_cons _ _ _ _ B3) as [B4 _]. rewrite <- B4. f_equal. clear. lia. }
      apply (wp_block _ _ e4 _ _ A1). unfold e4.
      assert (GD : getr g1 gp1 = rdi g) by exact (K1 RDI eq_refl). assert (GS : getr g1 gp2 = n) by exact (K1 RSI eq_refl).
      eapply k_mov; [cbn [rd mem]; rewrite <- MP; f_equal; cbn [ea rg]; rewrite GD, Z.add_0_r; apply Z.mod_small; clear -P1 P2; lia|]. intros g2 K2 R2.
      assert (G2 : getr g2 RSP = rsp g - 760) by (rewrite (K2 RSP eq_refl); exact G1).
      assert (W7 : exists w, m1 (rsp g - 760 + 704) = Some w) by (apply (WW RS 704); [reflexivity|intro; discriminate|intro; discriminate|reflexivity]). destruct W7 as [w7 W7].
      eapply k_store; [cbn [ea]; rewrite G2; apply Z.mod_small; clear -S1 HA2; lia|exact W7|rewrite (K2 gp2 eq_refl); exact GS|].
      eapply k_movqx; [exact R2|]. cbn [wps ex1]. eexists. split; [reflexivity|]. change (Z.of_nat (length _)) with 4.
      set (m2 := mset m1 (rsp g - 760 + 704) n).
      assert (C2 : chg [(rsp g - 760 + 704, 8)] m1 m2) by exact (chg_mset _ _ _ _ W7).
      assert (C2' : chg (wreg clay base) m1 m2).
      { refine (chg_sub _ _ _ _ _ C2). intros b Hb. change (wreg clay base) with [(z + 0, 384 - 0); (rsp g - 760 + -72, 712 - -72)] in Hb. apply off2 in Hb. apply off1. clear -Hb. lia. }
      refine (cs_loop c il mx T NT HF base Es OK eq_refl eq_refl eq_refl (pc + 4) Q A2 FL j x g2 _ _ m2 _ _ _ _).
      + rewrite Ej. exact Jb.
      + rewrite Ej1. apply cs0_sat; [exact G2|exact R2|clear; destruct (xm s); reflexivity| |apply mset_eq; reflexivity|exact Hn|exact (writ_chg _ _ _ _ _ C2 WW)].
        refine (reads_chg _ _ _ _ _ _ C2 _ RX). unfold W4x12. repeat (constructor; [constructor; [|constructor]; unfold clear_of; cbn [fst snd]; clear -Z3; lia|]). constructor.
      + exact (tabs_chg clay base OK _ (cTABS c T NT HF base eq_refl eq_refl eq_refl) eq_refl _ _ _ C2' (fun b h => h) TAB).
      + intros g3 X3' f3 m3 SA K3 C3. pose proof (chg_idem _ _ _ _ _ C2' C3) as CA.
        destruct (cs_inv base _ _ _ _ _ _ (csK_cs0 _ _) SA) as (GS' & _ & _ & RR & _). clear SA.
        replace (pc + 4 + Z.of_nat (length body) + 2) with (pc + Z.of_nat (length (b_square_n il mx false T))) by (unfold b_square_n; rewrite !app_length, !Nat2Z.inj_add; change (Z.of_nat (length [Mov (R gt10) (M (Ad gp1 0)); Mov (M (Ad RSP 704)) (R gp2); MovqX X3 gt10; Lab L_lp])) with 4; change (Z.of_nat (length [X64.Sub (M (Ad RSP 704)) (Im 1); Jcc CNZ L_lp])) with 2; clear; lia).
        apply HQ.
        * apply (keep_drop RSP); [|rewrite GS', G1; reflexivity]. refine (keep_sub _ _ _ _ _ (keep_trans _ _ _ _ _ K2 K3)). apply cs_clob.
        * refine (chg_sub _ _ _ _ _ CA). intros b Hb. change (wreg clay base) with [(z + 0, 384 - 0); (rsp g - 760 + -72, 712 - -72)]. cbn [app] in Hb. apply off2 in Hb. apply off2. clear -Hb. lia.
        * rewrite EF. apply reads_twelve. exact RR.
    - intros s' [R1 C1]. split; [exact R1|]. intros b Hb Hb2. destruct C1 as [C1 _]. apply C1. cbn [app]. apply off2. change (8 * Z.of_nat 104) with 832 in Hb2. change (8 * Z.of_nat 48) with 384 in Hb. change (frameP 10 89) with 760. change (getr (rg s) RSP) with (rsp (rg s)). clear -Hb Hb2. lia.
  Qed.
End Top.
