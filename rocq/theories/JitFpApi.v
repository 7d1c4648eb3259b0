(** The generated field functions, called. *)
From Coq Require Import ZArith List Bool Lia.
From Verif Require Import Base Prim Primes FpSpec Cfg FpM X64 XLog JitSpec JitFpSpec XTac XReg JitFp JitMac JitMac2 JitMul JitMont JitMul4 JitMod JitZmApi JitFrame JitRep.
Import ListNotations.
Local Open Scope Z_scope.

Lemma calls_mono c s (Q R : state -> Prop) : calls c s Q -> (forall s', Q s' -> R s') -> calls c s R.
Proof. intros (n & t & s' & E1 & E2 & E3) H. exists n, t, s'. auto. Qed.
Section F0.
  Variables (C body : code) (gtn d : Z) (k : nat) (L : list reg) (o : Z) (n : nat) (s : state) (Post : memory -> Prop).
  Notation sp := (getr (rg s) RSP).
  Notation P := (8 * (gtn - 4)).
  Hypothesis Hg : 5 <= gtn <= 10.
  Hypothesis Hd : 0 <= d.
  Hypothesis Hk : Z.of_nat k = gtn - 4 + d.
  Hypothesis HC : at_ C 0 (frame gtn 0 body).
  Hypothesis Hcall : called C s.
  Hypothesis Hst : stack k s.
  Hypothesis Hpl : place k s o n.
  Hypothesis HL : inb RSP L = false.
  Hypothesis HS : forallb (fun r => if inb r L then inb r (saved gtn) else true) preserved = true.
  Lemma frame0 : (forall pc g1 f1 m1 (Q : Z -> state -> Prop), at_ C pc body -> keep [RSP; R9] (rg s) g1 ->
    getr g1 RSP = sp - P -> getr g1 R9 = rdx (rg s) -> chg [(sp - P, P)] (mem s) m1 ->
    (forall g2 X2 f2 m2, keep L g1 g2 -> chg [(o, 8 * Z.of_nat n); (sp - P - 8 * d, 8 * d)] m1 m2 -> Post m2 ->
       wp C (pc + Z.of_nat (length body)) (mkSt g2 X2 f2 m2) Q) ->
    wp C pc (mkSt g1 (xm s) f1 m1) Q) -> calls C s (fun s' => Post (mem s') /\ only k o n s s').
  Proof.
    intros Hb. assert (EP : frameP gtn 0 = P) by (unfold frameP; lia). destruct Hst as [S1 S2]. destruct Hpl as [A1 A2].
    unfold area, apart in A1, A2. change (rsp (rg s)) with sp in *.
    eapply calls_mono; [eapply (frame_wp C body gtn 0 d L o (8 * Z.of_nat n) s Post Hg ltac:(lia) Hd HC Hcall)|].
    - rewrite EP. lia.
    - rewrite EP. replace (P / 8 + d) with (Z.of_nat k) by (rewrite Z.mul_comm, Z.div_mul by discriminate; lia).
      replace (sp - P - 8 * d) with (sp - 8 * Z.of_nat k) by lia. apply mapped_avail. exact S2.
    - rewrite EP. lia.
    - exact HL.
    - exact HS.
    - rewrite EP. intros pc g1 f1 m1 Q E1 E2 E3 E4 E5 E6. rewrite Z.add_0_l in E6. exact (Hb pc g1 f1 m1 Q E1 E2 E3 E4 E5 E6).
    - rewrite EP. intros s' [H1 [H2 _]]. split; [exact H1|]. unfold only. change (rsp (rg s)) with sp. intros b B1 B2. apply H2. apply off2. lia.
  Qed.
End F0.
(** without calls *)
Lemma frame0b gtn body (k : nat) L o n s (Post : memory -> Prop) : 5 <= gtn <= 10 -> Z.of_nat k = gtn - 4 ->
  called (frame gtn 0 body) s -> stack k s -> place k s o n -> inb RSP L = false ->
  forallb (fun r => if inb r L then inb r (saved gtn) else true) preserved = true ->
  (forall g1 f1 m1 (Q : state -> Prop), keep [RSP; R9] (rg s) g1 -> getr g1 R9 = rdx (rg s) -> 
    chg [(rsp (rg s) - 8 * Z.of_nat k, 8 * Z.of_nat k)] (mem s) m1 ->
    (forall g2 X2 f2 m2, keep L g1 g2 -> chg [(o, 8 * Z.of_nat n)] m1 m2 -> Post m2 -> Q (mkSt g2 X2 f2 m2)) ->
    wps body (mkSt g1 (xm s) f1 m1) Q) ->
  calls (frame gtn 0 body) s (fun s' => Post (mem s') /\ only k o n s s').
Proof.
  intros Hg Hk Hc Hs Hp HL HS Hb. apply (frame0 _ body gtn 0 k L o n s Post Hg ltac:(lia) ltac:(lia) (at_self _) Hc Hs Hp HL HS).
  intros pc g1 f1 m1 Q A K1 K2 K3 C1 H. apply (wp_block _ _ _ _ _ A).
  apply Hb; [exact K1|exact K3| |].
  - rewrite Hk. exact C1.
  - intros g2 X2 f2 m2 K C Hp2. apply H; [exact K| |exact Hp2]. refine (chg_sub _ _ _ _ _ C). intros b Hb2. apply off2 in Hb2. apply off1. tauto.
Qed.
(** operands after the registers have been saved *)
Lemma pro_int k s a n x m1 : place k s a n -> chg [(rsp (rg s) - 8 * Z.of_nat k, 8 * Z.of_nat k)] (mem s) m1 -> int_at (mem s) a n x -> int_at m1 a n x.
Proof.
  intros [_ Ap] C H. refine (int_at_chg _ _ _ _ _ _ C _ H). constructor; [|constructor]. unfold clear_of, apart in *. cbn [fst snd]. lia.
Qed.
Lemma pro_int' k j s a n x m1 : place k s a n -> (j <= k)%nat -> chg [(rsp (rg s) - 8 * Z.of_nat j, 8 * Z.of_nat j)] (mem s) m1 -> int_at (mem s) a n x -> int_at m1 a n x.
Proof.
  intros [_ Ap] Hj C H. refine (int_at_chg _ _ _ _ _ _ C _ H). constructor; [|constructor]. unfold clear_of, apart in *. cbn [fst snd]. lia.
Qed.
Lemma pro_sub k j s a N o n x m1 : place k s a N -> (j <= k)%nat -> 0 <= o -> o + 8 * Z.of_nat n <= 8 * Z.of_nat N ->
  chg [(rsp (rg s) - 8 * Z.of_nat j, 8 * Z.of_nat j)] (mem s) m1 -> int_at (mem s) (a + o) n x -> int_at m1 (a + o) n x.
Proof.
  intros [_ Ap] Hj H1 H2 C H. refine (int_at_chg _ _ _ _ _ _ C _ H). constructor; [|constructor]. unfold clear_of, apart in *. cbn [fst snd]. lia.
Qed.
Lemma mapped_sub m a N i w n : mapped m a N -> (N = w * n)%nat -> 0 <= i < Z.of_nat n -> mapped m (a + 8 * Z.of_nat w * i) w.
Proof.
  intros H E Hi. assert (E2 : N = (w * Z.to_nat i + (w + w * (n - Z.to_nat i - 1)))%nat) by nia.
  rewrite E2 in H. apply mapped_app in H. destruct H as [_ H]. apply mapped_app in H. destruct H as [H _].
  replace (a + 8 * Z.of_nat w * i) with (a + 8 * Z.of_nat (w * Z.to_nat i)) by lia. exact H.
Qed.
Lemma table_mod c k s T j m1 : table c k s T -> (j <= k)%nat -> chg [(rsp (rg s) - 8 * Z.of_nat j, 8 * Z.of_nat j)] (mem s) m1 -> modulus c m1 T.
Proof.
  intros [H Hp] Hj C. split; [exact (pro_int' _ _ _ _ _ _ _ Hp Hj C H)|]. destruct Hp as [[A1 A2] _]. lia.
Qed.
Lemma soa_ovn a b n : same_or_apart a b n -> ovn (8 * Z.of_nat n) a b.
Proof. unfold same_or_apart, apart, ovn. tauto. Qed.

Section AddSub.
  Variables (c : cfg) (T : Z) (n : nat) (s : state) (xs ys : Z -> Z).
  Notation g := (rg s).
  Notation N := (4 * n)%nat.
  Hypothesis Hst : stack 3 s.
  Hypothesis HT : table c 3 s T.
  Hypothesis Ho : place 3 s (rdi g) N.
  Hypothesis Hx : place 3 s (rsi g) N.
  Hypothesis Hy : place 3 s (rdx g) N.
  Hypothesis HoT : apart (rdi g) N T 4.
  Hypothesis Ox : same_or_apart (rdi g) (rsi g) N.
  Hypothesis Oy : same_or_apart (rdi g) (rdx g) N.
  Hypothesis Ix : forall i, 0 <= i < Z.of_nat n -> int_at (mem s) (rsi g + 32 * i) 4 (xs i).
  Hypothesis Iy : forall i, 0 <= i < Z.of_nat n -> int_at (mem s) (rdx g + 32 * i) 4 (ys i).
  Hypothesis Mo : mapped (mem s) (rdi g) N.
  Lemma fp_rep_ok (mac : addr -> addr -> addr -> code) (op : Z -> Z -> Z) :
    (forall k g X f m Q ZZ A A' z a a' x y, modulus c m T -> isat g8 g ZZ z 32 -> isat g8 g A a 32 -> isat g8 g A' a' 32 ->
      mapped m z 4 -> int_at m a 4 x -> int_at m a' 4 y -> getr g RAX = T ->
      (forall g' f' m', keep g8 g g' -> chg [(z, 32)] m m' -> int_at m' z 4 (op x y) -> wps k (mkSt g' X f' m') Q) ->
      wps (mac ZZ A A' ++ k) (mkSt g X f m) Q) ->
    let C := frame 7 0 ([Mov (R RAX) (Im T)] ++ rep n 0 (fun i => mac (plus (Ad gp1 0) (32 * i)) (plus (Ad gp2 0) (32 * i)) (plus (Ad gp3 0) (32 * i)))) in
    called C s -> calls C s (fun s' => (forall i, 0 <= i < Z.of_nat n -> int_at (mem s') (rdi g + 32 * i) 4 (op (xs i) (ys i))) /\ only 3 (rdi g) N s s').
  Proof using All.
    intros step C Hc. unfold C in *.
    apply (frame0b 7 _ 3 (RAX :: g8) (rdi g) N s (fun m => forall i, 0 <= i < Z.of_nat n -> int_at m (rdi g + 32 * i) 4 (op (xs i) (ys i)))); try assumption; try reflexivity; try lia.
    intros g1 f1 m1 Q K1 L1 C1 H. cbn [app].
    assert (TU : 0 <= T < B) by (destruct HT as [_ [[? ?] _]]; lia).
    eapply k_mov; [apply rd_imm; exact TU|]. intros g2 K2 L2.
    assert (Gd : getr g2 gp1 = rdi g) by (rewrite (K2 RDI eq_refl), (K1 RDI eq_refl); reflexivity).
    assert (Gs : getr g2 gp2 = rsi g) by (rewrite (K2 RSI eq_refl), (K1 RSI eq_refl); reflexivity).
    assert (Gx : getr g2 gp3 = rdx g) by (rewrite (K2 R9 eq_refl); exact L1).
    pose proof (proj1 Ho) as [Ho1 Ho2]. pose proof (proj1 Hx) as [Hx1 Hx2]. pose proof (proj1 Hy) as [Hy1 Hy2].
    rewrite <- (app_nil_r (rep _ _ _)).
    apply soa_ovn in Ox. apply soa_ovn in Oy. replace (8 * Z.of_nat N) with (8 * Z.of_nat 4 * Z.of_nat n) in Ox, Oy by lia.
    eapply (rep_gen 4 mac op g8 (fun m => modulus c m T) (fun g => getr g RAX = T) (fun z => z + 32 <= T \/ T + 32 <= z)) with
      (ZA := fun i => plus (Ad gp1 0) (32 * i)) (XA := fun i => plus (Ad gp2 0) (32 * i)) (YA := fun i => plus (Ad gp3 0) (32 * i))
      (z := rdi g) (a := rsi g) (b := rdx g) (xs := xs) (ys := ys) (n := n) (g0 := g2) (m0 := m1).
    - reflexivity.
    - intros k0 g0 X f m Q0 ZZ A A' z a a' x y H1 H2 _ H4 H5 H6 H7 H8 H9 _ _ H12. eapply step; eassumption.
    - intros ga gb E K. rewrite (K RAX eq_refl). exact E.
    - intros z m m' Hz Cz [M1 M2]. split; [|exact M2]. refine (int_at_chg _ _ _ _ _ _ Cz _ M1). constructor; [|constructor].
      unfold clear_of. cbn [fst snd]. change (8 * Z.of_nat 4) with 32. lia.
    - exact Ox.
    - exact Oy.
    - intros i Hi. unfold apart in HoT. change (8 * Z.of_nat 4) with 32 in *. lia.
    - intros i Hi. change (8 * Z.of_nat 4) with 32 in *. cbn [plus]. apply (isat_ad _ _ _ _ (rdi g)); [reflexivity|exact Gd|lia|lia|lia].
    - intros i Hi. change (8 * Z.of_nat 4) with 32 in *. cbn [plus]. apply (isat_ad _ _ _ _ (rsi g)); [reflexivity|exact Gs|lia|lia|lia].
    - intros i Hi. change (8 * Z.of_nat 4) with 32 in *. cbn [plus]. apply (isat_ad _ _ _ _ (rdx g)); [reflexivity|exact Gx|lia|lia|lia].
    - lia.
    - lia.
    - exact (table_mod _ _ _ _ _ _ HT (le_n 3) C1).
    - exact L2.
    - apply (keep_incl [] g8); [intros r []|apply keep_refl].
    - intros j Hj. refine (chg_mapped _ _ _ _ _ C1 _). exact (mapped_sub _ _ N j 4 n Mo eq_refl Hj).
    - intros j Hj. refine (pro_sub _ _ _ _ _ _ _ _ _ Hx (le_n 3) _ _ C1 (Ix j Hj)); lia.
    - intros j Hj. refine (pro_sub _ _ _ _ _ _ _ _ _ Hy (le_n 3) _ _ C1 (Iy j Hj)); lia.
    - intros j Hj. lia.
    - apply (chg_sub []); [intros; constructor|apply chg_refl].
    - intros g' f' m' K' C' R'. cbn [wps]. apply H.
      + exact (keep_trans [RAX] g8 _ _ _ K2 K').
      + replace (8 * Z.of_nat N) with (8 * Z.of_nat 4 * Z.of_nat n) by lia. exact C'.
      + exact R'.
  Qed.
End AddSub.

Section DblRep.
  Variables (n : nat) (s : state) (xs ys : Z -> Z) (L : list reg) (Tok : memory -> Prop) (Zok : Z -> Prop).
  Notation g := (rg s).
  Notation N := (8 * n)%nat.
  Hypothesis Hst : stack 3 s.
  Hypothesis HL : forallb (fun r => negb (inb r L)) [RSP; RDI; RSI; R9] = true.
  Hypothesis HS : forallb (fun r => if inb r L then inb r (saved 7) else true) preserved = true.
  Hypothesis Ho : place 3 s (rdi g) N.
  Hypothesis Hx : place 3 s (rsi g) N.
  Hypothesis Hy : place 3 s (rdx g) N.
  Hypothesis Ox : same_or_apart (rdi g) (rsi g) N.
  Hypothesis Oy : same_or_apart (rdi g) (rdx g) N.
  Hypothesis Ix : forall i, 0 <= i < Z.of_nat n -> int_at (mem s) (rsi g + 64 * i) 8 (xs i).
  Hypothesis Iy : forall i, 0 <= i < Z.of_nat n -> int_at (mem s) (rdx g + 64 * i) 8 (ys i).
  Hypothesis Mo : mapped (mem s) (rdi g) N.
  Hypothesis HTok : forall m, chg [(rsp g - 8 * Z.of_nat 3, 8 * Z.of_nat 3)] (mem s) m -> Tok m.
  Hypothesis HTc : forall z m m', Zok z -> chg [(z, 8 * Z.of_nat 8)] m m' -> Tok m -> Tok m'.
  Hypothesis HZ : forall i, 0 <= i < Z.of_nat n -> Zok (rdi g + 64 * i).
  Lemma dbl_rep_ok (mac : addr -> addr -> addr -> code) (op : Z -> Z -> Z) :
    (forall k g X f m Q ZZ A A' z a a' x y, Tok m -> Zok z -> isat L g ZZ z 64 -> isat L g A a 64 -> isat L g A' a' 64 ->
      mapped m z 8 -> int_at m a 8 x -> int_at m a' 8 y -> ov64 z a -> ov64 z a' ->
      (forall g' f' m', keep L g g' -> chg [(z, 64)] m m' -> int_at m' z 8 (op x y) -> wps k (mkSt g' X f' m') Q) ->
      wps (mac ZZ A A' ++ k) (mkSt g X f m) Q) ->
    let C := frame 7 0 (rep n 0 (fun i => mac (Ad gp1 (64 * i)) (Ad gp2 (64 * i)) (Ad gp3 (64 * i)))) in
    called C s -> calls C s (fun s' => (forall i, 0 <= i < Z.of_nat n -> int_at (mem s') (rdi g + 64 * i) 8 (op (xs i) (ys i))) /\ only 3 (rdi g) N s s').
  Proof using All.
    intros step C Hc. unfold C in *. cbn [forallb] in HL. rewrite !andb_true_iff, !negb_true_iff in HL. destruct HL as (L1 & L2 & L3 & L4 & _).
    apply (frame0b 7 _ 3 L (rdi g) N s (fun m => forall i, 0 <= i < Z.of_nat n -> int_at m (rdi g + 64 * i) 8 (op (xs i) (ys i)))); try assumption; try lia.
    intros g1 f1 m1 Q K1 G9 C1 H.
    assert (Gd : getr g1 gp1 = rdi g) by (rewrite (K1 RDI eq_refl); reflexivity).
    assert (Gs : getr g1 gp2 = rsi g) by (rewrite (K1 RSI eq_refl); reflexivity).
    pose proof (proj1 Ho) as [Ho1 Ho2]. pose proof (proj1 Hx) as [Hx1 Hx2]. pose proof (proj1 Hy) as [Hy1 Hy2].
    rewrite <- (app_nil_r (rep _ _ _)).
    apply soa_ovn in Ox. apply soa_ovn in Oy. replace (8 * Z.of_nat N) with (8 * Z.of_nat 8 * Z.of_nat n) in Ox, Oy by lia.
    eapply (rep_gen 8 mac op L Tok (fun _ => True) Zok) with
      (ZA := fun i => Ad gp1 (64 * i)) (XA := fun i => Ad gp2 (64 * i)) (YA := fun i => Ad gp3 (64 * i))
      (z := rdi g) (a := rsi g) (b := rdx g) (xs := xs) (ys := ys) (n := n) (g0 := g1) (m0 := m1).
    - reflexivity.
    - intros k0 g0 X f m Q0 ZZ A A' z a a' x y H1 H2 H3 H4 H5 H6 H7 H8 H9 H10 H11 H12.
      eapply (step k0 g0 X f m Q0 ZZ A A' z a a' x y); try assumption.
    - trivial.
    - exact HTc.
    - exact Ox.
    - exact Oy.
    - exact HZ.
    - intros i Hi. change (8 * Z.of_nat 8) with 64 in *. apply (isat_ad _ _ _ _ (rdi g)); [exact L2|exact Gd|lia|lia|lia].
    - intros i Hi. change (8 * Z.of_nat 8) with 64 in *. apply (isat_ad _ _ _ _ (rsi g)); [exact L3|exact Gs|lia|lia|lia].
    - intros i Hi. change (8 * Z.of_nat 8) with 64 in *. apply (isat_ad _ _ _ _ (rdx g)); [exact L4|exact G9|lia|lia|lia].
    - lia.
    - lia.
    - exact (HTok _ C1).
    - exact I.
    - apply (keep_incl [] L); [intros r []|apply keep_refl].
    - intros j Hj. refine (chg_mapped _ _ _ _ _ C1 _). exact (mapped_sub _ _ N j 8 n Mo eq_refl Hj).
    - intros j Hj. refine (pro_sub _ _ _ _ _ _ _ _ _ Hx (le_n 3) _ _ C1 (Ix j Hj)); lia.
    - intros j Hj. refine (pro_sub _ _ _ _ _ _ _ _ _ Hy (le_n 3) _ _ C1 (Iy j Hj)); lia.
    - intros j Hj. lia.
    - apply (chg_sub []); [intros; constructor|apply chg_refl].
    - intros g' f' m' K' C' R'. cbn [wps]. apply H.
      + exact K'.
      + replace (8 * Z.of_nat N) with (8 * Z.of_nat 8 * Z.of_nat n) by lia. exact C'.
      + exact R'.
  Qed.
End DblRep.

Section Api7.
  Variables (c : cfg) (il : bool) (T : Z) (n : nat) (s : state) (xs ys : Z -> Z).
  Notation g := (rg s).
  Hypothesis Hst : stack 3 s.
  Section F.
  Notation N := (4 * n)%nat.
  Hypothesis HT : table c 3 s T.
  Hypothesis Ho : place 3 s (rdi g) N.
  Hypothesis Hx : place 3 s (rsi g) N.
  Hypothesis Hy : place 3 s (rdx g) N.
  Hypothesis HoT : apart (rdi g) N T 4.
  Hypothesis Ox : same_or_apart (rdi g) (rsi g) N.
  Hypothesis Oy : same_or_apart (rdi g) (rdx g) N.
  Hypothesis Ix : forall i, 0 <= i < Z.of_nat n -> int_at (mem s) (rsi g + 32 * i) 4 (xs i).
  Hypothesis Iy : forall i, 0 <= i < Z.of_nat n -> int_at (mem s) (rdx g + 32 * i) 4 (ys i).
  Hypothesis Mo : mapped (mem s) (rdi g) N.
  Lemma Fp_add_api : called (make_Fp_add il T n) s -> calls (make_Fp_add il T n) s (fun s' =>
    (forall i, 0 <= i < Z.of_nat n -> int_at (mem s') (rdi g + 32 * i) 4 (fp_add c (xs i) (ys i))) /\ only 3 (rdi g) N s s').
  Proof using All.
    apply (fp_rep_ok c T n s xs ys Hst HT Ho Hx Hy HoT Ox Oy Ix Iy Mo (in_Fp_add il) (fp_add c)). intros. eapply m_Fp_add; eassumption.
  Qed.
  Lemma Fp_sub_api : called (make_Fp_sub il T n) s -> calls (make_Fp_sub il T n) s (fun s' =>
    (forall i, 0 <= i < Z.of_nat n -> int_at (mem s') (rdi g + 32 * i) 4 (fp_sub c (xs i) (ys i))) /\ only 3 (rdi g) N s s').
  Proof using All.
    apply (fp_rep_ok c T n s xs ys Hst HT Ho Hx Hy HoT Ox Oy Ix Iy Mo (in_Fp_sub il) (fp_sub c)). intros. eapply m_Fp_sub; eassumption.
  Qed.
  End F.
  Notation N := (8 * n)%nat.
  Hypothesis Ho : place 3 s (rdi g) N.
  Hypothesis Hx : place 3 s (rsi g) N.
  Hypothesis Hy : place 3 s (rdx g) N.
  Hypothesis Ox : same_or_apart (rdi g) (rsi g) N.
  Hypothesis Oy : same_or_apart (rdi g) (rdx g) N.
  Hypothesis Ix : forall i, 0 <= i < Z.of_nat n -> int_at (mem s) (rsi g + 64 * i) 8 (xs i).
  Hypothesis Iy : forall i, 0 <= i < Z.of_nat n -> int_at (mem s) (rdx g + 64 * i) 8 (ys i).
  Hypothesis Mo : mapped (mem s) (rdi g) N.
  Lemma Dbl_subNC_api : called (make_FpDbl_subNC il n) s -> calls (make_FpDbl_subNC il n) s (fun s' =>
    (forall i, 0 <= i < Z.of_nat n -> int_at (mem s') (rdi g + 64 * i) 8 (dbl_subNC (xs i) (ys i))) /\ only 3 (rdi g) N s s').
  Proof using All.
    apply (dbl_rep_ok n s xs ys g4 (fun _ => True) (fun _ => True) Hst eq_refl eq_refl Ho Hx Hy Ox Oy Ix Iy Mo (fun _ _ => I) (fun _ _ _ _ _ _ => I) (fun _ _ => I)
      (fun z x y => in_Fp_subNC il z x y ++ in_Fp_sbbNC il (plus z 32) (plus x 32) (plus y 32)) dbl_subNC).
    intros k0 g0 X f m Q ZZ A A' z a a' x y _ _ H1 H2 H3 H4 H5 H6 H7 H8 H9. rewrite <- app_assoc.
    eapply (m_Dbl_subNC il k0 g0 X f m Q ZZ A A' z a a' x y H4 H5 H6 H7 H8); [| | |apply isat_hi; exact H1|apply isat_hi; exact H2|apply isat_hi; exact H3|exact H9].
    - apply (isat_sub g4 g4 _ _ _ 64); [intros r Hr; exact Hr|lia|exact H1].
    - apply (isat_sub g4 g4 _ _ _ 64); [intros r Hr; exact Hr|lia|exact H2].
    - apply (isat_sub g4 g4 _ _ _ 64); [intros r Hr; exact Hr|lia|exact H3].
  Qed.
  Hypothesis HT : table c 3 s T.
  Hypothesis HoT : apart (rdi g) N T 4.
  Lemma Dtok m : chg [(rsp g - 8 * Z.of_nat 3, 8 * Z.of_nat 3)] (mem s) m -> modulus c m T.
  Proof using HT. intros C. exact (table_mod _ _ _ _ _ _ HT (le_n 3) C). Qed.
  Lemma Dtc z m m' : (T + 32 <= z \/ z + 64 <= T) -> chg [(z, 8 * Z.of_nat 8)] m m' -> modulus c m T -> modulus c m' T.
  Proof.
    intros Hz Cz [M1 M2]. split; [|exact M2]. refine (int_at_chg _ _ _ _ _ _ Cz _ M1). constructor; [|constructor].
    unfold clear_of. cbn [fst snd]. change (8 * Z.of_nat 8) with 64. change (8 * Z.of_nat 4) with 32. lia.
  Qed.
  Lemma Dz i : 0 <= i < Z.of_nat n -> T + 32 <= rdi g + 64 * i \/ rdi g + 64 * i + 64 <= T.
  Proof using HoT. clear -HoT. intros Hi. unfold apart in HoT. lia. Qed.
  Lemma Dbl_add_api : called (make_FpDbl_add il T n) s -> calls (make_FpDbl_add il T n) s (fun s' =>
    (forall i, 0 <= i < Z.of_nat n -> int_at (mem s') (rdi g + 64 * i) 8 (dbl_add c (xs i) (ys i))) /\ only 3 (rdi g) N s s').
  Proof using All.
    apply (dbl_rep_ok n s xs ys (RAX :: g8) (fun m => modulus c m T) (fun z => T + 32 <= z \/ z + 64 <= T) Hst eq_refl eq_refl Ho Hx Hy Ox Oy Ix Iy Mo Dtok Dtc Dz
      (in_FpDbl_add il T) (dbl_add c)). intros k0 g0 X f m Q ZZ A A' z a a' x y H1 H2 H3 H4 H5 H6 H7 H8 H9 H10 H11.
    eapply (m_Dbl_add c T il k0 g0 X f m Q ZZ A A' z a a' x y); try assumption. destruct HT as [_ [[? ?] _]]. lia.
  Qed.
  Lemma Dbl_sub_api : called (make_FpDbl_sub il T n) s -> calls (make_FpDbl_sub il T n) s (fun s' =>
    (forall i, 0 <= i < Z.of_nat n -> int_at (mem s') (rdi g + 64 * i) 8 (dbl_sub c (xs i) (ys i))) /\ only 3 (rdi g) N s s').
  Proof using All.
    apply (dbl_rep_ok n s xs ys (RAX :: g8) (fun m => modulus c m T) (fun z => T + 32 <= z \/ z + 64 <= T) Hst eq_refl eq_refl Ho Hx Hy Ox Oy Ix Iy Mo Dtok Dtc Dz
      (sub_FpDbl_sub il T) (dbl_sub c)). intros k0 g0 X f m Q ZZ A A' z a a' x y H1 H2 H3 H4 H5 H6 H7 H8 H9 H10 H11.
    eapply (m_Dbl_sub c T il k0 g0 X f m Q ZZ A A' z a a' x y); try assumption. destruct HT as [_ [[? ?] _]]. lia.
  Qed.
End Api7.

(** a function made of a frame around one call, followed by the code called *)
Lemma find_app c l r n : forallb (fun i => match i with Lab l' => negb (l =? l') | _ => true end) c = true -> find (c ++ Lab l :: r) l n = Some (n + Z.of_nat (length c)).
Proof.
  revert n. induction c as [|i c IH]; intros n H; cbn [app find length forallb] in *.
  - rewrite Z.eqb_refl. f_equal. lia.
  - apply andb_true_iff in H. destruct H as [H1 H2]. replace (n + Z.of_nat (S (length c))) with (n + 1 + Z.of_nat (length c)) by lia.
    destruct i; try (apply IH; exact H2). destruct (l =? l0); [discriminate|]. apply IH. exact H2.
Qed.
Section CallOne.
  Variables (l : Z) (sub : code) (L : list reg) (o : Z) (n : nat) (s : state) (Post : memory -> Prop).
  Let C := frame 10 0 [Call l] ++ [Lab l] ++ sub ++ [Ret].
  Notation g := (rg s).
  Hypothesis Hc : called C s.
  Hypothesis Hst : stack 7 s.
  Hypothesis Ho : place 7 s o n.
  Hypothesis HL : inb RSP L = false.
  Lemma call_one :
    (forall g1 f1 m1 (Q : state -> Prop), keep [RSP; R9] g g1 -> getr g1 R9 = rdx g -> chg [(rsp g - 8 * Z.of_nat 7, 8 * Z.of_nat 7)] (mem s) m1 ->
      (forall g2 X2 f2 m2, keep L g1 g2 -> chg [(o, 8 * Z.of_nat n)] m1 m2 -> Post m2 -> Q (mkSt g2 X2 f2 m2)) -> wps sub (mkSt g1 (xm s) f1 m1) Q) ->
    calls C s (fun s' => Post (mem s') /\ only 7 o n s s').
  Proof using All.
    intros H. destruct (at_app C 0 (frame 10 0 [Call l]) ([Lab l] ++ sub ++ [Ret]) (at_self C)) as [A1 A2].
    pose proof (proj1 Ho) as [Ho1 Ho2]. pose proof (proj2 Ho) as Ho3. unfold apart in Ho3. destruct Hst as [S1 S2]. pose proof (proj2 Hc) as [B1 B2].
    apply (frame0 C [Call l] 10 1 7 L o n s Post ltac:(lia) ltac:(lia) eq_refl A1 Hc Hst Ho HL).
    { unfold preserved, saved. change (Z.to_nat (10 - 4)) with 6%nat. cbn [firstn forallb]. destruct (inb RBX L), (inb RBP L), (inb R12 L), (inb R13 L), (inb R14 L), (inb R15 L); reflexivity. }
    change (getr g RSP) with (rsp g). intros pc g1 f1 m1 Q A K1 G1 G9 C1 HQ.
    apply (call_wp C pc l (0 + Z.of_nat (length (frame 10 0 [Call l]))) sub g1 (xm s) f1 m1 (rsp g - 8 * (10 - 4)) L [(o, 8 * Z.of_nat n)] Post Q).
    - exact (proj1 (at_cons _ _ _ _ A)).
    - unfold C. apply find_app. reflexivity.
    - exact A2.
    - exact G1.
    - lia.
    - lia.
    - assert (M : mapped m1 (rsp g - 8 * Z.of_nat 7) 7) by exact (chg_mapped _ _ _ _ _ C1 S2). destruct M as [M _].
      replace (rsp g - 8 * (10 - 4) - 8) with (rsp g - 8 * Z.of_nat 7) by lia. exact M.
    - exact HL.
    - constructor; [|constructor]. unfold clear_of. cbn [fst snd]. lia.
    - intros g2 m2 Q' K2 G2 C2 HQ'. apply H; [|rewrite (K2 R9 eq_refl); exact G9| |exact HQ'].
      + refine (keep_incl _ _ _ _ _ (keep_trans _ _ _ _ _ K1 K2)). intros r. cbn. tauto.
      + refine (chg_sub _ _ _ _ _ (chg_trans _ _ _ _ _ C1 C2)). intros b Hb. apply off1 in Hb. apply off2. lia.
    - intros g3 X3 f3 m3 K3 C3 HP. apply HQ; [exact K3| |exact HP].
      refine (chg_sub _ _ _ _ _ C3). intros b Hb. apply off2 in Hb. apply off2. lia.
  Qed.
End CallOne.

Section Api10.
  Variables (c : cfg) (mx : bool) (T : Z) (s : state) (x y : Z).
  Notation g := (rg s).
  Section Mul.
  Hypothesis Hst : stack 7 s.
  Hypothesis HT : table c 7 s T.
  Hypothesis Ho : place 7 s (rdi g) 4.
  Hypothesis Mo : mapped (mem s) (rdi g) 4.
  Lemma Fp_mul_api : place 7 s (rsi g) 4 -> place 7 s (rdx g) 4 -> int_at (mem s) (rsi g) 4 x -> int_at (mem s) (rdx g) 4 y ->
    called (make_Fp_mul mx T (cpp c)) s -> calls (make_Fp_mul mx T (cpp c)) s (fun s' => int_at (mem s') (rdi g) 4 (fp_mul c x y) /\ only 7 (rdi g) 4 s s').
  Proof using All.
    intros Hx Hy Ix Iy Hc. apply (call_one L_Fp_mul (Fp_mul mx T (cpp c)) gall (rdi g) 4 s (fun m => int_at m (rdi g) 4 (fp_mul c x y)) Hc Hst Ho eq_refl).
    intros g1 f1 m1 Q K1 G9 C1 H. rewrite <- (app_nil_r (Fp_mul _ _ _)).
    pose proof (proj1 Ho) as [Ho1 Ho2]. pose proof (proj1 Hx) as [Hx1 Hx2]. pose proof (proj1 Hy) as [Hy1 Hy2]. change (8 * Z.of_nat 4) with 32 in *.
    eapply (m_Fp_mul c mx T [] g1 _ f1 m1 Q (rdi g) (rsi g) (rdx g) x y).
    - exact (table_mod _ _ _ _ _ _ HT (le_n 7) C1).
    - destruct HT as [_ [[? ?] _]]. lia.
    - rewrite (K1 RDI eq_refl). reflexivity.
    - rewrite (K1 RSI eq_refl). reflexivity.
    - exact G9.
    - lia.
    - lia.
    - lia.
    - exact (chg_mapped _ _ _ _ _ C1 Mo).
    - exact (pro_int _ _ _ _ _ _ Hx C1 Ix).
    - exact (pro_int _ _ _ _ _ _ Hy C1 Iy).
    - intros g' X' f' m' K' _ C' R' _. cbn [wps]. apply H; [exact K'|exact C'|exact R'].
  Qed.
  Lemma Dbl_mod_api : place 7 s (rsi g) 8 -> int_at (mem s) (rsi g) 8 x ->
    called (make_FpDbl_mod mx T (cpp c)) s -> calls (make_FpDbl_mod mx T (cpp c)) s (fun s' => int_at (mem s') (rdi g) 4 (dbl_mod c x) /\ only 7 (rdi g) 4 s s').
  Proof using All.
    intros Hx Ix Hc. apply (call_one L_FpDbl_mod (mont_mod mx T (cpp c)) (gp2 :: gall) (rdi g) 4 s (fun m => int_at m (rdi g) 4 (dbl_mod c x)) Hc Hst Ho eq_refl).
    intros g1 f1 m1 Q K1 G9 C1 H. rewrite <- (app_nil_r (mont_mod _ _ _)).
    pose proof (proj1 Ho) as [Ho1 Ho2]. pose proof (proj1 Hx) as [Hx1 Hx2]. change (8 * Z.of_nat 4) with 32 in *. change (8 * Z.of_nat 8) with 64 in *.
    eapply (m_mont_mod c mx T [] g1 _ f1 m1 Q (rdi g) (rsi g) x).
    - exact (table_mod _ _ _ _ _ _ HT (le_n 7) C1).
    - destruct HT as [_ [[? ?] _]]. lia.
    - rewrite (K1 RDI eq_refl). reflexivity.
    - rewrite (K1 RSI eq_refl). reflexivity.
    - lia.
    - lia.
    - exact (chg_mapped _ _ _ _ _ C1 Mo).
    - exact (pro_int _ _ _ _ _ _ Hx C1 Ix).
    - intros g' X' f' m' K' _ C' R' _. cbn [wps]. apply H; [exact K'|exact C'|exact R'].
  Qed.
  End Mul.
  Lemma Dbl_mul_api : stack 6 s -> place 6 s (rdi g) 8 -> place 6 s (rsi g) 4 -> place 6 s (rdx g) 4 -> apart (rdi g) 8 (rsi g) 4 -> apart (rdi g) 8 (rdx g) 4 ->
    mapped (mem s) (rdi g) 8 -> int_at (mem s) (rsi g) 4 x -> int_at (mem s) (rdx g) 4 y ->
    called (make_FpDbl_mul mx) s -> calls (make_FpDbl_mul mx) s (fun s' => int_at (mem s') (rdi g) 8 (x * y) /\ only 6 (rdi g) 8 s s').
  Proof.
    intros Hst Ho Hx Hy Ox Oy Mo Ix Iy Hc.
    apply (frame0b 10 _ 6 [RAX; RDX; gt1; gt2; gt3; gt4; gt5; gt6; gt7; gt8; gt9; gt10] (rdi g) 8 s (fun m => int_at m (rdi g) 8 (x * y))); try assumption; try reflexivity; try lia.
    intros g1 f1 m1 Q K1 G9 C1 H. rewrite <- (app_nil_r (mul4x4 _ _ _ _ _ _ _ _ _ _ _ _ _ _)).
    pose proof (proj1 Ho) as [Ho1 Ho2]. pose proof (proj1 Hx) as [Hx1 Hx2]. pose proof (proj1 Hy) as [Hy1 Hy2]. unfold apart in Ox, Oy. change (8 * Z.of_nat 4) with 32 in *. change (8 * Z.of_nat 8) with 64 in *.
    eapply (m_mul4x4 mx [] g1 _ f1 m1 Q (Ad gp1 0) (Ad gp2 0) (Ad gp3 0) (rdi g) (rsi g) (rdx g) x y).
    - exact (chg_mapped _ _ _ _ _ C1 Mo).
    - exact (pro_int _ _ _ _ _ _ Hx C1 Ix).
    - exact (pro_int _ _ _ _ _ _ Hy C1 Iy).
    - exact Ox.
    - exact Oy.
    - apply (isat_ad _ _ _ _ (rdi g)); [reflexivity|rewrite (K1 RDI eq_refl); reflexivity|lia|lia|lia].
    - apply (isat_ad _ _ _ _ (rsi g)); [reflexivity|rewrite (K1 RSI eq_refl); reflexivity|lia|lia|lia].
    - apply (isat_ad _ _ _ _ (rdx g)); [reflexivity|exact G9|lia|lia|lia].
    - intros g' f' m' K' C' R'. cbn [wps]. apply H; [exact K'|exact C'|exact R'].
  Qed.
End Api10.
