(** Fp::preInv's machine code, called: the result, as an integer congruence and as computed by
    the integer model. *)
From Coq Require Import ZArith List Bool Lia.
From Verif Require Import Base Prim Primes Loop FpSpec Cfg FpM FpProofs FpInvProofs X64 XLog JitSpec JitFpSpec XTac XReg JitFp JitMac JitMac2 JitZmApi JitFrame JitRep JitFpApi JitFpApi2 JitInv JitInvSpec JitInvMac JitInvApi JitFpEnd.
Import ListNotations.
Local Open Scope Z_scope.
Local Notation find := X64.find. Local Notation length := List.length.

Lemma kinv_k c x st : kinv c x st -> 0 <= snd st < 2 ^ 31.
Proof. destruct st as [[[[u v] r] s] k]. intros (_ & _ & _ & _ & H & _). cbn [snd]. lia. Qed.
Lemma chain_of c x o : 0 <= x < cp c -> fp_preInv c x = Ok o -> chain c (cp c, x, 0, 1, 0) o.
Proof.
  intros Hx. destruct (Z.eq_dec x 0) as [->|N].
  - intros E. apply ch_done; [|cbn [snd]; lia]. unfold fp_preInv in E. destruct (preInv_body c (cp c, 0, 0, 1, 0)) as [st|o'] eqn:Eb; [discriminate Eb|].
    cbn [loop2] in E. rewrite Eb in E. injection E as ->. reflexivity.
  - assert (Hx' : 0 < x < cp c) by lia. set (s0 := (cp c, x, 0, 1, 0)).
    destruct (loop2_total (preInv_body c) (fun st => kinv c x st /\ forall o, chain c st o -> chain c s0 o) (fun o => chain c s0 o) (fun st => 600 - snd st)) with (k := 10%nat) (s := s0) as (r & E1 & E2).
    + intros st [I1 I2]. pose proof (kstep c x Hx' st I1) as K. pose proof (kinv_k _ _ _ I1) as Kk. destruct (preInv_body c st) as [st'|o'] eqn:Eb.
      * destruct K as [K1 K2]. split; [|exact K2]. split; [exact K1|]. intros o2 H. apply I2. exact (ch_next _ _ _ _ Eb Kk H).
      * apply I2. exact (ch_done _ _ _ Eb Kk).
    + split; [|intros o2 H; exact H]. unfold kinv, s0. pose proof (cp_pos c). split; [lia|]. split; [lia|].
      split; [exists 1; change (2 ^ 0) with 1; lia|]. split; [exists 0; change (2 ^ 0) with 1; lia|].
      split; [lia|]. intros _. change (2 ^ 0) with 1. lia.
    + unfold s0. cbn [snd]. change (2 ^ Z.of_nat 10) with 1024. lia.
    + unfold fp_preInv. fold s0. rewrite E1. intros E. injection E as <-. exact E2.
Qed.


Lemma preInv_api c T s x r k : call1 (make_Fp_preInv T) 10 4 4 s -> table2 c 10 s T -> int_at (mem s) (rsi (rg s)) 4 x -> 0 <= x < cp c ->
  fp_preInv c x = Ok (r, k) ->
  calls (make_Fp_preInv T) s (fun s' => (getr (rg s') RAX = k /\ int_at (mem s') (rdi (rg s)) 4 r) /\ only 10 (rdi (rg s)) 4 s s').
Proof.
  intros (Hc & Hst & Ho & Hx & Mo) (IT & IT2 & HT) Ix Bx E. set (C := make_Fp_preInv T) in *.
  destruct Hst as [S1 S2]. destruct Ho as [O1 O2]. destruct Hx as [X1 X2]. destruct HT as [T1 T2]. unfold area, apart in *.
  change (rsp (rg s)) with (getr (rg s) RSP) in *. set (sp := getr (rg s) RSP) in *.
  assert (SB : sp + 8 < B) by (destruct Hc as [_ [_ H]]; exact H).
  change (8 * Z.of_nat 10) with 80 in *. change (8 * Z.of_nat 4) with 32 in *. change (8 * Z.of_nat 8) with 64 in *. change (8 * Z.of_nat 11) with 88 in *.
  assert (EP : frameP 10 4 = 80) by reflexivity.
  eapply calls_mono; [eapply (frame_wpr C (inv_body T) 10 4 0 LA (rdi (rg s)) 32 s (fun a m => a = k /\ int_at m (rdi (rg s)) 4 r))|].
  - lia.
  - lia.
  - lia.
  - exact (at_self C).
  - exact Hc.
  - rewrite EP. fold sp. lia.
  - rewrite EP. fold sp. change (80 / 8 + 0) with (Z.of_nat 10). replace (sp - 80 - 8 * 0) with (sp - 80) by lia. apply mapped_avail. exact S2.
  - rewrite EP. fold sp. lia.
  - reflexivity.
  - reflexivity.
  - rewrite EP. fold sp. intros pc g1 f1 m1 Q Ha K1 G1 _ C1 H. replace (sp - 80 - 8 * 0) with (sp - 80) in H by lia. change (8 * (4 + 0)) with 32 in H.
    destruct (labels T pc Ha) as (p1 & p2 & p3 & p4 & p5 & P1 & P2 & P3 & P4 & P5 & Ep1 & PE).
    assert (R0 : 0 <= sp - 80) by lia. assert (R1 : sp - 80 + 32 <= B) by lia. assert (R2 : 0 <= T /\ T + 64 < B) by (split; [exact (proj1 T1)|exact (proj2 T1)]).
    assert (R3 : 0 <= rdi (rg s) /\ rdi (rg s) + 32 < B) by (split; [exact (proj1 O1)|exact (proj2 O1)]).
    assert (R4 : T + 64 <= sp - 80 \/ sp - 80 + 32 <= T) by lia.
    assert (CL : forall a n, apart (sp - 80) 11 a n -> Forall (clear_of a (8 * Z.of_nat n)) [(sp - 80, 80)]).
    { intros a n Ap. constructor; [|constructor]. unfold clear_of, apart in *. cbn [fst snd]. change (8 * Z.of_nat 11) with 88 in Ap. lia. }
    assert (N1 : int_at m1 T 4 (cp c)) by (refine (int_at_chg _ _ _ _ _ _ C1 _ IT); apply CL; unfold apart; change (8 * Z.of_nat 4) with 32; change (8 * Z.of_nat 11) with 88; lia).
    assert (N2 : int_at m1 (T + 32) 4 (2 * cp c)) by (refine (int_at_chg _ _ _ _ _ _ C1 _ IT2); apply CL; unfold apart; change (8 * Z.of_nat 4) with 32; change (8 * Z.of_nat 11) with 88; lia).
    assert (N3 : int_at m1 (rsi (rg s)) 4 x) by (refine (int_at_chg _ _ _ _ _ _ C1 _ Ix); apply CL; unfold apart; change (8 * Z.of_nat 4) with 32; change (8 * Z.of_nat 11) with 88; lia).
    assert (N4 : mapped m1 (rdi (rg s)) 4) by (exact (chg_mapped _ _ _ _ _ C1 Mo)).
    assert (N5 : avail m1 (sp - 80) 4).
    { refine (avail_chg _ _ _ _ _ C1 _). pose proof (mapped_avail _ _ _ S2) as A. intros j Hj. apply A. lia. }
    rewrite body_tl in Ha. destruct (at_app _ _ _ _ Ha) as [Ha1 _]. apply (wp_block _ _ _ _ _ Ha1). rewrite <- Ep1.
    eapply (m_init T (sp - 80) (rdi (rg s)) x R0 R1 R2 Q (rsi (rg s)) (cp c)); [exact G1|exact (K1 RDI eq_refl)|exact (K1 RSI eq_refl)|exact (proj1 X1)|exact (proj2 X1)|exact N1|exact N3|exact N5|].
    intros g2 X2' f2 m2 I2 C2. apply (run_chain c T pc (sp - 80) (rdi (rg s)) R0 R1 R2 R4 R3 p1 p2 p3 p4 p5 P1 P2 P3 P4 P5 PE Q _ (r, k) (chain_of _ _ _ Bx E) _ _ _ _ I2).
    + assert (EQ : pTbl c 2 = 2 * cp c) by (unfold pTbl; apply Z.mod_small; pose proof (cp_lt_W c); pose proof (cp_pos c); lia). rewrite EQ.
      refine (int_at_chg _ _ _ _ _ _ C2 _ N2). constructor; [|constructor]. unfold clear_of. cbn [fst snd]. change (8 * Z.of_nat 4) with 32. lia.
    + exact (chg_mapped _ _ _ _ _ C2 N4).
    + cbn [fst snd]. intros g3 X3 f3 m3 Rsp Ra Ir C3. apply H.
      * apply keep_LA. rewrite Rsp. symmetry. exact G1.
      * refine (chg_sub _ _ _ _ _ (chg_trans _ _ _ _ _ C2 C3)). intros b Hb. apply off2 in Hb. cbn [app].
        constructor; [unfold off; cbn [fst snd]; lia|]. apply off2. lia.
      * split; [exact Ra|exact Ir].
  - rewrite EP. fold sp. intros s' [[H1 H2] [H3 _]]. split; [split; [exact H1|exact H2]|]. unfold only. change (rsp (rg s)) with (getr (rg s) RSP). fold sp.
    change (8 * Z.of_nat 10) with 80. change (8 * Z.of_nat 4) with 32. intros b B1 B2. apply H3. apply off2. lia.
Qed.

(** the result of a non-zero element: a number r of at most 2p and the count k with x r = 2^k modulo p *)
Lemma preInv_end c T s x : call1 (make_Fp_preInv T) 10 4 4 s -> table2 c 10 s T -> int_at (mem s) (rsi (rg s)) 4 x -> 0 < x < cp c ->
  calls (make_Fp_preInv T) s (fun s' => (exists r k, rax (rg s') = k /\ int_at (mem s') (rdi (rg s)) 4 r /\ 0 <= r <= 2 * cp c /\ 0 <= k <= 508 /\
    (x * r) mod cp c = 2 ^ k mod cp c) /\ only 10 (rdi (rg s)) 4 s s').
Proof.
  intros Hc HT Ix Bx. destruct (preInv_ok c x Bx) as (r & k & E & (Hr & Hk & a & Ea)).
  refine (calls_mono _ _ _ _ (preInv_api c T s x r k Hc HT Ix _ E) _); [lia|].
  intros s' [[H1 H2] H3]. split; [|exact H3]. exists r, k. split; [exact H1|]. split; [exact H2|]. split; [exact Hr|]. split; [exact Hk|].
  rewrite Ea, Z.add_comm. apply Z_mod_plus_full.
Qed.
(** of zero: 2p and 0 *)
Lemma preInv_zero c T s : call1 (make_Fp_preInv T) 10 4 4 s -> table2 c 10 s T -> int_at (mem s) (rsi (rg s)) 4 0 ->
  calls (make_Fp_preInv T) s (fun s' => (rax (rg s') = 0 /\ int_at (mem s') (rdi (rg s)) 4 (2 * cp c)) /\ only 10 (rdi (rg s)) 4 s s').
Proof.
  intros Hc HT Ix. pose proof (cp_pos c). apply (preInv_api c T s 0 (2 * cp c) 0 Hc HT Ix); [lia|].
  unfold fp_preInv. cbn [loop2]. unfold preInv_body at 1. rewrite Z.eqb_refl. rewrite Z.sub_0_r. f_equal. f_equal. unfold pTbl. pose proof (cp_lt_W c).
  rewrite Z.mod_mod by lia. apply Z.mod_small. lia.
Qed.

(** ** An example: JitFpEnd.ex_fp with 2p after p *)
Definition iex_mem (c : cfg) (a : Z) : option Z :=
  if (a mod 8 =? 0) && (16416 <=? a) && (a <? 16448) then Some (digit (2 * cp c) ((a - 16416) / 8)) else fex_mem c a.
Definition ex_inv (c : cfg) : state := mkSt (rg (ex_fp c 4096)) (mkX 0 0 0 0 0 0) noF (iex_mem c).
Lemma iex_same c a : a < 16416 \/ 16448 <= a -> iex_mem c a = fex_mem c a.
Proof. intros H. unfold iex_mem. destruct (Z.leb_spec 16416 a), (Z.ltb_spec a 16448); try lia; rewrite ?andb_false_r, ?andb_true_r; reflexivity || (rewrite andb_false_r; reflexivity). Qed.
Lemma iex_mapped c a n : mapped (fex_mem c) a n -> mapped (iex_mem c) a n.
Proof. apply mapped_keep. intros b v E. unfold iex_mem. destruct ((b mod 8 =? 0) && (16416 <=? b) && (b <? 16448)); [eexists; reflexivity|exists v; exact E]. Qed.
Lemma ex_inv_ok c : call1 (make_Fp_preInv ex_T) 10 4 4 (ex_inv c) /\ table2 c 10 (ex_inv c) ex_T /\ int_at (mem (ex_inv c)) (rsi (rg (ex_inv c))) 4 ex_x /\ 0 < ex_x < cp c.
Proof.
  destruct (ex_call1 (make_Fp_preInv ex_T) 10 4 4 c 4096) as (A1 & A2 & A3 & A4 & A5); [apply Z.leb_le; reflexivity|lia|lia|lia|left; reflexivity|].
  assert (SM : forall a n v, a + 8 * Z.of_nat n <= 16416 -> int_at (fex_mem c) a n v -> int_at (iex_mem c) a n v).
  { intros a n v H. apply int_at_same. intros b Hb. apply iex_same. lia. }
  split; [split; [|split; [|split; [exact A3|split; [exact A4|]]]]|split; [|split]].
  - destruct A1 as [(t & E1 & E2) A]. split; [exists t; split; [exact E1|exact E2]|exact A].
  - destruct A2 as [A2 A6]. split; [exact A2|]. apply iex_mapped. exact A6.
  - apply iex_mapped. exact A5.
  - split; [apply SM; [unfold ex_T; cbn; lia|exact (fex_p c)]|]. split; [|destruct (ex_place 10 c 4096 ex_T 8) as [? ?]; [lia|unfold ex_T; lia|unfold ex_T; lia|split; assumption]].
    apply int_at_digits; [rewrite B4; pose proof (cp_lt_W c); pose proof (cp_bounds c); lia|]. intros i Hi. change (Z.of_nat 4) with 4 in Hi. cbn [mem ex_inv]. unfold iex_mem, ex_T.
    assert (HI : i = 0 \/ i = 1 \/ i = 2 \/ i = 3) by lia. destruct HI as [-> | [-> | [-> | ->]]]; reflexivity.
  - apply SM; [cbn; lia|]. exact (fex_x c 0 ltac:(lia)).
  - destruct (ex_can c) as (H & _). unfold can in H. split; [reflexivity|apply H].
Qed.
