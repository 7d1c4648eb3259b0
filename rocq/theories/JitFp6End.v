(** The generated functions on Fp6 and Fp12: what a call computes, in the field; an example of a call. *)
From Coq Require Import ZArith List Bool Lia.
From Verif Require Import X64 XLog JitSpec JitFpSpec XTac XReg JitFp JitMac JitMac2 JitFpApi JitFpEnd JitFp2 JitFp2Spec JitFp2Api2 JitFp2End JitFp6Spec JitFp6 JitFp6Sub JitFp6Api JitFp12Api JitSq9.
From Verif Require Import Base Prim Primes FpSpec Cfg FpM FpProofs TowerSpec TowerField TowerM Fp2Proofs Fp6Proofs FinalProofs TowerWit TowerApi SnarkPow.
Import ListNotations.
Local Open Scope Z_scope.
Local Notation find := X64.find.
Local Notation length := List.length.

Section E.
  Variables (c : cfg) (il mx : bool) (T NT HF : Z) (s : state).
  Notation g := (rg s).
  Lemma leaves6_mono C k wd (r : F3 (F2 Z)) (P : F3 (F2 Z) -> Prop) : calls C s (fun s' => six wd (mem s') (rdi g) r /\ only k (rdi g) (6 * wd) s s') -> P r ->
    calls C s (leaves6 k wd P s).
  Proof. intros H HR. eapply calls_mono; [exact H|]. intros s' [H1 O]. split; [exists r; split; [exact H1|exact HR]|exact O]. Qed.
  Lemma leaves12_mono C k (r : F2 (F3 (F2 Z))) (P : F2 (F3 (F2 Z)) -> Prop) : calls C s (fun s' => twelve (mem s') (rdi g) r /\ only k (rdi g) 48 s s') -> P r ->
    calls C s (leaves12 k P s).
  Proof. intros H HR. eapply calls_mono; [exact H|]. intros s' [H1 O]. split; [exists r; split; [exact H1|exact HR]|exact O]. Qed.
  Section Six.
  Variables (x y : F3 (F2 Z)) (v w : K6 c).
  Hypotheses (Hx : rep6 c x v) (Hy : rep6 c y w) (Ix : six 4 (mem s) (rsi g) x) (Iy : six 4 (mem s) (rdx g) y).
  Local Notation mk_add := (make_Fp6_add il mx (snark c) T (cpp c) NT).
  Local Notation mk_sub := (make_Fp6_sub il mx (snark c) T (cpp c) NT).
  Local Notation mk_mul := (make_Fp6_mul il mx (snark c) T (cpp c) NT).
  Local Notation mk_dmul := (make_Fp6Dbl_mul il mx (snark c) T (cpp c) NT).
  Lemma Fp6_add_end : call2 mk_add 4 24 24 s -> aliased 24 s -> consts c 4 s T NT HF (rdi g) 24 -> calls mk_add s (leaves6 4 4 (fun z => rep6 c z (radd v w)) s).
  Proof. intros H1 H2 H3. exact (leaves6_mono _ 4 4 _ _ (Fp6_add_api c il mx T NT HF s x y H1 H2 H3 Ix Iy) (f6_add_rep c x y v w Hx Hy)). Qed.
  Lemma Fp6_sub_end : call2 mk_sub 4 24 24 s -> aliased 24 s -> consts c 4 s T NT HF (rdi g) 24 -> calls mk_sub s (leaves6 4 4 (fun z => rep6 c z (rsub v w)) s).
  Proof. intros H1 H2 H3. exact (leaves6_mono _ 4 4 _ _ (Fp6_sub_api c il mx T NT HF s x y H1 H2 H3 Ix Iy) (f6_sub_rep c x y v w Hx Hy)). Qed.
  Lemma Fp6_mul_end : snark c = false -> call2 mk_mul 137 24 24 s -> aliased 24 s -> consts c 137 s T NT HF (rdi g) 24 -> calls mk_mul s (leaves6 137 4 (fun z => rep6 c z (rmul v w)) s).
  Proof. intros HB H1 H2 H3. exact (leaves6_mono _ 137 4 _ _ (Fp6_mul_api c il mx T NT HF s x y H1 H2 H3 Ix Iy) (f6_mul_rep c (cp_6_c c HB) x y v w Hx Hy)). Qed.
  Lemma Fp6_mul_value_end : call2 mk_mul 137 24 24 s -> aliased 24 s -> consts c 137 s T NT HF (rdi g) 24 -> calls mk_mul s (leaves6 137 4 (fun z => 
    rep2 c (a3 z) (a3 (rmul v w)) /\ rep2 c (b3 z) (b3 (rmul v w)) /\ rep1 c (a2 (c3 z)) (a2 (c3 (rmul v w))) /\ fv c (b2 (c3 z)) = b2 (c3 (rmul v w)) /\ 0 <= b2 (c3 z) < 2 * cp c) s).
  Proof. intros H1 H2 H3. exact (leaves6_mono _ 137 4 _ _ (Fp6_mul_api c il mx T NT HF s x y H1 H2 H3 Ix Iy) (f6_mul_value c x y v w Hx Hy)). Qed.
  Lemma Fp6Dbl_mul_end : snark c = false -> call2 mk_dmul 88 48 24 s -> apart (rdi g) 48 (rsi g) 24 -> apart (rdi g) 48 (rdx g) 24 -> consts c 88 s T NT HF (rdi g) 48 -> calls mk_dmul s (leaves6 88 8 (fun z => drep6 c z (rmul v w)) s).
  Proof. intros HB H1 H2 H3 H4. exact (leaves6_mono _ 88 8 _ _ (Fp6Dbl_mul_api c il mx T NT HF s x y H1 H2 H3 H4 Ix Iy) (d6_mul_rep c x y v w (cp_6_c c HB) Hx Hy)). Qed.
  End Six.
  Section Twelve.
  Variables (x y : F2 (F3 (F2 Z))) (v w : K12 c).
  Hypotheses (Hx : rep12 c x v) (Hy : rep12 c y w).
  Local Notation mk_mul := (make_Fp12_mul il mx (snark c) T (cpp c) NT).
  Local Notation mk_sq := (make_Fp12_square il mx (snark c) T (cpp c) NT).
  Lemma Fp12_mul_end : snark c = false -> call2 mk_mul 379 48 48 s -> aliased 48 s -> consts c 379 s T NT HF (rdi g) 48 -> twelve (mem s) (rsi g) x -> twelve (mem s) (rdx g) y ->
    calls mk_mul s (leaves12 379 (fun z => rep12 c z (rmul v w)) s).
  Proof. intros HB H1 H2 H3 Ix Iy. exact (leaves12_mono _ 379 _ _ (Fp12_mul_api c il mx T NT HF s x y H1 H2 H3 Ix Iy) (f12_mul_rep c (cp_6_c c HB) x y v w Hx Hy)). Qed.
  Lemma Fp12_mul_in_end : in12 c x y -> call2 mk_mul 379 48 48 s -> aliased 48 s -> consts c 379 s T NT HF (rdi g) 48 -> twelve (mem s) (rsi g) x -> twelve (mem s) (rdx g) y ->
    calls mk_mul s (leaves12 379 (fun z => rep12 c z (rmul v w)) s).
  Proof. intros HB H1 H2 H3 Ix Iy. exact (leaves12_mono _ 379 _ _ (Fp12_mul_api c il mx T NT HF s x y H1 H2 H3 Ix Iy) (f12_mul_in c x y v w HB Hx Hy)). Qed.
  Local Notation sqpre := (called mk_sq s -> stack 186 s -> place 186 s (rdi g) 48 -> mapped (mem s) (rdi g) 48 -> consts c 186 s T NT HF (rdi g) 48 -> twelve (mem s) (rdi g) x ->
    calls mk_sq s (leaves12 186 (fun z => rep12 c z (rmul v v)) s)).
  Lemma Fp12_square_end : snark c = false -> sqpre.
  Proof.
    intros HB H1 H2 H3 H4 H5 Ix. assert (H : calls mk_sq s (fun s' => twelve (mem s') (rdi g) (f12_square c x) /\ only 186 (rdi g) 48 s s')).
    { revert H1. rewrite HB. intros H1. exact (Fp12_square_api c il mx T NT HF s x HB H1 H2 H3 H4 H5 Ix). }
    exact (leaves12_mono _ 186 _ _ H (f12_square_rep c (cp_6_c c HB) x v Hx)).
  Qed.
  Lemma Fp12_square_in_end : in12sq c x -> sqpre.
  Proof.
    intros HI H1 H2 H3 H4 H5 Ix. pose proof (f12_square_in c x v HI Hx) as HR.
    assert (H : calls mk_sq s (fun s' => twelve (mem s') (rdi g) (f12_square c x) /\ only 186 (rdi g) 48 s s')).
    { revert H1. destruct (snark c) eqn:HB; intros H1.
      - pose proof (d6_mod_rep c _ _ (d6_mul_in c _ _ _ _ (proj1 HI) (proj2 Hx) (proj1 Hx))) as Zb. fold (f6_mul c (b2 x) (a2 x)) in Zb.
        destruct Zb as (_ & _ & [[Z1 _] [Z2 _]]). destruct (proj2 Hx) as (_ & _ & [[X1 _] [X2 _]]).
        exact (Fp12_square_api9 c il mx T NT HF s x HB (conj X1 X2) (conj Z1 Z2) H1 H2 H3 H4 H5 Ix).
      - exact (Fp12_square_api c il mx T NT HF s x HB H1 H2 H3 H4 H5 Ix). }
    exact (leaves12_mono _ 186 _ _ H HR).
  Qed.
  End Twelve.
  Lemma mul_024_end x u (v : K12 c) (w : K6 c) : call1 (make_Fp12Dbl_mul_Fp2_024 il mx (snark c) T (cpp c) NT) 151 48 24 s -> apart (rdi g) 48 (rsi g) 24 -> consts c 151 s T NT HF (rdi g) 48 ->
    twelve (mem s) (rdi g) x -> six 4 (mem s) (rsi g) u -> rep12 c x v -> rep6 c u w ->
    calls (make_Fp12Dbl_mul_Fp2_024 il mx (snark c) T (cpp c) NT) s (leaves12 151 (fun z => rep12 c z (rmul v (mk2 (mk3 (a3 w) rz (c3 w)) (mk3 rz (b3 w) rz) : K12 c))) s).
  Proof. intros H1 H2 H3 Ix Iy Hx Hy. exact (leaves12_mono _ 151 _ _ (mul_024_api c il mx T NT HF s x u H1 H2 H3 Ix Iy) (f12_mul_024_rep c x u v w Hx Hy)). Qed.
End E.

(** ** A state that meets the hypotheses: lists of integers at 4096 and 8192, the constants as in JitFp2End *)
Fixpoint segs (b : Z) (l : list Z) (m : memory) : memory := match l with [] => m | v :: l' => seg b 4 v (segs (b + 32) l' m) end.
Definition ex6_tab (c : cfg) : memory := seg 20480 8 (cp c * W / 4) (seg 24576 4 0 (seg 24608 4 ((cp c + 1) / 2) (ex_tab c))).
Definition ex6_mem (c : cfg) (lx ly : list Z) : memory := segs 4096 lx (segs 8192 ly (ex6_tab c)).
(** arguments [di], [si], 8192 *)
Definition ex6 (c : cfg) (di si : Z) (lx ly : list Z) : state :=
  mkSt (mkR 7 7 5 8192 si di 7 32000 7 7 7 7 7 7 7 7) (mkX 0 0 0 0 0 0) noF (ex6_mem c lx ly).
Lemma segs_mapped l : forall b m, (forall a, 0 <= a < 65536 -> a mod 8 = 0 -> exists u, m a = Some u) -> forall a, 0 <= a < 65536 -> a mod 8 = 0 -> exists u, segs b l m a = Some u.
Proof. induction l as [|v l IH]; intros b m H; cbn [segs]; [exact H|]. apply seg_mapped. apply IH. exact H. Qed.
Lemma segs_out l : forall b m a k x, a + 8 * Z.of_nat k <= b \/ b + 32 * Z.of_nat (length l) <= a -> int_at m a k x -> int_at (segs b l m) a k x.
Proof.
  induction l as [|v l IH]; intros b m a k x H HI; cbn [segs length] in *; [exact HI|]. apply seg_out; [lia|]. apply IH; [lia|exact HI].
Qed.
Lemma segs_in l : forall b m i, Forall (fun v => 0 <= v < W) l -> (i < length l)%nat -> int_at (segs b l m) (b + 32 * Z.of_nat i) 4 (nth i l 0).
Proof.
  induction l as [|v l IH]; intros b m i H Hi; cbn [length] in Hi; [lia|]. inversion H as [|? ? H1 H2]; subst. cbn [segs]. destruct i as [|i].
  - cbn [nth]. rewrite Z.mul_0_r, Z.add_0_r. apply (seg_in b 4). rewrite B4. exact H1.
  - cbn [nth]. apply seg_out; [lia|]. replace (b + 32 * Z.of_nat (S i)) with (b + 32 + 32 * Z.of_nat i) by lia. apply IH; [exact H2|lia].
Qed.
  Lemma six_at m b o l x : (forall i, (i < length l)%nat -> int_at m (b + 32 * Z.of_nat i) 4 (nth i l 0)) -> firstn 6 (skipn o l) = l6 x -> (o + 6 <= length l)%nat -> six 4 m (b + 32 * Z.of_nat o) x.
  Proof.
    intros H E HL. assert (N : forall i, (i < 6)%nat -> nth i (l6 x) 0 = nth (o + i) l 0).
    { intros i Hi. rewrite <- E. rewrite <- (firstn_skipn o l) at 2. rewrite app_nth2; rewrite firstn_length_le by lia; [|lia]. replace (o + i - o)%nat with i by lia.
      rewrite <- (firstn_skipn 6 (skipn o l)) at 2. rewrite app_nth1; [reflexivity|]. rewrite E. exact Hi. }
    assert (P : forall i, (i < 6)%nat -> int_at m (b + 32 * Z.of_nat o + 32 * Z.of_nat i) 4 (nth i (l6 x) 0)).
    { intros i Hi. rewrite (N i Hi). replace (b + 32 * Z.of_nat o + 32 * Z.of_nat i) with (b + 32 * Z.of_nat (o + i)) by lia. apply H. lia. }
    unfold six, pair. change (8 * Z.of_nat 4) with 32. change (16 * Z.of_nat 4) with 64. cbv zeta. unfold l6 in P.
    pose proof (P 0%nat ltac:(lia)) as P0. pose proof (P 1%nat ltac:(lia)) as P1. pose proof (P 2%nat ltac:(lia)) as P2. pose proof (P 3%nat ltac:(lia)) as P3. pose proof (P 4%nat ltac:(lia)) as P4. pose proof (P 5%nat ltac:(lia)) as P5.
    clear -P0 P1 P2 P3 P4 P5. cbn [nth] in *. set (a := b + 32 * Z.of_nat o) in *. clearbody a.
    replace (a + 32 * Z.of_nat 0) with a in P0 by lia. replace (a + 32 * Z.of_nat 1) with (a + 32) in P1 by lia. replace (a + 32 * Z.of_nat 2) with (a + 64) in P2 by lia.
    replace (a + 32 * Z.of_nat 3) with (a + 64 + 32) in P3 by lia. replace (a + 32 * Z.of_nat 4) with (a + 2 * 64) in P4 by lia. replace (a + 32 * Z.of_nat 5) with (a + 2 * 64 + 32) in P5 by lia.
    split; [split; assumption|]. split; split; assumption.
  Qed.
Section Ex.
  Variables (c : cfg) (di si : Z) (lx ly : list Z).
  Hypothesis Hd : di = 4096 \/ di = 12288.
  Hypothesis Hs : si = 4096 \/ si = 8192.
  Hypothesis Lx : (length lx <= 12)%nat.
  Hypothesis Ly : (length ly <= 12)%nat.
  Hypothesis Rx : Forall (fun v => 0 <= v < W) lx.
  Hypothesis Ry : Forall (fun v => 0 <= v < W) ly.
  Notation s := (ex6 c di si lx ly).
  Lemma ex6_all_mem a : 0 <= a < 65536 -> a mod 8 = 0 -> exists u, ex6_mem c lx ly a = Some u.
  Proof.
    revert a. unfold ex6_mem. apply segs_mapped, segs_mapped. unfold ex6_tab, ex_tab. cbn [fold_right]. do 13 apply seg_mapped. intros a Ha Ea. unfold base_mem. rewrite Ea, Z.eqb_refl.
    replace (0 <=? a) with true by lia. replace (a <? 65536) with true by lia. eexists. reflexivity.
  Qed.
  Lemma segs_far l b m a : a < b \/ b + 32 * Z.of_nat (length l) <= a -> segs b l m a = m a.
  Proof.
    revert b. induction l as [|v l IH]; intros b H; cbn [segs length] in *; [reflexivity|]. unfold seg. replace ((b <=? a) && (a <? b + 8 * 4)) with false by lia. apply IH. lia.
  Qed.
  Lemma ex6_called C : Z.of_nat (length C) <= 1000000 -> called C s.
  Proof.
    intros H. split; [exists 1000000; split; [|apply fetch_long; exact H]|].
    - cbn [mem rg rsp ex6]. unfold ex6_mem. rewrite !segs_far by lia. reflexivity.
    - unfold area. cbn [rg rsp ex6]. rewrite B_val. lia.
  Qed.
  Lemma ex6_place k a n : (k <= 400)%nat -> 0 <= a -> a + 8 * Z.of_nat n <= 28000 -> place k s a n.
  Proof. intros H H1 H2. unfold place, area, apart. cbn [rg rsp ex6]. rewrite B_val. lia. Qed.
  Lemma ex6_stack k : (k <= 400)%nat -> stack k s.
  Proof.
    intros H. unfold stack. cbn [rg rsp ex6 mem]. split; [lia|]. apply all_mapped; [exact ex6_all_mem|lia|lia|].
    replace (32000 - 8 * Z.of_nat k) with (0 + (4000 - Z.of_nat k) * 8) by lia. rewrite Z.mod_add by discriminate. reflexivity.
  Qed.
  Lemma ex6_mapped n : (n <= 100)%nat -> mapped (mem s) (rdi (rg s)) n.
  Proof. intros H. cbn [rg rdi ex6 mem]. destruct Hd as [-> | ->]; (apply all_mapped; [exact ex6_all_mem|lia|lia|reflexivity]). Qed.
  Lemma ex6_call2 C k no n : Z.of_nat (length C) <= 1000000 -> (k <= 400)%nat -> (no <= 100)%nat -> (n <= 100)%nat -> call2 C k no n s.
  Proof.
    intros H1 H2 H3 H4. split; [exact (ex6_called _ H1)|]. split; [exact (ex6_stack _ H2)|].
    split; [apply ex6_place; cbn [rg rdi ex6]; lia|]. split; [apply ex6_place; cbn [rg rsi ex6]; lia|]. split; [apply ex6_place; cbn [rg rdx ex6]; lia|].
    apply ex6_mapped. exact H3.
  Qed.
  Lemma ex6_call1 C k no n : Z.of_nat (length C) <= 1000000 -> (k <= 400)%nat -> (no <= 100)%nat -> (n <= 100)%nat -> call1 C k no n s.
  Proof. intros H1 H2 H3 H4. destruct (ex6_call2 C k no n H1 H2 H3 H4) as (A & A2 & A3 & A4 & A5 & A6). unfold call1. tauto. Qed.
  Lemma ex6_ptab : p_table c (mem s) ex_T.
  Proof.
    intros i Hi. cbn [mem ex6]. unfold ex6_mem, ex_T. do 2 (apply segs_out; [lia|]). unfold ex6_tab. do 3 (apply seg_out; [lia|]). unfold ex_tab. cbn [fold_right].
    replace (16384 - 32 + 32 * i) with (16352 + 32 * i) by lia.
    assert (D : i = 0 \/ i = 1 \/ i = 2 \/ i = 3 \/ i = 4 \/ i = 5 \/ i = 6 \/ i = 7 \/ i = 8 \/ i = 9) by lia.
    repeat destruct D as [-> | D]; try subst i; repeat (apply seg_out; [lia|]); apply (seg_in _ 4); rewrite B4; apply Z.mod_pos_bound; apply W_pos.
  Qed.
  Lemma ex6_ntab : n_table c (mem s) ex_NT.
  Proof.
    unfold n_table, ex_NT. cbn [mem ex6]. unfold ex6_mem. do 2 (apply segs_out; [lia|]). unfold ex6_tab. apply (seg_in _ 8).
    replace (B ^ Z.of_nat 8) with (W * W) by (rewrite W_val, B_val; reflexivity). pose proof (cp_lt_W c). pose proof (cp_pos c). pose proof W_pos.
    split; [apply Z.div_pos; nia|apply Z.div_lt_upper_bound; nia].
  Qed.
  Lemma ex6_htab : half_table c (mem s) ex_HF.
  Proof.
    unfold half_table, ex_HF. cbn [mem ex6]. unfold ex6_mem. pose proof (cp_lt_W c). pose proof (cp_pos c).
    split; (do 2 (apply segs_out; [lia|])); unfold ex6_tab; (apply seg_out; [lia|]); [apply (seg_in _ 4); rewrite B4; lia|]. apply seg_out; [lia|]. apply (seg_in _ 4); rewrite B4.
    split; [apply Z.div_pos; lia|apply Z.div_lt_upper_bound; lia].
  Qed.
  Lemma ex6_consts k n : (k <= 400)%nat -> (n <= 100)%nat -> consts c k s ex_T ex_NT ex_HF (rdi (rg s)) n.
  Proof.
    intros H H'. pose proof ex6_ptab. pose proof ex6_ntab. pose proof ex6_htab. 
    split; [assumption|]. split; [apply ex6_place; unfold ex_T; lia|]. split; [unfold apart, ex_T; cbn [rg rdi ex6]; lia|].
    split; [assumption|]. split; [apply ex6_place; unfold ex_NT; lia|]. split; [unfold apart, ex_NT; cbn [rg rdi ex6]; lia|].
    split; [assumption|]. split; [apply ex6_place; unfold ex_HF; lia|]. unfold apart, ex_HF; cbn [rg rdi ex6]; lia.
  Qed.
  Lemma ex6_x i : (i < length lx)%nat -> int_at (mem s) (4096 + 32 * Z.of_nat i) 4 (nth i lx 0).
  Proof. intros H. cbn [mem ex6]. apply segs_in; [exact Rx|exact H]. Qed.
  Lemma ex6_y i : (i < length ly)%nat -> int_at (mem s) (8192 + 32 * Z.of_nat i) 4 (nth i ly 0).
  Proof. intros H. cbn [mem ex6]. unfold ex6_mem. apply segs_out; [lia|]. apply segs_in; [exact Ry|exact H]. Qed.
End Ex.
Ltac sx b o l x H := pose proof (six_at _ b o l x H eq_refl ltac:(cbn; lia)) as HS; exact HS.
Lemma can_W c x : can c x -> 0 <= x < W.
Proof. unfold can. pose proof (cp_lt_W c). lia. Qed.
Lemma rep6_W c x v : rep6 c x v -> Forall (fun v => 0 <= v < W) (l6 x).
Proof. intros (([H1 _] & [H2 _]) & ([H3 _] & [H4 _]) & ([H5 _] & [H6 _])). repeat (apply Forall_cons; [apply (can_W c); assumption|]). apply Forall_nil. Qed.
Lemma rep12_W c x v : rep12 c x v -> Forall (fun v => 0 <= v < W) (l12 x).
Proof. intros [H1 H2]. apply Forall_app. split; [exact (rep6_W _ _ _ H1)|exact (rep6_W _ _ _ H2)]. Qed.
Lemma ex6_six c di si x y v w : rep6 c x v -> rep6 c y w -> six 4 (mem (ex6 c di si (l6 x) (l6 y))) 4096 x /\ six 4 (mem (ex6 c di si (l6 x) (l6 y))) 8192 y.
Proof.
  intros Hx Hy. pose proof (rep6_W _ _ _ Hx) as Rx. pose proof (rep6_W _ _ _ Hy) as Ry. split.
  - sx 4096 0%nat (l6 x) x (ex6_x c di si (l6 x) (l6 y) Rx).
  - sx 8192 0%nat (l6 y) y (ex6_y c di si (l6 x) (l6 y) ltac:(cbn; lia) ltac:(cbn; lia) Ry).
Qed.
Lemma ex12_x c di si x ly v : rep12 c x v -> twelve (mem (ex6 c di si (l12 x) ly)) 4096 x.
Proof.
  intros Hx. pose proof (rep12_W _ _ _ Hx) as Rx. split.
  - sx 4096 0%nat (l12 x) (a2 x) (ex6_x c di si (l12 x) ly Rx).
  - sx 4096 6%nat (l12 x) (b2 x) (ex6_x c di si (l12 x) ly Rx).
Qed.
Lemma ex12_y c di si x y v : rep12 c y v -> twelve (mem (ex6 c di si (l12 x) (l12 y))) 8192 y.
Proof.
  intros Hx. pose proof (rep12_W _ _ _ Hx) as Rx. split.
  - sx 8192 0%nat (l12 y) (a2 y) (ex6_y c di si (l12 x) (l12 y) ltac:(cbn; lia) ltac:(cbn; lia) Rx).
  - sx 8192 6%nat (l12 y) (b2 y) (ex6_y c di si (l12 x) (l12 y) ltac:(cbn; lia) ltac:(cbn; lia) Rx).
Qed.
Lemma ex12_u c di si x u w : rep6 c u w -> six 4 (mem (ex6 c di si (l12 x) (l6 u))) 8192 u.
Proof.
  intros Hx. pose proof (rep6_W _ _ _ Hx) as Rx. sx 8192 0%nat (l6 u) u (ex6_y c di si (l12 x) (l6 u) ltac:(cbn; lia) ltac:(cbn; lia) Rx).
Qed.
Section Some.
  Variables (c : cfg) (il mx : bool).
  Local Notation lb := (lib il mx (snark c) ex_T (cpp c) ex_NT).
  Lemma len_ok : Z.of_nat (length (make_Fp6_add il mx (snark c) ex_T (cpp c) ex_NT)) <= 1000000 /\ Z.of_nat (length (make_Fp6_sub il mx (snark c) ex_T (cpp c) ex_NT)) <= 1000000 /\
    Z.of_nat (length (make_Fp6_mul il mx (snark c) ex_T (cpp c) ex_NT)) <= 1000000 /\ Z.of_nat (length (make_Fp6Dbl_mul il mx (snark c) ex_T (cpp c) ex_NT)) <= 1000000 /\
    Z.of_nat (length (make_Fp12_mul il mx (snark c) ex_T (cpp c) ex_NT)) <= 1000000 /\ Z.of_nat (length (make_Fp12_square il mx (snark c) ex_T (cpp c) ex_NT)) <= 1000000 /\
    Z.of_nat (length (make_Fp12Dbl_mul_Fp2_024 il mx (snark c) ex_T (cpp c) ex_NT)) <= 1000000.
  Proof.
    assert (LB : Z.of_nat (length lb) <= 100000) by (apply Z.leb_le; destruct il, mx, (snark c); vm_compute; reflexivity).
    unfold make_Fp6_add, make_Fp6_sub, make_Fp6_mul, make_Fp6Dbl_mul, make_Fp12_mul, make_Fp12_square, make_Fp12Dbl_mul_Fp2_024. rewrite !app_length, !Nat2Z.inj_add.
    assert (H : forall cd : code, Z.of_nat (length cd) <=? 100000 = true -> Z.of_nat (length cd) + Z.of_nat (length lb) <= 1000000) by (intros cd E; apply Z.leb_le in E; lia).
    split; [apply H; vm_compute; reflexivity|]. split; [apply H; vm_compute; reflexivity|]. split; [apply H; vm_compute; reflexivity|]. split; [apply H; vm_compute; reflexivity|].
    split; [apply H; destruct il; vm_compute; reflexivity|]. split; [apply H; destruct il, mx, (snark c); vm_compute; reflexivity|]. apply H; vm_compute; reflexivity.
  Qed.
  Lemma ex6_some : exists x y v w, rep6 c x v /\ rep6 c y w /\ v <> rz /\ v <> ro /\ w <> v /\
    let s := ex6 c 12288 4096 (l6 x) (l6 y) in
    six 4 (mem s) (rsi (rg s)) x /\ six 4 (mem s) (rdx (rg s)) y /\ aliased 24 s /\ apart (rdi (rg s)) 48 (rsi (rg s)) 24 /\ apart (rdi (rg s)) 48 (rdx (rg s)) 24 /\
    call2 (make_Fp6_add il mx (snark c) ex_T (cpp c) ex_NT) 4 24 24 s /\ call2 (make_Fp6_sub il mx (snark c) ex_T (cpp c) ex_NT) 4 24 24 s /\ consts c 4 s ex_T ex_NT ex_HF (rdi (rg s)) 24 /\
    call2 (make_Fp6_mul il mx (snark c) ex_T (cpp c) ex_NT) 137 24 24 s /\ consts c 137 s ex_T ex_NT ex_HF (rdi (rg s)) 24 /\
    call2 (make_Fp6Dbl_mul il mx (snark c) ex_T (cpp c) ex_NT) 88 48 24 s /\ consts c 88 s ex_T ex_NT ex_HF (rdi (rg s)) 48.
  Proof.
    destruct (rep6_ex c) as (x & y & v & w & H1 & H2 & H3 & H4 & H5). exists x, y, v, w.
    split; [exact H1|]. split; [exact H2|]. split; [exact H3|]. split; [exact H4|]. split; [exact H5|]. intros s.
    destruct (ex6_six c 12288 4096 x y v w H1 H2) as [S1 S2]. fold s in S1, S2. destruct len_ok as (N1 & N2 & N3 & N4 & _).
    assert (D : 12288 = 4096 \/ 12288 = 12288) by (right; reflexivity). assert (D2 : 4096 = 4096 \/ 4096 = 8192) by (left; reflexivity).
    assert (L1 : (length (l6 x) <= 12)%nat) by (cbn; lia). assert (L2 : (length (l6 y) <= 12)%nat) by (cbn; lia).
    split; [exact S1|]. split; [exact S2|].
    split; [split; right; unfold apart; cbn; lia|]. split; [unfold apart; cbn; lia|]. split; [unfold apart; cbn; lia|].
    split; [apply ex6_call2; solve [assumption|lia]|]. split; [apply ex6_call2; solve [assumption|lia]|]. split; [apply ex6_consts; solve [assumption|lia]|].
    split; [apply ex6_call2; solve [assumption|lia]|]. split; [apply ex6_consts; solve [assumption|lia]|]. split; [apply ex6_call2; solve [assumption|lia]|]. apply ex6_consts; solve [assumption|lia].
  Qed.
  Lemma ex12_hyps x y v w : rep12 c x v -> rep12 c y w -> let s := ex6 c 12288 4096 (l12 x) (l12 y) in
    twelve (mem s) (rsi (rg s)) x /\ twelve (mem s) (rdx (rg s)) y /\ aliased 48 s /\
    call2 (make_Fp12_mul il mx (snark c) ex_T (cpp c) ex_NT) 379 48 48 s /\ consts c 379 s ex_T ex_NT ex_HF (rdi (rg s)) 48.
  Proof.
    intros H1 H2 s. destruct len_ok as (_ & _ & _ & _ & N5 & _).
    assert (D : 12288 = 4096 \/ 12288 = 12288) by (right; reflexivity). assert (D2 : 4096 = 4096 \/ 4096 = 8192) by (left; reflexivity).
    assert (L1 : (length (l12 x) <= 12)%nat) by (cbn; lia). assert (L2 : (length (l12 y) <= 12)%nat) by (cbn; lia).
    split; [exact (ex12_x c 12288 4096 x (l12 y) v H1)|]. split; [exact (ex12_y c 12288 4096 x y w H2)|].
    split; [split; right; unfold apart; cbn; lia|]. split; [apply ex6_call2; solve [assumption|lia]|]. apply ex6_consts; solve [assumption|lia].
  Qed.
  Lemma ex12_some : exists x y v w, rep12 c x v /\ rep12 c y w /\ v <> rz /\ v <> ro /\ w <> v /\
    let s := ex6 c 12288 4096 (l12 x) (l12 y) in
    twelve (mem s) (rsi (rg s)) x /\ twelve (mem s) (rdx (rg s)) y /\ aliased 48 s /\
    call2 (make_Fp12_mul il mx (snark c) ex_T (cpp c) ex_NT) 379 48 48 s /\ consts c 379 s ex_T ex_NT ex_HF (rdi (rg s)) 48.
  Proof.
    destruct (rep12_ex c) as (x & y & v & w & H1 & H2 & H3 & H4 & H5). exists x, y, v, w.
    split; [exact H1|]. split; [exact H2|]. split; [exact H3|]. split; [exact H4|]. split; [exact H5|]. exact (ex12_hyps x y v w H1 H2).
  Qed.
  Lemma ex12_inplace_hyps x u v w : rep12 c x v -> rep6 c u w ->
    let s := ex6 c 4096 8192 (l12 x) (l6 u) in
    twelve (mem s) (rdi (rg s)) x /\ six 4 (mem s) (rsi (rg s)) u /\ apart (rdi (rg s)) 48 (rsi (rg s)) 24 /\
    call1 (make_Fp12Dbl_mul_Fp2_024 il mx (snark c) ex_T (cpp c) ex_NT) 151 48 24 s /\ consts c 151 s ex_T ex_NT ex_HF (rdi (rg s)) 48 /\
    called (make_Fp12_square il mx (snark c) ex_T (cpp c) ex_NT) s /\ stack 186 s /\ place 186 s (rdi (rg s)) 48 /\ mapped (mem s) (rdi (rg s)) 48 /\ consts c 186 s ex_T ex_NT ex_HF (rdi (rg s)) 48.
  Proof.
    intros H1 H5 s.
    destruct len_ok as (_ & _ & _ & _ & _ & N6 & N7).
    assert (D : 4096 = 4096 \/ 4096 = 12288) by (left; reflexivity). assert (D2 : 8192 = 4096 \/ 8192 = 8192) by (right; reflexivity).
    assert (L1 : (length (l12 x) <= 12)%nat) by (cbn; lia). assert (L2 : (length (l6 u) <= 12)%nat) by (cbn; lia).
    split; [exact (ex12_x c 4096 8192 x (l6 u) v H1)|]. split; [exact (ex12_u c 4096 8192 x u w H5)|]. split; [unfold apart; cbn; lia|].
    split; [apply ex6_call1; solve [assumption|lia]|]. split; [apply ex6_consts; solve [assumption|lia]|].
    split; [apply ex6_called; solve [assumption|lia]|]. split; [apply ex6_stack; lia|]. split; [apply ex6_place; cbn; lia|]. split; [apply ex6_mapped; solve [assumption|lia]|]. apply ex6_consts; solve [assumption|lia].
  Qed.
  Lemma ex12_inplace : exists x u v w, rep12 c x v /\ rep6 c u w /\ v <> rz /\ v <> ro /\ w <> rz /\ w <> ro /\ in12sq c x /\
    let s := ex6 c 4096 8192 (l12 x) (l6 u) in
    twelve (mem s) (rdi (rg s)) x /\ six 4 (mem s) (rsi (rg s)) u /\ apart (rdi (rg s)) 48 (rsi (rg s)) 24 /\
    call1 (make_Fp12Dbl_mul_Fp2_024 il mx (snark c) ex_T (cpp c) ex_NT) 151 48 24 s /\ consts c 151 s ex_T ex_NT ex_HF (rdi (rg s)) 48 /\
    called (make_Fp12_square il mx (snark c) ex_T (cpp c) ex_NT) s /\ stack 186 s /\ place 186 s (rdi (rg s)) 48 /\ mapped (mem s) (rdi (rg s)) 48 /\ consts c 186 s ex_T ex_NT ex_HF (rdi (rg s)) 48.
  Proof.
    destruct (in12_ex c) as (x & v & H1 & H3 & H4 & _ & H8). destruct (rep6_ex c) as (u & _ & w & _ & H5 & _ & H6 & H7 & _). exists x, u, v, w.
    split; [exact H1|]. split; [exact H5|]. split; [exact H3|]. split; [exact H4|]. split; [exact H6|]. split; [exact H7|]. split; [exact H8|]. exact (ex12_inplace_hyps x u v w H1 H5).
  Qed.
  (** the SNARK curves: a call whose result is wrong *)
  Lemma Fp12_mul_wrong_end : snark c = true -> exists s x y v w, call2 (make_Fp12_mul il mx (snark c) ex_T (cpp c) ex_NT) 379 48 48 s /\ aliased 48 s /\ consts c 379 s ex_T ex_NT ex_HF (rdi (rg s)) 48 /\
    twelve (mem s) (rsi (rg s)) x /\ twelve (mem s) (rdx (rg s)) y /\ rep12 c x v /\ rep12 c y w /\
    calls (make_Fp12_mul il mx (snark c) ex_T (cpp c) ex_NT) s (leaves12 379 (fun z => fv c (a2 (a3 (a2 z))) <> a2 (a3 (a2 (rmul v w)))) s).
  Proof.
    intros HS. destruct (f12_mul_wrong c HS) as (x & y & v & w & H1 & H2 & H3). exists (ex6 c 12288 4096 (l12 x) (l12 y)), x, y, v, w.
    destruct (ex12_hyps x y v w H1 H2) as (A1 & A2 & A3 & A4 & A5). 
    split; [exact A4|]. split; [exact A3|]. split; [exact A5|]. split; [exact A1|]. split; [exact A2|]. split; [exact H1|]. split; [exact H2|].
    exact (leaves12_mono _ _ 379 _ _ (Fp12_mul_api c il mx ex_T ex_NT ex_HF _ x y A4 A3 A5 A1 A2) H3).
  Qed.
End Some.
