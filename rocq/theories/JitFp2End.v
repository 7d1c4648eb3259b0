(** The generated functions on Fp2: what a call computes, in the field; an example of a call. *)
From Coq Require Import ZArith List Bool Lia.
From Verif Require Import X64 XLog JitSpec JitFpSpec XTac XReg JitFp JitMac JitMac2 JitFpApi JitFpEnd JitFp2 JitFp2Spec JitFp2Api2.
From Verif Require Import Base Prim Primes FpSpec Cfg FpM FpProofs TowerSpec TowerField TowerM Fp2Proofs Fp6Proofs TowerApi.
Import ListNotations.
Local Open Scope Z_scope.
Local Notation find := X64.find.
Local Notation length := List.length.

Section E.
  Variables (c : cfg) (il mx : bool) (T : Z) (s : state) (x y : F2 Z) (v w : K2 c).
  Notation g := (rg s).
  Lemma leaves_mono C k wd (r : F2 Z) (R : F2 Z -> Prop) : calls C s (fun s' => pair wd (mem s') (rdi g) r /\ only k (rdi g) (2 * wd) s s') -> R r ->
    calls C s (leaves k wd R s).
  Proof. intros H HR. eapply calls_mono; [exact H|]. intros s' [P O]. split; [exists r; split; [exact P|exact HR]|exact O]. Qed.
  Lemma Fp2_mul_end : call2 (make_Fp2_mul il mx T (cpp c)) 40 8 8 s -> table c 40 s T -> apart (rdi g) 8 T 4 ->
    pair 4 (mem s) (rsi g) x -> pair 4 (mem s) (rdx g) y -> rep2 c x v -> rep2 c y w ->
    calls (make_Fp2_mul il mx T (cpp c)) s (leaves 40 4 (fun z => rep2 c z (rmul v w)) s).
  Proof. intros H1 H2 H3 H4 H5 H6 H7. exact (leaves_mono _ 40 4 _ _ (Fp2_mul_api c il mx T s x y H1 H2 H3 H4 H5) (f2_mul_rep c x y v w H6 H7)). Qed.
  Lemma Fp2_square_end : call1 (make_Fp2_square il mx (snark c) T (cpp c)) 28 8 8 s -> table c 28 s T -> apart (rdi g) 8 T 4 -> same_or_apart (rdi g) (rsi g) 8 ->
    pair 4 (mem s) (rsi g) x -> rep2 c x v ->
    calls (make_Fp2_square il mx (snark c) T (cpp c)) s (leaves 28 4 (fun z => rep2 c z (rmul v v)) s).
  Proof. intros H1 H2 H3 H4 H5 H6. exact (leaves_mono _ 28 4 _ _ (Fp2_square_api c il mx T s x H1 H2 H3 H4 H5) (f2_square_rep c x v H6)). Qed.
  Lemma Fp2_mul_Fp_0_end b (u : FpR (cp c)) : call2 (make_Fp2_mul_Fp_0 mx T (cpp c)) 7 8 8 s -> table c 7 s T -> apart (rdi g) 8 T 4 -> same_or_apart (rdi g) (rsi g) 8 -> apart (rdi g) 8 (rdx g) 4 ->
    pair 4 (mem s) (rsi g) x -> int_at (mem s) (rdx g) 4 b -> rep2 c x v -> rep1 c b u ->
    calls (make_Fp2_mul_Fp_0 mx T (cpp c)) s (leaves 7 4 (fun z => rep2 c z (rmul v (mk2 u rz : K2 c))) s).
  Proof. intros H1 H2 H3 H4 H5 H6 H7 H8 H9. exact (leaves_mono _ 7 4 _ _ (Fp2_mul_Fp_0_api c mx T s x b H1 H2 H3 H4 H5 H6 H7) (f2_mul_Fp_0_rep c x b v u H8 H9)). Qed.
  Lemma Fp2_divBy2_end HF : call1 (make_Fp2_divBy2 T HF) 4 8 8 s -> half_table c (mem s) HF -> place 4 s HF 8 -> 0 <= T < B -> apart (rdi g) 8 HF 8 -> same_or_apart (rdi g) (rsi g) 8 ->
    pair 4 (mem s) (rsi g) x -> rep2 c x v ->
    calls (make_Fp2_divBy2 T HF) s (leaves 4 4 (fun z => exists h, rep2 c z h /\ radd h h = v) s).
  Proof. intros H1 H2 H3 H4 H5 H6 H7 H8. exact (leaves_mono _ 4 4 _ _ (Fp2_divBy2_api c T s x HF H1 H2 H3 H4 H5 H6 H7) (f2_divBy2_rep c x v H8)). Qed.
  Lemma mul_xi_alias_or : rep2 c x v -> call1 (make_Fp2_mul_xi il mx (snark c) T) 3 8 8 s -> p_table c (mem s) T -> place 3 s (T - 32) 40 -> apart (rdi g) 8 (T - 32) 40 -> same_or_apart (rdi g) (rsi g) 8 ->
    pair 4 (mem s) (rsi g) x ->
    calls (make_Fp2_mul_xi il mx (snark c) T) s (fun s' => pair 4 (mem s') (rdi g) (if rdi g =? rsi g then f2_mul_xi_alias c x else f2_mul_xi c x) /\ only 3 (rdi g) (2 * 4) s s').
  Proof. intros [[H0 _] [H0' _]] H1 H2 H3 H4 H5 H6. exact (Fp2_mul_xi_api c il mx T s x H1 H2 H3 H4 H5 H6 H0 H0'). Qed.
  Lemma Fp2_mul_xi_end : call1 (make_Fp2_mul_xi il mx (snark c) T) 3 8 8 s -> p_table c (mem s) T -> place 3 s (T - 32) 40 -> apart (rdi g) 8 (T - 32) 40 -> apart (rdi g) 8 (rsi g) 8 ->
    pair 4 (mem s) (rsi g) x -> rep2 c x v ->
    calls (make_Fp2_mul_xi il mx (snark c) T) s (leaves 3 4 (fun z => rep2 c z (rmul (xi c) v)) s).
  Proof.
    intros H1 H2 H3 H4 H5 H6 H7. pose proof (mul_xi_alias_or H7 H1 H2 H3 H4 (or_intror H5) H6) as H.
    replace (rdi g =? rsi g) with false in H by (unfold apart in H5; change (8 * Z.of_nat 8) with 64 in H5; clear -H5; lia).
    exact (leaves_mono _ 3 4 _ _ H (f2_mul_xi_rep c x v H7)).
  Qed.
  Lemma d2_mulOpt_rep mode1 : rep2 c x v -> rep2 c y w -> drep2 c (d2_mulOpt c mode1 x y) (rmul v w).
  Proof.
    intros H1 H2. destruct mode1; [|exact (d2_mulOpt2_rep c x y v w H1 H2)].
    exact (tpart_rep c x y v w _ H1 H2 (tpart_ok c x y (rep2_can c x v H1) (rep2_can c y w H2))).
  Qed.
  Lemma Fp2Dbl_mulOpt_end NT mode1 : call2 (make_Fp2Dbl_mulOpt il mx T NT mode1) 23 16 8 s -> table c 23 s T -> n_table c (mem s) NT -> place 23 s NT 8 ->
    apart (rdi g) 16 T 4 -> apart (rdi g) 16 NT 8 -> apart (rdi g) 16 (rsi g) 8 -> apart (rdi g) 16 (rdx g) 8 ->
    pair 4 (mem s) (rsi g) x -> pair 4 (mem s) (rdx g) y -> rep2 c x v -> rep2 c y w ->
    calls (make_Fp2Dbl_mulOpt il mx T NT mode1) s (leaves 23 8 (fun z => drep2 c z (rmul v w)) s).
  Proof.
    intros H1 H2 H3 H4 H5 H6 H7 H8 H9 H10 H11 H12.
    exact (leaves_mono _ 23 8 _ _ (Fp2Dbl_mulOpt_api c il mx T s x y NT mode1 H1 H2 H3 H4 H5 H6 H7 H8 H9 H10) (d2_mulOpt_rep mode1 H11 H12)).
  Qed.
  Lemma Fp2Dbl_square_end : call1 (make_Fp2Dbl_square il mx T) 14 16 8 s -> table c 14 s T -> apart (rdi g) 16 T 4 -> apart (rdi g) 16 (rsi g) 8 -> pair 4 (mem s) (rsi g) x -> rep2 c x v ->
    calls (make_Fp2Dbl_square il mx T) s (leaves 14 8 (fun z => drep2 c z (rmul v v)) s).
  Proof. intros H1 H2 H3 H4 H5 H6. exact (leaves_mono _ 14 8 _ _ (Fp2Dbl_square_api c il mx T s x H1 H2 H3 H4 H5) (d2_square_rep c x v H6)). Qed.
  Lemma Fp2Dbl_mul_xi_end : call1 (make_Fp2Dbl_mul_xi il (snark c) T) 4 16 16 s -> table c 4 s T -> apart (rdi g) 16 T 4 -> apart (rdi g) 16 (rsi g) 16 -> pair 8 (mem s) (rsi g) x -> drep2 c x v ->
    calls (make_Fp2Dbl_mul_xi il (snark c) T) s (leaves 4 8 (fun z => drep2 c z (rmul (xi c) v)) s).
  Proof. intros H1 H2 H3 H4 H5 H6. exact (leaves_mono _ 4 8 _ _ (Fp2Dbl_mul_xi_api c il T s x H1 H2 H3 H4 H5) (d2_mul_xi_rep c x v H6)). Qed.
  Lemma Fp2Dbl_mod_end : call1 (make_Fp2Dbl_mod mx T (cpp c)) 7 8 16 s -> table c 7 s T -> apart (rdi g) 8 T 4 -> apart (rdi g) 8 (rsi g) 16 \/ rdi g = rsi g -> pair 8 (mem s) (rsi g) x -> drep2 c x v ->
    calls (make_Fp2Dbl_mod mx T (cpp c)) s (leaves 7 4 (fun z => rep2 c z v) s).
  Proof. intros H1 H2 H3 H4 H5 H6. exact (leaves_mono _ 7 4 _ _ (Fp2Dbl_mod_api c mx T s x H1 H2 H3 H4 H5) (d2_mod_rep c x v H6)). Qed.
End E.

(** ** Memory made of integers at given places *)
Definition seg (b n v : Z) (m : memory) : memory := fun a => if (b <=? a) && (a <? b + 8 * n) then Some (digit v ((a - b) / 8)) else m a.
Definition base_mem : memory := fun a => if (a mod 8 =? 0) && (0 <=? a) && (a <? 65536) then Some (if a =? 32000 then 1000000 else 0) else None.
Lemma seg_in b (n : nat) v m : 0 <= v < B ^ Z.of_nat n -> int_at (seg b (Z.of_nat n) v m) b n v.
Proof.
  intros Hv. apply int_at_digits; [exact Hv|]. intros i Hi. unfold seg. replace ((b <=? b + 8 * i) && (b + 8 * i <? b + 8 * Z.of_nat n)) with true by lia.
  f_equal. f_equal. replace (b + 8 * i - b) with (i * 8) by lia. apply Z.div_mul. discriminate.
Qed.
Lemma int_at_ext m m' a n v : (forall b, a <= b < a + 8 * Z.of_nat n -> m' b = m b) -> int_at m a n v -> int_at m' a n v.
Proof.
  intros H (l & <- & U & Hw & E). exists l. split; [reflexivity|]. split; [exact U|]. split; [|exact E]. clear U E. revert a H Hw.
  induction l as [|x l IH]; intros a H Hw; cbn [words length] in *; [exact I|]. destruct Hw as [W1 W2]. split; [rewrite H by lia; exact W1|].
  apply IH; [intros b Hb; apply H; lia|exact W2].
Qed.
Lemma seg_out b n v m a k x : a + 8 * Z.of_nat k <= b \/ b + 8 * n <= a -> int_at m a k x -> int_at (seg b n v m) a k x.
Proof. intros H. apply int_at_ext. intros q Hq. unfold seg. replace ((b <=? q) && (q <? b + 8 * n)) with false by lia. reflexivity. Qed.
Lemma seg_mapped b n v m : (forall a, 0 <= a < 65536 -> a mod 8 = 0 -> exists u, m a = Some u) -> forall a, 0 <= a < 65536 -> a mod 8 = 0 -> exists u, seg b n v m a = Some u.
Proof. intros H a Ha Ea. unfold seg. destruct (_ && _); [eexists; reflexivity|exact (H a Ha Ea)]. Qed.
Lemma all_mapped m (n : nat) : (forall a, 0 <= a < 65536 -> a mod 8 = 0 -> exists u, m a = Some u) -> forall a, 0 <= a -> a + 8 * Z.of_nat n <= 65536 -> a mod 8 = 0 -> mapped m a n.
Proof.
  intros H. induction n as [|n IH]; intros a H1 H2 H3; cbn [mapped]; [exact I|]. split; [apply H; [lia|exact H3]|].
  apply IH; [lia|lia|]. rewrite <- Z.add_mod_idemp_l, H3 by discriminate. reflexivity.
Qed.
(** the state: [x] (words of [w]) at 4096, [y] at 8192, the multiples of p at 16352, p W / 4 at 20480, 1/2 at 24576 *)
Definition ex_tab (c : cfg) : memory :=
  fold_right (fun i m => seg (16352 + 32 * i) 4 ((i * cp c) mod W) m) base_mem [0; 1; 2; 3; 4; 5; 6; 7; 8; 9].
Definition ex_mem (c : cfg) (w : Z) (x y : F2 Z) : memory :=
  seg 4096 w (a2 x) (seg (4096 + 8 * w) w (b2 x) (seg 8192 4 (a2 y) (seg 8224 4 (b2 y)
    (seg 20480 8 (cp c * W / 4) (seg 24576 4 0 (seg 24608 4 ((cp c + 1) / 2) (ex_tab c))))))).
Definition ex2 (c : cfg) (o w : Z) (x y : F2 Z) : state :=
  mkSt (mkR 7 7 5 8192 4096 o 7 32000 7 7 7 7 7 7 7 7) (mkX 0 0 0 0 0 0) noF (ex_mem c w x y).
Definition ex_NT : Z := 20480.
Definition ex_HF : Z := 24576.
Section Ex.
  Variables (c : cfg) (o : Z) (w : nat) (x y : F2 Z).
  Hypothesis Ho : o = 4096 \/ o = 12288.
  Hypothesis Hw : (w = 4 \/ w = 8)%nat.
  Notation s := (ex2 c o (Z.of_nat w) x y).
  Lemma ex_mem_all a : 0 <= a < 65536 -> a mod 8 = 0 -> exists u, ex_mem c (Z.of_nat w) x y a = Some u.
  Proof.
    revert a. unfold ex_mem, ex_tab. cbn [fold_right]. do 17 apply seg_mapped. intros a Ha Ea. unfold base_mem. rewrite Ea, Z.eqb_refl.
    replace (0 <=? a) with true by lia. replace (a <? 65536) with true by lia. eexists. reflexivity.
  Qed.
  Lemma ex2_called C : Z.of_nat (length C) <= 1000000 -> called C s.
  Proof.
    intros H. split; [exists 1000000; split; [|apply fetch_long; exact H]|].
    - cbn [mem rg rsp ex2]. unfold ex_mem, ex_tab. destruct Hw as [-> | ->]; reflexivity.
    - unfold area. cbn [rg rsp ex2]. rewrite B_val. lia.
  Qed.
  Lemma ex2_place k a n : (k <= 100)%nat -> 0 <= a -> a + 8 * Z.of_nat n <= 30000 -> place k s a n.
  Proof. intros H H1 H2. unfold place, area, apart. cbn [rg rsp ex2]. rewrite B_val. lia. Qed.
  Lemma ex2_stack k : (k <= 100)%nat -> stack k s.
  Proof.
    intros H. unfold stack. cbn [rg rsp ex2 mem]. split; [lia|]. apply all_mapped; [exact ex_mem_all|lia|lia|].
    replace (32000 - 8 * Z.of_nat k) with (0 + (4000 - Z.of_nat k) * 8) by lia. rewrite Z.mod_add by discriminate. reflexivity.
  Qed.
  Lemma ex2_call2 C k no n : Z.of_nat (length C) <= 1000000 -> (k <= 100)%nat -> (no <= 100)%nat -> (n <= 100)%nat -> call2 C k no n s.
  Proof.
    intros H1 H2 H3 H4. split; [exact (ex2_called _ H1)|]. split; [exact (ex2_stack _ H2)|].
    split; [apply ex2_place; cbn [rg rdi ex2]; lia|]. split; [apply ex2_place; cbn [rg rsi ex2]; lia|]. split; [apply ex2_place; cbn [rg rdx ex2]; lia|].
    cbn [rg rdi ex2 mem]. destruct Ho as [-> | ->]; (apply all_mapped; [exact ex_mem_all|lia|lia|reflexivity]).
  Qed.
  Lemma ex2_call1 C k no n : Z.of_nat (length C) <= 1000000 -> (k <= 100)%nat -> (no <= 100)%nat -> (n <= 100)%nat -> call1 C k no n s.
  Proof. intros H1 H2 H3 H4. destruct (ex2_call2 C k no n H1 H2 H3 H4) as (A & A2 & A3 & A4 & A5 & A6). unfold call1. tauto. Qed.
  Lemma ex2_x : 0 <= a2 x < B ^ Z.of_nat w -> 0 <= b2 x < B ^ Z.of_nat w -> pair w (mem s) (rsi (rg s)) x.
  Proof.
    intros H1 H2. cbn [mem rg rsi ex2]. unfold ex_mem. split; [apply seg_in; exact H1|]. apply seg_out; [lia|]. apply seg_in; exact H2.
  Qed.
  Lemma ex2_y : 0 <= a2 y < W -> 0 <= b2 y < W -> pair 4 (mem s) (rdx (rg s)) y.
  Proof.
    rewrite <- B4. intros H1 H2. cbn [mem rg rdx ex2]. unfold ex_mem. 
    split; (do 2 (apply seg_out; [lia|])); [apply (seg_in 8192 4); exact H1|]. apply seg_out; [lia|]. apply (seg_in 8224 4). exact H2.
  Qed.
  Lemma ex2_ptab : p_table c (mem s) ex_T.
  Proof.
    intros i Hi. cbn [mem ex2]. unfold ex_mem, ex_T. do 7 (apply seg_out; [lia|]). unfold ex_tab. cbn [fold_right].
    replace (16384 - 32 + 32 * i) with (16352 + 32 * i) by lia.
    assert (D : i = 0 \/ i = 1 \/ i = 2 \/ i = 3 \/ i = 4 \/ i = 5 \/ i = 6 \/ i = 7 \/ i = 8 \/ i = 9) by lia.
    repeat destruct D as [-> | D]; try subst i; repeat (apply seg_out; [lia|]); apply (seg_in _ 4); rewrite B4; apply Z.mod_pos_bound; apply W_pos.
  Qed.
  Lemma ex2_table k : (k <= 100)%nat -> table c k s ex_T.
  Proof.
    intros H. split; [|apply ex2_place; unfold ex_T; lia]. pose proof (ex2_ptab 1 ltac:(lia)) as P.
    rewrite Z.mul_1_l, Z.mod_small in P by (pose proof (cp_lt_W c); pose proof (cp_pos c); lia). exact P.
  Qed.
  Lemma ex2_ntab : n_table c (mem s) ex_NT.
  Proof.
    unfold n_table, ex_NT. cbn [mem ex2]. unfold ex_mem. do 4 (apply seg_out; [lia|]). apply (seg_in _ 8).
    replace (B ^ Z.of_nat 8) with (W * W) by (rewrite W_val, B_val; reflexivity). pose proof (cp_lt_W c). pose proof (cp_pos c). pose proof W_pos.
    split; [apply Z.div_pos; nia|apply Z.div_lt_upper_bound; nia].
  Qed.
  Lemma ex2_htab : half_table c (mem s) ex_HF.
  Proof.
    unfold half_table, ex_HF. cbn [mem ex2]. unfold ex_mem. pose proof (cp_lt_W c). pose proof (cp_pos c).
    split; (do 5 (apply seg_out; [lia|])); [apply (seg_in _ 4); rewrite B4; lia|]. apply seg_out; [lia|]. apply (seg_in _ 4); rewrite B4.
    split; [apply Z.div_pos; lia|apply Z.div_lt_upper_bound; lia].
  Qed.
End Ex.
(** every hypothesis, for any operands *)
Lemma ex2_all c il mx x y v w : rep2 c x v -> rep2 c y w ->
  let s := ex2 c 12288 4 x y in
  pair 4 (mem s) (rsi (rg s)) x /\ pair 4 (mem s) (rdx (rg s)) y /\ int_at (mem s) (rdx (rg s)) 4 (a2 y) /\ rep1 c (a2 y) (a2 w) /\
  table c 40 s ex_T /\ table c 28 s ex_T /\ table c 23 s ex_T /\ table c 14 s ex_T /\ table c 7 s ex_T /\
  p_table c (mem s) ex_T /\ place 3 s (ex_T - 32) 40 /\ n_table c (mem s) ex_NT /\ place 23 s ex_NT 8 /\ half_table c (mem s) ex_HF /\ place 4 s ex_HF 8 /\
  call2 (make_Fp2_mul il mx ex_T (cpp c)) 40 8 8 s /\ call1 (make_Fp2_square il mx (snark c) ex_T (cpp c)) 28 8 8 s /\
  call2 (make_Fp2_mul_Fp_0 mx ex_T (cpp c)) 7 8 8 s /\ call1 (make_Fp2_divBy2 ex_T ex_HF) 4 8 8 s /\ call1 (make_Fp2_mul_xi il mx (snark c) ex_T) 3 8 8 s /\
  (forall mode1, call2 (make_Fp2Dbl_mulOpt il mx ex_T ex_NT mode1) 23 16 8 s) /\ call1 (make_Fp2Dbl_square il mx ex_T) 14 16 8 s /\
  apart 12288 16 ex_T 4 /\ apart 12288 16 (ex_T - 32) 40 /\ apart 12288 16 ex_NT 8 /\ apart 12288 16 ex_HF 8 /\ apart 12288 16 4096 8 /\ apart 12288 16 8192 8 /\ rdi (rg s) = 12288 /\ rsi (rg s) = 4096 /\ rdx (rg s) = 8192.
Proof.
  intros Hx Hy s. destruct Hx as [[Xa Xe] [Xb Xf]]. destruct Hy as [[Ya Ye] [Yb Yf]]. unfold can in *. pose proof (cp_lt_W c) as PW. pose proof (cp_pos c) as PP.
  assert (Ho : 12288 = 4096 \/ 12288 = 12288) by (right; reflexivity). assert (Hw : (4 = 4 \/ 4 = 8)%nat) by (left; reflexivity).
  assert (PY : pair 4 (mem s) (rdx (rg s)) y) by (apply (ex2_y c 12288 4 x y Hw); lia).
  assert (TT : forall k, (k <= 100)%nat -> table c k s ex_T) by exact (ex2_table c 12288 4 x y Hw).
  pose proof (ex2_call2 c 12288 4 x y Ho Hw) as C2. pose proof (ex2_call1 c 12288 4 x y Ho Hw) as C1. pose proof (ex2_place c 12288 4 x y) as PL. change (Z.of_nat 4) with 4 in C1, C2, PL. fold s in C1, C2, PL.
  split; [apply (ex2_x c 12288 4 x y Hw); rewrite B4; lia|]. split; [exact PY|]. split; [exact (proj1 PY)|]. split; [split; assumption|].
  split; [apply TT; lia|]. split; [apply TT; lia|]. split; [apply TT; lia|]. split; [apply TT; lia|]. split; [apply TT; lia|].
  split; [exact (ex2_ptab c 12288 4 x y Hw)|]. split; [apply PL; unfold ex_T; lia|].
  split; [exact (ex2_ntab c 12288 4 x y Hw)|]. split; [apply PL; unfold ex_NT; lia|].
  split; [exact (ex2_htab c 12288 4 x y Hw)|]. split; [apply PL; unfold ex_HF; lia|].
  split; [apply C2; [apply Z.leb_le; destruct il, mx; reflexivity|lia|lia|lia]|].
  split; [apply C1; [apply Z.leb_le; destruct il, mx, c; reflexivity|lia|lia|lia]|].
  split; [apply C2; [apply Z.leb_le; destruct mx; reflexivity|lia|lia|lia]|].
  split; [apply C1; [apply Z.leb_le; reflexivity|lia|lia|lia]|].
  split; [apply C1; [apply Z.leb_le; destruct il, mx, c; reflexivity|lia|lia|lia]|].
  split; [intros mode1; apply C2; [apply Z.leb_le; destruct il, mx, mode1; reflexivity|lia|lia|lia]|].
  split; [apply C1; [apply Z.leb_le; destruct il, mx; reflexivity|lia|lia|lia]|].
  unfold apart, ex_T, ex_NT, ex_HF. change (8 * Z.of_nat 16) with 128. change (8 * Z.of_nat 40) with 320. change (8 * Z.of_nat 8) with 64. change (8 * Z.of_nat 4) with 32.
  do 6 (split; [lia|]). split; [reflexivity|]. split; reflexivity.
Qed.
Lemma ex2_dall c il mx x v : drep2 c x v ->
  let s := ex2 c 12288 8 x x in
  pair 8 (mem s) (rsi (rg s)) x /\ table c 4 s ex_T /\ table c 7 s ex_T /\
  call1 (make_Fp2Dbl_mul_xi il (snark c) ex_T) 4 16 16 s /\ call1 (make_Fp2Dbl_mod mx ex_T (cpp c)) 7 8 16 s /\
  apart 12288 16 ex_T 4 /\ apart 12288 8 ex_T 4 /\ apart 12288 16 4096 16 /\ apart 12288 8 4096 16 /\ rdi (rg s) = 12288 /\ rsi (rg s) = 4096.
Proof.
  intros Hx s. destruct Hx as [[Xa Xe] [Xb Xf]]. pose proof (cp_lt_W c) as PW. pose proof (cp_pos c) as PP. pose proof W_pos.
  assert (Ho : 12288 = 4096 \/ 12288 = 12288) by (right; reflexivity). assert (Hw : (8 = 4 \/ 8 = 8)%nat) by (right; reflexivity).
  pose proof (ex2_call1 c 12288 8 x x Ho Hw) as C1. change (Z.of_nat 8) with 8 in C1. fold s in C1.
  assert (TT : forall k, (k <= 100)%nat -> table c k s ex_T) by exact (ex2_table c 12288 8 x x Hw).
  split; [apply (ex2_x c 12288 8 x x Hw); replace (B ^ Z.of_nat 8) with (W * W) by (rewrite W_val, B_val; reflexivity); nia|].
  split; [apply TT; lia|]. split; [apply TT; lia|].
  split; [apply C1; [apply Z.leb_le; destruct il, c; reflexivity|lia|lia|lia]|].
  split; [apply C1; [apply Z.leb_le; destruct mx; reflexivity|lia|lia|lia]|].
  unfold apart, ex_T. change (8 * Z.of_nat 16) with 128. change (8 * Z.of_nat 8) with 64. change (8 * Z.of_nat 4) with 32.
  do 4 (split; [lia|]). split; reflexivity.
Qed.
(** mul_xi with the output on the operand *)
Lemma mul_xi_alias_end c il mx : exists s x v, call1 (make_Fp2_mul_xi il mx (snark c) ex_T) 3 8 8 s /\ p_table c (mem s) ex_T /\ place 3 s (ex_T - 32) 40 /\ apart (rdi (rg s)) 8 (ex_T - 32) 40 /\
  rdi (rg s) = rsi (rg s) /\ pair 4 (mem s) (rsi (rg s)) x /\ rep2 c x v /\
  calls (make_Fp2_mul_xi il mx (snark c) ex_T) s (leaves 3 4 (fun z => ~ rep2 c z (rmul (xi c) v)) s).
Proof.
  destruct (mul_xi_alias_wrong c) as (x & v & Hx & Hn). exists (ex2 c 4096 4 x x), x, v.
  assert (Ho : 4096 = 4096 \/ 4096 = 12288) by (left; reflexivity). assert (Hw : (4 = 4 \/ 4 = 8)%nat) by (left; reflexivity).
  pose proof Hx as [[Xa Xe] [Xb Xf]]. unfold can in Xa, Xb. pose proof (cp_lt_W c) as PW. pose proof (cp_pos c) as PP.
  assert (H1 : call1 (make_Fp2_mul_xi il mx (snark c) ex_T) 3 8 8 (ex2 c 4096 4 x x)) by (apply (ex2_call1 c 4096 4 x x Ho Hw); [apply Z.leb_le; destruct il, mx, c; reflexivity|lia|lia|lia]).
  assert (H2 : p_table c (mem (ex2 c 4096 4 x x)) ex_T) by exact (ex2_ptab c 4096 4 x x Hw).
  assert (H3 : place 3 (ex2 c 4096 4 x x) (ex_T - 32) 40) by (apply (ex2_place c 4096 4 x x); unfold ex_T; lia).
  assert (H4 : apart (rdi (rg (ex2 c 4096 4 x x))) 8 (ex_T - 32) 40) by (unfold apart, ex_T; cbn [rg rdi ex2]; lia).
  assert (H5 : rdi (rg (ex2 c 4096 4 x x)) = rsi (rg (ex2 c 4096 4 x x))) by reflexivity.
  assert (H6 : pair 4 (mem (ex2 c 4096 4 x x)) (rsi (rg (ex2 c 4096 4 x x))) x) by (apply (ex2_x c 4096 4 x x Hw); rewrite B4; lia).
  repeat (split; [assumption|]).
  pose proof (mul_xi_alias_or c il mx ex_T _ x v Hx H1 H2 H3 H4 (or_introl H5) H6) as H. rewrite H5, Z.eqb_refl in H. rewrite <- H5 in H.
  exact (leaves_mono _ _ 3 4 _ _ H Hn).
Qed.
Lemma ex2_some : forall c il mx, exists x y v w, rep2 c x v /\ rep2 c y w /\ v <> rz /\ v <> ro /\ w <> v /\
  let s := ex2 c 12288 4 x y in
  pair 4 (mem s) (rsi (rg s)) x /\ pair 4 (mem s) (rdx (rg s)) y /\ int_at (mem s) (rdx (rg s)) 4 (a2 y) /\ rep1 c (a2 y) (a2 w) /\
  table c 40 s ex_T /\ table c 28 s ex_T /\ table c 23 s ex_T /\ table c 14 s ex_T /\ table c 7 s ex_T /\
  p_table c (mem s) ex_T /\ place 3 s (ex_T - 32) 40 /\ n_table c (mem s) ex_NT /\ place 23 s ex_NT 8 /\ half_table c (mem s) ex_HF /\ place 4 s ex_HF 8 /\
  call2 (make_Fp2_mul il mx ex_T (cpp c)) 40 8 8 s /\ call1 (make_Fp2_square il mx (snark c) ex_T (cpp c)) 28 8 8 s /\
  call2 (make_Fp2_mul_Fp_0 mx ex_T (cpp c)) 7 8 8 s /\ call1 (make_Fp2_divBy2 ex_T ex_HF) 4 8 8 s /\ call1 (make_Fp2_mul_xi il mx (snark c) ex_T) 3 8 8 s /\
  (forall mode1, call2 (make_Fp2Dbl_mulOpt il mx ex_T ex_NT mode1) 23 16 8 s) /\ call1 (make_Fp2Dbl_square il mx ex_T) 14 16 8 s /\
  apart 12288 16 ex_T 4 /\ apart 12288 16 (ex_T - 32) 40 /\ apart 12288 16 ex_NT 8 /\ apart 12288 16 ex_HF 8 /\ apart 12288 16 4096 8 /\ apart 12288 16 8192 8 /\ rdi (rg s) = 12288 /\ rsi (rg s) = 4096 /\ rdx (rg s) = 8192.
Proof.
  intros c il mx. destruct (rep2_ex c) as (x & y & v & w & H1 & H2 & H3 & H4 & H5). exists x, y, v, w.
  split; [exact H1|]. split; [exact H2|]. split; [exact H3|]. split; [exact H4|]. split; [exact H5|]. exact (ex2_all c il mx x y v w H1 H2).
Qed.
Lemma ex2_dsome : forall c il mx, exists x v, drep2 c x v /\
  let s := ex2 c 12288 8 x x in
  pair 8 (mem s) (rsi (rg s)) x /\ table c 4 s ex_T /\ table c 7 s ex_T /\
  call1 (make_Fp2Dbl_mul_xi il (snark c) ex_T) 4 16 16 s /\ call1 (make_Fp2Dbl_mod mx ex_T (cpp c)) 7 8 16 s /\
  apart 12288 16 ex_T 4 /\ apart 12288 8 ex_T 4 /\ apart 12288 16 4096 16 /\ apart 12288 8 4096 16 /\ rdi (rg s) = 12288 /\ rsi (rg s) = 4096.
Proof.
  intros c il mx. destruct (rep2_ex c) as (x & y & v & w & H1 & H2 & _).
  exists (d2_mulOpt2 c x y), (rmul v w). pose proof (d2_mulOpt2_rep c x y v w H1 H2) as D. split; [exact D|]. exact (ex2_dall c il mx _ _ D).
Qed.
