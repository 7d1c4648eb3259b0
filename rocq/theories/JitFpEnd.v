(** The generated field functions, called: results as residues; an example state. *)
From Coq Require Import ZArith List Bool Lia.
From Verif Require Import X64 XLog JitSpec JitFpSpec XTac XReg JitFp JitMac JitMac2 JitZmApi JitFrame JitRep JitFpApi JitFpApi2.
From Verif Require Import Base Prim Primes FpSpec Cfg FpM FpProofs FpWit.
Import ListNotations.
Local Open Scope Z_scope.

Section End_.
  Variables (c : cfg) (il mx : bool) (T : Z) (s : state).
  Notation g := (rg s).
  Section N.
  Variables (n : nat) (x y : Z -> Z).
  Lemma Fp_add_end : call2 (make_Fp_add il T n) 3 (4 * n) (4 * n) s -> table c 3 s T -> apart (rdi g) (4 * n) T 4 -> aliased (4 * n) s ->
    ints (mem s) (rsi g) 4 n x -> ints (mem s) (rdx g) 4 n y -> (forall i, 0 <= i < Z.of_nat n -> can c (x i) /\ can c (y i)) ->
    calls (make_Fp_add il T n) s (fun s' => result s s' 4 n (fun i z => can c z /\ fv c z = fadd (fv c (x i)) (fv c (y i))) /\ only 3 (rdi g) (4 * n) s s').
  Proof.
    intros (H1 & H2 & H3 & H4 & H5 & H6) H7 H8 [H9 H10] H11 H12 H13.
    eapply calls_mono; [exact (Fp_add_api c il T n s x y H2 H7 H3 H4 H5 H8 H9 H10 H11 H12 H6 H1)|].
    intros s' [R O]. split; [|exact O]. exists (fun i => fp_add c (x i) (y i)). split; [exact R|]. intros i Hi. destruct (H13 i Hi) as [Cx Cy]. exact (fp_add_ok c _ _ Cx Cy).
  Qed.
  Lemma Fp_sub_end : call2 (make_Fp_sub il T n) 3 (4 * n) (4 * n) s -> table c 3 s T -> apart (rdi g) (4 * n) T 4 -> aliased (4 * n) s ->
    ints (mem s) (rsi g) 4 n x -> ints (mem s) (rdx g) 4 n y -> (forall i, 0 <= i < Z.of_nat n -> can c (x i) /\ can c (y i)) ->
    calls (make_Fp_sub il T n) s (fun s' => result s s' 4 n (fun i z => can c z /\ fv c z = fsub (fv c (x i)) (fv c (y i))) /\ only 3 (rdi g) (4 * n) s s').
  Proof.
    intros (H1 & H2 & H3 & H4 & H5 & H6) H7 H8 [H9 H10] H11 H12 H13.
    eapply calls_mono; [exact (Fp_sub_api c il T n s x y H2 H7 H3 H4 H5 H8 H9 H10 H11 H12 H6 H1)|].
    intros s' [R O]. split; [|exact O]. exists (fun i => fp_sub c (x i) (y i)). split; [exact R|]. intros i Hi. destruct (H13 i Hi) as [Cx Cy]. exact (fp_sub_ok c _ _ Cx Cy).
  Qed.
  Lemma Dbl_add_end : call2 (make_FpDbl_add il T n) 3 (8 * n) (8 * n) s -> table c 3 s T -> apart (rdi g) (8 * n) T 4 -> aliased (8 * n) s ->
    ints (mem s) (rsi g) 8 n x -> ints (mem s) (rdx g) 8 n y -> (forall i, 0 <= i < Z.of_nat n -> 0 <= x i < cp c * W /\ 0 <= y i < cp c * W) ->
    calls (make_FpDbl_add il T n) s (fun s' => result s s' 8 n (fun i z => 0 <= z < cp c * W /\ dv c z = fadd (dv c (x i)) (dv c (y i))) /\ only 3 (rdi g) (8 * n) s s').
  Proof.
    intros (H1 & H2 & H3 & H4 & H5 & H6) H7 H8 [H9 H10] H11 H12 H13.
    eapply calls_mono; [exact (Dbl_add_api c il T n s x y H2 H3 H4 H5 H9 H10 H11 H12 H6 H7 H8 H1)|].
    intros s' [R O]. split; [|exact O]. exists (fun i => dbl_add c (x i) (y i)). split; [exact R|]. intros i Hi. destruct (H13 i Hi) as [Cx Cy]. exact (dbl_add_ok c _ _ Cx Cy).
  Qed.
  Lemma Dbl_sub_end : call2 (make_FpDbl_sub il T n) 3 (8 * n) (8 * n) s -> table c 3 s T -> apart (rdi g) (8 * n) T 4 -> aliased (8 * n) s ->
    ints (mem s) (rsi g) 8 n x -> ints (mem s) (rdx g) 8 n y -> (forall i, 0 <= i < Z.of_nat n -> 0 <= x i < cp c * W /\ 0 <= y i < cp c * W) ->
    calls (make_FpDbl_sub il T n) s (fun s' => result s s' 8 n (fun i z => 0 <= z < cp c * W /\ dv c z = fsub (dv c (x i)) (dv c (y i))) /\ only 3 (rdi g) (8 * n) s s').
  Proof.
    intros (H1 & H2 & H3 & H4 & H5 & H6) H7 H8 [H9 H10] H11 H12 H13.
    eapply calls_mono; [exact (Dbl_sub_api c il T n s x y H2 H3 H4 H5 H9 H10 H11 H12 H6 H7 H8 H1)|].
    intros s' [R O]. split; [|exact O]. exists (fun i => dbl_sub c (x i) (y i)). split; [exact R|]. intros i Hi. destruct (H13 i Hi) as [Cx Cy]. exact (dbl_sub_ok c _ _ Cx Cy).
  Qed.
  Lemma Dbl_subNC_end : call2 (make_FpDbl_subNC il n) 3 (8 * n) (8 * n) s -> aliased (8 * n) s ->
    ints (mem s) (rsi g) 8 n x -> ints (mem s) (rdx g) 8 n y ->
    calls (make_FpDbl_subNC il n) s (fun s' => ints (mem s') (rdi g) 8 n (fun i => (x i - y i) mod 2 ^ 512) /\ only 3 (rdi g) (8 * n) s s').
  Proof.
    intros (H1 & H2 & H3 & H4 & H5 & H6) [H9 H10] H11 H12.
    eapply calls_mono; [exact (Dbl_subNC_api c il T n s x y H2 H3 H4 H5 H9 H10 H11 H12 H6 H1)|].
    intros s' [R O]. split; [|exact O]. intros i Hi. replace (2 ^ 512) with W2 by (unfold W2; rewrite W_val; reflexivity). exact (R i Hi).
  Qed.
  Lemma Dbl_addNC_end : n = 1%nat \/ n = 2%nat -> call2 (make_FpDbl_addNC il n) 4 (8 * n) (8 * n) s -> aliased (8 * n) s ->
    ints (mem s) (rsi g) 8 n x -> ints (mem s) (rdx g) 8 n y ->
    calls (make_FpDbl_addNC il n) s (fun s' => ints (mem s') (rdi g) 8 n (fun i => (x i + y i) mod 2 ^ 512) /\ only 4 (rdi g) (8 * n) s s').
  Proof.
    intros Hn (H1 & H2 & H3 & H4 & H5 & H6) [H9 H10] H11 H12.
    eapply calls_mono; [exact (Dbl_addNC_api il n s x y Hn H2 H3 H4 H5 H9 H10 H11 H12 H6 H1)|].
    intros s' [R O]. split; [|exact O]. intros i Hi. replace (2 ^ 512) with W2 by (unfold W2; rewrite W_val; reflexivity). exact (R i Hi).
  Qed.
  Lemma Fp_addNC_end : call2 (make_Fp_addNC il n) 0 (4 * n) (4 * n) s -> aliased (4 * n) s ->
    ints (mem s) (rsi g) 4 n x -> ints (mem s) (rdx g) 4 n y ->
    calls (make_Fp_addNC il n) s (fun s' => ints (mem s') (rdi g) 4 n (fun i => (x i + y i) mod 2 ^ 256) /\ only 0 (rdi g) (4 * n) s s').
  Proof.
    intros (H1 & H2 & H3 & H4 & H5 & H6) [H9 H10] H11 H12.
    eapply calls_mono; [exact (Fp_addNC_api il 0 s n x y H3 H4 H5 H9 H10 H11 H12 H6 H1)|].
    intros s' [R O]. split; [|exact O]. intros i Hi. replace (2 ^ 256) with W by (rewrite W_val; reflexivity). exact (R i Hi).
  Qed.
  End N.
  Variables (x y : Z).
  Lemma Fp_subNC_end : call2 (make_Fp_subNC il) 0 4 4 s -> int_at (mem s) (rsi g) 4 x -> int_at (mem s) (rdx g) 4 y ->
    calls (make_Fp_subNC il) s (fun s' => int_at (mem s') (rdi g) 4 ((x - y) mod 2 ^ 256) /\ only 0 (rdi g) 4 s s').
  Proof.
    intros (H1 & H2 & H3 & H4 & H5 & H6) H9 H10.
    eapply calls_mono; [exact (Fp_subNC_api il s x y H3 H4 H5 H9 H10 H6 H1)|].
    intros s' [R O]. split; [|exact O]. replace (2 ^ 256) with W by (rewrite W_val; reflexivity). exact R.
  Qed.
  Lemma Fp_neg_end : call1 (make_Fp_neg il T) 0 4 4 s -> table c 0 s T -> int_at (mem s) (rsi g) 4 x -> can c x ->
    calls (make_Fp_neg il T) s (fun s' => (exists z, int_at (mem s') (rdi g) 4 z /\ can c z /\ fv c z = fopp (fv c x)) /\ only 0 (rdi g) 4 s s').
  Proof.
    intros (H1 & H2 & H3 & H4 & H6) H7 H9 Cx.
    eapply calls_mono; [exact (Fp_neg_api c il T s x 0 H3 H4 H7 H9 H6 H1)|].
    intros s' [R O]. split; [|exact O]. eexists. split; [exact R|]. exact (fp_neg_ok c x Cx).
  Qed.
  Lemma Fp_shr_end n : 0 < n < 64 -> call1 (make_Fp_shr n) 0 4 4 s -> int_at (mem s) (rsi g) 4 x ->
    calls (make_Fp_shr n) s (fun s' => int_at (mem s') (rdi g) 4 (x / 2 ^ n) /\ only 0 (rdi g) 4 s s').
  Proof. intros Hn (H1 & H2 & H3 & H4 & H6) H9. exact (Fp_shr_api n s x Hn H3 H4 H9 H6 H1). Qed.
  Lemma Fp_mul_end : call2 (make_Fp_mul mx T (cpp c)) 7 4 4 s -> table c 7 s T -> int_at (mem s) (rsi g) 4 x -> int_at (mem s) (rdx g) 4 y ->
    x + cp c < 2 ^ 256 -> x * y < cp c * 2 ^ 256 ->
    calls (make_Fp_mul mx T (cpp c)) s (fun s' => (exists z, int_at (mem s') (rdi g) 4 z /\ can c z /\ fv c z = fmul (fv c x) (fv c y)) /\ only 7 (rdi g) 4 s s').
  Proof.
    intros (H1 & H2 & H3 & H4 & H5 & H6) H7 H9 H10 Hx Hy. replace (2 ^ 256) with W in Hx, Hy by (rewrite W_val; reflexivity).
    eapply calls_mono; [exact (Fp_mul_api c mx T s x y H2 H7 H3 H6 H4 H5 H9 H10 H1)|].
    intros s' [R O]. split; [|exact O]. eexists. split; [exact R|]. apply fp_mul_gen; [| |exact Hx|exact Hy].
    - rewrite <- B4. exact (int_at_range _ _ _ _ H9).
    - rewrite <- B4. exact (int_at_range _ _ _ _ H10).
  Qed.
  Lemma Dbl_mod_end : call1 (make_FpDbl_mod mx T (cpp c)) 7 4 8 s -> table c 7 s T -> int_at (mem s) (rsi g) 8 x -> x < cp c * 2 ^ 256 ->
    calls (make_FpDbl_mod mx T (cpp c)) s (fun s' => (exists z, int_at (mem s') (rdi g) 4 z /\ can c z /\ fv c z = dv c x) /\ only 7 (rdi g) 4 s s').
  Proof.
    intros (H1 & H2 & H3 & H4 & H6) H7 H9 Hx. replace (2 ^ 256) with W in Hx by (rewrite W_val; reflexivity).
    eapply calls_mono; [exact (Dbl_mod_api c mx T s x 0 H2 H7 H3 H6 H4 H9 H1)|].
    intros s' [R O]. split; [|exact O]. eexists. split; [exact R|]. apply dbl_mod_ok. split; [|exact Hx]. exact (proj1 (int_at_range _ _ _ _ H9)).
  Qed.
  Lemma Dbl_mul_end : call2 (make_FpDbl_mul mx) 6 8 4 s -> apart (rdi g) 8 (rsi g) 4 -> apart (rdi g) 8 (rdx g) 4 -> int_at (mem s) (rsi g) 4 x -> int_at (mem s) (rdx g) 4 y ->
    calls (make_FpDbl_mul mx) s (fun s' => int_at (mem s') (rdi g) 8 (x * y) /\ only 6 (rdi g) 8 s s').
  Proof. intros (H1 & H2 & H3 & H4 & H5 & H6) H7 H8 H9 H10. exact (Dbl_mul_api mx s x y H2 H3 H4 H5 H7 H8 H6 H9 H10 H1). Qed.
End End_.

(** ** An example: both operands repeated four times, at 4096 and 8192; p at 16384; the stack at 32000 *)
Definition ex_x : Z := 2 ^ 252 + 5.
Definition ex_y : Z := 2 ^ 251 + 7.
Definition digit (v i : Z) : Z := (v / B ^ i) mod B.
Definition fex_mem (c : cfg) (a : Z) : option Z :=
  if negb (a mod 8 =? 0) then None
  else if a =? 32000 then Some 1000000
  else if (4096 <=? a) && (a <? 4224) then Some (digit ex_x (((a - 4096) / 8) mod 4))
  else if (8192 <=? a) && (a <? 8320) then Some (digit ex_y (((a - 8192) / 8) mod 4))
  else if (16384 <=? a) && (a <? 16416) then Some (digit (cp c) ((a - 16384) / 8))
  else if (0 <=? a) && (a <? 65536) then Some 0 else None.
Definition ex_T : Z := 16384.
(** the output at [o] *)
Definition ex_fp (c : cfg) (o : Z) : state :=
  mkSt (mkR 7 7 5 8192 4096 o 7 32000 7 7 7 7 7 7 7 7) (mkX 0 0 0 0 0 0) noF (fex_mem c).
Lemma digits n v : 0 <= v < B ^ Z.of_nat n -> v = lv (map (fun i => digit v (Z.of_nat i)) (seq 0 n)).
Proof.
  revert v. induction n as [|n IH]; intros v Hv.
  - cbn [seq map lv]. change (B ^ Z.of_nat 0) with 1 in Hv. lia.
  - cbn [seq map]. rewrite <- seq_shift, map_map. cbn [lv]. pose proof B_pos as HB.
    rewrite Nat2Z.inj_succ, Z.pow_succ_r in Hv by lia.
    assert (Hd : 0 <= v / B < B ^ Z.of_nat n) by (split; [apply Z.div_pos; lia|apply Z.div_lt_upper_bound; lia]).
    replace (map (fun i => digit v (Z.of_nat (S i))) (seq 0 n)) with (map (fun i => digit (v / B) (Z.of_nat i)) (seq 0 n)).
    + rewrite <- (IH _ Hd). unfold digit. change (Z.of_nat 0) with 0. rewrite Z.pow_0_r, Z.div_1_r. rewrite Z.add_comm. apply Z.div_mod. lia.
    + apply map_ext. intros i. unfold digit. rewrite Nat2Z.inj_succ, Z.pow_succ_r, Z.div_div by (try apply Z.pow_pos_nonneg; lia). reflexivity.
Qed.
Lemma int_at_digits m a n v : 0 <= v < B ^ Z.of_nat n -> (forall i, 0 <= i < Z.of_nat n -> m (a + 8 * i) = Some (digit v i)) -> int_at m a n v.
Proof.
  intros Hv H. exists (map (fun i => digit v (Z.of_nat i)) (seq 0 n)). rewrite map_length, seq_length. split; [reflexivity|]. split; [|split; [|symmetry; apply digits; exact Hv]].
  - apply Forall_forall. intros w Hw. apply in_map_iff in Hw. destruct Hw as (i & <- & _). apply Z.mod_pos_bound. apply B_pos.
  - assert (G : forall k j b, (forall i, Z.of_nat j <= i < Z.of_nat (j + k) -> m (b + 8 * (i - Z.of_nat j)) = Some (digit v i)) -> words m b (map (fun i => digit v (Z.of_nat i)) (seq j k))).
    { induction k as [|k IH]; intros j b Hb; cbn [seq map words]; [exact I|]. split.
      - rewrite <- (Hb (Z.of_nat j)) by lia. f_equal. lia.
      - apply IH. intros i Hi. rewrite <- (Hb i) by lia. f_equal. lia. }
    apply G. intros i Hi. rewrite <- (H i) by lia. f_equal. lia.
Qed.
Lemma ex_x_W : 0 <= ex_x < W /\ 0 <= ex_y < W.
Proof. unfold ex_x, ex_y. rewrite W_val. split; split; reflexivity || discriminate. Qed.
Lemma fex_x c j : 0 <= j < 4 -> int_at (fex_mem c) (4096 + 32 * j) 4 ex_x.
Proof.
  intros Hj. apply int_at_digits; [rewrite B4; apply ex_x_W|]. intros i Hi. change (Z.of_nat 4) with 4 in Hi. unfold fex_mem.
  assert (HJ : j = 0 \/ j = 1 \/ j = 2 \/ j = 3) by lia. assert (HI : i = 0 \/ i = 1 \/ i = 2 \/ i = 3) by lia.
  destruct HJ as [-> | [-> | [-> | ->]]]; destruct HI as [-> | [-> | [-> | ->]]]; reflexivity.
Qed.
Lemma fex_y c j : 0 <= j < 4 -> int_at (fex_mem c) (8192 + 32 * j) 4 ex_y.
Proof.
  intros Hj. apply int_at_digits; [rewrite B4; apply ex_x_W|]. intros i Hi. change (Z.of_nat 4) with 4 in Hi. unfold fex_mem.
  assert (HJ : j = 0 \/ j = 1 \/ j = 2 \/ j = 3) by lia. assert (HI : i = 0 \/ i = 1 \/ i = 2 \/ i = 3) by lia.
  destruct HJ as [-> | [-> | [-> | ->]]]; destruct HI as [-> | [-> | [-> | ->]]]; reflexivity.
Qed.
Lemma fex_x8 c j : 0 <= j < 2 -> int_at (fex_mem c) (4096 + 64 * j) 8 (ex_x + W * ex_x).
Proof.
  intros Hj. apply int8_join.
  - replace (64 * j) with (32 * (2 * j)) by lia. apply fex_x. lia.
  - replace (4096 + 64 * j + 32) with (4096 + 32 * (2 * j + 1)) by lia. apply fex_x. lia.
Qed.
Lemma fex_y8 c j : 0 <= j < 2 -> int_at (fex_mem c) (8192 + 64 * j) 8 (ex_y + W * ex_y).
Proof.
  intros Hj. apply int8_join.
  - replace (64 * j) with (32 * (2 * j)) by lia. apply fex_y. lia.
  - replace (8192 + 64 * j + 32) with (8192 + 32 * (2 * j + 1)) by lia. apply fex_y. lia.
Qed.
Lemma fex_p c : int_at (fex_mem c) 16384 4 (cp c).
Proof.
  apply int_at_digits; [rewrite B4; pose proof (cp_lt_W c); pose proof (cp_bounds c); lia|]. intros i Hi. change (Z.of_nat 4) with 4 in Hi. unfold fex_mem.
  assert (HI : i = 0 \/ i = 1 \/ i = 2 \/ i = 3) by lia. destruct HI as [-> | [-> | [-> | ->]]]; reflexivity.
Qed.
Lemma fex_mapped c n : forall a, 0 <= a -> a + 8 * Z.of_nat n <= 65536 -> a mod 8 = 0 -> mapped (fex_mem c) a n.
Proof.
  induction n as [|n IH]; intros a H1 H2 H3; cbn [mapped]; [exact I|]. split.
  - unfold fex_mem. rewrite H3. cbn [negb Z.eqb]. destruct (a =? 32000); [eauto|]. destruct ((4096 <=? a) && (a <? 4224)); [eauto|]. destruct ((8192 <=? a) && (a <? 8320)); [eauto|].
    destruct ((16384 <=? a) && (a <? 16416)); [eauto|]. replace ((0 <=? a) && (a <? 65536)) with true by lia. eauto.
  - apply IH; [lia|lia|]. rewrite <- Z.add_mod_idemp_l, H3 by discriminate. reflexivity.
Qed.
Lemma fetch_long C t : Z.of_nat (length C) <= t -> fetch C t = None.
Proof. revert t. induction C as [|i C IH]; intros t H; cbn [fetch length] in *; [reflexivity|]. destruct (Z.eqb_spec t 0); [lia|]. apply IH. lia. Qed.
Lemma ex_called C c o : Z.of_nat (length C) <= 1000000 -> called C (ex_fp c o).
Proof. intros H. split; [exists 1000000; split; [reflexivity|apply fetch_long; exact H]|]. unfold area. cbn [rg rsp ex_fp]. rewrite B_val. lia. Qed.
Lemma ex_place k c o a n : (k <= 100)%nat -> 0 <= a -> a + 8 * Z.of_nat n <= 30000 -> place k (ex_fp c o) a n.
Proof. intros H H1 H2. unfold place, area, apart. cbn [rg rsp ex_fp]. rewrite B_val. lia. Qed.
Lemma ex_stack k c o : (k <= 100)%nat -> stack k (ex_fp c o).
Proof.
  intros H. unfold stack. cbn [rg rsp ex_fp mem]. split; [lia|]. apply fex_mapped; [lia|lia|].
  replace (32000 - 8 * Z.of_nat k) with (0 + (4000 - Z.of_nat k) * 8) by lia. rewrite Z.mod_add by discriminate. reflexivity.
Qed.
Lemma ex_call2 C k no n c o : Z.of_nat (length C) <= 1000000 -> (k <= 100)%nat -> (no <= 100)%nat -> (n <= 100)%nat -> o = 4096 \/ o = 12288 -> call2 C k no n (ex_fp c o).
Proof.
  intros H1 H2 H3 H4 H5. split; [exact (ex_called _ _ _ H1)|]. split; [exact (ex_stack _ _ _ H2)|].
  split; [apply ex_place; cbn [rg rdi ex_fp]; lia|]. split; [apply ex_place; cbn [rg rsi ex_fp]; lia|]. split; [apply ex_place; cbn [rg rdx ex_fp]; lia|].
  cbn [rg rdi ex_fp mem]. destruct H5 as [-> | ->]; apply fex_mapped; try reflexivity; lia.
Qed.
Lemma ex_call1 C k no n c o : Z.of_nat (length C) <= 1000000 -> (k <= 100)%nat -> (no <= 100)%nat -> (n <= 100)%nat -> o = 4096 \/ o = 12288 -> call1 C k no n (ex_fp c o).
Proof. intros H1 H2 H3 H4 H5. destruct (ex_call2 C k no n c o H1 H2 H3 H4 H5) as (A & A2 & A3 & A4 & A5 & A6). unfold call1. tauto. Qed.
Lemma ex_table k c o : (k <= 100)%nat -> table c k (ex_fp c o) ex_T.
Proof. intros H. split; [apply fex_p|]. apply ex_place; unfold ex_T; lia. Qed.
Lemma ex_aliased c n : (n <= 100)%nat -> aliased n (ex_fp c 4096).
Proof. intros H. unfold aliased, same_or_apart, apart. cbn [rg rdi rsi rdx ex_fp]. lia. Qed.
Lemma ex_can c : can c ex_x /\ can c ex_y /\ fv c ex_x <> fv c ex_y /\ 0 <= ex_x + W * ex_x < cp c * W /\ 0 <= ex_y + W * ex_y < cp c * W.
Proof.
  destruct (can_ex c) as (H1 & H2 & _ & H3). split; [exact H1|]. split; [exact H2|]. split; [exact H3|].
  unfold can in *. destruct ex_x_W as [X Y]. fold ex_x in H1. fold ex_y in H2. clear H3. generalize dependent W. intros w X Y. split; nia.
Qed.
Lemma ex_small c : ex_x + cp c < 2 ^ 256 /\ ex_x * ex_y < cp c * 2 ^ 256.
Proof. destruct (cp_bounds c) as [H1 H2]. destruct (ex_can c) as (X & _). unfold can in X. destruct ex_x_W as [_ Y]. rewrite W_val in Y. nia. Qed.
Lemma ex_all c il mx : exists s, s = ex_fp c 4096 /\ table c 7 s ex_T /\
  ints (mem s) (rsi (rg s)) 4 2 (fun _ => ex_x) /\ ints (mem s) (rdx (rg s)) 4 2 (fun _ => ex_y) /\
  ints (mem s) (rsi (rg s)) 8 2 (fun _ => ex_x + W * ex_x) /\ ints (mem s) (rdx (rg s)) 8 2 (fun _ => ex_y + W * ex_y) /\
  (forall k n, (k <= 7)%nat -> (n <= 16)%nat -> table c k s ex_T /\ aliased n s /\
     call2 (make_Fp_add il ex_T 2) k n n s /\ call2 (make_Fp_sub il ex_T 2) k n n s /\ call1 (make_Fp_neg il ex_T) k n n s /\
     call2 (make_Fp_mul mx ex_T (cpp c)) k n n s /\ call1 (make_FpDbl_mod mx ex_T (cpp c)) k 4 8 s /\
     call2 (make_FpDbl_add il ex_T 2) k n n s /\ call2 (make_FpDbl_sub il ex_T 2) k n n s /\ call2 (make_FpDbl_subNC il 2) k n n s /\ call2 (make_FpDbl_addNC il 2) k n n s /\
     call2 (make_Fp_addNC il 2) k n n s /\ call2 (make_Fp_subNC il) k n n s /\ call1 (make_Fp_shr 1) k n n s /\
     call2 (make_FpDbl_mul mx) k 8 4 (ex_fp c 12288)) /\ 
  apart (rdi (rg s)) 16 ex_T 4 /\ apart (rdi (rg s)) 8 ex_T 4 /\ apart 12288 8 4096 4 /\ apart 12288 8 8192 4.
Proof.
  exists (ex_fp c 4096). split; [reflexivity|]. split; [apply ex_table; lia|].
  split; [intros i Hi; apply fex_x; change (Z.of_nat 2) with 2 in Hi; lia|]. split; [intros i Hi; apply fex_y; change (Z.of_nat 2) with 2 in Hi; lia|].
  split; [intros i Hi; apply fex_x8; exact Hi|]. split; [intros i Hi; apply fex_y8; exact Hi|].
  split.
  - intros k n Hk Hn. split; [apply ex_table; lia|]. split; [apply ex_aliased; lia|].
    split; [apply ex_call2; [apply Z.leb_le; destruct il; reflexivity|lia|lia|lia|left; reflexivity]|].
    split; [apply ex_call2; [apply Z.leb_le; destruct il; reflexivity|lia|lia|lia|left; reflexivity]|].
    split; [apply ex_call1; [apply Z.leb_le; destruct il; reflexivity|lia|lia|lia|left; reflexivity]|].
    split; [apply ex_call2; [apply Z.leb_le; destruct mx; reflexivity|lia|lia|lia|left; reflexivity]|].
    split; [apply ex_call1; [apply Z.leb_le; destruct mx; reflexivity|lia|lia|lia|left; reflexivity]|].
    split; [apply ex_call2; [apply Z.leb_le; destruct il; reflexivity|lia|lia|lia|left; reflexivity]|].
    split; [apply ex_call2; [apply Z.leb_le; destruct il; reflexivity|lia|lia|lia|left; reflexivity]|].
    split; [apply ex_call2; [apply Z.leb_le; destruct il; reflexivity|lia|lia|lia|left; reflexivity]|].
    split; [apply ex_call2; [apply Z.leb_le; destruct il; reflexivity|lia|lia|lia|left; reflexivity]|].
    split; [apply ex_call2; [apply Z.leb_le; destruct il; reflexivity|lia|lia|lia|left; reflexivity]|].
    split; [apply ex_call2; [apply Z.leb_le; destruct il; reflexivity|lia|lia|lia|left; reflexivity]|].
    split; [apply ex_call1; [apply Z.leb_le; reflexivity|lia|lia|lia|left; reflexivity]|].
    apply ex_call2; [apply Z.leb_le; destruct mx; reflexivity|lia|lia|lia|right; reflexivity].
  - cbn [rg rdi ex_fp]. unfold apart, ex_T. lia.
Qed.
