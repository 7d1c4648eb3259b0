(** The generated Compress::square_n: what a call computes, in the field; an example of a call. *)
From Coq Require Import ZArith List Bool Lia.
From Verif Require Import X64 XLog JitSpec JitFpSpec XTac XReg JitFp JitMac JitMac2 JitFpApi JitFpEnd JitFp2 JitFp2Spec JitFp2Api2 JitFp2End JitFp6Spec JitFp6 JitFp6Sub JitFp6Api JitFp12Api JitFp6End JitLine JitLineSub JitCmpSpec JitCmp JitCmpApi JitCmpTop.
From Verif Require Import Base Prim Primes FpSpec Cfg FpM FpProofs TowerSpec TowerField TowerM Fp2Proofs Fp6Proofs ParamM FinalM Frob FinalProofs FinalExp TowerWit TowerApi.
Import ListNotations.
Local Open Scope Z_scope.
Local Notation find := X64.find.
Local Notation length := List.length.

Section E.
  Variables (c : cfg) (il mx : bool) (T NT HF : Z) (s : state) (z : Z) (x : F2 (F3 (F2 Z))).
  Local Notation g := (rg s).
  Local Notation C := (make_Compress_square_n il mx false T (cpp c) HF NT).
  Lemma repC_parts r (w : K12 c) : repC c r w -> parts c x (putc x r) w.
  Proof. intros [A1 A2 A3 A4]. unfold parts, putc. cbn [a2 b2 a3 b3 c3]. split; [exact A1|]. split; [exact A2|]. split; [exact A3|]. split; [exact A4|]. split; reflexivity. Qed.
  Lemma square_n_gen (w : K12 c) : snark c = false -> callC c C 104 T NT HF z s -> twelve (mem s) z x -> repC c (cmp_square_n c (compress x) (rsi g)) w ->
    calls C s (fun s' => (exists y, twelve (mem s') z y /\ parts c x y w) /\ only 104 z 48 s s').
  Proof.
    intros Es (H1 & H2 & H3 & H4 & H5 & H6 & H7) IX R. eapply calls_mono; [refine (square_n_api c il mx T NT HF s z x Es H1 H2 H3 H4 H5 IX H6 _); rewrite B_val; exact H7|].
    intros s' [A O]. split; [|exact O]. exists (putc x (cmp_square_n c (compress x) (rsi g))). split; [exact A|exact (repC_parts _ _ R)].
  Qed.
  Lemma square_n_end (v : K12 c) : snark c = false -> callC c C 104 T NT HF z s -> twelve (mem s) z x -> rep12 c x v -> cyclo c v -> rsi g <> 0 ->
    calls C s (fun s' => (exists y, twelve (mem s') z y /\ parts c x y (rpz v (2 ^ rsi g))) /\ only 104 z 48 s s').
  Proof.
    intros Es HC IX Hx Hv Hn. pose proof HC as (_ & _ & _ & _ & _ & _ & H7). apply square_n_gen; [exact Es|exact HC|exact IX|].
    refine (cmp_square_n_rep c Es (compress x) v (rsi g) _ (compress_rep c x v Hx) Hv). rewrite B_val. lia.
  Qed.
  Lemma square_0_end (v : K12 c) : snark c = false -> callC c C 104 T NT HF z s -> twelve (mem s) z x -> rep12 c x v -> cyclo c v -> rsi g = 0 ->
    calls C s (fun s' => (exists y, twelve (mem s') z y /\ parts c x y (rpz v (2 ^ (2 ^ 64)))) /\ only 104 z 48 s s').
  Proof.
    intros Es HC IX Hx Hv Hn. apply square_n_gen; [exact Es|exact HC|exact IX|]. assert (EB : 2 ^ 64 = B) by (rewrite B_val; reflexivity). rewrite EB, Hn.
    exact (cmp_square_n_0 c Es (compress x) v (compress_rep c x v Hx) Hv).
  Qed.
  Lemma parts_decompress P y (w : K12 c) : paramInit (snark c) (curveOf c) = Ok P -> cyclo c w -> parts c x y w -> exists y', cmp_decompress c P (compress y) = Ok y' /\ rep12 c y' w.
  Proof.
    intros HI Hw (A1 & A2 & A3 & A4 & _). apply cmp_decompress_rep; [exact (param_par_ok c P HI)| |exact Hw]. constructor; assumption.
  Qed.
End E.

(** ** A state that meets the hypotheses: the element at 4096, its address at 12288 *)
Definition exC (c : cfg) (lx : list Z) (n : Z) : state :=
  mkSt (mkR 7 7 5 8192 n 12288 7 32000 7 7 7 7 7 7 7 7) (mkX 0 0 0 0 0 0) noF (mset (ex6_mem c lx []) 12288 4096).
Lemma exC_some c il mx n : snark c = false -> 0 <= n < 2 ^ 64 -> exists x v, rep12 c x v /\ cyclo c v /\ v <> ro /\
  let s := exC c (l12 x) n in twelve (mem s) 4096 x /\ rsi (rg s) = n /\ callC c (make_Compress_square_n il mx false ex_T (cpp c) ex_HF ex_NT) 104 ex_T ex_NT ex_HF 4096 s.
Proof.
  intros Es Hn. destruct (cyclo_rep_ex c) as (x & v & H1 & H2 & H3). exists x, v. split; [exact H1|]. split; [exact H2|]. split; [exact H3|]. intros s.
  set (C := make_Compress_square_n il mx false ex_T (cpp c) ex_HF ex_NT).
  set (s0 := ex6 c 4096 8192 (l12 x) []). pose proof (rep12_W _ _ _ H1) as RX. assert (L1 : (length (l12 x) <= 12)%nat) by (cbn; lia). assert (L2 : (length (@nil Z) <= 12)%nat) by (cbn; lia).
  assert (D : 4096 = 4096 \/ 4096 = 12288) by (left; reflexivity). assert (D2 : 8192 = 4096 \/ 8192 = 8192) by (right; reflexivity).
  assert (LC : Z.of_nat (length C) <= 1000000).
  { unfold C, make_Compress_square_n. rewrite !app_length, !Nat2Z.inj_add.
    assert (E1 : Z.of_nat (length (frame 10 89 (b_square_n il mx false ex_T))) <=? 100000 = true) by (destruct il, mx; vm_compute; reflexivity).
    assert (E2 : Z.of_nat (length (subr L_Fp2_2z_add_3x (b_Fp2_2z_add_3x il ex_T))) <=? 100000 = true) by (destruct il; vm_compute; reflexivity).
    assert (E3 : Z.of_nat (length (libx il mx false ex_T (cpp c) ex_HF)) <=? 100000 = true) by (destruct il, mx; vm_compute; reflexivity).
    assert (E4 : Z.of_nat (length (lib il mx false ex_T (cpp c) ex_NT)) <=? 100000 = true) by (destruct il, mx; vm_compute; reflexivity).
    apply Z.leb_le in E1, E2, E3, E4. clear -E1 E2 E3 E4. lia. }
  destruct (ex6_all_mem c (l12 x) [] L1 L2 12288 ltac:(lia) eq_refl) as [w0 W0].
  assert (CH : chg [(12288, 8)] (mem s0) (mem s)) by exact (chg_mset _ _ _ _ W0).
  assert (TR : forall a k v, a + 8 * Z.of_nat k <= 12288 \/ 12296 <= a -> int_at (mem s0) a k v -> int_at (mem s) a k v).
  { intros a k v0 Hd HI. refine (int_at_chg _ _ _ _ _ _ CH _ HI). constructor; [|constructor]. unfold clear_of. cbn [fst snd]. clear -Hd. lia. }
  split.
  { pose proof (ex12_x c 4096 8192 x [] v H1) as [S1 S2]. fold s0 in S1, S2. clear -S1 S2 TR.
    assert (T6 : forall a y, a + 192 <= 12288 -> six 4 (mem s0) a y -> six 4 (mem s) a y).
    { intros a y Ha ((A1 & A2) & (A3 & A4) & (A5 & A6)). change (8 * Z.of_nat 4) with 32 in *. change (16 * Z.of_nat 4) with 64 in *.
      split; [split|split; split]; (apply TR; [change (8 * Z.of_nat 4) with 32; change (16 * Z.of_nat 4) with 64; clear -Ha; lia|assumption]). }
    split; apply T6; first [assumption|lia]. }
  split; [reflexivity|].
  assert (PL : forall a n, 0 <= a -> a + 8 * Z.of_nat n <= 28000 -> place 104 s a n) by (intros a k A1 A2; exact (ex6_place c 4096 8192 (l12 x) [] L1 L2 104 a k ltac:(lia) A1 A2)).
  destruct (ex6_consts c 4096 8192 (l12 x) [] D L1 L2 104 48 ltac:(lia) ltac:(lia)) as (C1 & C2 & C3 & C4 & C5 & C6 & C7 & C8 & C9). fold s0 in C1, C4, C7.
  destruct (ex6_called c 4096 8192 (l12 x) [] L1 L2 C LC) as [(t & ET & FT) AT]. destruct (ex6_stack c 4096 8192 (l12 x) [] L1 L2 104 ltac:(lia)) as [S1 S2].
  split; [split; [exists t; split; [rewrite <- ET; reflexivity|exact FT]|exact AT]|].
  split; [split; [exact S1|]|].
  { apply all_mapped; [|cbn; lia|cbn; lia|reflexivity]. intros a A1 A2. destruct (ex6_all_mem c (l12 x) [] L1 L2 a A1 A2) as [u Eu]. exact (proj2 CH _ _ Eu). }
  split; [apply PL; cbn; lia|]. split; [apply mset_eq; reflexivity|]. split; [apply PL; cbn; lia|]. split; [|exact Hn].
  split; [intros i Hi; apply TR; [unfold ex_T; clear -Hi; lia|exact (C1 i Hi)]|]. split; [apply PL; unfold ex_T; lia|]. split; [exact C3|].
  split; [apply TR; [right; unfold ex_NT; lia|exact C4]|]. split; [apply PL; unfold ex_NT; lia|]. split; [exact C6|].
  split; [split; (apply TR; [right; unfold ex_HF; lia|apply C7])|]. split; [apply PL; unfold ex_HF; lia|exact C9].
Qed.
