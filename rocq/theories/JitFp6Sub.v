(** The subroutines of the functions on Fp6 and Fp12: what a call of each does. *)
From Coq Require Import ZArith List Bool Lia.
From Verif Require Import X64 XLog JitSpec JitFpSpec XTac XReg JitFp JitMac JitMac2 JitMul JitMont JitMul4 JitMod JitFrame JitFp2 JitFp2Spec JitFp2Mac JitFp2Mac2 JitFp2Api JitFp2Api2 JitSym JitSub JitLib JitFp6.
From Verif Require Import Base Prim Primes FpSpec Cfg FpM TowerSpec TowerM.
Import ListNotations.
Local Open Scope Z_scope.
Local Notation find := X64.find.
Local Notation length := List.length.

(** ** Subroutines found by their labels *)
(** the labels of [lib] *)
Definition liblabs : list Z := [102; 103; 113; 111; 112; 116; 114; 115; 117; 118; 106; 107; 109; 119; 120].
Definition nol (l : Z) (cd : code) : bool := forallb (fun i => match i with Lab l' => negb (l =? l') | _ => true end) cd.
Definition nolab (cd : code) : bool := forallb (fun i => match i with Lab l => negb (existsb (Z.eqb l) liblabs) | _ => true end) cd.
Lemma nolab_app a b : nolab (a ++ b) = nolab a && nolab b.
Proof. apply forallb_app. Qed.
Lemma nolab_no l cd : existsb (Z.eqb l) liblabs = true -> nolab cd = true -> nol l cd = true.
Proof.
  unfold nolab, nol. rewrite !forallb_forall. intros E H i Hi. specialize (H i Hi). destruct i; try reflexivity. destruct (Z.eqb_spec l l0) as [->|]; [|reflexivity]. rewrite E in H. discriminate H.
Qed.
Definition libc (l : list (Z * code)) : code := flat_map (fun e => subr (fst e) (snd e)) l.
Lemma nol_libc l l1 : forallb (fun e => nol l (snd e) && negb (l =? fst e)) l1 = true -> nol l (libc l1) = true.
Proof.
  unfold libc. induction l1 as [|e l1 IH]; intros H2; cbn [flat_map]; [reflexivity|]. cbn [forallb] in H2. apply andb_prop in H2. destruct H2 as [H2 H3]. apply andb_prop in H2. destruct H2 as [H2 H4].
  unfold subr at 1, nol. rewrite !forallb_app. cbn [forallb]. rewrite H4. fold (nol l (snd e)). rewrite H2. exact (IH H3).
Qed.
Lemma has_subx pre l1 l b l2 post : nol l pre = true -> forallb (fun e => nol l (snd e) && negb (l =? fst e)) l1 = true ->
  has (pre ++ libc (l1 ++ (l, b) :: l2) ++ post) l ([Lab l] ++ b ++ [Ret]).
Proof.
  intros H1 H2. pose proof (nol_libc _ _ H2) as H3. unfold libc in *. rewrite flat_map_app. cbn [flat_map]. unfold subr at 2. cbn [fst snd]. rewrite <- !app_assoc. rewrite app_assoc.
  apply (has_at (pre ++ flat_map (fun e => subr (fst e) (snd e)) l1) l b (flat_map (fun e => subr (fst e) (snd e)) l2 ++ post)).
  rewrite forallb_app. apply andb_true_intro. split; [exact H1|exact H3].
Qed.
Lemma has_sub pre l1 l b l2 : existsb (Z.eqb l) liblabs = true -> nolab pre = true -> forallb (fun e => nolab (snd e) && negb (l =? fst e)) l1 = true ->
  has (pre ++ libc (l1 ++ (l, b) :: l2)) l ([Lab l] ++ b ++ [Ret]).
Proof.
  intros E H1 H2. pose proof (has_subx pre l1 l b l2 [] (nolab_no _ _ E H1)) as H. rewrite app_nil_r in H. apply H. clear H.
  rewrite forallb_forall in *. intros e He. specialize (H2 e He). apply andb_prop in H2. destruct H2 as [H2 ->]. rewrite (nolab_no _ _ E H2). reflexivity.
Qed.
Lemma nolab_rep n i f : (forall j, nolab (f j) = true) -> nolab (rep n i f) = true.
Proof. intros H. revert i. induction n as [|n IH]; intros i; cbn [rep]; [reflexivity|]. rewrite nolab_app, H, IH. reflexivity. Qed.

Section NL.
  Variables (il mx sn : bool) (T pp HF NT : Z).
  Lemma nl_mod : nolab (mont_mod mx T pp) = true. Proof. destruct mx; reflexivity. Qed.
  Lemma nl_add8 z x y : nolab (in_FpDbl_add il T z x y) = true. Proof. destruct il; reflexivity. Qed.
  Lemma nl_sub8 z x y : nolab (sub_FpDbl_sub il T z x y) = true. Proof. destruct il; reflexivity. Qed.
  Lemma nl_opt1 z x y : nolab (in_FpDbl_subOpt1 il NT z x y) = true. Proof. destruct il; reflexivity. Qed.
  Lemma nl_addNC8 : nolab (b_FpDbl_addNC il) = true. Proof. destruct il; reflexivity. Qed.
  Lemma nl_subNC8 : nolab (b_FpDbl_subNC il) = true. Proof. destruct il; reflexivity. Qed.
  Lemma nl_addNC2 : nolab (b_Fp2_addNC il) = true. Proof. destruct il; reflexivity. Qed.
  Lemma nl_add_n n z x y : nolab (in_Fp_add_n il T n z x y) = true.
  Proof. unfold in_Fp_add_n. rewrite nolab_app, nolab_rep; [reflexivity|]. intros j. destruct il; reflexivity. Qed.
  Lemma nl_sub_n n z x y : nolab (in_Fp_sub_n il T n z x y) = true.
  Proof. unfold in_Fp_sub_n. rewrite nolab_app, nolab_rep; [reflexivity|]. intros j. destruct il; reflexivity. Qed.
  Lemma nl_mulOpt mode1 : nolab (Fp2Dbl_mulOpt il mx T NT mode1) = true. Proof. destruct il, mx, mode1; reflexivity. Qed.
  Lemma nl_mul_xi : nolab (Fp2Dbl_mul_xi il sn T) = true. Proof. destruct il, sn; reflexivity. Qed.
  Lemma nl_call3 l z x y : nolab (call3 l z x y) = true.
  Proof. unfold call3, smart_set_gp. destruct (aeqb x z), (aeqb y z), (aeqb y x); reflexivity. Qed.
  Lemma nl_d6 : nolab (b_Fp6Dbl_mul il sn T NT) = true.
  Proof. unfold b_Fp6Dbl_mul. rewrite !nolab_app, !nl_add8. destruct sn; rewrite ?nolab_app, ?nl_add8, ?nl_opt1; reflexivity. Qed.
  Lemma nl_f6 : nolab b_Fp6_mul = true. Proof. reflexivity. Qed.

  Variable pre : code.
  Hypothesis NP : nolab pre = true.
  Local Notation C := (pre ++ lib il mx sn T pp NT).
  Ltac hs n := intros; let L := eval cbv [subs] in (subs il mx sn T pp NT) in
    let a := eval cbv [firstn] in (firstn n L) in let b := eval cbv [skipn] in (skipn n L) in
    lazymatch b with (?l, ?bd) :: ?r => refine (has_sub pre a l bd r eq_refl NP _) end;
    cbn [forallb snd fst]; unfold b_FpDbl_add, b_FpDbl_sub, b_Fp2_add, b_Fp2_sub, b_Fp6_add, b_Fp6_sub;
    rewrite ?nl_mod, ?nl_addNC8, ?nl_subNC8, ?nl_addNC2, ?nl_add8, ?nl_sub8, ?nl_add_n, ?nl_sub_n, ?nl_mulOpt, ?nl_mul_xi, ?nl_d6, ?nl_f6; reflexivity.
  Local Notation hasl l b := (has C l ([Lab l] ++ b ++ [Ret])).
  Lemma h_mod : hasl L_FpDbl_mod (mont_mod mx T pp). Proof. hs 0%nat. Qed.
  Lemma h_addNC : hasl L_FpDbl_addNC (b_FpDbl_addNC il). Proof. hs 1%nat. Qed.
  Lemma h_subNC : hasl L_FpDbl_subNC (b_FpDbl_subNC il). Proof. hs 2%nat. Qed.
  Lemma h_add : hasl L_FpDbl_add (b_FpDbl_add il T). Proof. hs 3%nat. Qed.
  Lemma h_sub : hasl L_FpDbl_sub (b_FpDbl_sub il T). Proof. hs 4%nat. Qed.
  Lemma h_addNC2 : hasl L_Fp2_addNC (b_Fp2_addNC il). Proof. hs 5%nat. Qed.
  Lemma h_add2 : hasl L_Fp2_add (b_Fp2_add il T). Proof. hs 6%nat. Qed.
  Lemma h_sub2 : hasl L_Fp2_sub (b_Fp2_sub il T). Proof. hs 7%nat. Qed.
  Lemma h_add6 : hasl L_Fp6_add (b_Fp6_add il T). Proof. hs 8%nat. Qed.
  Lemma h_sub6 : hasl L_Fp6_sub (b_Fp6_sub il T). Proof. hs 9%nat. Qed.
  Lemma h_opt1 : hasl L_mulOpt1 (Fp2Dbl_mulOpt il mx T NT true). Proof. hs 10%nat. Qed.
  Lemma h_opt2 : hasl L_mulOpt2 (Fp2Dbl_mulOpt il mx T NT false). Proof. hs 11%nat. Qed.
  Lemma h_mul_xi : hasl L_Fp2Dbl_mul_xi (Fp2Dbl_mul_xi il sn T). Proof. hs 12%nat. Qed.
  Lemma h_d6 : hasl L_Fp6Dbl_mul (b_Fp6Dbl_mul il sn T NT). Proof. hs 13%nat. Qed.
  Lemma h_f6 : hasl L_Fp6_mul b_Fp6_mul. Proof. hs 14%nat. Qed.
End NL.

(** ** What they do *)
Definition W4x6 : list fld := [(0, 4%nat); (32, 4%nat); (64, 4%nat); (96, 4%nat); (128, 4%nat); (160, 4%nat)].
Definition W8x6 : list fld := [(0, 8%nat); (64, 8%nat); (128, 8%nat); (192, 8%nat); (256, 8%nat); (320, 8%nat)].
Definition l6 (x : F3 (F2 Z)) : list Z := [a2 (a3 x); b2 (a3 x); a2 (b3 x); b2 (b3 x); a2 (c3 x); b2 (c3 x)].
Definition fn66 (F : F3 (F2 Z) -> F3 (F2 Z) -> F3 (F2 Z)) (l : list Z) : list Z :=
  match l with
  | [x0; x1; x2; x3; x4; x5; y0; y1; y2; y3; y4; y5] => l6 (F (mk3 (mk2 x0 x1) (mk2 x2 x3) (mk2 x4 x5)) (mk3 (mk2 y0 y1) (mk2 y2 y3) (mk2 y4 y5)))
  | _ => []
  end.
Definition gfp6 : list reg := [RAX; RDX; RSI; RDI; R9; gt1; gt2; gt3; gt4; gt5; gt6; gt7; gt8; gt9; gt10].
Definition r_fp2 (F : F2 Z -> F2 Z -> F2 Z) (L : list reg) : rout := mkRt 8 8 8 W44 W44 W44 true true L [] 0 (fn22 F) tt_ false false.
Definition r_fp6 (F : F3 (F2 Z) -> F3 (F2 Z) -> F3 (F2 Z)) : rout := mkRt 24 24 24 W4x6 W4x6 W4x6 true true (RAX :: g8) [] 0 (fn66 F) tt_ false false.
Definition r_d6mul (c : cfg) : rout := mkRt 48 24 24 W4x6 W4x6 W8x6 false false gfp6 [] 81 (fn66 (d6_mul c)) tt_ false false.
Definition r_f6mul (c : cfg) : rout := mkRt 24 24 24 W4x6 W4x6 W4x6 true true gfp6 [X0; X1; X2; X3; X4; X5] 130 (fn66 (f6_mul c)) tt_ false false.

Lemma eta2 (x : F2 Z) : mk2 (a2 x) (b2 x) = x.
Proof. destruct x; reflexivity. Qed.
Lemma eta3 (x : F3 (F2 Z)) : mk3 (mk2 (a2 (a3 x)) (b2 (a3 x))) (mk2 (a2 (b3 x)) (b2 (b3 x))) (mk2 (a2 (c3 x)) (b2 (c3 x))) = x.
Proof. destruct x as [[] [] []]; reflexivity. Qed.

Ltac lz := lazy -[fp_add fp_sub fp_addNC fp_mul dbl_add dbl_sub dbl_addNC dbl_subNC dbl_subOpt1 dbl_mod d2_mulOpt d2_mul_xi f2_mul f2_square d2_square f2_divBy2 f2_mul_xi d6_mul f6_mul f6_add f6_sub f2_add f2_sub f2_addNC a2 b2 a3 b3 c3 cp cr cpp snark].
Ltac ex_ := repeat lazymatch goal with |- _ /\ _ => split | |- True => exact I end.
Ltac len6 L := repeat (destruct L as [|? L]; try discriminate).

Section Lib.
  Variables (c : cfg) (il mx : bool) (T NT HF : Z) (pre : code).
  Hypothesis NP : nolab pre = true.
  Local Notation C := (pre ++ lib il mx (snark c) T (cpp c) NT).
  Local Notation tabs := (ctabs c T NT HF).
  Local Notation asp := (aspec C T tabs).
  Local Notation P1 := (AR gp1 0).
  Local Notation P2 := (AR gp2 0).
  Local Notation P3 := (AR gp3 0).
  Local Notation D1 := (Ad gp1 0).
  Local Notation D2 := (Ad gp2 0).
  Local Notation D3 := (Ad gp3 0).
  Ltac cl H HHas := lazymatch goal with |- aspec _ _ _ [Call ?l] ?az ?ax ?ay (bump ?R) => refine (call_aspec C T tabs l _ az ax ay R eq_refl eq_refl eq_refl eq_refl (ctabs_fit c T NT HF) _ _ H HHas) end; repeat constructor; cbn; intro; discriminate.
  Lemma k_mod : asp [Call L_FpDbl_mod] P1 P2 AN (bump (r_mod c)).
  Proof. cl (a_mod C c mx T NT HF) (h_mod il mx (snark c) T (cpp c) NT pre NP). Qed.
  Lemma k_addNC : asp [Call L_FpDbl_addNC] P1 P2 P3 (bump (r_dbl dbl_addNC g4)).
  Proof. cl (a_addNC8 C c il T NT HF gp1 gp2 gp3 0 0 0 eq_refl eq_refl eq_refl) (h_addNC il mx (snark c) T (cpp c) NT pre NP). Qed.
  Lemma k_subNC : asp [Call L_FpDbl_subNC] P1 P2 P3 (bump (r_dbl dbl_subNC g4)).
  Proof. cl (a_subNC8 C c il T NT HF gp1 gp2 gp3 0 0 0 eq_refl eq_refl eq_refl) (h_subNC il mx (snark c) T (cpp c) NT pre NP). Qed.
  Lemma k_add : asp [Call L_FpDbl_add] P1 P2 P3 (bump (r_dbl (dbl_add c) (RAX :: g8))).
  Proof. cl (a_add8 C c il T NT HF gp1 gp2 gp3 0 0 0 eq_refl eq_refl eq_refl) (h_add il mx (snark c) T (cpp c) NT pre NP). Qed.
  Lemma k_sub : asp [Call L_FpDbl_sub] P1 P2 P3 (bump (r_dbl (dbl_sub c) (RAX :: g8))).
  Proof. cl (a_sub8 C c il T NT HF gp1 gp2 gp3 0 0 0 eq_refl eq_refl eq_refl) (h_sub il mx (snark c) T (cpp c) NT pre NP). Qed.
  Lemma k_opt1 : asp [Call L_mulOpt1] P1 P2 P3 (bump (r_mulOpt c true)).
  Proof. cl (a_mulOpt C c il mx T NT HF true) (h_opt1 il mx (snark c) T (cpp c) NT pre NP). Qed.
  Lemma k_opt2 : asp [Call L_mulOpt2] P1 P2 P3 (bump (r_mulOpt c false)).
  Proof. cl (a_mulOpt C c il mx T NT HF false) (h_opt2 il mx (snark c) T (cpp c) NT pre NP). Qed.
  Lemma k_mul_xi : asp [Call L_Fp2Dbl_mul_xi] P1 P2 AN (bump (r_dmul_xi c)).
  Proof. cl (a_dmul_xi C c il T NT HF) (h_mul_xi il mx (snark c) T (cpp c) NT pre NP). Qed.

  (** composed ones *)
  Definition i_add4 o := IA (in_Fp_add il (Ad gp1 o) (Ad gp2 o) (Ad gp3 o)) (AR gp1 o) (AR gp2 o) (AR gp3 o) (r_fpT (fp_add c)).
  Definition i_sub4 o := IA (in_Fp_sub il (Ad gp1 o) (Ad gp2 o) (Ad gp3 o)) (AR gp1 o) (AR gp2 o) (AR gp3 o) (r_fpT (fp_sub c)).
  Definition i_addNC4 o := IA (in_Fp_addNC il (Ad gp1 o) (Ad gp2 o) (Ad gp3 o)) (AR gp1 o) (AR gp2 o) (AR gp3 o) (r_fp fp_addNC g4).
  Lemma ok_add4 o : aokT C T tabs (i_add4 o).
  Proof. exact (a_add4 C c il T NT HF gp1 gp2 gp3 o o o eq_refl eq_refl eq_refl). Qed.
  Lemma ok_sub4 o : aokT C T tabs (i_sub4 o).
  Proof. exact (a_sub4 C c il T NT HF gp1 gp2 gp3 o o o eq_refl eq_refl eq_refl). Qed.
  Lemma ok_addNC4 o : aokT C T tabs (i_addNC4 o).
  Proof. exact (a_addNC4 C c il T NT HF gp1 gp2 gp3 o o o eq_refl eq_refl eq_refl). Qed.
  Ltac sb items := lazymatch goal with |- aspec _ _ _ ?cd ?az ?ax ?ay ?R => refine (sub_aspec C c T NT HF items cd az ax ay R _ _ eq_refl _ _ _ eq_refl eq_refl _) end; try (intro; discriminate).
  Ltac bb bx by_ E1 E2 := destruct bx; [try (destruct (E1 eq_refl) as [_ ?]; discriminate)|]; (destruct by_; [try (destruct (E2 eq_refl) as [_ ?]; discriminate)|]).
  (** the three conjuncts of the final state *)
  Ltac fin tac := ex_; [tac|reflexivity|discriminate].
  Ltac vals := cbn [a2 b2 a3 b3 c3]; rewrite ?eta2; reflexivity.
  Lemma s_addNC2 : asp (b_Fp2_addNC il) P1 P2 P3 (r_fp2 f2_addNC g4).
  Proof.
    sb [i_addNC4 0; i_addNC4 32].
    - repeat constructor; apply ok_addNC4.
    - intros base _ _ _. unfold b_Fp2_addNC. cbn [flat flat_map flat1 i_addNC4]. rewrite app_nil_r. reflexivity.
    - reflexivity.
    - intros bx by_ vx vy E1 E2 E3 L1 L2 _. cbn in L1, L2. len6 vx. len6 vy. bb bx by_ E1 E2; [injection (E3 eq_refl eq_refl) as -> ->|..].
      all: lz; fin ltac:(unfold f2_addNC; vals).
  Qed.
  Lemma s_add2 : asp (b_Fp2_add il T) P1 P2 P3 (r_fp2 (f2_add c) (RAX :: g8)).
  Proof.
    sb [IT RAX (RT, 0); i_add4 0; i_add4 32].
    - repeat constructor; apply ok_add4.
    - intros base E _ _. unfold b_Fp2_add, in_Fp_add_n. cbn [flat flat_map flat1 i_add4 fst snd Z.eqb rep]. rewrite E. reflexivity.
    - reflexivity.
    - intros bx by_ vx vy E1 E2 E3 L1 L2 _. cbn in L1, L2. len6 vx. len6 vy. bb bx by_ E1 E2; [injection (E3 eq_refl eq_refl) as -> ->|..].
      all: lz; fin ltac:(unfold f2_add; vals).
  Qed.
  Lemma s_sub2 : asp (b_Fp2_sub il T) P1 P2 P3 (r_fp2 (f2_sub c) (RAX :: g8)).
  Proof.
    sb [IT RAX (RT, 0); i_sub4 0; i_sub4 32].
    - repeat constructor; apply ok_sub4.
    - intros base E _ _. unfold b_Fp2_sub, in_Fp_sub_n. cbn [flat flat_map flat1 i_sub4 fst snd Z.eqb rep]. rewrite E. reflexivity.
    - reflexivity.
    - intros bx by_ vx vy E1 E2 E3 L1 L2 _. cbn in L1, L2. len6 vx. len6 vy. bb bx by_ E1 E2; [injection (E3 eq_refl eq_refl) as -> ->|..].
      all: lz; fin ltac:(unfold f2_sub; vals).
  Qed.
  Lemma s_add6 : asp (b_Fp6_add il T) P1 P2 P3 (r_fp6 (f6_add c)).
  Proof.
    sb [IT RAX (RT, 0); i_add4 0; i_add4 32; i_add4 64; i_add4 96; i_add4 128; i_add4 160].
    - repeat constructor; apply ok_add4.
    - intros base E _ _. unfold b_Fp6_add, in_Fp_add_n. cbn [flat flat_map flat1 i_add4 fst snd Z.eqb rep]. rewrite E. reflexivity.
    - reflexivity.
    - intros bx by_ vx vy E1 E2 E3 L1 L2 _. cbn in L1, L2. len6 vx. len6 vy. bb bx by_ E1 E2; [injection (E3 eq_refl eq_refl) as -> -> -> -> -> ->|..].
      all: lz; fin ltac:(unfold f6_add, f2_add; vals).
  Qed.
  Lemma s_sub6 : asp (b_Fp6_sub il T) P1 P2 P3 (r_fp6 (f6_sub c)).
  Proof.
    sb [IT RAX (RT, 0); i_sub4 0; i_sub4 32; i_sub4 64; i_sub4 96; i_sub4 128; i_sub4 160].
    - repeat constructor; apply ok_sub4.
    - intros base E _ _. unfold b_Fp6_sub, in_Fp_sub_n. cbn [flat flat_map flat1 i_sub4 fst snd Z.eqb rep]. rewrite E. reflexivity.
    - reflexivity.
    - intros bx by_ vx vy E1 E2 E3 L1 L2 _. cbn in L1, L2. len6 vx. len6 vy. bb bx by_ E1 E2; [injection (E3 eq_refl eq_refl) as -> -> -> -> -> ->|..].
      all: lz; fin ltac:(unfold f6_sub, f2_sub; vals).
  Qed.
  Lemma k_addNC2 : asp [Call L_Fp2_addNC] P1 P2 P3 (bump (r_fp2 f2_addNC g4)).
  Proof. cl s_addNC2 (h_addNC2 il mx (snark c) T (cpp c) NT pre NP). Qed.
  Lemma k_add2 : asp [Call L_Fp2_add] P1 P2 P3 (bump (r_fp2 (f2_add c) (RAX :: g8))).
  Proof. cl s_add2 (h_add2 il mx (snark c) T (cpp c) NT pre NP). Qed.
  Lemma k_sub2 : asp [Call L_Fp2_sub] P1 P2 P3 (bump (r_fp2 (f2_sub c) (RAX :: g8))).
  Proof. cl s_sub2 (h_sub2 il mx (snark c) T (cpp c) NT pre NP). Qed.
  Lemma k_add6 : asp [Call L_Fp6_add] P1 P2 P3 (bump (r_fp6 (f6_add c))).
  Proof. cl s_add6 (h_add6 il mx (snark c) T (cpp c) NT pre NP). Qed.
  Lemma k_sub6 : asp [Call L_Fp6_sub] P1 P2 P3 (bump (r_fp6 (f6_sub c))).
  Proof. cl s_sub6 (h_sub6 il mx (snark c) T (cpp c) NT pre NP). Qed.
End Lib.
