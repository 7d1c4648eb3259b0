(** The kernels of JitZm compute sums, differences, products, quotients and remainders of
    vectors of words of any length. *)
From Coq Require Import ZArith List Bool Lia.
From Verif Require Import Base X64 XLog JitSpec XTac JitZm.
Import ListNotations.
Local Open Scope Z_scope.

(** ** addN and subN *)
Definition sg (isAdd : bool) : Z := if isAdd then 1 else -1.
Lemma wps_op0 isAdd l g x f m Q d o b : rd (mkSt g x f m) o = Some b -> isU (getr g d) -> isU b ->
    (forall z k u v, isU z -> EQ z (getr g d + sg isAdd * (b - B * Z.b2z k)) ->
       wps l (mkSt (setr g d z) x (mkF (Some k) u v) m) Q) ->
    wps (addsub isAdd (R d) o :: l) (mkSt g x f m) Q.
Proof.
  unfold EQ.
  intros E H1 H2 H. destruct isAdd; cbn [addsub sg] in *.
  - eapply wps_add; [exact E|exact H1|exact H2|]. intros z k Hz Ek. apply H; [exact Hz|unfold EQ in Ek; lia].
  - eapply wps_sub; [exact E|exact H1|exact H2|]. intros z k Hz Ek. apply H; [exact Hz|unfold EQ in Ek; lia].
Qed.
Lemma wps_opc isAdd l g x f m Q d o b c : rd (mkSt g x f m) o = Some b -> cf f = Some c -> isU (getr g d) -> isU b ->
    (forall z k u v, isU z -> EQ z (getr g d + sg isAdd * (b + Z.b2z c - B * Z.b2z k)) ->
       wps l (mkSt (setr g d z) x (mkF (Some k) u v) m) Q) ->
    wps (adcsbb isAdd (R d) o :: l) (mkSt g x f m) Q.
Proof.
  unfold EQ.
  intros E Ec H1 H2 H. destruct isAdd; cbn [adcsbb sg] in *.
  - eapply wps_adc; [exact E|exact Ec|exact H1|exact H2|]. intros z k Hz Ek. apply H; [exact Hz|unfold EQ in Ek; lia].
  - eapply wps_sbb; [exact E|exact Ec|exact H1|exact H2|]. intros z k Hz Ek. apply H; [exact Hz|unfold EQ in Ek; lia].
Qed.
Ltac sto :=
  lazymatch goal with
  | |- wps (addsub _ (R _) _ :: _) _ _ => eapply wps_op0; [rdo | bnd | bnd | sr; intros ? ? ? ? ? ?]
  | |- wps (adcsbb _ (R _) _ :: _) _ _ => eapply wps_opc; [rdo | reflexivity | bnd | bnd | sr; intros ? ? ? ? ? ?]
  | |- _ => st1
  end.

(** what a chunk of the sum leaves behind *)
Definition chunk (isAdd : bool) (c k : bool) (m m' : memory) (o : Z) (xs ys zs : list Z) : Prop :=
  length zs = length xs /\ Forall isU zs /\
  lv zs = lv xs + sg isAdd * (lv ys + Z.b2z c - B ^ Z.of_nat (length xs) * Z.b2z k) /\
  words m' o zs /\ same_but m m' o (length xs) /\ (forall b v, m b = Some v -> exists w, m' b = Some w).

Local Definition pre (isAdd : bool) (r : nat) : code :=
  Eval cbv [w8 Z.mul Pos.mul] in
  match r with
  | 1%nat => [ Mov (R RAX) (w8 RSI 0); addsub isAdd (R RAX) (w8 RDX 0); Mov (w8 RDI 0) (R RAX) ]
  | 2%nat => [ Mov (R RAX) (w8 RSI 0); Mov (R R8) (w8 RSI 1);
         addsub isAdd (R RAX) (w8 RDX 0); adcsbb isAdd (R R8) (w8 RDX 1);
         Mov (w8 RDI 0) (R RAX); Mov (w8 RDI 1) (R R8) ]
  | 3%nat => [ Mov (R RAX) (w8 RSI 0); Mov (R R8) (w8 RSI 1); Mov (R R9) (w8 RSI 2);
         addsub isAdd (R RAX) (w8 RDX 0); adcsbb isAdd (R R8) (w8 RDX 1); adcsbb isAdd (R R9) (w8 RDX 2);
         Mov (w8 RDI 0) (R RAX); Mov (w8 RDI 1) (R R8); Mov (w8 RDI 2) (R R9) ]
  | _ => [ Mov (R RAX) (w8 RSI 0); Mov (R R8) (w8 RSI 1); Mov (R R9) (w8 RSI 2); Mov (R R10) (w8 RSI 3);
    adcsbb isAdd (R RAX) (w8 RDX 0); adcsbb isAdd (R R8) (w8 RDX 1); adcsbb isAdd (R R9) (w8 RDX 2); adcsbb isAdd (R R10) (w8 RDX 3);
    Mov (w8 RDI 0) (R RAX); Mov (w8 RDI 1) (R R8); Mov (w8 RDI 2) (R R9); Mov (w8 RDI 3) (R R10) ]
  end.

Ltac mfin :=
  repeat match goal with
  | |- exists w, mset _ ?a ?v ?b = Some w => unfold mset at 1; destruct (b =? a); [eexists; reflexivity|]
  end; eexists; eassumption.
Ltac cpow := repeat match goal with |- context [Z.pow ?a ?b] => let v := eval vm_compute in (Z.pow a b) in change (Z.pow a b) with v end.
Ltac chunk_fin :=
  unfold chunk; cbn [length Z.of_nat Pos.of_succ_nat Pos.succ]; split; [reflexivity|];
  split; [repeat (apply Forall_cons; [assumption|]); apply Forall_nil|];
  split; [unfold isU, EQ in *; cbn [lv]; rewrite B_val in *; cpow;
          match goal with |- context [sg ?i] => destruct i; cbn [sg Z.b2z] in * end; lia|];
  split; [cbn [words]; repeat split; look|];
  split; [let b := fresh "b" in let Hb := fresh "Hb" in intros b Hb;
          cbn [length Z.of_nat Pos.of_succ_nat Pos.succ] in Hb; rewrite !mset_ne by lia; reflexivity|];
  intros ? ? ?; mfin.

Section Pre.
  Variables (isAdd : bool) (a b0 n d si di bp sp g8 g9 g10 g11 g12 g13 g14 g15 : Z) (X : xregs) (f : flags) (m : memory).
  Variables (c : bool).
  Let st := mkSt (mkR a b0 n d si di bp sp g8 g9 g10 g11 g12 g13 g14 g15) X f m.
  Hypotheses (S1 : 0 <= si) (D1 : 0 <= d) (O1 : 0 <= di).
  Definition after r xs ys c (Q : state -> Prop) : Prop :=
    forall a' t0 t1 t2 zs k m' u' v', chunk isAdd c k m m' di xs ys zs ->
       Q (mkSt (mkR a' b0 n d si di bp sp (if (r <=? 1)%nat then g8 else t0) (if (r <=? 2)%nat then g9 else t1)
            (if (r <=? 3)%nat then g10 else t2) g11 g12 g13 g14 g15) X (mkF (Some k) u' v') m').
  Lemma pre1 xs ys Q : length xs = 1%nat -> length ys = 1%nat -> Forall isU xs -> Forall isU ys ->
    si + 8 < B -> d + 8 < B -> di + 8 < B -> words m si xs -> words m d ys -> mapped m di 1 ->
    after 1 xs ys false Q -> wps (pre isAdd 1) st Q.
  Proof.
    destruct xs as [|x0 [|]]; try discriminate. destruct ys as [|y0 [|]]; try discriminate.
    intros _ _ Ux Uy A1 A2 A3 Hx Hy Ho H. cbn [words mapped] in Hx, Hy, Ho.
    repeat match goal with H : Forall _ _ |- _ => inversion H; clear H; subst end.
    destruct Hx as (X0 & _), Hy as (Y0 & _), Ho as ([w0 O3] & _). unfold st, pre. repeat sto.
    cbn [wps]. match goal with |- Q (mkSt (mkR ?a' _ _ _ _ _ _ _ ?t0 ?t1 ?t2 _ _ _ _ _) _ _ _) => apply (H a' t0 t1 t2 [a']) end.
    chunk_fin.
  Qed.
  Lemma pre2 xs ys Q : length xs = 2%nat -> length ys = 2%nat -> Forall isU xs -> Forall isU ys ->
    si + 16 < B -> d + 16 < B -> di + 16 < B -> words m si xs -> words m d ys -> mapped m di 2 ->
    after 2 xs ys false Q -> wps (pre isAdd 2) st Q.
  Proof.
    destruct xs as [|x0 [|x1 [|]]]; try discriminate. destruct ys as [|y0 [|y1 [|]]]; try discriminate.
    intros _ _ Ux Uy A1 A2 A3 Hx Hy Ho H. cbn [words mapped] in Hx, Hy, Ho.
    repeat match goal with H : Forall _ _ |- _ => inversion H; clear H; subst end.
    destruct Hx as (X0 & X1 & _), Hy as (Y0 & Y1 & _), Ho as ([w0 O3] & [w1 O4] & _). unfold st, pre. repeat sto.
    cbn [wps]. match goal with |- Q (mkSt (mkR ?a' _ _ _ _ _ _ _ ?t0 ?t1 ?t2 _ _ _ _ _) _ _ _) => apply (H a' t0 t1 t2 [a'; t0]) end.
    chunk_fin.
  Qed.
  Lemma pre3 xs ys Q : length xs = 3%nat -> length ys = 3%nat -> Forall isU xs -> Forall isU ys ->
    si + 24 < B -> d + 24 < B -> di + 24 < B -> words m si xs -> words m d ys -> mapped m di 3 ->
    after 3 xs ys false Q -> wps (pre isAdd 3) st Q.
  Proof.
    destruct xs as [|x0 [|x1 [|x2 [|]]]]; try discriminate. destruct ys as [|y0 [|y1 [|y2 [|]]]]; try discriminate.
    intros _ _ Ux Uy A1 A2 A3 Hx Hy Ho H. cbn [words mapped] in Hx, Hy, Ho.
    repeat match goal with H : Forall _ _ |- _ => inversion H; clear H; subst end.
    destruct Hx as (X0 & X1 & X2 & _), Hy as (Y0 & Y1 & Y2 & _), Ho as ([w0 O3] & [w1 O4] & [w2 O5] & _). unfold st, pre. repeat sto.
    cbn [wps]. match goal with |- Q (mkSt (mkR ?a' _ _ _ _ _ _ _ ?t0 ?t1 ?t2 _ _ _ _ _) _ _ _) => apply (H a' t0 t1 t2 [a'; t0; t1]) end.
    chunk_fin.
  Qed.
  Lemma pre4 xs ys Q : length xs = 4%nat -> length ys = 4%nat -> Forall isU xs -> Forall isU ys ->
    si + 32 < B -> d + 32 < B -> di + 32 < B -> words m si xs -> words m d ys -> mapped m di 4 ->
    cf f = Some c -> after 4 xs ys c Q -> wps (pre isAdd 4) st Q.
  Proof.
    destruct xs as [|x0 [|x1 [|x2 [|x3 [|]]]]]; try discriminate. destruct ys as [|y0 [|y1 [|y2 [|y3 [|]]]]]; try discriminate.
    intros _ _ Ux Uy A1 A2 A3 Hx Hy Ho Ec H. cbn [words mapped] in Hx, Hy, Ho.
    repeat match goal with H : Forall _ _ |- _ => inversion H; clear H; subst end.
    destruct Hx as (X0 & X1 & X2 & X3 & _), Hy as (Y0 & Y1 & Y2 & Y3 & _), Ho as ([w0 O3] & [w1 O4] & [w2 O5] & [w3 O6] & _). unfold st, pre. destruct f as [cf' u' v']; cbn [cf] in Ec; subst cf'. repeat sto.
    cbn [wps]. match goal with |- Q (mkSt (mkR ?a' _ _ _ _ _ _ _ ?t0 ?t1 ?t2 _ _ _ _ _) _ _ _) => apply (H a' t0 t1 t2 [a'; t0; t1; t2]) end.
    chunk_fin.
  Qed.
End Pre.
Lemma chunk_app isAdd c k k2 m m1 m2 o xs1 ys1 zs1 xs2 ys2 zs2 : length ys1 = length xs1 ->
  chunk isAdd c k m m1 o xs1 ys1 zs1 -> chunk isAdd k k2 m1 m2 (o + 8 * Z.of_nat (length xs1)) xs2 ys2 zs2 ->
  chunk isAdd c k2 m m2 o (xs1 ++ xs2) (ys1 ++ ys2) (zs1 ++ zs2).
Proof.
  intros Ly (L1 & U1 & V1 & W1 & S1 & K1) (L2 & U2 & V2 & W2 & S2 & K2). unfold chunk.
  rewrite !app_length. split; [lia|]. split; [apply Forall_app; auto|]. split; [|split; [|split]].
  - rewrite !lv_app, V1, V2, Ly, L1, Nat2Z.inj_add, Z.pow_add_r by lia. ring.
  - apply words_app. rewrite L1. split; [|exact W2]. apply (words_same m1); [|exact W1].
    intros b Hb. apply S2. lia.
  - intros b Hb. rewrite S2, S1 by lia. reflexivity.
  - intros b v E. destruct (K1 _ _ E) as [w E1]. exact (K2 _ _ E1).
Qed.

Section AddN.
  Variables (isAdd : bool) (ra : Z).
  Let C := genAddSub isAdd.
  Hypothesis Hra : fetch C ra = None.
  (** the state in which the code is left *)
  Definition fin (s : state) (sp : Z) c (m : memory) o xs ys (t : Z) (s' : state) : Prop :=
    t = ra /\ rsp (rg s') = sp + 8 /\ callee_saved (rg s) (rg s') /\
    exists zs k, chunk isAdd c k m (mem s') o xs ys zs /\ rax (rg s') = Z.b2z k.

  Lemma exit_ok g x k u v m sp m0 c o xs ys zs pc :
    rsp g = sp -> 0 <= sp -> sp + 8 < B -> m sp = Some ra -> chunk isAdd c k m0 m o xs ys zs ->
    at_ C pc [Mov (R RAX) (Im 0); SetcAl; Ret] ->
    wp C pc (mkSt g x (mkF (Some k) u v) m) (fin (mkSt g x noF m) sp c m0 o xs ys).
  Proof.
    intros Hsp S1 S2 Em Hc Ha.
    destruct (at_app _ _ [_; _] _ Ha) as [Ha1 Ha2]. destruct (at_cons _ _ _ _ Ha2) as [Er _].
    apply (wp_block _ _ _ _ _ Ha1). destruct g as [ga gb gc gd gsi gdi gbp gsp h8 h9 h10 h11 h12 h13 h14 h15]; cbn [X64.rsp] in Hsp; subst gsp. repeat st1. cbn [wps].
    eapply wp_ret; [exact Er|sr; exact Em|]. sr. rewrite Z.mod_small by lia.
    apply wp_done; [exact Hra|]. unfold fin, callee_saved; sr. repeat split. exists zs, k. auto.
  Qed.

  (** the loop, [j + 1] passes to go *)
  Lemma lp_ok j : forall xs ys a b0 d si di bp sp g8 g9 g10 g11 g12 g13 g14 g15 X c u v m,
    length xs = (4 * S j)%nat -> length ys = (4 * S j)%nat -> Forall isU xs -> Forall isU ys ->
    area si (4 * S j) -> area d (4 * S j) -> area di (4 * S j) -> Z.of_nat (S j) < B ->
    words m si xs -> words m d ys -> mapped m di (4 * S j) ->
    behind di si (4 * S j) -> behind di d (4 * S j) ->
    area sp 1 -> apart sp 1 di (4 * S j) -> m sp = Some ra ->
    wp C 75 (mkSt (mkR a b0 (Z.of_nat (S j)) d si di bp sp g8 g9 g10 g11 g12 g13 g14 g15) X (mkF (Some c) u v) m)
       (fin (mkSt (mkR a b0 (Z.of_nat (S j)) d si di bp sp g8 g9 g10 g11 g12 g13 g14 g15) X noF m) sp c m di xs ys).
  Proof.
    induction j as [|j IH]; intros xs ys a b0 d si di bp sp g8 g9 g10 g11 g12 g13 g14 g15 X c u v m
      Lx Ly Ux Uy A1 A2 A3 Hj Wx Wy Mo B1 B2 A4 Ap Em.
    all: blk 75 (Lab 2 :: pre isAdd 4 ++ [Lea RSI (Ad RSI 32); Lea RDX (Ad RDX 32); Lea RDI (Ad RDI 32); Dec RCX]).
    all: apply wps_lab; apply wps_app.
    all: destruct xs as [|x0 [|x1 [|x2 [|x3 xs]]]]; try (exfalso; cbn [length] in Lx; lia).
    all: destruct ys as [|y0 [|y1 [|y2 [|y3 ys]]]]; try (exfalso; cbn [length] in Ly; lia).
    all: change (x0 :: x1 :: x2 :: x3 :: xs) with ([x0; x1; x2; x3] ++ xs) in *;
         change (y0 :: y1 :: y2 :: y3 :: ys) with ([y0; y1; y2; y3] ++ ys) in *.
    all: rewrite app_length in Lx, Ly; cbn [length] in Lx, Ly.
    all: apply Forall_app in Ux; apply Forall_app in Uy; destruct Ux as [Ux1 Ux2], Uy as [Uy1 Uy2].
    all: apply words_app in Wx; apply words_app in Wy; destruct Wx as [Wx1 Wx2], Wy as [Wy1 Wy2].
    all: cbn [length] in Wx2, Wy2; change (8 * Z.of_nat 4) with 32 in Wx2, Wy2.
    all: unfold area, behind, apart in *.
    - apply (pre4 isAdd a b0 (Z.of_nat 1) d si di bp sp g8 g9 g10 g11 g12 g13 g14 g15 X (mkF (Some c) u v) m c
        ltac:(lia) ltac:(lia) ltac:(lia) [x0; x1; x2; x3] [y0; y1; y2; y3]); try reflexivity; try assumption; try lia.
      intros a' t0 t1 t2 zs k m' u' v' HC. cbn [Nat.leb].
      assert (Hn : isU (Z.of_nat 1)) by (unfold isU; rewrite B_val; lia).
      repeat st1. cbn [wps app length]. pcs.
      eapply (wp_jcc _ _ _ _ 75); [reflexivity|unfold C; destruct isAdd; reflexivity|reflexivity|intros E; discriminate E|intros _]. pcs.
      assert (Lx2 : xs = []) by (destruct xs; [reflexivity|discriminate Lx]). subst xs.
      assert (Ly2 : ys = []) by (destruct ys; [reflexivity|discriminate Ly]). subst ys.
      blk 93 [Lab 3]. apply wps_lab. cbn [wps]. pcs.
      eapply wp_mono; [eapply exit_ok with (sp := sp); try reflexivity; try lia|].
      + destruct HC as (_ & _ & _ & _ & Sb & _). rewrite Sb; [exact Em|]. cbn [length]. lia.
      + exact HC.
      + apply at_comp; [lia|reflexivity|reflexivity].
      + intros t s' HH. exact HH.
    - apply (pre4 isAdd a b0 (Z.of_nat (S (S j))) d si di bp sp g8 g9 g10 g11 g12 g13 g14 g15 X (mkF (Some c) u v) m c
        ltac:(lia) ltac:(lia) ltac:(lia) [x0; x1; x2; x3] [y0; y1; y2; y3]); try reflexivity; try assumption; try lia.
      { replace (4 * S (S j))%nat with (4 + 4 * S j)%nat in Mo by lia. apply mapped_app in Mo. apply Mo. }
      intros a' t0 t1 t2 zs k m' u' v' HC. cbn [Nat.leb].
      assert (Hn : isU (Z.of_nat (S (S j)))) by (unfold isU; lia).
      repeat st1. cbn [wps app length]. pcs.
      replace (Z.of_nat (S (S j)) - 1) with (Z.of_nat (S j)) by lia.
      eapply (wp_jcc _ _ _ _ 75); [reflexivity|unfold C; destruct isAdd; reflexivity|reflexivity|intros _|intros E; sr; exfalso; revert E; cbn [holds zf option_map]; lia].
      pose proof HC as (_ & _ & _ & _ & Sb & K). cbn [length] in Sb.
      eapply wp_mono; [apply (IH xs ys); unfold area, behind, apart; try assumption; try lia|].
      + apply (words_same m); [|exact Wx2]. intros b Hb. apply Sb. lia.
      + apply (words_same m); [|exact Wy2]. intros b Hb. apply Sb. lia.
      + replace (4 * S (S j))%nat with (4 + 4 * S j)%nat in Mo by lia. apply mapped_app in Mo.
        apply (mapped_keep m m' _ _ K). apply Mo.
      + rewrite Sb; [exact Em|]. lia.
      + intros t s' (E1 & E2 & E3 & zs2 & k2 & HC2 & E4). split; [exact E1|]. split; [exact E2|]. split; [exact E3|].
        exists (zs ++ zs2), k2. split; [|exact E4].
        apply (chunk_app isAdd c k k2 m m' (mem s') di [x0; x1; x2; x3] [y0; y1; y2; y3] zs xs ys zs2 eq_refl HC HC2).
  Qed.

  Ltac jc t := eapply (wp_jcc _ _ _ _ t); [reflexivity|unfold C; destruct isAdd; reflexivity|reflexivity|
     cbn [holds fl zf lf cf option_map]; intros ?J|cbn [holds fl zf lf cf option_map]; intros ?J]; try (exfalso; lia); pcs.
  Lemma sep m m' o k b0 n d si di bp sp g11 g12 g13 g14 g15 X c u v xs ys zs pc a' t0 t1 t2 g0 :
    area sp 1 -> apart sp 1 o (length xs) -> m sp = Some ra -> chunk isAdd c k m m' o xs ys zs ->
    at_ C pc [Mov (R RAX) (Im 0); SetcAl; Ret] ->
    callee_saved (rg g0) (mkR a' b0 n d si di bp sp t0 t1 t2 g11 g12 g13 g14 g15) ->
    wp C pc (mkSt (mkR a' b0 n d si di bp sp t0 t1 t2 g11 g12 g13 g14 g15) X (mkF (Some k) u v) m') (fin g0 sp c m o xs ys).
  Proof.
    intros [A1 A2] Ap Em HC Ha HS. change (Z.of_nat 1) with 1 in A2.
    eapply wp_mono; [eapply exit_ok with (sp := sp); try reflexivity; try lia|].
    - destruct HC as (_ & _ & _ & _ & Sb & _). rewrite Sb; [exact Em|]. unfold apart in Ap. lia.
    - exact HC.
    - exact Ha.
    - intros t s' (E1 & E2 & E3 & E4). split; [exact E1|]. split; [exact E2|]. split; [|exact E4].
      unfold callee_saved in *; cbn [X64.rg X64.rbx X64.rbp X64.r12 X64.r13 X64.r14 X64.r15] in *. intuition congruence.
  Qed.

  (** the remainder block of [r] words followed by the loop *)
  Lemma rest_ok r j xs1 ys1 xs2 ys2 zs b0 d si di bp sp g10 g11 g12 g13 g14 g15 X k u v m m' a' t0 t1 n0 g0 :
    length xs1 = r -> length ys1 = r -> length xs2 = (4 * S j)%nat -> length ys2 = (4 * S j)%nat ->
    Forall isU xs2 -> Forall isU ys2 -> n0 = Z.of_nat (S j) ->
    area si (r + 4 * S j) -> area d (r + 4 * S j) -> area di (r + 4 * S j) -> Z.of_nat (S j) < B ->
    words m (si + 8 * Z.of_nat r) xs2 -> words m (d + 8 * Z.of_nat r) ys2 -> mapped m di (r + 4 * S j) ->
    behind di si (r + 4 * S j) -> behind di d (r + 4 * S j) ->
    area sp 1 -> apart sp 1 di (r + 4 * S j) -> m sp = Some ra ->
    chunk isAdd false k m m' di xs1 ys1 zs ->
    callee_saved (rg g0) (mkR a' b0 n0 d si di bp sp t0 t1 g10 g11 g12 g13 g14 g15) ->
    wp C 75 (mkSt (mkR a' b0 n0 (d + 8 * Z.of_nat r) (si + 8 * Z.of_nat r) (di + 8 * Z.of_nat r) bp sp t0 t1 g10 g11 g12 g13 g14 g15) X (mkF (Some k) u v) m')
       (fin g0 sp false m di (xs1 ++ xs2) (ys1 ++ ys2)).
  Proof.
    unfold area, behind, apart. intros Lx1 Ly1 Lx2 Ly2 Ux Uy -> A1 A2 A3 Hj Wx Wy Mo B1 B2 A4 Ap Em HC HS.
    pose proof HC as (_ & _ & _ & _ & Sb & K). rewrite Lx1 in Sb.
    eapply wp_mono; [apply (lp_ok j xs2 ys2); unfold area, behind, apart; try assumption; try lia|].
    - apply (words_same m); [|exact Wx]. intros b Hb. apply Sb. lia.
    - apply (words_same m); [|exact Wy]. intros b Hb. apply Sb. lia.
    - apply mapped_app in Mo. apply (mapped_keep m m' _ _ K). apply Mo.
    - rewrite Sb; [exact Em|]. lia.
    - intros t s' (E1 & E2 & E3 & zs2 & k2 & HC2 & E4). split; [exact E1|]. split; [exact E2|]. split.
      + unfold callee_saved in *; cbn [X64.rg X64.rbx X64.rbp X64.r12 X64.r13 X64.r14 X64.r15] in *. intuition congruence.
      + exists (zs ++ zs2), k2. split; [|exact E4].
        eapply chunk_app; [congruence|exact HC|]. rewrite Lx1. exact HC2.
  Qed.

  Lemma all_ok xs ys a b0 d si di bp sp g8 g9 g10 g11 g12 g13 g14 g15 X f m : let n := length xs in
    (1 <= n)%nat -> length ys = n -> Forall isU xs -> Forall isU ys ->
    area si n -> area d n -> area di n ->
    words m si xs -> words m d ys -> mapped m di n -> behind di si n -> behind di d n ->
    area sp 1 -> apart sp 1 di n -> m sp = Some ra ->
    let s := mkSt (mkR a b0 (Z.of_nat n) d si di bp sp g8 g9 g10 g11 g12 g13 g14 g15) X f m in
    wp C 0 s (fin s sp false m di xs ys).
  Proof.
    intros n Hn Ly Ux Uy A1 A2 A3 Wx Wy Mo B1 B2 A4 Ap Em s. unfold s. clear s.
    pose proof A1 as [A1a A1b]. pose proof A2 as [A2a A2b]. pose proof A3 as [A3a A3b].
    assert (Hn2 : Z.of_nat n < 2 ^ 61) by (rewrite B_val in *; lia).
    assert (Un : isU (Z.of_nat n)) by (unfold isU; lia).
    assert (Sn : signed (Z.of_nat n) = Z.of_nat n).
    { unfold signed. replace (Z.of_nat n <? 2 ^ 63) with true; [reflexivity|]. symmetry. apply Z.ltb_lt.
      apply (Z.lt_trans _ _ _ Hn2). reflexivity. }
    blk 0 [Cmp (R RCX) (Im 4)]. repeat st1. cbn [wps]. pcs.
    rewrite Sn. change (signed 4) with 4.
    jc 35.
    - blk 35 [Lab 1; Mov (R RAX) (R RCX); Shr RCX 2; And (R RAX) (Im 3)].
      do 2 st1. eapply wps_other; [reflexivity|]. sr. st1. cbn [wps]. pcs.
      change 3 with (Z.ones 2). rewrite Z.land_ones by lia. change (2 ^ 2) with 4.
      set (q := (n / 4)%nat). set (r := (n mod 4)%nat).
      assert (Er : Z.of_nat n mod 4 = Z.of_nat r) by (unfold r; rewrite Nat2Z.inj_mod; reflexivity).
      assert (Eq : Z.of_nat n / 4 = Z.of_nat q) by (unfold q; rewrite Nat2Z.inj_div; reflexivity).
      rewrite Er, Eq. unfold flog.
      assert (En : n = (r + 4 * q)%nat) by (unfold r, q; pose proof (Nat.div_mod n 4); lia).
      assert (Hr : (r < 4)%nat) by (unfold r; apply Nat.mod_upper_bound; lia).
      clearbody r q. clear Er Eq. destruct q as [|j]; [exfalso; lia|].
      rewrite En in A1, A2, A3, A1b, A2b, A3b, Mo, B1, B2, Ap, Ly. clear Sn.
      pose proof (firstn_skipn r xs) as Ex. pose proof (firstn_skipn r ys) as Ey.
      assert (Lx1 : length (firstn r xs) = r) by (apply firstn_length_le; lia).
      assert (Ly1 : length (firstn r ys) = r) by (apply firstn_length_le; lia).
      assert (Lx2 : length (skipn r xs) = (4 * S j)%nat) by (rewrite skipn_length; fold n; lia).
      assert (Ly2 : length (skipn r ys) = (4 * S j)%nat) by (rewrite skipn_length; lia).
      set (xs1 := firstn r xs) in *. set (ys1 := firstn r ys) in *. set (xs2 := skipn r xs) in *. set (ys2 := skipn r ys) in *.
      clearbody xs1 xs2 ys1 ys2 n. subst xs ys n.
      apply Forall_app in Ux; apply Forall_app in Uy; destruct Ux as [Ux1 Ux2], Uy as [Uy1 Uy2].
      apply words_app in Wx; apply words_app in Wy; destruct Wx as [Wx1 Wx2], Wy as [Wy1 Wy2].
      rewrite Lx1 in Wx2. rewrite Ly1 in Wy2. pose proof Mo as Mo'. apply mapped_app in Mo'. destruct Mo' as [Mo1 _].
      assert (Ur : isU (Z.of_nat r)) by (unfold isU; lia).
      jc 75.
      + assert (Er : r = 0%nat) by lia. rewrite Er in *. clear Er r.
        destruct xs1; [|discriminate Lx1]. destruct ys1; [|discriminate Ly1].
        pose proof (fun g0 => rest_ok 0 j [] [] xs2 ys2 [] b0 d si di bp sp g10 g11 g12 g13 g14 g15 X false (Some (Z.of_nat 0 =? 0)) (Some (signed (Z.of_nat 0) <? 0)) m m
          (Z.of_nat 0) g8 g9 (Z.of_nat (S j)) g0) as RO.
        change (8 * Z.of_nat 0) with 0 in *. rewrite !Z.add_0_r in *.
        apply RO; try reflexivity; try assumption; try lia.
        * unfold chunk. cbn. repeat split; try constructor; try lia. intros b v Hb; exists v; exact Hb.
        * repeat split.
      + blk 40 [Cmp (R RAX) (Im 1)]. repeat st1. cbn [wps]. pcs. jc 49.
        * blk 49 [Lab 13; Cmp (R RAX) (Im 2)]. repeat st1. cbn [wps]. pcs. jc 62.
          -- blk 62 (Lab 14 :: pre isAdd 3 ++ [Lea RSI (Ad RSI 24); Lea RDX (Ad RDX 24); Lea RDI (Ad RDI 24)]). apply wps_lab. apply wps_app.
             assert (E : r = 3%nat) by lia. rewrite E in *. clear E r. apply (pre3 isAdd (Z.of_nat 3) b0 (Z.of_nat (S j)) d si di bp sp g8 g9 g10 g11 g12 g13 g14 g15 X _ m
               ltac:(lia) ltac:(lia) ltac:(lia) xs1 ys1); try reflexivity; try assumption; try lia.
             intros a' t0 t1 t2 zs k m' u' v' HC. cbn [Nat.leb]. change (8 * Z.of_nat 3) with 24 in *. repeat st1. cbn [wps app length]. pcs. 
             eapply (rest_ok 3 j xs1 ys1 xs2 ys2 zs); try reflexivity; try eassumption; try lia. repeat split.
          -- blk 52 (pre isAdd 2 ++ [Lea RSI (Ad RSI 16); Lea RDX (Ad RDX 16); Lea RDI (Ad RDI 16)]). apply wps_app.
             assert (E : r = 2%nat) by lia. rewrite E in *. clear E r. apply (pre2 isAdd (Z.of_nat 2) b0 (Z.of_nat (S j)) d si di bp sp g8 g9 g10 g11 g12 g13 g14 g15 X _ m
               ltac:(lia) ltac:(lia) ltac:(lia) xs1 ys1); try reflexivity; try assumption; try lia.
             intros a' t0 t1 t2 zs k m' u' v' HC. cbn [Nat.leb]. change (8 * Z.of_nat 2) with 16 in *. repeat st1. cbn [wps app length]. pcs. eapply (wp_jmp _ _ _ 75); [reflexivity|unfold C; destruct isAdd; reflexivity|].
             eapply (rest_ok 2 j xs1 ys1 xs2 ys2 zs); try reflexivity; try eassumption; try lia. repeat split.
        * blk 42 (pre isAdd 1 ++ [Lea RSI (Ad RSI 8); Lea RDX (Ad RDX 8); Lea RDI (Ad RDI 8)]). apply wps_app.
          assert (E : r = 1%nat) by lia. rewrite E in *. clear E r. apply (pre1 isAdd (Z.of_nat 1) b0 (Z.of_nat (S j)) d si di bp sp g8 g9 g10 g11 g12 g13 g14 g15 X _ m
               ltac:(lia) ltac:(lia) ltac:(lia) xs1 ys1); try reflexivity; try assumption; try lia.
             intros a' t0 t1 t2 zs k m' u' v' HC. cbn [Nat.leb]. change (8 * Z.of_nat 1) with 8 in *. repeat st1. cbn [wps app length]. pcs. eapply (wp_jmp _ _ _ 75); [reflexivity|unfold C; destruct isAdd; reflexivity|].
             eapply (rest_ok 1 j xs1 ys1 xs2 ys2 zs); try reflexivity; try eassumption; try lia. repeat split.
    - blk 2 [Cmp (R RCX) (Im 1)]. repeat st1. cbn [wps]. pcs. jc 10.
      + blk 10 [Lab 11; Cmp (R RCX) (Im 2)]. repeat st1. cbn [wps]. pcs. jc 22.
        * blk 22 (Lab 12 :: pre isAdd 3). apply wps_lab.
          assert (E : n = 3%nat) by lia.
          apply (pre3 isAdd a b0 (Z.of_nat n) d si di bp sp g8 g9 g10 g11 g12 g13 g14 g15 X _ m
            ltac:(lia) ltac:(lia) ltac:(lia) xs ys); try reflexivity; try assumption; try lia; try congruence.
          intros a' t0 t1 t2 zs k m' u' v' HC. cbn [Nat.leb]. pcs. eapply sep; try eassumption.
          -- apply at_comp; [lia|reflexivity|reflexivity].
          -- repeat split.
        * blk 13 (pre isAdd 2).
          assert (E : n = 2%nat) by lia.
          apply (pre2 isAdd a b0 (Z.of_nat n) d si di bp sp g8 g9 g10 g11 g12 g13 g14 g15 X _ m
            ltac:(lia) ltac:(lia) ltac:(lia) xs ys); try reflexivity; try assumption; try lia; try congruence.
          intros a' t0 t1 t2 zs k m' u' v' HC. cbn [Nat.leb]. pcs. eapply sep; try eassumption.
          -- apply at_comp; [lia|reflexivity|reflexivity].
          -- repeat split.
      + blk 4 (pre isAdd 1).
        assert (E : n = 1%nat) by lia.
        apply (pre1 isAdd a b0 (Z.of_nat n) d si di bp sp g8 g9 g10 g11 g12 g13 g14 g15 X _ m
          ltac:(lia) ltac:(lia) ltac:(lia) xs ys); try reflexivity; try assumption; try lia; try congruence.
        intros a' t0 t1 t2 zs k m' u' v' HC. cbn [Nat.leb]. pcs. eapply sep; try eassumption.
        -- apply at_comp; [lia|reflexivity|reflexivity].
        -- repeat split.
  Qed.
End AddN.

(** ** add1 *)
Section Add1.
  Variables (isAdd : bool) (ra : Z).
  Let C := genAddSub1 isAdd.
  Hypothesis Hra : fetch C ra = None.
  Lemma ea_end g b i k X : getr g b = X -> getr g i = B - k -> 0 <= X - 8 * k < B -> ea g (AdI b i 8 0) = X - 8 * k.
  Proof. cbn [ea]. intros -> -> H. symmetry. apply (Z.mod_unique _ _ 8); lia. Qed.
  Lemma exit1_ok g x k u v m sp m0 c o xs ys zs :
    rsp g = sp -> rax g = 0 -> area sp 1 -> m sp = Some ra -> chunk isAdd c k m0 m o xs ys zs ->
    wp C 17 (mkSt g x (mkF (Some k) u v) m) (fin isAdd ra (mkSt g x noF m) sp c m0 o xs ys).
  Proof.
    unfold area. change (Z.of_nat 1) with 1. intros Hsp Ha [S1 S2] Em Hc.
    blk 17 [Lab 3; SetcAl]. destruct g as [ga gb gc gd gsi gdi gbp gsp h8 h9 h10 h11 h12 h13 h14 h15].
    cbn [X64.rsp X64.rax] in Hsp, Ha; subst gsp ga. repeat st1. cbn [wps]. pcs.
    eapply wp_ret; [reflexivity|sr; exact Em|]. sr. rewrite Z.mod_small by lia.
    apply wp_done; [exact Hra|]. unfold fin, callee_saved; sr. repeat split. exists zs, k. auto.
  Qed.
  (** [k + 1] words to go *)
  Lemma lp1_ok k : forall xs b0 d si di bp sp g8 g9 g10 g11 g12 g13 g14 g15 X c u v m o x,
    length xs = S k -> Forall isU xs -> si = x + 8 * Z.of_nat (S k) -> di = o + 8 * Z.of_nat (S k) ->
    area x (S k) -> area o (S k) -> words m x xs -> mapped m o (S k) -> behind o x (S k) ->
    area sp 1 -> apart sp 1 o (S k) -> m sp = Some ra ->
    wp C 11 (mkSt (mkR 0 b0 (B - Z.of_nat (S k)) d si di bp sp g8 g9 g10 g11 g12 g13 g14 g15) X (mkF (Some c) u v) m)
       (fin isAdd ra (mkSt (mkR 0 b0 (B - Z.of_nat (S k)) d si di bp sp g8 g9 g10 g11 g12 g13 g14 g15) X noF m) sp c m o xs []).
  Proof.
    induction k as [|k IH]; intros xs b0 d si di bp sp g8 g9 g10 g11 g12 g13 g14 g15 X c u v m o x
      Lx Ux Esi Edi A1 A2 Wx Mo B1 A3 Ap Em.
    all: blk 11 [Lab 2; Mov (R R8) (M (AdI RSI RCX 8 0)); adcsbb isAdd (R R8) (R RAX); Mov (M (AdI RDI RCX 8 0)) (R R8); Inc RCX].
    all: destruct xs as [|x0 xs]; try discriminate Lx; cbn [words mapped] in Wx, Mo; destruct Wx as [Wx0 Wx], Mo as [[o0 Mo0] Mo].
    all: inversion Ux as [|? ? Ux0 Ux1]; subst.
    all: pose proof A1 as [A1a A1b]; pose proof A2 as [A2a A2b].
    all: assert (U0 : isU 0) by (unfold isU; rewrite B_val; lia).
    all: st1; eapply wps_mov; [eapply rd_mem; [eapply ea_end; [sr; reflexivity|sr; reflexivity|lia]|]|].
    1, 3: match goal with |- ?mm ?q = _ => replace q with x by lia; exact Wx0 end.
    all: sr; sto.
    all: eapply wps_store; [eapply ea_end; [sr; reflexivity|sr; reflexivity|lia]|match goal with |- ?mm ?q = _ => replace q with o by lia; exact Mo0 end|].
    all: sr; eapply wps_other; [reflexivity|]; sr.
    all: match goal with |- context [mset ?mm ?q _] => replace q with o by lia end.
    all: match goal with H : context [B * Z.b2z ?kk] |- _ => rename kk into kc end.
    all: assert (HC : chunk isAdd c kc m (mset m o z) o [x0] [] [z]).
    1, 3: chunk_fin.
    all: pose proof HC as (_ & _ & _ & _ & Sb & K); cbn [length] in Sb.
    - cbn [wps]. pcs. assert (E : xs = []) by (destruct xs; [reflexivity|discriminate Lx]). subst xs.
      replace ((B - Z.of_nat 1 + 1) mod B) with 0 by (replace (B - Z.of_nat 1 + 1) with B by lia; symmetry; apply Z_mod_same_full).
      eapply (wp_jcc _ _ _ _ 11); [reflexivity|unfold C; destruct isAdd; reflexivity|reflexivity|intros E; discriminate E|intros _]. pcs.
      unfold area, apart in *.
      eapply wp_mono; [eapply exit1_ok with (sp := sp); try reflexivity; try eassumption|].
      + rewrite mset_ne by lia. exact Em.
      + intros t s' HH. exact HH.
    - cbn [wps]. pcs. cbn [length] in Lx.
      replace ((B - Z.of_nat (S (S k)) + 1) mod B) with (B - Z.of_nat (S k)) by (symmetry; apply mod_id; lia).
      eapply (wp_jcc _ _ _ _ 11); [reflexivity|unfold C; destruct isAdd; reflexivity|reflexivity|intros _|intros E; exfalso; revert E; cbn [holds fl zf option_map]; lia].
      unfold area, apart, behind in *.
      eapply wp_mono; [apply (IH xs) with (x := x + 8) (o := o + 8); unfold area, apart, behind; try assumption; try lia|].
      + apply (words_same m); [|exact Wx]. intros b Hb. apply Sb. lia.
      + apply (mapped_keep m _ _ _ K). exact Mo.
      + rewrite mset_ne by lia. exact Em.
      + intros t s' (E1 & E2 & E3 & zs2 & k2 & HC2 & E4). split; [exact E1|]. split; [exact E2|]. split; [exact E3|].
        exists (z :: zs2), k2. split; [|exact E4]. 
        pose proof HC as (L1 & U1 & V1 & W1 & S1 & K1). destruct HC2 as (L2 & U2 & V2 & W2 & S2 & K2).
        unfold chunk. cbn [length]. split; [lia|]. split; [constructor; [assumption|exact U2]|]. split; [|split; [|split]].
        * cbn [lv] in *. rewrite Nat2Z.inj_succ, Z.pow_succ_r by lia. cbn [length] in V1. change (Z.of_nat 1) with 1 in V1. rewrite Z.pow_1_r in V1. rewrite V2.
          replace z with (z + B * 0) by lia. rewrite V1. ring.
        * cbn [words]. split; [rewrite S2 by lia; apply mset_eq; reflexivity|exact W2].
        * intros b Hb. rewrite S2 by lia. apply S1. cbn [length]. lia.
        * intros b w E. destruct (K1 _ _ E) as [w' Ew]. exact (K2 _ _ Ew).
  Qed.

  Lemma all1_ok xs a b0 n d si di bp sp g8 g9 g10 g11 g12 g13 g14 g15 X f m y : n = length xs ->
    (1 <= n)%nat -> Forall isU xs -> isU y ->
    area si n -> area di n -> words m si xs -> mapped m di n -> behind di si n ->
    area sp 1 -> apart sp 1 di n -> m sp = Some ra -> d = Z.of_nat n ->
    let s := mkSt (mkR a b0 y d si di bp sp g8 g9 g10 g11 g12 g13 g14 g15) X f m in
    wp C 0 s (fin isAdd ra s sp false m di xs [y]).
  Proof.
    intros En Hn Ux Uy A1 A2 Wx Mo B1 A3 Ap Em Ed s. unfold s. clear s.
    pose proof A1 as [A1a A1b]. pose proof A2 as [A2a A2b].
    destruct xs as [|x0 xs]; [subst n; exfalso; cbn in Hn; lia|]. cbn [words] in Wx. destruct Wx as [Wx0 Wx].
    inversion Ux as [|? ? Ux0 Ux1]; subst. cbn [length] in *. cbn [mapped] in Mo. destruct Mo as [[o0 Mo0] Mo].
    set (k := length xs) in *. assert (Lk : length xs = k) by reflexivity. clearbody k.
    blk 0 [Mov (R R10) (R RCX); Mov (R RCX) (R RDX); Lea RDI (AdI RDI RCX 8 0); Lea RSI (AdI RSI RCX 8 0); Xor (R RAX) (R RAX); Neg RCX;
      Mov (R R8) (M (AdI RSI RCX 8 0)); addsub isAdd (R R8) (R R10); Mov (M (AdI RDI RCX 8 0)) (R R8); Inc RCX].
    do 5 st1. eapply wps_other; [reflexivity|]. sr.
    replace ((- Z.of_nat (S k)) mod B) with (B - Z.of_nat (S k)) by (apply (Z.mod_unique _ _ (-1)); lia).
    eapply wps_mov; [eapply rd_mem; [eapply ea_end; [sr; reflexivity|sr; reflexivity|lia]|]|].
    { match goal with |- m ?q = _ => replace q with si by lia; exact Wx0 end. }
    sr. sto.
    eapply wps_store; [eapply ea_end; [sr; reflexivity|sr; reflexivity|lia]|match goal with |- m ?q = _ => replace q with di by lia; exact Mo0 end|].
    sr. eapply wps_other; [reflexivity|]; sr.
    match goal with |- context [mset m ?q z] => replace q with di by lia end.
    assert (HC : chunk isAdd false k0 m (mset m di z) di [x0] [y] [z]) by chunk_fin.
    pose proof HC as (_ & _ & _ & _ & Sb & K); cbn [length] in Sb.
    cbn [wps]. pcs. unfold area, apart, behind in *.
    destruct k as [|k].
    - replace ((B - Z.of_nat 1 + 1) mod B) with 0 by (replace (B - Z.of_nat 1 + 1) with B by lia; symmetry; apply Z_mod_same_full).
      eapply (wp_jcc _ _ _ _ 17); [reflexivity|unfold C; destruct isAdd; reflexivity|reflexivity|intros _|intros E; discriminate E].
      destruct xs; [|discriminate Lk].
      eapply wp_mono; [eapply exit1_ok with (sp := sp); try reflexivity; try eassumption|].
      + rewrite mset_ne by lia. exact Em.
      + intros t s' HH. exact HH.
    - replace ((B - Z.of_nat (S (S k)) + 1) mod B) with (B - Z.of_nat (S k)) by (symmetry; apply mod_id; lia).
      eapply (wp_jcc _ _ _ _ 17); [reflexivity|unfold C; destruct isAdd; reflexivity|reflexivity|intros E; exfalso; revert E; cbn [holds fl zf option_map]; lia|intros _]. pcs.
      eapply wp_mono; [apply (lp1_ok k xs) with (x := si + 8) (o := di + 8); unfold area, apart, behind; try assumption; try lia|].
      + apply (words_same m); [|exact Wx]. intros b Hb. apply Sb. lia.
      + apply (mapped_keep m _ _ _ K). exact Mo.
      + rewrite mset_ne by lia. exact Em.
      + intros t s' (E1 & E2 & E3 & zs2 & k2 & HC2 & E4). split; [exact E1|]. split; [exact E2|]. split; [exact E3|].
        exists (z :: zs2), k2. split; [|exact E4]. 
        exact (chunk_app isAdd false k0 k2 m _ (mem s') di [x0] [y] [z] xs [] zs2 eq_refl HC HC2).
  Qed.
End Add1.
