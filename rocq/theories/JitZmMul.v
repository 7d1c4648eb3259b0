(** The generated mul1, div1 and mod1. *)
From Coq Require Import ZArith List Bool Lia.
From Verif Require Import Base X64 XLog JitSpec XTac JitZm.
Import ListNotations.
Local Open Scope Z_scope.

Ltac addx := eapply wps_add_ex; [rdo | sr; lia | sr].
Ltac subx := eapply wps_sub_ex; [rdo | sr; lia | sr].

Lemma hi_bound x y lo hi t z c : isU x -> isU y -> isU lo -> isU hi -> isU t -> isU z -> 0 <= c <= 1 ->
  lo + B * hi = x * y -> z + B * c = t + lo -> hi + c < B.
Proof.
  unfold isU. pose proof B_pos as HB. generalize dependent B. intros b HB Hx Hy Hlo Hhi Ht Hz Hc E1 E2.
  assert (x * y <= (b - 1) * (b - 1)) by nia. nia.
Qed.

Local Definition bodym : code := [Lab 2; Mov (R R11) (R RDX); Mov (R RAX) (M (Ad RSI 0)); Mul (R RCX); Add (R R11) (R RAX); Adc (R RDX) (Im 0); Mov (M (Ad RDI 0)) (R R11);
   Add (R RSI) (Im 8); Add (R RDI) (Im 8); Sub (R R10) (Im 1)].
Lemma bodym_ok a b0 y d si di bp sp g8 g9 n g11 g12 g13 g14 g15 X f m x0 w (Q : state -> Prop) :
  isU x0 -> isU y -> isU d -> m si = Some x0 -> m di = Some w -> 0 <= si -> si + 8 < B -> 0 <= di -> di + 8 < B -> 1 <= n < B ->
  (forall a' z h, isU z -> isU h -> z + B * h = d + x0 * y ->
     Q (mkSt (mkR a' b0 y h (si + 8) (di + 8) bp sp g8 g9 (n - 1) z g12 g13 g14 g15) X
         (mkF (Some false) (Some (n - 1 =? 0)) (Some (signed n <? signed 1))) (mset m di z))) ->
  wps bodym (mkSt (mkR a b0 y d si di bp sp g8 g9 n g11 g12 g13 g14 g15) X f m) Q.
Proof.
  intros Ux Uy Ud Ex Eo S1 S2 D1 D2 Hn H. unfold bodym.
  assert (U0 : isU 0) by (unfold isU; rewrite B_val; lia).
  do 6 st1.
  assert (EH : z0 = hi + Z.b2z k).
  { pose proof (hi_bound x0 y lo hi d z (Z.b2z k) Ux Uy ltac:(assumption) ltac:(assumption) Ud ltac:(assumption) ltac:(destruct k; cbn; lia) ltac:(assumption) ltac:(assumption)).
    unfold EQ, isU in *. destruct k0; cbn [Z.b2z] in *; lia. }
  st1. addx. addx. subx. cbn [wps]. rewrite Z.add_0_r. apply H; try assumption.
  unfold EQ in *. rewrite EH. lia.
Qed.

Section Mul1.
  Variable ra : Z.
  Hypothesis Hra : fetch genMul ra = None.
  Lemma lpm_ok k : forall xs a b0 y d si di bp sp g8 g9 g11 g12 g13 g14 g15 X f m,
    length xs = S k -> Forall isU xs -> isU y -> isU d ->
    area si (S k) -> area di (S (S k)) -> words m si xs -> mapped m di (S (S k)) -> behind di si (S k) ->
    area sp 1 -> apart sp 1 di (S (S k)) -> m sp = Some ra ->
    let s := mkSt (mkR a b0 y d si di bp sp g8 g9 (Z.of_nat (S k)) g11 g12 g13 g14 g15) X f m in
    wp genMul 2 s (fun t s' => t = ra /\ rsp (rg s') = sp + 8 /\ callee_saved (rg s) (rg s') /\
      exists zs, length zs = S (S k) /\ Forall isU zs /\ lv zs = d + y * lv xs /\ words (mem s') di zs /\ same_but m (mem s') di (S (S k))).
  Proof.
    induction k as [|k IH]; intros xs a b0 y d si di bp sp g8 g9 g11 g12 g13 g14 g15 X f m
      Lx Ux Uy Ud A1 A2 Wx Mo B1 A3 Ap Em s; unfold s; clear s.
    all: blk 2 bodym.
    all: destruct xs as [|x0 xs]; try discriminate Lx; cbn [words mapped] in Wx, Mo; destruct Wx as [Wx0 Wx], Mo as [[o0 Mo0] [[o1 Mo1] Mo]].
    all: inversion Ux as [|? ? Ux0 Ux1]; subst; cbn [length] in Lx.
    all: unfold area, apart, behind in *.
    all: eapply bodym_ok; try eassumption; try lia; intros a' z h Uz Uh E; cbn [length bodym]; pcs.
    - replace (Z.of_nat 1 - 1) with 0 by lia.
      eapply (wp_jcc _ _ _ _ 2); [reflexivity|reflexivity|reflexivity|intros J; discriminate J|intros _]. pcs.
      blk 13 [Mov (M (Ad RDI 0)) (R RDX)].
      eapply wps_store; [addr|apply look_ne; [lia|rewrite Z.add_0_r; exact Mo1]|]. rewrite Z.add_0_r. cbn [wps getr]. sr. pcs.
      eapply wp_ret; [reflexivity|sr; apply look_ne; [lia|]; apply look_ne; [lia|exact Em]|]. sr. rewrite Z.mod_small by lia.
      apply wp_done; [exact Hra|]. unfold callee_saved. sr. repeat split.
      assert (xs = []) by (destruct xs; [reflexivity|discriminate Lx]). subst xs.
      exists [z; h]. split; [reflexivity|]. split; [constructor; [exact Uz|constructor; [exact Uh|constructor]]|]. split; [cbn [lv]; lia|].
      split; [cbn [words]; repeat split; look|]. intros b Hb. rewrite !mset_ne by lia. reflexivity.
    - eapply (wp_jcc _ _ _ _ 2); [reflexivity|reflexivity|reflexivity|intros _|intros J; exfalso; revert J; cbn [holds fl zf option_map]; lia].
      replace (Z.of_nat (S (S k)) - 1) with (Z.of_nat (S k)) by lia.
      eapply wp_mono; [apply (IH xs); unfold area, behind, apart; try assumption; try lia|].
      + apply (words_same m); [|exact Wx]. intros b Hb. apply mset_ne. lia.
      + apply mapped_mset. cbn [mapped]. split; [exists o1; exact Mo1|exact Mo].
      + rewrite mset_ne by lia. exact Em.
      + intros t s' (E1 & E2 & E3 & zs & L & U & V & W & S2). split; [exact E1|]. split; [exact E2|]. split; [exact E3|].
        exists (z :: zs). cbn [length]. split; [lia|]. split; [constructor; assumption|]. split; [cbn [lv]; rewrite V; nia|]. split.
        * cbn [words]. split; [rewrite S2 by lia; apply mset_eq; reflexivity|exact W].
        * intros b Hb. rewrite S2 by lia. apply mset_ne. lia.
  Qed.
  Lemma allm_ok xs a b0 y n si di bp sp g8 g9 g10 g11 g12 g13 g14 g15 X f m : n = length xs -> (1 <= n)%nat ->
    Forall isU xs -> isU y -> area si n -> area di (S n) -> words m si xs -> mapped m di (S n) -> behind di si n ->
    area sp 1 -> apart sp 1 di (S n) -> m sp = Some ra ->
    let s := mkSt (mkR a b0 y (Z.of_nat n) si di bp sp g8 g9 g10 g11 g12 g13 g14 g15) X f m in
    wp genMul 0 s (fun t s' => t = ra /\ rsp (rg s') = sp + 8 /\ callee_saved (rg s) (rg s') /\
      exists zs, length zs = S n /\ Forall isU zs /\ lv zs = lv xs * y /\ words (mem s') di zs /\ same_but m (mem s') di (S n)).
  Proof.
    intros En Hn Ux Uy A1 A2 Wx Mo B1 A3 Ap Em s. unfold s. clear s. destruct n as [|k]; [lia|].
    blk 0 [Mov (R R10) (R RDX); Xor (R RDX) (R RDX)]. repeat st1. cbn [wps]. pcs.
    eapply wp_mono; [apply (lpm_ok k xs); try assumption; try (symmetry; assumption)|].
    - unfold isU. rewrite B_val. lia.
    - intros t s' (E1 & E2 & E3 & zs & L & U & V & W & S2). split; [exact E1|]. split; [exact E2|]. split; [exact E3|].
      exists zs. split; [exact L|]. split; [exact U|]. split; [rewrite V; ring|]. split; [exact W|exact S2].
  Qed.
End Mul1.

(** ** div1 and mod1 *)
Lemma rev_case {A} (l : list A) n : length l = S n -> exists l' a, l = l' ++ [a] /\ length l' = n.
Proof.
  intros H. destruct (exists_last (l := l)) as (l' & a & ->); [intros ->; discriminate H|].
  exists l', a. split; [reflexivity|]. rewrite app_length in H. cbn in H. lia.
Qed.
Local Definition bodyd : code := [Lab 2; Mov (R RAX) (M (Ad RSI 0)); Div RCX; Mov (M (Ad RDI 0)) (R RAX); Sub (R RSI) (Im 8); Sub (R RDI) (Im 8); Sub (R R10) (Im 1)].
Lemma U8 : isU 8.
Proof. unfold isU. rewrite B_val. lia. Qed.
Lemma bodyd_ok a b0 y d si di bp sp g8 g9 n g11 g12 g13 g14 g15 X f m x0 w (Q : state -> Prop) :
  isU x0 -> isU y -> 0 <= d < y -> m si = Some x0 -> m di = Some w -> 0 <= si < B -> 0 <= di < B -> 1 <= n < B ->
  (forall q r si' di', isU q -> 0 <= r < y -> d * B + x0 = q * y + r -> (8 <= si -> si' = si - 8) -> (8 <= di -> di' = di - 8) ->
     Q (mkSt (mkR q b0 y r si' di' bp sp g8 g9 (n - 1) g11 g12 g13 g14 g15) X
         (mkF (Some false) (Some (n - 1 =? 0)) (Some (signed n <? signed 1))) (mset m di q))) ->
  wps bodyd (mkSt (mkR a b0 y d si di bp sp g8 g9 n g11 g12 g13 g14 g15) X f m) Q.
Proof.
  intros Ux Uy Hd Ex Eo S1 D1 Hn H. unfold bodyd. pose proof U8. pose proof Uy as Uy'. unfold isU in Uy'.
  assert (Us : isU si) by exact S1. assert (Ui : isU di) by exact D1.
  do 6 st1. subx. cbn [wps]. rewrite Z.add_0_r. apply H; try assumption.
  - pose proof (Z.div_mod (d * B + x0) y). lia.
  - unfold EQ, isU in *. destruct k; cbn [Z.b2z] in *; lia.
  - unfold EQ, isU in *. destruct k0; cbn [Z.b2z] in *; lia.
Qed.
Local Definition bodyr : code := [Lab 2; Mov (R RAX) (M (Ad RDI 0)); Div R10; Sub (R RDI) (Im 8); Sub (R RSI) (Im 1)].
Lemma bodyr_ok a b0 c y d n di bp sp g8 g9 g11 g12 g13 g14 g15 X f m x0 (Q : state -> Prop) :
  isU x0 -> isU y -> 0 <= d < y -> m di = Some x0 -> 0 <= di < B -> 1 <= n < B ->
  (forall q r di', isU q -> 0 <= r < y -> d * B + x0 = q * y + r -> (8 <= di -> di' = di - 8) ->
     Q (mkSt (mkR q b0 c r (n - 1) di' bp sp g8 g9 y g11 g12 g13 g14 g15) X
         (mkF (Some false) (Some (n - 1 =? 0)) (Some (signed n <? signed 1))) m)) ->
  wps bodyr (mkSt (mkR a b0 c d n di bp sp g8 g9 y g11 g12 g13 g14 g15) X f m) Q.
Proof.
  intros Ux Uy Hd Ex D1 Hn H. unfold bodyr. pose proof U8. pose proof Uy as Uy'. unfold isU in Uy'.
  assert (Ui : isU di) by exact D1.
  do 4 st1. subx. cbn [wps]. apply H; try assumption.
  - pose proof (Z.div_mod (d * B + x0) y). lia.
  - unfold EQ, isU in *. destruct k; cbn [Z.b2z] in *; lia.
Qed.

Section Div1.
  Variable ra : Z.
  Hypothesis Hra : fetch genDiv ra = None.
  Lemma lpd_ok k : forall xs a b0 y d si di bp sp g8 g9 g11 g12 g13 g14 g15 X f m x o,
    length xs = S k -> Forall isU xs -> isU y -> 0 <= d < y -> si = x + 8 * Z.of_nat k -> di = o + 8 * Z.of_nat k ->
    area x (S k) -> area o (S k) -> words m x xs -> mapped m o (S k) -> ahead o x (S k) ->
    area sp 1 -> apart sp 1 o (S k) -> m sp = Some ra ->
    let s := mkSt (mkR a b0 y d si di bp sp g8 g9 (Z.of_nat (S k)) g11 g12 g13 g14 g15) X f m in
    wp genDiv 4 s (fun t s' => t = ra /\ rsp (rg s') = sp + 8 /\ callee_saved (rg s) (rg s') /\
      exists zs, length zs = S k /\ Forall isU zs /\ d * B ^ Z.of_nat (S k) + lv xs = lv zs * y + rax (rg s') /\ 0 <= rax (rg s') < y /\
        words (mem s') o zs /\ same_but m (mem s') o (S k)).
  Proof.
    induction k as [|k IH]; intros xs a b0 y d si di bp sp g8 g9 g11 g12 g13 g14 g15 X f m x o
      Lx Ux Uy Hd Esi Edi A1 A2 Wx Mo B1 A3 Ap Em s; unfold s; clear s.
    all: destruct (rev_case _ _ Lx) as (xs' & xl & -> & Lx'); apply Forall_app in Ux; destruct Ux as [Ux' Uxl];
      inversion Uxl as [|? ? Uxl' _]; subst; apply words_app in Wx; destruct Wx as [Wx' Wl]; rewrite Lx' in Wl; cbn [words] in Wl; destruct Wl as [Wl _].
    all: unfold area, apart, ahead in *.
    all: blk 4 bodyd.
    - destruct xs'; [|discriminate Lx']. cbn [mapped] in Mo. destruct Mo as [[o0 Mo] _].
      change (8 * Z.of_nat 0) with 0 in *. rewrite !Z.add_0_r in *.
      eapply bodyd_ok; try eassumption; try lia. intros q r si' di' Uq Hr E _ _. cbn [length bodyd]. pcs.
      eapply (wp_jcc _ _ _ _ 4); [reflexivity|reflexivity|reflexivity|intros J; discriminate J|intros _]. pcs.
      blk 12 [Mov (R RAX) (R RDX)]. st1. cbn [wps]. pcs.
      eapply wp_ret; [reflexivity|sr; apply look_ne; [lia|exact Em]|]. sr. rewrite Z.mod_small by lia.
      apply wp_done; [exact Hra|]. unfold callee_saved. sr. repeat split.
      exists [q]. split; [reflexivity|]. split; [constructor; [exact Uq|constructor]|].
      change (Z.of_nat 1) with 1. rewrite Z.pow_1_r. split; [cbn [lv app]; lia|]. split; [exact Hr|].
      split; [cbn [words]; split; [apply mset_eq; reflexivity|exact I]|]. intros b Hb. rewrite mset_ne by lia. reflexivity.
    - pose proof Mo as Mo2. replace (S (S k)) with (S k + 1)%nat in Mo2 by lia. apply mapped_app in Mo2. destruct Mo2 as [Mo1 Mo2].
      cbn [mapped] in Mo2. destruct Mo2 as [[o0 Mo2] _].
      eapply bodyd_ok; try eassumption; try lia. intros q r si' di' Uq Hr E Es Ed. cbn [length bodyd]. pcs.
      rewrite Es, Ed by lia. clear Es Ed.
      eapply (wp_jcc _ _ _ _ 4); [reflexivity|reflexivity|reflexivity|intros _|intros J; exfalso; revert J; cbn [holds fl zf option_map]; lia].
      replace (Z.of_nat (S (S k)) - 1) with (Z.of_nat (S k)) by lia.
      eapply wp_mono; [apply (IH xs') with (x := x) (o := o); unfold area, apart, ahead; try assumption; try lia|].
      + apply words_mset; [lia|exact Wx'].
      + apply mapped_mset. exact Mo1.
      + rewrite mset_ne by lia. exact Em.
      + intros t s' (E1 & E2 & E3 & zs & L & U & V & Hrr & W & S2). split; [exact E1|]. split; [exact E2|]. split; [exact E3|].
        exists (zs ++ [q]). split; [rewrite app_length; cbn [length]; lia|]. split; [apply Forall_app; split; [exact U|constructor; [exact Uq|constructor]]|].
        split; [|split; [exact Hrr|split]].
        * rewrite !lv_app, Lx', L. cbn [lv]. rewrite (Nat2Z.inj_succ (S k)), Z.pow_succ_r by lia.
          replace (d * (B * B ^ Z.of_nat (S k)) + (lv xs' + B ^ Z.of_nat (S k) * (xl + B * 0))) with (B ^ Z.of_nat (S k) * (d * B + xl) + lv xs') by ring.
          rewrite E. replace (B ^ Z.of_nat (S k) * (q * y + r) + lv xs') with (B ^ Z.of_nat (S k) * q * y + (r * B ^ Z.of_nat (S k) + lv xs')) by ring.
          rewrite V. ring.
        * apply words_app. rewrite L. split; [exact W|]. cbn [words]. split; [rewrite S2 by lia; apply mset_eq; reflexivity|exact I].
        * intros b Hb. rewrite S2 by lia. apply mset_ne. lia.
  Qed.
  Lemma alld_ok xs a b0 y n si di bp sp g8 g9 g10 g11 g12 g13 g14 g15 X f m : n = length xs -> (1 <= n)%nat ->
    Forall isU xs -> isU y -> 0 < y -> area si n -> area di n -> words m si xs -> mapped m di n -> ahead di si n ->
    area sp 1 -> apart sp 1 di n -> m sp = Some ra ->
    let s := mkSt (mkR a b0 y (Z.of_nat n) si di bp sp g8 g9 g10 g11 g12 g13 g14 g15) X f m in
    wp genDiv 0 s (fun t s' => t = ra /\ rsp (rg s') = sp + 8 /\ callee_saved (rg s) (rg s') /\
      exists zs, length zs = n /\ Forall isU zs /\ lv xs = lv zs * y + rax (rg s') /\ 0 <= rax (rg s') < y /\ words (mem s') di zs /\ same_but m (mem s') di n).
  Proof.
    intros En Hn Ux Uy Hy A1 A2 Wx Mo B1 A3 Ap Em s. unfold s. clear s. destruct n as [|k]; [lia|].
    pose proof A1 as [A1a A1b]. pose proof A2 as [A2a A2b].
    blk 0 [Mov (R R10) (R RDX); Lea RSI (AdI RSI R10 8 (-8)); Lea RDI (AdI RDI R10 8 (-8)); Xor (R RDX) (R RDX)]. repeat st1. cbn [wps]. pcs.
    eapply wp_mono; [apply (lpd_ok k xs) with (x := si) (o := di); try assumption; try (symmetry; assumption); lia|].
    intros t s' (E1 & E2 & E3 & zs & L & U & V & Hr & W & S2). split; [exact E1|]. split; [exact E2|]. split; [exact E3|].
    exists zs. split; [exact L|]. split; [exact U|]. split; [lia|]. split; [exact Hr|]. split; [exact W|exact S2].
  Qed.
End Div1.
Section Mod1.
  Variable ra : Z.
  Hypothesis Hra : fetch genMod ra = None.
  Lemma lpr_ok k : forall xs a b0 c y d di bp sp g8 g9 g11 g12 g13 g14 g15 X f m x,
    length xs = S k -> Forall isU xs -> isU y -> 0 <= d < y -> di = x + 8 * Z.of_nat k ->
    area x (S k) -> words m x xs -> area sp 1 -> m sp = Some ra ->
    let s := mkSt (mkR a b0 c d (Z.of_nat (S k)) di bp sp g8 g9 y g11 g12 g13 g14 g15) X f m in
    wp genMod 3 s (fun t s' => t = ra /\ rsp (rg s') = sp + 8 /\ callee_saved (rg s) (rg s') /\ mem s' = m /\
      (exists z, d * B ^ Z.of_nat (S k) + lv xs = z * y + rax (rg s')) /\ 0 <= rax (rg s') < y).
  Proof.
    induction k as [|k IH]; intros xs a b0 c y d di bp sp g8 g9 g11 g12 g13 g14 g15 X f m x
      Lx Ux Uy Hd Edi A1 Wx A3 Em s; unfold s; clear s.
    all: destruct (rev_case _ _ Lx) as (xs' & xl & -> & Lx'); apply Forall_app in Ux; destruct Ux as [Ux' Uxl];
      inversion Uxl as [|? ? Uxl' _]; subst; apply words_app in Wx; destruct Wx as [Wx' Wl]; rewrite Lx' in Wl; cbn [words] in Wl; destruct Wl as [Wl _].
    all: unfold area in *.
    all: blk 3 bodyr.
    - destruct xs'; [|discriminate Lx']. change (8 * Z.of_nat 0) with 0 in *. rewrite !Z.add_0_r in *.
      eapply bodyr_ok; try eassumption; try lia. intros q r di' Uq Hr E _. cbn [length bodyr]. pcs.
      eapply (wp_jcc _ _ _ _ 3); [reflexivity|reflexivity|reflexivity|intros J; discriminate J|intros _]. pcs.
      blk 9 [Mov (R RAX) (R RDX)]. st1. cbn [wps]. pcs.
      eapply wp_ret; [reflexivity|sr; exact Em|]. sr. rewrite Z.mod_small by lia.
      apply wp_done; [exact Hra|]. unfold callee_saved. sr. repeat split; try lia.
      exists q. change (Z.of_nat 1) with 1. rewrite Z.pow_1_r. cbn [lv app]; lia.
    - eapply bodyr_ok; try eassumption; try lia. intros q r di' Uq Hr E Ed. cbn [length bodyr]. pcs.
      rewrite Ed by lia. clear Ed.
      eapply (wp_jcc _ _ _ _ 3); [reflexivity|reflexivity|reflexivity|intros _|intros J; exfalso; revert J; cbn [holds fl zf option_map]; lia].
      replace (Z.of_nat (S (S k)) - 1) with (Z.of_nat (S k)) by lia.
      eapply wp_mono; [apply (IH xs') with (x := x); unfold area; try assumption; try lia|].
      intros t s' (E1 & E2 & E3 & Em' & [z V] & Hrr). split; [exact E1|]. split; [exact E2|]. split; [exact E3|]. split; [exact Em'|]. split; [|exact Hrr].
      exists (B ^ Z.of_nat (S k) * q + z). rewrite !lv_app, Lx'. cbn [lv]. rewrite (Nat2Z.inj_succ (S k)), Z.pow_succ_r by lia.
      replace (d * (B * B ^ Z.of_nat (S k)) + (lv xs' + B ^ Z.of_nat (S k) * (xl + B * 0))) with (B ^ Z.of_nat (S k) * (d * B + xl) + lv xs') by ring.
      rewrite E. replace (B ^ Z.of_nat (S k) * (q * y + r) + lv xs') with (B ^ Z.of_nat (S k) * q * y + (r * B ^ Z.of_nat (S k) + lv xs')) by ring.
      rewrite V. ring.
  Qed.
  Lemma allr_ok xs a b0 c y n di bp sp g8 g9 g10 g11 g12 g13 g14 g15 X f m : n = length xs -> (1 <= n)%nat ->
    Forall isU xs -> isU y -> 0 < y -> area di n -> words m di xs -> area sp 1 -> m sp = Some ra ->
    let s := mkSt (mkR a b0 c y (Z.of_nat n) di bp sp g8 g9 g10 g11 g12 g13 g14 g15) X f m in
    wp genMod 0 s (fun t s' => t = ra /\ rsp (rg s') = sp + 8 /\ callee_saved (rg s) (rg s') /\ mem s' = m /\ rax (rg s') = lv xs mod y).
  Proof.
    intros En Hn Ux Uy Hy A1 Wx A3 Em s. unfold s. clear s. destruct n as [|k]; [lia|].
    pose proof A1 as [A1a A1b].
    blk 0 [Mov (R R10) (R RDX); Lea RDI (AdI RDI RSI 8 (-8)); Xor (R RDX) (R RDX)]. repeat st1. cbn [wps]. pcs.
    eapply wp_mono; [apply (lpr_ok k xs) with (x := di); try assumption; try (symmetry; assumption); lia|].
    intros t s' (E1 & E2 & E3 & Em' & [z V] & Hr). split; [exact E1|]. split; [exact E2|]. split; [exact E3|]. split; [exact Em'|].
    apply (Z.mod_unique _ _ z); lia.
  Qed.
End Mod1.
