(** Calls of the generated doubling step with line evaluation. *)
From Coq Require Import ZArith List Bool Lia.
From Verif Require Import X64 XLog JitSpec JitFpSpec XTac XReg JitFp JitMac JitMac2 JitFrame JitRep JitFpApi JitFpApi2 JitFp2 JitFp2Spec JitFp2Mac JitFp2Mac2 JitFp2Api JitFp2Api2 JitSym JitSub JitLib JitFp6Spec JitFp6 JitFp6Sub JitFp6Mul JitTop JitFp6Api JitFp12Api JitLineSpec JitLine JitLineSub JitTop2 JitMul9.
From Verif Require Import Base Prim Primes FpSpec Cfg FpM FpProofs TowerSpec TowerM Fp2Proofs ParamM FinalM PairM.
Import ListNotations.
Local Open Scope Z_scope.
Local Notation find := X64.find.
Local Notation length := List.length.

Lemma mapped_int m a n v : int_at m a n v -> mapped m a n.
Proof.
  intros (l & L & _ & Wl & _). revert a l L Wl. induction n as [|n IH]; intros a [|w l] L Wl; try discriminate L; cbn [mapped words] in *; [exact I|].
  destruct Wl as [W1 W2]. split; [exists w; exact W1|]. exact (IH _ l ltac:(injection L as L; exact L) W2).
Qed.
Lemma mapped_cat m a n k : mapped m a n -> mapped m (a + Wd n) k -> mapped m a (n + k).
Proof.
  revert a. induction n as [|n IH]; intros a H1 H2; cbn [mapped Nat.add] in *; [rewrite Z.add_0_r in H2; exact H2|]. destruct H1 as [H1 H1']. split; [exact H1|].
  apply IH; [exact H1'|]. replace (a + 8 + Wd n) with (a + Wd (S n)) by lia. exact H2.
Qed.
Lemma six_mapped m a x : six 4 m a x -> mapped m a 24.
Proof.
  unfold six, pair. change (8 * Z.of_nat 4) with 32. change (16 * Z.of_nat 4) with 64. cbv zeta. intros ((H1 & H2) & (H3 & H4) & (H5 & H6)).
  apply mapped_int in H1, H2, H3, H4, H5, H6.
  apply (mapped_cat m a 4 20 H1). change (Wd 4) with 32. apply (mapped_cat m _ 4 16 H2). change (Wd 4) with 32. replace (a + 32 + 32) with (a + 64) by lia.
  apply (mapped_cat m _ 4 12 H3). change (Wd 4) with 32. apply (mapped_cat m _ 4 8 H4). change (Wd 4) with 32. replace (a + 64 + 32 + 32) with (a + 2 * 64) by lia.
  apply (mapped_cat m _ 4 4 H5). exact H6.
Qed.

(** ** Stages of a symbolic execution *)
Lemma step_mono lay i s (K K' : sst -> Prop) : (forall t, K t -> K' t) -> step lay s i K -> step lay s i K'.
Proof.
  intros H. destruct i as [i|r p|cd az ax ay U]; cbn [step].
  - destruct i; cbn [instr1]; try exact (fun x => x).
    + destruct d as [d|[b o|]|]; try exact (fun x => x).
      * destruct s0 as [b|[b o|]|]; try exact (fun x => x); destruct (lookr (s_r s) b) as [p|]; try exact (fun x => x); [apply H|].
        destruct (okp lay _); [|exact (fun x => x)]. destruct (lookp _ _); [apply H|exact (fun x => x)].
      * destruct s0 as [e| |]; try exact (fun x => x). destruct (lookr (s_r s) b); [|exact (fun x => x)]. destruct (lookr (s_r s) e); [|exact (fun x => x)]. destruct (okw lay _ _); [apply H|exact (fun x => x)].
    + destruct a as [b o|]; [|exact (fun x => x)]. destruct (lookr (s_r s) b); [|exact (fun x => x)]. destruct (okp lay _); [apply H|exact (fun x => x)].
    + destruct d as [d| |]; try exact (fun x => x). destruct s0; try exact (fun x => x). destruct (lookr (s_r s) d); [|exact (fun x => x)]. destruct (_ && _); [apply H|exact (fun x => x)].
    + destruct d as [d| |]; try exact (fun x => x). destruct s0; try exact (fun x => x). destruct (lookr (s_r s) d); [|exact (fun x => x)]. destruct (_ && _); [apply H|exact (fun x => x)].
    + apply H.
    + destruct (lookx (s_x s) _); [apply H|exact (fun x => x)].
  - destruct (okp lay p); [apply H|exact (fun x => x)].
  - unfold act. destruct (lookr (s_r s) RSP); [|exact (fun x => x)]. destruct (aval s az); [|exact (fun x => x)]. destruct (aval s ax); [|exact (fun x => x)]. destruct (aval s ay); [|exact (fun x => x)].
    destruct (lookfs _ _ _); [|exact (fun x => x)]. destruct (lookfs _ _ _); [|exact (fun x => x)]. destruct (_ && _); [|exact (fun x => x)]. intros [H1 H2]. split; [exact H1|exact (H _ H2)].
Qed.
Lemma exec_mono lay l s (K K' : sst -> Prop) : (forall t, K t -> K' t) -> exec lay l s K -> exec lay l s K'.
Proof. revert s. induction l as [|i l IH]; intros s H; cbn [exec]; [apply H|]. apply step_mono. intros t. apply IH. exact H. Qed.
Lemma exec_cut lay a b s K s' : (forall KK : sst -> Prop, KK s' -> exec lay a s KK) -> exec lay b s' K -> exec lay (a ++ b) s K.
Proof.
  intros H1 H2. specialize (H1 (fun t => exec lay b t K) H2). clear H2. revert s H1. induction a as [|i a IH]; intros s; cbn [app exec]; [exact (fun x => x)|].
  apply step_mono. intros t. apply IH.
Qed.
Lemma tr_app tb a b : tr tb (a ++ b) = tr tb a ++ tr tb b.
Proof. apply map_app. Qed.

Definition gline : list reg := [RAX; RDX; RSI; RDI; R9; gt1; gt2; gt3; gt4; gt5; gt6; gt7; gt8; gt9; gt10].
Ltac lzL := lazy -[fp_add fp_sub fp_addNC fp_mul fp_neg dbl_add dbl_sub dbl_addNC dbl_subNC dbl_subOpt1 dbl_mod d2_mulOpt d2_mul_xi f2_mul f2_square d2_square f2_divBy2 f2_mul_xi f2_neg d6_mul f6_mul f6_add f6_sub f2_add f2_sub f2_addNC a2 b2 a3 b3 c3 cp cr cpp snark fp_mul9 inp].

Lemma letP {A B : Type} (P : B -> Prop) (e : A) (b : A -> B) : (forall t, t = e -> P (b t)) -> P (let t := e in b t).
Proof. intros H. apply (H e eq_refl). Qed.
Ltac letI P := match goal with |- context [let t := ?e in @?b t] => apply (letP P e b) end.

(** ** Elements below p *)
Definition in2 (c : cfg) (x : F2 Z) : Prop := can c (a2 x) /\ can c (b2 x).
Section In2.
  Variable c : cfg.
  Lemma in2_rep x : in2 c x -> rep2 c x (mk2 (fv c (a2 x)) (fv c (b2 x))).
  Proof. intros [H1 H2]. split; [split; [exact H1|reflexivity]|split; [exact H2|reflexivity]]. Qed.
  Lemma rep_in2 x v : rep2 c x v -> in2 c x.
  Proof. intros [[H1 _] [H2 _]]. split; assumption. Qed.
  Lemma in2_square x y : f2_square c x = y -> in2 c x -> in2 c y.
  Proof. intros <- H. exact (rep_in2 _ _ (f2_square_rep c _ _ (in2_rep _ H))). Qed.
  Lemma in2_add x x' y : f2_add c x x' = y -> in2 c x -> in2 c x' -> in2 c y.
  Proof. intros <- H H'. exact (rep_in2 _ _ (f2_add_rep c _ _ _ _ (in2_rep _ H) (in2_rep _ H'))). Qed.
  Lemma in2_sub x x' y : f2_sub c x x' = y -> in2 c x -> in2 c x' -> in2 c y.
  Proof. intros <- H H'. exact (rep_in2 _ _ (f2_sub_rep c _ _ _ _ (in2_rep _ H) (in2_rep _ H'))). Qed.
  Lemma in2_mul x x' y : f2_mul c x x' = y -> in2 c x -> in2 c x' -> in2 c y.
  Proof. intros <- H H'. exact (rep_in2 _ _ (f2_mul_rep c _ _ _ _ (in2_rep _ H) (in2_rep _ H'))). Qed.
  Lemma in2_mul9 a b v w : snark c = true -> fp_mul9 c a b true = v -> fp_mul9 c b a false = w -> in2 c (mk2 a b) -> in2 c (mk2 v w).
  Proof.
    intros Es <- <- [H1 H2]. split; [exact (proj1 (mul9_add_rep c a b _ _ Es (conj H1 eq_refl) (conj H2 eq_refl)))|exact (proj1 (mul9_sub_rep c b a _ _ Es (conj H2 eq_refl) (conj H1 eq_refl)))].
  Qed.
  Lemma inp2 a b : in2 c (mk2 a b) -> inp c [a; b].
  Proof. intros [H1 H2]. constructor; [exact H1|]. constructor; [exact H2|]. constructor. Qed.
  Lemma inp2' a b : in2 c (mk2 a b) -> inp c [b; a].
  Proof. intros [H1 H2]. constructor; [exact H2|]. constructor; [exact H1|]. constructor. Qed.
End In2.

(** the constant b' is in memory: SNARK build, coefficient other than 82 *)
Definition useB (c : cfg) : bool := snark c && negb (cb c =? 82).
Section Top.
  Variables (c : cfg) (il mx : bool) (T NT HF BI : Z).
  Local Notation LX := (libx il mx (snark c) T (cpp c) HF).
  Local Notation LB := (lib il mx (snark c) T (cpp c) NT).
  Local Notation tabs := (ctabs c T NT HF).
  Ltac trk := repeat (apply Forall_cons; [first [exact I | reflexivity]|]); apply Forall_nil.
  Local Notation tb := (tbl c).
  Definition ib : list item :=
    if snark c then
      if cb c =? 82 then [i_mul9 c mx T true RSP 128 RSP 0 RSP 32; i_mul9 c mx T false RSP 160 RSP 32 RSP 0]
      else tr tb [Lea gp1 (Ad RSP 128); Lea gp2 (Ad RSP 0)] ++ [IT gp3 (RC, 0)] ++ tr tb [Call L_Fp2_mul]
    else [i_add4g c il RSP 128 RSP 0 RSP 32; i_sub4g c il RSP 160 RSP 32 RSP 0].
  Definition iadd : list item :=
    if snark c then adds c il T 2 640 640 512 else tr tb (c_FpDbl_addNC_n 2 (Ad RSP 640) (Ad RSP 640) (Ad RSP 512)).
  Definition ixi : list item :=
    [IT RAX (RT, 0)] ++
    if snark c then [i_mul9 c mx T false gt8 0 RSP 128 RSP 160; i_mul9 c mx T true gt8 32 RSP 160 RSP 128]
    else [i_sub4g c il gt8 0 RSP 128 RSP 160; i_add4g c il gt8 32 RSP 128 RSP 160].
  Definition dl_items (wop : bool) : list item :=
    tr tb dl1 ++ ib ++ tr tb dl2 ++ iadd ++
    tr tb dl3 ++ subs_ c il T 2 384 384 640 ++ tr tb dl4 ++
    ixi ++ tr tb dl5 ++ tr tb (if wop then [] else dl6).
  Local Notation body wop := (b_dblLine il mx (snark c) T (cb c) BI wop).
  Definition nB : nat := if useB c then 8%nat else 0%nat.
  Lemma dl_flat wop base : base RT = T -> (Nat.eqb nB 0 = false -> base RC = BI) -> flat base (dl_items wop) = body wop.
  Proof.
    intros E EC. unfold dl_items. rewrite !flat_app, !(flat_tr base T tb _ E), flat_subs; [|first [destruct wop; trk | trk]..].
    unfold b_dblLine, ib, iadd, ixi, dl_b, dl_add, in_Fp2_mul_xi, nB, useB in *. destruct (snark c).
    - rewrite flat_adds. destruct (cb c =? 82); cbn [andb negb] in EC.
      + cbn [flat flat_map flat1 i_mul9 fst snd app]. rewrite Z.eqb_refl, E, !app_nil_r. rewrite <- !app_assoc. reflexivity.
      + specialize (EC eq_refl). rewrite !flat_app, !(flat_tr base T tb _ E); [|trk..]. cbn [flat flat_map flat1 i_mul9 fst snd app]. rewrite Z.eqb_refl, E, EC, !app_nil_r. rewrite <- !app_assoc. reflexivity.
    - rewrite (flat_tr base T tb _ E); [|trk]. cbn [flat flat_map flat1 i_sub4g i_add4g fst snd app]. rewrite Z.eqb_refl, E, !app_nil_r. rewrite <- !app_assoc. reflexivity.
  Qed.
  Lemma dl_pre wop : let pre := frame 10 96 (body wop) in nolab pre = true /\ cnt 201 (pre ++ LX ++ LB) = 1%nat /\ cnt 202 (pre ++ LX ++ LB) = 1%nat /\
    forallb (fun l => nol l pre) [L_Fp_mul; L_Fp2_mul; L_Fp2_square; L_Fp2Dbl_square; L_Fp2_divBy2; L_Fp2_neg] = true.
  Proof. clear. unfold b_dblLine, dl_b. destruct (cb c =? 82), wop, il, mx, (snark c); (split; [|split; [|split]]); vm_compute; reflexivity. Qed.
  Lemma dl_ok wop : Forall (aokT (frame 10 96 (body wop) ++ LX ++ LB) T tabs) (dl_items wop).
  Proof.
    destruct (dl_pre wop) as (N1 & N2 & N3 & N4). pose proof (tbl_ok c il mx T NT HF (frame 10 96 (body wop)) N1 N2 N3 N4) as TB.
    set (C := frame 10 96 (body wop) ++ LX ++ LB) in *. clearbody C.
    unfold dl_items. rewrite !Forall_app.
    split; [apply tr_ok; exact TB|]. split.
    { unfold ib. destruct (snark c) eqn:Es; [destruct (cb c =? 82)|].
      - constructor; [apply (a_mul9 C c mx T NT HF); [exact Es|reflexivity..]|constructor; [apply (a_mul9 C c mx T NT HF); [exact Es|reflexivity..]|constructor]].
      - rewrite !Forall_app. split; [apply tr_ok; exact TB|]. split; [constructor; [exact I|constructor]|apply tr_ok; exact TB].
      - constructor; [apply a_add4; reflexivity|constructor; [apply a_sub4; reflexivity|constructor]]. }
    split; [apply tr_ok; exact TB|]. split.
    { unfold iadd. destruct (snark c); [|apply tr_ok; exact TB]. unfold adds; apply Forall_map, Forall_forall; intros; apply (a_add8 C c il T NT HF); reflexivity. }
    split; [apply tr_ok; exact TB|].
    split; [unfold subs_; apply Forall_map, Forall_forall; intros; apply (a_sub8 C c il T NT HF); reflexivity|].
    split; [apply tr_ok; exact TB|]. split.
    { unfold ixi. apply Forall_app. split; [constructor; [exact I|constructor]|]. destruct (snark c) eqn:Es.
      - constructor; [apply (a_mul9 C c mx T NT HF); [exact Es|reflexivity..]|constructor; [apply (a_mul9 C c mx T NT HF); [exact Es|reflexivity..]|constructor]].
      - constructor; [apply a_sub4; reflexivity|constructor; [apply a_add4; reflexivity|constructor]]. }
    split; apply tr_ok; exact TB.
  Qed.
  Variable PM : param.
  Definition fB : list fld := if useB c then W44 else [].
  Definition vB : list Z := if useB c then [a2 (par_binvxi PM); b2 (par_binvxi PM)] else [].
  Definition inL (R : F3 (F2 Z)) : Prop := in2 c (a3 R) /\ in2 c (b3 R) /\ in2 c (c3 R) /\ in2 c (par_binvxi PM).
  Ltac unf E := unfold d2_addNC, d2_add, d2_sub, d2_mod, mul_binvxi, f2_mul_xi in E; cbn [a2 b2] in E.
  Ltac rwE := repeat (match goal with E : ?f = _ |- context [?f] => lazymatch f with f2_square _ _ => idtac | f2_mul _ _ _ => idtac | f2_add _ _ _ => idtac | f2_sub _ _ _ => idtac | f2_addNC _ _ => idtac | f2_divBy2 _ _ => idtac
      | d2_square _ _ => idtac | f2_neg _ _ => idtac | dbl_addNC _ _ => idtac | dbl_add _ _ _ => idtac | dbl_sub _ _ _ => idtac | dbl_mod _ _ => idtac | fp_add _ _ _ => idtac | fp_sub _ _ _ => idtac | fp_mul _ _ _ => idtac | fp_mul9 _ _ _ _ => idtac end; rewrite E; cbn [a2 b2] end).
  Ltac stage := refine (exec_cut _ _ _ _ _ _ _ _); [let KK := fresh in let HK := fresh in intros KK HK; lzL; ex_; cbn [a2 b2]; rwE; first [exact HK | apply inp2; assumption | apply inp2'; assumption]|].
  Ltac setup Q Es := repeat (letI Q; intros ? ?; cbv beta); subst Q; cbv beta; cbn [fst snd];
    repeat match goal with E : ?t = ?e |- _ => is_var t; symmetry in E; destruct t as [? ?] end;
    repeat match goal with E : context [if snark c then _ else _] |- _ => rewrite Es in E end;
    repeat match goal with E : d2_addNC _ _ = _ |- _ => unf E | E : d2_add _ _ _ = _ |- _ => unf E | E : d2_sub _ _ _ = _ |- _ => unf E | E : d2_mod _ _ = _ |- _ => unf E | E : mul_binvxi _ _ _ = _ |- _ => unfold mul_binvxi in E; rewrite Es in E; cbn [TowerSpec.a2 TowerSpec.b2] in E | E : f2_mul_xi _ _ = _ |- _ => unfold f2_mul_xi in E; rewrite Es in E; cbn [TowerSpec.a2 TowerSpec.b2] in E end.
  Ltac inj := repeat match goal with E : mk2 _ _ = mk2 _ _ |- _ => let E1 := fresh "E" in let E2 := fresh "E" in injection E as E1 E2 end.
  Ltac chain1 := match goal with
    | E : f2_square c ?x = ?y, H : in2 c ?x |- _ => lazymatch goal with _ : in2 c y |- _ => fail | _ => pose proof (in2_square c x y E H) end
    | E : f2_add c ?x ?x = ?y, H : in2 c ?x |- _ => lazymatch goal with _ : in2 c y |- _ => fail | _ => pose proof (in2_add c x x y E H H) end
    | E : f2_add c ?x ?x' = ?y, H : in2 c ?x, H' : in2 c ?x' |- _ => lazymatch goal with _ : in2 c y |- _ => fail | _ => pose proof (in2_add c x x' y E H H') end
    | E : f2_sub c ?x ?x' = ?y, H : in2 c ?x, H' : in2 c ?x' |- _ => lazymatch goal with _ : in2 c y |- _ => fail | _ => pose proof (in2_sub c x x' y E H H') end
    | E : f2_mul c ?x ?x' = ?y, H : in2 c ?x, H' : in2 c ?x' |- _ => lazymatch goal with _ : in2 c y |- _ => fail | _ => pose proof (in2_mul c x x' y E H H') end
    | Es : snark c = true, E : fp_mul9 c ?a ?b true = ?v, E' : fp_mul9 c ?b ?a false = ?w, H : in2 c (mk2 ?a ?b) |- _ => lazymatch goal with _ : in2 c (mk2 v w) |- _ => fail | _ => pose proof (in2_mul9 c a b v w Es E E' H) end
    end.
  Ltac items := unfold dl_items, dl1, dl2, dl3, dl4, dl5, dl6, getl, getR, getP; rewrite ?tr_app, <- ?app_assoc; unfold l6; cbn [TowerSpec.a2 TowerSpec.b2 TowerSpec.a3 TowerSpec.b3 TowerSpec.c3].
  Lemma dl_exec_wp R : inL R ->
    exec (tlay2 96 34 24 24 0 nB) (dl_items true) (ts2 0 W4x6 [] fB (l6 R) [] vB) (tK2 W4x6 W4x6 (l6 (fst (dblLineWP c PM R))) (l6 (snd (dblLineWP c PM R)))).
  Proof.
    intros (I1 & I2 & I3 & I4). destruct R as [[x0 x1] [y0 y1] [z0 z1]]. cbn [TowerSpec.a3 TowerSpec.b3 TowerSpec.c3] in I1, I2, I3.
    set (Q := fun r : F3 (F2 Z) * F3 (F2 Z) => exec (tlay2 96 34 24 24 0 nB) (dl_items true) (ts2 0 W4x6 [] fB (l6 (mk3 (mk2 x0 x1) (mk2 y0 y1) (mk2 z0 z1))) [] vB) (tK2 W4x6 W4x6 (l6 (fst r)) (l6 (snd r)))).
    change (Q (dblLineWP c PM (mk3 (mk2 x0 x1) (mk2 y0 y1) (mk2 z0 z1)))). cbv beta iota delta [dblLineWP dblLine_gen a3 b3 c3].
    destruct (snark c) eqn:Es; [destruct (cb c =? 82) eqn:E82|]; setup Q Es.
    - repeat match goal with E : context [if cb c =? 82 then _ else _] |- _ => rewrite E82 in E end. inj. repeat chain1. unfold dl_items, ib, iadd, ixi, nB, fB, vB, useB. rewrite Es, E82. cbn [andb negb]. items. repeat stage. lzL. ex_; reflexivity.
    - repeat match goal with E : context [if cb c =? 82 then _ else _] |- _ => rewrite E82 in E end. unfold dl_items, ib, iadd, ixi, nB, fB, vB, useB. rewrite Es, E82. cbn [andb negb].
      destruct (par_binvxi PM) as [q0 q1]. inj. repeat chain1. items. repeat stage. lzL. ex_; reflexivity.
    - inj. unfold dl_items, ib, iadd, ixi, nB, fB, vB, useB. rewrite Es. cbn [andb]. items. repeat stage. lzL. ex_; reflexivity.
  Qed.
  Lemma dl_exec R xp yp : inL R ->
    exec (tlay2 96 34 24 24 8 nB) (dl_items false) (ts2 8 W4x6 W44 fB (l6 R) [xp; yp] vB) (tK2 W4x6 W4x6 (l6 (fst (dblLine c PM R xp yp))) (l6 (snd (dblLine c PM R xp yp)))).
  Proof.
    replace (dblLine c PM R xp yp) with (mulFp6_24 c (fst (dblLineWP c PM R)) xp yp, snd (dblLineWP c PM R)) by (unfold dblLine; destruct (dblLineWP c PM R); reflexivity). cbn [fst snd].
    intros (I1 & I2 & I3 & I4). destruct R as [[x0 x1] [y0 y1] [z0 z1]]. cbn [TowerSpec.a3 TowerSpec.b3 TowerSpec.c3] in I1, I2, I3.
    set (Q := fun r : F3 (F2 Z) * F3 (F2 Z) => exec (tlay2 96 34 24 24 8 nB) (dl_items false) (ts2 8 W4x6 W44 fB (l6 (mk3 (mk2 x0 x1) (mk2 y0 y1) (mk2 z0 z1))) [xp; yp] vB) (tK2 W4x6 W4x6 (l6 (mulFp6_24 c (fst r) xp yp)) (l6 (snd r)))).
    change (Q (dblLineWP c PM (mk3 (mk2 x0 x1) (mk2 y0 y1) (mk2 z0 z1)))). cbv beta iota delta [dblLineWP dblLine_gen a3 b3 c3].
    destruct (snark c) eqn:Es; [destruct (cb c =? 82) eqn:E82|]; setup Q Es; unfold mulFp6_24, f2_mul_Fp_0.
    - repeat match goal with E : context [if cb c =? 82 then _ else _] |- _ => rewrite E82 in E end. inj. repeat chain1. unfold dl_items, ib, iadd, ixi, nB, fB, vB, useB. rewrite Es, E82. cbn [andb negb]. items. repeat stage. lzL. ex_; reflexivity.
    - repeat match goal with E : context [if cb c =? 82 then _ else _] |- _ => rewrite E82 in E end. unfold dl_items, ib, iadd, ixi, nB, fB, vB, useB. rewrite Es, E82. cbn [andb negb].
      destruct (par_binvxi PM) as [q0 q1]. inj. repeat chain1. items. repeat stage. lzL. ex_; reflexivity.
    - inj. unfold dl_items, ib, iadd, ixi, nB, fB, vB, useB. rewrite Es. cbn [andb]. items. repeat stage. lzL. ex_; reflexivity.
  Qed.
  Variables (s : state) (R : F3 (F2 Z)).
  Local Notation g := (rg s).
  Lemma dl_clob wop : forallb (fun r => inb r (RSP :: gline)) (clob (dl_items wop)) = true.
  Proof. clear. unfold dl_items, ib, iadd, ixi. destruct wop, il, (snark c), (cb c =? 82); vm_compute; reflexivity. Qed.
  Hypothesis HB : snark c = true -> cb c <> 82 -> const2 136 s BI (par_binvxi PM).
  Lemma useB_true : useB c = true -> snark c = true /\ cb c <> 82.
  Proof. clear. unfold useB. intros H. apply andb_prop in H. destruct H as [H1 H2]. split; [exact H1|]. apply negb_true_iff, Z.eqb_neq in H2. exact H2. Qed.
  Lemma nB_ok : Nat.eqb nB 0 = true \/ place 136 s BI nB /\ apart (rdi g) 24 BI nB /\ apart (rsi g) 24 BI nB.
  Proof.
    clear -HB. unfold nB. destruct (useB c) eqn:E; [right|left; reflexivity]. destruct (useB_true E) as [E1 E2]. destruct (HB E1 E2) as (_ & H). exact H.
  Qed.
  Lemma rB_ok : reads (mem s) BI fB vB.
  Proof.
    clear -HB. unfold fB, vB. destruct (useB c) eqn:E; [|constructor]. destruct (useB_true E) as [E1 E2]. destruct (HB E1 E2) as ((H1 & H2) & _).
    apply mk_reads2; [rewrite Z.add_0_r; exact H1|exact H2].
  Qed.
  Lemma cB_ok : nB = 0%nat -> fB = [].
  Proof. clear. unfold nB, fB. destruct (useB c); [discriminate|reflexivity]. Qed.
  Lemma wB_ok : Forall (fun e => 0 <= fst e /\ fst e + Wd (snd e) <= Wd nB) fB.
  Proof. clear. unfold nB, fB. destruct (useB c); [wid|constructor]. Qed.
  Lemma dblLineWP_api : callL (make_pointDblLineEval il mx (snark c) T (cpp c) HF NT (cb c) BI true) 136 s -> constsL c 136 s T NT HF ->
    inL R -> six 4 (mem s) (rsi g) R ->
    calls (make_pointDblLineEval il mx (snark c) T (cpp c) HF NT (cb c) BI true) s (fun s' =>
      six 4 (mem s') (rdi g) (fst (dblLineWP c PM R)) /\ six 4 (mem s') (rsi g) (snd (dblLineWP c PM R)) /\ only2 136 (rdi g) 24 (rsi g) 24 s s').
  Proof.
    intros (Hc & Hst & Ho & Hx & Mo & AP) [HT HT2] IN IR. set (C := make_pointDblLineEval il mx (snark c) T (cpp c) HF NT (cb c) BI true) in *.
    eapply calls_mono; [refine (top2_ok C c T NT HF 10 96 34 24 24 0 nB BI (dl_items true) (body true) gline W4x6 W4x6 [] fB s (l6 R) [] vB (l6 (fst (dblLineWP c PM R))) (l6 (snd (dblLineWP c PM R))) ltac:(clear; lia) (dl_ok true) (dl_flat true) (fun _ => eq_refl) cB_ok (dl_clob true) eq_refl eq_refl (dl_exec_wp R IN) (proj1 (at_app C 0 _ _ (at_self C))) Hc Hst Ho Mo Hx (six_mapped _ _ _ IR) AP (or_introl eq_refl) nB_ok (six4_reads _ _ _ IR) _ rB_ok _ _ wB_ok HT HT2)|].
    - constructor.
    - wid.
    - constructor.
    - intros s' (H1 & H2 & H3). split; [exact (reads_six4 _ _ _ H1)|]. split; [exact (reads_six4 _ _ _ H2)|exact H3].
  Qed.
  Lemma dblLine_api xp yp : callL (make_pointDblLineEval il mx (snark c) T (cpp c) HF NT (cb c) BI false) 136 s -> operL 136 8 s -> constsL c 136 s T NT HF ->
    inL R -> six 4 (mem s) (rsi g) R -> int_at (mem s) (rdx g) 4 xp -> int_at (mem s) (rdx g + 32) 4 yp ->
    calls (make_pointDblLineEval il mx (snark c) T (cpp c) HF NT (cb c) BI false) s (fun s' =>
      six 4 (mem s') (rdi g) (fst (dblLine c PM R xp yp)) /\ six 4 (mem s') (rsi g) (snd (dblLine c PM R xp yp)) /\ only2 136 (rdi g) 24 (rsi g) 24 s s').
  Proof.
    intros (Hc & Hst & Ho & Hx & Mo & AP) HY [HT HT2] IN IR I1 I2. set (C := make_pointDblLineEval il mx (snark c) T (cpp c) HF NT (cb c) BI false) in *.
    eapply calls_mono; [refine (top2_ok C c T NT HF 10 96 34 24 24 8 nB BI (dl_items false) (body false) gline W4x6 W4x6 W44 fB s (l6 R) [xp; yp] vB (l6 (fst (dblLine c PM R xp yp))) (l6 (snd (dblLine c PM R xp yp))) ltac:(clear; lia) (dl_ok false) (dl_flat false) _ cB_ok (dl_clob false) eq_refl eq_refl (dl_exec R xp yp IN) (proj1 (at_app C 0 _ _ (at_self C))) Hc Hst Ho Mo Hx (six_mapped _ _ _ IR) AP (or_intror HY) nB_ok (six4_reads _ _ _ IR) _ rB_ok _ _ wB_ok HT HT2)|].
    - discriminate.
    - apply mk_reads2; [rewrite Z.add_0_r; exact I1|exact I2].
    - wid.
    - wid.
    - intros s' (H1 & H2 & H3). split; [exact (reads_six4 _ _ _ H1)|]. split; [exact (reads_six4 _ _ _ H2)|exact H3].
  Qed.
End Top.
