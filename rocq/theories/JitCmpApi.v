(** Calls of the generated Compress::square_n. *)
From Coq Require Import ZArith List Bool Lia.
From Verif Require Import X64 XLog JitSpec JitFpSpec XTac XReg JitFp JitMac JitMac2 JitFrame JitRep JitFpApi JitFpApi2 JitFp2 JitFp2Spec JitFp2Mac JitFp2Mac2 JitFp2Api JitFp2Api2 JitSym JitSub JitLib JitFp6Spec JitFp6 JitFp6Sub JitFp6Mul JitTop JitFp6Api JitFp12Api JitLine JitLineSub JitTop2 JitLineApi JitCmp JitCmpSub.
From Verif Require Import Base Prim Primes FpSpec Cfg FpM TowerSpec TowerM FinalM.
Import ListNotations.
Local Open Scope Z_scope.
Local Notation find := X64.find.
Local Notation length := List.length.

(** an Fp12 with the compressed components replaced *)
Definition putc (x : F2 (F3 (F2 Z))) (z : cmp) : F2 (F3 (F2 Z)) := mk2 (mk3 (a3 (a2 x)) (cg4 z) (cg3 z)) (mk3 (cg2 z) (b3 (b2 x)) (cg5 z)).
Definition gcmp : list reg := [RAX; RDX; RSI; RDI; R9; gt1; gt2; gt3; gt4; gt5; gt6; gt7; gt8; gt9; gt10].
Ltac lzC := lazy -[fp_add fp_sub fp_addNC fp_mul fp_neg dbl_add dbl_sub dbl_addNC dbl_subNC dbl_subOpt1 dbl_mod d2_mulOpt d2_mul_xi f2_mul f2_square d2_square f2_mul_xi f2_add f2_sub f2_addNC fp_3t_sub_2z f2_2z_add_3x a2 b2 a3 b3 c3 cp cr cpp snark].

Section Body.
  Variables (c : cfg) (il mx : bool) (T NT HF : Z).
  Local Notation LX := (libx il mx false T (cpp c) HF).
  Local Notation LB := (lib il mx false T (cpp c) NT).
  Local Notation SB := (subr L_Fp2_2z_add_3x (b_Fp2_2z_add_3x il T)).
  Local Notation tabs := (ctabs c T NT HF).
  Local Notation tb := (tbc c).
  Ltac trk := repeat (apply Forall_cons; [first [exact I | reflexivity]|]); apply Forall_nil.
  Definition i_3t oz ot : item := IA (in_Fp_3t_sub_2z il T (Ad gt10 oz) (Ad RSP ot)) (AR gt10 oz) (AR gt10 oz) (AR RSP ot) (r_3t2z c).
  Definition cs_items : list item :=
    tr tb (cs1 T) ++ adds c il T 2 192 192 320 ++ tr tb cs2 ++
    [IT RAX (RT, 0); i_sub4g c il RSP 64 RSP 0 RSP 32; i_add4g c il RSP 96 RSP 0 RSP 32] ++ tr tb (cs3 T) ++
    adds c il T 2 192 192 448 ++ tr tb cs4 ++ [i_3t 64 0; i_3t 96 32] ++ tr tb cs5.
  Local Notation body := (b_csq il mx false T).
  Lemma cs_flat base : base RT = T -> flat base cs_items = body.
  Proof.
    intros E. unfold cs_items. rewrite !flat_app, !(flat_tr base T tb _ E), !flat_adds; [|trk..].
    unfold b_csq, in_Fp2_mul_xi. cbn [flat flat_map flat1 i_sub4g i_add4g i_3t fst snd]. rewrite Z.eqb_refl, E, !app_nil_r. rewrite <- !app_assoc. reflexivity.
  Qed.
  Local Notation FR := (frame 10 89 (b_square_n il mx false T)).
  Lemma cs_pre : nolab (FR ++ SB) = true /\ cnt 201 (FR ++ SB ++ LX ++ LB) = 1%nat /\ cnt 202 (FR ++ SB ++ LX ++ LB) = 1%nat /\
    forallb (fun l => nol l (FR ++ SB)) [L_Fp_mul; L_Fp2_mul; L_Fp2_square; L_Fp2Dbl_square; L_Fp2_divBy2; L_Fp2_neg] = true /\
    nol L_Fp2_2z_add_3x FR = true /\ cnt L_lp (FR ++ SB ++ LX ++ LB) = 1%nat.
  Proof. clear. destruct il, mx; (split; [|split; [|split; [|split; [|split]]]]); vm_compute; reflexivity. Qed.
  Lemma cs_ok : snark c = false -> Forall (aokT (FR ++ SB ++ LX ++ LB) T tabs) cs_items.
  Proof.
    intros Es. destruct cs_pre as (N1 & N2 & N3 & N4 & N5 & _). pose proof (tbc_ok c il mx T NT HF FR N1) as TB. rewrite Es in TB. specialize (TB N2 N3 N4 N5).
    set (C := FR ++ SB ++ LX ++ LB) in *. clearbody C.
    assert (AD : forall n z a b, Forall (aokT C T tabs) (adds c il T n z a b)) by (intros; unfold adds; apply Forall_map, Forall_forall; intros; apply (a_add8 C c il T NT HF); reflexivity).
    unfold cs_items. rewrite !Forall_app.
    split; [apply tr_ok; exact TB|]. split; [apply AD|]. split; [apply tr_ok; exact TB|]. split; [constructor; [exact I|constructor; [apply a_sub4; reflexivity|constructor; [apply a_add4; reflexivity|constructor]]]|].
    split; [apply tr_ok; exact TB|]. split; [apply AD|]. split; [apply tr_ok; exact TB|]. split; [constructor; [apply a_3t2z|constructor; [apply a_3t2z|constructor]]|apply tr_ok; exact TB].
  Qed.
  Definition clay : layout := fun r =>
    match r with
    | RO => (0, 384, true) | RA => (0, 0, false) | RB => (0, 0, false)
    | RS => (-72, 712, true) | RT => (-32, 288, false) | RN | RH | RC => (0, 64, false)
    end.
  Definition cs0 (v : list Z) (n : Z) : sst :=
    mkS [(RSP, (RS, 0)); (gt10, (RO, 0))] [(X3, (RO, 0))] (addf (RO, 0) W4x12 v (addf (RS, 704) [(0, 1%nat)] [n] [])) [].
  Definition csK (v : list Z) (n : Z) (t : sst) : Prop :=
    lookfs (s_f t) (RO, 0) W4x12 = Some v /\ lookfs (s_f t) (RS, 704) [(0, 1%nat)] = Some [n] /\
    lookr (s_r t) RSP = Some (RS, 0) /\ lookr (s_r t) gt10 = Some (RO, 0) /\ lookx (s_x t) X3 = Some (RO, 0).
  Ltac unf E := unfold d2_addNC, d2_add, d2_sub, d2_mod, f2_mul_xi, f2_3t_sub_2zF in E; cbn [TowerSpec.a2 TowerSpec.b2] in E.
  Ltac rwE := repeat (match goal with E : ?f = _ |- context [?f] => lazymatch f with f2_add _ _ _ => idtac | f2_sub _ _ _ => idtac | d2_mul_xi _ _ => idtac | f2_2z_add_3x _ _ _ => idtac | fp_3t_sub_2z _ _ _ => idtac
      | d2_square _ _ => idtac | dbl_add _ _ _ => idtac | dbl_addNC _ _ => idtac | dbl_sub _ _ _ => idtac | dbl_mod _ _ => idtac | fp_add _ _ _ => idtac | fp_sub _ _ _ => idtac end; rewrite E; cbn [TowerSpec.a2 TowerSpec.b2] end).
  Ltac stage := refine (exec_cut _ _ _ _ _ _ _ _); [let KK := fresh in let HK := fresh in intros KK HK; lzC; ex_; cbn [TowerSpec.a2 TowerSpec.b2]; rwE; exact HK|].
  Ltac setup Q Es := repeat (letI Q; intros ? ?; cbv beta); subst Q; cbv beta;
    repeat match goal with E : ?t = ?e |- _ => is_var t; symmetry in E; destruct t as [? ?] end;
    repeat match goal with E : d2_addNC _ _ = _ |- _ => unf E | E : d2_add _ _ _ = _ |- _ => unf E | E : d2_sub _ _ _ = _ |- _ => unf E | E : d2_mod _ _ = _ |- _ => unf E | E : f2_3t_sub_2zF _ _ _ = _ |- _ => unf E | E : f2_mul_xi _ _ = _ |- _ => unfold f2_mul_xi in E; rewrite Es in E; cbn [TowerSpec.a2 TowerSpec.b2] in E end;
    repeat match goal with E : mk2 _ _ = mk2 _ _ |- _ => let E1 := fresh "E" in let E2 := fresh "E" in injection E as E1 E2 end.
  Lemma cs_exec x n : snark c = false ->
    exec clay cs_items (cs0 (l12 x) n) (csK (l12 (putc x (cmp_square c (compress x)))) n).
  Proof.
    intros Es. destruct x as [[[p0 p1] [q0 q1] [r0 r1]] [[s0 s1] [u0 u1] [v0 v1]]].
    set (x := mk2 (mk3 (mk2 p0 p1) (mk2 q0 q1) (mk2 r0 r1)) (mk3 (mk2 s0 s1) (mk2 u0 u1) (mk2 v0 v1))).
    set (Q := fun r : cmp => exec clay cs_items (cs0 (l12 x) n) (csK (l12 (putc x r)) n)).
    change (Q (cmp_square c (mkC (mk2 s0 s1) (mk2 r0 r1) (mk2 q0 q1) (mk2 v0 v1)))). cbv beta iota delta [cmp_square cg2 cg3 cg4 cg5].
    setup Q Es. unfold x. clear x.
    repeat match goal with E : ?v = ?w |- _ => is_var v; is_var w; subst v end.
    unfold cs_items, cs1, cs2, cs3, cs4, cs5, getz, dsq, dmod, l12, putc, l6. rewrite !tr_app, <- !app_assoc. cbn [TowerSpec.a2 TowerSpec.b2 TowerSpec.a3 TowerSpec.b3 TowerSpec.c3 cg2 cg3 cg4 cg5].
    repeat stage. lzC. ex_; rwE; reflexivity.
  Qed.
End Body.
