(** The code generator of src/zm2.cpp for the doubling step with line evaluation
    (make_pointDblLineEval): what it emits, including the subroutines it calls.  Parameters as in
    JitFp2; [b] is ParamT::b, [BI] the address of ParamT::b_invxi, [wop] the template argument
    withoutP.  Simplifications: as in JitFp6; the subroutines not yet in [lib] stand before it
    ([libx]); the anonymous labels of in_Fp_neg are given numbers. *)
From Coq Require Import ZArith List Bool.
From Verif Require Import Base X64 JitFp JitFp2 JitFp6.
Import ListNotations.
Local Open Scope Z_scope.

Section Gen.
Variables il mx sn : bool.
Variables T pp HF NT b BI : Z.
Variable wop : bool.

(** in_Fp_neg (887-898): rax points to p; in_Fp_neg(n) (899-905) and set_p_Fp2_neg (918-925);
    in_Fp2_neg (906-917) *)
Definition neg_or : code := [Mov (R RDX) (R gt1); Or (R RDX) (R gt2); Or (R RDX) (R gt3); Or (R RDX) (R gt4)].
Definition in_Fp_neg (l : Z) (mz x : addr) : code :=
  load_rm gt4 gt3 gt2 gt1 x ++ neg_or ++ [Jcc CZ l] ++ load_sub_rm il gt4 gt3 gt2 gt1 (Ad RAX 0) x false ++
  [Lab l] ++ store_mr mz gt4 gt3 gt2 gt1.
Definition L_Fp2_neg : Z := 121.
Definition b_Fp2_neg : code :=
  [Mov (R RAX) (Im T)] ++ in_Fp_neg 201 (Ad gp1 0) (Ad gp2 0) ++ in_Fp_neg 202 (Ad gp1 32) (Ad gp2 32).
Definition c_Fp2_neg (mz x : addr) : code :=
  [Lea gp1 mz] ++ (if aeqb x mz then [Mov (R gp2) (R gp1)] else [Lea gp2 x]) ++ [Call L_Fp2_neg].

(** further subroutines: set_p_Fp_mul (1230-1242), set_p_Fp2_mul, set_p_Fp2_square,
    set_p_Fp2Dbl_square, set_p_Fp2_divBy2 (JitFp, JitFp2), set_p_Fp2_neg *)
Definition subsx : list (Z * code) :=
  [(L_Fp_mul, Fp_mul mx T pp); (L_Fp2_mul, Fp2_mul il mx T); (L_Fp2_square, Fp2_square il mx sn T);
   (L_Fp2Dbl_square, Fp2Dbl_square il mx T); (L_Fp2_divBy2, Fp2_divBy2 T HF); (L_Fp2_neg, b_Fp2_neg)].
Definition libx : code := flat_map (fun e => subr (fst e) (snd e)) subsx.

(** ** make_pointDblLineEval (3012-3211): l = gt8 (xm3), R = gt9 (xm4), P = gt10 (xm5); t0, ..., t5 (Fp2),
    T0, T1, T2 (double width) on the stack *)
Local Notation l_ o := (Ad gt8 o).
Local Notation R_ o := (Ad gt9 o).
Local Notation P_ o := (Ad gt10 o).
Local Notation t0 := (Ad RSP 0).
Local Notation t1 := (Ad RSP 64).
Local Notation t2 := (Ad RSP 128).
Local Notation t3 := (Ad RSP 192).
Local Notation t4 := (Ad RSP 256).
Local Notation t5 := (Ad RSP 320).
Local Notation T0 := (Ad RSP 384).
Local Notation T1 := (Ad RSP 512).
Local Notation T2 := (Ad RSP 640).
Definition getl : code := [MovqR gt8 X3].
Definition getR : code := [MovqR gt9 X4].
Definition getP : code := [MovqR gt10 X5].
(** up to the multiplication by b' *)
Definition dl1 : code :=
  [Mov (R gt8) (R gp1); Mov (R gt9) (R gp2); MovqX X3 gp1; MovqX X4 gp2; MovqX X5 gp3] ++
  [Lea gp1 t0; Lea gp2 (R_ 128); Call L_Fp2_square] ++
  getR ++ lea3 t4 (R_ 0) (R_ 64) L_Fp2_mul ++
  getR ++ [Lea gp1 t1; Lea gp2 (R_ 64); Call L_Fp2_square] ++
  c_Fp2_add t3 t0 t0 ++
  [Lea gp1 t4; Mov (R gp2) (R gp1); Call L_Fp2_divBy2] ++
  c_Fp2_add t5 t0 t1 ++ c_Fp2_add t0 t0 t3.
(** t2 = t0 b' *)
Definition dl_b : code :=
  if sn then
    if b =? 82 then in_Fp_mul_xi_addsub mx T t2 t0 (plus t0 32) true ++ in_Fp_mul_xi_addsub mx T (plus t2 32) (plus t0 32) t0 false
    else [Lea gp1 t2; Lea gp2 t0; Mov (R gp3) (Im BI); Call L_Fp2_mul]
  else in_Fp_add il t2 t0 (plus t0 32) ++ in_Fp_sub il (plus t2 32) (plus t0 32) t0.
Definition dl2 : code :=
  [Lea gp1 t0; MovqR gp2 X4; Call L_Fp2_square] ++
  c_Fp2_add t3 t2 t2 ++ c_Fp2_add t3 t3 t2 ++
  getl ++ c_Fp2_addNC (l_ 128) t0 t0 ++
  getR ++ c_Fp2_sub (R_ 0) t1 t3 ++
  c_Fp2_addNC (l_ 128) (l_ 128) t0 ++
  c_Fp2_add t3 t3 t1 ++
  [Mov (R gp1) (R gt9); Mov (R gp2) (R gp1); Lea gp3 t4; Call L_Fp2_mul] ++
  [Lea gp1 t3; Mov (R gp2) (R gp1); Call L_Fp2_divBy2] ++
  [Lea gp1 T0; Lea gp2 t3; Call L_Fp2Dbl_square] ++
  [Lea gp1 T1; Lea gp2 t2; Call L_Fp2Dbl_square] ++
  c_FpDbl_addNC_n 2 T2 T1 T1 ++
  getR ++ c_Fp2_add t3 (R_ 64) (R_ 128).
Definition dl_add : code := if sn then in_FpDbl_add_n il T 2 T2 T2 T1 else c_FpDbl_addNC_n 2 T2 T2 T1.
Definition dl3 : code :=
  [Lea gp1 t3; Mov (R gp2) (R gp1); Call L_Fp2_square] ++ c_Fp2_sub t3 t3 t5.
Definition dl4 : code :=
  getR ++ [Lea gp1 (R_ 64); Lea gp2 T0] ++ in_Fp2Dbl_mod ++
  getR ++ lea3 (R_ 128) t1 t3 L_Fp2_mul ++
  c_Fp2_sub t2 t2 t1 ++ getl.
Definition dl5 : code := getl ++ c_Fp2_neg (l_ 64) t3.
(** the products by the coordinates of P *)
Definition dl6 : code :=
  [Lea gp1 (l_ 128); Mov (R gp2) (R gp1); MovqR gp3 X5; Call L_Fp_mul] ++
  getl ++ [Lea gp1 (l_ 160); Mov (R gp2) (R gp1); MovqR gp3 X5; Call L_Fp_mul] ++
  getl ++ getP ++ [Lea gp1 (l_ 64); Mov (R gp2) (R gp1); Lea gp3 (P_ 32); Call L_Fp_mul] ++
  getl ++ getP ++ [Lea gp1 (l_ 96); Mov (R gp2) (R gp1); Lea gp3 (P_ 32); Call L_Fp_mul].
Definition b_dblLine : code :=
  dl1 ++ dl_b ++ dl2 ++ dl_add ++ dl3 ++ in_FpDbl_sub_n il T 2 T0 T0 T2 ++ dl4 ++
  in_Fp2_mul_xi il mx sn T (l_ 0) t2 ++ dl5 ++ (if wop then [] else dl6).
Definition make_pointDblLineEval : code := frame 10 96 b_dblLine ++ libx ++ lib il mx sn T pp NT.
End Gen.
