(** The code generator of src/zm2.cpp for Compress::square_n (make_Compress_square_n): what it emits,
    including the subroutines it calls.  Parameters as in JitFp2; simplifications: as in JitFp6 and
    JitLine; the local label .lp is given a number. *)
From Coq Require Import ZArith List Bool.
From Verif Require Import Base X64 JitFp JitFp2 JitFp6 JitLine.
Import ListNotations.
Local Open Scope Z_scope.

Section Gen.
Variables il mx sn : bool.
Variables T pp HF NT : Z.

(** fast_modp (1686-1705); T - 32 is the address of s_pTbl[0] *)
Definition fast_modp (x3 x2 x1 x0 t0 t1 t2 t3 : reg) : code :=
  [Mov (R RDX) (R x3); Shr RDX 61; Shl RDX 5; Mov (R RAX) (Im (T - 32))] ++
  sub_rm x3 x2 x1 x0 (AdI RAX RDX 1 0) ++ [Sbb (R RDX) (R RDX)] ++
  load_rm t3 t2 t1 t0 (Ad RAX 32) ++
  [And (R t0) (R RDX); And (R t1) (R RDX); And (R t2) (R RDX); And (R t3) (R RDX)] ++
  add_rr x3 x2 x1 x0 t3 t2 t1 t0.
(** in_Fp_2z_add_3x (2538-2545), set_p_Fp2_2z_add_3x (2551-2558) *)
Definition in_Fp_2z_add_3x (mz x : addr) : code :=
  load_add_rm il gt4 gt3 gt2 gt1 mz x false ++ add_rr gt4 gt3 gt2 gt1 gt4 gt3 gt2 gt1 ++
  add_rm gt4 gt3 gt2 gt1 x ++ fast_modp gt4 gt3 gt2 gt1 gp3 gt5 gt6 gt7 ++ store_mr mz gt4 gt3 gt2 gt1.
Definition L_Fp2_2z_add_3x : Z := 122.
Definition b_Fp2_2z_add_3x : code :=
  in_Fp_2z_add_3x (Ad gp1 0) (Ad gp2 0) ++ in_Fp_2z_add_3x (Ad gp1 32) (Ad gp2 32).

(** ** make_Compress_square_n (2346-2532): z = gt10 (xm3); t0, t1, t2 (Fp2), T0, ..., T3 (double width) and
    the count on the stack; g2, ..., g5 at 192, 128, 64 and 320 (2361-2366) *)
Local Notation z_ o := (Ad gt10 o).
Local Notation t0 := (Ad RSP 0).
Local Notation t1 := (Ad RSP 64).
Local Notation t2 := (Ad RSP 128).
Local Notation T0 := (Ad RSP 192).
Local Notation T1 := (Ad RSP 320).
Local Notation T2 := (Ad RSP 448).
Local Notation T3 := (Ad RSP 576).
Local Notation nsave := (Ad RSP 704).
Definition getz : code := [MovqR gt10 X3].
Definition dsq (mz x : addr) : code := [Lea gp1 mz; Lea gp2 x; Call L_Fp2Dbl_square].
Definition dmod (mz x : addr) : code := [Lea gp1 mz; Lea gp2 x] ++ in_Fp2Dbl_mod.
(** the loop of 2479-2495: g4 = 3 t0 - 2 g4 *)
Definition in_Fp_3t_sub_2z (mz t : addr) : code :=
  [Mov (R RAX) (Im T)] ++ load_add_rm il gt4 gt3 gt2 gt1 t (Ad RAX 0) false ++ sub_rm gt4 gt3 gt2 gt1 mz ++
  add_rr gt4 gt3 gt2 gt1 gt4 gt3 gt2 gt1 ++ add_rm gt4 gt3 gt2 gt1 t ++
  fast_modp gt4 gt3 gt2 gt1 gp1 gp2 gp3 gt5 ++ store_mr mz gt4 gt3 gt2 gt1.
Definition cs1 : code :=
  dsq T0 (z_ 64) ++ [Lea gp1 T1; MovqR gp2 X3; Add (R gp2) (Im 320); Call L_Fp2Dbl_square] ++
  c_Fp2Dbl_mul_xi T T2 T1 ++ c_Fp2Dbl_add T2 T2 T0 ++ dmod t2 T2 ++ getz ++
  c_Fp2_add t0 (z_ 64) (z_ 320) ++ dsq T2 t0 ++ getz.
Definition cs2 : code :=
  c_Fp2Dbl_sub T2 T2 T0 ++ dmod t0 T2 ++ getz ++
  c_Fp2_add t1 (z_ 192) (z_ 128) ++ dsq T3 t1 ++ getz ++ dsq T2 (z_ 192).
Definition cs3 : code :=
  [Lea gp1 (z_ 192); Lea gp2 t1; Call L_Fp2_2z_add_3x] ++
  c_Fp2_sub t1 t2 (z_ 128) ++ c_Fp2_add t1 t1 t1 ++ dsq T1 (z_ 128) ++ getz ++
  c_Fp2_add (z_ 128) t1 t2 ++ c_Fp2Dbl_mul_xi T T0 T1.
Definition cs4 : code := dmod t0 T0 ++ getz.
Definition cs5 : code :=
  c_FpDbl_addNC_n 2 T2 T2 T1 ++ c_Fp2Dbl_sub T3 T3 T2 ++ dmod t0 T3 ++ getz ++
  [Lea gp1 (z_ 320); Lea gp2 t0; Call L_Fp2_2z_add_3x].
(** one squaring *)
Definition b_csq : code :=
  cs1 ++ in_FpDbl_add_n il T 2 T0 T0 T1 ++ cs2 ++ in_Fp2_mul_xi il mx sn T t1 t0 ++ cs3 ++
  in_FpDbl_add_n il T 2 T0 T0 T2 ++ cs4 ++
  in_Fp_3t_sub_2z (z_ 64) t0 ++ in_Fp_3t_sub_2z (z_ 96) (plus t0 32) ++ cs5.
Definition L_lp : Z := 203.
Definition b_square_n : code :=
  [Mov (R gt10) (M (Ad gp1 0)); Mov (M nsave) (R gp2); MovqX X3 gt10; Lab L_lp] ++ b_csq ++
  [Sub (M nsave) (Im 1); Jcc CNZ L_lp].
Definition make_Compress_square_n : code :=
  frame 10 89 b_square_n ++ subr L_Fp2_2z_add_3x b_Fp2_2z_add_3x ++ libx il mx sn T pp HF ++ lib il mx sn T pp NT.
End Gen.
