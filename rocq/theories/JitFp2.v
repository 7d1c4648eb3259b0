(** The code generators of src/zm2.cpp (struct PairingCode) for the functions on Fp2 and on
    double-width pairs: what they emit.  Parameters: [il] (interleaveLoad), [mx] (useMulx), as
    in JitFp; [sn] the BN_SUPPORT_SNARK build; [T] the address of s_pTbl[1] (p; s_pTbl[i] is at
    T + 32 (i - 1)), [pp] the constant -1/p mod 2^64, [HF] the address of Fp::halfTbl_,
    [NT] the address of Fp::Dbl::pNTbl_[2].
    Simplification: a member object at an offset (Ext1, Ext2: zm2.cpp:380-430) is its address;
    calls go to a label behind the function instead of the absolute address of a routine
    emitted earlier. *)
From Coq Require Import ZArith List Bool.
From Verif Require Import Base X64 JitFp.
Import ListNotations.
Local Open Scope Z_scope.

Section Gen.
Variables il mx sn : bool.
Variables T pp HF NT : Z.
Local Notation load_add_rm := (load_add_rm il).
Local Notation load_sub_rm := (load_sub_rm il).
Local Notation in_Fp_addNC := (in_Fp_addNC il).
Local Notation in_Fp_subNC := (in_Fp_subNC il).
Local Notation in_Fp_sbbNC := (in_Fp_sbbNC il).
Local Notation sub_FpDbl_sub := (sub_FpDbl_sub il T).
Local Notation in_FpDbl_add := (in_FpDbl_add il T).
Local Notation in_Fp_add := (in_Fp_add il).
Local Notation in_Fp_sub := (in_Fp_sub il).
Local Notation mul4x4 := (mul4x4 mx).
Local Notation p_FpDbl_mod := (p_FpDbl_mod mx T pp).
Local Notation p_Fp_mul := (p_Fp_mul mx T pp).

(** sub_Fp_divBy2 (1083-1094), set_p_Fp2_divBy2 (1095-1105), make_Fp2_divBy2 (1106-1110) *)
Definition sub_Fp_divBy2 (z x : addr) : code :=
  [Mov (R RDX) (M (plus x 0)); And (R RDX) (Im 1); Shl RDX 5] ++ load_rm gt4 gt3 gt2 gt1 x ++ shrn gt4 gt3 gt2 gt1 1 ++
  [Mov (R gt5) (Im HF); Add (R RDX) (R gt5)] ++ add_rm gt4 gt3 gt2 gt1 (Ad RDX 0) ++ store_mr z gt4 gt3 gt2 gt1.
Definition L_Fp2_divBy2 : Z := 110.
Definition Fp2_divBy2 : code :=
  [Mov (R RAX) (Im T)] ++ sub_Fp_divBy2 (Ad gp1 0) (Ad gp2 0) ++ sub_Fp_divBy2 (Ad gp1 32) (Ad gp2 32).
Definition make_Fp2_divBy2 : code := frame 7 0 [Call L_Fp2_divBy2] ++ [Lab L_Fp2_divBy2] ++ Fp2_divBy2 ++ [Ret].

(** make_Fp2_mul_Fp_0 (1288-1298) *)
Definition Fp2_mul_Fp_0 : code :=
  [MovqX X2 gp3; Call L_Fp_mul; MovqR gp3 X2; Add (R gp1) (Im 32); Add (R gp2) (Im 32); Call L_Fp_mul].
Definition make_Fp2_mul_Fp_0 : code := frame 10 0 Fp2_mul_Fp_0 ++ p_Fp_mul.

(** in_Fp_mul_xi_addsub (1472-1507), in_Fp2_mul_xi (1510-1535), make_Fp2_mul_xi (1536-1540) *)
Definition in_Fp_mul_xi_addsub (mz x y : addr) (doAdd : bool) : code :=
  [Mov (R gt4) (Im 9)] ++ mul4x1 mx x gt4 gt5 gt3 gt2 gt1 gt6 ++
  (if doAdd then add_rm gt4 gt3 gt2 gt1 y ++ [Adc (R RDX) (Im 0)]
   else [Mov (R RAX) (Im T)] ++ add_rm gt4 gt3 gt2 gt1 (Ad RAX 0) ++ [Adc (R RDX) (Im 0)] ++
        sub_rm gt4 gt3 gt2 gt1 y ++ [Sbb (R RDX) (Im 0)]) ++
  [Shld RDX gt4 63; Mov (R RAX) (Im 0xa948e8c4c474094e); Mul (R RDX); Shr RDX 60; Shl RDX 5; Mov (R RAX) (Im T)] ++
  sub_rm gt4 gt3 gt2 gt1 (AdI RAX RDX 1 (-32)) ++ in_Fp_add_modp ++ store_mr mz gt4 gt3 gt2 gt1.
Definition in_Fp2_mul_xi (mz x : addr) : code :=
  [Mov (R RAX) (Im T)] ++
  (if sn then in_Fp_mul_xi_addsub mz x (plus x 32) false ++ in_Fp_mul_xi_addsub (plus mz 32) (plus x 32) x true
   else in_Fp_sub mz x (plus x 32) ++ in_Fp_add (plus mz 32) x (plus x 32)).
Definition make_Fp2_mul_xi : code := frame 7 0 (in_Fp2_mul_xi (Ad gp1 0) (Ad gp2 0)).

(** in_FpDbl_neg (1546-1581): labels .neg and .exit are [l] and [l + 1]; make_FpDbl_neg,
    make_Fp2Dbl_neg (1582-1592) *)
Definition neg_test (x : addr) : code :=
  load_rm gt4 gt3 gt2 gt1 x ++ [Mov (R RDX) (R gt4); Or (R RDX) (R gt3); Or (R RDX) (R gt2); Or (R RDX) (R gp1)] ++
  load_rm gt4 gt3 gt2 gt1 (plus x 32) ++ [Or (R RDX) (R gt4); Or (R RDX) (R gt3); Or (R RDX) (R gt2); Or (R RDX) (R gp1)].
Definition neg_body (mz x : addr) : code :=
  [Mov (R RAX) (Im (T - 32))] ++ in_Fp_subNC mz (Ad RAX 0) x ++ in_Fp_sbbNC (plus mz 32) (Ad RAX 32) (plus x 32).
Definition in_FpDbl_neg (l : Z) (mz x : addr) : code :=
  neg_test x ++ [Jcc CNZ l] ++ store_mr mz RDX RDX RDX RDX ++ store_mr (plus mz 32) RDX RDX RDX RDX ++ [Jmp (l + 1)] ++
  [Lab l] ++ neg_body mz x ++ [Lab (l + 1)].
Definition make_FpDbl_neg : code := frame 4 0 (in_FpDbl_neg 1 (Ad gp1 0) (Ad gp2 0)).
Definition make_Fp2Dbl_neg : code := frame 4 0 (in_FpDbl_neg 1 (Ad gp1 0) (Ad gp2 0) ++ in_FpDbl_neg 3 (Ad gp1 64) (Ad gp2 64)).

(** in_Fp2Dbl_mod (1664-1673), make_Fp2Dbl_mod (1678-1682) *)
Definition in_Fp2Dbl_mod : code :=
  [MovqX X2 gp2; Call L_FpDbl_mod; MovqR gp2 X2; Add (R gp2) (Im 64); Add (R gp1) (Im 32); Call L_FpDbl_mod].
Definition make_Fp2Dbl_mod : code := frame 10 0 in_Fp2Dbl_mod ++ p_FpDbl_mod.

(** two calls of mod, at the end of square and mul *)
Definition mod2 (d1 d0 SS : Z) : code :=
  [Lea gp2 (Ad RSP d1); Call L_FpDbl_mod; Lea gp2 (Ad RSP d0); Add (R gp1) (Im 32); Call L_FpDbl_mod; Add (R RSP) (Im SS)].
(** in_Fp2_square (1717-1774): t at 0, d0 at 32, d1 at 96 of the stack; set_p_Fp2_square
    (1709-1715), make_Fp2_square (1779-1783) *)
Definition L_Fp2_square : Z := 105.
Definition square_calc : code :=
  [Sub (R RSP) (Im 160)] ++
  (if sn then [Mov (R RAX) (Im T)] else []) ++
  load_rm gt4 gt3 gt2 gt1 (Ad gp2 32) ++ add_rr gt4 gt3 gt2 gt1 gt4 gt3 gt2 gt1 ++
  (if sn then in_Fp_add_modp else []) ++ store_mr (Ad RSP 0) gt4 gt3 gt2 gt1 ++
  mul4x4 (Ad RSP 32) (Ad RSP 0) (Ad gp2 0) gt10 gt9 gt8 gt7 gt6 gt5 gt4 gt3 gt2 gt1 ++
  [Mov (R RAX) (Im T)] ++ load_add_rm gt4 gt3 gt2 gt1 (Ad gp2 0) (Ad RAX 0) false ++
  sub_rm gt4 gt3 gt2 gt1 (Ad gp2 32) ++ store_mr (Ad RSP 0) gt4 gt3 gt2 gt1 ++
  (if sn then in_Fp_add (Ad gp1 0) (Ad gp2 0) (Ad gp2 32) else in_Fp_addNC (Ad gp1 0) (Ad gp2 0) (Ad gp2 32)) ++
  mul4x4 (Ad RSP 96) (Ad RSP 0) (Ad gp1 0) gt10 gt9 gt8 gt7 gt6 gt5 gt4 gt3 gt2 gt1.
Definition Fp2_square : code := square_calc ++ mod2 96 32 160.
Definition make_Fp2_square : code := frame 10 0 [Call L_Fp2_square] ++ [Lab L_Fp2_square] ++ Fp2_square ++ [Ret] ++ p_FpDbl_mod.

(** sub_Fp2Dbl_subNC (1787-1795) *)
Definition sub_Fp2Dbl_subNC (pz px : addr) (t3 t2 t1 t0 : reg) : code :=
  load_sub_rm t3 t2 t1 t0 pz px false ++ store_mr pz t3 t2 t1 t0 ++
  load_sub_rm t3 t2 t1 t0 (plus pz 32) (plus px 32) true ++ store_mr (plus pz 32) t3 t2 t1 t0.
(** in_FpDbl_subOpt1 (1802-1813) *)
Definition in_FpDbl_subOpt1 (mz x y : addr) : code :=
  [Mov (R RAX) (Im NT)] ++ load_rm gt4 gt3 gt2 gt1 x ++ [Add (R gt4) (M (Ad RAX 24))] ++
  load_add_rm RDX gt7 gt6 gt5 (plus x 32) (Ad RAX 32) true ++
  sub_rm gt4 gt3 gt2 gt1 y ++ store_mr mz gt4 gt3 gt2 gt1 ++
  sbb_rm RDX gt7 gt6 gt5 (plus y 32) ++ store_mr (plus mz 32) RDX gt7 gt6 gt5.
(** set_p_Fp2_mul (1816-1858): s at 0, t at 32, d0 at 64, d1 at 128, d2 at 192 of the stack;
    make_Fp2_mul (1861-1865) *)
Definition L_Fp2_mul : Z := 104.
Definition mul_calc : code :=
  [Sub (R RSP) (Im 256)] ++
  in_Fp_addNC (Ad RSP 0) (Ad gp2 0) (Ad gp2 32) ++ in_Fp_addNC (Ad RSP 32) (Ad gp3 0) (Ad gp3 32) ++
  mul4x4 (Ad RSP 64) (Ad RSP 0) (Ad RSP 32) gt9 gt8 gt7 gt6 gt5 gt4 gt3 gt2 gt1 gt10 ++
  mul4x4 (Ad RSP 128) (Ad gp2 0) (Ad gp3 0) gt9 gt8 gt7 gt6 gt5 gt4 gt3 gt2 gt1 gt10 ++
  mul4x4 (Ad RSP 192) (Ad gp2 32) (Ad gp3 32) gt9 gt8 gt7 gt6 gt5 gt4 gt3 gt2 gt1 gt10 ++
  sub_Fp2Dbl_subNC (Ad RSP 64) (Ad RSP 128) gt3 gt2 gt1 gt10 ++
  sub_Fp2Dbl_subNC (Ad RSP 64) (Ad RSP 192) gt3 gt2 gt1 gt10 ++
  sub_FpDbl_sub (Ad RSP 128) (Ad RSP 128) (Ad RSP 192).
Definition Fp2_mul : code := mul_calc ++ mod2 128 64 256.
Definition make_Fp2_mul : code := frame 10 0 [Call L_Fp2_mul] ++ [Lab L_Fp2_mul] ++ Fp2_mul ++ [Ret] ++ p_FpDbl_mod.

(** sub_Fp2Dbl_mulOpt (2003-2047): s at 0, t at 32, d0 at 64 of the stack; set_p_Fp2Dbl_mulOpt
    (2048-2062), make_Fp2Dbl_mulOpt (2090-2098) *)
Definition Fp2Dbl_mulOpt (mode1 : bool) : code :=
  [Sub (R RSP) (Im 128)] ++
  in_Fp_addNC (Ad RSP 0) (Ad gp2 0) (Ad gp2 32) ++ in_Fp_addNC (Ad RSP 32) (Ad gp3 0) (Ad gp3 32) ++
  mul4x4 (Ad RSP 64) (Ad gp2 32) (Ad gp3 32) gt9 gt8 gt7 gt6 gt5 gt4 gt3 gt2 gt1 gt10 ++
  mul4x4 (Ad gp1 0) (Ad gp2 0) (Ad gp3 0) gt9 gt8 gt7 gt6 gt5 gt4 gt3 gt2 gt1 gt10 ++
  mul4x4 (Ad gp1 64) (Ad RSP 0) (Ad RSP 32) gt9 gt8 gt7 gt6 gt5 gt4 gt3 gt2 gt1 gt10 ++
  load_sub_rm gt3 gt2 gt1 gt10 (Ad gp1 64) (Ad gp1 0) false ++ load_sub_rm gt7 gt6 gt5 gt4 (Ad gp1 96) (Ad gp1 32) true ++
  sub_rm gt3 gt2 gt1 gt10 (Ad RSP 64) ++ sbb_rm gt7 gt6 gt5 gt4 (Ad RSP 96) ++
  store_mr (Ad gp1 64) gt3 gt2 gt1 gt10 ++ store_mr (Ad gp1 96) gt7 gt6 gt5 gt4 ++
  (if mode1 then in_FpDbl_subOpt1 (Ad gp1 0) (Ad gp1 0) (Ad RSP 64) else sub_FpDbl_sub (Ad gp1 0) (Ad gp1 0) (Ad RSP 64)) ++
  [Add (R RSP) (Im 128)].
Definition L_Fp2Dbl_mulOpt : Z := 106.
Definition make_Fp2Dbl_mulOpt (mode1 : bool) : code :=
  frame 10 0 [Call L_Fp2Dbl_mulOpt] ++ [Lab L_Fp2Dbl_mulOpt] ++ Fp2Dbl_mulOpt mode1 ++ [Ret].

(** set_p_Fp2Dbl_mul_xi (2063-2087) and its frame *)
Definition Fp2Dbl_mul_xi : code :=
  [Mov (R RAX) (Im T)] ++
  (if sn then
    in_FpDbl_add (Ad gp1 0) (Ad gp2 0) (Ad gp2 0) ++ in_FpDbl_add (Ad gp1 0) (Ad gp1 0) (Ad gp1 0) ++
    in_FpDbl_add (Ad gp1 0) (Ad gp1 0) (Ad gp1 0) ++ in_FpDbl_add (Ad gp1 0) (Ad gp1 0) (Ad gp2 0) ++
    sub_FpDbl_sub (Ad gp1 0) (Ad gp1 0) (Ad gp2 64) ++
    in_FpDbl_add (Ad gp1 64) (Ad gp2 64) (Ad gp2 64) ++ in_FpDbl_add (Ad gp1 64) (Ad gp1 64) (Ad gp1 64) ++
    in_FpDbl_add (Ad gp1 64) (Ad gp1 64) (Ad gp1 64) ++ in_FpDbl_add (Ad gp1 64) (Ad gp1 64) (Ad gp2 64) ++
    in_FpDbl_add (Ad gp1 64) (Ad gp1 64) (Ad gp2 0)
   else sub_FpDbl_sub (Ad gp1 0) (Ad gp2 0) (Ad gp2 64) ++ in_FpDbl_add (Ad gp1 64) (Ad gp2 64) (Ad gp2 0)).
Definition L_Fp2Dbl_mul_xi : Z := 109.
Definition make_Fp2Dbl_mul_xi : code := frame 7 0 [Call L_Fp2Dbl_mul_xi] ++ [Lab L_Fp2Dbl_mul_xi] ++ Fp2Dbl_mul_xi ++ [Ret].

(** set_p_Fp2Dbl_square (2965-3002): t0 at 0, t1 at 32 of the stack, gt0 = gp3;
    make_Fp2Dbl_square (3007-3011) *)
Definition Fp2Dbl_square : code :=
  [Sub (R RSP) (Im 64)] ++
  load_rm gt3 gt2 gt1 gp3 (Ad gp2 32) ++ add_rr gt3 gt2 gt1 gp3 gt3 gt2 gt1 gp3 ++ store_mr (Ad RSP 0) gt3 gt2 gt1 gp3 ++
  mul4x4 (Ad gp1 64) (Ad RSP 0) (Ad gp2 0) gt9 gt8 gt7 gt6 gt5 gt4 gt3 gt2 gt1 gp3 ++
  [Mov (R RAX) (Im T)] ++ load_add_rm gt3 gt2 gt1 gp3 (Ad gp2 0) (Ad RAX 0) false ++
  sub_rm gt3 gt2 gt1 gp3 (Ad gp2 32) ++ store_mr (Ad RSP 32) gt3 gt2 gt1 gp3 ++
  in_Fp_addNC (Ad RSP 0) (Ad gp2 0) (Ad gp2 32) ++
  mul4x4 (Ad gp1 0) (Ad RSP 0) (Ad RSP 32) gt9 gt8 gt7 gt6 gt5 gt4 gt3 gt2 gt1 gp3 ++
  [Add (R RSP) (Im 64)].
Definition L_Fp2Dbl_square : Z := 108.
Definition make_Fp2Dbl_square : code := frame 9 0 [Call L_Fp2Dbl_square] ++ [Lab L_Fp2Dbl_square] ++ Fp2Dbl_square ++ [Ret].
End Gen.
