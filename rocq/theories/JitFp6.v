(** The code generators of src/zm2.cpp (struct PairingCode) for the functions on Fp6 and Fp12:
    what they emit, including the subroutines they call.  Parameters as in JitFp2.
    Simplifications: as in JitFp2; a member of an object at an address (Ext2, Ext6, Ext12:
    zm2.cpp:380-430) is that address plus an offset; the subroutines stand behind the function
    ([lib]) instead of before it, once for all functions (in the sources, too, they are emitted
    once), and are named by labels instead of absolute addresses. *)
From Coq Require Import ZArith List Bool.
From Verif Require Import Base X64 JitFp JitFp2.
Import ListNotations.
Local Open Scope Z_scope.

Section Gen.
Variables il mx sn : bool.
Variables T pp HF NT : Z.
Local Notation in_Fp_addNC := (in_Fp_addNC il).
Local Notation in_Fp_subNC := (in_Fp_subNC il).
Local Notation in_Fp_adcNC := (in_Fp_adcNC il).
Local Notation in_Fp_sbbNC := (in_Fp_sbbNC il).
Local Notation sub_FpDbl_sub := (sub_FpDbl_sub il T).
Local Notation in_FpDbl_add1 := (in_FpDbl_add il T).
Local Notation in_FpDbl_subOpt1 := (in_FpDbl_subOpt1 il NT).
Local Notation P1 := (Ad gp1 0).
Local Notation P2 := (Ad gp2 0).
Local Notation P3 := (Ad gp3 0).

Definition subr (l : Z) (body : code) : code := [Lab l] ++ body ++ [Ret].
(** set_p_FpDbl_add (831-837), set_p_FpDbl_addNC (838-845), set_p_FpDbl_subNC (846-853),
    set_p_FpDbl_sub (863-869) *)
Definition L_FpDbl_add : Z := 111.
Definition b_FpDbl_add : code := in_FpDbl_add1 P1 P2 P3.
Definition b_FpDbl_addNC : code := in_Fp_addNC P1 P2 P3 ++ in_Fp_adcNC (Ad gp1 32) (Ad gp2 32) (Ad gp3 32).
Definition L_FpDbl_subNC : Z := 113.
Definition b_FpDbl_subNC : code := in_Fp_subNC P1 P2 P3 ++ in_Fp_sbbNC (Ad gp1 32) (Ad gp2 32) (Ad gp3 32).
Definition L_FpDbl_sub : Z := 112.
Definition b_FpDbl_sub : code := sub_FpDbl_sub P1 P2 P3.
(** set_p_Fp2_addNC (936-943), set_p_Fp2_add (944-950), set_p_Fp2_sub (951-957),
    set_p_Fp6_add (1004-1010), set_p_Fp6_sub (1016-1022) *)
Definition L_Fp2_addNC : Z := 116.
Definition b_Fp2_addNC : code := in_Fp_addNC P1 P2 P3 ++ in_Fp_addNC (Ad gp1 32) (Ad gp2 32) (Ad gp3 32).
Definition L_Fp2_add : Z := 114.
Definition b_Fp2_add : code := in_Fp_add_n il T 2 P1 P2 P3.
Definition L_Fp2_sub : Z := 115.
Definition b_Fp2_sub : code := in_Fp_sub_n il T 2 P1 P2 P3.
Definition L_Fp6_add : Z := 117.
Definition b_Fp6_add : code := in_Fp_add_n il T 6 P1 P2 P3.
Definition L_Fp6_sub : Z := 118.
Definition b_Fp6_sub : code := in_Fp_sub_n il T 6 P1 P2 P3.
(** the two versions of mulOpt (set_p_Fp2Dbl_mulOpt 2048-2062): p_Fp2Dbl_mulOpt1, p_Fp2Dbl_mulOpt2 *)
Definition L_mulOpt1 : Z := 106.
Definition L_mulOpt2 : Z := 107.

(** in_FpDbl_addNC, in_FpDbl_subNC (672-681), in_FpDbl_sub (826-830), in_Fp2Dbl_add (854-862),
    in_Fp2Dbl_sub (870-878), in_Fp2_add, in_Fp2_sub (926-935), in_Fp2_addNC (958-962),
    in_FpDbl_add(n), in_FpDbl_addNC(n), in_FpDbl_sub(n) (970-987), in_Fp2Dbl_mul_xi (1627-1633) *)
Definition call3 (l : Z) (mz x y : addr) : code := smart_set_gp mz x y ++ [Call l].
Definition c_FpDbl_addNC := call3 L_FpDbl_addNC.
Definition c_FpDbl_subNC := call3 L_FpDbl_subNC.
Definition c_FpDbl_sub := call3 L_FpDbl_sub.
Definition c_Fp2_add := call3 L_Fp2_add.
Definition c_Fp2_sub := call3 L_Fp2_sub.
Definition c_Fp2_addNC := call3 L_Fp2_addNC.
Definition twice (l : Z) (mz x y : addr) : code :=
  call3 l mz x y ++ [Add (R gp1) (Im 64); Add (R gp2) (Im 64); Add (R gp3) (Im 64); Call l].
Definition c_Fp2Dbl_add := twice L_FpDbl_add.
Definition c_Fp2Dbl_sub := twice L_FpDbl_sub.
Definition c_FpDbl_addNC_n (n : nat) (mz x y : addr) : code := rep n 0 (fun i => c_FpDbl_addNC (plus mz (64 * i)) (plus x (64 * i)) (plus y (64 * i))).
Definition in_FpDbl_add_n (n : nat) (mz x y : addr) : code := rep n 0 (fun i => in_FpDbl_add1 (plus mz (64 * i)) (plus x (64 * i)) (plus y (64 * i))).
Definition in_FpDbl_sub_n (n : nat) (mz x y : addr) : code := rep n 0 (fun i => sub_FpDbl_sub (plus mz (64 * i)) (plus x (64 * i)) (plus y (64 * i))).
Definition c_Fp2Dbl_mul_xi (mz x : addr) : code := [Mov (R RAX) (Im T); Lea gp1 mz; Lea gp2 x; Call L_Fp2Dbl_mul_xi].
(** three addresses in gp1, gp2, gp3 and a call *)
Definition lea3 (mz x y : addr) (l : Z) : code := [Lea gp1 mz; Lea gp2 x; Lea gp3 y; Call l].

(** ** set_p_Fp6Dbl_mul (2103-2252): z = gt8 (xm3), x = gt9 (xm4), y = gt10 (xm5); on the stack t0, t1
    (Fp2), T0, T1, T2 (double width) *)
Local Notation z_ o := (Ad gt8 o).
Local Notation x_ o := (Ad gt9 o).
Local Notation y_ o := (Ad gt10 o).
Local Notation t0 := (Ad RSP 0).
Local Notation t1 := (Ad RSP 64).
Local Notation T0 o := (Ad RSP (128 + o)).
Local Notation T1 o := (Ad RSP (256 + o)).
Local Notation T2 o := (Ad RSP (384 + o)).
Definition getz : code := [MovqR gt8 X3].
Definition getxy : code := [MovqR gt9 X4; MovqR gt10 X5].
Definition L_Fp6Dbl_mul : Z := 119.
Definition b_Fp6Dbl_mul : code :=
  [Sub (R RSP) (Im 512)] ++ getz ++ getxy ++
  lea3 (T0 0) (x_ 0) (y_ 0) L_mulOpt1 ++
  getxy ++ lea3 (T1 0) (x_ 64) (y_ 64) L_mulOpt1 ++
  getxy ++ lea3 (T2 0) (x_ 128) (y_ 128) L_mulOpt1 ++
  getxy ++ c_Fp2_addNC t0 (x_ 64) (x_ 128) ++ c_Fp2_addNC t1 (y_ 64) (y_ 128) ++
  getz ++ lea3 (z_ 256) t0 t1 L_mulOpt2 ++
  getz ++ getxy ++ c_FpDbl_addNC_n 2 (z_ 128) (T1 0) (T2 0) ++
  c_FpDbl_sub (z_ 256) (z_ 256) (z_ 128) ++ c_FpDbl_subNC (z_ 320) (z_ 320) (z_ 192) ++
  c_Fp2Dbl_mul_xi (z_ 128) (z_ 256) ++ c_Fp2Dbl_add (z_ 0) (z_ 128) (T0 0) ++
  c_Fp2_addNC t0 (x_ 0) (x_ 64) ++ c_Fp2_addNC t1 (y_ 0) (y_ 64) ++
  lea3 (z_ 256) t0 t1 L_mulOpt2 ++
  getz ++ getxy ++ c_FpDbl_addNC_n 2 (z_ 128) (T0 0) (T1 0) ++
  c_FpDbl_sub (z_ 256) (z_ 256) (z_ 128) ++ c_FpDbl_subNC (z_ 320) (z_ 320) (z_ 192) ++
  (if sn then c_Fp2Dbl_mul_xi (z_ 128) (T2 0)
   else in_FpDbl_subOpt1 (z_ 128) (T2 0) (T2 64) ++ in_FpDbl_add1 (z_ 192) (T2 0) (T2 64)) ++
  c_Fp2Dbl_add (z_ 128) (z_ 128) (z_ 256) ++
  c_Fp2_addNC t0 (x_ 0) (x_ 128) ++ c_Fp2_addNC t1 (y_ 0) (y_ 128) ++
  lea3 (z_ 256) t0 t1 L_mulOpt2 ++
  getz ++ c_FpDbl_addNC_n 2 (T2 0) (T2 0) (T0 0) ++
  c_FpDbl_sub (z_ 256) (z_ 256) (T2 0) ++ in_FpDbl_add1 (z_ 256) (z_ 256) (T1 0) ++
  c_FpDbl_subNC (z_ 320) (z_ 320) (T2 64) ++ c_FpDbl_addNC (z_ 320) (z_ 320) (T1 64) ++
  [Add (R RSP) (Im 512)].
(** set_p_Fp6_mul (2275-2303) *)
Definition L_Fp6_mul : Z := 120.
Definition b_Fp6_mul : code :=
  [Sub (R RSP) (Im 384); MovqX X2 gp1; MovqX X3 RSP; MovqX X4 gp2; MovqX X5 gp3; Call L_Fp6Dbl_mul] ++
  rep 6 0 (fun i => [MovqR gp1 X2] ++
    (if i =? 0 then [Mov (R gp2) (R RSP)] else [Add (R gp1) (Im (32 * i)); Lea gp2 (Ad RSP (64 * i))]) ++ [Call L_FpDbl_mod]) ++
  [Add (R RSP) (Im 384)].

(** all subroutines: label and body; the first is set_p_FpDbl_mod (1274-1281) *)
Definition subs : list (Z * code) :=
  [(L_FpDbl_mod, mont_mod mx T pp);
   (L_FpDbl_addNC, b_FpDbl_addNC); (L_FpDbl_subNC, b_FpDbl_subNC); (L_FpDbl_add, b_FpDbl_add); (L_FpDbl_sub, b_FpDbl_sub);
   (L_Fp2_addNC, b_Fp2_addNC); (L_Fp2_add, b_Fp2_add); (L_Fp2_sub, b_Fp2_sub); (L_Fp6_add, b_Fp6_add); (L_Fp6_sub, b_Fp6_sub);
   (L_mulOpt1, Fp2Dbl_mulOpt il mx T NT true); (L_mulOpt2, Fp2Dbl_mulOpt il mx T NT false);
   (L_Fp2Dbl_mul_xi, Fp2Dbl_mul_xi il sn T);
   (L_Fp6Dbl_mul, b_Fp6Dbl_mul); (L_Fp6_mul, b_Fp6_mul)].
Definition lib : code := flat_map (fun e => subr (fst e) (snd e)) subs.

(** make_Fp6_add (1011-1015), make_Fp6_sub (1023-1027), make_Fp6Dbl_mul (2264-2273),
    make_Fp6_mul (2304-2308) *)
Definition make_Fp6_add : code := frame 7 0 [Call L_Fp6_add] ++ lib.
Definition make_Fp6_sub : code := frame 7 0 [Call L_Fp6_sub] ++ lib.
Definition make_Fp6Dbl_mul : code := frame 10 0 [MovqX X3 gp1; MovqX X4 gp2; MovqX X5 gp3; Call L_Fp6Dbl_mul] ++ lib.
Definition make_Fp6_mul : code := frame 10 0 [Call L_Fp6_mul] ++ lib.

(** ** sub_Fp2_mul_gamma_add (2559-2568), make_Fp12_square (2570-2611): z = gt10 (saved at rsp + 384),
    t0, t1 (Fp6) on the stack *)
Definition mul_gamma_add (mz x y : addr) : code :=
  in_Fp2_mul_xi il mx sn T (plus mz 0) (plus x 128) ++ c_Fp2_add (plus mz 0) (plus mz 0) (plus y 0) ++
  c_Fp2_add (plus mz 64) (plus x 0) (plus y 64) ++ c_Fp2_add (plus mz 128) (plus x 64) (plus y 128).
Definition b_Fp12_square : code :=
  [Mov (R gt10) (R gp1); Mov (M (Ad RSP 384)) (R gp1)] ++ lea3 (Ad RSP 0) (Ad gt10 0) (Ad gt10 192) L_Fp6_add ++
  mul_gamma_add (Ad RSP 192) (Ad gt10 192) (Ad gt10 0) ++
  [Lea gp1 (Ad gt10 192); Mov (R gp2) (R gp1); Mov (R gp3) (R gt10); Call L_Fp6_mul] ++
  [Mov (R gp1) (M (Ad RSP 384)); Lea gp2 (Ad RSP 0); Lea gp3 (Ad RSP 192); Call L_Fp6_mul] ++
  [Mov (R gt10) (M (Ad RSP 384))] ++ mul_gamma_add (Ad RSP 192) (Ad gt10 192) (Ad gt10 192) ++
  [Mov (R gt10) (M (Ad RSP 384)); Mov (R gp1) (R gt10); Mov (R gp2) (R gt10); Lea gp3 (Ad RSP 192); Call L_Fp6_sub] ++
  [Lea gp1 (Ad gt10 192); Mov (R gp2) (R gp1); Mov (R gp3) (R gp1); Call L_Fp6_add].
Definition make_Fp12_square : code := frame 10 49 b_Fp12_square ++ lib.

(** make_Fp12_mul (2613-2695): t0, t1 (Fp6), T0, T1, T2 (Fp6, double width), zd (Fp12, double width), zsave,
    xsave, ysave on the stack *)
Definition movq345 : code := [MovqX X3 gp1; MovqX X4 gp2; MovqX X5 gp3; Call L_Fp6Dbl_mul].
Definition b_Fp12_mul : code :=
  [Mov (M (Ad RSP 2304)) (R gp1); Mov (M (Ad RSP 2312)) (R gp2); Mov (M (Ad RSP 2320)) (R gp3)] ++
  [Lea gp1 (Ad RSP 384)] ++ movq345 ++
  [Mov (R gt9) (M (Ad RSP 2312)); Mov (R gt10) (M (Ad RSP 2320))] ++
  [Lea gp1 (Ad RSP 768); Lea gp2 (Ad gt9 192); Lea gp3 (Ad gt10 192)] ++ movq345 ++
  [Mov (R gt9) (M (Ad RSP 2312))] ++ lea3 (Ad RSP 0) (Ad gt9 0) (Ad gt9 192) L_Fp6_add ++
  [Mov (R gt10) (M (Ad RSP 2320))] ++ lea3 (Ad RSP 192) (Ad gt10 0) (Ad gt10 192) L_Fp6_add ++
  [Lea gp1 (Ad RSP 1536); Lea gp2 (Ad RSP 0); Lea gp3 (Ad RSP 192)] ++ movq345 ++
  in_FpDbl_add_n 6 (Ad RSP 1152) (Ad RSP 384) (Ad RSP 768) ++
  in_FpDbl_sub_n 6 (Ad RSP 1920) (Ad RSP 1536) (Ad RSP 1152) ++
  c_Fp2Dbl_mul_xi (Ad RSP 1536) (Ad RSP 1024) ++
  in_FpDbl_add_n 2 (Ad RSP 1536) (Ad RSP 1536) (Ad RSP 384) ++
  in_FpDbl_add_n 2 (Ad RSP 1664) (Ad RSP 768) (Ad RSP 512) ++
  in_FpDbl_add_n 2 (Ad RSP 1792) (Ad RSP 896) (Ad RSP 640) ++
  rep 12 0 (fun i => [Mov (R gp1) (M (Ad RSP 2304))] ++ (if 0 <? i then [Add (R gp1) (Im (32 * i))] else []) ++
    [Lea gp2 (Ad RSP (1536 + 64 * i)); Call L_FpDbl_mod]).
Definition make_Fp12_mul : code := frame 10 291 b_Fp12_mul ++ lib.

(** ** make_Fp12Dbl_mul_Fp2_024 (2697-2957): z = gt9 (xm3), x = gt10 (xm4); t0, t1, t2, t4 (Fp2), T2, T3,
    X0T0, X2T2, X4T4, ACC (double width) on the stack *)
Local Notation zz o := (Ad gt9 o).
Local Notation xx o := (Ad gt10 o).
Local Notation s_t0 := (Ad RSP 0).
Local Notation s_t1 := (Ad RSP 64).
Local Notation s_t2 := (Ad RSP 128).
Local Notation s_t4 := (Ad RSP 192).
Local Notation s_T2 := (Ad RSP 256).
Local Notation s_T3 := (Ad RSP 384).
Local Notation s_X0T0 := (Ad RSP 512).
Local Notation s_X2T2 := (Ad RSP 640).
Local Notation s_X4T4 := (Ad RSP 768).
Local Notation s_ACC := (Ad RSP 896).
Definition gz : code := [MovqR gt9 X3].
Definition gx : code := [MovqR gt10 X4].
Definition modz (o : Z) (d : addr) : code := [Lea gp1 (zz o); Lea gp2 d] ++ in_Fp2Dbl_mod.
Definition b_mul_024 : code :=
  [Mov (R gt9) (R gp1); Mov (R gt10) (R gp2); MovqX X3 gt9; MovqX X4 gt10] ++
  [Lea gp1 s_X0T0; Mov (R gp2) (R gt9); Mov (R gp3) (R gt10); Call L_mulOpt2] ++
  gz ++ gx ++ lea3 s_X2T2 (zz 128) (xx 128) L_mulOpt2 ++
  gz ++ gx ++ lea3 s_X4T4 (zz 256) (xx 64) L_mulOpt2 ++
  gz ++ c_Fp2_add s_t2 (zz 0) (zz 256) ++ c_Fp2_add s_t1 (zz 0) (zz 128) ++
  c_Fp2_add s_t4 (zz 64) (zz 192) ++ c_Fp2_add s_t4 s_t4 (zz 320) ++
  gx ++ lea3 s_ACC (zz 64) (xx 128) L_mulOpt2 ++
  c_Fp2Dbl_add s_T2 s_ACC s_X4T4 ++ c_Fp2Dbl_mul_xi s_T3 s_T2 ++ c_Fp2Dbl_add s_T3 s_T3 s_X0T0 ++
  gz ++ modz 0 s_T3 ++
  gz ++ gx ++ lea3 s_T2 (zz 320) (xx 64) L_mulOpt2 ++
  c_Fp2Dbl_add s_ACC s_ACC s_T2 ++ c_Fp2Dbl_add s_T2 s_T2 s_X2T2 ++ c_Fp2Dbl_mul_xi s_T3 s_T2 ++
  gz ++ gx ++ lea3 s_T2 (zz 64) (xx 0) L_mulOpt2 ++
  c_Fp2Dbl_add s_ACC s_ACC s_T2 ++ c_Fp2Dbl_add s_T3 s_T3 s_T2 ++
  gz ++ modz 64 s_T3 ++
  gx ++ c_Fp2_add s_t0 (xx 0) (xx 128) ++ lea3 s_T2 s_t1 s_t0 L_mulOpt2 ++
  c_Fp2Dbl_sub s_T2 s_T2 s_X0T0 ++ c_Fp2Dbl_sub s_T2 s_T2 s_X2T2 ++
  gz ++ gx ++ lea3 s_T3 (zz 192) (xx 64) L_mulOpt2 ++
  c_Fp2Dbl_add s_ACC s_ACC s_T3 ++ c_Fp2Dbl_add s_T2 s_T2 s_T3 ++
  gz ++ c_Fp2_add s_t0 (zz 128) (zz 256) ++ modz 128 s_T2 ++
  gx ++ c_Fp2_add s_t1 (xx 128) (xx 64) ++ lea3 s_T2 s_t0 s_t1 L_mulOpt2 ++
  c_Fp2Dbl_sub s_T2 s_T2 s_X2T2 ++ c_Fp2Dbl_sub s_T2 s_T2 s_X4T4 ++ c_Fp2Dbl_mul_xi s_T3 s_T2 ++
  gz ++ gx ++ [Lea gp1 s_T2; Lea gp2 (zz 192); Mov (R gp3) (R gt10); Call L_mulOpt2] ++
  c_Fp2Dbl_add s_ACC s_ACC s_T2 ++ c_Fp2Dbl_add s_T3 s_T3 s_T2 ++
  gz ++ modz 192 s_T3 ++
  gz ++ gx ++ lea3 s_T2 (zz 320) (xx 128) L_mulOpt2 ++
  c_Fp2Dbl_add s_ACC s_ACC s_T2 ++ c_Fp2Dbl_mul_xi s_T3 s_T2 ++
  gx ++ c_Fp2_add s_t0 (xx 0) (xx 64) ++ lea3 s_T2 s_t2 s_t0 L_mulOpt2 ++
  c_Fp2Dbl_sub s_T2 s_T2 s_X0T0 ++ c_Fp2Dbl_sub s_T2 s_T2 s_X4T4 ++ c_Fp2Dbl_add s_T3 s_T3 s_T2 ++
  gz ++ modz 256 s_T3 ++
  gx ++ c_Fp2_add s_t0 (xx 0) (xx 128) ++ c_Fp2_add s_t0 s_t0 (xx 64) ++ lea3 s_T2 s_t4 s_t0 L_mulOpt2 ++
  gz ++ c_Fp2Dbl_sub s_T2 s_T2 s_ACC ++ modz 320 s_T2.
Definition make_Fp12Dbl_mul_Fp2_024 : code := frame 10 128 b_mul_024 ++ lib.
End Gen.
