(** make_Fp_preInv of src/zm2.cpp (struct PairingCode), Linux register assignment: the
    instructions it emits.  [T] is the address of s_pTbl[1], s_pTbl[2] follows 32 bytes later.
    The labels .lp, .v_even, .next3, .u_even and .exit are 1 .. 5; [align] is omitted. *)
From Coq Require Import ZArith List Bool.
From Verif Require Import Base X64 JitFp.
Import ListNotations.
Local Open Scope Z_scope.

Section Gen.
Variable T : Z.
(** v = [gt2:gt1:gp3:gp2], u = [gt6:gt5:gt4:gt3], s = [gt10:gt9:gt8:gt7],
    r = [gp1:rax:rsp[1]:rsp[0]]; k = xm4, one = xm5 (zm2.cpp:1872-1895) *)
(** shr1, shl1 (1068-1078) *)
Definition shr1 (x3 x2 x1 x0 : reg) : code := shrn x3 x2 x1 x0 1.
Definition shl1 (x3 x2 x1 x0 : reg) : code := add_rr x3 x2 x1 x0 x3 x2 x1 x0.
(** 1896-1916 *)
Definition inv_init : code :=
  [Mov (R RDX) (Im T)] ++ load_rm gt6 gt5 gt4 gt3 (Ad RDX 0) ++
  [Mov (R gt2) (M (Ad gp2 24)); Mov (R gt1) (M (Ad gp2 16)); Mov (R gp3) (M (Ad gp2 8)); Mov (R gp2) (M (Ad gp2 0));
   Xor (R gt10) (R gt10); Lea gt7 (Ad gt10 1); Mov (R gt8) (R gt10); Mov (R gt9) (R gt10);
   Mov (M (Ad RSP 0)) (R gt10); Mov (M (Ad RSP 8)) (R gt10); Mov (M (Ad RSP 16)) (R gp1);
   Xor (R RAX) (R RAX); Xor (R gp1) (R gp1); Pxor X4; Pxor X5; MovqX X5 gt7].
(** 1920-1923: t = v0 | v1 | v2 | v3 *)
Definition inv_test : code := [Mov (R RDX) (R gp2); Or (R RDX) (R gp3); Or (R RDX) (R gt1); Or (R RDX) (R gt2)].
(** 1929-1933 *)
Definition inv_sub : code :=
  [MovqX X0 gp2; MovqX X1 gp3; MovqX X2 gt1; MovqX X3 gt2] ++ sub_rr gt2 gt1 gp3 gp2 gt6 gt5 gt4 gt3.
(** 1935-1938: s += r *)
Definition inv_sr : code := [Add (R gt7) (M (Ad RSP 0)); Adc (R gt8) (M (Ad RSP 8)); Adc (R gt9) (R RAX); Adc (R gt10) (R gp1)].
(** 1940-1947: v >>= 1, r <<= 1, k++ *)
Definition inv_v : code :=
  shr1 gt2 gt1 gp3 gp2 ++
  [Mov (R RDX) (M (Ad RSP 0)); Add (M (Ad RSP 0)) (R RDX); Mov (R RDX) (M (Ad RSP 8)); Adc (M (Ad RSP 8)) (R RDX);
   Adc (R RAX) (R RAX); Adc (R gp1) (R gp1); Paddd X4 X5].
(** 1951-1959: v is restored, u -= v, r += s *)
Definition inv_u3 : code :=
  [MovqR gp2 X0; MovqR gp3 X1; MovqR gt1 X2; MovqR gt2 X3] ++ sub_rr gt6 gt5 gt4 gt3 gt2 gt1 gp3 gp2 ++
  [Add (M (Ad RSP 0)) (R gt7); Adc (M (Ad RSP 8)) (R gt8); Adc (R RAX) (R gt9); Adc (R gp1) (R gt10)].
(** 1961-1963: u >>= 1, s <<= 1, k++ *)
Definition inv_u : code := shr1 gt6 gt5 gt4 gt3 ++ shl1 gt10 gt9 gt8 gt7 ++ [Paddd X4 X5].
(** 1969-1977: r = 2p - r; rax = k *)
Definition inv_exit : code :=
  [Mov (R RDX) (Im (T + 32))] ++ load_rm gt10 gt9 gt8 gt7 (Ad RDX 0) ++
  [Sub (R gt7) (M (Ad RSP 0)); Sbb (R gt8) (M (Ad RSP 8)); Sbb (R gt9) (R RAX); Sbb (R gt10) (R gp1);
   Mov (R gp1) (M (Ad RSP 16))] ++ store_mr (Ad gp1 0) gt10 gt9 gt8 gt7 ++ [MovqR RAX X4].
Definition inv_body : code :=
  inv_init ++ [Lab 1] ++ inv_test ++ [Jcc CZ 5] ++
  [Test (R gt3) (Im 1)] ++ [Jcc CZ 4] ++ [Test (R gp2) (Im 1)] ++ [Jcc CZ 2] ++
  inv_sub ++ [Jcc CC 3] ++ inv_sr ++ [Lab 2] ++ inv_v ++ [Jmp 1] ++
  [Lab 3] ++ inv_u3 ++ [Lab 4] ++ inv_u ++ [Jmp 1] ++ [Lab 5] ++ inv_exit.
(** make_Fp_preInv (1870-1980) *)
Definition make_Fp_preInv : code := frame 10 4 inv_body.
End Gen.
