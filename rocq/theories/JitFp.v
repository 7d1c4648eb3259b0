(** The code generator of src/zm2.cpp (struct PairingCode), Linux register assignment, for the
    field functions: a function from its arguments to the instructions it emits.
    [il] is interleaveLoad and [mx] is g_useMulx (set by detectCpu, zm2.cpp:275-318), [T] the
    address of s_pTbl[1] (s_pTbl[0] lies 32 bytes before it), [pp] the constant pp_, [Hf] the
    address of Fp::halfTbl_, [N2] that of Fp::Dbl::pNTbl_[2], [snark] whether BN_SUPPORT_SNARK
    is defined.  A RegExp is a base register with a displacement.  [align], DEBUG_COUNT and the
    disabled branches of the sources are omitted.  The code of a function that calls others is
    followed here by the code of those others, named by labels (in the sources p_Fp_mul etc.
    are addresses of code emitted earlier). *)
From Coq Require Import ZArith List Bool.
From Verif Require Import Base X64.
Import ListNotations.
Local Open Scope Z_scope.

(** gp1 .. gp3, gt1 .. gt10 (zm2.cpp:3225-3245) *)
Notation gp1 := RDI. Notation gp2 := RSI. Notation gp3 := R9.
Notation gt1 := R8. Notation gt2 := RCX. Notation gt3 := R10. Notation gt4 := R11. Notation gt5 := R12.
Notation gt6 := R13. Notation gt7 := R14. Notation gt8 := R15. Notation gt9 := RBP. Notation gt10 := RBX.

(** load_rm (zm2.cpp:432-439), store_mr (443-449) *)
Definition load_rm (z3 z2 z1 z0 : reg) (m : addr) : code :=
  [Mov (R z0) (M (plus m 0)); Mov (R z1) (M (plus m 8)); Mov (R z2) (M (plus m 16)); Mov (R z3) (M (plus m 24))].
Definition store_mr (m : addr) (x3 x2 x1 x0 : reg) : code :=
  [Mov (M (plus m 0)) (R x0); Mov (M (plus m 8)) (R x1); Mov (M (plus m 16)) (R x2); Mov (M (plus m 24)) (R x3)].
(** add_rr, add_rm, adc_rm (453-495), sub_rr, sub_rm, sbb_rm (556-590) *)
Definition add_rr (z3 z2 z1 z0 x3 x2 x1 x0 : reg) : code :=
  [Add (R z0) (R x0); Adc (R z1) (R x1); Adc (R z2) (R x2); Adc (R z3) (R x3)].
Definition add_rm (z3 z2 z1 z0 : reg) (m : addr) : code :=
  [Add (R z0) (M (plus m 0)); Adc (R z1) (M (plus m 8)); Adc (R z2) (M (plus m 16)); Adc (R z3) (M (plus m 24))].
Definition adc_rm (z3 z2 z1 z0 : reg) (m : addr) : code :=
  [Adc (R z0) (M (plus m 0)); Adc (R z1) (M (plus m 8)); Adc (R z2) (M (plus m 16)); Adc (R z3) (M (plus m 24))].
Definition sub_rr (z3 z2 z1 z0 x3 x2 x1 x0 : reg) : code :=
  [Sub (R z0) (R x0); Sbb (R z1) (R x1); Sbb (R z2) (R x2); Sbb (R z3) (R x3)].
Definition sub_rm (z3 z2 z1 z0 : reg) (m : addr) : code :=
  [Sub (R z0) (M (plus m 0)); Sbb (R z1) (M (plus m 8)); Sbb (R z2) (M (plus m 16)); Sbb (R z3) (M (plus m 24))].
Definition sbb_rm (z3 z2 z1 z0 : reg) (m : addr) : code :=
  [Sbb (R z0) (M (plus m 0)); Sbb (R z1) (M (plus m 8)); Sbb (R z2) (M (plus m 16)); Sbb (R z3) (M (plus m 24))].

Section Gen.
Variables (il mx : bool) (T pp : Z).

(** load_add_rm (496-521), load_sub_rm (522-551) *)
Definition load_add_rm (z3 z2 z1 z0 : reg) (x y : addr) (withCarry : bool) : code :=
  if il then
    [Mov (R z0) (M (plus x 0)); (if withCarry then Adc else Add) (R z0) (M (plus y 0));
     Mov (R z1) (M (plus x 8)); Adc (R z1) (M (plus y 8));
     Mov (R z2) (M (plus x 16)); Adc (R z2) (M (plus y 16));
     Mov (R z3) (M (plus x 24)); Adc (R z3) (M (plus y 24))]
  else load_rm z3 z2 z1 z0 x ++ (if withCarry then adc_rm z3 z2 z1 z0 y else add_rm z3 z2 z1 z0 y).
Definition load_sub_rm (z3 z2 z1 z0 : reg) (x y : addr) (withCarry : bool) : code :=
  if il then
    [Mov (R z0) (M (plus x 0)); (if withCarry then Sbb else Sub) (R z0) (M (plus y 0));
     Mov (R z1) (M (plus x 8)); Sbb (R z1) (M (plus y 8));
     Mov (R z2) (M (plus x 16)); Sbb (R z2) (M (plus y 16));
     Mov (R z3) (M (plus x 24)); Sbb (R z3) (M (plus y 24))]
  else load_rm z3 z2 z1 z0 x ++ (if withCarry then sbb_rm z3 z2 z1 z0 y else sub_rm z3 z2 z1 z0 y).
(** in_Fp_add_carry (591-616), in_Fp_sub_carry (617-642) *)
Definition in_Fp_add_carry (mz x y : addr) (withCarry : bool) : code :=
  if il then
    [Mov (R gt1) (M (plus x 0)); (if withCarry then Adc else Add) (R gt1) (M (plus y 0)); Mov (M (plus mz 0)) (R gt1);
     Mov (R gt2) (M (plus x 8)); Adc (R gt2) (M (plus y 8)); Mov (M (plus mz 8)) (R gt2);
     Mov (R gt3) (M (plus x 16)); Adc (R gt3) (M (plus y 16)); Mov (M (plus mz 16)) (R gt3);
     Mov (R gt4) (M (plus x 24)); Adc (R gt4) (M (plus y 24)); Mov (M (plus mz 24)) (R gt4)]
  else load_add_rm gt4 gt3 gt2 gt1 x y withCarry ++ store_mr mz gt4 gt3 gt2 gt1.
Definition in_Fp_sub_carry (mz x y : addr) (withCarry : bool) : code :=
  if il then
    [Mov (R gt1) (M (plus x 0)); (if withCarry then Sbb else Sub) (R gt1) (M (plus y 0)); Mov (M (plus mz 0)) (R gt1);
     Mov (R gt2) (M (plus x 8)); Sbb (R gt2) (M (plus y 8)); Mov (M (plus mz 8)) (R gt2);
     Mov (R gt3) (M (plus x 16)); Sbb (R gt3) (M (plus y 16)); Mov (M (plus mz 16)) (R gt3);
     Mov (R gt4) (M (plus x 24)); Sbb (R gt4) (M (plus y 24)); Mov (M (plus mz 24)) (R gt4)]
  else load_sub_rm gt4 gt3 gt2 gt1 x y withCarry ++ store_mr mz gt4 gt3 gt2 gt1.
(** in_Fp_addNC ... in_Fp_sbbNC (643-658) *)
Definition in_Fp_addNC (mz x y : addr) : code := in_Fp_add_carry mz x y false.
Definition in_Fp_subNC (mz x y : addr) : code := in_Fp_sub_carry mz x y false.
Definition in_Fp_adcNC (mz x y : addr) : code := in_Fp_add_carry mz x y true.
Definition in_Fp_sbbNC (mz x y : addr) : code := in_Fp_sub_carry mz x y true.

(** storeReg, restoreReg (3257-3305) and the return that ~MakeStackFrame emits (327-341) *)
Definition saved (gtn : Z) : list reg :=
  firstn (Z.to_nat (gtn - 4)) [gt5; gt6; gt7; gt8; gt9; gt10].
Definition frameP (gtn numQword : Z) : Z := 8 * (Z.max 0 (gtn - 4) + numQword).
Fixpoint saveRegs (P i : Z) (l : list reg) : code :=
  match l with [] => [] | r :: l' => Mov (M (Ad RSP (P - 8 * i))) (R r) :: saveRegs P (i + 1) l' end.
Fixpoint loadRegs (P i : Z) (l : list reg) : code :=
  match l with [] => [] | r :: l' => Mov (R r) (M (Ad RSP (P - 8 * i))) :: loadRegs P (i + 1) l' end.
Definition storeReg (gtn numQword : Z) : code :=
  let P := frameP gtn numQword in
  (if 0 <? P then [Sub (R RSP) (Im P)] else []) ++ saveRegs P 1 (saved gtn) ++ [Mov (R R9) (R RDX)].
Definition restoreReg (gtn numQword : Z) : code :=
  let P := frameP gtn numQword in
  loadRegs P 1 (saved gtn) ++ (if 0 <? P then [Add (R RSP) (Im P)] else []) ++ [Ret].
Definition frame (gtn numQword : Z) (body : code) : code :=
  storeReg gtn numQword ++ body ++ restoreReg gtn numQword.

(** [for (int i = 0; i < n; i++) f(i)] *)
Fixpoint rep (n : nat) (i : Z) (f : Z -> code) : code :=
  match n with O => [] | S n' => f i ++ rep n' (i + 1) f end.

(** make_Fp_addNC (675-700), make_Fp_subNC (701-719) *)
Definition make_Fp_addNC (n : nat) : code :=
  rep n 0 (fun i => load_add_rm RAX R9 R10 R11 (Ad RSI (32 * i)) (Ad RDX (32 * i)) false ++
                    store_mr (Ad RDI (32 * i)) RAX R9 R10 R11) ++ [Ret].
Definition make_Fp_subNC : code :=
  load_sub_rm RSI R9 R10 R11 (Ad RSI 0) (Ad RDX 0) false ++ store_mr (Ad RDI 0) RSI R9 R10 R11 ++ [Ret].
(** in_Fp_add_modp (726-747), in_Fp_add (752-758), in_Fp_sub_modp (764-792), in_Fp_sub (797-802) *)
Definition in_Fp_add_modp : code :=
  [Mov (R gt5) (R gt1); Mov (R gt6) (R gt2); Mov (R gt7) (R gt3); Mov (R RDX) (R gt4)] ++
  sub_rm gt4 gt3 gt2 gt1 (Ad RAX 0) ++
  [Cmovc gt1 (R gt5); Cmovc gt2 (R gt6); Cmovc gt3 (R gt7); Cmovc gt4 (R RDX)].
Definition in_Fp_add (mz x y : addr) : code :=
  load_add_rm gt4 gt3 gt2 gt1 x y false ++ in_Fp_add_modp ++ store_mr mz gt4 gt3 gt2 gt1.
Definition in_Fp_sub_modp : code :=
  [Sbb (R RDX) (R RDX); Mov (R gt5) (R RDX); Mov (R gt6) (R RDX); Mov (R gt7) (R RDX);
   And (R RDX) (M (Ad RAX 0)); And (R gt5) (M (Ad RAX 8)); And (R gt6) (M (Ad RAX 16)); And (R gt7) (M (Ad RAX 24))] ++
  add_rr gt4 gt3 gt2 gt1 gt7 gt6 gt5 RDX.
Definition in_Fp_sub (mz x y : addr) : code :=
  load_sub_rm gt4 gt3 gt2 gt1 x y false ++ in_Fp_sub_modp ++ store_mr mz gt4 gt3 gt2 gt1.
(** in_FpDbl_add (806-814), sub_FpDbl_sub (818-825) *)
Definition in_FpDbl_add (mz x y : addr) : code :=
  [Mov (R RAX) (Im T)] ++ in_Fp_addNC mz x y ++
  load_add_rm gt4 gt3 gt2 gt1 (plus x 32) (plus y 32) true ++ in_Fp_add_modp ++ store_mr (plus mz 32) gt4 gt3 gt2 gt1.
Definition sub_FpDbl_sub (mz x y : addr) : code :=
  [Mov (R RAX) (Im T)] ++ in_Fp_subNC mz x y ++
  load_sub_rm gt4 gt3 gt2 gt1 (plus x 32) (plus y 32) true ++ in_Fp_sub_modp ++ store_mr (plus mz 32) gt4 gt3 gt2 gt1.
(** in_Fp_add(n, ...) (886-892), in_Fp_sub(n, ...) (965-971), make_Fp_add, make_Fp_sub (994-1003) *)
Definition in_Fp_add_n (n : nat) (mz x y : addr) : code :=
  [Mov (R RAX) (Im T)] ++ rep n 0 (fun i => in_Fp_add (plus mz (32 * i)) (plus x (32 * i)) (plus y (32 * i))).
Definition in_Fp_sub_n (n : nat) (mz x y : addr) : code :=
  [Mov (R RAX) (Im T)] ++ rep n 0 (fun i => in_Fp_sub (plus mz (32 * i)) (plus x (32 * i)) (plus y (32 * i))).
Definition make_Fp_add (n : nat) : code := frame 7 0 (in_Fp_add_n n (Ad gp1 0) (Ad gp2 0) (Ad gp3 0)).
Definition make_Fp_sub (n : nat) : code := frame 7 0 (in_Fp_sub_n n (Ad gp1 0) (Ad gp2 0) (Ad gp3 0)).
(** make_Fp_neg (1029-1054) *)
Definition make_Fp_neg : code :=
  load_rm R8 R9 R10 R11 (Ad RSI 0) ++
  [Mov (R RAX) (R R11); Or (R RAX) (R R10); Or (R RAX) (R R9); Or (R RAX) (R R8); Jcc CZ 1; Mov (R RAX) (Im T)] ++
  load_sub_rm R8 R9 R10 R11 (Ad RAX 0) (Ad RSI 0) false ++
  [Lab 1] ++ store_mr (Ad RDI 0) R8 R9 R10 R11 ++ [Ret].
(** shrn (1058-1064), make_Fp_shr (1125-1142) *)
Definition shrn (x3 x2 x1 x0 : reg) (n : Z) : code := [Shrd x0 x1 n; Shrd x1 x2 n; Shrd x2 x3 n; Shr x3 n].
Definition make_Fp_shr (n : Z) : code :=
  load_rm R8 R9 R10 R11 (Ad RSI 0) ++ shrn R8 R9 R10 R11 n ++ store_mr (Ad RDI 0) R8 R9 R10 R11 ++ [Ret].

(** mul4x1 (1147-1187): [d:x:t2:t1:t0] = py[3..0] * x *)
Definition mul4x1 (py : addr) (x t3 t2 t1 t0 t : reg) : code :=
  if mx then
    [Mov (R RDX) (R x); Mulx t1 t0 (M (plus py 0)); Mulx t2 RAX (M (plus py 8)); Add (R t1) (R RAX);
     Mulx x RAX (M (plus py 16)); Adc (R t2) (R RAX); Mulx RDX RAX (M (plus py 24)); Adc (R x) (R RAX); Adc (R RDX) (Im 0)]
  else
    [Mov (R RAX) (M (plus py 0)); Mul (R x); Mov (R t0) (R RAX); Mov (R t1) (R RDX);
     Mov (R RAX) (M (plus py 8)); Mul (R x); Mov (R t) (R RAX); Mov (R t2) (R RDX);
     Mov (R RAX) (M (plus py 16)); Mul (R x); Mov (R t3) (R RAX); Mov (R RAX) (R x); Mov (R x) (R RDX);
     Mul (M (plus py 24)); Add (R t1) (R t); Adc (R t2) (R t3); Adc (R x) (R RAX); Adc (R RDX) (Im 0)].
(** montgomery1 (1195-1226) *)
Definition montgomery1 (c4 c3 c2 c1 c0 px y p t0 t1 t2 t3 t4 : reg) (isFirst : bool) : code :=
  (if isFirst then mul4x1 (Ad px 0) y c3 c2 c1 c0 c4 ++ [Mov (R c4) (R RDX)]
   else mul4x1 (Ad px 0) y t3 t2 t1 t0 t4 ++ add_rr y c2 c1 c0 c3 t2 t1 t0 ++ [Adc (R c4) (R RDX)]) ++
  [Mov (R RAX) (Im pp); Mul (R c0); Mov (R c3) (R RAX)] ++
  mul4x1 (Ad p 0) c3 t3 t2 t1 t0 t4 ++
  [Add (R c0) (R t0); Adc (R c1) (R t1); Adc (R c2) (R t2); Adc (R c3) (R y); Adc (R c4) (R RDX); Adc (R c0) (Im 0)].
(** Fp_mul (1228-1266) *)
Definition Fp_mul : code :=
  [MovqX X0 gp1; Mov (R gp1) (Im T); MovqX X1 gp3; Mov (R gp3) (M (Ad gp3 0))] ++
  montgomery1 gt1 gt8 gt4 gt3 gt2 gp2 gp3 gp1 gt5 gt6 gt7 gt9 gt10 true ++
  [MovqR gp3 X1; Mov (R gp3) (M (Ad gp3 8))] ++
  montgomery1 gt2 gt1 gt8 gt4 gt3 gp2 gp3 gp1 gt5 gt6 gt7 gt9 gt10 false ++
  [MovqR gp3 X1; Mov (R gp3) (M (Ad gp3 16))] ++
  montgomery1 gt3 gt2 gt1 gt8 gt4 gp2 gp3 gp1 gt5 gt6 gt7 gt9 gt10 false ++
  [MovqR gp3 X1; Mov (R gp3) (M (Ad gp3 24))] ++
  montgomery1 gt4 gt3 gt2 gt1 gt8 gp2 gp3 gp1 gt5 gt6 gt7 gt9 gt10 false ++
  [Mov (R gt5) (R gt1); Mov (R gt6) (R gt2); Mov (R gt7) (R gt3); Mov (R RDX) (R gt4)] ++
  sub_rm gt4 gt3 gt2 gt1 (Ad gp1 0) ++
  [Cmovc gt1 (R gt5); Cmovc gt2 (R gt6); Cmovc gt3 (R gt7); Cmovc gt4 (R RDX)] ++
  [MovqR gp1 X0] ++ store_mr (Ad gp1 0) gt4 gt3 gt2 gt1.
(** mul4x4 (1302-1374) *)
Definition mul4x4 (pz px py : addr) (t9 t8 t7 t6 t5 t4 t3 t2 t1 t0 : reg) : code :=
  (if mx then
    [Mov (R RDX) (M (plus px 0)); Mulx t0 RAX (M (plus py 0)); Mov (M (plus pz 0)) (R RAX);
     Mulx t1 RAX (M (plus py 8)); Add (R t0) (R RAX);
     Mulx t2 RAX (M (plus py 16)); Adc (R t1) (R RAX);
     Mulx t3 RAX (M (plus py 24)); Adc (R t2) (R RAX); Adc (R t3) (Im 0)]
  else
    [Mov (R t5) (M (plus px 0)); Mov (R RAX) (M (plus py 0)); Mul (R t5); Mov (M (plus pz 0)) (R RAX); Mov (R t0) (R RDX);
     Mov (R RAX) (M (plus py 8)); Mul (R t5); Mov (R t3) (R RAX); Mov (R t1) (R RDX);
     Mov (R RAX) (M (plus py 16)); Mul (R t5); Mov (R t4) (R RAX); Mov (R t2) (R RDX);
     Mov (R RAX) (M (plus py 24)); Mul (R t5);
     Add (R t0) (R t3); Mov (R t3) (Im 0); Adc (R t1) (R t4); Adc (R t2) (R RAX); Adc (R t3) (R RDX)]) ++
  [Mov (R t9) (M (plus px 8))] ++ mul4x1 py t9 t8 t7 t6 t5 t4 ++
  add_rr t3 t2 t1 t0 t9 t7 t6 t5 ++ [Adc (R RDX) (Im 0); Mov (R t8) (R RDX); Mov (M (plus pz 8)) (R t0)] ++
  [Mov (R t9) (M (plus px 16))] ++ mul4x1 py t9 t7 t6 t5 t4 t0 ++
  add_rr t8 t3 t2 t1 t9 t6 t5 t4 ++ [Adc (R RDX) (Im 0); Mov (R t7) (R RDX); Mov (M (plus pz 16)) (R t1)] ++
  [Mov (R t9) (M (plus px 24))] ++ mul4x1 py t9 t6 t5 t4 t1 t0 ++
  add_rr t7 t8 t3 t2 t9 t5 t4 t1 ++ [Adc (R RDX) (Im 0)] ++
  store_mr (plus pz 24) t7 t8 t3 t2 ++ [Mov (M (plus pz 56)) (R RDX)].
(** mont_mod (1381-1466) *)
Definition mont_mod : code :=
  [MovqX X0 gp1; Mov (R gp1) (M (Ad gp2 0)); Mov (R RAX) (Im pp); Mul (R gp1); Mov (R gp3) (Im T); Mov (R gt7) (R RAX)] ++
  mul4x1 (Ad gp3 0) gt7 gt4 gt3 gt2 gt1 gt8 ++
  [Add (R gt1) (R gp1); Adc (R gt2) (M (Ad gp2 8)); Adc (R gt3) (M (Ad gp2 16)); Adc (R gt7) (M (Ad gp2 24));
   Mov (R gt4) (M (Ad gp2 32)); Adc (R gt4) (R RDX); Mov (R gt8) (M (Ad gp2 40)); Adc (R gt8) (Im 0);
   Mov (R gt9) (M (Ad gp2 48)); Adc (R gt9) (Im 0); Mov (R gt10) (M (Ad gp2 56)); Adc (R gt10) (Im 0)] ++
  [Mov (R RAX) (Im pp); Mul (R gt2); Mov (R gp1) (R RAX); MovqX X1 gt10] ++
  mul4x1 (Ad gp3 0) gp1 gt1 gt5 gp2 gt6 gt10 ++ [MovqR gt10 X1] ++
  add_rr gt4 gt7 gt3 gt2 gp1 gt5 gp2 gt6 ++ [Adc (R gt8) (R RDX); Adc (R gt9) (Im 0); Adc (R gt10) (Im 0)] ++
  [Mov (R RAX) (Im pp); Mul (R gt3); Mov (R gp1) (R RAX)] ++
  mul4x1 (Ad gp3 0) gp1 gt1 gt5 gp2 gt6 gt2 ++
  add_rr gt8 gt4 gt7 gt3 gp1 gt5 gp2 gt6 ++ [Adc (R gt9) (R RDX); Adc (R gt10) (Im 0)] ++
  [Mov (R RAX) (Im pp); Mul (R gt7); Mov (R gp1) (R RAX)] ++
  mul4x1 (Ad gp3 0) gp1 gt1 gt5 gp2 gt6 gt2 ++
  add_rr gt9 gt8 gt4 gt7 gp1 gt5 gp2 gt6 ++ [Adc (R gt10) (R RDX)] ++
  [Mov (R gp1) (R gt4); Mov (R gt1) (R gt8); Mov (R gt2) (R gt9); Mov (R gt3) (R gt10)] ++
  sub_rm gt10 gt9 gt8 gt4 (Ad gp3 0) ++
  [Cmovc gt4 (R gp1); Cmovc gt8 (R gt1); Cmovc gt9 (R gt2); Cmovc gt10 (R gt3)] ++
  [MovqR gp1 X0] ++ store_mr (Ad gp1 0) gt10 gt9 gt8 gt4.

(** set_p_Fp_mul (1267-1274), set_p_FpDbl_mod (1275-1281): subroutines *)
Definition L_Fp_mul : Z := 101.
Definition L_FpDbl_mod : Z := 102.
Definition p_Fp_mul : code := [Lab L_Fp_mul] ++ Fp_mul ++ [Ret].
Definition p_FpDbl_mod : code := [Lab L_FpDbl_mod] ++ mont_mod ++ [Ret].
(** make_Fp_mul (1282-1286), make_FpDbl_mul (1643-1647), make_FpDbl_mod (1652-1656) *)
Definition make_Fp_mul : code := frame 10 0 [Call L_Fp_mul] ++ p_Fp_mul.
Definition make_FpDbl_mul : code :=
  frame 10 0 (mul4x4 (Ad gp1 0) (Ad gp2 0) (Ad gp3 0) gt9 gt8 gt7 gt6 gt5 gt4 gt3 gt2 gt1 gt10).
Definition make_FpDbl_mod : code := frame 10 0 [Call L_FpDbl_mod] ++ p_FpDbl_mod.
(** make_FpDbl_add, make_FpDbl_sub, make_FpDbl_subNC (1594-1628) *)
Definition make_FpDbl_add (n : nat) : code :=
  frame 7 0 (rep n 0 (fun i => in_FpDbl_add (Ad gp1 (64 * i)) (Ad gp2 (64 * i)) (Ad gp3 (64 * i)))).
Definition make_FpDbl_sub (n : nat) : code :=
  frame 7 0 (rep n 0 (fun i => sub_FpDbl_sub (Ad gp1 (64 * i)) (Ad gp2 (64 * i)) (Ad gp3 (64 * i)))).
Definition make_FpDbl_subNC (n : nat) : code :=
  frame 7 0 (rep n 0 (fun i => in_Fp_subNC (Ad gp1 (64 * i)) (Ad gp2 (64 * i)) (Ad gp3 (64 * i)) ++
    in_Fp_sbbNC (Ad gp1 (64 * i + 32)) (Ad gp2 (64 * i + 32)) (Ad gp3 (64 * i + 32)))).
(** smart_set_gp (661-676) *)
Definition aeqb (a b : addr) : bool :=
  match a, b with
  | Ad r d, Ad r' d' => reqb r r' && (d =? d')
  | AdI r i s d, AdI r' i' s' d' => reqb r r' && reqb i i' && (s =? s') && (d =? d')
  | _, _ => false
  end.
Definition smart_set_gp (mz x y : addr) : code :=
  [Lea gp1 mz; (if aeqb x mz then Mov (R gp2) (R gp1) else Lea gp2 x);
   (if aeqb y mz then Mov (R gp3) (R gp1) else if aeqb y x then Mov (R gp3) (R gp2) else Lea gp3 y)].
(** set_p_FpDbl_addNC (836-843), in_FpDbl_addNC (666-670), make_FpDbl_addNC (1611-1615) *)
Definition L_FpDbl_addNC : Z := 103.
Definition p_FpDbl_addNC : code :=
  [Lab L_FpDbl_addNC] ++ in_Fp_addNC (Ad gp1 0) (Ad gp2 0) (Ad gp3 0) ++
  in_Fp_adcNC (Ad gp1 32) (Ad gp2 32) (Ad gp3 32) ++ [Ret].
Definition make_FpDbl_addNC (n : nat) : code :=
  frame 7 0 (rep n 0 (fun i => smart_set_gp (Ad gp1 (64 * i)) (Ad gp2 (64 * i)) (Ad gp3 (64 * i)) ++ [Call L_FpDbl_addNC])) ++
  p_FpDbl_addNC.
End Gen.
