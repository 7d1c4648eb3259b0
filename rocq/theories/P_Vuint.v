(** Properties of Vuint arithmetic: C01, C02, C04, C05, C07.
    Specification side: [lv x] is the integer written by the units of x in base
    2^64, [vwf x] says that x is a value the API can produce (1 to 9 units, no
    leading zero unit).  B = 2^64, so B ^ 9 = 2^576 is the capacity. *)
From Verif Require Import Base Prim PrimProofs Vuint VuintProofs.

(** C01 *)
Theorem C01_add_exact x y : vwf x -> vwf y -> lv x + lv y < B ^ 9 ->
  exists z, vadd x y = Ok z /\ vwf z /\ lv z = lv x + lv y.
Proof. exact (vadd_ok x y). Qed.
Print Assumptions C01_add_exact.

Theorem C01_add_overflow_exits x y : vwf x -> vwf y -> B ^ 9 <= lv x + lv y -> vadd x y = Exit.
Proof. exact (vadd_exit x y). Qed.
Print Assumptions C01_add_overflow_exits.

Theorem C01_add_u32_exact x y : vwf x -> 0 <= y < 2 ^ 32 -> lv x + y < B ^ 9 ->
  exists z, vadd32 x y = Ok z /\ vwf z /\ lv z = lv x + y.
Proof. exact (vadd32_ok x y). Qed.
Print Assumptions C01_add_u32_exact.

Theorem C01_add_u32_overflow_exits x y :
  vwf x -> 0 <= y < 2 ^ 32 -> B ^ 9 <= lv x + y -> vadd32 x y = Exit.
Proof. exact (vadd32_exit x y). Qed.
Print Assumptions C01_add_u32_overflow_exits.

Theorem C01_sub_exact x y : vwf x -> vwf y -> lv y <= lv x ->
  exists z, vsub x y = Ok z /\ vwf z /\ lv z = lv x - lv y.
Proof. exact (vsub_ok x y). Qed.
Print Assumptions C01_sub_exact.

(** A negative difference of numbers with equally many units stops the program. *)
Theorem C01_sub_negative_exits x y :
  vwf x -> vwf y -> lv x < lv y -> length x = length y -> vsub x y = Exit.
Proof. exact (vsub_exit x y). Qed.
Print Assumptions C01_sub_negative_exits.

(** With more units in y the code reads units of x that were never set, so "x < y
    always stops with a diagnostic" is false. *)
Theorem C01_sub_negative_refuted : exists x y, vwf x /\ vwf y /\ lv x < lv y /\ vsub x y = UB.
Proof. exact vsub_ub_witness. Qed.
Print Assumptions C01_sub_negative_refuted.

Example C01_nonvacuous :
  exists x y, vwf x /\ vwf y /\ lv y <= lv x /\ lv x + lv y < B ^ 9 /\ (2 <= length x)%nat.
Proof. exact vuint_example. Qed.

(** C02 *)
Theorem C02_mul_exact x y : vwf x -> vwf y -> (length x + length y <= 9)%nat ->
  exists z, vmul x y = Ok z /\ vwf z /\ lv z = lv x * lv y.
Proof. exact (vmul_ok x y). Qed.
Print Assumptions C02_mul_exact.

Theorem C02_mul_capacity_exits x y : (9 < length x + length y)%nat -> vmul x y = Exit.
Proof. exact (vmul_exit x y). Qed.
Print Assumptions C02_mul_capacity_exits.

Theorem C02_mul_unit_exact x y : vwf x -> 0 <= y < B -> (length x < 9)%nat ->
  exists z, vmul1 x y = Ok z /\ vwf z /\ lv z = lv x * y.
Proof. exact (vmul1_ok x y). Qed.
Print Assumptions C02_mul_unit_exact.

(** C04 *)
Theorem C04_shl_exact x n : vwf x -> 0 <= n -> 0 < lv x -> lv x * 2 ^ n < B ^ 9 ->
  exists z, vshl x n = Ok z /\ vwf z /\ lv z = lv x * 2 ^ n.
Proof. exact (vshl_ok x n). Qed.
Print Assumptions C04_shl_exact.

Theorem C04_shl_overflow_exits x n :
  vwf x -> 0 <= n -> 0 < lv x -> B ^ 9 <= lv x * 2 ^ n -> vshl x n = Exit.
Proof. exact (vshl_exit x n). Qed.
Print Assumptions C04_shl_overflow_exits.

(** 0 << n needs n/64 spare units although the result is 0. *)
Theorem C04_shl_zero x n : vwf x -> 0 <= n -> lv x = 0 ->
  (n < 576 -> vshl x n = Ok x) /\ (576 <= n -> vshl x n = Exit).
Proof. exact (vshl_zero x n). Qed.
Print Assumptions C04_shl_zero.

Theorem C04_shr_exact x n : vwf x -> 0 <= n ->
  exists z, vshr x n = Ok z /\ vwf z /\ lv z = lv x / 2 ^ n.
Proof. exact (vshr_ok x n). Qed.
Print Assumptions C04_shr_exact.

(** C05 *)
Theorem C05_compare_is_integer_order x y : vwf x -> vwf y -> vcompare x y = (lv x ?= lv y).
Proof. exact (vcompare_spec x y). Qed.
Print Assumptions C05_compare_is_integer_order.

Theorem C05_operators x y : vwf x -> vwf y ->
  vlt x y = (lv x <? lv y) /\ veq x y = (lv x =? lv y) /\ vgt x y = (lv y <? lv x) /\
  visZero x = (lv x =? 0).
Proof. exact (vcmp_ops x y). Qed.
Print Assumptions C05_operators.

(** One representation per integer. *)
Theorem C05_canonical x y : vwf x -> vwf y -> lv x = lv y -> x = y.
Proof. exact (vwf_inj x y). Qed.
Print Assumptions C05_canonical.

(** Construction from units: every constructor gives a well-formed value. *)
Theorem C05_set64 l : limbs l -> (length l <= 9)%nat ->
  exists z, vset64 l = Ok z /\ vwf z /\ lv z = lv l.
Proof. exact (vset64_ok l). Qed.
Print Assumptions C05_set64.

Theorem C05_set32 l : Forall (fun d => 0 <= d < 2 ^ 32) l -> (length l <= 18)%nat ->
  exists z, vset32 l = Ok z /\ vwf z /\ lv z = fold_right (fun d v => d + 2 ^ 32 * v) 0 l.
Proof. exact (vset32_ok l). Qed.
Print Assumptions C05_set32.

(** C07, testBit *)
Theorem C07_testBit x i : vwf x -> 0 <= i < 64 * Z.of_nat (length x) ->
  vtestBit x i = Ok (Z.testbit (lv x) i).
Proof. exact (vtestBit_ok x i). Qed.
Print Assumptions C07_testBit.

(** Beyond the stored units testBit is not 0: it reads memory never set, or exits. *)
Theorem C07_testBit_beyond_refuted :
  exists x i, vwf x /\ 0 <= i /\ vtestBit x i = UB.
Proof. exact vtestBit_witness. Qed.
Print Assumptions C07_testBit_beyond_refuted.
