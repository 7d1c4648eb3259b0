(** C13 (ZmZ), C14 (power), C33 (recodings of loop counters). *)
From Coq Require Import Znumtheory.
From Verif Require Import Base Vuint VuintProofs VDivProofs ZmZ ZmZProofs Power PowerProofs.

(** C13.  m is the modulus, [vwf x /\ lv x < lv m] says that x is a reduced residue. *)
Theorem C13_add m x y : vwf m -> 2 <= lv m -> 2 * lv m <= B ^ 9 ->
  vwf x /\ lv x < lv m -> vwf y /\ lv y < lv m ->
  exists z, zadd m x y = Ok z /\ (vwf z /\ lv z < lv m) /\ lv z = (lv x + lv y) mod lv m.
Proof. exact (fun Hm M2 MB Hx Hy => zadd_ok m Hm M2 x y Hx Hy MB). Qed.
Print Assumptions C13_add.

Theorem C13_sub m x y : vwf m -> 2 <= lv m -> 2 * lv m <= B ^ 9 ->
  vwf x /\ lv x < lv m -> vwf y /\ lv y < lv m ->
  exists z, zsub m x y = Ok z /\ (vwf z /\ lv z < lv m) /\ lv z = (lv x - lv y) mod lv m.
Proof. exact (fun Hm M2 MB Hx Hy => zsub_ok m Hm M2 x y Hx Hy MB). Qed.
Print Assumptions C13_sub.

Theorem C13_neg m x : vwf m -> 2 <= lv m -> vwf x /\ lv x < lv m ->
  exists z, zneg m x = Ok z /\ (vwf z /\ lv z < lv m) /\ lv z = (- lv x) mod lv m.
Proof. exact (fun Hm M2 Hx => zneg_ok m Hm x Hx). Qed.
Print Assumptions C13_neg.

Theorem C13_mul m x y : vwf m -> 2 <= lv m -> (length m < 9)%nat -> (length x + length y <= 9)%nat ->
  vwf x /\ lv x < lv m -> vwf y /\ lv y < lv m ->
  exists z, zmul m x y = Ok z /\ (vwf z /\ lv z < lv m) /\ lv z = (lv x * lv y) mod lv m.
Proof. exact (fun Hm M2 ML HL Hx Hy => zmul_ok m Hm M2 x y Hx Hy HL ML). Qed.
Print Assumptions C13_mul.

Theorem C13_mul_capacity_exits m x y : (9 < length x + length y)%nat -> zmul m x y = Exit.
Proof. exact (zmul_exit m x y). Qed.
Print Assumptions C13_mul_capacity_exits.

Theorem C13_inv m x : vwf m -> 2 <= lv m -> (2 * length m <= 9)%nat ->
  vwf x /\ lv x < lv m -> rel_prime (lv x) (lv m) ->
  exists z, zinv m x = Ok z /\ (vwf z /\ lv z < lv m) /\ (lv z * lv x) mod lv m = 1.
Proof. exact (fun Hm M2 HL Hx RP => zinv_ok m Hm M2 x Hx HL RP). Qed.
Print Assumptions C13_inv.

(** Without coprimality inv returns a value without reporting anything. *)
Theorem C13_inv_noncoprime_refuted : zinv [7] [0] = Ok [0] /\ zinv [15] [5] = Ok [10].
Proof. exact (conj zinv_zero zinv_noncoprime). Qed.
Print Assumptions C13_inv_noncoprime_refuted.

Theorem C13_of_int m x : vwf m -> 2 <= lv m -> - lv m <= x < lv m -> - 2 ^ 31 < x < 2 ^ 31 ->
  exists z, zset_int m x = Ok z /\ (vwf z /\ lv z < lv m) /\ lv z = x mod lv m.
Proof. exact (fun Hm M2 R I => zset_int_ok m Hm M2 x R I). Qed.
Print Assumptions C13_of_int.

Theorem C13_of_int_too_small_exits m x : vwf m -> x < - lv m -> - 2 ^ 31 <= x -> 2 <= lv m -> zset_int m x = Exit.
Proof. exact (fun Hm R I M2 => zset_int_too_small m Hm M2 x R I). Qed.
Print Assumptions C13_of_int_too_small_exits.

(** A positive int is stored unreduced. *)
Theorem C13_of_int_unreduced_refuted : exists z, zset_int [7] 10 = Ok z /\ lv z = 10.
Proof. exact zset_int_unreduced. Qed.
Print Assumptions C13_of_int_unreduced_refuted.

Example C13_nonvacuous : exists m x, vwf m /\ 2 <= lv m /\ (2 * length m <= 9)%nat /\
  (vwf x /\ lv x < lv m) /\ rel_prime (lv x) (lv m) /\ zinv m x = Ok [11068046444225730975; 1].
Proof. exact zinv_example. Qed.

(** C14: for every type with an associative multiplication and a unit. *)
Theorem C14_power_vuint (T : Type) (mul : T -> T -> T) (one : T) :
  (forall a b c, mul a (mul b c) = mul (mul a b) c) ->
  (forall a, mul one a = a) -> (forall a, mul a one = a) ->
  forall x y, vwf y -> power_v mul one x y = npow mul one x (Z.to_nat (lv y)).
Proof. exact (power_v_spec mul one). Qed.
Print Assumptions C14_power_vuint.

Theorem C14_power_size (T : Type) (mul : T -> T -> T) (one : T) :
  (forall a b c, mul a (mul b c) = mul (mul a b) c) ->
  (forall a, mul one a = a) -> (forall a, mul a one = a) ->
  forall x y, 0 <= y < 2 ^ 64 -> power_size mul one x y = npow mul one x (Z.to_nat y).
Proof. exact (power_size_spec mul one). Qed.
Print Assumptions C14_power_size.

(** For an int exponent the 32-bit pattern is used: a negative exponent e silently
    becomes 2^32 + e. *)
Theorem C14_power_int (T : Type) (mul : T -> T -> T) (one : T) :
  (forall a b c, mul a (mul b c) = mul (mul a b) c) ->
  (forall a, mul one a = a) -> (forall a, mul a one = a) ->
  forall x y, - 2 ^ 31 <= y < 2 ^ 31 ->
  power_int mul one x y = npow mul one x (Z.to_nat (if y <? 0 then 2 ^ 32 + y else y)).
Proof. exact (power_int_spec mul one). Qed.
Print Assumptions C14_power_int.

Example C14_nonvacuous :
  (forall a b c : Z, a * (b * c) = a * b * c) /\ power_v Z.mul 1 3 [5] = 243.
Proof. exact power_example. Qed.

(** C33.  [bval] is the value of a digit vector, most significant digit first. *)
Theorem C33_binary x : vwf x -> lv x <> 0 -> starts_with_54_ones (last x 0) = false ->
  exists v, convertToBinary x = Ok v /\ Z.of_nat (length v) = Z.log2 (lv x) + 1 /\
    Forall (fun d => d = 0 \/ d = 1) v /\ bval v = lv x.
Proof. exact (convertToBinary_ok x). Qed.
Print Assumptions C33_binary.

Theorem C33_naf v : (2 <= length v)%nat -> Z.of_nat (length v) < 2 ^ 64 -> Forall (fun d => d = 0 \/ d = 1) v ->
  exists w, convertToNAF v = Ok w /\ length w = length v /\ bval w = bval v /\ Forall (fun d => -1 <= d <= 1) w.
Proof. exact (naf_ok v). Qed.
Print Assumptions C33_naf.

Theorem C33_good_repl x : vwf x -> 2 <= lv x -> starts_with_54_ones (last x 0) = false ->
  exists v b, getGoodRepl x = Ok (v, b) /\ bval v = lv x /\ Forall (fun d => -1 <= d <= 1) v.
Proof. exact (getGoodRepl_ok x). Qed.
Print Assumptions C33_good_repl.

(** Outside these ranges the functions read out of range or unset units. *)
Theorem C33_one_bit_refuted : getGoodRepl [1] = UB.
Proof. exact getGoodRepl_one_ub. Qed.
Print Assumptions C33_one_bit_refuted.

Theorem C33_binary_refuted : convertToBinary [18446744073709551615] = UB.
Proof. exact convertToBinary_ub. Qed.
Print Assumptions C33_binary_refuted.

Example C33_nonvacuous : exists x v, vwf x /\ 2 <= lv x /\ starts_with_54_ones (last x 0) = false /\
  getGoodRepl x = Ok (v, true) /\ v = [1; 0; 1; 0; 0; 0; 0; 0; -1].
Proof. exact goodRepl_example. Qed.
