(** C09 - C12: signed integers.  [sv x] is the integer denoted, [swf x] says that the
    magnitude is a Vuint the API can produce (the sign flag is arbitrary, so both
    zeros are covered).  B ^ 9 = 2^576 is the capacity of the magnitude. *)
From Verif Require Import Base Vuint VuintProofs StrSpec VStr Vsint VsintProofs.

(** C09 *)
Theorem C09_add x y : swf x -> swf y -> Z.abs (sv x + sv y) < B ^ 9 ->
  exists z, s_add x y = Ok z /\ swf z /\ sv z = sv x + sv y.
Proof. exact (s_add_ok x y). Qed.
Print Assumptions C09_add.

Theorem C09_add_overflow_exits x y : swf x -> swf y -> B ^ 9 <= Z.abs (sv x + sv y) -> s_add x y = Exit.
Proof. exact (s_add_exit x y). Qed.
Print Assumptions C09_add_overflow_exits.

Theorem C09_sub x y : swf x -> swf y -> Z.abs (sv x - sv y) < B ^ 9 ->
  exists z, s_sub x y = Ok z /\ swf z /\ sv z = sv x - sv y.
Proof. exact (s_sub_ok x y). Qed.
Print Assumptions C09_sub.

Theorem C09_sub_overflow_exits x y : swf x -> swf y -> B ^ 9 <= Z.abs (sv x - sv y) -> s_sub x y = Exit.
Proof. exact (s_sub_exit x y). Qed.
Print Assumptions C09_sub_overflow_exits.

Theorem C09_mul x y : swf x -> swf y -> (length (sm x) + length (sm y) <= 9)%nat ->
  exists z, s_mul x y = Ok z /\ swf z /\ sv z = sv x * sv y.
Proof. exact (s_mul_ok x y). Qed.
Print Assumptions C09_mul.

Theorem C09_mul_capacity_exits x y : (9 < length (sm x) + length (sm y))%nat -> s_mul x y = Exit.
Proof. exact (s_mul_exit x y). Qed.
Print Assumptions C09_mul_capacity_exits.

Theorem C09_neg x : swf x -> swf (s_neg x) /\ sv (s_neg x) = - sv x.
Proof. exact (s_neg_ok x). Qed.
Print Assumptions C09_neg.

Theorem C09_compare x y : swf x -> swf y -> s_compare x y = (sv x ?= sv y).
Proof. exact (s_compare_spec x y). Qed.
Print Assumptions C09_compare.

Theorem C09_shl x n : swf x -> 0 <= n -> sv x <> 0 -> Z.abs (sv x) * 2 ^ n < B ^ 9 ->
  exists z, s_shl x n = Ok z /\ swf z /\ sv z = sv x * 2 ^ n.
Proof. exact (s_shl_ok x n). Qed.
Print Assumptions C09_shl.

Theorem C09_shr x n : swf x -> 0 <= n -> 0 <= sv x ->
  exists z, s_shr x n = Ok z /\ swf z /\ sv z = sv x / 2 ^ n.
Proof. exact (s_shr_ok x n). Qed.
Print Assumptions C09_shr.

Theorem C09_shr_negative_exits x n : swf x -> sv x < 0 -> s_shr x n = Exit.
Proof. exact (s_shr_exit x n). Qed.
Print Assumptions C09_shr_negative_exits.

Example C09_nonvacuous : exists x y, swf x /\ swf y /\ sv x = -12345 /\ sv y = 678 /\
  Z.abs (sv x + sv y) < B ^ 9 /\ (length (sm x) + length (sm y) <= 9)%nat.
Proof. exact s_example. Qed.

(** C10: floor division ([/] and [mod] on Z are floor division and its remainder,
    which has the sign of the divisor). *)
Theorem C10_div_floor x y : swf x -> swf y -> sv y <> 0 -> (length (sm y) < 9)%nat ->
  exists q r, s_div x y = Ok (Some (q, r)) /\ swf q /\ swf r /\ sv q = sv x / sv y /\ sv r = sv x mod sv y.
Proof. exact (s_div_ok x y). Qed.
Print Assumptions C10_div_floor.

Theorem C10_div_full_width_le x y : swf x -> swf y -> length (sm y) = 9%nat -> Z.abs (sv x) <= Z.abs (sv y) ->
  exists q r, s_div x y = Ok (Some (q, r)) /\ swf q /\ swf r /\ sv q = sv x / sv y /\ sv r = sv x mod sv y.
Proof. exact (s_div_full_le x y). Qed.
Print Assumptions C10_div_full_width_le.

Theorem C10_div_by_zero x y : swf y -> sv y = 0 -> s_div x y = Ok None.
Proof. exact (s_div_zero x y). Qed.
Print Assumptions C10_div_by_zero.

Example C10_nonvacuous : exists x y q r, swf x /\ swf y /\ sv x = -13 /\ sv y = 5 /\
  s_div x y = Ok (Some (q, r)) /\ sv q = -3 /\ sv r = 2.
Proof. exact s_div_example. Qed.

(** C11: the text is canonical for every non-zero value and for the positive zero ... *)
Theorem C11_text_canonical x : swf x -> sv x <> 0 \/ sn x = false ->
  exists s, dec_numeral s (Z.abs (sv x)) /\
    s_toString 10 x = Ok (if sv x <? 0 then 45 :: s else s).
Proof. exact (s_text_canonical x). Qed.
Print Assumptions C11_text_canonical.

(** ... but (-5) * 0 prints as "-0". *)
Theorem C11_negative_zero_refuted : exists x y z,
  s_of_int (-5) = Ok x /\ s_of_int 0 = Ok y /\ s_mul x y = Ok z /\
  sv z = 0 /\ s_toString 10 z = Ok [45; 48].
Proof. exact s_negzero. Qed.
Print Assumptions C11_negative_zero_refuted.

Theorem C11_roundtrip x : swf x -> Z.abs (sv x) / 10 ^ 9 < 2 ^ 512 ->
  exists s, s_toString 10 x = Ok s /\ s_setStr s 10 = Ok x.
Proof. exact (s_roundtrip' x). Qed.
Print Assumptions C11_roundtrip.

(** A Vsint cannot be read from a hexadecimal numeral: the default base is 10. *)
Theorem C11_parse_hex_refuted : s_setStr [48; 120; 49; 50] 10 = Exit.
Proof. exact s_hex_witness. Qed.
Print Assumptions C11_parse_hex_refuted.

(** C12: assignment of an unsigned value keeps the old sign flag. *)
Theorem C12_assign_unit old x : isU x ->
  swf (s_set_unit old x) /\ sv (s_set_unit old x) = if sn old then - x else x.
Proof. exact (s_set_unit_spec old x). Qed.
Print Assumptions C12_assign_unit.

Theorem C12_assign_units old l : limbs l -> (length l <= 9)%nat ->
  exists z, s_set_units old l = Ok z /\ swf z /\ sv z = if sn old then - lv l else lv l.
Proof. exact (s_set_units_spec old l). Qed.
Print Assumptions C12_assign_units.

Theorem C12_assign_refuted : exists x, s_of_int (-5) = Ok x /\ sv (s_set_unit x 7) = -7.
Proof. exact s_set_stale_witness. Qed.
Print Assumptions C12_assign_refuted.

Theorem C12_assign_i64 x : - 2 ^ 63 < x < 2 ^ 63 -> exists z, s_set_i64 x = Ok z /\ swf z /\ sv z = x.
Proof. exact (s_set_i64_ok x). Qed.
Print Assumptions C12_assign_i64.

Theorem C12_construct_int x : - 2 ^ 31 < x < 2 ^ 31 -> exists z, s_of_int x = Ok z /\ swf z /\ sv z = x.
Proof. exact (s_of_int_ok x). Qed.
Print Assumptions C12_construct_int.
