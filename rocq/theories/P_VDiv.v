(** Properties of Vuint division and bit length: C03, C07.
    [lv x] is the integer written by the units of x in base B = 2^64, [vwf x] says
    that x is a value the API can produce (1 to 9 units, no leading zero unit). *)
From Verif Require Import Base Prim PrimProofs Vuint VuintProofs Dbl VDiv VDivProofs.

(** C03: for a divisor of at most 8 units the division terminates, never fails, and
    gives quotient and remainder exactly, although every quotient digit comes from
    a rounded double. *)
Theorem C03_div_exact x y : vwf x -> vwf y -> lv y <> 0 -> (length y < 9)%nat ->
  exists q r, vdiv x y = Ok (Some (q, r)) /\ vwf q /\ vwf r /\
              lv x = lv q * lv y + lv r /\ 0 <= lv r < lv y.
Proof. exact (vdiv_euclid x y). Qed.
Print Assumptions C03_div_exact.

Theorem C03_mod_exact x y : vwf x -> vwf y -> lv y <> 0 -> (length y < 9)%nat ->
  exists r, vmod x y = Ok (Some r) /\ vwf r /\ lv r = lv x mod lv y.
Proof. exact (vmod_ok x y). Qed.
Print Assumptions C03_mod_exact.

(** The same for division by one unit (div1, mod1). *)
Theorem C03_div_unit_exact x y : vwf x -> 0 < y < B ->
  exists q r, vdiv1 x y = Ok (q, r) /\ vwf q /\ lv x = lv q * y + r /\ 0 <= r < y.
Proof. exact (vdiv1_ok x y). Qed.
Print Assumptions C03_div_unit_exact.

(** y = 0: the function returns false and assigns nothing. *)
Theorem C03_div_by_zero x y : vwf y -> lv y = 0 -> vdiv x y = Ok None.
Proof. exact (vdiv_zero x y). Qed.
Print Assumptions C03_div_by_zero.

(** Divisors of 9 units (the full capacity): correct when x <= y ... *)
Theorem C03_div_full_width_le x y : vwf x -> vwf y -> length y = 9%nat -> lv x <= lv y ->
  exists q r, vdiv x y = Ok (Some (q, r)) /\ vwf q /\ vwf r /\
              lv x = lv q * lv y + lv r /\ 0 <= lv r < lv y.
Proof. exact (vdiv_nine_euclid x y). Qed.
Print Assumptions C03_div_full_width_le.

(** ... and otherwise the process exits, since the temporary of 10 units does not
    fit: "division by a non-zero Vuint never fails" is false. *)
Theorem C03_div_full_width_exits x y :
  vwf x -> vwf y -> length y = 9%nat -> lv y < lv x -> vdiv x y = Exit.
Proof. exact (vdiv_nine x y). Qed.
Print Assumptions C03_div_full_width_exits.

Theorem C03_div_total_refuted : exists x y, vwf x /\ vwf y /\ lv y <> 0 /\ vdiv x y = Exit.
Proof. exact vdiv_exit_witness. Qed.
Print Assumptions C03_div_total_refuted.

Example C03_nonvacuous :
  exists x y, vwf x /\ vwf y /\ lv y <> 0 /\ length y = 3%nat /\ length x = 5%nat /\
    vdiv x y = Ok (Some ([35; 5], [18446744073709551382; 18446744073709551287; 163])).
Proof. exact vdiv_example. Qed.

(** C07, bitLen: exact characterisation.  The answer is log2 + 1, except that it is
    one too large exactly when the top unit starts with 54 one bits (its conversion
    to double then rounds up to the next power of two). *)
Theorem C07_bitLen x : vwf x -> lv x <> 0 ->
  vbitLen x = Ok (Z.log2 (lv x) + 1 +
    (if starts_with_54_ones (last x 0) then 1 else 0)).
Proof. exact (vbitLen_nz x). Qed.
Print Assumptions C07_bitLen.

Theorem C07_bitLen_zero x : vwf x -> lv x = 0 -> vbitLen x = Ok 0.
Proof. exact (vbitLen_z x). Qed.
Print Assumptions C07_bitLen_zero.

Theorem C07_bitLen_refuted : exists x, vwf x /\ lv x < B /\ vbitLen x = Ok 65.
Proof. exact vbitLen_witness. Qed.
Print Assumptions C07_bitLen_refuted.

Example C07_bitLen_nonvacuous : exists x, vwf x /\ lv x <> 0 /\
  starts_with_54_ones (last x 0) = false /\ vbitLen x = Ok 67.
Proof. exact vbitLen_example. Qed.
