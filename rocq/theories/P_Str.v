(** C06: text conversion of Vuint.  Specification: StrSpec.v ([dec_numeral s v]: s is
    the decimal numeral of v without superfluous zeros; [hex_numeral]: the same for
    0x..., lower case; [numval]: value of a digit string). *)
From Verif Require Import Base Vuint StrSpec VStr VuintProofs VStrProofs.

Theorem C06_print_decimal x : vwf x -> exists s, vtoString 10 x = Ok s /\ dec_numeral s (lv x).
Proof. exact (vtoString10 x). Qed.
Print Assumptions C06_print_decimal.

Theorem C06_print_hex x : vwf x -> exists s, vtoString 16 x = Ok s /\ hex_numeral s (lv x).
Proof. exact (vtoString16 x). Qed.
Print Assumptions C06_print_hex.

(** Parsing a decimal numeral of v: exact as long as v / 10^9 fits 8 units; the process
    exits for every larger v (the multiplication by 10^9 asks for a tenth unit). *)
Theorem C06_parse_decimal s v base : base = 0 \/ base = 10 -> dec_numeral s v -> v / 10 ^ 9 < 2 ^ 512 ->
  exists z, vsetStr s base = Ok z /\ vwf z /\ lv z = v.
Proof. exact (vsetStr_dec_ok s v base). Qed.
Print Assumptions C06_parse_decimal.

Theorem C06_parse_decimal_exits s v base : base = 0 \/ base = 10 -> dec_numeral s v -> 2 ^ 512 <= v / 10 ^ 9 ->
  vsetStr s base = Exit.
Proof. exact (vsetStr_dec_exit s v base). Qed.
Print Assumptions C06_parse_decimal_exits.

(** Parsing 0x followed by any hexadecimal digits (either case, leading zeros allowed). *)
Theorem C06_parse_hex h base : base = 0 \/ base = 16 -> digits 16 h -> (length h <= 144)%nat ->
  exists z, vsetStr (48 :: 120 :: h) base = Ok z /\ vwf z /\ lv z = numval 16 h.
Proof. exact (vsetStr_hex_ok h base). Qed.
Print Assumptions C06_parse_hex.

Theorem C06_parse_hex_exits h base : base = 0 \/ base = 16 -> digits 16 h -> (144 < length h)%nat ->
  vsetStr (48 :: 120 :: h) base = Exit.
Proof. exact (vsetStr_hex_exit h base). Qed.
Print Assumptions C06_parse_hex_exits.

Theorem C06_roundtrip_decimal x base : base = 0 \/ base = 10 -> vwf x -> lv x / 10 ^ 9 < 2 ^ 512 ->
  exists s, vtoString 10 x = Ok s /\ vsetStr s base = Ok x.
Proof. exact (roundtrip10 x base). Qed.
Print Assumptions C06_roundtrip_decimal.

Theorem C06_roundtrip_hex x base : base = 0 \/ base = 16 -> vwf x ->
  exists s, vtoString 16 x = Ok s /\ vsetStr s base = Ok x.
Proof. exact (roundtrip16 x base). Qed.
Print Assumptions C06_roundtrip_hex.

(** A value of 542 bits or more prints in decimal but cannot be read back. *)
Theorem C06_roundtrip_decimal_large_refuted : exists x s,
  vwf x /\ vtoString 10 x = Ok s /\ vsetStr s 10 = Exit.
Proof. exact roundtrip10_witness. Qed.
Print Assumptions C06_roundtrip_decimal_large_refuted.

(** "Text that is not a numeral is rejected" is false: "-5" and " 5" are accepted
    (the former as 2^32 - 5), and so is "0x0x12". *)
Theorem C06_rejects_garbage_refuted :
  vsetStr [45; 53] 0 = Ok [4294967291] /\ vsetStr [32; 53] 0 = Ok [5] /\
  vsetStr [48; 120; 48; 120; 49; 50] 0 = Ok [18].
Proof. exact garbage_witness. Qed.
Print Assumptions C06_rejects_garbage_refuted.

Example C06_nonvacuous : exists x, vwf x /\ length x = 5%nat /\ lv x / 10 ^ 9 < 2 ^ 512 /\
  dec_numeral [49; 56; 52; 52; 54; 55; 52; 52; 48; 55; 51; 55; 48; 57; 53; 53; 49; 54; 50; 48] (lv [4; 1]) /\
  digits 16 [48; 65; 102].
Proof. exact str_example. Qed.
