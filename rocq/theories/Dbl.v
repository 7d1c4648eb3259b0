(** Positive normal binary64 numbers, as far as include/zm.h uses them
    (VuintT::bitLen, GetApp and the quotient estimate of the division loop).

    A double is (m, e) with 2^52 <= m < 2^53, value m * 2^e; its bit pattern has
    biased exponent e + 52 + 1023 and fraction m - 2^52.  Rounding is to nearest,
    ties to even (SSE2 default).  All numbers occurring in the code have
    -256 <= e; smaller exponents are outside the model and are reported as [UB]
    (the theorems show that this never happens).  Overflow cannot occur either:
    the inputs are below 2^65 and get multiplied by 2^64 at most once. *)
From Verif Require Import Base.

Definition dbl := (Z * Z)%type.

(** 2^256 times the value *)
Definition dv (d : dbl) : Z := fst d * 2 ^ (snd d + 256).

(** round num/den to nearest even *)
Definition rnd (num den : Z) : res dbl :=
  let e0 := Z.log2 num - Z.log2 den - 53 in
  if e0 <? -256 then UB else
  let n := num * 2 ^ 256 in
  let e := if n / (den * 2 ^ (e0 + 256)) <? 2 ^ 53 then e0 else e0 + 1 in
  let d := den * 2 ^ (e + 256) in
  let q := n / d in
  let r := n mod d in
  let m := if (d <? 2 * r) || ((2 * r =? d) && Z.odd q) then q + 1 else q in
  Ok (if m =? 2 ^ 53 then (2 ^ 52, e + 1) else (m, e)).

(** (double)x for a 64-bit unsigned x <> 0 *)
Definition of_u64 (x : Z) : res dbl := rnd x 1.
(** binary operators *)
Definition fdiv (x y : dbl) : res dbl := rnd (dv x) (dv y).
Definition fadd (x y : dbl) : res dbl := rnd (dv x + dv y) (2 ^ 256).
(** x * 2^64, exact *)
Definition fmul2_64 (x : dbl) : dbl := (fst x, snd x + 64).
(** (uint64_t)x: truncation; undefined if it does not fit *)
Definition to_u64 (x : dbl) : res Z :=
  let t := dv x / 2 ^ 256 in if t <? B then Ok t else UB.
(** int(bits >> 52) - 1023 + 1 *)
Definition expo_len (x : dbl) : Z := snd x + 53.
(** bits |= k, for 0 <= k < 2^52 *)
Definition or_frac (x : dbl) (k : Z) : dbl := (Z.lor (fst x) k, snd x).
(** the double with bits (k << 52), a power of two *)
Definition of_expo (k : Z) : dbl := (2 ^ 52, k - 1023 - 52).
