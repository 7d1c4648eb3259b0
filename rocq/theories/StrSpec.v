(** Specification of numerals: which text denotes which integer.
    Text is a list of character codes (ASCII). *)
From Verif Require Import Base.

(** value of one digit character, -1 if it is none: 0-9, a-f, A-F *)
Definition digit_of (c : Z) : Z :=
  if (48 <=? c) && (c <=? 57) then c - 48
  else if (97 <=? c) && (c <=? 102) then c - 87
  else if (65 <=? c) && (c <=? 70) then c - 55
  else -1.

(** c is a digit in base b *)
Definition is_digit (b c : Z) : bool := (0 <=? digit_of c) && (digit_of c <? b).

(** value of a digit string, most significant digit first *)
Definition numval (b : Z) (s : list Z) : Z := fold_left (fun a c => a * b + digit_of c) s 0.

(** s is a non-empty digit string in base b *)
Definition digits (b : Z) (s : list Z) : Prop := s <> [] /\ forallb (is_digit b) s = true.

(** no superfluous leading zero *)
Definition no_leading_zero (s : list Z) : Prop := s = [48] \/ hd 0 s <> 48.

(** s is the decimal numeral of v *)
Definition dec_numeral (s : list Z) (v : Z) : Prop :=
  digits 10 s /\ no_leading_zero s /\ numval 10 s = v.

(** s is the hexadecimal numeral of v, with prefix 0x and lower-case letters *)
Definition hex_numeral (s : list Z) (v : Z) : Prop :=
  exists h, s = 48 :: 120 :: h /\ digits 16 h /\ no_leading_zero h /\ numval 16 h = v /\
            Forall (fun c => ~ 65 <= c <= 70) h.
