(** Specification of how a number is taken from a character stream: blanks are skipped, then
    the longest run of acceptable characters is taken. *)
From Verif Require Import Base StrSpec.

(** space and \t \n \v \f \r *)
Definition blank (ch : Z) : Prop := 9 <= ch <= 13 \/ ch = 32.
(** [ch] may follow the characters [pre] of the number: a hexadecimal digit, the x of a leading
    0x, or (if [neg]) a leading minus sign *)
Definition may_follow (neg : bool) (pre : list Z) (ch : Z) : Prop :=
  0 <= digit_of ch \/ (pre = [48] /\ ch = 120) \/ (neg = true /\ pre = [] /\ ch = 45).
(** every character of [d] may follow those before it *)
Definition token (neg : bool) (d : list Z) : Prop :=
  forall a ch b, d = a ++ ch :: b -> may_follow neg a ch.
(** taking a token from [s] gives [d] and leaves [r]; [ws]: leading blanks are skipped *)
Definition takes (neg ws : bool) (s d r : list Z) : Prop :=
  exists w, s = w ++ d ++ r /\ Forall blank w /\ (ws = false -> w = []) /\ token neg d /\
    (forall ch r', r = ch :: r' -> ~ may_follow neg d ch /\ ~ (ws = true /\ d = [] /\ blank ch)).
