(** Text of field elements and points: C39, and the text part of C38.

    Reading guide.  Text is a list of character codes.  A stream is (remaining characters,
    flag), the flag being false once eofbit or failbit is set.  [fp_out c base x] is what
    operator<< writes for an Fp ([base] = 16 if the hex flag is set, else 10), [fp_in c ws s]
    is operator>> ([ws]: skipws); f2_, f6_, f12_: the same for Fp2, Fp6, Fp12; [ec1_out],
    [ec1_in], [ec2_out], [ec2_in]: for Ec1 and Ec2 objects.  [rep1 c x v] ... [rep12 c x v]:
    x is a reduced object content denoting the field element v.  [r] is the text that follows;
    [live r]: r is not empty.  Equality of contents is stronger than ==. *)
From Coq Require Import ZArith List.
From Verif Require Import TextSpec VStr Vsint Base Vuint StrSpec FpSpec Cfg FpM FpProofs FpApi FpApiProofs TowerSpec TowerField TowerM Fp2Proofs Fp6Proofs ParamM Poly EcSpec EcM EcProofs EcInst EcApi TextM TextProofs TextBad.
Import ListNotations.
Local Open Scope Z_scope.

(** C39: write, then read.  An Fp must be followed by a character that is neither a hexadecimal
    digit nor x, or by the end of the text. *)
Theorem C39_fp c base ws x v r : base = 10 \/ base = 16 -> rep1 c x v -> not_digit_head r ->
  exists s, fp_out c base x = Ok s /\ fp_in c ws (s ++ r, true) = Ok (x, (r, live r)).
Proof. exact (t_fp c base ws x v r). Qed.
(** The text is the canonical numeral of the residue in [0, p). *)
Theorem C39_fp_canonical c x v : rep1 c x v ->
  (exists s, fp_out c 10 x = Ok s /\ dec_numeral s (zv v)) /\ (exists s, fp_out c 16 x = Ok s /\ hex_numeral s (zv v)).
Proof. exact (t_fp_num c x v). Qed.
Theorem C39_fp2 c base ws x v r : base = 10 \/ base = 16 -> rep2 c x v ->
  exists s, f2_out c base x = Ok s /\ f2_in c ws (s ++ r, true) = Ok (x, (r, true)).
Proof. exact (t_fp2 c base ws x v r). Qed.
(** Fp2::set(std::string) *)
Theorem C39_fp2_set c base x v : base = 10 \/ base = 16 -> rep2 c x v -> exists s, f2_out c base x = Ok s /\ f2_setStr c s = Ok x.
Proof. exact (t_fp2_str c base x v). Qed.
(** Fp6 and Fp12 are written on several lines, so reading them back needs skipws. *)
Theorem C39_fp6 c base x v r : base = 10 \/ base = 16 -> rep6 c x v ->
  exists s, f6_out c base x = Ok s /\ f6_in c true (s ++ r, true) = Ok (x, (r, true)).
Proof. exact (t_fp6 c base x v r). Qed.
Theorem C39_fp12 c base x v r : base = 10 \/ base = 16 -> rep12 c x v ->
  exists s, f12_out c base x = Ok s /\ f12_in c true (s ++ r, true) = Ok (x, (r, true)).
Proof. exact (t_fp12 c base x v r). Qed.
(** Points: any representative, infinity included.  Writing normalizes the object (it still
    denotes the same point); the text can be read into any object [o1] of any memory [m1]. *)
Theorem C39_ec1 c (m : mem (fpO c)) o : wfP G1 c (m o) ->
  exists s m', ec1_out c m o = Ok (s, m') /\ ptP G1 c (m' o) = ptP G1 c (m o) /\ (forall q, o <> q -> m' q = m q) /\
    forall ws m1 o1 r, after r -> exists m2, ec1_in c ws m1 o1 (s ++ r, true) = Ok (m2, (r, live r)) /\
      wfP G1 c (m2 o1) /\ ptP G1 c (m2 o1) = ptP G1 c (m o) /\ (forall q, o1 <> q -> m2 q = m1 q).
Proof. exact (t_ec1 c m o). Qed.
Theorem C39_ec2 c (m : mem (fp2O c)) o : wfP G2 c (m o) ->
  exists s m', ec2_out c m o = Ok (s, m') /\ ptP G2 c (m' o) = ptP G2 c (m o) /\ (forall q, o <> q -> m' q = m q) /\
    forall ws m1 o1 r, after r -> exists m2, ec2_in c ws m1 o1 (s ++ r, true) = Ok (m2, (r, live r)) /\
      wfP G2 c (m2 o1) /\ ptP G2 c (m2 o1) = ptP G2 c (m o) /\ (forall q, o1 <> q -> m2 q = m1 q).
Proof. exact (t_ec2 c m o). Qed.
Example C39_witness c : rep1 c (rr c 5) (mk (cp c) 5) /\ wfP G1 c (gen1' c) /\ ptP G1 c (gen1' c) <> EInf /\ wfP G2 c (gen2 c).
Proof. exact (t_wit c). Qed.

(** Reading any decimal numeral below 2^320 gives its residue; a value >= p is not rejected. *)
Theorem C39_fp_any_numeral c ws s n r : dec_numeral s n -> n < 2 ^ 320 -> not_digit_head r ->
  exists x, fp_in c ws (s ++ r, true) = Ok (x, (r, live r)) /\ rep1 c x (mk (cp c) n).
Proof. exact (t_any c ws s n r). Qed.
(** "After a successful read the stream is usable" is false for an Fp at the end of the text:
    the value is right but the stream is in a failed state, so that [while (is >> x)] loses the
    last number. *)
Theorem C39_fp_at_end_refuted c ws x v : rep1 c x v -> exists s, fp_out c 10 x = Ok s /\ fp_in c ws (s, true) = Ok (x, ([], false)).
Proof. exact (t_eof c ws x v). Qed.
(** Reading from a failed stream assigns 0 instead of leaving the element alone. *)
Theorem C39_failed_stream_reads_zero c ws b : fp_in c ws (b, false) = Ok (0, (b, false)).
Proof. exact (t_fail c ws b). Qed.
(** Wrong brackets throw; truncated text compares a character that was never read. *)
Theorem C39_malformed c ws : f2_in c ws ([40; 49; 44; 50; 41], true) = Throw.
Proof. exact (t_paren c ws). Qed.
Theorem C39_truncated_refuted c ws : f2_in c ws ([91; 49; 44; 50], true) = UB.
Proof. exact (t_trunc c ws). Qed.

(** C38: "no way of making a point from text yields an off-curve point" is false: the text
    0x1_0x1 is read without complaint and (1,1) is on none of the three curves. *)
Theorem C38_text_refuted c : exists m, ec1_in c true (zero1 c) (Obj 0) (txt11, true) = Ok (m, ([], false)) /\
  wfP G1 c (m (Obj 0)) /\ ~ onE G1 c (ptP G1 c (m (Obj 0))).
Proof. exact (t_off c). Qed.

(** C06, C11: operator>> of Vuint and Vsint takes exactly the token that TextSpec.v specifies
    (blanks skipped, then the longest run of acceptable characters) and converts it. *)
Theorem C06_read_token neg ws s d r : getDigits neg ws s = (d, r) <-> takes neg ws s d r.
Proof. exact (takes_iff neg ws s d r). Qed.
Theorem C06_read ws s d r : takes false ws s d r -> vread ws s = bind (vsetStr d 0) (fun x => Ok (x, r)).
Proof. exact (vread_takes ws s d r). Qed.
Theorem C11_read ws s d r : takes true ws s d r -> s_read ws s = bind (s_setStr d 10) (fun x => Ok (x, r)).
Proof. exact (sread_takes ws s d r). Qed.
Example C06_read_some neg ws s : exists d r, takes neg ws s d r.
Proof. exact (takes_total neg ws s). Qed.
Theorem C09_isNegative x : swf x -> s_isNegative x = true <-> sv x < 0.
Proof. exact (s_isNegative_ok x). Qed.

(** C39: an Fp2 is read only between '[' ',' ']'; any other separators (that are neither blank
    nor part of a number) make the read throw. *)
Theorem C39_separators c base ws x v y w k1 k2 k3 r : base = 10 \/ base = 16 -> rep1 c x v -> rep1 c y w ->
  is_space k1 = false -> is_space k2 = false -> is_space k3 = false -> not_digit_head [k2] -> not_digit_head [k3] ->
  exists sx sy, fp_out c base x = Ok sx /\ fp_out c base y = Ok sy /\
  f2_in c ws (k1 :: sx ++ k2 :: sy ++ k3 :: r, true) =
    if ((k1 =? 91) && (k2 =? 44) && (k3 =? 93))%bool then Ok (mk2 x y, (r, true)) else Throw.
Proof. exact (t_fp2_sep c base ws x v y w k1 k2 k3 r). Qed.
(** A token that is not "0" and has no '_' is not a point: reading it throws. *)
Theorem C39_ec1_malformed c ws (m : mem (fpO c)) o t r : Forall (fun ch => is_space ch = false /\ ch <> 95) t -> t <> [] -> t <> [48] -> after r ->
  ec1_in c ws m o (t ++ r, true) = Throw.
Proof. exact (t_ec_bad (fpO c) (fp_setStr c) ws m o t r). Qed.
Theorem C39_ec2_malformed c ws (m : mem (fp2O c)) o t r : Forall (fun ch => is_space ch = false /\ ch <> 95) t -> t <> [] -> t <> [48] -> after r ->
  ec2_in c ws m o (t ++ r, true) = Throw.
Proof. exact (t_ec_bad (fp2O c) (f2_setStr c) ws m o t r). Qed.
Example C39_malformed_some : Forall (fun ch => is_space ch = false /\ ch <> 95) [48; 120; 49] /\ after [32].
Proof. split; [repeat constructor; discriminate|reflexivity]. Qed.

(** One query covers all theorems of this file. *)
Definition all_theorems_P_Text :=
  (@C39_fp,
   @C39_fp_canonical,
   @C39_fp2,
   @C39_fp2_set,
   @C39_fp6,
   @C39_fp12,
   @C39_ec1,
   @C39_ec2,
   @C39_fp_any_numeral,
   @C39_fp_at_end_refuted,
   @C39_failed_stream_reads_zero,
   @C39_malformed,
   @C39_truncated_refuted,
   @C38_text_refuted,
   @C06_read_token,
   @C06_read,
   @C11_read,
   @C09_isNegative,
   @C39_separators,
   @C39_ec1_malformed,
   @C39_ec2_malformed).
Print Assumptions all_theorems_P_Text.
