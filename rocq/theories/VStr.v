(** Text conversion of Vuint (include/zm.h). Strings are lists of character codes.
    C library: strtol/strtoul/ostream in the "C" locale. *)
From Verif Require Import Base Prim Loop Vuint StrSpec.

(** [os << n] for an unsigned integer in base b (10, or 16 after std::hex): no padding,
    lower-case digits.  Standard library, not repo code. *)
Definition digit_char (d : Z) : Z := if d <? 10 then 48 + d else 87 + d.
Fixpoint print_uint (fuel : nat) (b n : Z) : list Z :=
  match fuel with
  | O => []
  | S f => if n <? b then [digit_char n]
           else print_uint f b (n / b) ++ [digit_char (n mod b)]
  end.
Definition put_uint (b n : Z) : list Z := print_uint 64 b n.

(** [os << setfill('0') << setw(w) << n]. *)
Definition put_uint_w (w : nat) (b n : Z) : list Z :=
  let s := put_uint b n in repeat 48 (w - length s) ++ s.

(** loop of toString, base 10 (include/zm.h:418-421): repeated div1 by 10^9. *)
Definition dec_body (s : vuint * list Z) : res (step (vuint * list Z) (list Z)) :=
  let '(x, t) := s in
  if vgt x (vset 0) then
    let! (q, r) := vdiv1 x 1000000000 in
    Ok (Next (q, t ++ [r mod 2 ^ 32]))
  else Ok (Done t).

(** VuintT::toString (include/zm.h:407-446). *)
Definition vtoString (base : Z) (x : vuint) : res (list Z) :=
  if base =? 10 then
    let! t := loopR 600 dec_body (x, []) in
    match rev t with
    | [] => Ok [48]
    | top :: rest => Ok (put_uint 10 top ++ concat (map (put_uint_w 9 10) rest))
    end
  else if base =? 16 then
    match rev x with
    | [] => UB
    | top :: rest => Ok (48 :: 120 :: put_uint 16 top ++ concat (map (put_uint_w 16 16) rest))
    end
  else Exit.

(** C strtol/strtoul on a NUL-terminated string: (value, rest at endp).  Standard
    library; the chunks parsed by the code are too short to overflow. *)
Fixpoint skip_space (s : list Z) : list Z :=
  match s with
  | c :: s' => if ((9 <=? c) && (c <=? 13)) || (c =? 32) then skip_space s' else s
  | [] => []
  end.
Fixpoint take_digits (b : Z) (s : list Z) : list Z * list Z :=
  match s with
  | c :: s' => if is_digit b c then let '(d, r) := take_digits b s' in (c :: d, r) else ([], s)
  | [] => ([], [])
  end.
Definition skip_0x (b : Z) (s : list Z) : list Z :=
  match s with
  | z :: x :: h :: _ =>
      if (b =? 16) && (z =? 48) && ((x =? 120) || (x =? 88)) && is_digit 16 h then skipn 2 s else s
  | _ => s
  end.
Definition strto (b : Z) (s : list Z) : Z * list Z :=
  let s1 := skip_space s in
  let '(neg, s2) := match s1 with
                    | c :: s' => if c =? 45 then (true, s') else if c =? 43 then (false, s') else (false, s1)
                    | [] => (false, [])
                    end in
  let '(d, r) := take_digits b (skip_0x b s2) in
  match d with
  | [] => (0, s)
  | _ => (if neg : bool then - numval b d else numval b d, r)
  end.
(** [*endp] is NUL *)
Definition at_end (r : list Z) : bool := match r with [] => true | c :: _ => c =? 0 end.

(** loops of VuintT::set(str) that cut t into chunks of k characters from the end
    (include/zm.h:476-483, 491-498); v is truncated to uint32_t.  [None]: goto ERR.
    The fuel is the length of t, which decreases in every iteration. *)
Fixpoint cut_chunks (fuel : nat) (k : nat) (b : Z) (t : list Z) : option (list Z) :=
  match t with
  | [] => Some []
  | _ =>
      match fuel with
      | O => None
      | S f =>
          let remain := Nat.min (length t) k in
          let '(v, r) := strto b (skipn (length t - remain) t) in
          if at_end r then
            match cut_chunks f k b (firstn (length t - remain) t) with
            | Some x => Some (v mod 2 ^ 32 :: x)
            | None => None
            end
          else None
      end
  end.

(** loop of VuintT::set(str), base 10 (include/zm.h:500-503); xs most significant first. *)
Fixpoint dec_accum (acc : vuint) (xs : list Z) : res vuint :=
  match xs with
  | [] => Ok acc
  | x :: xs' =>
      let! a := vmul acc (vset 1000000000) in
      let! a := vadd32 a x in
      dec_accum a xs'
  end.

(** VuintT::set(const std::string&, int base) (include/zm.h:452-509). [base] = 0, 10, 16;
    any other value is treated like 10 (default label at line 487).  &x[0] of an
    empty vector (base 16, empty text) is UB. *)
Definition vsetStr (str : list Z) (base : Z) : res vuint :=
  let! (base, t) :=
    match str with
    | c0 :: c1 :: rest =>
        if c0 =? 48 then
          if c1 =? 120 then
            if negb (base =? 0) && negb (base =? 16) then Exit else Ok (16, rest)
          else Exit
        else Ok (base, [])
    | _ => Ok (base, [])
    end in
  let base := if base =? 0 then 10 else base in
  let t := match t with [] => str | _ => t end in
  if base =? 16 then
    match cut_chunks (length t) 8 16 t with
    | None => Throw
    | Some [] => UB
    | Some x => vset32 x
    end
  else
    match cut_chunks (length t) 9 10 t with
    | None => Throw
    | Some x => dec_accum (vset 0) (rev x)
    end.

(** local::getDigits (include/zm.h:84-107) on the remaining characters of a stream
    whose skipws flag is [ws]: (digits read, remaining characters).  [pos] counts
    the characters read, [first] is str[0]. *)
Fixpoint getDigits_loop (neg : bool) (ws : bool) (pos : nat) (first : Z) (s : list Z) : list Z * list Z :=
  match s with
  | [] => ([], [])
  | c :: s' =>
      if ws && (((9 <=? c) && (c <=? 13)) || (c =? 32)) then getDigits_loop neg ws pos first s'
      else if (0 <=? digit_of c) || (Nat.eqb pos 1 && (first =? 48) && (c =? 120))
              || (neg && Nat.eqb pos 0 && (c =? 45)) then
        let '(d, r) := getDigits_loop neg false (S pos) (if Nat.eqb pos 0 then c else first) s' in
        (c :: d, r)
      else ([], s)
  end.
Definition getDigits (neg ws : bool) (s : list Z) : list Z * list Z := getDigits_loop neg ws 0 0 s.

(** operator>>(std::istream&, VuintT&) (include/zm.h:732-738). *)
Definition vread (ws : bool) (s : list Z) : res (vuint * list Z) :=
  let '(d, r) := getDigits false ws s in
  let! x := vsetStr d 0 in Ok (x, r).
