(** Stream output and input of field elements and points (include/bn.h, include/zm2.h).

    An input stream is the list of characters still to be read and a flag: [true] while
    neither eofbit nor failbit is set.  Parameter [ws] is the stream's skipws flag (set by
    default).  Assumptions: exceptions() is empty (the default), and the stream has no other
    error than running out of characters. *)
From Coq Require Import ZArith List Bool.
From Verif Require Import Base Prim Loop Vuint StrSpec VStr Vsint Cfg FpM FpApi TowerSpec TowerM ParamM EcM.
Import ListNotations.
Local Open Scope Z_scope.

Definition strm := (list Z * bool)%type.
Definition is_space (ch : Z) : bool := ((9 <=? ch) && (ch <=? 13)) || (ch =? 32).
Definition live (r : list Z) : bool := match r with [] => false | _ => true end.

(** is >> ch for a char: [None] when nothing is extracted; the variable is then left
    uninitialised *)
Definition rd_char (ws : bool) (s : strm) : option Z * strm :=
  let '(b, g) := s in
  if g then
    match (if ws then skip_space b else b) with
    | ch :: r => (Some ch, (r, true))
    | [] => (None, ([], false))
    end
  else (None, (b, false)).
(** local::getDigits (include/zm.h:84-107).  The loop is left either at a character that is
    put back (unget), or because the extraction fails at the end of the text. *)
Definition rd_digits (neg ws : bool) (s : strm) : list Z * strm :=
  let '(b, g) := s in
  if g then let '(d, r) := getDigits neg ws b in (d, (r, live r)) else ([], (b, false)).
(** is >> str for a std::string: up to the next white space; reaching the end sets eofbit *)
Fixpoint take_token (b : list Z) : list Z * list Z :=
  match b with
  | ch :: b' => if is_space ch then ([], b) else let '(t, r) := take_token b' in (ch :: t, r)
  | [] => ([], [])
  end.
Definition rd_token (ws : bool) (s : strm) : list Z * strm :=
  let '(b, g) := s in
  if g then let '(t, r) := take_token (if ws then skip_space b else b) in (t, (r, live r && live t)) else ([], (b, false)).

(** if (c1 == k1 && c2 == k2 && ...) return is; throw ...;  Reading an uninitialised char is
    undefined. *)
Fixpoint expect {A} (l : list (option Z * Z)) (r : A) : res A :=
  match l with
  | [] => Ok r
  | (None, _) :: _ => UB
  | (Some ch, k) :: l' => if ch =? k then expect l' r else Throw
  end.

Section Text.
Variable c : cfg.

(** ** Output.  [base] is 16 if the stream's hex flag is set, else 10. *)
(** Fp: include/zm2.h:116-119, toString 250 *)
Definition fp_out (base : Z) (x : Z) : res (list Z) := fp_toString c base x.
(** Fp2T::toString, operator<< (include/bn.h:521-528) *)
Definition f2_out (base : Z) (x : fp2) : res (list Z) :=
  let! a := fp_out base (a2 x) in let! b := fp_out base (b2 x) in
  Ok ([91] ++ a ++ [44] ++ b ++ [93]).
(** Fp6T operator<< (include/bn.h:970-973) *)
Definition f6_out (base : Z) (x : fp6) : res (list Z) :=
  let! a := f2_out base (a3 x) in let! b := f2_out base (b3 x) in let! d := f2_out base (c3 x) in
  Ok ([91] ++ a ++ [44; 10; 32] ++ b ++ [44; 10; 32] ++ d ++ [93]).
(** Fp12T operator<< (include/bn.h:1421-1424) *)
Definition f12_out (base : Z) (x : fp12) : res (list Z) :=
  let! a := f6_out base (a2 x) in let! b := f6_out base (b2 x) in
  Ok ([91] ++ a ++ [44; 10; 32] ++ b ++ [93]).

(** ** Input *)
(** Fp: include/zm2.h:120-126 *)
Definition fp_in (ws : bool) (s : strm) : res (Z * strm) :=
  let '(d, s) := rd_digits false ws s in
  let! x := fp_setStr c d in Ok (x, s).
(** Fp2T operator>> (include/bn.h:529-535) *)
Definition f2_in (ws : bool) (s : strm) : res (fp2 * strm) :=
  let '(cl, s) := rd_char ws s in
  let! (a, s) := fp_in ws s in
  let '(cm, s) := rd_char ws s in
  let! (b, s) := fp_in ws s in
  let '(cr, s) := rd_char ws s in
  expect [(cl, 91); (cm, 44); (cr, 93)] (mk2 a b, s).
(** Fp6T operator>> (include/bn.h:974-980) *)
Definition f6_in (ws : bool) (s : strm) : res (fp6 * strm) :=
  let '(c1, s) := rd_char ws s in
  let! (a, s) := f2_in ws s in
  let '(c2, s) := rd_char ws s in
  let! (b, s) := f2_in ws s in
  let '(k3, s) := rd_char ws s in
  let! (d, s) := f2_in ws s in
  let '(c4, s) := rd_char ws s in
  expect [(c1, 91); (c2, 44); (k3, 44); (c4, 93)] (mk3 a b d, s).
(** Fp12T operator>> (include/bn.h:1425-1431) *)
Definition f12_in (ws : bool) (s : strm) : res (fp12 * strm) :=
  let '(c1, s) := rd_char ws s in
  let! (a, s) := f6_in ws s in
  let '(c2, s) := rd_char ws s in
  let! (b, s) := f6_in ws s in
  let '(k3, s) := rd_char ws s in
  expect [(c1, 91); (c2, 44); (k3, 93)] (mk2 a b, s).
(** Fp2T::set(const std::string&) (include/bn.h:542-546): a fresh istringstream; what follows
    the element is ignored *)
Definition f2_setStr (str : list Z) : res fp2 := let! (x, _) := f2_in true (str, true) in Ok x.
End Text.

(** ** Points.  [pr]: toString(16) of the coordinate class, [rd]: its set(std::string). *)
Section EcText.
Variable O : fops.
Variable pr : fT O -> res (list Z).
Variable rd : list Z -> res (fT O).
(** EcT operator<< (include/bn.h:2915-2923); normalize() is const but changes the object *)
Definition ec_out (m : mem O) (o : ptr) : res (list Z * mem O) :=
  if ec_isZero O m o then Ok ([48], m)
  else
    let! m := ec_normalize O m o in
    let! x := pr (a3 (m o)) in
    let! y := pr (b3 (m o)) in
    Ok (x ++ [95] ++ y, m).
(** str.find('_') *)
Fixpoint cut_at (k : Z) (s : list Z) : option (list Z * list Z) :=
  match s with
  | [] => None
  | ch :: s' => if ch =? k then Some ([], s') else match cut_at k s' with Some (a, b) => Some (ch :: a, b) | None => None end
  end.
(** EcT operator>> (include/bn.h:2924-2941).  set takes char pointers: the text ends at the
    first zero character. *)
Definition ec_in (ws : bool) (m : mem O) (o : ptr) (s : strm) : res (mem O * strm) :=
  let '(str, s) := rd_token ws s in
  if match str with [ch] => ch =? 48 | _ => false end then Ok (m_clear O m o, s)
  else
    let m := st2 O m o (o_1 O) in
    match cut_at 95 str with
    | None => Throw
    | Some (x, y) =>
        let! v := rd (c_str x) in
        let m := st0 O m o v in
        let! v := rd (c_str y) in
        Ok (st1 O m o v, s)
    end.
End EcText.
(** Ec1 and Ec2 *)
Definition ec1_out (c : cfg) := ec_out (fpO c) (fp_out c 16).
Definition ec1_in (c : cfg) := ec_in (fpO c) (fp_setStr c).
Definition ec2_out (c : cfg) := ec_out (fp2O c) (f2_out c 16).
Definition ec2_in (c : cfg) := ec_in (fp2O c) (f2_setStr c).
