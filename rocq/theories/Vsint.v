(** Model of mie::Vsint (include/zm.h, VsintT<Vuint>): magnitude and sign flag.
    Output references become results; where the code reads a sign after writing the
    output, the read sign belongs to an operand that is only overwritten with the
    value read, so aliasing does not matter (checked function by function). *)
From Verif Require Import Base Prim Loop Vuint VDiv StrSpec VStr.

(** members v_, isNeg_ (include/zm.h:964-965) *)
Record vsint := mkS { sm : vuint; sn : bool }.

(** VsintT(int x) (include/zm.h:968-972); ::abs(INT_MIN) is undefined. *)
Definition s_of_int (x : Z) : res vsint :=
  if x =? - 2 ^ 31 then UB else Ok (mkS (vset (Z.abs x)) (x <? 0)).

(** VsintT(const V&), set(const V&) (include/zm.h:977-981, 991-995). *)
Definition s_of_v (x : vuint) : vsint := mkS x false.

(** set(value_type) (include/zm.h:982-985): the sign flag of [old] stays. *)
Definition s_set_unit (old : vsint) (x : Z) : vsint := mkS (vset x) (sn old).

(** set(int64_t) (include/zm.h:986-990); -INT64_MIN is undefined. *)
Definition s_set_i64 (x : Z) : res vsint :=
  if x =? - 2 ^ 63 then UB else Ok (mkS (vset (if x <? 0 then - x else x)) (x <? 0)).

(** set(const uint64_t*, size_t) (include/zm.h:996): the sign flag stays. *)
Definition s_set_units (old : vsint) (x : list Z) : res vsint :=
  let! v := vset64 x in Ok (mkS v (sn old)).

(** clear (include/zm.h:999) *)
Definition s_clear : vsint := mkS (vset 0) false.

(** toString (include/zm.h:1000-1004). *)
Definition s_toString (base : Z) (x : vsint) : res (list Z) :=
  let! s := vtoString base (sm x) in
  Ok (if sn x then 45 :: s else s).

(** A char* turned into std::string stops at the first NUL. *)
Fixpoint c_str (s : list Z) : list Z :=
  match s with [] => [] | c :: s' => if c =? 0 then [] else c :: c_str s' end.

(** set(const std::string&, int base = 10) (include/zm.h:1005-1014). *)
Definition s_setStr (str : list Z) (base : Z) : res vsint :=
  match str with
  | c :: rest =>
      if c =? 45 then let! v := vsetStr (c_str rest) base in Ok (mkS v true)
      else let! v := vsetStr str base in Ok (mkS v false)
  | [] => let! v := vsetStr str base in Ok (mkS v false)
  end.

(** compare (include/zm.h:1020-1029); the int result is represented by its sign. *)
Definition s_compare (x y : vsint) : comparison :=
  if xorb (sn x) (sn y) then
    if visZero (sm x) && visZero (sm y) then Eq
    else if sn x then Lt else Gt
  else
    let c := vcompare (sm x) (sm y) in if sn x then CompOpp c else c.

(** isZero, isNegative (include/zm.h:1031-1032). *)
Definition s_isZero (x : vsint) : bool := visZero (sm x).
Definition s_isNegative (x : vsint) : bool := sn x && negb (s_isZero x).

(** add (include/zm.h:1033-1049). *)
Definition s_add (x y : vsint) : res vsint :=
  if negb (xorb (sn x) (sn y)) then
    let! v := vadd (sm x) (sm y) in Ok (mkS v (sn x))
  else
    match vcompare (sm x) (sm y) with
    | Lt => let! v := vsub (sm y) (sm x) in Ok (mkS v (sn y))
    | _ => let! v := vsub (sm x) (sm y) in Ok (mkS v (sn x))
    end.

(** sub (include/zm.h:1050-1067). *)
Definition s_sub (x y : vsint) : res vsint :=
  if xorb (sn x) (sn y) then
    let! v := vadd (sm x) (sm y) in Ok (mkS v (sn x))
  else
    match vcompare (sm x) (sm y) with
    | Lt => let! v := vsub (sm y) (sm x) in Ok (mkS v (negb (sn y)))
    | _ => let! v := vsub (sm x) (sm y) in Ok (mkS v (sn x))
    end.

(** mul (include/zm.h:1068-1072). *)
Definition s_mul (x y : vsint) : res vsint :=
  let! v := vmul (sm x) (sm y) in Ok (mkS v (xorb (sn x) (sn y))).

(** div(q, r, x, y), q != 0 (include/zm.h:1073-1107): [None] when it returns false. *)
Definition s_div (x y : vsint) : res (option (vsint * vsint)) :=
  let! o := vdiv (sm x) (sm y) in
  match o with
  | None => Ok None
  | Some (q, r) =>
      let qsign := xorb (sn x) (sn y) in
      if visZero r then Ok (Some (mkS q qsign, mkS r false))
      else if qsign then
        let! q := vadd32 q 1 in
        let! r := vsub (sm y) r in
        Ok (Some (mkS q qsign, mkS r (sn y)))
      else Ok (Some (mkS q qsign, mkS r (sn y)))
  end.

(** neg (include/zm.h:1108-1112). *)
Definition s_neg (x : vsint) : vsint := mkS (sm x) (negb (sn x)).

(** shl (include/zm.h:1125-1129). *)
Definition s_shl (x : vsint) (n : Z) : res vsint :=
  let! v := vshl (sm x) n in Ok (mkS v (sn x)).

(** shr (include/zm.h:1130-1142). *)
Definition s_shr (x : vsint) (n : Z) : res vsint :=
  if s_isZero x then Ok s_clear
  else if sn x then Exit
  else let! v := vshr (sm x) n in Ok (mkS v false).

(** operator>>(std::istream&, VsintT&) (include/zm.h:1118-1124). *)
Definition s_read (ws : bool) (s : list Z) : res (vsint * list Z) :=
  let '(d, r) := getDigits true ws s in
  let! x := s_setStr d 10 in Ok (x, r).

(** ** Specification side *)
(** the integer denoted *)
Definition sv (x : vsint) : Z := if sn x then - lv (sm x) else lv (sm x).
(** a Vsint the API can produce; both zeros are possible *)
Definition swf (x : vsint) : Prop := vwf (sm x).
