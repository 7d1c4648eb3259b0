(** Model of mie::Vuint (include/zm.h, VuintT<FixedBuffer<Unit, 576>>).

    A Vuint is the list of its [size()] units, least significant first.
    Units of the fixed buffer beyond [size()] are not represented: an access to
    one of them is [UB] (indeterminate value); an access beyond the buffer is
    caught by FixedBuffer::verify and is [Exit].
    Output references become results.  The code copies aliased inputs where it
    needs to (mul, div), so results do not depend on aliasing here. *)
From Verif Require Import Base Prim Loop.

(** FixedBuffer::N (include/zm.h:264-266) with MIE_ZM_VUINT_BIT_LEN = 576. *)
Definition cap : nat := 9.

Definition vuint := list Z.

(** FixedBuffer::alloc / verify (include/zm.h:284-288, 299-305). *)
Definition alloc (n : nat) : res unit := if Nat.ltb cap n then Exit else Ok tt.

(** Drop zero units at the most significant end. *)
Fixpoint strip (l : list Z) : list Z :=
  match l with
  | [] => []
  | d :: l' =>
      match strip l' with
      | [] => if d =? 0 then [] else [d]
      | s => d :: s
      end
  end.

(** VuintT::trim (include/zm.h:894-903): keeps at least one unit. *)
Definition trim (l : vuint) : vuint :=
  match strip l with
  | [] => firstn 1 l
  | s => s
  end.

(** VuintT::set(T) (include/zm.h:341-345), VuintT(T x = 0). *)
Definition vset (x : Z) : vuint := [x].

(** VuintT::set(const uint64_t*, size_t) (include/zm.h:369-391), 64-bit units. *)
Definition vset64 (x : list Z) : res vuint :=
  match x with
  | [] => Ok (vset 0)
  | _ => let! _ := alloc (length x) in Ok (trim x)
  end.

(** pairs of uint32_t to units, as in VuintT::set(const uint32_t*, size_t)
    (include/zm.h:359-365); make64 (include/zm.h:70-73). *)
Fixpoint pack32 (x : list Z) : list Z :=
  match x with
  | l :: h :: x' => h * 2 ^ 32 + l :: pack32 x'
  | [l] => [l]
  | [] => []
  end.

(** VuintT::set(const uint32_t*, size_t) (include/zm.h:346-368). *)
Definition vset32 (x : list Z) : res vuint :=
  match x with
  | [] => Ok (vset 0)
  | _ => let! _ := alloc ((length x + 1) / 2)%nat in Ok (trim (pack32 x))
  end.

(** VuintT::compare (include/zm.h:515-518). *)
Definition vcompare (x y : vuint) : comparison := prim_compare x y.

(** comparable<T>: operator<, ==, > (include/zm.h:124-132). *)
Definition vlt (x y : vuint) : bool := match vcompare x y with Lt => true | _ => false end.
Definition veq (x y : vuint) : bool := match vcompare x y with Eq => true | _ => false end.
Definition vgt (x y : vuint) : bool := match vcompare x y with Gt => true | _ => false end.

(** VuintT::isZero (include/zm.h:521-524). *)
Definition visZero (x : vuint) : bool :=
  match x with
  | [d] => d =? 0
  | _ => false
  end.

(** VuintT::testBit (include/zm.h:539-545).  The index check of
    FixedBuffer::operator[] passes for unit_pos <= 9. *)
Definition vtestBit (x : vuint) (i : Z) : res bool :=
  let unit_pos := Z.to_nat (i / 64) in
  let bit_pos := i mod 64 in
  if Z.of_nat cap <? i / 64 then Exit
  else match nth_error x unit_pos with
       | Some d => Ok (negb (Z.land d (2 ^ bit_pos) =? 0))
       | None => UB
       end.

Definition b2z (b : bool) : Z := if b then 1 else 0.

(** VuintT::add_in (include/zm.h:547-562): returns the units and the carry. *)
Definition vadd_in (x y : vuint) : res (vuint * bool) :=
  let '(px, py) := if Nat.ltb (length x) (length y) then (y, x) else (x, y) in
  let max := length px in
  let min := length py in
  let! _ := alloc max in
  let '(lo, c) := in_addN (firstn min px) py in
  if Nat.ltb min max then
    let '(hi, c) := in_add (skipn min px) (b2z c) in Ok (lo ++ hi, c)
  else Ok (lo, c).

(** VuintT::add(out, x, y) (include/zm.h:564-573). *)
Definition vadd (x y : vuint) : res vuint :=
  let! (out, c) := vadd_in x y in
  if c then (let! _ := alloc (length out + 1) in Ok (out ++ [1]))
  else Ok (trim out).

(** VuintT::add(out, x, uint32_t) (include/zm.h:574-583). *)
Definition vadd32 (x : vuint) (y : Z) : res vuint :=
  let! _ := alloc (length x) in
  let '(out, c) := in_add x y in
  if c then (let! _ := alloc (length x + 1) in Ok (out ++ [1])) else Ok out.

(** VuintT::sub_in (include/zm.h:584-595).  assert(xn >= yn) is compiled out;
    for xn < yn the code reads units of x that were never set. *)
Definition vsub_in (x y : vuint) : res (vuint * bool) :=
  let xn := length x in
  let yn := length y in
  if Nat.ltb xn yn then UB else
  let! _ := alloc xn in
  let '(lo, c) := in_subN (firstn yn x) y in
  if Nat.ltb yn xn then
    let '(hi, c) := in_sub (skipn yn x) (b2z c) in Ok (lo ++ hi, c)
  else Ok (lo, c).

(** VuintT::sub (include/zm.h:597-604). *)
Definition vsub (x y : vuint) : res vuint :=
  let! (out, c) := vsub_in x y in
  if c then Exit else Ok (trim out).

(** VuintT::mul1 (include/zm.h:606-612). *)
Definition vmul1 (x : vuint) (y : Z) : res vuint :=
  let! _ := alloc (length x + 1) in Ok (trim (in_mul x y)).

(** One iteration of the loop of mul(T*, ...) (include/zm.h:921-924):
    out[i .. i+xn] += x * y[i]; the carry of addN is dropped. *)
Definition raw_mul_step (x : list Z) (out : list Z) (i : nat) (yi : Z) : list Z :=
  let t2 := in_mul x yi in
  let n := S (length x) in
  firstn i out ++ fst (in_addN (firstn n (skipn i out)) t2) ++ skipn (i + n) out.

Fixpoint raw_mul_loop (x : list Z) (out : list Z) (i : nat) (ys : list Z) : list Z :=
  match ys with
  | [] => out
  | yi :: ys' => raw_mul_loop x (raw_mul_step x out i yi) (S i) ys'
  end.

(** static mul(T *out, x, xn, y, yn) (include/zm.h:904-925). *)
Definition raw_mul (x y : list Z) : list Z :=
  let '(x, y) := if Nat.ltb (length x) (length y) then (y, x) else (x, y) in
  match y with
  | [] => []
  | y0 :: ys => raw_mul_loop x (in_mul x y0 ++ repeat 0 (length ys)) 1 ys
  end.

(** VuintT::mul (include/zm.h:613-635). *)
Definition vmul (x y : vuint) : res vuint :=
  let! _ := alloc (length x + length y) in Ok (trim (raw_mul x y)).

(** VuintT::div1 (include/zm.h:642-654), q != 0: (quotient, remainder).
    y = 0 divides by zero: UB. *)
Definition vdiv1 (x : vuint) (y : Z) : res (vuint * Z) :=
  if y =? 0 then UB else
  let! _ := alloc (length x) in
  let '(q, r) := in_div x y in Ok (trim q, r).

(** VuintT::shlUnit (include/zm.h:746-756). *)
Definition vshlUnit (x : vuint) (n : Z) : res vuint :=
  if Z.of_nat cap <? Z.of_nat (length x) + n then Exit
  else Ok (trim (repeat 0 (Z.to_nat n) ++ x)).

(** units of shlBit, from the least significant one; [prev] is the previous
    input unit (include/zm.h:769-776). *)
Fixpoint shlBit_loop (prev : Z) (x : list Z) (n : Z) : list Z * Z :=
  match x with
  | [] => ([], Z.shiftr prev (64 - n))
  | t :: x' =>
      let o := Z.lor (Z.shiftl t n mod B) (Z.shiftr prev (64 - n)) in
      let '(out, p) := shlBit_loop t x' n in (o :: out, p)
  end.

(** VuintT::shlBit (include/zm.h:761-782), 0 < n < 64. *)
Definition vshlBit (x : vuint) (n : Z) : res vuint :=
  let! _ := alloc (length x) in
  let '(out, prev) := shlBit_loop 0 x n in
  if prev =? 0 then Ok out
  else (let! _ := alloc (length x + 1) in Ok (out ++ [prev])).

(** VuintT::shrUnit (include/zm.h:786-799). *)
Definition vshrUnit (x : vuint) (n : Z) : res vuint :=
  if Z.of_nat (length x) <=? n then Ok (vset 0)
  else (let! _ := alloc (length x) in Ok (skipn (Z.to_nat n) x)).

(** loop of shrBit, from the most significant unit down (include/zm.h:812-816);
    returns the output units and the last value of prev. *)
Fixpoint shrBit_loop (x : list Z) (n : Z) : list Z * Z :=
  match x with
  | [] => ([], 0)
  | t :: x' =>
      let '(out, prev) := shrBit_loop x' n in
      (Z.lor (Z.shiftr t n) (Z.shiftl prev (64 - n) mod B) :: out, t)
  end.

(** VuintT::shrBit (include/zm.h:804-818). *)
Definition vshrBit (x : vuint) (n : Z) : res vuint :=
  let! _ := alloc (length x) in Ok (trim (fst (shrBit_loop x n))).

(** VuintT::shl (include/zm.h:819-834). *)
Definition vshl (x : vuint) (n : Z) : res vuint :=
  if n =? 0 then Ok x else
  let q := n / 64 in
  let r := n mod 64 in
  let! p := (if q =? 0 then Ok x else vshlUnit x q) in
  if r =? 0 then Ok p else vshlBit p r.

(** VuintT::shr (include/zm.h:835-850). *)
Definition vshr (x : vuint) (n : Z) : res vuint :=
  if n =? 0 then Ok x else
  let q := n / 64 in
  let r := n mod 64 in
  let! p := (if q =? 0 then Ok x else vshrUnit x q) in
  if r =? 0 then Ok p else vshrBit p r.

(** ** Specification side *)

(** Well-formed Vuint: 1..9 units, no leading zero unit (0 is [0]). *)
Definition vwf (x : vuint) : Prop :=
  limbs x /\ (1 <= length x <= cap)%nat /\ (length x = 1%nat \/ last x 0 <> 0).
