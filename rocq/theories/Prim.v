(** Portable limb kernels of src/zm.cpp (model only, no proofs). *)
From Verif Require Import Base.

(** One iteration of in_addN (src/zm.cpp:20-30) is a step of this loop.
    [c] is the running carry; pointers become values, the output vector is
    returned.  Precondition of the code: x and y both have n units. *)
Fixpoint in_addN_loop (c : Z) (x y : list Z) : list Z * Z :=
  match x, y with
  | xi :: x', yi :: y' =>
      let xc := (xi + c) mod B in
      if xc <? c then
        (* x[i] = Unit(-1) and c = 1 *)
        let '(out, c') := in_addN_loop c x' y' in (yi :: out, c')
      else
        let xc := (xc + yi) mod B in
        let c := if yi >? xc then 1 else 0 in
        let '(out, c') := in_addN_loop c x' y' in (xc :: out, c')
  | _, _ => ([], c)
  end.

(** in_addN (src/zm.cpp:16-32): returns (out, carry != 0). *)
Definition in_addN (x y : list Z) : list Z * bool :=
  let '(out, c) := in_addN_loop 0 x y in (out, negb (c =? 0)).

(** loop of in_add for i >= 1 (src/zm.cpp:43-51) *)
Fixpoint in_add_loop (c : Z) (x : list Z) : list Z * Z :=
  match x with
  | xi :: x' =>
      let xc := (xi + c) mod B in
      if xc <? c then
        let '(out, c') := in_add_loop c x' in (0 :: out, c')
      else
        let '(out, c') := in_add_loop 0 x' in (xc :: out, c')
  | [] => ([], c)
  end.

(** in_add (src/zm.cpp:37-53).  n = 0 is excluded by an assertion; the model
    returns the empty vector for it. *)
Definition in_add (x : list Z) (y : Z) : list Z * bool :=
  match x with
  | x0 :: x' =>
      let xc := (x0 + y) mod B in
      let c := if y >? xc then 1 else 0 in
      let '(out, c') := in_add_loop c x' in (xc :: out, negb (c' =? 0))
  | [] => ([], false)
  end.

(** loop of in_subN (src/zm.cpp:61-70) *)
Fixpoint in_subN_loop (c : Z) (x y : list Z) : list Z * Z :=
  match x, y with
  | xi :: x', yi :: y' =>
      let yc := (yi + c) mod B in
      if yc <? c then
        let '(out, c') := in_subN_loop c x' y' in (xi :: out, c')
      else
        let c := if xi <? yc then 1 else 0 in
        let '(out, c') := in_subN_loop c x' y' in ((xi - yc) mod B :: out, c')
  | _, _ => ([], c)
  end.

(** in_subN (src/zm.cpp:57-72) *)
Definition in_subN (x y : list Z) : list Z * bool :=
  let '(out, c) := in_subN_loop 0 x y in (out, negb (c =? 0)).

(** loop of in_sub for i >= 1 (src/zm.cpp:82-89) *)
Fixpoint in_sub_loop (c : Z) (x : list Z) : list Z * Z :=
  match x with
  | xi :: x' =>
      if xi <? c then
        let '(out, c') := in_sub_loop c x' in (B - 1 :: out, c')
      else
        let '(out, c') := in_sub_loop 0 x' in (xi - c :: out, c')
  | [] => ([], c)
  end.

(** in_sub (src/zm.cpp:77-91) *)
Definition in_sub (x : list Z) (y : Z) : list Z * bool :=
  match x with
  | x0 :: x' =>
      let c := if x0 <? y then 1 else 0 in
      let '(out, c') := in_sub_loop c x' in ((x0 - y) mod B :: out, negb (c' =? 0))
  | [] => ([], false)
  end.

(** mulUnit (src/zm.cpp:97-118): returns (H, L) *)
Definition mulUnit (a b : Z) : Z * Z := ((a * b) / B, (a * b) mod B).

(** in_mul (src/zm.cpp:124-136); [H] is the running high unit.  The result has
    one more unit than x. *)
Fixpoint in_mul_loop (H : Z) (x : list Z) (y : Z) : list Z :=
  match x with
  | xi :: x' =>
      let t := H in
      let '(H, L) := mulUnit xi y in
      let o := (t + L) mod B in
      let H := if o <? t then (H + 1) mod B else H in
      o :: in_mul_loop H x' y
  | [] => [H]
  end.
Definition in_mul (x : list Z) (y : Z) : list Z := in_mul_loop 0 x y.

(** divUnit (src/zm.cpp:143-162): ([H:L] / y truncated to a unit, [H:L] % y).
    Division by zero is undefined in C; callers pass y <> 0. *)
Definition divUnit (H L y : Z) : Z * Z :=
  let t := H * B + L in ((t / y) mod B, t mod y).

(** in_div (src/zm.cpp:169-176): from the most significant unit down.
    Returns (q, r). *)
Fixpoint in_div (x : list Z) (y : Z) : list Z * Z :=
  match x with
  | [] => ([], 0)
  | xi :: x' =>
      let '(q, r) := in_div x' y in
      let '(qi, r) := divUnit r xi y in
      (qi :: q, r)
  end.

(** in_mod (src/zm.cpp:178-185) *)
Fixpoint in_mod (x : list Z) (y : Z) : Z :=
  match x with
  | [] => 0
  | xi :: x' => snd (divUnit (in_mod x' y) xi y)
  end.

(** PrimitiveFunction::compare on equal lengths (include/zm.h:187-190):
    from the most significant unit down. *)
Fixpoint cmp_limbs (x y : list Z) : comparison :=
  match x, y with
  | xi :: x', yi :: y' =>
      match cmp_limbs x' y' with
      | Eq => if xi =? yi then Eq else if xi >? yi then Gt else Lt
      | c => c
      end
  | _, _ => Eq
  end.

(** PrimitiveFunction::compare (include/zm.h:183-191) *)
Definition prim_compare (x y : list Z) : comparison :=
  if negb (Nat.eqb (length x) (length y))
  then (if Nat.ltb (length y) (length x) then Gt else Lt)
  else cmp_limbs x y.
