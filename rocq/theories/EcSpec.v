(** Specification: the chord-and-tangent law on y^2 = x^3 + b over a field, affine points
    and the point at infinity.  Independent of the code. *)
From Coq Require Import ZArith List Ring.
From Verif Require Import TowerSpec Poly.

Section EcSpec.
Local Open Scope r_scope.
Variable K : fld.
Definition rdiv (x y : K) : K := x * finvr K y.
Inductive ecpt : Type := EInf | EAff (x y : K).
(** y^2 = x^3 + b *)
Definition on_curve (b : K) (P : ecpt) : Prop :=
  match P with EInf => True | EAff x y => y * y = x * x * x + b end.
Definition ec_neg (P : ecpt) : ecpt := match P with EInf => EInf | EAff x y => EAff x (- y) end.
(** third intersection point of the line of slope l through (x1, y1), (x2, _), reflected *)
Definition ec_chord (l x1 y1 x2 : K) : ecpt :=
  let x3 := l * l - x1 - x2 in EAff x3 (l * (x1 - x3) - y1).
Definition ec_add (P Q : ecpt) : ecpt :=
  match P, Q with
  | EInf, _ => Q
  | _, EInf => P
  | EAff x1 y1, EAff x2 y2 =>
      if fdec K x1 x2 then
        if fdec K y1 (- y2) then EInf
        else ec_chord (rdiv ((1 + 1 + 1) * (x1 * x1)) ((1 + 1) * y1)) x1 y1 x2
      else ec_chord (rdiv (y2 - y1) (x2 - x1)) x1 y1 x2
  end.
(** n P = P + ... + P *)
Fixpoint ec_mul (n : nat) (P : ecpt) : ecpt :=
  match n with O => EInf | S n' => ec_add P (ec_mul n' P) end.
Definition ec_mulz (n : Z) (P : ecpt) : ecpt := ec_mul (Z.to_nat n) P.

(** The point denoted by a Jacobian triple (X, Y, Z): x = X/Z^2, y = Y/Z^3. *)
Definition jac (P : F3 K) : ecpt :=
  if fdec K (c3 P) 0 then EInf
  else EAff (rdiv (a3 P) (c3 P * c3 P)) (rdiv (b3 P) (c3 P * c3 P * c3 P)).
(** The point denoted by a homogeneous triple (X, Y, Z): x = X/Z, y = Y/Z. *)
Definition hom (P : F3 K) : ecpt :=
  if fdec K (c3 P) 0 then EInf else EAff (rdiv (a3 P) (c3 P)) (rdiv (b3 P) (c3 P)).
End EcSpec.
Arguments EInf {K}.
Arguments EAff {K} _ _.
