(** What the doubling step of the Miller loop has to leave: a tangent and a point. *)
From Coq Require Import ZArith.
From Verif Require Import Base Vuint FpSpec Primes Cfg FpM FpProofs TowerSpec TowerField TowerM Fp2Proofs Fp6Proofs Frob ParamM ParamProofs FinalM TowerApi Poly EcSpec EcM EcProofs EcInst EcFrob EcApi PairM PairProofs PairBil PairLin PairApi PairObj PairLine.
Local Open Scope Z_scope.

(** [lv] is, up to a factor in Fp2, the tangent at the point (x, y) of the twist, evaluated at (xp, yp) (see
    P_Pair.v, C41: [lineAt], [line12]) *)
Definition tangent c (x y : K2 c) (xp yp : FpR (cp c)) (lv : K6 c) : Prop :=
  exists k l, rmul l (rmul (radd ro ro) y) = rmul (radd (radd ro ro) ro) (rmul x x) /\ k <> rz /\
    rmul (line12 c lv) (rmul (rmul (iw c) (iw c)) (iw c)) = rmul (e212 c k) (lineAt c l x y xp yp).
(** [r] stands for the double of (x, y) *)
Definition doubled c (x y : K2 c) (r : F3 (F2 Z)) : Prop :=
  exists X' Y' Z', repR c r (mk3 X' Y' Z') /\ hom (K2F c) (mk3 X' Y' Z') = ec_add (K2F c) (@EAff (K2F c) x y) (@EAff (K2F c) x y).

