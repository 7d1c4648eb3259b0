(** Points: bn::ecop (include/bn.h:2347-2656) and bn::EcT (bn.h:2815-2946).
    The templates are modelled once, over a record of field operations, and instantiated
    with mie::Fp and bn::Fp2T.

    Memory: a point object is an array FF[3]; [mem] maps an address to its contents and every
    assignment to a component is a separate store, so outputs may alias inputs.  Two
    addresses are equal or denote disjoint arrays (partial overlap is not modelled).
    [Obj n] are the caller's objects; [Loc 0] is the (uninitialised) result object of the
    binary operators that return a point, [Loc 1] the automatic array of the callee (inCopy
    of ScalarMult, negQ of EcT::sub). *)
From Coq Require Import ZArith List Bool.
From Verif Require Import Base Prim Loop Vuint Vsint Power Cfg FpM FpApi TowerSpec TowerM ParamM.
Import ListNotations.
Local Open Scope Z_scope.

(** The operations of class FF used by the templates. *)
Record fops := FOps {
  fT : Type;
  o_add : fT -> fT -> fT; o_sub : fT -> fT -> fT; o_mul : fT -> fT -> fT;
  o_sq : fT -> fT; o_neg : fT -> fT;
  o_inv : fT -> res fT;
  o_isZero : fT -> bool; o_eqb : fT -> fT -> bool;
  o_0 : fT; o_1 : fT }.
(** FF = mie::Fp; FF(1), i.e. Fp(int) with argument 1, holds R mod p (FpInit.v, C15). *)
Definition fpO (c : cfg) : fops :=
  FOps Z (fp_add c) (fp_sub c) (fp_mul c) (fp_sqr c) (fp_neg c) (fp_inv c) fp_isZero fp_eqb 0 (cR c).
(** FF = bn::Fp2T<Fp> *)
Definition fp2O (c : cfg) : fops :=
  FOps fp2 (f2_add c) (f2_sub c) (f2_mul c) (f2_square c) (f2_neg c) (f2_inverse c) f2_isZero f2_eqb f2_0 (f2_1 c).

Inductive ptr := Loc (n : nat) | Obj (n : nat).
Definition ptr_eqb (a b : ptr) : bool :=
  match a, b with Loc x, Loc y | Obj x, Obj y => Nat.eqb x y | _, _ => false end.

Section Ecop.
Variable O : fops.
Notation T := (fT O).
Notation add := (o_add O). Notation sub := (o_sub O). Notation mul := (o_mul O). Notation sq := (o_sq O).
Definition mem := ptr -> F3 T.
Definition upd (m : mem) (o : ptr) (P : F3 T) : mem := fun q => if ptr_eqb o q then P else m q.
(** out[0] = v, out[1] = v, out[2] = v *)
Definition st0 (m : mem) (o : ptr) (v : T) : mem := upd m o (mk3 v (b3 (m o)) (c3 (m o))).
Definition st1 (m : mem) (o : ptr) (v : T) : mem := upd m o (mk3 (a3 (m o)) v (c3 (m o))).
Definition st2 (m : mem) (o : ptr) (v : T) : mem := upd m o (mk3 (a3 (m o)) (b3 (m o)) v).

(** copy (bn.h:2349-2355) *)
Definition m_copy (m : mem) (o i : ptr) : mem :=
  let m := st0 m o (a3 (m i)) in
  let m := st1 m o (b3 (m i)) in
  st2 m o (c3 (m i)).
(** out[0].clear(); out[1].clear(); out[2].clear() *)
Definition m_clear (m : mem) (o : ptr) : mem := st2 (st1 (st0 m o (o_0 O)) o (o_0 O)) o (o_0 O).

(** NormalizeJac (bn.h:2447-2466) *)
Definition NormalizeJac (m : mem) (o i : ptr) : res mem :=
  if o_eqb O (c3 (m i)) (o_0 O) then Ok (m_clear m o)
  else if o_eqb O (c3 (m i)) (o_1 O) then Ok (m_copy m o i)
  else
    let A := c3 (m i) in
    let! A := o_inv O A in
    let AA := sq A in
    let m := st0 m o (mul (a3 (m i)) AA) in
    let t0 := mul AA A in
    let m := st1 m o (mul (b3 (m i)) t0) in
    Ok (st2 m o (o_1 O)).

(** NormalizeHom (bn.h:2471-2487) *)
Definition NormalizeHom (m : mem) (o i : ptr) : res mem :=
  if o_eqb O (c3 (m i)) (o_0 O) then Ok (m_clear m o)
  else if o_eqb O (c3 (m i)) (o_1 O) then Ok (m_copy m o i)
  else
    let A := c3 (m i) in
    let! A := o_inv O A in
    let m := st0 m o (mul (a3 (m i)) A) in
    let m := st1 m o (mul (b3 (m i)) A) in
    Ok (st2 m o (o_1 O)).

(** ECDouble (bn.h:2493-2518) *)
Definition ECDouble (m : mem) (o i : ptr) : mem :=
  let A := sq (a3 (m i)) in
  let B := sq (b3 (m i)) in
  let C := sq B in
  let t0 := add (a3 (m i)) B in
  let t1 := sq t0 in
  let t2 := sub t1 A in
  let t3 := sub t2 C in
  let D := add t3 t3 in
  let E := add A A in
  let E := add E A in
  let F := sq E in
  let t4 := add D D in
  let m := st0 m o (sub F t4) in
  let t5 := sub D (a3 (m o)) in
  let t6 := C in
  let t6 := add t6 t6 in
  let t6 := add t6 t6 in
  let t6 := add t6 t6 in
  let t7 := mul E t5 in
  let t8 := mul (b3 (m i)) (c3 (m i)) in
  let m := st1 m o (sub t7 t6) in
  st2 m o (add t8 t8).

(** ECAdd (bn.h:2524-2581) *)
Definition ECAdd (m : mem) (o a b : ptr) : mem :=
  if o_isZero O (c3 (m a)) then m_copy m o b
  else if o_isZero O (c3 (m b)) then m_copy m o a
  else
    let Z1Z1 := sq (c3 (m a)) in
    let Z2Z2 := sq (c3 (m b)) in
    let U1 := mul (a3 (m a)) Z2Z2 in
    let U2 := mul (a3 (m b)) Z1Z1 in
    let t0 := mul (c3 (m b)) Z2Z2 in
    let S1 := mul (b3 (m a)) t0 in
    let t1 := mul (c3 (m a)) Z1Z1 in
    let S2 := mul (b3 (m b)) t1 in
    let H := sub U2 U1 in
    let t3 := sub S2 S1 in
    if o_isZero O H then
      (if o_isZero O t3 then ECDouble m o a else st2 m o (o_0 O))
    else
      let t2 := add H H in
      let I := sq t2 in
      let J := mul H I in
      let r := add t3 t3 in
      let V := mul U1 I in
      let t4 := sq r in
      let t5 := add V V in
      let t6 := sub t4 J in
      let m := st0 m o (sub t6 t5) in
      let t7 := sub V (a3 (m o)) in
      let t8 := mul S1 J in
      let t9 := add t8 t8 in
      let t10 := mul r t7 in
      let m := st1 m o (sub t10 t9) in
      let t11 := add (c3 (m a)) (c3 (m b)) in
      let t12 := sq t11 in
      let t13 := sub t12 Z1Z1 in
      let t14 := sub t13 Z2Z2 in
      st2 m o (mul t14 H).

(** ScalarMult (bn.h:2595-2655).  [w]: number of bits of value_type; [bs]: the blocks
    Tag::getBlock(m, i), least significant first, as w-bit patterns; [mz]: m == 0. *)
Section Scalar.
Variable w : nat.
Definition top (v : Z) : bool := Z.testbit v (Z.of_nat w - 1).
Definition shl1 (v : Z) : Z := (2 * v) mod 2 ^ Z.of_nat w.
(** while ((v != 0) && (!(v & mask))) { v <<= 1; ++j; } (bn.h:2624-2627); at most [n]
    iterations are allowed, otherwise the program does not stop *)
Fixpoint sm_skip (n : nat) (v : Z) (j : nat) : res (Z * nat) :=
  if negb (v =? 0) && negb (top v) then
    match n with Datatypes.O => Diverge | Datatypes.S n' => sm_skip n' (shl1 v) (Datatypes.S j) end
  else Ok (v, j).
(** the loop bodies of bn.h:2636-2641 and 2648-2653, [n] times *)
Fixpoint sm_bits (n : nat) (v : Z) (m : mem) (o i : ptr) : mem :=
  match n with
  | Datatypes.O => m
  | Datatypes.S n' =>
      let m := ECDouble m o o in
      let m := if top v then ECAdd m o o i else m in
      sm_bits n' (shl1 v) m o i
  end.
(** for (int i = mSize - 2; i >= 0; --i) (bn.h:2646-2654) *)
Fixpoint sm_blocks (rbs : list Z) (m : mem) (o i : ptr) : mem :=
  match rbs with [] => m | v :: rbs' => sm_blocks rbs' (sm_bits w v m o i) o i end.
Definition ScalarMult (m : mem) (o i : ptr) (mz : bool) (bs : list Z) : res mem :=
  if mz then Ok (m_clear m o)
  else
    let '(m, i) := if ptr_eqb o i then (m_copy m (Loc 1) i, Loc 1) else (m, i) in
    match rev bs with
    | [] => UB
    | v :: rbs =>
        let! vj := sm_skip w v 0 in
        let '(v, j) := vj in
        let v := shl1 v in
        let j := Datatypes.S j in
        let m := m_copy m o i in
        if Nat.leb j w then Ok (sm_blocks rbs (sm_bits (w - j) v m o i) o i) else Diverge
    end.
End Scalar.
(** INT = Vuint, size_t, int (IntTag, zm.h:1345-1381).  For int the value bits are those of
    the 32-bit pattern; the shift of a negative or overflowing int is taken as the shift of
    the pattern (strictly it is undefined before C++20). *)
Definition ScalarMult_v (m : mem) (o i : ptr) (k : vuint) : res mem := ScalarMult 64 m o i (veq k (vset 0)) k.
Definition ScalarMult_size (m : mem) (o i : ptr) (k : Z) : res mem := ScalarMult 64 m o i (k =? 0) [k].
Definition ScalarMult_int (m : mem) (o i : ptr) (k : Z) : res mem := ScalarMult 32 m o i (k =? 0) [k mod 2 ^ 32].

(** EcT *)
(** isZero (bn.h:2911-2914) *)
Definition ec_isZero (m : mem) (o : ptr) : bool := o_isZero O (c3 (m o)).
(** normalize (bn.h:2827-2838) *)
Definition ec_normalize (m : mem) (o : ptr) : res mem :=
  if ec_isZero m o || o_eqb O (c3 (m o)) (o_1 O) then Ok m
  else
    let! r := o_inv O (c3 (m o)) in
    let m := st2 m o (sq r) in
    let m := st0 m o (mul (a3 (m o)) (c3 (m o))) in
    let r := mul r (c3 (m o)) in
    let m := st1 m o (mul (b3 (m o)) r) in
    Ok (st2 m o (o_1 O)).
(** set(x, y, z, verify) (bn.h:2851-2859); [isv]: isValid of the class.  x, y, z are given by
    value (they do not alias the coordinates of the object). *)
Definition ec_set3 (isv : F3 T -> res bool) (m : mem) (o : ptr) (x y z : T) (verify : bool) : res mem :=
  let m := st2 (st1 (st0 m o x) o y) o z in
  if verify then
    let! ok := isv (m o) in
    if ok then Ok m else Throw
  else Ok m.
(** set(x, y, verify) (bn.h:2842-2850) and the constructors (bn.h:2819-2826) *)
Definition ec_set2 (isv : F3 T -> res bool) (m : mem) (o : ptr) (x y : T) (verify : bool) : res mem :=
  ec_set3 isv m o x y (o_1 O) verify.
(** neg (bn.h:2882-2887) *)
Definition ec_neg_m (m : mem) (o i : ptr) : mem :=
  let m := st0 m o (a3 (m i)) in
  let m := st1 m o (o_neg O (b3 (m i))) in
  st2 m o (c3 (m i)).
(** sub (bn.h:2876-2881) *)
Definition ec_sub_m (m : mem) (o a b : ptr) : mem :=
  let m := ec_neg_m m (Loc 1) b in
  ECAdd m o a (Loc 1).
(** operator+, operator-, operator* (bn.h:2893-2894, 2943-2944): the result object Loc 0
    starts with arbitrary contents (those of [m]) *)
Definition ec_plus (m : mem) (a b : ptr) : F3 T := ECAdd m (Loc 0) a b (Loc 0).
Definition ec_minus (m : mem) (a b : ptr) : F3 T := ec_sub_m m (Loc 0) a b (Loc 0).
Definition ec_times (m : mem) (a : ptr) (k : vuint) : res (F3 T) :=
  let! m := ScalarMult_v m (Loc 0) a k in Ok (m (Loc 0)).
(** operator== (bn.h:2895-2905): both operands are normalised in place *)
Definition ec_eq (m : mem) (a b : ptr) : res (bool * mem) :=
  let! m := ec_normalize m a in
  let! m := ec_normalize m b in
  Ok (if ec_isZero m a then ec_isZero m b
      else if ec_isZero m b then false
      else o_eqb O (a3 (m a)) (a3 (m b)) && o_eqb O (b3 (m a)) (b3 (m b)), m).
End Ecop.

(** isOnECJac3 (bn.h:2360-2373); Param::b is an int *)
Definition isOnECJac3 (c : cfg) (b : Z) (P : F3 Z) : res bool :=
  if fp_eqb (c3 P) 0 then Ok true
  else
    let z := fp_sqr c (c3 P) in
    let z := fp_mul c z (c3 P) in
    let z := fp_sqr c z in
    let! fb := fp_setInt c b in
    let z := fp_mul c z fb in
    Ok (fp_eqb (fp_mul c (b3 P) (b3 P)) (fp_add c (fp_mul c (fp_mul c (a3 P) (a3 P)) (a3 P)) z)).
(** isOnECHom3 (bn.h:2391-2403) *)
Definition isOnECHom3 (c : cfg) (b : Z) (P : F3 Z) : res bool :=
  if fp_eqb (c3 P) 0 then Ok true
  else
    let z := fp_sqr c (c3 P) in
    let z := fp_mul c z (c3 P) in
    let! fb := fp_setInt c b in
    let z := fp_mul c z fb in
    Ok (fp_eqb (fp_mul c (fp_mul c (b3 P) (b3 P)) (c3 P)) (fp_add c (fp_mul c (fp_mul c (a3 P) (a3 P)) (a3 P)) z)).
(** isOnECHom2 (bn.h:2379-2385): only P[0], P[1] *)
Definition isOnECHom2 (c : cfg) (b : Z) (x y : Z) : res bool :=
  let! fb := fp_setInt c b in
  Ok (fp_eqb (fp_mul c y y) (fp_add c (fp_mul c (fp_mul c x x) x) fb)).
(** isOnTwistECJac3 (bn.h:2408-2421) *)
Definition isOnTwistECJac3 (c : cfg) (bx : fp2) (P : F3 fp2) : bool :=
  if f2_eqb (c3 P) f2_0 then true
  else
    let z := f2_square c (c3 P) in
    let z := f2_mul c z (c3 P) in
    let z := f2_square c z in
    f2_eqb (f2_mul c (b3 P) (b3 P)) (f2_add c (f2_mul c (f2_mul c (a3 P) (a3 P)) (a3 P)) (f2_mul c bx z)).
(** isOnTwistECHom2 (bn.h:2427-2433) *)
Definition isOnTwistECHom2 (c : cfg) (bx x y : fp2) : bool :=
  f2_eqb (f2_mul c y y) (f2_add c (f2_mul c (f2_mul c x x) x) bx).
(** isOnTwistECHom3 (bn.h:2439-2446) *)
Definition isOnTwistECHom3 (c : cfg) (bx : fp2) (P : F3 fp2) : bool :=
  if f2_eqb (c3 P) f2_0 then true
  else f2_eqb (f2_mul c (f2_mul c (b3 P) (b3 P)) (c3 P))
    (f2_add c (f2_mul c (f2_mul c (a3 P) (a3 P)) (a3 P)) (f2_mul c (f2_mul c (f2_mul c bx (c3 P)) (c3 P)) (c3 P))).
(** EcT<Fp>::isValid, EcT<Fp2>::isValid (bn.h:2977-2987) *)
Definition isValid1 (c : cfg) (P : param) (x : F3 Z) : res bool := isOnECJac3 c (par_b P) x.
Definition isValid2 (c : cfg) (P : param) (x : F3 fp2) : res bool := Ok (isOnTwistECJac3 c (par_binvxi P) x).

(** FrobEndOnTwist_1, _2, _8 (bn.h:2657-2707): affine coordinates.  Q and P are disjoint
    arrays in every call of the library. *)
Definition FrobEnd1 (c : cfg) (P : param) (x y : fp2) : fp2 * fp2 :=
  if snark c then
    let q0 := f2_mul c (mk2 (a2 x) (fp_neg c (b2 x))) (gam P 1) in
    let q1 := f2_mul c (mk2 (a2 y) (fp_neg c (b2 y))) (gam P 2) in
    (q0, q1)
  else
    let q0 := f2_mul_Fp_1 c (mk2 (a2 x) (fp_neg c (b2 x))) (b2 (par_W2p P)) in
    let q1 := f2_mul c (mk2 (a2 y) (fp_neg c (b2 y))) (par_W3p P) in
    (q0, q1).
Definition FrobEnd2 (c : cfg) (P : param) (x y : fp2) : fp2 * fp2 :=
  if snark c then let '(x, y) := FrobEnd1 c P x y in FrobEnd1 c P x y
  else (f2_mul_Fp_0 c x (par_Z P), f2_neg c y).
Definition FrobEnd8 (c : cfg) (P : param) (x y : fp2) : fp2 * fp2 :=
  if snark c then
    let '(x, y) := FrobEnd2 c P x y in
    let '(x, y) := FrobEnd2 c P x y in
    let '(x, y) := FrobEnd2 c P x y in
    FrobEnd2 c P x y
  else (f2_mul_Fp_0 c x (par_Z P), y).
