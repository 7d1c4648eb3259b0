(** Scalars of type mpz_class (builds with MIE_ATE_USE_GMP: include/bn.h:16-52, include/zm2.h:283-296)
    and the Java interface (java/bn254_if.hpp), which is built that way.

    GMP itself is not modelled: an mpz_class is the integer it holds.  What the code sees of the
    representation is the sign-magnitude form documented for mpz_t: |x| in base 2^64 without leading
    zeros, at _mp_d; _mp_size, an int, is their number, negative when x is. *)
From Coq Require Import ZArith List Bool.
From Verif Require Import Base Prim Loop Vuint VuintProofs Power FpSpec Cfg FpM FpApi TowerSpec TowerM ParamM FinalM EcM PairM.
Import ListNotations.
Local Open Scope Z_scope.

Definition mpz_len (x : Z) : nat := if x =? 0 then 0%nat else S (Z.to_nat (Z.log2 (Z.abs x) / 64)).
Definition mpz_limbs (x : Z) : list Z := to_limbs (mpz_len x) (Z.abs x).
Definition mpz_size (x : Z) : Z := if x <? 0 then - Z.of_nat (mpz_len x) else Z.of_nat (mpz_len x).
(** the numbers GMP can hold: _mp_size is an int *)
Definition mpz_ok (x : Z) : Prop := Z.of_nat (mpz_len x) < 2 ^ 31.
(** M_blockSize (bn.h:25-28): _mp_size converted to size_t *)
Definition M_blockSize (x : Z) : Z := mpz_size x mod 2 ^ 64.
(** M_block (bn.h:29-32): _mp_d[i].  A limb that is not one of the number has no specified content
    (between the size and the allocation) or does not exist: both are [UB] here. *)
Definition M_block (x i : Z) : res Z :=
  if (0 <=? i) && (i <? Z.of_nat (mpz_len x)) then Ok (nth (Z.to_nat i) (mpz_limbs x) 0) else UB.

(** power(x, y) with y an mpz_class (zm.h:1387-1412 with IntTag<mpz_class>, bn.h:38-50).  The loop ends
    or reads a limb that does not exist after at most mpz_len y + 1 rounds. *)
Section PowZ.
Context {T : Type} (mul : T -> T -> T) (one : T).
Fixpoint pow_z (fuel : nat) (y i n : Z) (t out : T) : res T :=
  match fuel with
  | O => Diverge
  | S f =>
      if i <? n then
        let! v := M_block y i in
        let m := if i =? n - 1 then top_bits 64 v else 64%nat in
        let '(t, out) := pow_loop mul m v 0 t out in
        pow_z f y (i + 1) n t out
      else Ok out
  end.
Definition power_z (x : T) (y : Z) : res T := pow_z (S (S (mpz_len y))) y 0 (M_blockSize y) x one.
End PowZ.

(** ScalarMult with INT = mpz_class (bn.h:2589-2645): mSize is the block size converted back to int,
    and the first access is to block mSize - 1 *)
Definition ScalarMult_z (O : fops) (m : mem O) (o i : ptr) (k : Z) : res (mem O) :=
  if k =? 0 then ScalarMult O 64 m o i true []
  else
    let mSize := mpz_size k in
    let! _ := M_block k (mSize - 1) in
    ScalarMult O 64 m o i false (mpz_limbs k).

(** Fp::toMpz, Fp::fromMpz (zm2.h:284-296): the contents of v_[4].  mpz_export writes all limbs of |x|
    wherever they go: more than four run over the array. *)
Definition fp_toMpz (x : Z) : Z := x.
Definition fp_fromMpz (x : Z) : res Z := if (mpz_len x <=? 4)%nat then Ok (Z.abs x) else UB.

(** ** The Java classes (java/bn254_if.hpp) *)
(** Mpz::add, sub, mul (bn254_if.hpp:50-52) *)
Definition jz_add (x y : Z) : Z := x + y.
Definition jz_sub (x y : Z) : Z := x - y.
Definition jz_mul (x y : Z) : Z := x * y.
(** Mpz::mod (bn254_if.hpp:53): %= of mpz_class is the remainder of the truncated quotient; a zero
    divisor raises SIGFPE *)
Definition jz_mod (x y : Z) : res Z := if y =? 0 then Exit else Ok (Z.rem x y).
(** Mpz::equals (bn254_if.hpp:48) *)
Definition jz_equals (x y : Z) : bool := x =? y.
(** GetParamR (bn254_if.hpp:250-254) *)
Definition GetParamR : Z := 16798108731015832284940804142231733909759579603404752749028378864165570215949.
(** Fp::power, Fp2::power, Fp12::power (bn254_if.hpp:81-84, 117-120, 145-148) *)
Definition jfp_power (c : cfg) (x k : Z) : res Z := power_z (fp_mul c) (fp_1 c) x k.
Definition jfp2_power (c : cfg) (x : fp2) (k : Z) : res fp2 := power_z (f2_mul c) (f2_1 c) x k.
Definition jfp12_power (c : cfg) (x : fp12) (k : Z) : res fp12 := power_z (f12_mul c) (f12_1 c) x k.

(** Calls on Java objects of one of the point classes.  Every method works on the receiver [o]
    (bn254_if.hpp:151-196, 198-243); the other argument may be the same object.  Outcomes: the exception
    of set is caught by the caller, who keeps the object. *)
Inductive jcall (T : Type) :=
| JCopy (o a : nat)          (* new Ec1(a) *)
| JSet (o : nat) (x y : T)   (* o.set(x, y) *)
| JClear (o : nat) | JDbl (o : nat) | JNeg (o : nat)
| JAdd (o a : nat) | JSub (o a : nat) | JMul (o : nat) (k : Z)
| JEquals (o a : nat).
Arguments JCopy {T}. Arguments JSet {T}. Arguments JClear {T}. Arguments JDbl {T}. Arguments JNeg {T}.
Arguments JAdd {T}. Arguments JSub {T}. Arguments JMul {T}. Arguments JEquals {T}.
(** set(x, y) with verification (bn.h:2842-2850): the coordinates are stored before they
    are checked.  [x], [y] are given by value: they are not references obtained by getX, getY of [o]. *)
Definition j_set (O : fops) (isv : F3 (fT O) -> res bool) (m : mem O) (o : ptr) (x y : fT O) : res (bool * mem O) :=
  let m := st2 O (st1 O (st0 O m o x) o y) o (o_1 O) in
  let! ok := isv (m o) in Ok (ok, m).
Definition jrun1 (O : fops) (isv : F3 (fT O) -> res bool) (i : jcall (fT O)) (m : mem O) : res (mem O) :=
  match i with
  | JCopy o a => Ok (m_copy O m (Obj o) (Obj a))
  | JSet o x y => let! r := j_set O isv m (Obj o) x y in Ok (snd r)
  | JClear o => Ok (m_clear O m (Obj o))
  | JDbl o => Ok (ECDouble O m (Obj o) (Obj o))
  | JNeg o => Ok (ec_neg_m O m (Obj o) (Obj o))
  | JAdd o a => Ok (ECAdd O m (Obj o) (Obj o) (Obj a))
  | JSub o a => Ok (ec_sub_m O m (Obj o) (Obj o) (Obj a))
  | JMul o k => ScalarMult_z O m (Obj o) (Obj o) k
  | JEquals o a => let! r := ec_eq O m (Obj o) (Obj a) in Ok (snd r)
  end.
Fixpoint jruns (O : fops) isv (l : list (jcall (fT O))) (m : mem O) : res (mem O) :=
  match l with [] => Ok m | i :: l => let! m := jrun1 O isv i m in jruns O isv l m end.
(** Fp12::pairing (bn254_if.hpp:245-248) *)
Definition j_pairing := opt_ateEc.
