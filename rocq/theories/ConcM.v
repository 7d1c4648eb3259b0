(** Concurrent use of const member functions of bn::EcT (include/bn.h:2815-2946).

    EcT::p is mutable and normalize() const writes to it, so == and printing write to their
    const operands.  A running call is a program of type [prog]: reads and writes of single
    coordinates with the computation between them folded into the continuation.
    Simplification: the read or write of one coordinate (an Fp or Fp2) is taken as atomic and
    memory is sequentially consistent.  Real executions have more behaviours than that (a C++
    data race is undefined behaviour); an execution without any write has the same ones. *)
From Coq Require Import ZArith List Bool.
From Verif Require Import Base Cfg FpM FpApi TowerM TowerSpec ParamM EcM.
Import ListNotations.
Local Open Scope Z_scope.

Inductive coord := CX | CY | CZ.

Section Prog.
Variable O : fops.
Notation T := (fT O).
(** what a call returns: nothing, a bool, or the data operator<< prints *)
Inductive rslt := RUnit | RBool (b : bool) | RText (zero : bool) (x y : T).
Inductive prog :=
| PDone (rs : list rslt)
| PFail                       (* the inversion failed (see C19: it does not) *)
| PRd (o : ptr) (i : coord) (k : T -> prog)
| PWr (o : ptr) (i : coord) (v : T) (k : prog).

Definition getc (P : F3 T) (i : coord) : T := match i with CX => a3 P | CY => b3 P | CZ => c3 P end.
Definition setc (m : mem O) (o : ptr) (i : coord) (v : T) : mem O :=
  match i with CX => st0 O m o v | CY => st1 O m o v | CZ => st2 O m o v end.

(** normalize (bn.h:2827-2838) *)
Definition c_normalize (o : ptr) (k : prog) : prog :=
  PRd o CZ (fun z => if o_isZero O z then k else
  PRd o CZ (fun z => if o_eqb O z (o_1 O) then k else
  PRd o CZ (fun r =>
  match o_inv O r with
  | Ok r =>
    PWr o CZ (o_sq O r) (
    PRd o CX (fun x => PRd o CZ (fun z => PWr o CX (o_mul O x z) (
    PRd o CZ (fun z => let r := o_mul O r z in
    PRd o CY (fun y => PWr o CY (o_mul O y r) (
    PWr o CZ (o_1 O) k)))))))
  | _ => PFail
  end))).
(** isZero (bn.h:2911-2914) *)
Definition c_isZero (o : ptr) (k : bool -> prog) : prog := PRd o CZ (fun z => k (o_isZero O z)).
(** operator== (bn.h:2895-2905) *)
Definition c_eq (a b : ptr) (k : bool -> prog) : prog :=
  c_normalize a (c_normalize b (
  c_isZero a (fun za => if za then c_isZero b (fun zb => k zb) else
  c_isZero b (fun zb => if zb then k false else
  PRd a CX (fun xa => PRd b CX (fun xb => if negb (o_eqb O xa xb) then k false else
  PRd a CY (fun ya => PRd b CY (fun yb => k (o_eqb O ya yb))))))))).
(** operator<< (bn.h:2915-2923) *)
Definition c_print (o : ptr) (k : rslt -> prog) : prog :=
  c_isZero o (fun z => if z then k (RText true (o_0 O) (o_0 O)) else
  c_normalize o (PRd o CX (fun x => PRd o CY (fun y => k (RText false x y))))).
(** isValid (bn.h:2360-2373, 2408-2421, 2977-2987): P[2] is read for the test against 0 and
    twice more, then P[1] twice and P[0] three times; [fin] is the rest of the computation.
    Simplification: C++ does not fix the order of the reads inside one expression. *)
Definition c_valid (fin : T -> T -> T -> T -> T -> T -> T -> res bool) (o : ptr) (k : bool -> prog) : prog :=
  PRd o CZ (fun z => if o_eqb O z (o_0 O) then k true else
  PRd o CZ (fun z1 => PRd o CZ (fun z2 => PRd o CY (fun y1 => PRd o CY (fun y2 =>
  PRd o CX (fun x1 => PRd o CX (fun x2 => PRd o CX (fun x3 =>
  match fin z1 z2 y1 y2 x1 x2 x3 with Ok b => k b | _ => PFail end)))))))).

(** A thread calls const functions one after the other. *)
Inductive cop := CEq (a b : ptr) | CPrint (o : ptr) | CIsZero (o : ptr) | CValid (o : ptr) | CNorm (o : ptr).
Variable fin : T -> T -> T -> T -> T -> T -> T -> res bool.
Fixpoint thread (l : list cop) (done : list rslt) : prog :=
  match l with
  | [] => PDone done
  | CEq a b :: l => c_eq a b (fun r => thread l (done ++ [RBool r]))
  | CPrint o :: l => c_print o (fun r => thread l (done ++ [r]))
  | CIsZero o :: l => c_isZero o (fun r => thread l (done ++ [RBool r]))
  | CValid o :: l => c_valid fin o (fun r => thread l (done ++ [RBool r]))
  | CNorm o :: l => c_normalize o (thread l (done ++ [RUnit]))
  end.

(** A program running alone. *)
Fixpoint prun (p : prog) (m : mem O) : res (list rslt * mem O) :=
  match p with
  | PDone rs => Ok (rs, m)
  | PFail => UB
  | PRd o i k => prun (k (getc (m o) i)) m
  | PWr o i v k => prun k (setc m o i v)
  end.

(** Interleaving: one memory access of one thread. *)
Definition pstep (p : prog) (m : mem O) : option (prog * mem O) :=
  match p with
  | PRd o i k => Some (k (getc (m o) i), m)
  | PWr o i v k => Some (k, setc m o i v)
  | _ => None
  end.
Inductive cstep : list prog * mem O -> list prog * mem O -> Prop :=
| CStep l1 p l2 m p' m' : pstep p m = Some (p', m') -> cstep (l1 ++ p :: l2, m) (l1 ++ p' :: l2, m').
Inductive csteps : list prog * mem O -> list prog * mem O -> Prop :=
| CRefl s : csteps s s
| CTrans s1 s2 s3 : csteps s1 s2 -> cstep s2 s3 -> csteps s1 s3.

(** Execution of a given schedule (used for the counterexamples). *)
Fixpoint nthstep (n : nat) (l : list prog) (m : mem O) : option (list prog * mem O) :=
  match n, l with
  | Datatypes.O, p :: l => match pstep p m with Some (p', m') => Some (p' :: l, m') | None => None end
  | Datatypes.S n, p :: l => match nthstep n l m with Some (l', m') => Some (p :: l', m') | None => None end
  | _, [] => None
  end.
Fixpoint schedule (s : list nat) (st : list prog * mem O) : option (list prog * mem O) :=
  match s with
  | [] => Some st
  | i :: s => match nthstep i (fst st) (snd st) with Some st' => schedule s st' | None => None end
  end.
End Prog.
Arguments PDone {O}. Arguments RBool {O}. Arguments RUnit {O}. Arguments RText {O}.

(** isOnECJac3 (bn.h:2360-2373), every read of the array separate *)
Definition fin1 (c : cfg) (b : Z) (z1 z2 y1 y2 x1 x2 x3 : Z) : res bool :=
  let z := fp_sqr c z1 in
  let z := fp_mul c z z2 in
  let z := fp_sqr c z in
  let! fb := fp_setInt c b in
  let z := fp_mul c z fb in
  Ok (fp_eqb (fp_mul c y1 y2) (fp_add c (fp_mul c (fp_mul c x1 x2) x3) z)).
(** isOnTwistECJac3 (bn.h:2408-2421), every read of the array separate *)
Definition fin2 (c : cfg) (bx : fp2) (z1 z2 y1 y2 x1 x2 x3 : fp2) : res bool :=
  let z := f2_square c z1 in
  let z := f2_mul c z z2 in
  let z := f2_square c z in
  Ok (f2_eqb (f2_mul c y1 y2) (f2_add c (f2_mul c (f2_mul c x1 x2) x3) (f2_mul c bx z))).
