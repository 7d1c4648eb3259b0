(** Fp::setModulo (src/zm2.cpp:3592-3690) and Fp::setTablesForDiv (3576-3590): the constants
    and tables that the field arithmetic reads, computed with Vuint and ZmZ arithmetic.
    Not modelled here: code generation (code.init), memory protection, the static flag
    (see Init.v for repeated initialisation). *)
From Coq Require Import ZArith List.
From Verif Require Import Base Prim Loop Vuint VDiv VuintProofs ZmZ Cfg FpM FpApi.
Import ListNotations.
Local Open Scope Z_scope.

Record fptab := {
  t_p : vuint;          (** p_ *)
  t_pp : Z;             (** pp_mont *)
  t_pN : vuint;         (** pN *)
  t_p14 : vuint;        (** p_add1_div4_ *)
  t_R : vuint;          (** montgomeryR_ *)
  t_R2 : Z;             (** montgomeryR2_ *)
  t_pTbl : list Z;      (** s_pTbl, 10 entries *)
  t_pNTbl : list Z;     (** Dbl::pNTbl_, 4 entries *)
  t_half : list Z;      (** halfTbl_ *)
  t_quarter : list Z;   (** quarterTbl_ *)
  t_inv : list Z        (** invTbl_, 512 entries *)
}.

(** a for loop that fills a table with the results of [f] *)
Fixpoint mapR {A} (f : Z -> res A) (l : list Z) : res (list A) :=
  match l with
  | [] => Ok []
  | i :: l' => let! a := f i in let! r := mapR f l' in Ok (a :: r)
  end.

(** for (i = 0; i < 512; i++) { invTbl_[511 - i] = t; t += t; } (zm2.cpp:3682-3687):
    the table is filled from the end. *)
Fixpoint fill_inv (c : cfg) (n : nat) (t : Z) (acc : list Z) : list Z :=
  match n with
  | O => acc
  | S n' => fill_inv c n' (fp_add c t t) (t :: acc)
  end.

(** q = x / y, r = x % y with a non-zero divisor *)
Definition vquot (x y : vuint) : res vuint :=
  let! o := vdiv x y in match o with Some (q, _) => Ok q | None => Ok (vset 0) end.
Definition vrem (x y : vuint) : res vuint :=
  let! o := vmod x y in match o with Some r => Ok r | None => Ok (vset 0) end.

(** [c] is the build: it selects the generated Fp::add and Fp::mul used for invTbl_. *)
Definition setModulo (c : cfg) (p : vuint) : res fptab :=
  if negb (Nat.eqb (length p) 4) then Exit else
  let! m64 := vshl (vset 1) 64 in
  let! t := zmod m64 p in                    (* ZN t(p) *)
  let! t := zneg m64 t in                    (* t = -t *)
  let! t := zinv m64 t in                    (* t.inverse() *)
  let pp := nth 0 t 0 in
  let! pN := vshl p 256 in
  let! p1 := vadd p (vset 1) in
  let! p14 := vquot p1 (vset 4) in
  let! w := vshl (vset 1) 256 in
  let! R := vrem w p in
  let! R2 := (let! r := zmod p R in zmul p r r) in
  let! pTbl := mapR (fun i => let! v := vmul p (vset i) in Ok (setDirect4 v)) [0;1;2;3;4;5;6;7;8;9] in
  let! pNTbl := mapR (fun h => let! v := vshr pN h in Ok (setDirect8 v)) [0;1;2;3] in
  let! half := (let! v := vshr p1 1 in Ok [0; setDirect4 v]) in
  let! q := vshr p1 2 in
  let! quarter := (let! q2 := vmul q (vset 2) in let! q3 := vmul q (vset 3) in
                   Ok [0; setDirect4 q; setDirect4 q2; setDirect4 q3]) in
  let! two := fp_setInt c 2 in
  Ok {| t_p := p; t_pp := pp; t_pN := pN; t_p14 := p14; t_R := R; t_R2 := setDirect4 R2;
        t_pTbl := pTbl; t_pNTbl := pNTbl; t_half := half; t_quarter := quarter;
        t_inv := fill_inv c 512 two [] |}.
