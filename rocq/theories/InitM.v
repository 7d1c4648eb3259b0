(** Repeated initialisation: bn::Param::init called several times in one process.
    Fp::setModulo runs once (the local static of src/zm2.cpp:3608-3610): the field tables and
    the generated code stay those of the first call; the members of ParamT are assigned by
    every call (include/bn.h:206-263). *)
From Coq Require Import ZArith List.
From Verif Require Import Base Prim Loop Vuint VDiv Vsint Power Cfg FpM FpApi FpInit TowerSpec TowerM ParamM.
Import ListNotations.
Local Open Scope Z_scope.

(** The state: the tables, and the curve whose b the generator read (zm2.cpp:3074); then ParamT. *)
Record lib := mkLib { lib_gen : option (cfg * fptab); lib_par : option param }.
(** Before the first call. *)
Definition lib0 : lib := mkLib None None.

(** ParamT::init after the test, when setModulo returns at once (bn.h:217-263).
    [g]: the curve the code was generated for. *)
Definition paramAgain (sn : bool) (g : cfg) (k : curveParam) : res param :=
  let! z := s_set_i64 (cv_z k) in
  let! p := p_eval z 1 6 24 36 36 in
  let! r := p_eval z 1 6 18 36 36 in
  let! t := p_eval z 1 0 6 0 0 in
  let! k6 := s_of_int 6 in
  let! lc := s_muladd k6 z 2 in
  let! one := fp_setInt g 1 in
  let! two := fp_setInt g 2 in
  let! h := fp_inv g two in
  let half := fp_mul g h one in
  let! xi := f2_ofInts g (cv_xa k) (cv_xb k) in
  let! bx := f2_inverse g xi in
  let! fb := f2_ofInts g (cv_b k) 0 in
  let bx := f2_mul g bx fb in
  let! e6 := pm1_div p 6 in
  let g0 := f2_pow g xi e6 in
  let gm := g0 :: gam_fill g 4 g0 g0 in
  let g2 := map (fun x => f2_mul g (mk2 (a2 x) (fp_neg g (b2 x))) x) gm in
  let g3 := map (fun xy => f2_mul g (fst xy) (snd xy)) (combine gm g2) in
  let! e3 := pm1_div p 3 in
  let w2 := f2_pow g xi e3 in
  let! e2 := pm1_div p 2 in
  let w3 := f2_pow g xi e2 in
  let! pp := vmul p p in
  let! e := pm1_div pp 6 in
  let temp := f2_pow g xi e in
  let n := fp_neg g (a2 temp) in
  let zz := fp_mul g n n in
  let! i0 := fp_setInt g 0 in
  let! si := getGoodRepl (sm lc) in
  let! zr := (if sn then let! y := getGoodRepl (sm z) in Ok (fst y) else Ok []) in
  Ok (mkParam z p r t lc (cv_b k) half bx gm g2 g3 w2 w3 zz i0 one (fst si) (snd si) zr).

(** ParamT::init (bn.h:206-263).  [sn]: BN_SUPPORT_SNARK is defined. *)
Definition init (sn : bool) (st : lib) (k : curveParam) : res lib :=
  match supported sn k with
  | None => Exit
  | Some c =>
      match lib_gen st with
      | None =>
          let! P := paramInit sn k in
          let! t := setModulo c (par_p P) in
          Ok (mkLib (Some (c, t)) (Some P))
      | Some (g, t) =>
          let! P := paramAgain sn g k in
          Ok (mkLib (Some (g, t)) (Some P))
      end
  end.
(** Successive calls. *)
Fixpoint inits (sn : bool) (st : lib) (ks : list curveParam) : res lib :=
  match ks with
  | [] => Ok st
  | k :: ks => let! st := init sn st k in inits sn st ks
  end.
