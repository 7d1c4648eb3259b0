(** bn::ParamT::init (include/bn.h:206-263): everything the pairing code reads.
    The generated arithmetic is selected by [cfg] (build and curve); Fp::setModulo is FpInit.v. *)
From Coq Require Import ZArith List.
From Verif Require Import Base Prim Loop Vuint VDiv Vsint Power Cfg FpM FpApi FpInit TowerSpec TowerM.
Import ListNotations.
Local Open Scope Z_scope.

(** struct CurveParam (bn.h:58-72) and its operator== *)
Record curveParam := mkCurve { cv_z : Z; cv_b : Z; cv_xa : Z; cv_xb : Z }.
Definition curve_eqb (x y : curveParam) : bool :=
  (cv_z x =? cv_z y) && (cv_b x =? cv_b y) && (cv_xa x =? cv_xa y) && (cv_xb x =? cv_xb y).
(** CurveFp254BNb, CurveSNARK1, CurveSNARK2 (bn.h:77-85) *)
Definition curveOf (c : cfg) : curveParam := mkCurve (cz c) (cb c) (cxi_a c) (cxi_b c).
(** [sn]: BN_SUPPORT_SNARK is defined. The test of bn.h:208-216. *)
Definition supported (sn : bool) (k : curveParam) : option cfg :=
  if sn then (if curve_eqb k (curveOf SNARK1) then Some SNARK1
              else if curve_eqb k (curveOf SNARK2) then Some SNARK2 else None)
  else (if curve_eqb k (curveOf BNb) then Some BNb else None).

(** The static members of ParamT (bn.h:181-203) *)
Record param := mkParam {
  par_z : vsint; par_p : vuint; par_r : vuint; par_t : vuint; par_lc : vsint;
  par_b : Z; par_half : Z; par_binvxi : fp2;
  par_g : list fp2; par_g2 : list fp2; par_g3 : list fp2;
  par_W2p : fp2; par_W3p : fp2; par_Z : Z; par_i0 : Z; par_i1 : Z;
  par_si : list Z; par_naf : bool; par_zr : list Z }.

(** eval (bn.h:274-278): U tmp = (((c[4]*x + c[3])*x + c[2])*x + c[1])*x + c[0]; y = tmp.get() *)
Definition s_muladd (a x : vsint) (k : Z) : res vsint :=
  let! m := s_mul a x in let! k := s_of_int k in s_add m k.
Definition p_eval (x : vsint) (c0 c1 c2 c3 c4 : Z) : res vuint :=
  let! k := s_of_int c4 in
  let! t := s_muladd k x c3 in
  let! t := s_muladd t x c2 in
  let! t := s_muladd t x c1 in
  let! t := s_muladd t x c0 in
  Ok (sm t).

(** Fp2(int, int) *)
Definition f2_ofInts (c : cfg) (a b : Z) : res fp2 :=
  let! a := fp_setInt c a in let! b := fp_setInt c b in Ok (mk2 a b).
(** mie::power(Fp2, Vuint) *)
Definition f2_pow (c : cfg) (x : fp2) (y : vuint) : fp2 := power_v (f2_mul c) (f2_1 c) x y.
(** (x - 1) / k for Vuint x *)
Definition pm1_div (x : vuint) (k : Z) : res vuint := let! t := vsub x (vset 1) in vquot t (vset k).

(** gammar[i] = gammar[i - 1] * gammar[0] (bn.h:237-239) *)
Fixpoint gam_fill (c : cfg) (n : nat) (prev g : fp2) : list fp2 :=
  match n with O => [] | S n' => let x := f2_mul c prev g in x :: gam_fill c n' x g end.

Definition paramInit (sn : bool) (k : curveParam) : res param :=
  match supported sn k with
  | None => Exit
  | Some c =>
      let! z := s_set_i64 (cv_z k) in
      let! p := p_eval z 1 6 24 36 36 in
      let! r := p_eval z 1 6 18 36 36 in
      let! t := p_eval z 1 0 6 0 0 in
      let! k6 := s_of_int 6 in
      let! lc := s_muladd k6 z 2 in
      let! tab := setModulo c p in
      let! one := fp_setInt c 1 in
      let! two := fp_setInt c 2 in
      let! h := fp_inv c two in
      let half := fp_mul c h one in
      let! xi := f2_ofInts c (cv_xa k) (cv_xb k) in
      let! bx := f2_inverse c xi in
      let! fb := f2_ofInts c (cv_b k) 0 in
      let bx := f2_mul c bx fb in
      let! e6 := pm1_div p 6 in
      let g0 := f2_pow c xi e6 in
      let g := g0 :: gam_fill c 4 g0 g0 in
      let g2 := map (fun x => f2_mul c (mk2 (a2 x) (fp_neg c (b2 x))) x) g in
      let g3 := map (fun xy => f2_mul c (fst xy) (snd xy)) (combine g g2) in
      let! e3 := pm1_div p 3 in
      let w2 := f2_pow c xi e3 in
      let! e2 := pm1_div p 2 in
      let w3 := f2_pow c xi e2 in
      let! pp := vmul p p in
      let! e := pm1_div pp 6 in
      let temp := f2_pow c xi e in
      let n := fp_neg c (a2 temp) in
      let zz := fp_mul c n n in
      let! i0 := fp_setInt c 0 in
      let! si := getGoodRepl (sm lc) in
      let! zr := (if sn then let! y := getGoodRepl (sm z) in Ok (fst y) else Ok []) in
      Ok (mkParam z p r t lc (cv_b k) half bx g g2 g3 w2 w3 zz i0 one (fst si) (snd si) zr)
  end.

Definition gam (P : param) (i : nat) : fp2 := nth i (par_g P) f2_0.
Definition gam2 (P : param) (i : nat) : fp2 := nth i (par_g2 P) f2_0.
Definition gam3 (P : param) (i : nat) : fp2 := nth i (par_g3 P) f2_0.
