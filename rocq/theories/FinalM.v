(** Frobenius maps, compressed squaring and the final exponentiation
    (include/bn.h:1634-1850, 2126-2345; src/zm2.cpp:2346-2533). *)
From Coq Require Import ZArith List.
From Verif Require Import Base Prim Loop Power Cfg FpM FpApi TowerSpec TowerM ParamM.
Import ListNotations.
Local Open Scope Z_scope.

Section FinalM.
Variable c : cfg.
Variable P : param.

(** The first half of Frobenius and Frobenius3: the six Fp2 components conjugated
    (bn.h:1642-1656, 1697-1708). *)
Definition f2_conj (x : fp2) : fp2 := mk2 (a2 x) (fp_neg c (b2 x)).

(** Fp12::Frobenius (bn.h:1639-1668). *)
Definition f12_frob (x : fp12) : fp12 :=
  let a := f2_conj (a3 (a2 x)) in
  let b := f2_conj (b3 (a2 x)) in
  let cc := f2_conj (c3 (a2 x)) in
  let d := f2_conj (a3 (b2 x)) in
  let e := f2_conj (b3 (b2 x)) in
  let f := f2_conj (c3 (b2 x)) in
  let b := if snark c then f2_mul c b (gam P 1) else f2_mul_Fp_1 c b (b2 (gam P 1)) in
  let cc := if snark c then f2_mul c cc (gam P 3) else f2_mul_Fp_0 c cc (a2 (gam P 3)) in
  mk2 (mk3 a b cc) (mk3 (f2_mul c d (gam P 0)) (f2_mul c e (gam P 2)) (f2_mul c f (gam P 4))).

(** Fp12::Frobenius2 (bn.h:1677-1693). *)
Definition f12_frob2 (x : fp12) : fp12 :=
  mk2 (mk3 (a3 (a2 x)) (f2_mul_Fp_0 c (b3 (a2 x)) (a2 (gam2 P 1))) (f2_mul_Fp_0 c (c3 (a2 x)) (a2 (gam2 P 3))))
      (mk3 (f2_mul_Fp_0 c (a3 (b2 x)) (a2 (gam2 P 0))) (f2_mul_Fp_0 c (b3 (b2 x)) (a2 (gam2 P 2)))
           (f2_mul_Fp_0 c (c3 (b2 x)) (a2 (gam2 P 4)))).

(** Fp12::Frobenius3 (bn.h:1695-1723). *)
Definition f12_frob3 (x : fp12) : fp12 :=
  let a := f2_conj (a3 (a2 x)) in
  let b := f2_conj (b3 (a2 x)) in
  let cc := f2_conj (c3 (a2 x)) in
  let d := f2_conj (a3 (b2 x)) in
  let e := f2_conj (b3 (b2 x)) in
  let f := f2_conj (c3 (b2 x)) in
  let b := if snark c then f2_mul c b (gam3 P 1) else f2_mul_x c b in
  let cc := if snark c then f2_mul c cc (gam3 P 3) else f2_mul_Fp_0 c cc (a2 (gam3 P 3)) in
  mk2 (mk3 a b cc) (mk3 (f2_mul c d (gam3 P 0)) (f2_mul c e (gam3 P 2)) (f2_mul c f (gam3 P 4))).

(** The conjugation Fp6::neg(z.b_, z.b_) used as inversion in the cyclotomic subgroup. *)
Definition f12_conj (x : fp12) : fp12 := mk2 (a2 x) (f6_neg c (b2 x)).

(** Fp12::mapToCyclo (bn.h:1728-1741). *)
Definition f12_mapToCyclo (x : fp12) : res fp12 :=
  let z := f12_conj x in
  let! t := f12_inverse c x in
  let z := f12_mul c z t in
  let t := f12_frob2 z in
  Ok (f12_mul c z t).

(** CompressT (bn.h:2126-2170): references into an Fp12; the four components that the
    constructor copies, in the order g2, g3, g4, g5. *)
Record cmp := mkC { cg2 : fp2; cg3 : fp2; cg4 : fp2; cg5 : fp2 }.
Definition compress (x : fp12) : cmp := mkC (a3 (b2 x)) (c3 (a2 x)) (b3 (a2 x)) (c3 (b2 x)).

(** decompressBeforeInv (bn.h:2178-2199): (nume, denomi). *)
Definition cmp_before (z : cmp) : fp2 * fp2 :=
  if f2_isZero (cg2 z) then
    let nume := f2_add c (cg4 z) (cg4 z) in
    (f2_mul c nume (cg5 z), cg3 z)
  else
    let nume := f2_square c (cg5 z) in
    let denomi := f2_mul_xi c nume in
    let nume := f2_square c (cg4 z) in
    let t := f2_sub c nume (cg3 z) in
    let t := f2_add c t t in
    let t := f2_add c t nume in
    let nume := f2_add c denomi t in
    (f2_divBy4 c nume, cg2 z).
(** decompressAfterInv (bn.h:2202-2216): z_ after g1_ has been set. *)
Definition cmp_after (z : cmp) (g1 : fp2) : fp12 :=
  let t0 := f2_square c g1 in
  let t1 := f2_mul c (cg3 z) (cg4 z) in
  let t0 := f2_sub c t0 t1 in
  let t0 := f2_add c t0 t0 in
  let t0 := f2_sub c t0 t1 in
  let t1 := f2_mul c (cg2 z) (cg5 z) in
  let t0 := f2_add c t0 t1 in
  let g0 := f2_mul_xi c t0 in
  let g0 := mk2 (fp_add c (a2 g0) (par_i1 P)) (b2 g0) in
  mk2 (mk3 g0 (cg4 z) (cg3 z)) (mk3 (cg2 z) g1 (cg5 z)).
(** decompress (bn.h:2219-2226). *)
Definition cmp_decompress (z : cmp) : res fp12 :=
  let '(nume, denomi) := cmp_before z in
  let! d := f2_inverse c denomi in
  Ok (cmp_after z (f2_mul c nume d)).

(** p_Fp2_2z_add_3x (zm2.cpp:2538-2562): z = 2z + 3x. *)
Definition f2_2z_add_3x (z x : fp2) : fp2 := mk2 (fp_2z_add_3x c (a2 z) (a2 x)) (fp_2z_add_3x c (b2 z) (b2 x)).
(** g4 = fast_modp(2 (t0 + p - g4) + t0) (zm2.cpp:2484-2494). *)
Definition fp_3t_sub_2z (t z : Z) : Z :=
  let s := fp_addNC t (pTbl c 1) in
  let s := fp_subNC s z in
  let s := fp_addNC s s in
  let s := fp_addNC s t in
  fp_fast_modp c s.
Definition f2_3t_sub_2zF (t z : fp2) : fp2 := mk2 (fp_3t_sub_2z (a2 t) (a2 z)) (fp_3t_sub_2z (b2 t) (b2 z)).
(** The body of the loop of the generated Compress::square_n (zm2.cpp:2371-2527). *)
Definition cmp_square (z : cmp) : cmp :=
  let g2 := cg2 z in let g3 := cg3 z in let g4 := cg4 z in let g5 := cg5 z in
  let T0 := d2_square c g4 in
  let T1 := d2_square c g5 in
  let T2 := d2_mul_xi c T1 in
  let T2 := d2_add c T2 T0 in
  let t2 := d2_mod c T2 in
  let t0 := f2_add c g4 g5 in
  let T2 := d2_square c t0 in
  let T0 := d2_add c T0 T1 in
  let T2 := d2_sub c T2 T0 in
  let t0 := d2_mod c T2 in
  let t1 := f2_add c g2 g3 in
  let T3 := d2_square c t1 in
  let T2 := d2_square c g2 in
  let t1 := f2_mul_xi c t0 in
  let g2 := f2_2z_add_3x g2 t1 in
  let t1 := f2_sub c t2 g3 in
  let t1 := f2_add c t1 t1 in
  let T1 := d2_square c g3 in
  let g3 := f2_add c t1 t2 in
  let T0 := d2_mul_xi c T1 in
  let T0 := d2_add c T0 T2 in
  let t0 := d2_mod c T0 in
  let g4 := f2_3t_sub_2zF t0 g4 in
  let T2 := d2_addNC T2 T1 in
  let T3 := d2_sub c T3 T2 in
  let t0 := d2_mod c T3 in
  let g5 := f2_2z_add_3x g5 t0 in
  mkC g2 g3 g4 g5.
(** square_n: the count is kept in a 64-bit stack slot, decremented after the body
    (zm2.cpp:2368, 2529-2530). The slot is loaded from the whole 64-bit register that carries
    the int argument; [n] is that register. *)
Definition cmp_square_n (z : cmp) (n : Z) : cmp :=
  let n := n mod B in
  Nat.iter (Z.to_nat (if n =? 0 then B else n)) cmp_square z.

(** The C version squareC, square_nC (bn.h:2228-2303), used before the code generator runs.
    _3z_add_2xC computes 2z + 3x (see FpM.v). *)
Definition f2_3z_add_2x (z x : fp2) : fp2 := mk2 (fp_3z_add_2x c (a2 z) (a2 x)) (fp_3z_add_2x c (b2 z) (b2 x)).
Definition cmp_squareC (z : cmp) : cmp :=
  let g2 := cg2 z in let g3 := cg3 z in let g4 := cg4 z in let g5 := cg5 z in
  let T0 := d2_square c g4 in
  let T1 := d2_square c g5 in
  let T2 := d2_mul_xi c T1 in
  let T2 := d2_add c T2 T0 in
  let t2 := d2_mod c T2 in
  let t0 := f2_add c g4 g5 in
  let T2 := d2_square c t0 in
  let T0 := d2_add c T0 T1 in
  let T2 := d2_sub c T2 T0 in
  let t0 := d2_mod c T2 in
  let t1 := f2_add c g2 g3 in
  let T3 := d2_square c t1 in
  let T2 := d2_square c g2 in
  let t1 := f2_mul_xi c t0 in
  let g2 := f2_3z_add_2x g2 t1 in
  let t1 := f2_sub c t2 g3 in
  let t1 := f2_add c t1 t1 in
  let T1 := d2_square c g3 in
  let g3 := f2_add c t1 t2 in
  let T0 := d2_mul_xi c T1 in
  let T0 := d2_add c T0 T2 in
  let t0 := d2_mod c T0 in
  let g4 := f2_sub c t0 g4 in
  let g4 := f2_add c g4 g4 in
  let g4 := f2_add c g4 t0 in
  let T2 := d2_addNC T2 T1 in
  let T3 := d2_sub c T3 T2 in
  let t0 := d2_mod c T3 in
  let g5 := f2_3z_add_2x g5 t0 in
  mkC g2 g3 g4 g5.
(** int n *)
Definition cmp_square_nC (z : cmp) (n : Z) : cmp := Nat.iter (Z.to_nat n) cmp_squareC z.

(** fixed_power (bn.h:2309-2337): x^(2^62 + 2^55 + 1) with one inversion for both
    decompressions. *)
Definition cmp_fixed_power (x : fp12) : res fp12 :=
  let c55 := compress x in
  let c55 := cmp_square_n c55 55 in
  let '(c55nume, c55denomi) := cmp_before c55 in
  let c62 := c55 in
  let c62 := cmp_square_n c62 (62 - 55) in
  let '(c62nume, c62denomi) := cmp_before c62 in
  let acc := f2_mul c c55denomi c62denomi in
  let! acc := f2_inverse c acc in
  let t := f2_mul c acc c62denomi in
  let z := cmp_after c55 (f2_mul c c55nume t) in
  let t := f2_mul c acc c55denomi in
  let d62 := cmp_after c62 (f2_mul c c62nume t) in
  let z := f12_mul c z x in
  Ok (f12_mul c z d62).

(** pow_neg_t (bn.h:1754-1771, BN_SUPPORT_SNARK) *)
Fixpoint pow_neg_loop (l : list Z) (x xc out : fp12) : fp12 :=
  match l with
  | [] => out
  | d :: l =>
      let out := f12_sqru c out in
      let out := if 0 <? d then f12_mul c out x else if d <? 0 then f12_mul c out xc else out in
      pow_neg_loop l x xc out
  end.
Definition f12_pow_neg_t (x : fp12) : fp12 := f12_conj (pow_neg_loop (tl (par_zr P)) x (f12_conj x) x).

(** Fp12::final_exp (bn.h:1774-1849). Both branches of the #ifdef are the same sequence around
    pow_neg_t (BN_SUPPORT_SNARK) or Compress::fixed_power. *)
Definition f12_powz (x : fp12) : res fp12 :=
  if snark c then Ok (f12_pow_neg_t x) else cmp_fixed_power x.
Definition f12_final_exp (x : fp12) : res fp12 :=
  let! f := f12_mapToCyclo x in
  let! f2z := f12_powz f in
  let f2z := f12_sqru c f2z in
  let f6z := f12_sqru c f2z in
  let f6z := f12_mul c f6z f2z in
  let! f6z2 := f12_powz f6z in
  let a := f12_sqru c f6z2 in
  let! f12z3 := f12_powz a in
  let f6z := f12_conj f6z in
  let f12z3 := f12_conj f12z3 in
  let a := f12_mul c f12z3 f6z2 in
  let a := f12_mul c a f6z in
  let b := f12_mul c a f2z in
  let z := f12_mul c a f6z2 in
  let z := f12_mul c z f in
  let f2z := f12_frob b in
  let z := f12_mul c z f2z in
  let f2z := f12_frob2 a in
  let z := f12_mul c z f2z in
  let f := f12_conj f in
  let b := f12_mul c b f in
  let f2z := f12_frob3 b in
  Ok (f12_mul c z f2z).
End FinalM.
