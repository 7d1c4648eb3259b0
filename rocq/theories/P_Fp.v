(** Properties of the prime field Fp and its double-width companion: C15 - C24.

    Reading guide.  An Fp object is its 256-bit content x.  [can c x]: 0 <= x < p, the
    contents the API produces.  [fv c x]: the residue x / 2^256 (mod p) that the object
    stands for, an element of the specification field [Fp p] (FpSpec.v), whose elements are
    the residues [mk p n] of integers n with the obvious operations.  [dv c x]: the
    residue x / 2^512 that a Dbl object stands for.  All statements hold for the three
    supported curves c. *)
From Coq Require Import ZArith Znumtheory List.
From Verif Require Import Base Prim Loop Vuint VuintProofs StrSpec Power FpSpec Cfg FpM FpProofs FpInvProofs FpApi FpApiProofs
  FpInit FpInitProofs FpCProofs FpWit.
Import ListNotations.
Local Open Scope Z_scope.

(** The specification really is the field of integers modulo a prime. *)
Theorem C48_p_r_prime c : prime (cp c) /\ prime (cr c).
Proof. exact (conj (cp_prime c) (cr_prime c)). Qed.

(** C15 *)
Theorem C15_from_int c n : - 2 ^ 31 < n < 2 ^ 31 ->
  exists x, fp_setInt c n = Ok x /\ can c x /\ fv c x = mk (cp c) n.
Proof. exact (fp_setInt_ok c n). Qed.
Theorem C15_from_integer c v : vwf v -> (length v <= 5)%nat ->
  exists x, fp_setV c v = Ok x /\ can c x /\ fv c x = mk (cp c) (lv v).
Proof. exact (fp_setV_ok c v). Qed.
(** integers of more than 320 bits make the process exit *)
Theorem C15_from_large_integer_exits c v : (6 <= length v)%nat -> fp_setV c v = Exit.
Proof. exact (fp_setV_exit c v). Qed.
Theorem C15_get_of_set c v : vwf v -> lv v < cp c ->
  exists x, fp_setV c v = Ok x /\ can c x /\ fp_get c x = Ok v.
Proof. exact (fp_getset c v). Qed.
Theorem C15_get c x : can c x ->
  exists v, fp_get c x = Ok v /\ vwf v /\ lv v = zv (fv c x) /\ (length v <= 4)%nat.
Proof. exact (fp_get_ok c x). Qed.
Theorem C15_set_of_get c x : can c x -> exists v, fp_get c x = Ok v /\ fp_setV c v = Ok x.
Proof. exact (fp_setget c x). Qed.
(** == on the contents decides equality of residues; every residue has a content *)
Theorem C15_unique c x y : can c x -> can c y -> (fp_eqb x y = true <-> fv c x = fv c y).
Proof. exact (fp_eqb_ok c x y). Qed.
Theorem C15_onto c (a : Fp (cp c)) : exists x, can c x /\ fv c x = a.
Proof. exact (fv_surj c a). Qed.
Theorem C15_low_bits c x : can c x ->
  fp_getLow c x = zv (fv c x) mod 2 ^ 64 /\ fp_isOdd c x = Z.odd (zv (fv c x)).
Proof. exact (fp_getLow_ok c x). Qed.
Example C15_nonvacuous c : vwf (vOf (2 ^ 300 + 1)) /\ (length (vOf (2 ^ 300 + 1)) <= 5)%nat /\ can c (2 ^ 252 + 5).
Proof. exact (set_ex c). Qed.

(** C16 *)
Theorem C16_add c x y : can c x -> can c y ->
  can c (fp_add c x y) /\ fv c (fp_add c x y) = fadd (fv c x) (fv c y).
Proof. exact (fp_add_ok c x y). Qed.
Theorem C16_sub c x y : can c x -> can c y ->
  can c (fp_sub c x y) /\ fv c (fp_sub c x y) = fsub (fv c x) (fv c y).
Proof. exact (fp_sub_ok c x y). Qed.
Theorem C16_neg c x : can c x -> can c (fp_neg c x) /\ fv c (fp_neg c x) = fopp (fv c x).
Proof. exact (fp_neg_ok c x). Qed.
Example C16_nonvacuous c : can c (2 ^ 252 + 5) /\ can c (2 ^ 251 + 7) /\ fv c (2 ^ 252 + 5) <> f0 /\
  fv c (2 ^ 252 + 5) <> fv c (2 ^ 251 + 7).
Proof. exact (can_ex c). Qed.

(** C17: reduced operands, and more generally any operands with x * y < p * 2^256 for which
    the accumulator does not overflow. *)
Theorem C17_mul c x y : can c x -> can c y ->
  can c (fp_mul c x y) /\ fv c (fp_mul c x y) = fmul (fv c x) (fv c y).
Proof. exact (fp_mul_ok c x y). Qed.
Theorem C17_mul_unreduced c x y : 0 <= x < W -> 0 <= y < W -> x + cp c < W -> x * y < cp c * W ->
  can c (fp_mul c x y) /\ fv c (fp_mul c x y) = fmul (fv c x) (fv c y).
Proof. exact (fp_mul_gen c x y). Qed.

(** C18 *)
Theorem C18_mul_exact c x y : dbl_mul x y = x * y /\ dv c (dbl_mul x y) = fmul (fv c x) (fv c y).
Proof. exact (conj eq_refl (dv_mul c x y)). Qed.
Theorem C18_mod c x : 0 <= x < cp c * W -> can c (dbl_mod c x) /\ fv c (dbl_mod c x) = dv c x.
Proof. exact (dbl_mod_ok c x). Qed.
Theorem C18_add c x y : 0 <= x < cp c * W -> 0 <= y < cp c * W ->
  0 <= dbl_add c x y < cp c * W /\ dv c (dbl_add c x y) = fadd (dv c x) (dv c y).
Proof. exact (dbl_add_ok c x y). Qed.
Theorem C18_sub c x y : 0 <= x < cp c * W -> 0 <= y < cp c * W ->
  0 <= dbl_sub c x y < cp c * W /\ dv c (dbl_sub c x y) = fsub (dv c x) (dv c y).
Proof. exact (dbl_sub_ok c x y). Qed.
Theorem C18_addNC c x y : 0 <= x + y < W * W -> dbl_addNC x y = x + y /\ dv c (dbl_addNC x y) = fadd (dv c x) (dv c y).
Proof. exact (dbl_addNC_ok c x y). Qed.
Theorem C18_subNC c x y : 0 <= x - y < W * W -> dbl_subNC x y = x - y /\ dv c (dbl_subNC x y) = fsub (dv c x) (dv c y).
Proof. exact (dbl_subNC_ok c x y). Qed.
(** neg keeps the residue, but neg(0) is p * 2^256, outside the range the other functions
    accept: the test for zero in the generated code examines a pointer. *)
Theorem C18_neg c x : 0 <= x < cp c * W ->
  0 <= dbl_neg c x <= cp c * W /\ dv c (dbl_neg c x) = fopp (dv c x).
Proof. exact (dbl_neg_ok c x). Qed.
Theorem C18_neg_range_refuted c : dbl_neg c 0 = cp c * W.
Proof. exact (proj1 (proj2 (FpDbl_neg_0 c))). Qed.

(** C19 *)
Theorem C19_inv c x : can c x -> exists y, fp_inv c x = Ok y /\ can c y /\ fv c y = finv (fv c x).
Proof. exact (fp_inv_ok c x). Qed.
Theorem C19_inv_product c x : can c x -> x <> 0 ->
  exists y, fp_inv c x = Ok y /\ can c y /\ fmul (fv c x) (fv c y) = f1.
Proof. exact (fp_inv_nz' c x). Qed.
Theorem C19_inv_zero c : fp_inv c 0 = Ok 0.
Proof. exact (fp_inv_0 c). Qed.

(** C20 *)
Theorem C20_divBy2 c x : can c x ->
  can c (fp_divBy2 c x) /\ fadd (fv c (fp_divBy2 c x)) (fv c (fp_divBy2 c x)) = fv c x.
Proof. exact (fp_divBy2_ok c x). Qed.
Theorem C20_divBy4 c x : can c x ->
  can c (fp_divBy4 c x) /\ fmul (mk (cp c) 4) (fv c (fp_divBy4 c x)) = fv c x.
Proof. exact (fp_divBy4_ok c x). Qed.

(** C21: holds for the default curve ... *)
Theorem C21_fast_modp_BNb z : 0 <= z <= 6 * cp BNb ->
  can BNb (fp_fast_modp BNb z) /\ fv BNb (fp_fast_modp BNb z) = fv BNb z.
Proof. exact (fast_modp_BNb z). Qed.
Theorem C21_2z_add_3x_BNb z x : can BNb z -> can BNb x ->
  can BNb (fp_2z_add_3x BNb z x) /\
  fv BNb (fp_2z_add_3x BNb z x) = fadd (fmul (mk (cp BNb) 2) (fv BNb z)) (fmul (mk (cp BNb) 3) (fv BNb x)).
Proof. exact (fp_2z_add_3x_BNb z x). Qed.
(** _3z_add_2xC computes 2z + 3x as well (its comment says 3z + 2x). *)
Theorem C21_3z_add_2x_BNb z x : can BNb z -> can BNb x ->
  can BNb (fp_3z_add_2x BNb z x) /\
  fv BNb (fp_3z_add_2x BNb z x) = fadd (fmul (mk (cp BNb) 2) (fv BNb z)) (fmul (mk (cp BNb) 3) (fv BNb x)).
Proof. exact (fp_3z_add_2x_BNb z x). Qed.
(** ... and fails for the SNARK curves, also on values 2z + 3x with z and x reduced. *)
Theorem C21_fast_modp_snark_refuted :
  0 <= badz <= 5 * cp SNARK1 /\ ~ can SNARK1 (fp_fast_modp SNARK1 badz) /\
  fp_fast_modp SNARK1 badz mod cp SNARK1 <> badz mod cp SNARK1.
Proof. exact fast_modp_snark. Qed.
Theorem C21_2z_add_3x_snark_refuted : exists z x, can SNARK1 z /\ can SNARK1 x /\ 2 * z + 3 * x = badz /\
  ~ can SNARK1 (fp_2z_add_3x SNARK1 z x).
Proof. exact fast_modp_snark_reach. Qed.

(** C22 *)
Theorem C22_sqrt_sound c x y : can c x -> fp_sqrt c x = Some y -> can c y /\ fmul (fv c y) (fv c y) = fv c x.
Proof. exact (fp_sqrt_some c x y). Qed.
Theorem C22_sqrt_complete c x : can c x -> (fp_sqrt c x = None <-> forall b, fmul b b <> fv c x).
Proof. exact (fp_sqrt_none c x). Qed.
Example C22_nonvacuous c : exists x y z, can c x /\ can c z /\ fp_sqrt c x = Some y /\ fp_sqrt c z = None.
Proof. exact (sqrt_ex c). Qed.

(** C23: operator< is a strict total order, but not the order of the values. *)
Theorem C23_order_of_values_refuted c : exists x y,
  can c x /\ can c y /\ zv (fv c x) < zv (fv c y) /\ fp_lt x y = false.
Proof. exact (order_wit c). Qed.
Theorem C23_strict_total_order c x y z : can c x -> can c y ->
  fp_lt x x = false /\ (fp_lt x y = true -> fp_lt y z = true -> fp_lt x z = true) /\
  (fp_lt x y = true \/ fp_lt y x = true \/ fv c x = fv c y).
Proof. exact (fp_lt_order c x y z). Qed.

(** C24: the C functions installed before initialisation. *)
Theorem C24_addC c x y : can c x -> can c y -> Fp_addC c x y = Ok (fp_add c x y).
Proof. exact (Fp_addC_ok c x y). Qed.
Theorem C24_addNC_C x y : 0 <= x < W -> 0 <= y < W -> Fp_addNC_C x y = Ok (fp_addNC x y).
Proof. exact (Fp_addNC_C_ok x y). Qed.
Theorem C24_subNC_C x y : 0 <= x < W -> 0 <= y <= x -> Fp_subNC_C x y = Ok (fp_subNC x y).
Proof. exact (Fp_subNC_C_ok x y). Qed.
Theorem C24_subC_less c x y : can c x -> can c y -> x < y -> Fp_subC c x y = Ok (fp_sub c x y).
Proof. exact (Fp_subC_lt c x y). Qed.
(** For every x >= y the C version of Fp::sub subtracts p from x instead of y: it exits or
    reads units that were never set. *)
Theorem C24_subC_refuted c x y : can c x -> can c y -> y <= x -> Fp_subC c x y = Exit \/ Fp_subC c x y = UB.
Proof. exact (Fp_subC_ge c x y). Qed.
(** The C version of Fp::mul never returns while it is installed. *)
Theorem C24_mulC_refuted c n x y : Fp_mulC c n x y = Diverge.
Proof. exact (Fp_mulC_diverges c n x y). Qed.
Theorem C24_dbl_addC c x y : 0 <= x < cp c * W -> 0 <= y < cp c * W -> FpDbl_addC c x y = Ok (dbl_add c x y).
Proof. exact (FpDbl_addC_ok c x y). Qed.
Theorem C24_dbl_addNC_C x y : 0 <= x < W * W -> 0 <= y < W * W -> FpDbl_addNC_C x y = Ok (dbl_addNC x y).
Proof. exact (FpDbl_addNC_C_ok x y). Qed.
Theorem C24_dbl_subC c x y : 0 <= x < cp c * W -> 0 <= y < cp c * W -> FpDbl_subC c x y = Ok (dbl_sub c x y).
Proof. exact (FpDbl_subC_ok c x y). Qed.
Theorem C24_dbl_subNC_C x y : 0 <= x < W * W -> 0 <= y <= x -> FpDbl_subNC_C x y = Ok (dbl_subNC x y).
Proof. exact (FpDbl_subNC_C_ok x y). Qed.
Theorem C24_dbl_mulC x y : 0 <= x < W -> 0 <= y < W -> FpDbl_mulC x y = Ok (dbl_mul x y).
Proof. exact (FpDbl_mulC_ok x y). Qed.
Theorem C24_dbl_modC c x : 0 <= x < cp c * W -> FpDbl_modC c x = Ok (dbl_mod c x).
Proof. exact (FpDbl_modC_ok c x). Qed.
Theorem C24_dbl_negC c x : 0 < x < cp c * W -> FpDbl_negC c x = Ok (dbl_neg c x).
Proof. exact (FpDbl_negC_ok c x). Qed.
Theorem C24_dbl_neg_zero_refuted c : FpDbl_negC c 0 = Ok 0 /\ dbl_neg c 0 = pN c /\ pN c <> 0.
Proof. exact (FpDbl_neg_0 c). Qed.

(** C48: initialisation computes the constants and tables that the arithmetic reads. *)
Theorem C48_setModulo_tables c : exists t, setModulo c (pV c) = Ok t /\
  t_p t = pV c /\ lv (t_p t) = cp c /\ 0 <= t_pp t < 2 ^ 64 /\ (cp c * t_pp t + 1) mod 2 ^ 64 = 0 /\
  lv (t_R t) = W mod cp c /\ t_R2 t = (W * W) mod cp c /\
  t_pTbl t = map (fun i => (i * cp c) mod W) [0;1;2;3;4;5;6;7;8;9] /\
  t_pNTbl t = map (fun h => (cp c * W) / 2 ^ h) [0;1;2;3] /\
  (forall i, 0 <= i < 2 -> 2 * nth (Z.to_nat i) (t_half t) 0 mod cp c = i) /\
  (forall i, 0 <= i < 4 -> 4 * nth (Z.to_nat i) (t_quarter t) 0 mod cp c = i) /\
  (forall k, 0 <= k < 512 -> nth (Z.to_nat k) (t_inv t) 0 = (2 ^ (512 - k) * W) mod cp c).
Proof. exact (setModulo_spec c). Qed.
Theorem C48_setModulo_wrong_size_exits c q : length q <> 4%nat -> setModulo c q = Exit.
Proof. exact (setModulo_size c q). Qed.

(** One query covers all theorems of this file. *)
Definition all_theorems_P_Fp :=
  (@C48_p_r_prime,
   @C15_from_int,
   @C15_from_integer,
   @C15_from_large_integer_exits,
   @C15_get_of_set,
   @C15_get,
   @C15_set_of_get,
   @C15_unique,
   @C15_onto,
   @C15_low_bits,
   @C16_add,
   @C16_sub,
   @C16_neg,
   @C17_mul,
   @C17_mul_unreduced,
   @C18_mul_exact,
   @C18_mod,
   @C18_add,
   @C18_sub,
   @C18_addNC,
   @C18_subNC,
   @C18_neg,
   @C18_neg_range_refuted,
   @C19_inv,
   @C19_inv_product,
   @C19_inv_zero,
   @C20_divBy2,
   @C20_divBy4,
   @C21_fast_modp_BNb,
   @C21_2z_add_3x_BNb,
   @C21_3z_add_2x_BNb,
   @C21_fast_modp_snark_refuted,
   @C21_2z_add_3x_snark_refuted,
   @C22_sqrt_sound,
   @C22_sqrt_complete,
   @C23_order_of_values_refuted,
   @C23_strict_total_order,
   @C24_addC,
   @C24_addNC_C,
   @C24_subNC_C,
   @C24_subC_less,
   @C24_subC_refuted,
   @C24_mulC_refuted,
   @C24_dbl_addC,
   @C24_dbl_addNC_C,
   @C24_dbl_subC,
   @C24_dbl_subNC_C,
   @C24_dbl_mulC,
   @C24_dbl_modC,
   @C24_dbl_negC,
   @C24_dbl_neg_zero_refuted,
   @C48_setModulo_tables,
   @C48_setModulo_wrong_size_exits).
Print Assumptions all_theorems_P_Fp.
