(** Properties of the extension fields and of the final exponentiation: C25 - C32, C48.

    Reading guide.  [K2 c], [K6 c], [K12 c] (TowerField.v) are the specification rings
    Fp[u]/(u^2+1), Fp2[v]/(v^3-xi), Fp6[w]/(w^2-v); the record of ring operations carries
    [rz ro radd rmul rsub ropp], [rpz v n] is the n-th power.  An object of the library is a
    tuple of 256-bit contents; [rep2 c x v] (and rep6, rep12) says that every content is
    reduced (0 <= content < p) and that the object stands for v, component by component,
    through the residue map [fv] of P_Fp.v.  [cyclo c v]: v^(p^4-p^2+1) = 1.
    [paramInit (snark c) (curveOf c) = Ok P]: P is what Param::init stores for curve c.
    [snark c = false] is the default build (curve BNb). *)
From Coq Require Import ZArith Znumtheory List.
From Verif Require Import Base Prim Vuint VuintProofs Vsint VsintProofs Power PowerProofs FpSpec Cfg FpM FpProofs FpApi TowerSpec TowerField TowerM
  Fp2Proofs Fp6Proofs Frob ParamM ParamProofs FinalM FinalProofs FinalExp TowerWit TowerApi.
Import ListNotations.
Local Open Scope Z_scope.

(** The specification rings are fields. *)
Theorem C25_field c : is_field (K2 c).
Proof. exact (K2_field c). Qed.
Theorem C26_field c : is_field (K6 c).
Proof. exact (K6_field c). Qed.
Theorem C27_field c : is_field (K12 c).
Proof. exact (K12_field c). Qed.
(** Every element has exactly one reduced representative. *)
Theorem C25_onto c v : exists x, rep2 c x v.
Proof. exact (rep2_surj c v). Qed.
Theorem C26_onto c v : exists x, rep6 c x v.
Proof. exact (rep6_surj c v). Qed.
Theorem C27_onto c v : exists x, rep12 c x v.
Proof. exact (rep12_surj c v). Qed.
Theorem C25_eq c x y v w : rep2 c x v -> rep2 c y w -> (f2_eqb x y = true <-> v = w).
Proof. exact (f2_eqb_rep c x y v w). Qed.
Theorem C26_eq c x y v w : rep6 c x v -> rep6 c y w -> (f6_eqb x y = true <-> v = w).
Proof. exact (f6_eqb_rep c x y v w). Qed.
Theorem C27_eq c x y v w : rep12 c x v -> rep12 c y w -> (f12_eqb x y = true <-> v = w).
Proof. exact (f12_eqb_rep c x y v w). Qed.

(** C25 *)
Theorem C25_add c x y v w : rep2 c x v -> rep2 c y w -> rep2 c (f2_add c x y) (radd v w).
Proof. exact (f2_add_rep c x y v w). Qed.
Theorem C25_sub c x y v w : rep2 c x v -> rep2 c y w -> rep2 c (f2_sub c x y) (rsub v w).
Proof. exact (f2_sub_rep c x y v w). Qed.
Theorem C25_neg c x v : rep2 c x v -> rep2 c (f2_neg c x) (ropp v).
Proof. exact (f2_neg_rep c x v). Qed.
Theorem C25_mul c x y v w : rep2 c x v -> rep2 c y w -> rep2 c (f2_mul c x y) (rmul v w).
Proof. exact (f2_mul_rep c x y v w). Qed.
Theorem C25_square c x v : rep2 c x v -> rep2 c (f2_square c x) (rmul v v).
Proof. exact (f2_square_rep c x v). Qed.
Theorem C25_inverse c x v : rep2 c x v ->
  exists y w, f2_inverse c x = Ok y /\ rep2 c y w /\ (v <> rz -> rmul w v = ro) /\ (v = rz -> w = rz).
Proof. exact (f2_inverse_rep c x v). Qed.
Theorem C25_mul_xi c x v : rep2 c x v -> rep2 c (f2_mul_xi c x) (rmul (xi c) v).
Proof. exact (f2_mul_xi_rep c x v). Qed.
Theorem C25_mul_Fp_0 c x b v w : rep2 c x v -> rep1 c b w -> rep2 c (f2_mul_Fp_0 c x b) (rmul v (mk2 w rz : K2 c)).
Proof. exact (f2_mul_Fp_0_rep c x b v w). Qed.
Theorem C25_mul_Fp_1 c x b v w : rep2 c x v -> rep1 c b w -> rep2 c (f2_mul_Fp_1 c x b) (rmul v (mk2 rz w : K2 c)).
Proof. exact (f2_mul_Fp_1_rep c x b v w). Qed.
Theorem C25_mul_x c x v : rep2 c x v -> rep2 c (f2_mul_x c x) (rmul v (mk2 rz ro : K2 c)).
Proof. exact (f2_mul_x_rep c x v). Qed.
Theorem C25_divBy2 c x v : rep2 c x v -> exists w, rep2 c (f2_divBy2 c x) w /\ radd w w = v.
Proof. exact (f2_divBy2_rep c x v). Qed.
Theorem C25_divBy4 c x v : rep2 c x v -> exists w, rep2 c (f2_divBy4 c x) w /\ radd (radd w w) (radd w w) = v.
Proof. exact (f2_divBy4_rep c x v). Qed.
(** the double-width product stays below p 2^256 and reduces to the product *)
Theorem C25_dbl_mul c x y v w : rep2 c x v -> rep2 c y w -> drep2 c (d2_mulOpt2 c x y) (rmul v w).
Proof. exact (d2_mulOpt2_rep c x y v w). Qed.
Theorem C25_dbl_square c x v : rep2 c x v -> drep2 c (d2_square c x) (rmul v v).
Proof. exact (d2_square_rep c x v). Qed.
Theorem C25_dbl_mul_xi c x v : drep2 c x v -> drep2 c (d2_mul_xi c x) (rmul (xi c) v).
Proof. exact (d2_mul_xi_rep c x v). Qed.
Theorem C25_dbl_mod c x v : drep2 c x v -> rep2 c (d2_mod c x) v.
Proof. exact (d2_mod_rep c x v). Qed.
(** The portable squaring of the default build is not a squaring (bn.h:496). *)
Theorem C25_squareC_refuted : exists x v, rep2 BNb x v /\ ~ rep2 BNb (f2_squareC BNb x) (rmul v v).
Proof. exact squareC_wrong. Qed.
(** mul_xi called with output and input the same object does not multiply by xi. *)
Theorem C25_mul_xi_alias_refuted c : exists x v, rep2 c x v /\ ~ rep2 c (f2_mul_xi_alias c x) (rmul (xi c) v).
Proof. exact (mul_xi_alias_wrong c). Qed.
Example C25_nonvacuous c : exists x y v w, rep2 c x v /\ rep2 c y w /\ v <> rz /\ v <> ro /\ w <> v.
Proof. exact (rep2_ex c). Qed.

(** C26 *)
Theorem C26_add c x y v w : rep6 c x v -> rep6 c y w -> rep6 c (f6_add c x y) (radd v w).
Proof. exact (f6_add_rep c x y v w). Qed.
Theorem C26_sub c x y v w : rep6 c x v -> rep6 c y w -> rep6 c (f6_sub c x y) (rsub v w).
Proof. exact (f6_sub_rep c x y v w). Qed.
Theorem C26_neg c x v : rep6 c x v -> rep6 c (f6_neg c x) (ropp v).
Proof. exact (f6_neg_rep c x v). Qed.
Theorem C26_square c x v : rep6 c x v -> rep6 c (f6_square c x) (rmul v v).
Proof. exact (f6_square_rep c x v). Qed.
Theorem C26_inverse c x v : rep6 c x v ->
  exists y w, f6_inverse c x = Ok y /\ rep6 c y w /\ (v <> rz -> rmul w v = ro) /\ (v = rz -> w = rz).
Proof. exact (f6_inverse_rep c x v). Qed.
Theorem C26_mul c x y v w : snark c = false -> rep6 c x v -> rep6 c y w -> rep6 c (f6_mul c x y) (rmul v w).
Proof. exact (fun HB => f6_mul_rep c (cp_6_c c HB) x y v w). Qed.
(** On the SNARK curves the product of reduced operands may come back unreduced ... *)
Theorem C26_mul_snark_refuted c : snark c = true ->
  exists x y v w, rep6 c x v /\ rep6 c y w /\ ~ can c (b2 (c3 (f6_mul c x y))).
Proof. exact (f6_mul_noncanonical c). Qed.
(** ... but all residues are right, and only that one component can be unreduced (below 2p). *)
Theorem C26_mul_value c x y v w : rep6 c x v -> rep6 c y w ->
  let z := f6_mul c x y in
  rep2 c (a3 z) (a3 (rmul v w)) /\ rep2 c (b3 z) (b3 (rmul v w)) /\ rep1 c (a2 (c3 z)) (a2 (c3 (rmul v w))) /\
  fv c (b2 (c3 z)) = b2 (c3 (rmul v w)) /\ 0 <= b2 (c3 z) < 2 * cp c.
Proof. exact (f6_mul_value c x y v w). Qed.
Example C26_nonvacuous c : exists x y v w, rep6 c x v /\ rep6 c y w /\ v <> rz /\ v <> ro /\ w <> v.
Proof. exact (rep6_ex c). Qed.

(** C27 *)
Theorem C27_add c x y v w : rep12 c x v -> rep12 c y w -> rep12 c (f12_add c x y) (radd v w).
Proof. exact (f12_add_rep c x y v w). Qed.
Theorem C27_sub c x y v w : rep12 c x v -> rep12 c y w -> rep12 c (f12_sub c x y) (rsub v w).
Proof. exact (f12_sub_rep c x y v w). Qed.
Theorem C27_neg c x v : rep12 c x v -> rep12 c (f12_neg c x) (ropp v).
Proof. exact (f12_neg_rep c x v). Qed.
Theorem C27_mul c x y v w : snark c = false -> rep12 c x v -> rep12 c y w -> rep12 c (f12_mul c x y) (rmul v w).
Proof. exact (fun HB => f12_mul_rep c (cp_6_c c HB) x y v w). Qed.
Theorem C27_square c x v : snark c = false -> rep12 c x v -> rep12 c (f12_square c x) (rmul v v).
Proof. exact (fun HB => f12_square_rep c (cp_6_c c HB) x v). Qed.
Theorem C27_inverse c x v : snark c = false -> rep12 c x v ->
  exists y w, f12_inverse c x = Ok y /\ rep12 c y w /\ (v <> rz -> rmul w v = ro) /\ (v = rz -> w = rz).
Proof. exact (fun HB => f12_inverse_rep c (cp_6_c c HB) x v). Qed.
(** On the SNARK curves there are reduced operands whose product is wrong modulo p. *)
Theorem C27_mul_snark_refuted c : snark c = true -> exists x y v w, rep12 c x v /\ rep12 c y w /\
  fv c (a2 (a3 (a2 (f12_mul c x y)))) <> a2 (a3 (a2 (rmul v w))).
Proof. exact (f12_mul_wrong c). Qed.
Example C27_nonvacuous c : exists x y v w, rep12 c x v /\ rep12 c y w /\ v <> rz /\ v <> ro /\ w <> v.
Proof. exact (rep12_ex c). Qed.

(** C28: the sparse element of a line (l.a, l.b, l.c) is l.a + l.c v^2 + l.b v w. *)
Theorem C28_mul_024 c z x v w : rep12 c z v -> rep6 c x w ->
  rep12 c (f12_mul_024 c z x) (rmul v (mk2 (mk3 (a3 w) rz (c3 w)) (mk3 rz (b3 w) rz) : K12 c)).
Proof. exact (f12_mul_024_rep c z x v w). Qed.
Theorem C28_mul_024_024 c x y v w : rep6 c x v -> rep6 c y w ->
  rep12 c (f12_mul_024_024 c x y)
    (rmul (mk2 (mk3 (a3 v) rz (c3 v)) (mk3 rz (b3 v) rz) : K12 c) (mk2 (mk3 (a3 w) rz (c3 w)) (mk3 rz (b3 w) rz) : K12 c)).
Proof. exact (f12_mul_024_024_rep c x y v w). Qed.
Example C28_nonvacuous c : exists x y v w, rep6 c x v /\ rep6 c y w /\ v <> rz /\ v <> ro /\ w <> v.
Proof. exact (rep6_ex c). Qed.

(** C29 *)
Theorem C29_frobenius c P : paramInit (snark c) (curveOf c) = Ok P -> forall x v, rep12 c x v ->
  rep12 c (f12_frob c P x) (rpz v (cp c)) /\ rep12 c (f12_frob2 c P x) (rpz v (cp c ^ 2)) /\
  rep12 c (f12_frob3 c P x) (rpz v (cp c ^ 3)).
Proof. exact (frob_all c P). Qed.
(** conjugation is the p^6-power *)
Theorem C29_conj c x v : rep12 c x v -> rep12 c (f12_conj c x) (rpz v (cp c ^ 6)).
Proof. exact (fun H => eq_ind_r (rep12 c (f12_conj c x)) (f12_conj_rep c x v H) (fr12_6 c v)). Qed.
Example C29_nonvacuous c : (exists P, paramInit (snark c) (curveOf c) = Ok P) /\
  exists x y v w, rep12 c x v /\ rep12 c y w /\ v <> rz /\ v <> ro /\ w <> v.
Proof. exact (conj (let 'ex_intro _ P (conj E _) := params_public c in ex_intro _ P E) (rep12_ex c)). Qed.

(** C30 *)
Theorem C30_sqru c x v : rep12 c x v -> cyclo c v -> rep12 c (f12_sqru c x) (rmul v v).
Proof. exact (f12_sqru_rep c x v). Qed.
(** the easy part of the final exponentiation reaches such elements *)
Theorem C30_mapToCyclo c P : paramInit (snark c) (curveOf c) = Ok P -> forall x v, snark c = false -> rep12 c x v ->
  exists y, f12_mapToCyclo c P x = Ok y /\ rep12 c y (rpz v ((cp c ^ 6 - 1) * (cp c ^ 2 + 1))) /\
    (v <> rz -> cyclo c (rpz v ((cp c ^ 6 - 1) * (cp c ^ 2 + 1)))).
Proof. exact (mapToCyclo_api c P). Qed.
Example C30_nonvacuous c : exists x v, rep12 c x v /\ cyclo c v /\ v <> ro.
Proof. exact (cyclo_rep_ex c). Qed.

(** C31: for every cyclotomic element, the identity included (its decompression denominator is 0). *)
Theorem C31_decompress c P : paramInit (snark c) (curveOf c) = Ok P -> forall x v, rep12 c x v -> cyclo c v ->
  exists y, cmp_decompress c P (compress x) = Ok y /\ rep12 c y v.
Proof. exact (decompress_api c P). Qed.
Theorem C31_square_n c P : paramInit (snark c) (curveOf c) = Ok P -> forall x v n, snark c = false ->
  rep12 c x v -> cyclo c v -> 0 < n < 2 ^ 64 ->
  exists y, cmp_decompress c P (cmp_square_n c (compress x) n) = Ok y /\ rep12 c y (rpz v (2 ^ n)).
Proof. exact (square_n_decompress c P). Qed.
Theorem C31_square_nC c P : paramInit (snark c) (curveOf c) = Ok P -> forall x v n, snark c = false ->
  rep12 c x v -> cyclo c v -> 0 <= n ->
  exists y, cmp_decompress c P (cmp_square_nC c (compress x) n) = Ok y /\ rep12 c y (rpz v (2 ^ n)).
Proof. exact (square_nC_decompress c P). Qed.
(** The generated square_n called with n = 0 squares 2^64 times instead of not at all. *)
Theorem C31_square_n_0_wraps c P : paramInit (snark c) (curveOf c) = Ok P -> forall x v, snark c = false ->
  rep12 c x v -> cyclo c v ->
  exists y, cmp_decompress c P (cmp_square_n c (compress x) 0) = Ok y /\ rep12 c y (rpz v (2 ^ (2 ^ 64))).
Proof. exact (square_0_decompress c P). Qed.
Theorem C31_fixed_power c P : paramInit (snark c) (curveOf c) = Ok P -> forall x v, snark c = false ->
  rep12 c x v -> cyclo c v ->
  exists y, cmp_fixed_power c P x = Ok y /\ rep12 c y (rpz v (- cz c)).
Proof. exact (fixed_power_api c P). Qed.
Example C31_nonvacuous c : (exists P, paramInit (snark c) (curveOf c) = Ok P) /\ exists x v, rep12 c x v /\ cyclo c v /\ v <> ro.
Proof. exact (conj (let 'ex_intro _ P (conj E _) := params_public c in ex_intro _ P E) (cyclo_rep_ex c)). Qed.

(** C32 *)
Theorem C32_final_exp c P : paramInit (snark c) (curveOf c) = Ok P -> snark c = false ->
  forall x v, rep12 c x v -> v <> rz ->
  exists y, f12_final_exp c P x = Ok y /\
    rep12 c y (rpz v ((cp c ^ 12 - 1) / cr c * ((2 * cz c * (6 * cz c ^ 2 + 3 * cz c + 1)) mod cr c))).
Proof. exact (fexp_pow c P). Qed.
Theorem C32_exponent c : let m := (2 * cz c * (6 * cz c ^ 2 + 3 * cz c + 1)) mod cr c in
  cr c * ((cp c ^ 12 - 1) / cr c) = cp c ^ 12 - 1 /\ 0 < m < cr c /\ rel_prime m (cr c).
Proof. exact (conj (cr_dvd c) (fexp_mult_range c)). Qed.
Theorem C32_order c P : paramInit (snark c) (curveOf c) = Ok P -> snark c = false ->
  forall x v, rep12 c x v -> v <> rz ->
  exists y w, f12_final_exp c P x = Ok y /\ rep12 c y w /\ rpz w (cr c) = ro.
Proof. exact (fexp_order c P). Qed.
Theorem C32_zero c P : paramInit (snark c) (curveOf c) = Ok P -> snark c = false ->
  forall x, rep12 c x rz -> exists y, f12_final_exp c P x = Ok y /\ rep12 c y rz.
Proof. exact (fexp_zero c P). Qed.
Example C32_nonvacuous c : (exists P, paramInit (snark c) (curveOf c) = Ok P) /\
  exists x y v w, rep12 c x v /\ rep12 c y w /\ v <> rz /\ v <> ro /\ w <> v.
Proof. exact (conj (let 'ex_intro _ P (conj E _) := params_public c in ex_intro _ P E) (rep12_ex c)). Qed.

(** C48 *)
Theorem C48_params c : exists P, paramInit (snark c) (curveOf c) = Ok P /\
  (swf (par_z P) /\ sv (par_z P) = cz c) /\
  (let z := cz c in par_p P = pV c /\ lv (par_p P) = 36 * z ^ 4 + 36 * z ^ 3 + 24 * z ^ 2 + 6 * z + 1 /\
   vwf (par_r P) /\ lv (par_r P) = 36 * z ^ 4 + 36 * z ^ 3 + 18 * z ^ 2 + 6 * z + 1 /\
   vwf (par_t P) /\ lv (par_t P) = 6 * z ^ 2 + 1 /\
   swf (par_lc P) /\ sv (par_lc P) = 6 * z + 2 /\
   par_b P = cb c /\
   bval (par_si P) = Z.abs (6 * z + 2)) /\
  prime (lv (par_p P)) /\ prime (lv (par_r P)) /\
  lv (par_p P) + 1 - lv (par_t P) = lv (par_r P) /\
  (lv (par_r P) | lv (par_p P) ^ 12 - 1).
Proof. exact (params_public c). Qed.
Theorem C48_tables c P : paramInit (snark c) (curveOf c) = Ok P ->
  (forall i, (i < 5)%nat -> rep2 c (gam P i) (rpz (xi c) (Z.of_nat (S i) * ((cp c - 1) / 6)))) /\
  (forall i, (i < 5)%nat -> rep2 c (gam2 P i) (rpz (xi c) (Z.of_nat (S i) * ((cp c ^ 2 - 1) / 6)))) /\
  rep2 c (par_W2p P) (rpz (xi c) ((cp c - 1) / 3)) /\
  rep2 c (par_W3p P) (rpz (xi c) ((cp c - 1) / 2)).
Proof. exact (params_tables c P). Qed.
Theorem C48_xi_nonsquare c (x : K2 c) : rmul x x <> xi c.
Proof. exact (xi_nonsquare c x). Qed.
Theorem C48_xi_noncube c (x : K2 c) : rmul (rmul x x) x <> xi c.
Proof. exact (xi_noncube c x). Qed.

(** One query covers all theorems of this file. *)
Definition all_theorems_P_Tower :=
  (@C25_field,
   @C26_field,
   @C27_field,
   @C25_onto,
   @C26_onto,
   @C27_onto,
   @C25_eq,
   @C26_eq,
   @C27_eq,
   @C25_add,
   @C25_sub,
   @C25_neg,
   @C25_mul,
   @C25_square,
   @C25_inverse,
   @C25_mul_xi,
   @C25_mul_Fp_0,
   @C25_mul_Fp_1,
   @C25_mul_x,
   @C25_divBy2,
   @C25_divBy4,
   @C25_dbl_mul,
   @C25_dbl_square,
   @C25_dbl_mul_xi,
   @C25_dbl_mod,
   @C25_squareC_refuted,
   @C25_mul_xi_alias_refuted,
   @C26_add,
   @C26_sub,
   @C26_neg,
   @C26_square,
   @C26_inverse,
   @C26_mul,
   @C26_mul_snark_refuted,
   @C26_mul_value,
   @C27_add,
   @C27_sub,
   @C27_neg,
   @C27_mul,
   @C27_square,
   @C27_inverse,
   @C27_mul_snark_refuted,
   @C28_mul_024,
   @C28_mul_024_024,
   @C29_frobenius,
   @C29_conj,
   @C30_sqru,
   @C30_mapToCyclo,
   @C31_decompress,
   @C31_square_n,
   @C31_square_nC,
   @C31_square_n_0_wraps,
   @C31_fixed_power,
   @C32_final_exp,
   @C32_exponent,
   @C32_order,
   @C32_zero,
   @C48_params,
   @C48_tables,
   @C48_xi_nonsquare,
   @C48_xi_noncube).
Print Assumptions all_theorems_P_Tower.
