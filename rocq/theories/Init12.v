(** The operations generated for SNARK1 and for SNARK2 are the same, except the doubling step
    of the Miller loop (PairM.mul_binvxi): both curves have the same p, r and xi. *)
From Coq Require Import ZArith List Bool Lia.
From Verif Require Import Base Cfg FpM FpApi FpInit TowerSpec TowerM ParamM FinalM EcM PairM.
Local Transparent cp cpp.
Lemma sn_12 : snark SNARK1 = snark SNARK2. Proof. reflexivity. Qed.
Lemma cp_12 : cp SNARK1 = cp SNARK2. Proof. reflexivity. Qed.
Lemma cpp_12 : cpp SNARK1 = cpp SNARK2. Proof. reflexivity. Qed.
Global Hint Rewrite sn_12 cp_12 cpp_12 : c12.
Ltac c12 := autorewrite with c12; reflexivity.
Lemma cR_12 : cR SNARK1 = cR SNARK2. Proof. unfold cR. c12. Qed.
Global Hint Rewrite cR_12 : c12.
Lemma cR2_12 : cR2 SNARK1 = cR2 SNARK2. Proof. unfold cR2. c12. Qed.
Global Hint Rewrite cR2_12 : c12.
Lemma add_modp_12 : add_modp SNARK1 = add_modp SNARK2. Proof. unfold add_modp. c12. Qed.
Global Hint Rewrite add_modp_12 : c12.
Lemma fp_add_12 : fp_add SNARK1 = fp_add SNARK2. Proof. unfold fp_add. c12. Qed.
Global Hint Rewrite fp_add_12 : c12.
Lemma fp_sub_12 : fp_sub SNARK1 = fp_sub SNARK2. Proof. unfold fp_sub. c12. Qed.
Global Hint Rewrite fp_sub_12 : c12.
Lemma fp_neg_12 : fp_neg SNARK1 = fp_neg SNARK2. Proof. unfold fp_neg. c12. Qed.
Global Hint Rewrite fp_neg_12 : c12.
Lemma mont1_12 : mont1 SNARK1 = mont1 SNARK2. Proof. unfold mont1. c12. Qed.
Global Hint Rewrite mont1_12 : c12.
Lemma fp_mul_12 : fp_mul SNARK1 = fp_mul SNARK2. Proof. unfold fp_mul. c12. Qed.
Global Hint Rewrite fp_mul_12 : c12.
Lemma fp_sqr_12 : fp_sqr SNARK1 = fp_sqr SNARK2. Proof. unfold fp_sqr. c12. Qed.
Global Hint Rewrite fp_sqr_12 : c12.
Lemma halfTbl_12 : halfTbl SNARK1 = halfTbl SNARK2. Proof. unfold halfTbl. c12. Qed.
Global Hint Rewrite halfTbl_12 : c12.
Lemma quarterTbl_12 : quarterTbl SNARK1 = quarterTbl SNARK2. Proof. unfold quarterTbl. c12. Qed.
Global Hint Rewrite quarterTbl_12 : c12.
Lemma fp_divBy2_12 : fp_divBy2 SNARK1 = fp_divBy2 SNARK2. Proof. unfold fp_divBy2. c12. Qed.
Global Hint Rewrite fp_divBy2_12 : c12.
Lemma fp_divBy4_12 : fp_divBy4 SNARK1 = fp_divBy4 SNARK2. Proof. unfold fp_divBy4. c12. Qed.
Global Hint Rewrite fp_divBy4_12 : c12.
Lemma pTbl_12 : pTbl SNARK1 = pTbl SNARK2. Proof. unfold pTbl. c12. Qed.
Global Hint Rewrite pTbl_12 : c12.
Lemma fp_fast_modp_12 : fp_fast_modp SNARK1 = fp_fast_modp SNARK2. Proof. unfold fp_fast_modp. c12. Qed.
Global Hint Rewrite fp_fast_modp_12 : c12.
Lemma fp_3z_add_2x_12 : fp_3z_add_2x SNARK1 = fp_3z_add_2x SNARK2. Proof. unfold fp_3z_add_2x. c12. Qed.
Global Hint Rewrite fp_3z_add_2x_12 : c12.
Lemma fp_2z_add_3x_12 : fp_2z_add_3x SNARK1 = fp_2z_add_3x SNARK2. Proof. unfold fp_2z_add_3x. c12. Qed.
Global Hint Rewrite fp_2z_add_3x_12 : c12.
Lemma preInv_body_12 : preInv_body SNARK1 = preInv_body SNARK2. Proof. unfold preInv_body. c12. Qed.
Global Hint Rewrite preInv_body_12 : c12.
Lemma fp_preInv_12 : fp_preInv SNARK1 = fp_preInv SNARK2. Proof. unfold fp_preInv. c12. Qed.
Global Hint Rewrite fp_preInv_12 : c12.
Lemma invTbl_12 : invTbl SNARK1 = invTbl SNARK2. Proof. unfold invTbl. c12. Qed.
Global Hint Rewrite invTbl_12 : c12.
Lemma fp_inv_12 : fp_inv SNARK1 = fp_inv SNARK2. Proof. unfold fp_inv. c12. Qed.
Global Hint Rewrite fp_inv_12 : c12.
Lemma pN_12 : pN SNARK1 = pN SNARK2. Proof. unfold pN. c12. Qed.
Global Hint Rewrite pN_12 : c12.
Lemma dbl_add_12 : dbl_add SNARK1 = dbl_add SNARK2. Proof. unfold dbl_add. c12. Qed.
Global Hint Rewrite dbl_add_12 : c12.
Lemma dbl_sub_12 : dbl_sub SNARK1 = dbl_sub SNARK2. Proof. unfold dbl_sub. c12. Qed.
Global Hint Rewrite dbl_sub_12 : c12.
Lemma dbl_neg_12 : dbl_neg SNARK1 = dbl_neg SNARK2. Proof. unfold dbl_neg. c12. Qed.
Global Hint Rewrite dbl_neg_12 : c12.
Lemma pNTbl_12 : pNTbl SNARK1 = pNTbl SNARK2. Proof. unfold pNTbl. c12. Qed.
Global Hint Rewrite pNTbl_12 : c12.
Lemma dbl_subOpt1_h_12 : dbl_subOpt1_h SNARK1 = dbl_subOpt1_h SNARK2. Proof. unfold dbl_subOpt1_h. c12. Qed.
Global Hint Rewrite dbl_subOpt1_h_12 : c12.
Lemma dbl_subOpt1_12 : dbl_subOpt1 SNARK1 = dbl_subOpt1 SNARK2. Proof. unfold dbl_subOpt1. c12. Qed.
Global Hint Rewrite dbl_subOpt1_12 : c12.
Lemma modround_12 : modround SNARK1 = modround SNARK2. Proof. unfold modround. c12. Qed.
Global Hint Rewrite modround_12 : c12.
Lemma dbl_mod_12 : dbl_mod SNARK1 = dbl_mod SNARK2. Proof. unfold dbl_mod. c12. Qed.
Global Hint Rewrite dbl_mod_12 : c12.
Lemma pV_12 : pV SNARK1 = pV SNARK2. Proof. unfold pV. c12. Qed.
Global Hint Rewrite pV_12 : c12.
Lemma RV_12 : RV SNARK1 = RV SNARK2. Proof. unfold RV. c12. Qed.
Global Hint Rewrite RV_12 : c12.
Lemma fp_setInt_12 : fp_setInt SNARK1 = fp_setInt SNARK2. Proof. unfold fp_setInt. c12. Qed.
Global Hint Rewrite fp_setInt_12 : c12.
Lemma fp_setV_12 : fp_setV SNARK1 = fp_setV SNARK2. Proof. unfold fp_setV. c12. Qed.
Global Hint Rewrite fp_setV_12 : c12.
Lemma fp_setStr_12 : fp_setStr SNARK1 = fp_setStr SNARK2. Proof. unfold fp_setStr. c12. Qed.
Global Hint Rewrite fp_setStr_12 : c12.
Lemma fp_fromMont_12 : fp_fromMont SNARK1 = fp_fromMont SNARK2. Proof. unfold fp_fromMont. c12. Qed.
Global Hint Rewrite fp_fromMont_12 : c12.
Lemma fp_toMont_12 : fp_toMont SNARK1 = fp_toMont SNARK2. Proof. unfold fp_toMont. c12. Qed.
Global Hint Rewrite fp_toMont_12 : c12.
Lemma fp_get_12 : fp_get SNARK1 = fp_get SNARK2. Proof. unfold fp_get. c12. Qed.
Global Hint Rewrite fp_get_12 : c12.
Lemma fp_getLow_12 : fp_getLow SNARK1 = fp_getLow SNARK2. Proof. unfold fp_getLow. c12. Qed.
Global Hint Rewrite fp_getLow_12 : c12.
Lemma fp_isOdd_12 : fp_isOdd SNARK1 = fp_isOdd SNARK2. Proof. unfold fp_isOdd. c12. Qed.
Global Hint Rewrite fp_isOdd_12 : c12.
Lemma fp_toString_12 : fp_toString SNARK1 = fp_toString SNARK2. Proof. unfold fp_toString. c12. Qed.
Global Hint Rewrite fp_toString_12 : c12.
Lemma fp_write_12 : fp_write SNARK1 = fp_write SNARK2. Proof. unfold fp_write. c12. Qed.
Global Hint Rewrite fp_write_12 : c12.
Lemma fp_read_12 : fp_read SNARK1 = fp_read SNARK2. Proof. unfold fp_read. c12. Qed.
Global Hint Rewrite fp_read_12 : c12.
Lemma fp_1_12 : fp_1 SNARK1 = fp_1 SNARK2. Proof. unfold fp_1. c12. Qed.
Global Hint Rewrite fp_1_12 : c12.
Lemma p14V_12 : p14V SNARK1 = p14V SNARK2. Proof. unfold p14V. c12. Qed.
Global Hint Rewrite p14V_12 : c12.
Lemma fp_pow_12 : fp_pow SNARK1 = fp_pow SNARK2. Proof. unfold fp_pow. c12. Qed.
Global Hint Rewrite fp_pow_12 : c12.
Lemma fp_sqrt_12 : fp_sqrt SNARK1 = fp_sqrt SNARK2. Proof. unfold fp_sqrt. c12. Qed.
Global Hint Rewrite fp_sqrt_12 : c12.
Lemma dbl_ofFp_12 : dbl_ofFp SNARK1 = dbl_ofFp SNARK2. Proof. unfold dbl_ofFp. c12. Qed.
Global Hint Rewrite dbl_ofFp_12 : c12.
Lemma Fp_addC_12 : Fp_addC SNARK1 = Fp_addC SNARK2. Proof. unfold Fp_addC. c12. Qed.
Global Hint Rewrite Fp_addC_12 : c12.
Lemma Fp_subC_12 : Fp_subC SNARK1 = Fp_subC SNARK2. Proof. unfold Fp_subC. c12. Qed.
Global Hint Rewrite Fp_subC_12 : c12.
Lemma pNV_12 : pNV SNARK1 = pNV SNARK2. Proof. unfold pNV. c12. Qed.
Global Hint Rewrite pNV_12 : c12.
Lemma FpDbl_addC_12 : FpDbl_addC SNARK1 = FpDbl_addC SNARK2. Proof. unfold FpDbl_addC. c12. Qed.
Global Hint Rewrite FpDbl_addC_12 : c12.
Lemma FpDbl_negC_12 : FpDbl_negC SNARK1 = FpDbl_negC SNARK2. Proof. unfold FpDbl_negC. c12. Qed.
Global Hint Rewrite FpDbl_negC_12 : c12.
Lemma FpDbl_subC_12 : FpDbl_subC SNARK1 = FpDbl_subC SNARK2. Proof. unfold FpDbl_subC. c12. Qed.
Global Hint Rewrite FpDbl_subC_12 : c12.
Lemma modC_round_12 : modC_round SNARK1 = modC_round SNARK2. Proof. unfold modC_round. c12. Qed.
Global Hint Rewrite modC_round_12 : c12.
Lemma FpDbl_modC_12 : FpDbl_modC SNARK1 = FpDbl_modC SNARK2. Proof. unfold FpDbl_modC. c12. Qed.
Global Hint Rewrite FpDbl_modC_12 : c12.
Lemma f2_add_12 : f2_add SNARK1 = f2_add SNARK2. Proof. unfold f2_add. c12. Qed.
Global Hint Rewrite f2_add_12 : c12.
Lemma f2_sub_12 : f2_sub SNARK1 = f2_sub SNARK2. Proof. unfold f2_sub. c12. Qed.
Global Hint Rewrite f2_sub_12 : c12.
Lemma f2_neg_12 : f2_neg SNARK1 = f2_neg SNARK2. Proof. unfold f2_neg. c12. Qed.
Global Hint Rewrite f2_neg_12 : c12.
Lemma f2_mul_12 : f2_mul SNARK1 = f2_mul SNARK2. Proof. unfold f2_mul. c12. Qed.
Global Hint Rewrite f2_mul_12 : c12.
Lemma f2_divBy2_12 : f2_divBy2 SNARK1 = f2_divBy2 SNARK2. Proof. unfold f2_divBy2. c12. Qed.
Global Hint Rewrite f2_divBy2_12 : c12.
Lemma f2_divBy4_12 : f2_divBy4 SNARK1 = f2_divBy4 SNARK2. Proof. unfold f2_divBy4. c12. Qed.
Global Hint Rewrite f2_divBy4_12 : c12.
Lemma fp_mul9_12 : fp_mul9 SNARK1 = fp_mul9 SNARK2. Proof. unfold fp_mul9. c12. Qed.
Global Hint Rewrite fp_mul9_12 : c12.
Lemma f2_mul_xi_12 : f2_mul_xi SNARK1 = f2_mul_xi SNARK2. Proof. unfold f2_mul_xi. c12. Qed.
Global Hint Rewrite f2_mul_xi_12 : c12.
Lemma f2_mul_xiC_12 : f2_mul_xiC SNARK1 = f2_mul_xiC SNARK2. Proof. unfold f2_mul_xiC. c12. Qed.
Global Hint Rewrite f2_mul_xiC_12 : c12.
Lemma f2_mul_xi_alias_12 : f2_mul_xi_alias SNARK1 = f2_mul_xi_alias SNARK2. Proof. unfold f2_mul_xi_alias. c12. Qed.
Global Hint Rewrite f2_mul_xi_alias_12 : c12.
Lemma f2_square_12 : f2_square SNARK1 = f2_square SNARK2. Proof. unfold f2_square. c12. Qed.
Global Hint Rewrite f2_square_12 : c12.
Lemma f2_squareC_12 : f2_squareC SNARK1 = f2_squareC SNARK2. Proof. unfold f2_squareC. c12. Qed.
Global Hint Rewrite f2_squareC_12 : c12.
Lemma f2_inverse_12 : f2_inverse SNARK1 = f2_inverse SNARK2. Proof. unfold f2_inverse. c12. Qed.
Global Hint Rewrite f2_inverse_12 : c12.
Lemma f2_1_12 : f2_1 SNARK1 = f2_1 SNARK2. Proof. unfold f2_1. c12. Qed.
Global Hint Rewrite f2_1_12 : c12.
Lemma f2_mul_Fp_0_12 : f2_mul_Fp_0 SNARK1 = f2_mul_Fp_0 SNARK2. Proof. unfold f2_mul_Fp_0. c12. Qed.
Global Hint Rewrite f2_mul_Fp_0_12 : c12.
Lemma f2_mul_x_12 : f2_mul_x SNARK1 = f2_mul_x SNARK2. Proof. unfold f2_mul_x. c12. Qed.
Global Hint Rewrite f2_mul_x_12 : c12.
Lemma f2_mul_Fp_1_12 : f2_mul_Fp_1 SNARK1 = f2_mul_Fp_1 SNARK2. Proof. unfold f2_mul_Fp_1. c12. Qed.
Global Hint Rewrite f2_mul_Fp_1_12 : c12.
Lemma d2_add_12 : d2_add SNARK1 = d2_add SNARK2. Proof. unfold d2_add. c12. Qed.
Global Hint Rewrite d2_add_12 : c12.
Lemma d2_neg_12 : d2_neg SNARK1 = d2_neg SNARK2. Proof. unfold d2_neg. c12. Qed.
Global Hint Rewrite d2_neg_12 : c12.
Lemma d2_sub_12 : d2_sub SNARK1 = d2_sub SNARK2. Proof. unfold d2_sub. c12. Qed.
Global Hint Rewrite d2_sub_12 : c12.
Lemma d2_mul_xi_12 : d2_mul_xi SNARK1 = d2_mul_xi SNARK2. Proof. unfold d2_mul_xi. c12. Qed.
Global Hint Rewrite d2_mul_xi_12 : c12.
Lemma d2_mulOpt_12 : d2_mulOpt SNARK1 = d2_mulOpt SNARK2. Proof. unfold d2_mulOpt. c12. Qed.
Global Hint Rewrite d2_mulOpt_12 : c12.
Lemma d2_mulOpt1_12 : d2_mulOpt1 SNARK1 = d2_mulOpt1 SNARK2. Proof. unfold d2_mulOpt1. c12. Qed.
Global Hint Rewrite d2_mulOpt1_12 : c12.
Lemma d2_mulOpt2_12 : d2_mulOpt2 SNARK1 = d2_mulOpt2 SNARK2. Proof. unfold d2_mulOpt2. c12. Qed.
Global Hint Rewrite d2_mulOpt2_12 : c12.
Lemma d2_square_12 : d2_square SNARK1 = d2_square SNARK2. Proof. unfold d2_square. c12. Qed.
Global Hint Rewrite d2_square_12 : c12.
Lemma d2_mod_12 : d2_mod SNARK1 = d2_mod SNARK2. Proof. unfold d2_mod. c12. Qed.
Global Hint Rewrite d2_mod_12 : c12.
Lemma f6_add_12 : f6_add SNARK1 = f6_add SNARK2. Proof. unfold f6_add. c12. Qed.
Global Hint Rewrite f6_add_12 : c12.
Lemma f6_sub_12 : f6_sub SNARK1 = f6_sub SNARK2. Proof. unfold f6_sub. c12. Qed.
Global Hint Rewrite f6_sub_12 : c12.
Lemma f6_neg_12 : f6_neg SNARK1 = f6_neg SNARK2. Proof. unfold f6_neg. c12. Qed.
Global Hint Rewrite f6_neg_12 : c12.
Lemma f6_1_12 : f6_1 SNARK1 = f6_1 SNARK2. Proof. unfold f6_1. c12. Qed.
Global Hint Rewrite f6_1_12 : c12.
Lemma d6_add_12 : d6_add SNARK1 = d6_add SNARK2. Proof. unfold d6_add. c12. Qed.
Global Hint Rewrite d6_add_12 : c12.
Lemma d6_sub_12 : d6_sub SNARK1 = d6_sub SNARK2. Proof. unfold d6_sub. c12. Qed.
Global Hint Rewrite d6_sub_12 : c12.
Lemma d6_mod_12 : d6_mod SNARK1 = d6_mod SNARK2. Proof. unfold d6_mod. c12. Qed.
Global Hint Rewrite d6_mod_12 : c12.
Lemma d6_mul_12 : d6_mul SNARK1 = d6_mul SNARK2. Proof. unfold d6_mul. c12. Qed.
Global Hint Rewrite d6_mul_12 : c12.
Lemma f6_mul_12 : f6_mul SNARK1 = f6_mul SNARK2. Proof. unfold f6_mul. c12. Qed.
Global Hint Rewrite f6_mul_12 : c12.
Lemma f6_square_12 : f6_square SNARK1 = f6_square SNARK2. Proof. unfold f6_square. c12. Qed.
Global Hint Rewrite f6_square_12 : c12.
Lemma f6_inverse_12 : f6_inverse SNARK1 = f6_inverse SNARK2. Proof. unfold f6_inverse. c12. Qed.
Global Hint Rewrite f6_inverse_12 : c12.
Lemma f12_add_12 : f12_add SNARK1 = f12_add SNARK2. Proof. unfold f12_add. c12. Qed.
Global Hint Rewrite f12_add_12 : c12.
Lemma f12_sub_12 : f12_sub SNARK1 = f12_sub SNARK2. Proof. unfold f12_sub. c12. Qed.
Global Hint Rewrite f12_sub_12 : c12.
Lemma f12_neg_12 : f12_neg SNARK1 = f12_neg SNARK2. Proof. unfold f12_neg. c12. Qed.
Global Hint Rewrite f12_neg_12 : c12.
Lemma f12_1_12 : f12_1 SNARK1 = f12_1 SNARK2. Proof. unfold f12_1. c12. Qed.
Global Hint Rewrite f12_1_12 : c12.
Lemma d6_mul_gamma_add_12 : d6_mul_gamma_add SNARK1 = d6_mul_gamma_add SNARK2. Proof. unfold d6_mul_gamma_add. c12. Qed.
Global Hint Rewrite d6_mul_gamma_add_12 : c12.
Lemma f6_mul_gamma_add_12 : f6_mul_gamma_add SNARK1 = f6_mul_gamma_add SNARK2. Proof. unfold f6_mul_gamma_add. c12. Qed.
Global Hint Rewrite f6_mul_gamma_add_12 : c12.
Lemma f12_mul_12 : f12_mul SNARK1 = f12_mul SNARK2. Proof. unfold f12_mul. c12. Qed.
Global Hint Rewrite f12_mul_12 : c12.
Lemma f12_square_12 : f12_square SNARK1 = f12_square SNARK2. Proof. unfold f12_square. c12. Qed.
Global Hint Rewrite f12_square_12 : c12.
Lemma f12_inverse_12 : f12_inverse SNARK1 = f12_inverse SNARK2. Proof. unfold f12_inverse. c12. Qed.
Global Hint Rewrite f12_inverse_12 : c12.
Lemma sq_Fp4_12 : sq_Fp4 SNARK1 = sq_Fp4 SNARK2. Proof. unfold sq_Fp4. c12. Qed.
Global Hint Rewrite sq_Fp4_12 : c12.
Lemma f2_3t_sub_2z_12 : f2_3t_sub_2z SNARK1 = f2_3t_sub_2z SNARK2. Proof. unfold f2_3t_sub_2z. c12. Qed.
Global Hint Rewrite f2_3t_sub_2z_12 : c12.
Lemma f2_3t_add_2z_12 : f2_3t_add_2z SNARK1 = f2_3t_add_2z SNARK2. Proof. unfold f2_3t_add_2z. c12. Qed.
Global Hint Rewrite f2_3t_add_2z_12 : c12.
Lemma f12_sqru_12 : f12_sqru SNARK1 = f12_sqru SNARK2. Proof. unfold f12_sqru. c12. Qed.
Global Hint Rewrite f12_sqru_12 : c12.
Lemma f12_mul_024_12 : f12_mul_024 SNARK1 = f12_mul_024 SNARK2. Proof. unfold f12_mul_024. c12. Qed.
Global Hint Rewrite f12_mul_024_12 : c12.
Lemma f12_mul_024_024_12 : f12_mul_024_024 SNARK1 = f12_mul_024_024 SNARK2. Proof. unfold f12_mul_024_024. c12. Qed.
Global Hint Rewrite f12_mul_024_024_12 : c12.
Lemma f2_conj_12 : f2_conj SNARK1 = f2_conj SNARK2. Proof. unfold f2_conj. c12. Qed.
Global Hint Rewrite f2_conj_12 : c12.
Lemma f12_frob_12 : f12_frob SNARK1 = f12_frob SNARK2. Proof. unfold f12_frob. c12. Qed.
Global Hint Rewrite f12_frob_12 : c12.
Lemma f12_frob2_12 : f12_frob2 SNARK1 = f12_frob2 SNARK2. Proof. unfold f12_frob2. c12. Qed.
Global Hint Rewrite f12_frob2_12 : c12.
Lemma f12_frob3_12 : f12_frob3 SNARK1 = f12_frob3 SNARK2. Proof. unfold f12_frob3. c12. Qed.
Global Hint Rewrite f12_frob3_12 : c12.
Lemma f12_conj_12 : f12_conj SNARK1 = f12_conj SNARK2. Proof. unfold f12_conj. c12. Qed.
Global Hint Rewrite f12_conj_12 : c12.
Lemma f12_mapToCyclo_12 : f12_mapToCyclo SNARK1 = f12_mapToCyclo SNARK2. Proof. unfold f12_mapToCyclo. c12. Qed.
Global Hint Rewrite f12_mapToCyclo_12 : c12.
Lemma cmp_before_12 : cmp_before SNARK1 = cmp_before SNARK2. Proof. unfold cmp_before. c12. Qed.
Global Hint Rewrite cmp_before_12 : c12.
Lemma cmp_after_12 : cmp_after SNARK1 = cmp_after SNARK2. Proof. unfold cmp_after. c12. Qed.
Global Hint Rewrite cmp_after_12 : c12.
Lemma cmp_decompress_12 : cmp_decompress SNARK1 = cmp_decompress SNARK2. Proof. unfold cmp_decompress. c12. Qed.
Global Hint Rewrite cmp_decompress_12 : c12.
Lemma f2_2z_add_3x_12 : f2_2z_add_3x SNARK1 = f2_2z_add_3x SNARK2. Proof. unfold f2_2z_add_3x. c12. Qed.
Global Hint Rewrite f2_2z_add_3x_12 : c12.
Lemma fp_3t_sub_2z_12 : fp_3t_sub_2z SNARK1 = fp_3t_sub_2z SNARK2. Proof. unfold fp_3t_sub_2z. c12. Qed.
Global Hint Rewrite fp_3t_sub_2z_12 : c12.
Lemma f2_3t_sub_2zF_12 : f2_3t_sub_2zF SNARK1 = f2_3t_sub_2zF SNARK2. Proof. unfold f2_3t_sub_2zF. c12. Qed.
Global Hint Rewrite f2_3t_sub_2zF_12 : c12.
Lemma cmp_square_12 : cmp_square SNARK1 = cmp_square SNARK2. Proof. unfold cmp_square. c12. Qed.
Global Hint Rewrite cmp_square_12 : c12.
Lemma cmp_square_n_12 : cmp_square_n SNARK1 = cmp_square_n SNARK2. Proof. unfold cmp_square_n. c12. Qed.
Global Hint Rewrite cmp_square_n_12 : c12.
Lemma f2_3z_add_2x_12 : f2_3z_add_2x SNARK1 = f2_3z_add_2x SNARK2. Proof. unfold f2_3z_add_2x. c12. Qed.
Global Hint Rewrite f2_3z_add_2x_12 : c12.
Lemma cmp_squareC_12 : cmp_squareC SNARK1 = cmp_squareC SNARK2. Proof. unfold cmp_squareC. c12. Qed.
Global Hint Rewrite cmp_squareC_12 : c12.
Lemma cmp_square_nC_12 : cmp_square_nC SNARK1 = cmp_square_nC SNARK2. Proof. unfold cmp_square_nC. c12. Qed.
Global Hint Rewrite cmp_square_nC_12 : c12.
Lemma cmp_fixed_power_12 : cmp_fixed_power SNARK1 = cmp_fixed_power SNARK2. Proof. unfold cmp_fixed_power. c12. Qed.
Global Hint Rewrite cmp_fixed_power_12 : c12.
Lemma pow_neg_loop_12 : pow_neg_loop SNARK1 = pow_neg_loop SNARK2. Proof. unfold pow_neg_loop. c12. Qed.
Global Hint Rewrite pow_neg_loop_12 : c12.
Lemma f12_pow_neg_t_12 : f12_pow_neg_t SNARK1 = f12_pow_neg_t SNARK2. Proof. unfold f12_pow_neg_t. c12. Qed.
Global Hint Rewrite f12_pow_neg_t_12 : c12.
Lemma f12_powz_12 : f12_powz SNARK1 = f12_powz SNARK2. Proof. unfold f12_powz. c12. Qed.
Global Hint Rewrite f12_powz_12 : c12.
Lemma f12_final_exp_12 : f12_final_exp SNARK1 = f12_final_exp SNARK2. Proof. unfold f12_final_exp. c12. Qed.
Global Hint Rewrite f12_final_exp_12 : c12.
Lemma fpO_12 : fpO SNARK1 = fpO SNARK2. Proof. unfold fpO. c12. Qed.
Global Hint Rewrite fpO_12 : c12.
Lemma fp2O_12 : fp2O SNARK1 = fp2O SNARK2. Proof. unfold fp2O. c12. Qed.
Global Hint Rewrite fp2O_12 : c12.
Lemma isOnECJac3_12 : isOnECJac3 SNARK1 = isOnECJac3 SNARK2. Proof. unfold isOnECJac3. c12. Qed.
Global Hint Rewrite isOnECJac3_12 : c12.
Lemma isOnECHom3_12 : isOnECHom3 SNARK1 = isOnECHom3 SNARK2. Proof. unfold isOnECHom3. c12. Qed.
Global Hint Rewrite isOnECHom3_12 : c12.
Lemma isOnECHom2_12 : isOnECHom2 SNARK1 = isOnECHom2 SNARK2. Proof. unfold isOnECHom2. c12. Qed.
Global Hint Rewrite isOnECHom2_12 : c12.
Lemma isOnTwistECJac3_12 : isOnTwistECJac3 SNARK1 = isOnTwistECJac3 SNARK2. Proof. unfold isOnTwistECJac3. c12. Qed.
Global Hint Rewrite isOnTwistECJac3_12 : c12.
Lemma isOnTwistECHom2_12 : isOnTwistECHom2 SNARK1 = isOnTwistECHom2 SNARK2. Proof. unfold isOnTwistECHom2. c12. Qed.
Global Hint Rewrite isOnTwistECHom2_12 : c12.
Lemma isOnTwistECHom3_12 : isOnTwistECHom3 SNARK1 = isOnTwistECHom3 SNARK2. Proof. unfold isOnTwistECHom3. c12. Qed.
Global Hint Rewrite isOnTwistECHom3_12 : c12.
Lemma isValid1_12 : isValid1 SNARK1 = isValid1 SNARK2. Proof. unfold isValid1. c12. Qed.
Global Hint Rewrite isValid1_12 : c12.
Lemma isValid2_12 : isValid2 SNARK1 = isValid2 SNARK2. Proof. unfold isValid2. c12. Qed.
Global Hint Rewrite isValid2_12 : c12.
Lemma FrobEnd1_12 : FrobEnd1 SNARK1 = FrobEnd1 SNARK2. Proof. unfold FrobEnd1. c12. Qed.
Global Hint Rewrite FrobEnd1_12 : c12.
Lemma FrobEnd2_12 : FrobEnd2 SNARK1 = FrobEnd2 SNARK2. Proof. unfold FrobEnd2. c12. Qed.
Global Hint Rewrite FrobEnd2_12 : c12.
Lemma FrobEnd8_12 : FrobEnd8 SNARK1 = FrobEnd8 SNARK2. Proof. unfold FrobEnd8. c12. Qed.
Global Hint Rewrite FrobEnd8_12 : c12.
Lemma mul_binvxiC_12 : mul_binvxiC SNARK1 = mul_binvxiC SNARK2. Proof. unfold mul_binvxiC. c12. Qed.
Global Hint Rewrite mul_binvxiC_12 : c12.
Lemma dblLine_gen_12 : dblLine_gen SNARK1 = dblLine_gen SNARK2. Proof. unfold dblLine_gen. c12. Qed.
Global Hint Rewrite dblLine_gen_12 : c12.
Lemma dblLineWPC_12 : dblLineWPC SNARK1 = dblLineWPC SNARK2. Proof. unfold dblLineWPC. c12. Qed.
Global Hint Rewrite dblLineWPC_12 : c12.
Lemma mulFp6_24_12 : mulFp6_24 SNARK1 = mulFp6_24 SNARK2. Proof. unfold mulFp6_24. c12. Qed.
Global Hint Rewrite mulFp6_24_12 : c12.
Lemma addLineWP_12 : addLineWP SNARK1 = addLineWP SNARK2. Proof. unfold addLineWP. c12. Qed.
Global Hint Rewrite addLineWP_12 : c12.
Lemma addLine_12 : addLine SNARK1 = addLine SNARK2. Proof. unfold addLine. c12. Qed.
Global Hint Rewrite addLine_12 : c12.
Lemma f2_ofInts_12 : f2_ofInts SNARK1 = f2_ofInts SNARK2. Proof. unfold f2_ofInts. c12. Qed.
Global Hint Rewrite f2_ofInts_12 : c12.
Lemma f2_pow_12 : f2_pow SNARK1 = f2_pow SNARK2. Proof. unfold f2_pow. c12. Qed.
Global Hint Rewrite f2_pow_12 : c12.
Lemma gam_fill_12 : gam_fill SNARK1 4 = gam_fill SNARK2 4. Proof. cbn [gam_fill]. c12. Qed.
Global Hint Rewrite gam_fill_12 : c12.
Lemma fill_inv_12 n : forall t a, fill_inv SNARK1 n t a = fill_inv SNARK2 n t a.
Proof. induction n as [|n IH]; intros t a; cbn [fill_inv]; [reflexivity|]. rewrite fp_add_12. apply IH. Qed.
Lemma bind_ext {A D} (m : res A) (f g : A -> res D) : (forall x, f x = g x) -> bind m f = bind m g.
Proof. intros H. destruct m; cbn [bind]; [apply H|reflexivity..]. Qed.
Lemma setModulo_12 p : setModulo SNARK1 p = setModulo SNARK2 p.
Proof.
  unfold setModulo. rewrite fp_setInt_12. generalize 512%nat. intros n. destruct (negb _); [reflexivity|].
  cbv zeta. repeat (apply bind_ext; intro). rewrite fill_inv_12. reflexivity.
Qed.
