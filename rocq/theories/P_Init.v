(** C49: calling Param::init several times in one process.
    Statements are about [inits sn lib0 ks]: the state after the calls with parameters [ks]
    ([sn]: built with BN_SUPPORT_SNARK), see InitM.v.  [c], [cs] range over the supported curves. *)
From Coq Require Import ZArith List.
From Verif Require Import Base Cfg FpM FpApi FpInit TowerSpec TowerField TowerM Fp2Proofs ParamM FinalM EcM EcInst EcApi PairM InitM InitProofs.
Import ListNotations.
Local Open Scope Z_scope.

(** After any non-empty sequence of supported calls: the members of Param and the field tables
    are those of a single call with the last parameters; the generated code is that of the
    first call. *)
Theorem C49_state sn c cs : snark c = sn -> Forall (fun c => snark c = sn) cs ->
  exists t P, inits sn lib0 (map curveOf (c :: cs)) = Ok (mkLib (Some (c, t)) (Some P)) /\
    setModulo (last cs c) (pV (last cs c)) = Ok t /\ paramInit sn (curveOf (last cs c)) = Ok P.
Proof. exact (init_state sn c cs). Qed.
(** A call with other parameters ends the process, in any state. *)
Theorem C49_unsupported sn st k : supported sn k = None -> init sn st k = Exit.
Proof. exact (init_unsupported sn st k). Qed.
Theorem C49_supported sn k c : supported sn k = Some c -> snark c = sn /\ k = curveOf c.
Proof. exact (supported_inv sn k c). Qed.
(** Default build: any number of calls is one call. *)
Theorem C49_default_build cs : cs <> [] -> Forall (fun c => snark c = false) cs ->
  inits false lib0 (map curveOf cs) = init false lib0 (curveOf BNb).
Proof. exact (default_build cs). Qed.
(** The generated operations other than the doubling step do not depend on which supported
    curve of the build came first. *)
Theorem C49_operations g c : snark g = snark c ->
  (fp_add g = fp_add c /\ fp_sub g = fp_sub c /\ fp_neg g = fp_neg c /\ fp_mul g = fp_mul c /\ fp_inv g = fp_inv c /\ fp_sqrt g = fp_sqrt c) /\
  (f2_add g = f2_add c /\ f2_sub g = f2_sub c /\ f2_mul g = f2_mul c /\ f2_square g = f2_square c /\ f2_inverse g = f2_inverse c) /\
  (f6_mul g = f6_mul c /\ f6_inverse g = f6_inverse c /\ f12_mul g = f12_mul c /\ f12_square g = f12_square c /\ f12_inverse g = f12_inverse c) /\
  f12_final_exp g = f12_final_exp c /\ addLine g = addLine c /\ FrobEnd1 g = FrobEnd1 c /\ FrobEnd2 g = FrobEnd2 c /\
  fpO g = fpO c /\ fp2O g = fp2O c.
Proof. exact (ops_same g c). Qed.
(** SNARK1 first, then SNARK2: pairings and precomputation are those of a process that only
    used SNARK2 (code generated for SNARK1, parameters [P] of SNARK2). *)
Theorem C49_snark1_then_snark2 xq yq vx vy P x y : paramInit true (curveOf SNARK2) = Ok P -> rep2 SNARK2 xq vx -> rep2 SNARK2 yq vy ->
  opt_ate SNARK1 P xq yq x y = opt_ate SNARK2 P xq yq x y /\ preG2 SNARK1 P xq yq = preG2 SNARK2 P xq yq /\
  (forall v, millerLoop SNARK1 P v x y = millerLoop SNARK2 P v x y).
Proof. exact (fresh_miller xq yq vx vy P x y). Qed.
Example C49_snark1_then_snark2_reached : exists t P, inits true lib0 [curveOf SNARK1; curveOf SNARK2] = Ok (mkLib (Some (SNARK1, t)) (Some P)) /\
  paramInit true (curveOf SNARK2) = Ok P.
Proof. exact state_12. Qed.
(** SNARK2 first, then SNARK1: the property fails.  The doubling step of the pairing still
    multiplies by the coefficient of the SNARK2 twist; it takes the generator of the SNARK1
    twist to a point that is not on that twist.  Code generated for SNARK1 stays on it. *)
Theorem C49_snark2_then_snark1_refuted : exists t P, inits true lib0 [curveOf SNARK2; curveOf SNARK1] = Ok (mkLib (Some (SNARK2, t)) (Some P)) /\
  isOnTwistECHom3 SNARK2 (par_binvxi P) (gen2 SNARK1) = true /\
  isOnTwistECHom3 SNARK2 (par_binvxi P) (snd (dblLineWP SNARK1 P (gen2 SNARK1))) = true /\
  isOnTwistECHom3 SNARK2 (par_binvxi P) (snd (dblLineWP SNARK2 P (gen2 SNARK1))) = false.
Proof. exact state_21. Qed.

(** One query covers all theorems of this file. *)
Definition all_theorems_P_Init :=
  (@C49_state,
   @C49_unsupported,
   @C49_supported,
   @C49_default_build,
   @C49_operations,
   @C49_snark1_then_snark2,
   @C49_snark2_then_snark1_refuted).
Print Assumptions all_theorems_P_Init.
