(** C51.  The points G1 accepts are exactly the r multiples of the generator; on the twist
    isValid does not imply order r. *)
From Coq Require Import ZArith List.
From Verif Require Import Base Prim Vuint VuintProofs FpSpec Cfg FpM FpProofs TowerSpec TowerField TowerM Fp2Proofs ParamM EcSpec EcM EcProofs EcInst EcApi PairM PairBil PairTop GenT Order Inject.
Import ListNotations.
Local Open Scope Z_scope.

(** Every object isValid accepts denotes k gen1 for some k below r. *)
Theorem C51_generated c P x : paramInit (snark c) (curveOf c) = Ok P -> wfP G1 c x -> gValid G1 c P x = Ok true ->
  exists k, 0 <= k < cr c /\ ptP G1 c x = ec_mulz (FpF c) k (ptP G1 c (gen1 c)).
Proof. exact (ord_gen c P x). Qed.
(** These are r different points. *)
Theorem C51_different c j k : 0 <= j < cr c -> 0 <= k < cr c -> ec_mulz (FpF c) j (ptP G1 c (gen1 c)) = ec_mulz (FpF c) k (ptP G1 c (gen1 c)) -> j = k.
Proof. exact (ord_inj c j k). Qed.
(** r times any point of E is infinity, and no smaller multiple of a point other than infinity is. *)
Theorem C51_order c P : onE G1 c P -> ec_mulz (FpF c) (cr c) P = EInf.
Proof. exact (ord_all c P). Qed.
Theorem C51_order_exact c P k : onE G1 c P -> P <> EInf -> 0 < k < cr c -> ec_mulz (FpF c) k P <> EInf.
Proof. exact (ord_exact c P k). Qed.
(** Through the API: mul by a Vuint of value r. *)
Theorem C51_mul_r c (m : mem (gO G1 c)) o i k : vwf k -> lv k = cr c -> i <> Loc 1 -> o <> Loc 1 -> wfP G1 c (m i) -> onE G1 c (ptP G1 c (m i)) ->
  exists m', ScalarMult_v (gO G1 c) m o i k = Ok m' /\ wfP G1 c (m' o) /\ ptP G1 c (m' o) = EInf.
Proof. exact (ord_mul c m o i k). Qed.
(** On the twist: a valid object, not infinity, of order 13 (default curve) or 10069. *)
Theorem C51_twist_refuted c : exists x, wfP G2 c x /\
  (forall P, paramInit (snark c) (curveOf c) = Ok P -> gValid G2 c P x = Ok true) /\
  ec_mulz (K2F c) (cr c) (ptP G2 c x) <> EInf /\
  ptP G2 c x <> EInf /\ ec_mulz (K2F c) (match c with BNb => 13 | _ => 10069 end) (ptP G2 c x) = EInf.
Proof. exact (twist_bad c). Qed.
(** For a fixed Q of G2 the pairing with Q is constantly 1 or tells all points of E apart. *)
Theorem C47_one_or_injective c P : paramInit (snark c) (curveOf c) = Ok P -> snark c = false ->
  exists e, computes c P e /\ forall Q, inG2 c Q ->
    (e Q (ptP G1 c (gen1 c)) = ro -> forall A, onE G1 c A -> e Q A = ro) /\
    (e Q (ptP G1 c (gen1 c)) <> ro -> forall A A', onE G1 c A -> onE G1 c A' -> e Q A = e Q A' -> A = A').
Proof. exact (dich c P). Qed.
Example C51_some c : wfP G1 c (gen1 c) /\ onE G1 c (ptP G1 c (gen1 c)) /\ ptP G1 c (gen1 c) <> EInf /\ 1 < cr c.
Proof. exact (conj (gen_wf G1 c) (conj (gen_on G1 c) (conj (Gen1.gen1_nz c) (Count.r_pos c)))). Qed.

(** One query covers all theorems of this file. *)
Definition all_theorems_P_Order :=
  (@C51_generated,
   @C51_different,
   @C51_order,
   @C51_order_exact,
   @C51_mul_r,
   @C51_twist_refuted,
   @C47_one_or_injective).
Print Assumptions all_theorems_P_Order.
