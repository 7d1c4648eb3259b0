(** The supported curves (CurveParam, include/bn.h:58-85) and the constants of
    Fp::setModulo (src/zm2.cpp:3592-3690) that the field arithmetic reads.
    The tables themselves are modelled in FpInit.v, where setModulo is shown to
    compute exactly these values. *)
From Coq Require Import ZArith Znumtheory Lia.
From Verif Require Import Base Primes FpSpec.
Local Open Scope Z_scope.

(** BNb: the default build, CurveFp254BNb. SNARK1, SNARK2: built with BN_SUPPORT_SNARK. *)
Inductive cfg := BNb | SNARK1 | SNARK2.
(** BN_SUPPORT_SNARK is defined *)
Definition snark (c : cfg) : bool := match c with BNb => false | _ => true end.
(** CurveParam::z *)
Definition cz (c : cfg) : Z := match c with BNb => - (2 ^ 62 + 2 ^ 55 + 1) | _ => 4965661367192848881 end.
(** CurveParam::b *)
Definition cb (c : cfg) : Z := match c with BNb => 2 | SNARK1 => 3 | SNARK2 => 82 end.
(** CurveParam::xi_a, xi_b *)
Definition cxi_a (c : cfg) : Z := match c with BNb => 1 | _ => 9 end.
Definition cxi_b (c : cfg) : Z := 1.

(** The modulus p and the order r, as ParamT::init obtains them by evaluating polynomials at z. *)
Definition cp (c : cfg) : Z :=
  if snark c then 21888242871839275222246405745257275088696311157297823662689037894645226208583
  else 16798108731015832284940804142231733909889187121439069848933715426072753864723.
Definition cr (c : cfg) : Z :=
  if snark c then 21888242871839275222246405745257275088548364400416034343698204186575808495617
  else 16798108731015832284940804142231733909759579603404752749028378864165570215949.

Lemma cp_poly c : cp c = let z := cz c in 36 * z ^ 4 + 36 * z ^ 3 + 24 * z ^ 2 + 6 * z + 1.
Proof. destruct c; vm_compute; reflexivity. Qed.
Lemma cr_poly c : cr c = let z := cz c in 36 * z ^ 4 + 36 * z ^ 3 + 18 * z ^ 2 + 6 * z + 1.
Proof. destruct c; vm_compute; reflexivity. Qed.

Lemma cp_prime c : prime (cp c).
Proof.
  destruct c; cbn [cp snark].
  - exact prime_16798108731015832284940804142231733909889187121439069848933715426072753864723.
  - exact prime_21888242871839275222246405745257275088696311157297823662689037894645226208583.
  - exact prime_21888242871839275222246405745257275088696311157297823662689037894645226208583.
Qed.
Lemma cr_prime c : prime (cr c).
Proof.
  destruct c; cbn [cr snark].
  - exact prime_16798108731015832284940804142231733909759579603404752749028378864165570215949.
  - exact prime_21888242871839275222246405745257275088548364400416034343698204186575808495617.
  - exact prime_21888242871839275222246405745257275088548364400416034343698204186575808495617.
Qed.

(** One Fp is four 64-bit units; R = 2^256 is the Montgomery radix. *)
Definition W : Z := 2 ^ 256.
Lemma W_val : W = 115792089237316195423570985008687907853269984665640564039457584007913129639936.
Proof. reflexivity. Qed.
Lemma W_B : W = B * B * B * B.
Proof. rewrite B_val, W_val. reflexivity. Qed.
Lemma W_pos : 0 < W.
Proof. rewrite W_val. lia. Qed.

(** pp_ / pp_mont: -p^(-1) mod 2^64 (zm2.cpp:3306-3318, 3624-3633). *)
Definition cpp (c : cfg) : Z := if snark c then 9786893198990664585 else 595423277050246629.
Lemma cpp_ok c : (cp c * cpp c + 1) mod B = 0.
Proof. rewrite B_val. destruct c; vm_compute; reflexivity. Qed.
Lemma cpp_range c : 0 <= cpp c < B.
Proof. rewrite B_val. destruct c; vm_compute; split; congruence. Qed.

(** montgomeryR_ = 2^256 mod p, montgomeryR2_ = R * R mod p (zm2.cpp:3636-3642). *)
Definition cR (c : cfg) : Z := W mod cp c.
Definition cR2 (c : cfg) : Z := (cR c * cR c) mod cp c.

Lemma cp_bounds c : 2 ^ 253 < cp c < 2 ^ 254.
Proof. destruct c; vm_compute; split; reflexivity. Qed.
Lemma cp_lt_W c : 5 * cp c < W.
Proof. rewrite W_val. destruct c; vm_compute; reflexivity. Qed.
(** 6p fits in 256 bits for BNb only. *)
Lemma cp_6 : 6 * cp BNb < W /\ W < 7 * cp BNb /\ W < 6 * cp SNARK1.
Proof. rewrite W_val. vm_compute. repeat split; reflexivity. Qed.
Lemma cp_mod4 c : cp c mod 4 = 3.
Proof. destruct c; reflexivity. Qed.
Lemma cp_odd c : cp c mod 2 = 1.
Proof. destruct c; reflexivity. Qed.
Lemma cp_pos c : 0 < cp c.
Proof. destruct c; reflexivity. Qed.
Global Opaque W cp cr cpp.
