(** The generators of E(Fp) used by the test-suite have order r: the chain of
    doublings and additions recorded in Gen1Tab.v leads to (r - 1) G = -G. *)
From Coq Require Import ZArith Lia Ring List Bool.
From Verif Require Import Base FpSpec Pock Primes Cfg FpProofs TowerSpec TowerField Poly EcSpec EcGroup EcProofs EcInst EcApi EcFrob EcZ Gen1Tab.
Import ListNotations.
Local Open Scope Z_scope.

Section Chk.
  Variable p : Z.
  Definition eqp (n q : Z) : bool := n =? p * q.
  Definition dchk (x y l u v q0 q1 q2 : Z) : bool :=
    (0 <? y) && (y <? p) && eqp (2 * (l * y) - 3 * (x * x)) q0 && eqp (l * l - 2 * x - u) q1 && eqp (l * (x - u) - y - v) q2.
  Definition achk (x y a b l u v q0 q1 q2 : Z) : bool :=
    negb (x =? a) && (0 <=? x) && (x <? p) && (0 <=? a) && (a <? p) && eqp (l * (a - x) - (b - y)) q0 && eqp (l * l - x - a - u) q1 && eqp (l * (x - u) - y - v) q2.
  Fixpoint chain (gx gy x y n : Z) (h : list stp) : option (Z * Z * Z) :=
    match h with
    | [] => Some (x, y, n)
    | Dbl l u v q0 q1 q2 :: t => if dchk x y l u v q0 q1 q2 then chain gx gy u v (2 * n) t else None
    | Adp l u v q0 q1 q2 :: t => if achk x y gx gy l u v q0 q1 q2 then chain gx gy u v (n + 1) t else None
    | Adm l u v q0 q1 q2 :: t => if achk x y gx (- gy) l u v q0 q1 q2 then chain gx gy u v (n - 1) t else None
    end.
End Chk.
Section Gen1.
Variable c : cfg.
Local Notation p := (cp c).
Local Notation K := (FpF c).
Local Notation onE := (on_curve K (cb1 c)).
Local Notation "A +++ B" := (ec_add K A B) (at level 50, left associativity).
Local Notation zm := (zmul K).
Local Notation P2 x y := (@EAff K (mk p x) (mk p y)).
Local Notation ZL L := (L K (cb1 c) (two1 c) (three1 c) (cb1_nz c)).
Lemma m_add x y : @radd K (mk p x) (mk p y) = mk p (x + y). Proof. symmetry. apply mk_add. Qed.
Lemma m_sub x y : @rsub K (mk p x) (mk p y) = mk p (x - y). Proof. symmetry. apply mk_sub. Qed.
Lemma m_mul x y : @rmul K (mk p x) (mk p y) = mk p (x * y). Proof. symmetry. apply mk_mul. Qed.
Lemma m_eq x y q : x - y = p * q -> mk p x = mk p y.
Proof. intros H. apply mk_eq. replace x with (y + q * p) by lia. apply Z.mod_add. pose proof (cp_pos c). lia. Qed.
Lemma m_1 : (ro : K) = mk p 1. Proof. reflexivity. Qed.
Lemma dchk_ok x y l u v q0 q1 q2 : dchk p x y l u v q0 q1 q2 = true -> P2 x y +++ P2 x y = P2 u v.
Proof.
  unfold dchk, eqp. rewrite !andb_true_iff, !Z.eqb_eq, !Z.ltb_lt. intros [[[[Y0 Y1] C0] C1] C2].
  assert (Ny : (mk p y : K) <> rz).
  { intros F. change (mk p y = mk p 0) in F. apply mk_eq in F. rewrite Z.mod_0_l, Z.mod_small in F by lia. lia. }
  cbn [ec_add]. destruct (fdec K (mk p x) (mk p x)) as [_|N]; [|contradiction N; reflexivity].
  match goal with |- context [fdec K ?a ?b] => destruct (fdec K a b) as [F|_] end.
  { exfalso. apply (mul_nz K (radd ro ro) (mk p y) (two1 c) Ny). change (mk p y = fopp (mk p y)) in F. rewrite <- mk_opp in F. rewrite m_1, m_add, m_mul.
    apply mk_eq in F. change (mk p ((1 + 1) * y) = mk p 0). apply mk_eq. replace ((1 + 1) * y) with (y - (- y)) by lia. rewrite Zminus_mod, F, Z.sub_diag. reflexivity. }
  match goal with |- ec_chord K ?q _ _ _ = _ => assert (L : q = mk p l) end.
  { apply (rdiv_eq K); [apply (mul_nz K); [exact (two1 c)|exact Ny]|]. rewrite m_1, !m_add, !m_mul. symmetry. eapply m_eq. etransitivity; [|exact C0]. ring. }
  rewrite L. unfold ec_chord. cbv zeta. rewrite !m_mul, !m_sub, !m_mul, !m_sub.
  assert (U : mk p (l * l - x - x) = mk p u) by (eapply m_eq; etransitivity; [|exact C1]; ring).
  f_equal; [exact U|]. transitivity (mk p (l * (x - u) - y)); [|eapply m_eq; exact C2].
  rewrite !mk_sub, !mk_mul, !mk_sub, ?mk_mul. rewrite !mk_sub in U. rewrite !mk_mul in U. rewrite U. reflexivity.
Qed.
Lemma achk_ok x y a b l u v q0 q1 q2 : achk p x y a b l u v q0 q1 q2 = true -> P2 x y +++ P2 a b = P2 u v.
Proof.
  unfold achk, eqp. rewrite !andb_true_iff, negb_true_iff, !Z.eqb_eq, Z.eqb_neq, !Z.ltb_lt, !Z.leb_le. intros [[[[[[[N X0] X1] A0] A1] C0] C1] C2].
  assert (Nx : (mk p x : K) <> mk p a).
  { intros F. apply mk_eq in F. rewrite !Z.mod_small in F by lia. contradiction. }
  cbn [ec_add]. destruct (fdec K (mk p x) (mk p a)) as [F|_]; [contradiction|].
  match goal with |- ec_chord K ?q _ _ _ = _ => assert (L : q = mk p l) end.
  { apply (rdiv_eq K).
    - rewrite m_sub. intros F. apply Nx. change (mk p (a - x) = mk p 0) in F. apply mk_eq in F. apply mk_eq. replace x with (a - (a - x)) by ring. rewrite Zminus_mod, F, Z.mod_0_l, Z.sub_0_r, Zmod_mod by (pose proof (cp_pos c); lia). reflexivity.
    - rewrite !m_sub, m_mul. symmetry. eapply m_eq. exact C0. }
  rewrite L. unfold ec_chord. cbv zeta. rewrite !m_mul, !m_sub, !m_mul, !m_sub.
  assert (U : mk p (l * l - x - a) = mk p u) by (eapply m_eq; exact C1).
  f_equal; [exact U|]. transitivity (mk p (l * (x - u) - y)); [|eapply m_eq; exact C2].
  rewrite !mk_sub, !mk_mul, !mk_sub, ?mk_mul. rewrite !mk_sub in U. rewrite !mk_mul in U. rewrite U. reflexivity.
Qed.
Lemma neg_P2 x y : ec_neg K (P2 x y) = P2 x (- y).
Proof. cbn [ec_neg]. f_equal. symmetry. apply mk_opp. Qed.
Lemma chain_ok gx gy h : onE (P2 gx gy) -> forall x y n x' y' n', chain p gx gy x y n h = Some (x', y', n') -> P2 x y = zm n (P2 gx gy) -> P2 x' y' = zm n' (P2 gx gy).
Proof.
  intros HG. induction h as [|[l u v q0 q1 q2|l u v q0 q1 q2|l u v q0 q1 q2] h IH]; intros x y n x' y' n' H E; cbn [chain] in H.
  - injection H as <- <- <-. exact E.
  - destruct (dchk p x y l u v q0 q1 q2) eqn:D; [|discriminate H]. apply (IH u v (2 * n) x' y' n' H). rewrite <- (dchk_ok _ _ _ _ _ _ _ _ D), E.
    replace (2 * n) with (n + n) by ring. symmetry. apply (ZL zmul_add). exact HG.
  - destruct (achk p x y gx gy l u v q0 q1 q2) eqn:D; [|discriminate H]. apply (IH u v (n + 1) x' y' n' H). rewrite <- (achk_ok _ _ _ _ _ _ _ _ _ _ D), E.
    rewrite (ZL zmul_add) by exact HG. rewrite zmul_1. reflexivity.
  - destruct (achk p x y gx (- gy) l u v q0 q1 q2) eqn:D; [|discriminate H]. apply (IH u v (n - 1) x' y' n' H). rewrite <- (achk_ok _ _ _ _ _ _ _ _ _ _ D), E.
    unfold Z.sub. rewrite (ZL zmul_add) by exact HG. rewrite (ZL zmul_neg) by exact HG. rewrite zmul_1, neg_P2. reflexivity.
Qed.
End Gen1.
Definition gx0 (c : cfg) : Z := match c with SNARK1 => 1 | _ => cp c - 1 end.
Lemma gx0_pt c : ptP G1 c (gen1 c) = @EAff (FpF c) (mk (cp c) (gx0 c)) (mk (cp c) (g1y c)).
Proof.
  rewrite gen1_pt. f_equal. apply mk_eq. unfold g1x, gx0. destruct c; try reflexivity; (rewrite <- (Z.mod_add (-1) 1) by (pose proof (cp_pos BNb); pose proof (cp_pos SNARK2); lia); f_equal; ring).
Qed.
Lemma HGn c x y : x = gx0 c -> y = g1y c -> on_curve (FpF c) (cb1 c) (@EAff (FpF c) (mk (cp c) x) (mk (cp c) y)).
Proof. intros -> ->. rewrite <- gx0_pt. exact (gen_on G1 c). Qed.
Lemma kBNb_0 : chain (cp BNb) 0x2523648240000001ba344d80000000086121000000000013a700000000000012 1 0x2523648240000001ba344d80000000086121000000000013a700000000000012 0x1 0x1 hBNb_0 = Some (0xfcf3928054f9d7761931d3c96ee83a307e68854817931bdd8d8cd5b65e366a6, 0x2c3634b224d9b345f02eeb7f48383042dcac85399e3e0c537670faa30640b77, 0x1291b24).
Proof. vm_compute. reflexivity. Qed.
Lemma kBNb_1 : chain (cp BNb) 0x2523648240000001ba344d80000000086121000000000013a700000000000012 1 0xfcf3928054f9d7761931d3c96ee83a307e68854817931bdd8d8cd5b65e366a6 0x2c3634b224d9b345f02eeb7f48383042dcac85399e3e0c537670faa30640b77 0x1291b24 hBNb_1 = Some (0x21884359e6b0e19feb542fd12c95ce7a8a7469289d8bec5528d77190e6fcf2d9, 0x24fc3d3545e2275e98559e455698dc8af5b8701a788567a6ffbaca11dc7718be, 0x4a46c904800000).
Proof. vm_compute. reflexivity. Qed.
Lemma kBNb_2 : chain (cp BNb) 0x2523648240000001ba344d80000000086121000000000013a700000000000012 1 0x21884359e6b0e19feb542fd12c95ce7a8a7469289d8bec5528d77190e6fcf2d9 0x24fc3d3545e2275e98559e455698dc8af5b8701a788567a6ffbaca11dc7718be 0x4a46c904800000 hBNb_2 = Some (0x772faf2d50d76f4d73fe41745f2d73698a38fc1662ef3aaabc231b74c4d8931, 0x23e5f1d65bc95308aa39e48aab326e7382abf3248bb7275920507ac28ebed65c, 0x948d920900000006e8d0).
Proof. vm_compute. reflexivity. Qed.
Lemma kBNb_3 : chain (cp BNb) 0x2523648240000001ba344d80000000086121000000000013a700000000000012 1 0x772faf2d50d76f4d73fe41745f2d73698a38fc1662ef3aaabc231b74c4d8931 0x23e5f1d65bc95308aa39e48aab326e7382abf3248bb7275920507ac28ebed65c 0x948d920900000006e8d0 hBNb_3 = Some (0xcdad8cda5304e4722833eb7cb9dc10464f81f11eb120c07da849af573b808c5, 0x22dda8fec9d446710478be1986b8d67f676a3fff144d4d2759ff0306f9b77d73, 0x948d920900000006e8d13600000).
Proof. vm_compute. reflexivity. Qed.
Lemma kBNb_4 : chain (cp BNb) 0x2523648240000001ba344d80000000086121000000000013a700000000000012 1 0xcdad8cda5304e4722833eb7cb9dc10464f81f11eb120c07da849af573b808c5 0x22dda8fec9d446710478be1986b8d67f676a3fff144d4d2759ff0306f9b77d73 0x948d920900000006e8d13600000 hBNb_4 = Some (0xa847d4c60030b77093097151ffb5f36cbd9c84fef39d6452a781d5faed32038, 0x6b22c3173e17f57e7e4548595595df84cd4bea51b341d9f42dc1e13d284d695, 0x1291b24120000000dd1a26c000000003ffd).
Proof. vm_compute. reflexivity. Qed.
Lemma kBNb_5 : chain (cp BNb) 0x2523648240000001ba344d80000000086121000000000013a700000000000012 1 0xa847d4c60030b77093097151ffb5f36cbd9c84fef39d6452a781d5faed32038 0x6b22c3173e17f57e7e4548595595df84cd4bea51b341d9f42dc1e13d284d695 0x1291b24120000000dd1a26c000000003ffd hBNb_5 = Some (0x13f304d82c3df07496d9b45f83c9de1ff9a67917887af280420f96f5fbc030d3, 0x1e2e3e524a965945eb813060ceb6e1d773d7b31e3ae27435b4659fc8736ada5a, 0x948d920900000006e8d136000000001ffe7e000000).
Proof. vm_compute. reflexivity. Qed.
Lemma kBNb_6 : chain (cp BNb) 0x2523648240000001ba344d80000000086121000000000013a700000000000012 1 0x13f304d82c3df07496d9b45f83c9de1ff9a67917887af280420f96f5fbc030d3 0x1e2e3e524a965945eb813060ceb6e1d773d7b31e3ae27435b4659fc8736ada5a 0x948d920900000006e8d136000000001ffe7e000000 hBNb_6 = Some (0xa285b86c2a14ceee32f3ba364bc2c15c8e65f9f4059a33c94df3b0c073ef4a1, 0x16b64ce3a8ff4194bac1fecf4c1d8c60844e27987c98456cd414270b5a993525, 0x1291b24120000000dd1a26c000000003ffcfc0000000000850).
Proof. vm_compute. reflexivity. Qed.
Lemma kBNb_7 : chain (cp BNb) 0x2523648240000001ba344d80000000086121000000000013a700000000000012 1 0xa285b86c2a14ceee32f3ba364bc2c15c8e65f9f4059a33c94df3b0c073ef4a1 0x16b64ce3a8ff4194bac1fecf4c1d8c60844e27987c98456cd414270b5a993525 0x1291b24120000000dd1a26c000000003ffcfc0000000000850 hBNb_7 = Some (0xd3443ea1213a91436eac6adfbd5730a2fb1bfb125e0298c9f8085beff794a97, 0xec20737aac066ab69c334fd7fd7c914e51055933e548fa2c7dccb9ad62a64cd, 0x948d920900000006e8d136000000001ffe7e000000000042840000000).
Proof. vm_compute. reflexivity. Qed.
Lemma kBNb_8 : chain (cp BNb) 0x2523648240000001ba344d80000000086121000000000013a700000000000012 1 0xd3443ea1213a91436eac6adfbd5730a2fb1bfb125e0298c9f8085beff794a97 0xec20737aac066ab69c334fd7fd7c914e51055933e548fa2c7dccb9ad62a64cd 0x948d920900000006e8d136000000001ffe7e000000000042840000000 hBNb_8 = Some (0x2523648240000001ba344d80000000086121000000000013a700000000000012, 0x2523648240000001ba344d80000000086121000000000013a700000000000012, 0x2523648240000001ba344d8000000007ff9f800000000010a10000000000000c).
Proof. vm_compute. reflexivity. Qed.
Lemma kSNARK1_0 : chain (cp SNARK1) 0x1 2 0x1 0x2 0x1 hSNARK1_0 = Some (0x1df4e1725c025a9c626a1e27d2e1a5320605bda577720c7397db7f3f7600227c, 0x2acfe886b86bdaf3b8ed222f1c0a3a73c099686cf3b71b9ff8eae7525d3f7d9a, 0xc1913a).
Proof. vm_compute. reflexivity. Qed.
Lemma kSNARK1_1 : chain (cp SNARK1) 0x1 2 0x1df4e1725c025a9c626a1e27d2e1a5320605bda577720c7397db7f3f7600227c 0x2acfe886b86bdaf3b8ed222f1c0a3a73c099686cf3b71b9ff8eae7525d3f7d9a 0xc1913a hSNARK1_1 = Some (0x6d4e3c398a233ecd52d8c38daec14a7fa30bf7d87b3ac4cd82807011f3b1bb, 0x2725878c5b1155c9a103a243131449a065ad55738ad982c2d43f704612bdce86, 0x60c89ce5c263).
Proof. vm_compute. reflexivity. Qed.
Lemma kSNARK1_2 : chain (cp SNARK1) 0x1 2 0x6d4e3c398a233ecd52d8c38daec14a7fa30bf7d87b3ac4cd82807011f3b1bb 0x2725878c5b1155c9a103a243131449a065ad55738ad982c2d43f704612bdce86 0x60c89ce5c263 hSNARK1_2 = Some (0x962ba09c26825836ced77ec4b19cc78d799afeaa6af3db744146a6a97d606e6, 0x2b6f54efbc0f5d31a33c2c2270072a78fd14a309b9813730ce100704f1291444, 0xc19139cb84c680a6e1).
Proof. vm_compute. reflexivity. Qed.
Lemma kSNARK1_3 : chain (cp SNARK1) 0x1 2 0x962ba09c26825836ced77ec4b19cc78d799afeaa6af3db744146a6a97d606e6 0x2b6f54efbc0f5d31a33c2c2270072a78fd14a309b9813730ce100704f1291444 0xc19139cb84c680a6e1 hSNARK1_3 = Some (0x2c93636de30e35e6a40072c725bdeae94f407537dd58214b5d2ecf3535384246, 0xf0751af657d0ea75701a5e286f5c91730521ee54d298713e97cbe4896d3032d, 0xc19139cb84c680a6e14116da).
Proof. vm_compute. reflexivity. Qed.
Lemma kSNARK1_4 : chain (cp SNARK1) 0x1 2 0x2c93636de30e35e6a40072c725bdeae94f407537dd58214b5d2ecf3535384246 0xf0751af657d0ea75701a5e286f5c91730521ee54d298713e97cbe4896d3032d 0xc19139cb84c680a6e14116da hSNARK1_4 = Some (0x26f8791cc8a15cef3a7e4a10d98a8300670774d44da7e26dd9f93f6bc630c6c7, 0x14df97b6726e676f6bbb67f0f80f7036f708c637a299576407cd3e7d9c8cf618, 0x183227397098d014dc2822db40c0ac4).
Proof. vm_compute. reflexivity. Qed.
Lemma kSNARK1_5 : chain (cp SNARK1) 0x1 2 0x26f8791cc8a15cef3a7e4a10d98a8300670774d44da7e26dd9f93f6bc630c6c7 0x14df97b6726e676f6bbb67f0f80f7036f708c637a299576407cd3e7d9c8cf618 0x183227397098d014dc2822db40c0ac4 hSNARK1_5 = Some (0x20dd46493702110f0cb63565602a58517c1ace0127e404590b6d677cf4a59291, 0x2b769408af33c6e5fb29ab3f64caa957ef39bd43dcdee199f60c4182c55a674, 0x183227397098d014dc2822db40c0ac2e941a0).
Proof. vm_compute. reflexivity. Qed.
Lemma kSNARK1_6 : chain (cp SNARK1) 0x1 2 0x20dd46493702110f0cb63565602a58517c1ace0127e404590b6d677cf4a59291 0x2b769408af33c6e5fb29ab3f64caa957ef39bd43dcdee199f60c4182c55a674 0x183227397098d014dc2822db40c0ac2e941a0 hSNARK1_6 = Some (0x2b9dd30a75a29ca52955f000d39e4bfa413dd83c235313b781a97832485ee5df, 0x1eeeefec22bb44659c9118f8e23e6563e3bb8573a09274e13f06bb5b1191bc8c, 0x183227397098d014dc2822db40c0ac2e9419f4243ce).
Proof. vm_compute. reflexivity. Qed.
Lemma kSNARK1_7 : chain (cp SNARK1) 0x1 2 0x2b9dd30a75a29ca52955f000d39e4bfa413dd83c235313b781a97832485ee5df 0x1eeeefec22bb44659c9118f8e23e6563e3bb8573a09274e13f06bb5b1191bc8c 0x183227397098d014dc2822db40c0ac2e9419f4243ce hSNARK1_7 = Some (0xf333a97addfd9fb6d2ba72b2e66a7a0ba01b0f58fec937e9ed106aa8ce23290, 0x1b79cde0b51c2b45e797ea69ac7dd7060be1cc6e1b7d6e53b94a8e72a842770c, 0x183227397098d014dc2822db40c0ac2e9419f4243cdcb848a).
Proof. vm_compute. reflexivity. Qed.
Lemma kSNARK1_8 : chain (cp SNARK1) 0x1 2 0xf333a97addfd9fb6d2ba72b2e66a7a0ba01b0f58fec937e9ed106aa8ce23290 0x1b79cde0b51c2b45e797ea69ac7dd7060be1cc6e1b7d6e53b94a8e72a842770c 0x183227397098d014dc2822db40c0ac2e9419f4243cdcb848a hSNARK1_8 = Some (0xbef95b1e7bd0fe93124f2fc885c0bd44b4325302b1d5f4d8a4fb66908bb3645, 0x2773e8f391affede28b28e55458fd64dde92bc2a482d351ee8ae994cfaa4868, 0x30644e72e131a029b85045b68181585d2833e84879b9709143e1f59).
Proof. vm_compute. reflexivity. Qed.
Lemma kSNARK1_9 : chain (cp SNARK1) 0x1 2 0xbef95b1e7bd0fe93124f2fc885c0bd44b4325302b1d5f4d8a4fb66908bb3645 0x2773e8f391affede28b28e55458fd64dde92bc2a482d351ee8ae994cfaa4868 0x30644e72e131a029b85045b68181585d2833e84879b9709143e1f59 hSNARK1_9 = Some (0x2a202ea6d300915fbd7f14494e7a70fd36e5b697ee30ec985602e856e97887d2, 0x314dcadff9b95c896cae3a28cded48c42baa7a4f5c1d46615fcbde763819027, 0xc19139cb84c680a6e14116da06056174a0cfa121e6e5c2450f87d64fc00000).
Proof. vm_compute. reflexivity. Qed.
Lemma kSNARK1_10 : chain (cp SNARK1) 0x1 2 0x2a202ea6d300915fbd7f14494e7a70fd36e5b697ee30ec985602e856e97887d2 0x314dcadff9b95c896cae3a28cded48c42baa7a4f5c1d46615fcbde763819027 0xc19139cb84c680a6e14116da06056174a0cfa121e6e5c2450f87d64fc00000 hSNARK1_10 = Some (0x1, 0x30644e72e131a029b85045b68181585d97816a916871ca8d3c208c16d87cfd45, 0x30644e72e131a029b85045b68181585d2833e84879b9709143e1f593f0000000).
Proof. vm_compute. reflexivity. Qed.
Lemma kSNARK2_0 : chain (cp SNARK2) 0x30644e72e131a029b85045b68181585d97816a916871ca8d3c208c16d87cfd46 9 0x30644e72e131a029b85045b68181585d97816a916871ca8d3c208c16d87cfd46 0x9 0x1 hSNARK2_0 = Some (0x80e3a1c7a624a7b7f68b35f7538d40fd983964f26241a56299cc29dce8f253c, 0x2c3ac3c6a370c3895d3d63fd612e76cae96d964cd4d710649351a2e14c1bbfcf, 0xc1913a).
Proof. vm_compute. reflexivity. Qed.
Lemma kSNARK2_1 : chain (cp SNARK2) 0x30644e72e131a029b85045b68181585d97816a916871ca8d3c208c16d87cfd46 9 0x80e3a1c7a624a7b7f68b35f7538d40fd983964f26241a56299cc29dce8f253c 0x2c3ac3c6a370c3895d3d63fd612e76cae96d964cd4d710649351a2e14c1bbfcf 0xc1913a hSNARK2_1 = Some (0xba6d409a47c4c5eb8e9f597c966acda4a3f785fb588ece32a982b95b40ad9bb, 0x234f2c688a9c6191789254831005d01634d74371a63f10867993f9906f691af, 0x60c89ce5c263).
Proof. vm_compute. reflexivity. Qed.
Lemma kSNARK2_2 : chain (cp SNARK2) 0x30644e72e131a029b85045b68181585d97816a916871ca8d3c208c16d87cfd46 9 0xba6d409a47c4c5eb8e9f597c966acda4a3f785fb588ece32a982b95b40ad9bb 0x234f2c688a9c6191789254831005d01634d74371a63f10867993f9906f691af 0x60c89ce5c263 hSNARK2_2 = Some (0x49b5a6af94fd5d0135689efd74fa061d27c60cffc0ae19516c89dbf8cd0a30, 0xcfdf6192e86c32b30e5399725636d9fac2fc8809657437160f6dd2d7b5fe7c6, 0xc19139cb84c680a6e1).
Proof. vm_compute. reflexivity. Qed.
Lemma kSNARK2_3 : chain (cp SNARK2) 0x30644e72e131a029b85045b68181585d97816a916871ca8d3c208c16d87cfd46 9 0x49b5a6af94fd5d0135689efd74fa061d27c60cffc0ae19516c89dbf8cd0a30 0xcfdf6192e86c32b30e5399725636d9fac2fc8809657437160f6dd2d7b5fe7c6 0xc19139cb84c680a6e1 hSNARK2_3 = Some (0x3727dc59849796b55b45aabb03f9ebdadd19fb0f4f5978925de8f7c3fc30e45, 0x1d358e46ec5aaa882b468b72ddc8f3fffcf1c6ebbc7fb8f76ff29be28c6bc7f0, 0xc19139cb84c680a6e14116da).
Proof. vm_compute. reflexivity. Qed.
Lemma kSNARK2_4 : chain (cp SNARK2) 0x30644e72e131a029b85045b68181585d97816a916871ca8d3c208c16d87cfd46 9 0x3727dc59849796b55b45aabb03f9ebdadd19fb0f4f5978925de8f7c3fc30e45 0x1d358e46ec5aaa882b468b72ddc8f3fffcf1c6ebbc7fb8f76ff29be28c6bc7f0 0xc19139cb84c680a6e14116da hSNARK2_4 = Some (0x14b33e20b84f9f9c948afb36287654179021b89b66d89ee812fc89e5bf2181b2, 0x4d82d49c91b1e6fd2c066c223ba2fb4e3b578f948dacf52954348fa409fc29f, 0x183227397098d014dc2822db40c0ac4).
Proof. vm_compute. reflexivity. Qed.
Lemma kSNARK2_5 : chain (cp SNARK2) 0x30644e72e131a029b85045b68181585d97816a916871ca8d3c208c16d87cfd46 9 0x14b33e20b84f9f9c948afb36287654179021b89b66d89ee812fc89e5bf2181b2 0x4d82d49c91b1e6fd2c066c223ba2fb4e3b578f948dacf52954348fa409fc29f 0x183227397098d014dc2822db40c0ac4 hSNARK2_5 = Some (0x1bcd6f4aa6693a1938346069ec950626e74b45f868278c3088b12d28ec1f2f0, 0x1f7f49c3849f1305ca3ba76d10837482b0bfbdfc76c2b5b996a8ed35241cfc1d, 0x183227397098d014dc2822db40c0ac2e941a0).
Proof. vm_compute. reflexivity. Qed.
Lemma kSNARK2_6 : chain (cp SNARK2) 0x30644e72e131a029b85045b68181585d97816a916871ca8d3c208c16d87cfd46 9 0x1bcd6f4aa6693a1938346069ec950626e74b45f868278c3088b12d28ec1f2f0 0x1f7f49c3849f1305ca3ba76d10837482b0bfbdfc76c2b5b996a8ed35241cfc1d 0x183227397098d014dc2822db40c0ac2e941a0 hSNARK2_6 = Some (0x27fe07e378e660e712773506c18bfb4edef5336fd6c8a791deda77862e883119, 0x81fdb103c62261781c091a90c5a2204b1c76c6dc83fcdab7e840bd0d873b592, 0x183227397098d014dc2822db40c0ac2e9419f4243ce).
Proof. vm_compute. reflexivity. Qed.
Lemma kSNARK2_7 : chain (cp SNARK2) 0x30644e72e131a029b85045b68181585d97816a916871ca8d3c208c16d87cfd46 9 0x27fe07e378e660e712773506c18bfb4edef5336fd6c8a791deda77862e883119 0x81fdb103c62261781c091a90c5a2204b1c76c6dc83fcdab7e840bd0d873b592 0x183227397098d014dc2822db40c0ac2e9419f4243ce hSNARK2_7 = Some (0x264d687f63a7a0ec3914acd9e85329c375bd046bc3344d93f945f56ea87dcf7e, 0x1c220dd93884f01618efdd4df963f3f3be57aa7373d9d961764ec36a0e5ee434, 0x183227397098d014dc2822db40c0ac2e9419f4243cdcb848a).
Proof. vm_compute. reflexivity. Qed.
Lemma kSNARK2_8 : chain (cp SNARK2) 0x30644e72e131a029b85045b68181585d97816a916871ca8d3c208c16d87cfd46 9 0x264d687f63a7a0ec3914acd9e85329c375bd046bc3344d93f945f56ea87dcf7e 0x1c220dd93884f01618efdd4df963f3f3be57aa7373d9d961764ec36a0e5ee434 0x183227397098d014dc2822db40c0ac2e9419f4243cdcb848a hSNARK2_8 = Some (0xebd548b1db40cd954a82e4121c5dc015b33b716ddbc08fecf4d1c68aebe6536, 0x177eec804f1dbdad977727f60ad071e8376496c327dc7c9bddede0dfd2f0d204, 0x30644e72e131a029b85045b68181585d2833e84879b9709143e1f59).
Proof. vm_compute. reflexivity. Qed.
Lemma kSNARK2_9 : chain (cp SNARK2) 0x30644e72e131a029b85045b68181585d97816a916871ca8d3c208c16d87cfd46 9 0xebd548b1db40cd954a82e4121c5dc015b33b716ddbc08fecf4d1c68aebe6536 0x177eec804f1dbdad977727f60ad071e8376496c327dc7c9bddede0dfd2f0d204 0x30644e72e131a029b85045b68181585d2833e84879b9709143e1f59 hSNARK2_9 = Some (0x154e1cb2f3f08e80616cc41cb3d0eaf37d9e5afdb931c3408d9a742ad94ad7f2, 0x26996efec6b89543db45bf06b47366b558e9894a5adeb7171754b2ac4f43fad9, 0xc19139cb84c680a6e14116da06056174a0cfa121e6e5c2450f87d64fc00000).
Proof. vm_compute. reflexivity. Qed.
Lemma kSNARK2_10 : chain (cp SNARK2) 0x30644e72e131a029b85045b68181585d97816a916871ca8d3c208c16d87cfd46 9 0x154e1cb2f3f08e80616cc41cb3d0eaf37d9e5afdb931c3408d9a742ad94ad7f2 0x26996efec6b89543db45bf06b47366b558e9894a5adeb7171754b2ac4f43fad9 0xc19139cb84c680a6e14116da06056174a0cfa121e6e5c2450f87d64fc00000 hSNARK2_10 = Some (0x30644e72e131a029b85045b68181585d97816a916871ca8d3c208c16d87cfd46, 0x30644e72e131a029b85045b68181585d97816a916871ca8d3c208c16d87cfd3e, 0x30644e72e131a029b85045b68181585d2833e84879b9709143e1f593f0000000).
Proof. vm_compute. reflexivity. Qed.
Lemma endBNb : @EAff (FpF BNb) (mk (cp BNb) 0x2523648240000001ba344d80000000086121000000000013a700000000000012) (mk (cp BNb) 0x2523648240000001ba344d80000000086121000000000013a700000000000012) = zmul (FpF BNb) 0x2523648240000001ba344d8000000007ff9f800000000010a10000000000000c (@EAff (FpF BNb) (mk (cp BNb) 0x2523648240000001ba344d80000000086121000000000013a700000000000012) (mk (cp BNb) 0x1)).
Proof.
  assert (HG : on_curve (FpF BNb) (cb1 BNb) (@EAff (FpF BNb) (mk (cp BNb) 0x2523648240000001ba344d80000000086121000000000013a700000000000012) (mk (cp BNb) 0x1))) by (apply (HGn BNb); reflexivity).
  apply (chain_ok BNb _ _ _ HG _ _ _ _ _ _ kBNb_8).
  apply (chain_ok BNb _ _ _ HG _ _ _ _ _ _ kBNb_7).
  apply (chain_ok BNb _ _ _ HG _ _ _ _ _ _ kBNb_6).
  apply (chain_ok BNb _ _ _ HG _ _ _ _ _ _ kBNb_5).
  apply (chain_ok BNb _ _ _ HG _ _ _ _ _ _ kBNb_4).
  apply (chain_ok BNb _ _ _ HG _ _ _ _ _ _ kBNb_3).
  apply (chain_ok BNb _ _ _ HG _ _ _ _ _ _ kBNb_2).
  apply (chain_ok BNb _ _ _ HG _ _ _ _ _ _ kBNb_1).
  apply (chain_ok BNb _ _ _ HG _ _ _ _ _ _ kBNb_0).
  symmetry. apply zmul_1.
Qed.
Lemma endSNARK1 : @EAff (FpF SNARK1) (mk (cp SNARK1) 0x1) (mk (cp SNARK1) 0x30644e72e131a029b85045b68181585d97816a916871ca8d3c208c16d87cfd45) = zmul (FpF SNARK1) 0x30644e72e131a029b85045b68181585d2833e84879b9709143e1f593f0000000 (@EAff (FpF SNARK1) (mk (cp SNARK1) 0x1) (mk (cp SNARK1) 0x2)).
Proof.
  assert (HG : on_curve (FpF SNARK1) (cb1 SNARK1) (@EAff (FpF SNARK1) (mk (cp SNARK1) 0x1) (mk (cp SNARK1) 0x2))) by (apply (HGn SNARK1); reflexivity).
  apply (chain_ok SNARK1 _ _ _ HG _ _ _ _ _ _ kSNARK1_10).
  apply (chain_ok SNARK1 _ _ _ HG _ _ _ _ _ _ kSNARK1_9).
  apply (chain_ok SNARK1 _ _ _ HG _ _ _ _ _ _ kSNARK1_8).
  apply (chain_ok SNARK1 _ _ _ HG _ _ _ _ _ _ kSNARK1_7).
  apply (chain_ok SNARK1 _ _ _ HG _ _ _ _ _ _ kSNARK1_6).
  apply (chain_ok SNARK1 _ _ _ HG _ _ _ _ _ _ kSNARK1_5).
  apply (chain_ok SNARK1 _ _ _ HG _ _ _ _ _ _ kSNARK1_4).
  apply (chain_ok SNARK1 _ _ _ HG _ _ _ _ _ _ kSNARK1_3).
  apply (chain_ok SNARK1 _ _ _ HG _ _ _ _ _ _ kSNARK1_2).
  apply (chain_ok SNARK1 _ _ _ HG _ _ _ _ _ _ kSNARK1_1).
  apply (chain_ok SNARK1 _ _ _ HG _ _ _ _ _ _ kSNARK1_0).
  symmetry. apply zmul_1.
Qed.
Lemma endSNARK2 : @EAff (FpF SNARK2) (mk (cp SNARK2) 0x30644e72e131a029b85045b68181585d97816a916871ca8d3c208c16d87cfd46) (mk (cp SNARK2) 0x30644e72e131a029b85045b68181585d97816a916871ca8d3c208c16d87cfd3e) = zmul (FpF SNARK2) 0x30644e72e131a029b85045b68181585d2833e84879b9709143e1f593f0000000 (@EAff (FpF SNARK2) (mk (cp SNARK2) 0x30644e72e131a029b85045b68181585d97816a916871ca8d3c208c16d87cfd46) (mk (cp SNARK2) 0x9)).
Proof.
  assert (HG : on_curve (FpF SNARK2) (cb1 SNARK2) (@EAff (FpF SNARK2) (mk (cp SNARK2) 0x30644e72e131a029b85045b68181585d97816a916871ca8d3c208c16d87cfd46) (mk (cp SNARK2) 0x9))) by (apply (HGn SNARK2); reflexivity).
  apply (chain_ok SNARK2 _ _ _ HG _ _ _ _ _ _ kSNARK2_10).
  apply (chain_ok SNARK2 _ _ _ HG _ _ _ _ _ _ kSNARK2_9).
  apply (chain_ok SNARK2 _ _ _ HG _ _ _ _ _ _ kSNARK2_8).
  apply (chain_ok SNARK2 _ _ _ HG _ _ _ _ _ _ kSNARK2_7).
  apply (chain_ok SNARK2 _ _ _ HG _ _ _ _ _ _ kSNARK2_6).
  apply (chain_ok SNARK2 _ _ _ HG _ _ _ _ _ _ kSNARK2_5).
  apply (chain_ok SNARK2 _ _ _ HG _ _ _ _ _ _ kSNARK2_4).
  apply (chain_ok SNARK2 _ _ _ HG _ _ _ _ _ _ kSNARK2_3).
  apply (chain_ok SNARK2 _ _ _ HG _ _ _ _ _ _ kSNARK2_2).
  apply (chain_ok SNARK2 _ _ _ HG _ _ _ _ _ _ kSNARK2_1).
  apply (chain_ok SNARK2 _ _ _ HG _ _ _ _ _ _ kSNARK2_0).
  symmetry. apply zmul_1.
Qed.
Lemma end_c c : @EAff (FpF c) (mk (cp c) (gx0 c)) (mk (cp c) (cp c - g1y c)) = zmul (FpF c) (cr c - 1) (@EAff (FpF c) (mk (cp c) (gx0 c)) (mk (cp c) (g1y c))).
Proof. destruct c; [exact endBNb|exact endSNARK1|exact endSNARK2]. Qed.
Section G.
Variable c : cfg.
Local Notation p := (cp c).
Local Notation K := (FpF c).
Lemma gen1_on : on_curve K (cb1 c) (ptP G1 c (gen1 c)).
Proof. exact (gen_on G1 c). Qed.
(** r G = O *)
Lemma gen1_r : zmul K (cr c) (ptP G1 c (gen1 c)) = EInf.
Proof.
  pose proof (end_c c) as E. pose proof gen1_on as HG. rewrite (gx0_pt c) in *. set (G := @EAff K (mk p (gx0 c)) (mk p (g1y c))) in *.
  replace (cr c) with (cr c - 1 + 1) by ring. rewrite (zmul_add K (cb1 c) (two1 c) (three1 c) (cb1_nz c)) by exact HG. rewrite <- E, zmul_1.
  rewrite (z_comm K (cb1 c) (two1 c) (three1 c) (cb1_nz c)); [|rewrite E; apply (zmul_on K (cb1 c) (two1 c) (three1 c) (cb1_nz c)); exact HG|exact HG].
  assert (N : @EAff K (mk p (gx0 c)) (mk p (p - g1y c)) = ec_neg K G).
  { unfold G. rewrite neg_P2. f_equal. apply mk_eq. replace (p - g1y c) with (- g1y c + 1 * p) by ring. apply Z.mod_add. pose proof (cp_pos c). lia. }
  rewrite N. apply z_neg.
Qed.
Lemma gen1_nz : ptP G1 c (gen1 c) <> EInf.
Proof. rewrite gen1_pt. discriminate. Qed.
End G.
