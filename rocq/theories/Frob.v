(** Powers of p in the tower: x^p, x^(p^2), x^(p^3), x^(p^6), x^(p^12), and the relations
    satisfied by the elements of order dividing p^4 - p^2 + 1. Independent of the code. *)
From Coq Require Import ZArith Znumtheory Zpow_facts Lia Ring.
From Verif Require Import Base Power PowerProofs Alg FpSpec Pock Cfg TowerSpec TowerField FpWit FpApiProofs.
Local Open Scope Z_scope.

Definition has_char (K : cring) (p : Z) : Prop := nm K rz radd (Z.to_nat p) ro = rz.

Lemma nm_quad (K : cring) (beta : K) n (a b : K) :
  nm (F2 K) (q0 K) (qadd K) n (mk2 a b) = mk2 (nm K rz radd n a) (nm K rz radd n b).
Proof. induction n as [|n IH]; [reflexivity|]. cbn [nm]. rewrite IH. reflexivity. Qed.
Lemma nm_cubic (K : cring) (x : K) n (a b c : K) :
  nm (F3 K) (k0 K) (kadd K) n (mk3 a b c) = mk3 (nm K rz radd n a) (nm K rz radd n b) (nm K rz radd n c).
Proof. induction n as [|n IH]; [reflexivity|]. cbn [nm]. rewrite IH. reflexivity. Qed.
Lemma char_quad K beta p : has_char K p -> has_char (quad K beta) p.
Proof.
  unfold has_char. intros H. cbn [car rz radd ro quad]. unfold q1. rewrite (nm_quad K beta), H.
  rewrite (nm_0 _ _ _ _ _ _ _ (rth K)). reflexivity.
Qed.
Lemma char_cubic K x p : has_char K p -> has_char (cubic K x) p.
Proof.
  unfold has_char. intros H. cbn [car rz radd ro cubic]. unfold k1. rewrite (nm_cubic K x), H.
  rewrite (nm_0 _ _ _ _ _ _ _ (rth K)). reflexivity.
Qed.
Lemma char_FpR p : 0 < p -> has_char (FpR p) p.
Proof.
  intros H. unfold has_char. cbn [car rz radd ro FpR]. rewrite nm_mk, Z2Nat.id by lia. apply mk_p.
Qed.

Section FrobK.
Local Open Scope r_scope.
Variable K : cring.
Variable p : Z.
Hypothesis Hp : prime p.
Hypothesis Hc : has_char K p.
Let Hp' : prime (Z.of_nat (Z.to_nat p)).
Proof. rewrite Z2Nat.id; [exact Hp|]. apply prime_ge_2 in Hp. lia. Qed.
Lemma fr_add (x y : K) : rpz (x + y) p = rpz x p + rpz y p.
Proof. apply (frob_add _ _ _ _ _ _ _ (rth K) _ Hp' Hc). Qed.
Lemma fr_opp (x : K) : rpz (- x) p = - rpz x p.
Proof. apply (frob_opp _ _ _ _ _ _ _ (rth K) _ Hp' Hc). Qed.
Lemma fr_mul (x y : K) : rpz (x * y) p = rpz x p * rpz y p.
Proof. apply rpz_mulb. Qed.
Lemma fr_0 : rpz (0 : K) p = 0.
Proof. apply rpz_zero. apply prime_ge_2 in Hp. lia. Qed.
End FrobK.

Lemma char_K2 c : has_char (K2 c) (cp c).
Proof. apply char_quad, char_FpR, cp_pos. Qed.
Lemma char_K6 c : has_char (K6 c) (cp c).
Proof. apply char_cubic, char_K2. Qed.
Lemma char_K12 c : has_char (K12 c) (cp c).
Proof. apply char_quad, char_K6. Qed.

Section FrobTower.
Local Open Scope r_scope.
Variable c : cfg.
Local Notation p := (cp c).
Add Ring FRf : (rth (FpR (cp c))).
Add Ring KR2f : (rth (K2 c)).
Add Ring KR6f : (rth (K6 c)).
Add Ring KR12f : (rth (K12 c)).
Ltac k2 := cbn [radd rmul rsub ropp rz ro K2 quad qadd qsub qopp qmul q0 q1 a2 b2 qconj].
Ltac k6 := cbn [radd rmul rsub ropp rz ro K6 cubic kadd ksub kopp kmul k0 k1 kgen a3 b3 c3].
Ltac k12 := cbn [radd rmul rsub ropp rz ro K12 quad qadd qsub qopp qmul q0 q1 a2 b2].

(** The embeddings *)
Definition e2 (a : FpR p) : K2 c := mk2 a 0.
Definition e6 (a : K2 c) : K6 c := mk3 a 0 0.
Definition e12 (a : K6 c) : K12 c := mk2 a 0.
Definition iu : K2 c := mk2 0 1.
Definition iv : K6 c := kgen (K2 c).
Definition iw : K12 c := mk2 0 1.
Lemma e2_pow a n : rpw (e2 a) n = e2 (rpw a n).
Proof.
  induction n as [|n IH]; [reflexivity|]. rewrite !rpw_S, IH. apply F2_eq; unfold e2; k2; ring.
Qed.
Lemma e6_pow a n : rpw (e6 a) n = e6 (rpw a n).
Proof.
  induction n as [|n IH]; [reflexivity|]. rewrite !rpw_S, IH. apply F3_eq; unfold e6; k6; ring.
Qed.
Lemma e12_pow a n : rpw (e12 a) n = e12 (rpw a n).
Proof.
  induction n as [|n IH]; [reflexivity|]. rewrite !rpw_S, IH. apply F2_eq; unfold e12; k12; ring.
Qed.
Lemma p6 : (6 * ((p - 1) / 6) = p - 1)%Z.
Proof. apply (h6_check c). Qed.
Lemma p6_pos : (0 < (p - 1) / 6)%Z.
Proof. pose proof p6. pose proof (cp_bounds c). lia. Qed.

(** ** Fp2: x^p is the conjugate *)
Definition cj (x : K2 c) : K2 c := qconj (FpR p) x.
Lemma fr_Fp (a : FpR p) : rpz a p = a.
Proof. apply (fermat p (cp_prime c)). Qed.
Lemma iu_pow : rpz iu p = - iu.
Proof.
  pose proof (cp_mod4 c) as H4. pose proof (cp_pos c). pose proof (Z.div_mod p 4 ltac:(lia)) as E. rewrite H4 in E.
  assert (0 <= p / 4)%Z by (apply Z.div_pos; lia).
  rewrite E. rewrite rpz_add by lia. rewrite rpz_mul by lia.
  replace (rpz iu 4) with (1 : K2 c).
  2:{ unfold rpz, rpw. change (Z.to_nat 4) with 4%nat. cbn [npow]. apply F2_eq; unfold iu; k2; ring. }
  rewrite rpz_one. unfold rpz, rpw. change (Z.to_nat 3) with 3%nat. cbn [npow]. apply F2_eq; unfold iu; k2; ring.
Qed.
Lemma fr2 (x : K2 c) : rpz x p = cj x.
Proof.
  replace x with (e2 (a2 x) + e2 (b2 x) * iu) at 1 by (destruct x; apply F2_eq; unfold e2, iu; k2; ring).
  rewrite (fr_add _ _ (cp_prime c) (char_K2 c)), fr_mul, iu_pow. unfold rpz at 1 2. rewrite !e2_pow.
  fold (rpz (a2 x) p). fold (rpz (b2 x) p). rewrite !fr_Fp. apply F2_eq; unfold e2, iu, cj; k2; ring.
Qed.
Lemma cj_mul x y : cj (x * y) = cj x * cj y.
Proof. apply F2_eq; unfold cj; k2; ring. Qed.
Lemma cj_add x y : cj (x + y) = cj x + cj y.
Proof. apply F2_eq; unfold cj; k2; ring. Qed.
Lemma cj_cj x : cj (cj x) = x.
Proof. apply F2_eq; unfold cj; k2; ring. Qed.
Lemma cj_e2 a : cj (e2 a) = e2 a.
Proof. apply F2_eq; unfold cj, e2; k2; ring. Qed.

(** ** xi^((p-1)/6) and its norm, a primitive sixth root of unity *)
Definition g1 : K2 c := rpz (xi c) ((p - 1) / 6).
Definition hh : FpR p := n2 c g1.
Lemma n2_pow (x : K2 c) m : n2 c (rpw x m) = rpw (n2 c x) m.
Proof.
  induction m as [|m IH].
  - unfold n2, rpw. cbn [npow]. k2. ring.
  - rewrite !rpw_S, n2_mul, IH. reflexivity.
Qed.
Lemma hh_val : hh = mk p (powm (nxi c) p (Z.to_pos ((p - 1) / 6))).
Proof.
  unfold hh, g1, rpz. rewrite n2_pow, n2_xi. pose proof p6_pos.
  rewrite powm_spec, Z2Pos.id by assumption.
  transitivity (mk p (nxi c ^ ((p - 1) / 6))); [symmetry; apply mk_pow; lia|]. apply mk_eq. rewrite Zmod_mod. reflexivity.
Qed.
Lemma hh_6 : rpw hh 6 = 1.
Proof.
  unfold hh, g1, rpz. rewrite n2_pow, n2_xi, <- rpw_mul.
  replace (Z.to_nat ((p - 1) / 6) * 6)%nat with (Z.to_nat (p - 1)) by (pose proof p6; pose proof p6_pos; lia).
  apply (fermat1 p (cp_prime c)). intros E. apply mk_eq in E. rewrite Zmod_0_l in E.
  pose proof (cp_bounds c). unfold nxi, cxi_a in E. rewrite Z.mod_small in E by (destruct c; lia). destruct c; lia.
Qed.
Lemma hh_rel : hh * hh = hh - 1.
Proof.
  destruct (h6_check c) as (H2 & H3 & _).
  pose proof (cp_bounds c).
  assert (N2 : hh * hh <> 1).
  { rewrite hh_val. intros E. apply H2. change (fmul (mk p (powm (nxi c) p (Z.to_pos ((p - 1) / 6)))) (mk p (powm (nxi c) p (Z.to_pos ((p - 1) / 6)))) = mk p 1) in E.
    rewrite <- mk_mul in E. apply mk_eq in E. rewrite E. apply Z.mod_small. lia. }
  assert (N3 : hh * hh * hh <> 1).
  { rewrite hh_val. intros E. apply H3. 
    change (fmul (fmul (mk p (powm (nxi c) p (Z.to_pos ((p - 1) / 6)))) (mk p (powm (nxi c) p (Z.to_pos ((p - 1) / 6))))) (mk p (powm (nxi c) p (Z.to_pos ((p - 1) / 6)))) = mk p 1) in E.
    rewrite <- !mk_mul in E. apply mk_eq in E. rewrite E. apply Z.mod_small. lia. }
  pose proof hh_6 as E6. unfold rpw in E6. cbn [npow] in E6. generalize dependent hh. intros h N2 N3 E6. clear H2 H3.
  assert (E3 : h * h * h + 1 = 0).
  { destruct (field_integral _ (K1_field c) (h * h * h - 1) (h * h * h + 1)) as [E|E]; [| |exact E].
    - transitivity (h * (h * (h * (h * (h * (h * 1))))) - 1); [ring|]. rewrite E6. ring.
    - exfalso. apply N3. apply (rsub_eq (FpR p)). exact E. }
  apply (rsub_eq (FpR p)).
  destruct (field_integral _ (K1_field c) (h + 1) (h * h - (h - 1))) as [E|E]; [| |exact E].
  - rewrite <- E3. ring.
  - exfalso. apply N2. apply (rsub_eq (FpR p)). transitivity ((h + 1) * (h - 1)); [ring|]. rewrite E. ring.
Qed.
Lemma cj_g1 : cj g1 * g1 = e2 hh.
Proof. unfold cj, hh, n2, e2. destruct g1 as [a b]. apply F2_eq; k2; ring. Qed.

(** ** Fp6 and Fp12 *)
Lemma iv_cube : iv * (iv * iv) = e6 (xi c).
Proof. apply F3_eq; unfold iv, e6; k6; ring. Qed.
Lemma iv_pow : rpz iv p = iv * e6 (g1 * g1).
Proof.
  pose proof p6. pose proof p6_pos. replace p with (1 + 3 * (2 * ((p - 1) / 6)))%Z by lia.
  rewrite rpz_add by lia. rewrite rpz_mul by lia. rewrite rpz_1. f_equal.
  replace (rpz iv 3) with (e6 (xi c)).
  2:{ unfold rpz, rpw. change (Z.to_nat 3) with 3%nat. cbn [npow]. rewrite <- iv_cube. ring. }
  unfold rpz. rewrite e6_pow. f_equal. replace (Z.to_nat (2 * ((p - 1) / 6))) with (Z.to_nat ((p - 1) / 6) * 2)%nat by lia.
  rewrite rpw_mul, rpw_2. reflexivity.
Qed.
Lemma fr6 (x : K6 c) : rpz x p = mk3 (cj (a3 x)) (cj (b3 x) * (g1 * g1)) (cj (c3 x) * (g1 * g1 * (g1 * g1))).
Proof.
  replace x with (e6 (a3 x) + e6 (b3 x) * iv + e6 (c3 x) * (iv * iv)) at 1
    by (destruct x; apply F3_eq; unfold e6, iv; k6; ring).
  rewrite !(fr_add _ _ (cp_prime c) (char_K6 c)), !fr_mul, iv_pow.
  unfold rpz. rewrite !e6_pow. repeat match goal with |- context [rpw ?a (Z.to_nat p)] => fold (rpz a p) end.
  rewrite !fr2. apply F3_eq; unfold e6, iv; k6; ring.
Qed.
Lemma iw_pow : rpz iw p = iw * e12 (e6 g1).
Proof.
  pose proof p6. pose proof p6_pos. replace p with (1 + 6 * ((p - 1) / 6))%Z by lia.
  rewrite rpz_add by lia. rewrite rpz_mul by lia. rewrite rpz_1. f_equal.
  replace (rpz iw 6) with (e12 (e6 (xi c))).
  2:{ unfold rpz, rpw. change (Z.to_nat 6) with 6%nat. cbn [npow]. rewrite <- iv_cube.
      transitivity ((iw * iw) * ((iw * iw) * (iw * iw))); [|ring].
      replace (iw * iw) with (e12 iv) by (apply F2_eq; unfold iw, e12; cbn [rmul K12 quad qmul a2 b2]; fold iv; ring).
      apply F2_eq; unfold e12; k12; ring. }
  unfold rpz. rewrite e12_pow, e6_pow. reflexivity.
Qed.
(** The i-th power of w: coefficients in the order of the code, 1, v, v^2, w, vw, v^2 w
    = w^0, w^2, w^4, w^1, w^3, w^5. *)
Definition mk12 (a0 a1 a2 b0 b1 b2 : K2 c) : K12 c := mk2 (mk3 a0 a1 a2) (mk3 b0 b1 b2).
Definition twist (f : K2 c -> K2 c) (g : K2 c) (x : K12 c) : K12 c :=
  mk12 (f (a3 (a2 x))) (f (b3 (a2 x)) * (g * g)) (f (c3 (a2 x)) * (g * g * (g * g)))
       (f (a3 (b2 x)) * g) (f (b3 (b2 x)) * (g * g * g)) (f (c3 (b2 x)) * (g * g * g * g * g)).
Lemma fr12 (x : K12 c) : rpz x p = twist cj g1 x.
Proof.
  replace x with (e12 (a2 x) + e12 (b2 x) * iw) at 1 by (destruct x; apply F2_eq; unfold e12, iw; k12; ring).
  rewrite (fr_add _ _ (cp_prime c) (char_K12 c)), fr_mul, iw_pow.
  unfold rpz. rewrite !e12_pow. repeat match goal with |- context [rpw ?a (Z.to_nat p)] => fold (rpz a p) end.
  rewrite !fr6. unfold twist, mk12, e12, e6, iw. apply F2_eq; k12; apply F3_eq; k6; ring.
Qed.
Lemma twist_twist f f' g g' x : (forall x y, f' (x * y) = f' x * f' y) ->
  twist f' g' (twist f g x) = twist (fun x => f' (f x)) (f' g * g') x.
Proof.
  intros H. unfold twist, mk12. cbn [a2 b2 a3 b3 c3]. rewrite !H. apply F2_eq; cbn [a2 b2]; apply F3_eq; cbn [a3 b3 c3]; ring.
Qed.
Lemma twist_ext f f' g g' x : (forall y, f y = f' y) -> g = g' -> twist f g x = twist f' g' x.
Proof. intros H ->. unfold twist. rewrite !H. reflexivity. Qed.
Lemma ppos n : (0 <= n)%Z -> (0 <= p ^ n)%Z.
Proof. intros. apply Z.pow_nonneg. pose proof (cp_pos c). lia. Qed.
Definition idf (x : K2 c) := x.
Lemma fr12_2 (x : K12 c) : rpz x (p ^ 2) = twist idf (e2 hh) x.
Proof.
  rewrite Z.pow_2_r. pose proof (cp_pos c). rewrite rpz_mul by lia. rewrite !fr12, twist_twist by apply cj_mul.
  apply twist_ext; [intros; apply cj_cj|apply cj_g1].
Qed.
Lemma fr12_3 (x : K12 c) : rpz x (p ^ 3) = twist cj (e2 hh * g1) x.
Proof.
  replace (p ^ 3)%Z with (p ^ 2 * p)%Z by ring. pose proof (cp_pos c). rewrite rpz_mul by (try apply ppos; lia).
  rewrite fr12, fr12_2, twist_twist by apply cj_mul. apply twist_ext; [reflexivity|]. rewrite cj_e2. reflexivity.
Qed.
Lemma hrel : e2 hh * e2 hh = e2 hh - 1.
Proof. apply F2_eq; unfold e2; k2; [|ring]. transitivity (hh * hh); [ring|]. rewrite hh_rel. ring. Qed.
Lemma fr12_4 (x : K12 c) : rpz x (p ^ 4) = twist idf (e2 hh - 1) x.
Proof.
  replace (p ^ 4)%Z with (p ^ 2 * p ^ 2)%Z by ring. rewrite rpz_mul by (apply ppos; lia).
  rewrite !fr12_2, twist_twist by reflexivity. apply twist_ext; [reflexivity|apply hrel].
Qed.
(** x^(p^6) is the conjugate a - b w *)
Definition conj12 (x : K12 c) : K12 c := mk2 (a2 x) (- b2 x).
Lemma twist_m1 x : twist idf (- (1)) x = conj12 x.
Proof. unfold twist, mk12, conj12, idf. apply F2_eq; cbn [a2 b2]; apply F3_eq; k6; ring. Qed.
Lemma fr12_6 (x : K12 c) : rpz x (p ^ 6) = conj12 x.
Proof.
  replace (p ^ 6)%Z with (p ^ 4 * p ^ 2)%Z by ring. rewrite rpz_mul by (apply ppos; lia).
  rewrite fr12_4, fr12_2, twist_twist by reflexivity. rewrite <- twist_m1. apply twist_ext; [reflexivity|].
  unfold idf. transitivity (e2 hh * e2 hh - e2 hh); [ring|]. rewrite hrel. ring.
Qed.
Lemma fr12_12 (x : K12 c) : rpz x (p ^ 12) = x.
Proof.
  replace (p ^ 12)%Z with (p ^ 6 * p ^ 6)%Z by ring. rewrite rpz_mul by (apply ppos; lia).
  rewrite !fr12_6. destruct x as [a b]. unfold conj12. cbn [a2 b2]. apply F2_eq; cbn [a2 b2]; ring.
Qed.

(** ** The cyclotomic subgroup *)
Definition cyclo (x : K12 c) : Prop := rpz x (p ^ 4 - p ^ 2 + 1) = 1.
Lemma phi_pos : (0 <= p ^ 4 - p ^ 2 + 1)%Z.
Proof. pose proof (cp_pos c). nia. Qed.
Lemma cyclo_rel x : cyclo x -> rpz x (p ^ 4) * x = rpz x (p ^ 2).
Proof.
  intros H. unfold cyclo in H. pose proof phi_pos. pose proof (ppos 2 ltac:(lia)). pose proof (ppos 4 ltac:(lia)).
  transitivity (rpz x (p ^ 4 - p ^ 2 + 1) * rpz x (p ^ 2)); [|rewrite H; ring].
  rewrite <- rpz_add by lia. rewrite <- (rpz_1 _ x) at 2. rewrite <- rpz_add by lia. f_equal. lia.
Qed.
Lemma cyclo_unit x : cyclo x -> x * conj12 x = 1.
Proof.
  intros H. rewrite <- fr12_6. rewrite <- (rpz_1 _ x) at 1. rewrite <- rpz_add by (try apply ppos; lia).
  replace (1 + p ^ 6)%Z with ((p ^ 4 - p ^ 2 + 1) * (p ^ 2 + 1))%Z by ring.
  pose proof phi_pos. pose proof (ppos 2 ltac:(lia)). rewrite rpz_mul by lia. unfold cyclo in H. rewrite H. apply rpz_one.
Qed.
Lemma cyclo_mul x y : cyclo x -> cyclo y -> cyclo (x * y).
Proof. unfold cyclo. intros Hx Hy. rewrite rpz_mulb, Hx, Hy. ring. Qed.
Lemma cyclo_1 : cyclo 1.
Proof. apply rpz_one. Qed.
Lemma rpz_cyclo x n : (0 <= n)%Z -> cyclo x -> cyclo (rpz x n).
Proof.
  unfold cyclo. intros Hn Hx. pose proof phi_pos. rewrite <- rpz_mul by lia. rewrite Z.mul_comm, rpz_mul by lia. rewrite Hx. apply rpz_one.
Qed.
Lemma cyclo_conj x : cyclo x -> cyclo (conj12 x).
Proof. intros. rewrite <- fr12_6. apply rpz_cyclo; auto. apply ppos. lia. Qed.

(** Coefficients named as in the Granger-Scott formulas:
    x = (g0 + g1 s) + (g2 + g3 s) w + (g4 + g5 s) w^2, s = w^3. *)
Definition gs (x : K12 c) (g0 gg1 g2 g3 g4 g5 : K2 c) : Prop := x = mk12 g0 g4 g3 g2 gg1 g5.
Section Rel.
Variables (r0 r1 r2 r3 r4 r5 : K2 c).
Let x := mk12 r0 r4 r3 r2 r1 r5.
Let X := xi c.
Hypothesis Hx : cyclo x.
Lemma cyclo_eqs :
  r0 * r0 + X * (r1 * r1) - r0 = X * (r2 * r5 + r3 * r4) /\
  r0 * r1 + r0 * r1 + r1 = r2 * r4 + X * (r3 * r5) /\
  r0 * r2 + X * (r1 * r3) - X * (r4 * r5 + r4 * r5) = r2 /\
  r0 * r3 + r1 * r2 - r4 * r4 - X * (r5 * r5) = - r3 /\
  r0 * r4 + X * (r1 * r5) = r2 * r2 + X * (r3 * r3) - r4 /\
  r0 * r5 + r1 * r4 = r2 * r3 + r2 * r3 + r5.
Proof.
  pose proof (cyclo_rel _ Hx) as E. rewrite fr12_4, fr12_2 in E.
  pose proof hrel as Hh. set (h := e2 hh) in *. clearbody h. unfold twist, idf in E. cbn [x mk12 a2 b2 a3 b3 c3] in E.
  unfold mk12 in E. apply (f_equal (fun y => (a2 y, b2 y))) in E. cbn [rmul K12 quad qmul a2 b2] in E.
  assert (Ea := f_equal fst E). assert (Eb := f_equal snd E). cbn [fst snd] in Ea, Eb. clear E.
  pose proof (f_equal a3 Ea) as E0. pose proof (f_equal b3 Ea) as E1. pose proof (f_equal c3 Ea) as E2.
  pose proof (f_equal a3 Eb) as E3. pose proof (f_equal b3 Eb) as E4. pose proof (f_equal c3 Eb) as E5. clear Ea Eb.
  cbn [radd rmul K6 cubic kadd kmul kgen a3 b3 c3] in E0, E1, E2, E3, E4, E5. fold X in E0, E1, E2, E3, E4, E5.
  cbn [x mk12 a2 b2 a3 b3 c3] in E0, E1, E2, E3, E4, E5.
  repeat split;
  match goal with |- ?l = ?r => apply (rsub_eq (K2 c)) end;
  repeat match goal with E : ?l = ?r |- _ = 0 =>
    match type of E with h * h = _ => fail 1 | _ => idtac end;
    first [ transitivity (1 * (l - r)); [ring [Hh]|rewrite E; ring]
          | transitivity (- (1) * (l - r)); [ring [Hh]|rewrite E; ring]
          | transitivity (h * (l - r)); [ring [Hh]|rewrite E; ring]
          | transitivity (- h * (l - r)); [ring [Hh]|rewrite E; ring]
          | transitivity ((h - 1) * (l - r)); [ring [Hh]|rewrite E; ring]
          | transitivity ((1 - h) * (l - r)); [ring [Hh]|rewrite E; ring]
          | clear E ] end.
Qed.
End Rel.
End FrobTower.
