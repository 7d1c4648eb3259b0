(** Correctness of Compress::square_n, fixed_power, mapToCyclo and final_exp (default build). *)
From Coq Require Import ZArith Znumtheory List Lia Ring.
From Verif Require Import Base Prim Loop Power Alg FpSpec Cfg FpM FpProofs FpApi FpApiProofs TowerSpec TowerField TowerM Fp2Proofs Fp6Proofs Frob ParamM ParamProofs FinalM FinalProofs.
Import ListNotations.
Local Open Scope Z_scope.

Section FE.
Variable c : cfg.
Local Notation p := (cp c).
Local Notation rep2 := (rep2 c).
Local Notation rep12 := (rep12 c).
Local Notation repC := (repC c).
Local Notation phi := (cp c ^ 4 - cp c ^ 2 + 1)%Z.
Add Ring KRe : (rth (K2 c)).
Add Ring KR12e : (rth (K12 c)).
Local Open Scope r_scope.

(** ** Exponents modulo the order of the cyclotomic subgroup *)
Lemma phi_gt : (0 < phi)%Z.
Proof. pose proof (phi_pos c). pose proof (cp_pos c). pose proof (cp_lt_W c). assert (phi <> 0%Z); [|lia]. nia. Qed.
Lemma rpz_mod_phi (x : K12 c) n : cyclo c x -> (0 <= n)%Z -> rpz x (n mod phi)%Z = rpz x n.
Proof.
  intros H Hn. pose proof phi_gt as Hp. set (q := phi) in *. rewrite (Z.div_mod n q) at 2 by lia.
  pose proof (Z.div_pos n q Hn Hp). pose proof (Z.mod_pos_bound n q Hp).
  rewrite rpz_add by nia. rewrite rpz_mul by lia. unfold cyclo in H. fold q in H. rewrite H, rpz_one. ring.
Qed.
(** x^n for every integer n, x in the cyclotomic subgroup *)
Definition ez (x : K12 c) (n : Z) : K12 c := rpz x (n mod phi)%Z.
Lemma ez_0 x : ez x 0 = 1.
Proof. unfold ez. rewrite Z.mod_0_l by (pose proof phi_gt; lia). apply rpz_0. Qed.
Lemma ez_pos x n : cyclo c x -> (0 <= n)%Z -> ez x n = rpz x n.
Proof. apply rpz_mod_phi. Qed.
Lemma ez_1 x : cyclo c x -> ez x 1 = x.
Proof. intros. rewrite ez_pos by (auto; lia). apply rpz_1. Qed.
Lemma ez_add x a b : cyclo c x -> ez x a * ez x b = ez x (a + b).
Proof.
  intros H. unfold ez. pose proof phi_gt as Hp. pose proof (Z.mod_pos_bound a _ Hp). pose proof (Z.mod_pos_bound b _ Hp).
  rewrite <- rpz_add by lia. rewrite <- rpz_mod_phi by (auto; lia). rewrite <- Z.add_mod by lia. reflexivity.
Qed.
Lemma ez_pow x a m : cyclo c x -> (0 <= m)%Z -> rpz (ez x a) m = ez x (a * m).
Proof.
  intros H Hm. unfold ez. pose proof phi_gt as Hp. pose proof (Z.mod_pos_bound a _ Hp).
  rewrite <- rpz_mul by lia. rewrite <- rpz_mod_phi by (auto; nia). rewrite Zmult_mod_idemp_l. reflexivity.
Qed.
Lemma ez_cyclo x a : cyclo c x -> cyclo c (ez x a).
Proof. intros H. apply rpz_cyclo; auto. apply Z.mod_pos_bound, phi_gt. Qed.
Lemma ez_conj x a : cyclo c x -> conj12 c (ez x a) = ez x (- a).
Proof.
  intros H. apply (field_inv_unique _ (ez x a)).
  - rewrite <- (cyclo_unit c (ez x a)) by (apply ez_cyclo; auto). ring.
  - rewrite ez_add by auto. rewrite Z.add_opp_diag_l. apply ez_0.
Qed.
Lemma ez_sq x a : cyclo c x -> ez x a * ez x a = ez x (2 * a).
Proof. intros. rewrite ez_add by auto. f_equal. ring. Qed.

(** The order is odd: no element but 1 squares to 1. *)
Lemma cyclo_sq1 x : cyclo c x -> x * x = 1 -> x = 1.
Proof.
  intros H E. unfold cyclo in H. pose proof phi_gt.
  assert (D : (phi = 2 * (phi / 2) + 1)%Z).
  { assert (E2 : (phi mod 2 = 1)%Z). { destruct c; vm_compute; reflexivity. }
    rewrite (Z.div_mod phi 2) at 1 by lia. rewrite E2. reflexivity. }
  rewrite D in H. pose proof (Z.div_pos phi 2 ltac:(lia) ltac:(lia)).
  rewrite rpz_add, rpz_mul, rpz_1, rpz_2, E, rpz_one in H by lia. rewrite <- H. ring.
Qed.
Lemma rpw_pow2_S (x : K12 c) n : rpz x (2 ^ Z.of_nat (S n))%Z = rpz x (2 ^ Z.of_nat n)%Z * rpz x (2 ^ Z.of_nat n)%Z.
Proof.
  rewrite Nat2Z.inj_succ, Z.pow_succ_r by lia. pose proof (Z.pow_nonneg 2 (Z.of_nat n) ltac:(lia)).
  rewrite <- rpz_add by lia. f_equal. lia.
Qed.
Lemma cyclo_pow2_1 x n : cyclo c x -> rpz x (2 ^ Z.of_nat n)%Z = 1 -> x = 1.
Proof.
  intros H. induction n as [|n IH].
  - cbn [Z.of_nat]. rewrite Z.pow_0_r, rpz_1. auto.
  - rewrite rpw_pow2_S. intros E. apply IH. apply cyclo_sq1; auto. apply rpz_cyclo; auto. apply Z.pow_nonneg. lia.
Qed.
Lemma cyclo_pow2_1z x n : cyclo c x -> (0 <= n)%Z -> rpz x (2 ^ n)%Z = 1 -> x = 1.
Proof. intros H Hn. rewrite <- (Z2Nat.id n Hn). apply cyclo_pow2_1; exact H. Qed.
Lemma rpz_pow2_add (x : K12 c) a b s : (0 <= a)%Z -> (0 <= b)%Z -> (a + b = s)%Z -> rpz (rpz x (2 ^ a)%Z) (2 ^ b)%Z = rpz x (2 ^ s)%Z.
Proof. intros Ha Hb <-. rewrite Z.pow_add_r by lia. symmetry. apply rpz_mul; apply Z.pow_nonneg; lia. Qed.
Lemma phi_r : (phi mod cr c = 0)%Z.
Proof. destruct c; vm_compute; reflexivity. Qed.

Section WithP.
Variable P : param.
Hypothesis HP : par_ok c P.
Hypothesis HB : snark c = false.
Let H6 : (6 * p < W)%Z := cp_6_c c HB.

Lemma iter_square_rep f : (forall z v, repC z v -> cyclo c v -> repC (f z) (v * v)) ->
  forall n z v, repC z v -> cyclo c v -> repC (Nat.iter n f z) (rpz v (2 ^ Z.of_nat n)%Z).
Proof.
  intros Hf n z v Hz Hv. induction n as [|n IH].
  - cbn [Nat.iter Z.of_nat]. rewrite Z.pow_0_r, rpz_1. exact Hz.
  - cbn [Nat.iter nat_rect]. rewrite rpw_pow2_S. apply Hf; [exact IH|]. apply rpz_cyclo; auto. apply Z.pow_nonneg. lia.
Qed.
Lemma cmp_square_n_rep z v n : (0 < n < B)%Z -> repC z v -> cyclo c v -> repC (cmp_square_n c z n) (rpz v (2 ^ n)%Z).
Proof using HB.
  intros Hn Hz Hv. unfold cmp_square_n. rewrite Z.mod_small by lia. rewrite (proj2 (Z.eqb_neq n 0)) by lia.
  rewrite <- (Z2Nat.id n) at 2 by lia. apply iter_square_rep; auto. intros. apply cmp_square_rep; auto.
Qed.
Lemma cmp_square_n_0 z v : repC z v -> cyclo c v -> repC (cmp_square_n c z 0) (rpz v (2 ^ B)%Z).
Proof using HB.
  intros Hz Hv. unfold cmp_square_n. rewrite Z.mod_0_l by (pose proof B_pos; lia). cbn [Z.eqb].
  rewrite <- (Z2Nat.id B) at 2 by (pose proof B_pos; lia). apply iter_square_rep; auto. intros. apply cmp_square_rep; auto.
Qed.
Lemma cmp_square_nC_rep z v n : (0 <= n)%Z -> repC z v -> cyclo c v -> repC (cmp_square_nC c z n) (rpz v (2 ^ n)%Z).
Proof using HB.
  intros Hn Hz Hv. unfold cmp_square_nC.
  rewrite <- (Z2Nat.id n) at 2 by lia. apply iter_square_rep; auto. intros. apply cmp_squareC_eq; auto.
Qed.

Lemma fixed_core x v c55 w c62 u : rep12 x v -> cyclo c w -> cyclo c u -> repC c55 w -> repC c62 u ->
  (w = 1 <-> u = 1) ->
  exists y, (let '(c55nume, c55denomi) := cmp_before c c55 in
    let '(c62nume, c62denomi) := cmp_before c c62 in
    let! acc := f2_inverse c (f2_mul c c55denomi c62denomi) in
    Ok (f12_mul c (f12_mul c (cmp_after c P c55 (f2_mul c c55nume (f2_mul c acc c62denomi))) x)
                  (cmp_after c P c62 (f2_mul c c62nume (f2_mul c acc c55denomi))))) = Ok y /\
  rep12 y (u * w * v).
Proof using HP HB.
  intros Hx Cw Cu R55 R62 WU.
  destruct (cmp_before_rep c c55 w R55 Cw) as (n5 & d5 & N5 & D5 & E5 & O5).
  destruct (cmp_before_rep c c62 u R62 Cu) as (n6 & d6 & N6 & D6 & E6 & O6).
  destruct (cmp_before c c55) as [c55n c55d]. destruct (cmp_before c c62) as [c62n c62d]. cbn [fst snd] in *.
  destruct (f2_inverse_rep c _ _ (f2_mul_rep c _ _ _ _ D5 D6)) as (i & iv & -> & Ri & I1 & I2). cbn [bind].
  eexists. split; [reflexivity|].
  assert (G : n5 * (iv * d6) = b3 (b2 w) /\ n6 * (iv * d5) = b3 (b2 u)).
  { destruct (K2_field c) as (_ & _ & Hd).
    assert (V1 : w = 1 -> u = 1 -> n5 * (iv * d6) = b3 (b2 w) /\ n6 * (iv * d5) = b3 (b2 u)).
    { intros W1 U1. rewrite E5, E6, W1, U1. cbn [ro K12 quad q1 b2 rz K6 cubic k0 b3]. split; ring. }
    destruct (Hd d5 0) as [Z5|N5'].
    { apply V1; [|apply WU]; apply O5, Z5. }
    destruct (Hd d6 0) as [Z6|N6'].
    { apply V1; [apply WU|]; apply O6, Z6. }
    assert (I : iv * (d5 * d6) = 1). { apply I1. intros E. destruct (field_integral _ (K2_field c) _ _ E); auto. }
    clear - E5 E6 I. change (F3 (F2 (Fp p))) with (F3 (K2 c)) in *.
    set (bw := b3 (b2 w) : K2 c) in *. set (bu := b3 (b2 u) : K2 c) in *. clearbody bw bu.
    split.
    - rewrite E5. transitivity (bw * (iv * (d5 * d6))); [ring|]. rewrite I. ring.
    - rewrite E6. transitivity (bu * (iv * (d5 * d6))); [ring|]. rewrite I. ring. }
  destruct G as [G5 G6].
  assert (A5 : rep12 (cmp_after c P c55 (f2_mul c c55n (f2_mul c i c62d))) w).
  { apply cmp_after_rep; auto. eapply rep2_eq; [|exact G5]. apply f2_mul_rep; [exact N5|]. apply f2_mul_rep; [exact Ri|exact D6]. }
  assert (A6 : rep12 (cmp_after c P c62 (f2_mul c c62n (f2_mul c i c55d))) u).
  { apply cmp_after_rep; auto. eapply rep2_eq; [|exact G6]. apply f2_mul_rep; [exact N6|]. apply f2_mul_rep; [exact Ri|exact D5]. }
  eapply (rep12_eq c); [apply (f12_mul_rep c H6); [apply (f12_mul_rep c H6); [exact A5|exact Hx]|exact A6]|]. ring.
Qed.
Lemma fixed_gen x v v' : rep12 x v -> repC (compress x) v' -> cyclo c v' ->
  exists y, cmp_fixed_power c P x = Ok y /\ rep12 y (rpz v' (2 ^ 62)%Z * rpz v' (2 ^ 55)%Z * v).
Proof using HP HB.
  intros Hx Hx' Hv.
  assert (G : forall a b s, (0 < a < B)%Z -> (0 < b < B)%Z -> (a + b = s)%Z ->
    let c55 := cmp_square_n c (compress x) a in let c62 := cmp_square_n c c55 b in
    exists y, (let '(c55nume, c55denomi) := cmp_before c c55 in
    let '(c62nume, c62denomi) := cmp_before c c62 in
    let! acc := f2_inverse c (f2_mul c c55denomi c62denomi) in
    Ok (f12_mul c (f12_mul c (cmp_after c P c55 (f2_mul c c55nume (f2_mul c acc c62denomi))) x)
                  (cmp_after c P c62 (f2_mul c c62nume (f2_mul c acc c55denomi))))) = Ok y /\
    rep12 y (rpz v' (2 ^ s)%Z * rpz v' (2 ^ a)%Z * v)).
  { intros a b s Ha Hb Hs c55 c62. subst c55 c62.
    pose proof (cmp_square_n_rep (compress x) v' a Ha Hx' Hv) as R55.
    set (c55 := cmp_square_n c (compress x) a) in *. clearbody c55.
    assert (Cw : cyclo c (rpz v' (2 ^ a)%Z)) by (apply rpz_cyclo; [apply Z.pow_nonneg; lia|exact Hv]).
    pose proof (cmp_square_n_rep c55 _ b Hb R55 Cw) as R62. rewrite (rpz_pow2_add v' a b s) in R62 by lia.
    assert (Cu : cyclo c (rpz v' (2 ^ s)%Z)) by (apply rpz_cyclo; [apply Z.pow_nonneg; lia|exact Hv]).
    apply (fixed_core x v _ _ _ _ Hx Cw Cu R55 R62).
    split; intros E.
    - rewrite (cyclo_pow2_1z v' a Hv ltac:(lia) E). apply rpz_one.
    - rewrite (cyclo_pow2_1z v' s Hv ltac:(lia) E). apply rpz_one. }
  exact (G 55%Z (62 - 55)%Z 62%Z ltac:(rewrite B_val; lia) ltac:(rewrite B_val; lia) eq_refl).
Qed.
Lemma cmp_fixed_power_rep x v : rep12 x v -> cyclo c v ->
  exists y, cmp_fixed_power c P x = Ok y /\ rep12 y (rpz v (2 ^ 62 + 2 ^ 55 + 1)%Z).
Proof using HP HB.
  intros Hx Hv. destruct (fixed_gen x v v Hx (compress_rep c x v Hx) Hv) as (y & E & R).
  exists y. split; [exact E|]. eapply (rep12_eq c); [exact R|]. rewrite rpz_add, rpz_add, rpz_1 by lia. reflexivity.
Qed.
Lemma f12_powz_0 x : rep12 x 0 -> exists y, f12_powz c P x = Ok y /\ rep12 y 0.
Proof using HP HB.
  intros Hx. unfold f12_powz. rewrite HB.
  assert (R1 : repC (compress x) 1). { destruct (compress_rep c x _ Hx) as [A1 A2 A3 A4]. constructor; assumption. }
  destruct (fixed_gen x 0 1 Hx R1 (cyclo_1 c)) as (y & E & R). exists y. split; [exact E|].
  eapply (rep12_eq c); [exact R|]. rewrite !rpz_one. ring.
Qed.
Lemma f12_powz_rep x v : rep12 x v -> cyclo c v -> exists y, f12_powz c P x = Ok y /\ rep12 y (ez v (- cz c)).
Proof using HP HB.
  intros Hx Hv. unfold f12_powz. rewrite HB. destruct (cmp_fixed_power_rep x v Hx Hv) as (y & E & R).
  exists y. split; [exact E|]. eapply (rep12_eq c); [exact R|].
  assert (Ec : (- cz c = 2 ^ 62 + 2 ^ 55 + 1)%Z). { rewrite (is_BNb c HB). reflexivity. }
  rewrite Ec. symmetry. apply ez_pos; [exact Hv|lia].
Qed.

Lemma f12_mapToCyclo_rep x v : rep12 x v -> exists y, f12_mapToCyclo c P x = Ok y /\
  rep12 y (rpz v ((p ^ 6 - 1) * (p ^ 2 + 1))%Z).
Proof using HP HB.
  intros Hx. unfold f12_mapToCyclo. cbv zeta. destruct (f12_inverse_rep c H6 x v Hx) as (t & tv & -> & Rt & I1 & I2). cbn [bind].
  eexists. split; [reflexivity|].
  pose proof (f12_mul_rep c H6 _ _ _ _ (f12_conj_rep c x v Hx) Rt) as R1.
  pose proof (f12_mul_rep c H6 _ _ _ _ R1 (f12_frob2_rep c P HP _ _ R1)) as R2.
  eapply (rep12_eq c); [exact R2|].
  pose proof (ppos c 6 ltac:(lia)). pose proof (ppos c 2 ltac:(lia)).
  assert (P6 : (1 <= p ^ 6)%Z). { pose proof (cp_pos c). pose proof (Z.pow_pos_nonneg p 6). lia. }
  assert (EW : conj12 c v * tv = rpz v (p ^ 6 - 1)%Z).
  { destruct (K12_field c) as (_ & _ & Hd). destruct (Hd v 0) as [Z0|N].
    - rewrite (I2 Z0), Z0. rewrite rpz_zero; [ring|]. pose proof (cp_bounds c). assert (1 < p ^ 6)%Z; [|lia]. apply Z.pow_gt_1; lia.
    - rewrite <- fr12_6. replace (p ^ 6)%Z with (p ^ 6 - 1 + 1)%Z at 1 by ring. rewrite rpz_add by lia. rewrite rpz_1.
      transitivity (rpz v (p ^ 6 - 1)%Z * (tv * v)); [ring|]. rewrite (I1 N). ring. }
  rewrite EW. set (q := (p ^ 6 - 1)%Z) in *. rewrite rpz_mul by (unfold q; lia).
  rewrite rpz_add by lia. rewrite rpz_1. ring.
Qed.
Lemma mapToCyclo_cyclo (v : K12 c) : v <> 0 -> cyclo c (rpz v ((p ^ 6 - 1) * (p ^ 2 + 1))%Z).
Proof using.
  intros N. unfold cyclo. pose proof phi_gt. pose proof (ppos c 6 ltac:(lia)). pose proof (ppos c 2 ltac:(lia)).
  assert (P6 : (1 <= p ^ 6)%Z). { pose proof (cp_pos c). pose proof (Z.pow_pos_nonneg p 6). lia. }
  rewrite <- rpz_mul by (try apply Z.mul_nonneg_nonneg; lia).
  replace ((p ^ 6 - 1) * (p ^ 2 + 1) * (p ^ 4 - p ^ 2 + 1))%Z with (p ^ 12 - 1)%Z by ring.
  pose proof (ppos c 12 ltac:(lia)). assert (1 <= p ^ 12)%Z. { pose proof (cp_pos c). pose proof (Z.pow_pos_nonneg p 12). lia. }
  apply (field_cancel _ (K12_field c) v); [exact N|]. rewrite <- (rpz_1 _ v) at 1. rewrite <- rpz_add by lia.
  replace (1 + (p ^ 12 - 1))%Z with (p ^ 12)%Z by ring. rewrite fr12_12. ring.
Qed.

(** ** final_exp *)
Definition fm : Z := (2 * cz c * (6 * cz c ^ 2 + 3 * cz c + 1))%Z.
(** the exponent that the addition chain of final_exp applies to the cyclotomic element *)
Definition fL : Z := (let z := cz c in p ^ 3 * (12 * z ^ 3 + 6 * z ^ 2 + 4 * z - 1) + p ^ 2 * (12 * z ^ 3 + 6 * z ^ 2 + 6 * z)
  + p * (12 * z ^ 3 + 6 * z ^ 2 + 4 * z) + (12 * z ^ 3 + 12 * z ^ 2 + 6 * z + 1))%Z.
Lemma fL_eq : (fL * cr c = fm * phi)%Z.
Proof using. unfold fL, fm. cbv zeta. rewrite cp_poly, cr_poly. cbv zeta. generalize (cz c). intros z. ring. Qed.
Definition fexp_rel (v w : K12 c) : Prop := w = ez v fL.

Lemma f12_final_exp_rep x v : rep12 x v -> v <> 0 -> exists y, f12_final_exp c P x = Ok y /\
  rep12 y (ez (rpz v ((p ^ 6 - 1) * (p ^ 2 + 1))%Z) fL).
Proof using HP HB.
  intros Hx N. unfold f12_final_exp.
  destruct (f12_mapToCyclo_rep x v Hx) as (f & -> & Rf). cbn [bind].
  pose proof (mapToCyclo_cyclo v N) as Cf. set (F := rpz v ((p ^ 6 - 1) * (p ^ 2 + 1))%Z) in *. clearbody F. clear Hx N.
  assert (PW : forall x a, rep12 x (ez F a) -> exists y, f12_powz c P x = Ok y /\ rep12 y (ez F (a * - cz c))).
  { intros y a Hy. destruct (f12_powz_rep y _ Hy (ez_cyclo F a Cf)) as (y' & E & R). exists y'. split; [exact E|].
    eapply (rep12_eq c); [exact R|]. unfold ez at 1. rewrite ez_pow by (auto; apply Z.mod_pos_bound, phi_gt).
    unfold ez. rewrite Zmult_mod_idemp_r. reflexivity. }
  assert (MU : forall x y a b, rep12 x (ez F a) -> rep12 y (ez F b) -> rep12 (f12_mul c x y) (ez F (a + b))).
  { intros x0 y0 a b Ha Hb. eapply (rep12_eq c); [exact (f12_mul_rep c H6 _ _ _ _ Ha Hb)|]. apply ez_add, Cf. }
  assert (SQ : forall x a, rep12 x (ez F a) -> rep12 (f12_sqru c x) (ez F (2 * a))).
  { intros x0 a Ha. eapply (rep12_eq c); [exact (f12_sqru_rep c x0 _ Ha (ez_cyclo F a Cf))|]. apply ez_sq, Cf. }
  assert (CJ : forall x a, rep12 x (ez F a) -> rep12 (f12_conj c x) (ez F (- a))).
  { intros x0 a Ha. eapply (rep12_eq c); [exact (f12_conj_rep c x0 _ Ha)|]. apply ez_conj, Cf. }
  assert (F1 : forall x a, rep12 x (ez F a) -> rep12 (f12_frob c P x) (ez F (a * p))).
  { intros x0 a Ha. eapply (rep12_eq c); [exact (f12_frob_rep c P HP x0 _ Ha)|]. apply ez_pow; [exact Cf|pose proof (cp_pos c); lia]. }
  assert (F2 : forall x a, rep12 x (ez F a) -> rep12 (f12_frob2 c P x) (ez F (a * p ^ 2))).
  { intros x0 a Ha. eapply (rep12_eq c); [exact (f12_frob2_rep c P HP x0 _ Ha)|]. apply ez_pow; [exact Cf|apply ppos; lia]. }
  assert (F3 : forall x a, rep12 x (ez F a) -> rep12 (f12_frob3 c P x) (ez F (a * p ^ 3))).
  { intros x0 a Ha. eapply (rep12_eq c); [exact (f12_frob3_rep c P HP x0 _ Ha)|]. apply ez_pow; [exact Cf|apply ppos; lia]. }
  assert (Rf1 : rep12 f (ez F 1)) by (eapply (rep12_eq c); [exact Rf|symmetry; apply ez_1, Cf]). clear Rf.
  destruct (PW f _ Rf1) as (g & -> & Rg). cbn [bind]. cbv zeta.
  pose proof (SQ _ _ Rg) as R2z. set (f2z := f12_sqru c g) in *. clearbody f2z.
  pose proof (MU _ _ _ _ (SQ _ _ R2z) R2z) as R6z. set (f6z := f12_mul c (f12_sqru c f2z) f2z) in *. clearbody f6z.
  destruct (PW f6z _ R6z) as (f6z2 & -> & R6z2). cbn [bind].
  destruct (PW _ _ (SQ _ _ R6z2)) as (f12z3 & -> & R12). cbn [bind].
  pose proof (CJ _ _ R6z) as R6n. pose proof (CJ _ _ R12) as R12n.
  set (f6n := f12_conj c f6z) in *. set (f12n := f12_conj c f12z3) in *. clearbody f6n f12n.
  pose proof (MU _ _ _ _ (MU _ _ _ _ R12n R6z2) R6n) as Ra. set (a := f12_mul c (f12_mul c f12n f6z2) f6n) in *. clearbody a.
  pose proof (MU _ _ _ _ Ra R2z) as Rb. set (b := f12_mul c a f2z) in *. clearbody b.
  pose proof (MU _ _ _ _ (MU _ _ _ _ Ra R6z2) Rf1) as Rz. set (z := f12_mul c (f12_mul c a f6z2) f) in *. clearbody z.
  pose proof (MU _ _ _ _ (MU _ _ _ _ Rz (F1 _ _ Rb)) (F2 _ _ Ra)) as Rz'. set (z' := f12_mul c (f12_mul c z _) _) in *. clearbody z'.
  pose proof (MU _ _ _ _ Rz' (F3 _ _ (MU _ _ _ _ Rb (CJ _ _ Rf1)))) as RZ.
  eexists. split; [reflexivity|]. eapply (rep12_eq c); [exact RZ|]. f_equal. unfold fL. cbv zeta. clear. generalize (cz c), p. intros. ring.
Qed.
(** final_exp(0) = 0: the inverse of 0 is taken as 0 and no step leaves 0. *)
Lemma f12_final_exp_0 x : rep12 x 0 -> exists y, f12_final_exp c P x = Ok y /\ rep12 y 0.
Proof using HP HB.
  intros Hx. unfold f12_final_exp.
  destruct (f12_mapToCyclo_rep x 0 Hx) as (f & -> & Rf0). cbn [bind].
  assert (Rf : rep12 f 0).
  { eapply (rep12_eq c); [exact Rf0|]. apply rpz_zero. pose proof (cp_bounds c). pose proof (ppos c 2 ltac:(lia)).
    apply Z.mul_pos_pos; [|lia]. assert (1 < p ^ 6)%Z; [|lia]. apply Z.pow_gt_1; lia. }
  clear Hx Rf0.
  assert (MU : forall x y v, rep12 x v -> rep12 y 0 -> rep12 (f12_mul c x y) 0).
  { intros x0 y0 v Ha Hb. eapply (rep12_eq c); [exact (f12_mul_rep c H6 _ _ _ _ Ha Hb)|]. ring. }
  assert (SQ : forall x, rep12 x 0 -> rep12 (f12_sqru c x) 0).
  { intros x0 Hx0. rewrite (rep12_inj c _ _ _ Hx0 (f12_0_rep c)).
    assert (E : f12_sqru c f12_0 = f12_0) by (rewrite (is_BNb c HB); vm_compute; reflexivity).
    rewrite E. apply f12_0_rep. }
  destruct (f12_powz_0 f Rf) as (g & -> & Rg). cbn [bind]. cbv zeta.
  pose proof (SQ _ Rg) as R2z. set (f2z := f12_sqru c g) in *. clearbody f2z.
  pose proof (MU _ _ _ (SQ _ R2z) R2z) as R6z. set (f6z := f12_mul c (f12_sqru c f2z) f2z) in *. clearbody f6z.
  destruct (f12_powz_0 f6z R6z) as (f6z2 & -> & R6z2). cbn [bind].
  destruct (f12_powz_0 _ (SQ _ R6z2)) as (f12z3 & -> & R12). cbn [bind].
  assert (CJ : forall x, rep12 x 0 -> rep12 (f12_conj c x) 0).
  { intros x0 Hx0. eapply (rep12_eq c); [exact (f12_conj_rep c x0 _ Hx0)|]. rewrite <- fr12_6. apply rpz_zero.
    apply Z.pow_pos_nonneg; [apply cp_pos|lia]. }
  assert (F1 : forall x n v, rep12 x (rpz v n) -> (0 < n)%Z -> v = 0 -> rep12 x 0).
  { intros x0 n v Hx0 Hn ->. rewrite rpz_zero in Hx0 by exact Hn. exact Hx0. }
  pose proof (CJ _ R6z) as R6n. pose proof (CJ _ R12) as R12n.
  set (f6n := f12_conj c f6z) in *. set (f12n := f12_conj c f12z3) in *. clearbody f6n f12n.
  pose proof (MU _ _ _ (MU _ _ _ R12n R6z2) R6n) as Ra. set (a := f12_mul c (f12_mul c f12n f6z2) f6n) in *. clearbody a.
  pose proof (MU _ _ _ Ra R2z) as Rb. set (b := f12_mul c a f2z) in *. clearbody b.
  pose proof (MU _ _ _ (MU _ _ _ Ra R6z2) Rf) as Rz. set (z := f12_mul c (f12_mul c a f6z2) f) in *. clearbody z.
  pose proof (cp_pos c) as Hp.
  pose proof (MU _ _ _ Rz (F1 _ _ _ (f12_frob_rep c P HP _ _ Rb) Hp eq_refl)) as Rz1.
  pose proof (MU _ _ _ Rz1 (F1 _ _ _ (f12_frob2_rep c P HP _ _ Ra) (Z.pow_pos_nonneg p 2 Hp ltac:(lia)) eq_refl)) as Rz2.
  pose proof (MU _ _ _ Rz2 (F1 _ _ _ (f12_frob3_rep c P HP _ _ (MU _ _ _ Rb (CJ _ Rf))) (Z.pow_pos_nonneg p 3 Hp ltac:(lia)) eq_refl)) as RZ.
  eexists. split; [reflexivity|]. exact RZ.
Qed.
Lemma fexp_value v : v <> 0 -> ez (rpz v ((p ^ 6 - 1) * (p ^ 2 + 1))%Z) fL = rpz v ((p ^ 12 - 1) / cr c * (fm mod cr c))%Z.
Proof using.
  intros N. pose proof (mapToCyclo_cyclo v N) as Cf. unfold ez.
  pose proof phi_gt as Hp. assert (Hr : (0 < cr c)%Z) by (pose proof (cr_prime c) as [? _]; lia).
  assert (Dv : (phi = phi / cr c * cr c)%Z).
  { pose proof phi_r as D.
    rewrite (Z.div_mod phi (cr c)) at 1 by lia. rewrite D. ring. }
  set (k := (phi / cr c)%Z) in *. assert (Hk : (0 < k)%Z) by nia.
  assert (EL : (fL = k * fm)%Z). { pose proof fL_eq as E. rewrite Dv in E. nia. }
  assert (EM : (fL mod phi = k * (fm mod cr c))%Z). { rewrite EL, Dv. rewrite Z.mul_mod_distr_l by lia. reflexivity. }
  rewrite EM. pose proof (Z.mod_pos_bound fm (cr c) Hr).
  pose proof (ppos c 6 ltac:(lia)). pose proof (ppos c 2 ltac:(lia)).
  assert (P6 : (1 <= p ^ 6)%Z). { pose proof (cp_pos c). pose proof (Z.pow_pos_nonneg p 6). lia. }
  assert (PQ : (0 <= (p ^ 6 - 1) * (p ^ 2 + 1))%Z) by (apply Z.mul_nonneg_nonneg; lia).
  rewrite <- rpz_mul by (auto; apply Z.mul_nonneg_nonneg; lia).
  f_equal. rewrite Z.mul_assoc. f_equal.
  replace (p ^ 12 - 1)%Z with ((p ^ 6 - 1) * (p ^ 2 + 1) * phi)%Z by ring.
  apply Z.div_unique_exact; [lia|]. rewrite Dv at 1. ring.
Qed.
End WithP.
End FE.
