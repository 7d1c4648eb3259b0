(** The point templates compute the group law. *)
From Coq Require Import ZArith Lia List Bool Ring.
From Verif Require Import Base Prim PrimProofs Loop Vuint VuintProofs Cfg TowerSpec Fp2Proofs Poly EcSpec EcGroup EcM.
Import ListNotations.
Local Open Scope Z_scope.

(** An implementation of the operations of a field: contents satisfying [ok] stand for
    field elements. *)
Record fimpl (O : fops) (K : fld) := FImpl {
  ok : fT O -> Prop;
  vl : fT O -> K;
  i_add : forall x y, ok x -> ok y -> ok (o_add O x y) /\ vl (o_add O x y) = radd (vl x) (vl y);
  i_sub : forall x y, ok x -> ok y -> ok (o_sub O x y) /\ vl (o_sub O x y) = rsub (vl x) (vl y);
  i_mul : forall x y, ok x -> ok y -> ok (o_mul O x y) /\ vl (o_mul O x y) = rmul (vl x) (vl y);
  i_sq : forall x, ok x -> ok (o_sq O x) /\ vl (o_sq O x) = rmul (vl x) (vl x);
  i_neg : forall x, ok x -> ok (o_neg O x) /\ vl (o_neg O x) = ropp (vl x);
  i_inv : forall x, ok x -> vl x <> rz -> exists y, o_inv O x = Ok y /\ ok y /\ rmul (vl y) (vl x) = ro;
  i_isZero : forall x, ok x -> (o_isZero O x = true <-> vl x = rz);
  i_eqb : forall x y, ok x -> ok y -> (o_eqb O x y = true <-> vl x = vl y);
  i_0 : ok (o_0 O) /\ vl (o_0 O) = rz;
  i_1 : ok (o_1 O) /\ vl (o_1 O) = ro;
  i_inj : forall x y, ok x -> ok y -> vl x = vl y -> x = y;
  (** multiplication of any content by the zero object *)
  i_mul0 : forall x, o_mul O x (o_0 O) = o_0 O;
  i_add0 : o_add O (o_0 O) (o_0 O) = o_0 O }.
Arguments ok {O K} _ _.
Arguments vl {O K} _ _.

Lemma ptr_eqb_eq a b : ptr_eqb a b = true <-> a = b.
Proof.
  destruct a, b; cbn [ptr_eqb]; try rewrite Nat.eqb_eq; split; intros; try congruence; try discriminate.
Qed.
Lemma ptr_eqb_refl a : ptr_eqb a a = true. Proof. apply ptr_eqb_eq; reflexivity. Qed.
Lemma ptr_eqb_neq a b : a <> b -> ptr_eqb a b = false.
Proof. intros H. destruct (ptr_eqb a b) eqn:E; [apply ptr_eqb_eq in E; contradiction|reflexivity]. Qed.
Lemma ptr_dec (a b : ptr) : {a = b} + {a <> b}.
Proof. destruct (ptr_eqb a b) eqn:E; [left; apply ptr_eqb_eq, E|right; intros ->; rewrite ptr_eqb_refl in E; discriminate]. Qed.

Section Mem.
Variable O : fops.
Implicit Types (m : mem O) (o i q : ptr) (v : fT O).
Lemma upd_same m o P : upd O m o P o = P.
Proof. unfold upd. rewrite ptr_eqb_refl. reflexivity. Qed.
Lemma upd_other m o P q : o <> q -> upd O m o P q = m q.
Proof. intros H. unfold upd. rewrite ptr_eqb_neq by exact H. reflexivity. Qed.
Ltac al := intros; unfold st0, st1, st2, upd; match goal with |- context [ptr_eqb ?a ?b] =>
    let T := fresh in destruct (ptr_eqb a b) eqn:T; [apply ptr_eqb_eq in T; subst; reflexivity|reflexivity] end.
Lemma b3_st0 m o i v : b3 (st0 O m o v i) = b3 (m i). Proof. al. Qed.
Lemma c3_st0 m o i v : c3 (st0 O m o v i) = c3 (m i). Proof. al. Qed.
Lemma a3_st1 m o i v : a3 (st1 O m o v i) = a3 (m i). Proof. al. Qed.
Lemma c3_st1 m o i v : c3 (st1 O m o v i) = c3 (m i). Proof. al. Qed.
Lemma a3_st2 m o i v : a3 (st2 O m o v i) = a3 (m i). Proof. al. Qed.
Lemma b3_st2 m o i v : b3 (st2 O m o v i) = b3 (m i). Proof. al. Qed.
Lemma a3_st0 m o v : a3 (st0 O m o v o) = v. Proof. unfold st0. rewrite upd_same. reflexivity. Qed.
Lemma b3_st1 m o v : b3 (st1 O m o v o) = v. Proof. unfold st1. rewrite upd_same. reflexivity. Qed.
Lemma c3_st2 m o v : c3 (st2 O m o v o) = v. Proof. unfold st2. rewrite upd_same. reflexivity. Qed.
Lemma st0_other m o v q : o <> q -> st0 O m o v q = m q. Proof. apply upd_other. Qed.
Lemma st1_other m o v q : o <> q -> st1 O m o v q = m q. Proof. apply upd_other. Qed.
Lemma st2_other m o v q : o <> q -> st2 O m o v q = m q. Proof. apply upd_other. Qed.
Lemma copy_same m o i : m_copy O m o i o = m i.
Proof.
  unfold m_copy. apply F3_eq.
  - rewrite a3_st2, a3_st1, a3_st0. reflexivity.
  - rewrite b3_st2, b3_st1, b3_st0. reflexivity.
  - rewrite c3_st2, c3_st1, c3_st0. reflexivity.
Qed.
Lemma copy_other m o i q : o <> q -> m_copy O m o i q = m q.
Proof. intros H. unfold m_copy. rewrite st2_other, st1_other, st0_other by exact H. reflexivity. Qed.
Lemma clear_same m o : m_clear O m o o = mk3 (o_0 O) (o_0 O) (o_0 O).
Proof.
  unfold m_clear. apply F3_eq; cbn [a3 b3 c3].
  - rewrite a3_st2, a3_st1, a3_st0. reflexivity.
  - rewrite b3_st2, b3_st1. reflexivity.
  - rewrite c3_st2. reflexivity.
Qed.
Lemma clear_other m o q : o <> q -> m_clear O m o q = m q.
Proof. intros H. unfold m_clear. rewrite st2_other, st1_other, st0_other by exact H. reflexivity. Qed.
End Mem.
#[export] Hint Rewrite b3_st0 c3_st0 a3_st1 c3_st1 a3_st2 b3_st2 a3_st0 b3_st1 c3_st2 : mst.

(** Jacobian coordinates over a field *)
Section Jac.
Local Open Scope r_scope.
Variable K : fld.
Add Ring KRj : (rth K).
Lemma jac_aff (x y z : K) : z <> 0 -> jac K (mk3 (x * (z * z)) (y * (z * z * z)) z) = EAff x y.
Proof.
  intros Hz. unfold jac. cbn [a3 b3 c3]. destruct (fdec K z 0) as [E|_]; [contradiction|].
  pose proof (field_integral K (fld_field K)) as FI. unfold rdiv.
  assert (N2 : z * z <> 0) by (intros E; apply FI in E; tauto).
  assert (N3 : z * z * z <> 0) by (intros E; apply FI in E; tauto).
  pose proof (finv_l K _ N2) as E2. pose proof (finv_l K _ N3) as E3. f_equal.
  - transitivity (x * (finvr K (z * z) * (z * z))); [ring|]. rewrite E2. ring.
  - transitivity (y * (finvr K (z * z * z) * (z * z * z))); [ring|]. rewrite E3. ring.
Qed.
Lemma jac_inf (P : F3 K) : c3 P = 0 -> jac K P = EInf.
Proof. intros E. unfold jac. destruct (fdec K (c3 P) 0) as [_|N]; [reflexivity|contradiction]. Qed.
Lemma jac_inv (P : F3 K) : c3 P <> 0 -> exists x y, jac K P = EAff x y /\ a3 P = x * (c3 P * c3 P) /\ b3 P = y * (c3 P * c3 P * c3 P).
Proof.
  intros Hz. exists (rdiv K (a3 P) (c3 P * c3 P)), (rdiv K (b3 P) (c3 P * c3 P * c3 P)).
  unfold jac. destruct (fdec K (c3 P) 0) as [E|_]; [contradiction|]. split; [reflexivity|].
  pose proof (field_integral K (fld_field K)) as FI. unfold rdiv. set (z := c3 P) in *.
  assert (N2 : z * z <> 0) by (intros E; apply FI in E; tauto).
  assert (N3 : z * z * z <> 0) by (intros E; apply FI in E; tauto).
  pose proof (finv_l K _ N2) as E2. pose proof (finv_l K _ N3) as E3. split.
  - transitivity (a3 P * (finvr K (z * z) * (z * z))); [rewrite E2; ring|ring].
  - transitivity (b3 P * (finvr K (z * z * z) * (z * z * z))); [rewrite E3; ring|ring].
Qed.
Lemma jac_z_nz (P : F3 K) x y : jac K P = EAff x y -> c3 P <> 0.
Proof. unfold jac. destruct (fdec K (c3 P) 0); [discriminate|auto]. Qed.
Lemma jac_Inf_z (P : F3 K) : jac K P = EInf -> c3 P = 0.
Proof. unfold jac. destruct (fdec K (c3 P) 0); [auto|discriminate]. Qed.

Hypothesis H2 : (1 + 1 : K) <> 0.
(** doubling in Jacobian coordinates *)
Lemma jac_dbl (P : F3 K) : c3 P <> 0 ->
  forall x3 y3 z3,
  (let X := a3 P in let Y := b3 P in let Z := c3 P in
   let A := X * X in let Bq := Y * Y in let C := Bq * Bq in
   let t := (X + Bq) * (X + Bq) - A - C in let D := t + t in
   let E := A + A + A in
   x3 = E * E - (D + D) /\ y3 = E * (D - x3) - (C + C + (C + C) + (C + C + (C + C))) /\ z3 = Y * Z + Y * Z) ->
  jac K (mk3 x3 y3 z3) = ec_add K (jac K P) (jac K P).
Proof.
  intros Hz x3 y3 z3. destruct (jac_inv P Hz) as (x & y & EJ & EX & EY). rewrite EJ. cbv zeta. rewrite EX, EY. set (z := c3 P) in *. clearbody z.
  intros (E1 & E2 & E3). cbn [ec_add]. destruct (fdec K x x) as [_|N]; [|congruence].
  pose proof (field_integral K (fld_field K)) as FI.
  destruct (fdec K y (- y)) as [Ey|Ny].
  - apply jac_inf. cbn [c3]. rewrite E3. assert (T : y + y = 0) by (rewrite Ey at 2; ring).
    transitivity ((y + y) * (z * z * z * z)); [ring|]. rewrite T. ring.
  - assert (N : (1 + 1) * y <> 0). { intros T. apply FI in T as [T|T]; [exact (H2 T)|]. apply Ny. rewrite T. ring. }
    set (l := rdiv K ((1 + 1 + 1) * (x * x)) ((1 + 1) * y)).
    assert (El : l * ((1 + 1) * y) = (1 + 1 + 1) * (x * x)).
    { unfold l, rdiv. transitivity ((1 + 1 + 1) * (x * x) * (finvr K ((1 + 1) * y) * ((1 + 1) * y))); [ring|]. rewrite finv_l by exact N. ring. }
    clearbody l. unfold ec_chord. cbv zeta.
    assert (Nz : z3 <> 0).
    { rewrite E3. intros T. assert (T' : ((1 + 1) * y) * (z * (z * (z * z))) = 0) by (rewrite <- T; ring).
      apply FI in T' as [T'|T']; [exact (N T')|]. repeat (apply FI in T' as [T'|T']; [exact (Hz T')|]). exact (Hz T'). }
    assert (G1 : x3 = (l * l - x - x) * (z3 * z3)).
    { rewrite E3. transitivity ((l * ((1 + 1) * y)) * (l * ((1 + 1) * y)) * (z * z * z * z * (z * z * z * z)) - (x + x) * ((y * (z * z * z) * z + y * (z * z * z) * z) * (y * (z * z * z) * z + y * (z * z * z) * z))); [|ring].
      rewrite El, E1. ring. }
    rewrite E2, G1. rewrite <- (jac_aff (l * l - x - x) (l * (x - (l * l - x - x)) - y) z3 Nz). f_equal. f_equal.
    rewrite E3.
    assert (G : x * (z * z) * (x * (z * z)) + x * (z * z) * (x * (z * z)) + x * (z * z) * (x * (z * z)) = l * ((1 + 1) * y) * (z * z * z * z)) by (rewrite El; ring).
    rewrite G. ring.
Qed.
(** addition of two points with different x *)
Lemma jac_add (P Q : F3 K) : c3 P <> 0 -> c3 Q <> 0 ->
  let X1 := a3 P in let Y1 := b3 P in let Z1 := c3 P in
  let X2 := a3 Q in let Y2 := b3 Q in let Z2 := c3 Q in
  let U1 := X1 * (Z2 * Z2) in let U2 := X2 * (Z1 * Z1) in
  let S1 := Y1 * (Z2 * (Z2 * Z2)) in let S2 := Y2 * (Z1 * (Z1 * Z1)) in
  let H := U2 - U1 in let t := S2 - S1 in
  (H = 0 <-> exists x y y', jac K P = EAff x y /\ jac K Q = EAff x y') /\
  (H = 0 -> (t = 0 <-> jac K P = jac K Q)) /\
  (H <> 0 ->
   forall x3 y3 z3,
   (let I := (H + H) * (H + H) in let J := H * I in let r := t + t in let V := U1 * I in
    x3 = r * r - J - (V + V) /\ y3 = r * (V - x3) - (S1 * J + S1 * J) /\
    z3 = ((Z1 + Z2) * (Z1 + Z2) - Z1 * Z1 - Z2 * Z2) * H) ->
   jac K (mk3 x3 y3 z3) = ec_add K (jac K P) (jac K Q)).
Proof.
  intros Hz1 Hz2. cbv zeta. destruct (jac_inv P Hz1) as (x1 & y1 & EP & EX1 & EY1). destruct (jac_inv Q Hz2) as (x2 & y2 & EQ & EX2 & EY2).
  rewrite EP, EQ, EX1, EX2, EY1, EY2. set (z1 := c3 P) in *. set (z2 := c3 Q) in *. clearbody z1 z2.
  pose proof (field_integral K (fld_field K)) as FI.
  assert (EH : x2 * (z2 * z2) * (z1 * z1) - x1 * (z1 * z1) * (z2 * z2) = (x2 - x1) * (z1 * (z1 * (z2 * z2)))) by ring.
  assert (Et : y2 * (z2 * z2 * z2) * (z1 * (z1 * z1)) - y1 * (z1 * z1 * z1) * (z2 * (z2 * z2)) = (y2 - y1) * (z1 * (z1 * (z1 * (z2 * (z2 * z2)))))) by ring.
  rewrite EH, Et.
  assert (NZ : z1 * (z1 * (z2 * z2)) <> 0). { intros T. repeat (apply FI in T as [T|T]; [contradiction|]). contradiction. }
  assert (NZ3 : z1 * (z1 * (z1 * (z2 * (z2 * z2)))) <> 0). { intros T. repeat (apply FI in T as [T|T]; [contradiction|]). contradiction. }
  assert (I1 : (x2 - x1) * (z1 * (z1 * (z2 * z2))) = 0 -> x1 = x2).
  { intros T. apply FI in T as [T|T]; [|contradiction]. symmetry. apply (rsub_eq K), T. }
  split; [|split].
  - split. { intros T. apply I1 in T as <-. exists x1, y1, y2. split; reflexivity. } intros (x & y & y' & T1 & T2). injection T1 as T1 _. injection T2 as T2 _. rewrite T1, T2. ring.
  - intros T. apply I1 in T as <-. split.
    + intros T. apply FI in T as [T|T]; [|contradiction]. apply (rsub_eq K) in T as ->. reflexivity.
    + intros T. injection T as T. rewrite T. ring.
  - intros HH x3 y3 z3 (E1 & E2 & E3). assert (Nx : x1 <> x2) by (intros ->; apply HH; ring).
    cbn [ec_add]. destruct (fdec K x1 x2) as [T|_]; [contradiction|].
    assert (Dx : x2 - x1 <> 0). { intros T. apply Nx. symmetry. apply (rsub_eq K), T. }
    set (l := rdiv K (y2 - y1) (x2 - x1)).
    assert (El : l * (x2 - x1) = y2 - y1).
    { unfold l, rdiv. transitivity ((y2 - y1) * (finvr K (x2 - x1) * (x2 - x1))); [ring|]. rewrite finv_l by exact Dx. ring. }
    clearbody l. rewrite <- El in E1, E2. unfold ec_chord. cbv zeta.
    assert (Nz : z3 <> 0).
    { rewrite E3. intros T. assert (T' : (1 + 1) * (z1 * (z2 * ((x2 - x1) * (z1 * (z1 * (z2 * z2)))))) = 0) by (rewrite <- T; ring).
      apply FI in T' as [T'|T']; [exact (H2 T')|]. repeat (apply FI in T' as [T'|T']; [contradiction|]). contradiction. }
    assert (G1 : x3 = (l * l - x1 - x2) * (z3 * z3)) by (rewrite E3, E1; ring).
    rewrite E2, G1. rewrite <- (jac_aff (l * l - x1 - x2) (l * (x1 - (l * l - x1 - x2)) - y1) z3 Nz). f_equal. f_equal.
    rewrite E3. ring.
Qed.
End Jac.

Section Impl.
Local Open Scope r_scope.
Variable O : fops.
Variable K : fld.
Variable X : fimpl O K.
Variable b : K.
Hypothesis H2 : (1 + 1 : K) <> 0.
Hypothesis H3 : (1 + 1 + 1 : K) <> 0.
Hypothesis Hb : b <> 0.
Add Ring KRi : (rth K).
Notation ok := (ok X). Notation vl := (vl X).
Definition rp (x : fT O) (v : K) : Prop := ok x /\ vl x = v.
Lemma rp_ok x : ok x -> rp x (vl x). Proof. split; auto. Qed.
Lemma rp_add x y v w : rp x v -> rp y w -> rp (o_add O x y) (v + w).
Proof. intros [Hx <-] [Hy <-]. destruct (i_add _ _ X x y Hx Hy). split; assumption. Qed.
Lemma rp_sub x y v w : rp x v -> rp y w -> rp (o_sub O x y) (v - w).
Proof. intros [Hx <-] [Hy <-]. destruct (i_sub _ _ X x y Hx Hy). split; assumption. Qed.
Lemma rp_mul x y v w : rp x v -> rp y w -> rp (o_mul O x y) (v * w).
Proof. intros [Hx <-] [Hy <-]. destruct (i_mul _ _ X x y Hx Hy). split; assumption. Qed.
Lemma rp_sq x v : rp x v -> rp (o_sq O x) (v * v).
Proof. intros [Hx <-]. destruct (i_sq _ _ X x Hx). split; assumption. Qed.
Lemma rp_neg x v : rp x v -> rp (o_neg O x) (- v).
Proof. intros [Hx <-]. destruct (i_neg _ _ X x Hx). split; assumption. Qed.
Lemma rp_0 : rp (o_0 O) 0. Proof. exact (i_0 _ _ X). Qed.
Lemma rp_1 : rp (o_1 O) 1. Proof. exact (i_1 _ _ X). Qed.
Lemma isZ_true x v : rp x v -> v = 0 -> o_isZero O x = true.
Proof. intros [Hx E] Ev. apply (i_isZero _ _ X x Hx). rewrite E. exact Ev. Qed.
Lemma isZ_false x v : rp x v -> v <> 0 -> o_isZero O x = false.
Proof. intros [Hx E] Ev. destruct (o_isZero O x) eqn:Z; [|reflexivity]. apply (i_isZero _ _ X x Hx) in Z. congruence. Qed.
Lemma eqb_true x y v w : rp x v -> rp y w -> v = w -> o_eqb O x y = true.
Proof. intros [Hx E] [Hy E'] Ev. apply (i_eqb _ _ X x y Hx Hy). congruence. Qed.
Lemma eqb_false x y v w : rp x v -> rp y w -> v <> w -> o_eqb O x y = false.
Proof. intros [Hx E] [Hy E'] Ev. destruct (o_eqb O x y) eqn:Z; [|reflexivity]. apply (i_eqb _ _ X x y Hx Hy) in Z. congruence. Qed.
Ltac rps := repeat first [eassumption | apply rp_add | apply rp_sub | apply rp_mul | apply rp_sq | apply rp_neg | apply rp_0 | apply rp_1].

(** the field values of a triple *)
Definition vl3 (P : F3 (fT O)) : F3 K := mk3 (vl (a3 P)) (vl (b3 P)) (vl (c3 P)).
(** well-formed: z is reduced, and so are x and y unless z = 0 *)
Definition okp (P : F3 (fT O)) : Prop := ok (c3 P) /\ (vl (c3 P) <> 0 -> ok (a3 P) /\ ok (b3 P)).
(** the point denoted by a triple *)
Definition pt (P : F3 (fT O)) : ecpt K := jac K (vl3 P).
Lemma okp_z P : okp P -> rp (c3 P) (vl (c3 P)). Proof. intros [H _]. apply rp_ok, H. Qed.
Lemma okp_xy P : okp P -> vl (c3 P) <> 0 -> rp (a3 P) (vl (a3 P)) /\ rp (b3 P) (vl (b3 P)).
Proof. intros [_ H] Hz. destruct (H Hz). split; apply rp_ok; assumption. Qed.
Lemma okp_mk x y z vx vy vz : rp x vx -> rp y vy -> rp z vz -> okp (mk3 x y z) /\ pt (mk3 x y z) = jac K (mk3 vx vy vz).
Proof.
  intros [Hx Ex] [Hy Ey] [Hz Ez]. split; [split; [exact Hz|intros _; split; [exact Hx|exact Hy]]|].
  unfold pt, vl3. cbn [a3 b3 c3]. rewrite Ex, Ey, Ez. reflexivity.
Qed.
Lemma pt_inf P : rp (c3 P) 0 -> okp P /\ pt P = EInf.
Proof. intros [Hz Ez]. split; [split; [exact Hz|intros N; contradiction]|]. apply jac_inf. exact Ez. Qed.
Lemma pt_z P : pt P = EInf -> vl (c3 P) = 0. Proof. intros E. exact (jac_Inf_z K _ E). Qed.
Lemma pt_eta (P Q : F3 (fT O)) : a3 P = a3 Q -> b3 P = b3 Q -> c3 P = c3 Q -> okp Q -> forall R, pt Q = R -> okp P /\ pt P = R.
Proof. intros E1 E2 E3 H R HR. rewrite (F3_eq _ P Q E1 E2 E3). split; assumption. Qed.
Lemma pt_z' P : okp P -> pt P = EInf -> c3 P = o_0 O.
Proof. intros [H _] E. apply pt_z in E. apply (i_inj _ _ X); [exact H|apply rp_0|]. rewrite E. symmetry. apply rp_0. Qed.

(** P is a well-formed object denoting the point R *)
Definition den (P : F3 (fT O)) (R : ecpt K) : Prop := okp P /\ pt P = R.
(** ECDouble *)
Lemma ECDouble_ok (m : mem O) o i : okp (m i) ->
  let m' := ECDouble O m o i in
  den (m' o) (ec_add K (pt (m i)) (pt (m i))) /\ (forall q, o <> q -> m' q = m q).
Proof.
  intros HP. cbv zeta. split.
  2:{ intros q Hq. unfold ECDouble. cbv zeta. rewrite st2_other, st1_other, st0_other by exact Hq. reflexivity. }
  unfold ECDouble. cbv zeta. rewrite ?a3_st0, ?b3_st0, ?c3_st0.
  destruct (fdec K (vl (c3 (m i))) 0) as [Hz|Hz].
  - assert (E : c3 (m i) = o_0 O) by (apply pt_z'; [exact HP|apply jac_inf, Hz]).
    apply (jac_inf K (vl3 (m i))) in Hz as Hi. fold (pt (m i)) in Hi. rewrite Hi.
    apply pt_inf. rewrite c3_st2, E, (i_mul0 _ _ X), (i_add0 _ _ X). apply rp_0.
  - destruct (okp_xy _ HP Hz) as [Rx Ry]. pose proof (okp_z _ HP) as Rz.
    eapply pt_eta with (Q := mk3 _ _ _); cbn [a3 b3 c3].
    + rewrite a3_st2, a3_st1, a3_st0. reflexivity.
    + rewrite b3_st2, b3_st1. reflexivity.
    + rewrite c3_st2. reflexivity.
    + eapply okp_mk; rps.
    + eapply eq_trans; [eapply okp_mk; rps|]. apply (jac_dbl K H2 (vl3 (m i)) Hz). cbv zeta. cbn [vl3 a3 b3 c3]. repeat split; ring.
Qed.

Lemma add_same_x x y y' : on_curve K b (EAff x y) -> on_curve K b (EAff x y') -> y <> y' -> ec_add K (EAff x y) (EAff x y') = EInf.
Proof.
  cbn [on_curve ec_add]. intros C1 C2 N. destruct (fdec K x x) as [_|T]; [|congruence]. destruct (fdec K y (- y')) as [_|T]; [reflexivity|].
  exfalso. assert (F : (y - y') * (y + y') = 0) by (transitivity (y * y - y' * y'); [ring|]; rewrite C1, C2; ring).
  apply (field_integral K (fld_field K)) in F as [F|F]; [apply N, (rsub_eq K), F|]. apply T. apply (rsub_eq K). rewrite <- F. ring.
Qed.
Ltac ltP P := match goal with |- P (let t := ?e in @?b t) => apply (letP P e b) end.
Lemma if_falseP {R : Type} (P : R -> Prop) (c : bool) (e1 e2 : R) : c = false -> P e2 -> P (if c then e1 else e2).
Proof. intros -> H. exact H. Qed.
Ltac ifF P H := match goal with |- P (if ?c then ?e1 else ?e2) => refine (if_falseP P c e1 e2 H _) end.
(** ECAdd *)
Lemma ECAdd_ok (m : mem O) o a q : okp (m a) -> okp (m q) -> on_curve K b (pt (m a)) -> on_curve K b (pt (m q)) ->
  let m' := ECAdd O m o a q in
  den (m' o) (ec_add K (pt (m a)) (pt (m q))) /\ (forall i, o <> i -> m' i = m i).
Proof.
  intros Ha Hq Ca Cq. cbv zeta. pose proof (okp_z _ Ha) as Rza. pose proof (okp_z _ Hq) as Rzq.
  set (Pr := fun m' : mem O => den (m' o) (ec_add K (pt (m a)) (pt (m q))) /\ (forall i, o <> i -> m' i = m i)).
  change (Pr (ECAdd O m o a q)). assert (HPr : forall m', (den (m' o) (ec_add K (pt (m a)) (pt (m q))) /\ (forall i, o <> i -> m' i = m i)) -> Pr m') by (intros m' T; exact T).
  clearbody Pr. cbv beta iota delta [ECAdd]. destruct (fdec K (vl (c3 (m a))) 0) as [Za|Za].
  { rewrite (isZ_true _ _ Rza Za). apply HPr. split; [|intros i Hi; apply copy_other, Hi].
    rewrite copy_same. pose proof (jac_inf K (vl3 (m a)) Za) as Ei. fold (pt (m a)) in Ei. rewrite Ei. split; [exact Hq|reflexivity]. }
  ifF Pr (isZ_false _ _ Rza Za). destruct (fdec K (vl (c3 (m q))) 0) as [Zq|Zq].
  { rewrite (isZ_true _ _ Rzq Zq). apply HPr. split; [|intros i Hi; apply copy_other, Hi].
    rewrite copy_same. pose proof (jac_inf K (vl3 (m q)) Zq) as Ei. fold (pt (m q)) in Ei. rewrite Ei. split; [exact Ha|]. symmetry. apply ec_add_0_r. }
  ifF Pr (isZ_false _ _ Rzq Zq).
  destruct (okp_xy _ Ha Za) as [Rxa Rya]. destruct (okp_xy _ Hq Zq) as [Rxq Ryq].
  destruct (jac_add K H2 (vl3 (m a)) (vl3 (m q)) Za Zq) as (JH & Jt & JA). cbv zeta in JH, Jt, JA. cbn [vl3 a3 b3 c3] in JH, Jt, JA.
  fold (vl3 (m a)) in JH, Jt, JA. fold (vl3 (m q)) in JH, Jt, JA. fold (pt (m a)) in JH, Jt, JA. fold (pt (m q)) in JH, Jt, JA.
  ltP Pr. intros Z1Z1 E1; cbv beta. assert (R1 : rp Z1Z1 (vl (c3 (m a)) * vl (c3 (m a)))) by (subst; rps). clear E1.
  ltP Pr. intros Z2Z2 E1; cbv beta. assert (R2 : rp Z2Z2 (vl (c3 (m q)) * vl (c3 (m q)))) by (subst; rps). clear E1.
  ltP Pr. intros U1 E1; cbv beta. assert (RU1 : rp U1 (vl (a3 (m a)) * (vl (c3 (m q)) * vl (c3 (m q))))) by (subst; rps). clear E1.
  ltP Pr. intros U2 E1; cbv beta. assert (RU2 : rp U2 (vl (a3 (m q)) * (vl (c3 (m a)) * vl (c3 (m a))))) by (subst; rps). clear E1.
  ltP Pr. intros t0 E1; cbv beta. assert (R0 : rp t0 (vl (c3 (m q)) * (vl (c3 (m q)) * vl (c3 (m q))))) by (subst; rps). clear E1.
  ltP Pr. intros S1 E1; cbv beta. assert (RS1 : rp S1 (vl (b3 (m a)) * (vl (c3 (m q)) * (vl (c3 (m q)) * vl (c3 (m q)))))) by (subst; rps). clear E1.
  ltP Pr. intros t1 E1; cbv beta. assert (Rt1 : rp t1 (vl (c3 (m a)) * (vl (c3 (m a)) * vl (c3 (m a))))) by (subst; rps). clear E1.
  ltP Pr. intros S2 E1; cbv beta. assert (RS2 : rp S2 (vl (b3 (m q)) * (vl (c3 (m a)) * (vl (c3 (m a)) * vl (c3 (m a)))))) by (subst; rps). clear E1.
  ltP Pr. intros H E1; cbv beta. assert (RH := rp_sub _ _ _ _ RU2 RU1). rewrite <- E1 in RH. clear E1.
  ltP Pr. intros t3 E1; cbv beta. assert (Rt3 := rp_sub _ _ _ _ RS2 RS1). rewrite <- E1 in Rt3. clear E1.
  match type of JH with ?h = 0 <-> _ => set (vH := h) in * end.
  match type of Jt with _ -> (?h = 0 <-> _) => set (vt := h) in * end.
  destruct (fdec K vH 0) as [ZH|ZH].
  - rewrite (isZ_true _ _ RH ZH). destruct (fdec K vt 0) as [Zt|Zt].
    + rewrite (isZ_true _ _ Rt3 Zt). apply (Jt ZH) in Zt. apply HPr. rewrite <- Zt. apply ECDouble_ok, Ha.
    + rewrite (isZ_false _ _ Rt3 Zt). apply HPr. split; [|intros i Hi; apply st2_other, Hi].
      destruct (proj1 JH ZH) as (x & y & y' & Ea & Eq). rewrite Ea in Ca |- *. rewrite Eq in Cq |- *.
      rewrite (add_same_x x y y' Ca Cq). { apply pt_inf. rewrite c3_st2. apply rp_0. }
      intros T. apply Zt. apply (Jt ZH). rewrite Ea, Eq, T. reflexivity.
  - rewrite (isZ_false _ _ RH ZH). specialize (JA ZH). cbv zeta. apply HPr. split.
    2:{ intros i Hi. rewrite st2_other, st1_other, st0_other by exact Hi. reflexivity. }
    rewrite ?a3_st0, ?c3_st1, ?c3_st0. clear JH Jt.
    eapply pt_eta with (Q := mk3 _ _ _); cbn [a3 b3 c3].
    + rewrite a3_st2, a3_st1, a3_st0. reflexivity.
    + rewrite b3_st2, b3_st1. reflexivity.
    + rewrite c3_st2. reflexivity.
    + eapply okp_mk; rps.
    + eapply eq_trans; [eapply okp_mk; rps|]. apply JA. clearbody vH vt. repeat split; ring.
Qed.

(** multiples *)
Notation onc := (on_curve K b).
Lemma mulz_on k P : onc P -> onc (ec_mulz K k P). Proof. intros H. apply ec_mul_on; assumption. Qed.
Lemma mulz_add j k P : (0 <= j)%Z -> (0 <= k)%Z -> onc P -> ec_mulz K (j + k)%Z P = ec_add K (ec_mulz K j P) (ec_mulz K k P).
Proof. intros Hj Hk HP. unfold ec_mulz. rewrite Z2Nat.inj_add by assumption. apply (ec_mul_add K b); assumption. Qed.
Lemma mulz_1 P : ec_mulz K 1 P = P.
Proof. unfold ec_mulz. change (Z.to_nat 1) with 1%nat. cbn [ec_mul]. apply ec_add_0_r. Qed.
Lemma mulz_0 P : ec_mulz K 0 P = EInf. Proof. reflexivity. Qed.

Section SM.
Variable w : nat.
Hypothesis Hw : (0 < w)%nat.
Local Notation W := (2 ^ Z.of_nat w)%Z.
Lemma top_spec v : (0 <= v < W)%Z -> (v / 2 ^ (Z.of_nat w - 1) = if top w v then 1 else 0)%Z.
Proof using Hw.
  intros Hv. unfold top. rewrite Z.testbit_odd, Z.shiftr_div_pow2 by lia.
  assert (E : W = (2 * 2 ^ (Z.of_nat w - 1))%Z) by (rewrite <- Z.pow_succ_r by lia; f_equal; lia).
  assert (0 < 2 ^ (Z.of_nat w - 1))%Z by (apply Z.pow_pos_nonneg; lia).
  assert (0 <= v / 2 ^ (Z.of_nat w - 1))%Z by (apply Z.div_pos; lia).
  assert (v / 2 ^ (Z.of_nat w - 1) < 2)%Z by (apply Z.div_lt_upper_bound; lia).
  assert (C : (v / 2 ^ (Z.of_nat w - 1) = 0 \/ v / 2 ^ (Z.of_nat w - 1) = 1)%Z) by lia.
  destruct C as [-> | ->]; reflexivity.
Qed.
Lemma shl1_spec v : (0 <= v < W)%Z -> exists v0, (v = (if top w v then 1 else 0) * 2 ^ (Z.of_nat w - 1) + v0 /\ 0 <= v0 < 2 ^ (Z.of_nat w - 1) /\ shl1 w v = 2 * v0 /\ 0 <= shl1 w v < W)%Z.
Proof using Hw.
  intros Hv. exists (v mod 2 ^ (Z.of_nat w - 1))%Z. rewrite <- (top_spec v Hv).
  assert (E : W = (2 * 2 ^ (Z.of_nat w - 1))%Z) by (rewrite <- Z.pow_succ_r by lia; f_equal; lia).
  assert (P0 : (0 < 2 ^ (Z.of_nat w - 1))%Z) by (apply Z.pow_pos_nonneg; lia).
  assert (S1 : shl1 w v = (2 * (v mod 2 ^ (Z.of_nat w - 1)))%Z).
  { unfold shl1. rewrite E, Zmult_mod_distr_l. reflexivity. }
  pose proof (Z.mod_pos_bound v _ P0). pose proof (Z.div_mod v (2 ^ (Z.of_nat w - 1))%Z ltac:(lia)).
  rewrite S1. repeat split; lia.
Qed.
Lemma sm_skip_ok n : forall v j, (0 < v < W)%Z -> (W <= v * 2 ^ (Z.of_nat n + 1))%Z ->
  exists k, sm_skip w n v j = Ok (v * 2 ^ Z.of_nat k, (j + k)%nat)%Z /\ (2 ^ (Z.of_nat w - 1) <= v * 2 ^ Z.of_nat k < W)%Z.
Proof using Hw.
  assert (E : W = (2 * 2 ^ (Z.of_nat w - 1))%Z) by (rewrite <- Z.pow_succ_r by lia; f_equal; lia).
  assert (P0 : (0 < 2 ^ (Z.of_nat w - 1))%Z) by (apply Z.pow_pos_nonneg; lia).
  induction n as [|n IH]; intros v j Hv Hn.
  - destruct (shl1_spec v) as (v0 & Ev & Hv0 & _); [lia|]. cbn [sm_skip].
    assert (T : top w v = true). { destruct (top w v); [reflexivity|]. change (2 ^ (Z.of_nat 0 + 1))%Z with 2%Z in Hn. lia. }
    rewrite T. rewrite andb_false_r. exists 0%nat. change (2 ^ Z.of_nat 0)%Z with 1%Z. rewrite Z.mul_1_r, Nat.add_0_r. split; [reflexivity|]. rewrite T in Ev. lia.
  - destruct (shl1_spec v) as (v0 & Ev & Hv0 & Es & Hs); [lia|]. cbn [sm_skip].
    destruct (top w v) eqn:T.
    + rewrite andb_false_r. exists 0%nat. change (2 ^ Z.of_nat 0)%Z with 1%Z. rewrite Z.mul_1_r, Nat.add_0_r. split; [reflexivity|]. lia.
    + destruct (v =? 0)%Z eqn:Z0; [apply Z.eqb_eq in Z0; lia|]. cbn [negb andb].
      destruct (IH (shl1 w v) (S j)) as (k & Ek & Hk); [lia| |].
      { rewrite Nat2Z.inj_succ in Hn. replace (Z.succ (Z.of_nat n) + 1)%Z with (1 + (Z.of_nat n + 1))%Z in Hn by lia. rewrite Z.pow_add_r in Hn by lia. nia. }
      exists (S k). rewrite Ek. assert (E2 : (shl1 w v = 2 * v)%Z) by lia. rewrite E2 in *. rewrite Nat2Z.inj_succ, Z.pow_succ_r by lia.
      split; [|lia]. f_equal. f_equal; [ring|lia].
Qed.

Variables o i : ptr.
Hypothesis Hoi : o <> i.
Variable P : ecpt K.
Hypothesis HP : onc P.
Lemma sm_bits_ok n : forall v k m, (n <= w)%nat -> (0 <= v < W)%Z -> (0 <= k)%Z -> den (m i) P -> den (m o) (ec_mulz K k P) ->
  let m' := sm_bits O w n v m o i in
  den (m' o) (ec_mulz K (k * 2 ^ Z.of_nat n + v / 2 ^ (Z.of_nat w - Z.of_nat n)) P) /\ (forall q, o <> q -> m' q = m q).
Proof using Hw Hoi HP H2 H3 Hb.
  induction n as [|n IH]; intros v k m Hn Hv Hk Di Do; cbv zeta.
  - cbn [sm_bits]. split; [|auto]. change (2 ^ Z.of_nat 0)%Z with 1%Z. rewrite Z.sub_0_r, Z.div_small, Z.add_0_r, Z.mul_1_r by lia. exact Do.
  - cbn [sm_bits]. destruct (ECDouble_ok m o o (proj1 Do)) as [D1 O1]. cbv zeta in D1, O1. rewrite (proj2 Do), <- mulz_add in D1 by assumption.
    set (m1 := ECDouble O m o o) in *. assert (Di1 : den (m1 i) P) by (rewrite O1 by exact Hoi; exact Di).
    destruct (shl1_spec v Hv) as (v0 & Ev & Hv0 & Es & Hs).
    assert (Hm2 : exists m2, m2 = (if top w v then ECAdd O m1 o o i else m1) /\ den (m2 o) (ec_mulz K (2 * k + (if top w v then 1 else 0)) P) /\ forall q, o <> q -> m2 q = m1 q).
    { eexists. split; [reflexivity|]. destruct (top w v).
      - destruct (ECAdd_ok m1 o o i) as [D2 O2]; [exact (proj1 D1)|exact (proj1 Di1)|rewrite (proj2 D1); apply mulz_on, HP|rewrite (proj2 Di1); exact HP|].
        split; [|exact O2]. cbv zeta in D2. rewrite (proj2 D1), (proj2 Di1) in D2. rewrite mulz_add, mulz_1 by (assumption || lia).
        replace (2 * k)%Z with (k + k)%Z by lia. exact D2.
      - split; [|auto]. rewrite Z.add_0_r. replace (2 * k)%Z with (k + k)%Z by lia. exact D1. }
    destruct Hm2 as (m2 & Em2 & D2 & O2). rewrite <- Em2. clear Em2.
    destruct (IH (shl1 w v) (2 * k + (if top w v then 1 else 0))%Z m2) as [D3 O3]; [lia|exact Hs|destruct (top w v); lia|rewrite O2 by exact Hoi; exact Di1|exact D2|].
    split; [|intros q Hq; rewrite O3, O2, O1 by exact Hq; reflexivity].
    cbv zeta in D3. assert (Ee : ((2 * k + (if top w v then 1 else 0)) * 2 ^ Z.of_nat n + shl1 w v / 2 ^ (Z.of_nat w - Z.of_nat n) = k * 2 ^ Z.of_nat (S n) + v / 2 ^ (Z.of_nat w - Z.of_nat (S n)))%Z).
    { rewrite Es. rewrite Ev at 2. rewrite Nat2Z.inj_succ, Z.pow_succ_r by lia.
      replace (Z.of_nat w - Z.of_nat n)%Z with (Z.succ (Z.of_nat w - Z.succ (Z.of_nat n)))%Z by lia. rewrite (Z.pow_succ_r 2 (Z.of_nat w - Z.succ (Z.of_nat n))) by lia.
      assert (0 < 2 ^ (Z.of_nat w - Z.succ (Z.of_nat n)))%Z by (apply Z.pow_pos_nonneg; lia).
      rewrite Zdiv_mult_cancel_l by lia.
      replace (2 ^ (Z.of_nat w - 1))%Z with (2 ^ Z.of_nat n * 2 ^ (Z.of_nat w - Z.succ (Z.of_nat n)))%Z by (rewrite <- Z.pow_add_r by lia; f_equal; lia).
      rewrite (Z.mul_assoc (if top w v then 1 else 0)%Z), Z.div_add_l by lia. ring. }
    rewrite Ee in D3. exact D3.
Qed.
(** value of blocks, most significant first *)
Definition hv (k : Z) (rbs : list Z) : Z := fold_left (fun a v => a * W + v)%Z rbs k.
Lemma sm_blocks_ok rbs : forall k m, Forall (fun v => 0 <= v < W)%Z rbs -> (0 <= k)%Z -> den (m i) P -> den (m o) (ec_mulz K k P) ->
  let m' := sm_blocks O w rbs m o i in
  den (m' o) (ec_mulz K (hv k rbs) P) /\ (forall q, o <> q -> m' q = m q).
Proof using Hw Hoi HP H2 H3 Hb.
  induction rbs as [|v rbs IH]; intros k m Hf Hk Di Do; cbv zeta; cbn [sm_blocks]; [split; [exact Do|auto]|].
  apply Forall_cons_iff in Hf as [Hv Hf].
  destruct (sm_bits_ok w v k m) as [D1 O1]; [lia|exact Hv|exact Hk|exact Di|exact Do|]. cbv zeta in D1, O1.
  rewrite Z.sub_diag, Z.div_1_r in D1.
  destruct (IH (k * W + v)%Z (sm_bits O w w v m o i)) as [D2 O2]; [exact Hf|nia|rewrite O1 by exact Hoi; exact Di|exact D1|].
  split; [exact D2|]. intros q Hq. cbv zeta in O2. rewrite O2, O1 by exact Hq. reflexivity.
Qed.
End SM.

Lemma ScalarMult_ok w (m : mem O) o i bs : (0 < w)%nat -> Forall (fun v => 0 <= v < 2 ^ Z.of_nat w)%Z bs ->
  (exists v rbs, rev bs = v :: rbs /\ v <> 0%Z) -> i <> Loc 1 -> o <> Loc 1 -> okp (m i) -> onc (pt (m i)) ->
  exists m', ScalarMult O w m o i false bs = Ok m' /\ den (m' o) (ec_mulz K (hv w 0 (rev bs)) (pt (m i))) /\ (forall q, o <> q -> Loc 1 <> q -> m' q = m q).
Proof.
  intros Hw Hf (v & rbs & Er & Hv0) Hi Ho Hok HP. unfold ScalarMult. rewrite Er.
  assert (Hf' : Forall (fun v => 0 <= v < 2 ^ Z.of_nat w)%Z (v :: rbs)) by (rewrite <- Er; apply Forall_rev, Hf). clear Hf.
  apply Forall_cons_iff in Hf' as [Hv Hf].
  assert (Hp : exists m1 i1, (if ptr_eqb o i then (m_copy O m (Loc 1) i, Loc 1) else (m, i)) = (m1, i1) /\ o <> i1 /\ den (m1 i1) (pt (m i)) /\ (forall q, Loc 1 <> q -> m1 q = m q)).
  { destruct (ptr_dec o i) as [->|N].
    - rewrite ptr_eqb_refl. eexists _, _. split; [reflexivity|]. split; [exact Ho|]. split; [rewrite copy_same; split; [exact Hok|reflexivity]|]. intros q Hq. apply copy_other, Hq.
    - rewrite ptr_eqb_neq by exact N. eexists _, _. split; [reflexivity|]. split; [exact N|]. split; [split; [exact Hok|reflexivity]|auto]. }
  destruct Hp as (m1 & i1 & -> & Hoi & Di & O1).
  destruct (sm_skip_ok w Hw w v 0) as (k & Ek & Hk).
  { lia. }
  { rewrite Z.pow_add_r by lia. change (2 ^ 1)%Z with 2%Z. assert (0 < 2 ^ Z.of_nat w)%Z by (apply Z.pow_pos_nonneg; lia). nia. }
  rewrite Ek. cbn [bind]. rewrite Nat.add_0_l.
  assert (P0 : (0 < 2 ^ (Z.of_nat w - 1))%Z) by (apply Z.pow_pos_nonneg; lia).
  assert (Kw : (k < w)%nat).
  { apply Nat.nle_gt. intros Hle. assert (2 ^ Z.of_nat w <= 2 ^ Z.of_nat k)%Z by (apply Z.pow_le_mono_r; lia). nia. }
  assert (E : (2 ^ Z.of_nat w = 2 * 2 ^ (Z.of_nat w - 1))%Z) by (rewrite <- Z.pow_succ_r by lia; f_equal; lia).
  destruct (shl1_spec w Hw (v * 2 ^ Z.of_nat k)%Z) as (v0 & Ev & Hv1 & Es & Hs); [lia|].
  assert (T : top w (v * 2 ^ Z.of_nat k) = true) by (destruct (top w (v * 2 ^ Z.of_nat k)); [reflexivity|lia]). rewrite T in Ev.
  replace (Nat.leb (S k) w) with true by (symmetry; apply Nat.leb_le; lia).
  set (m2 := m_copy O m1 o i1) in *.
  assert (Di2 : den (m2 i1) (pt (m i))) by (unfold m2; rewrite copy_other by exact Hoi; exact Di).
  assert (Do2 : den (m2 o) (ec_mulz K 1 (pt (m i)))) by (unfold m2; rewrite copy_same, mulz_1; exact Di).
  destruct (sm_bits_ok w Hw o i1 Hoi (pt (m i)) HP (w - S k) (shl1 w (v * 2 ^ Z.of_nat k)) 1 m2) as [D3 O3]; [lia|exact Hs|lia|exact Di2|exact Do2|].
  cbv zeta in D3, O3. set (m3 := sm_bits O w (w - S k) (shl1 w (v * 2 ^ Z.of_nat k)) m2 o i1) in *.
  assert (Ee : (1 * 2 ^ Z.of_nat (w - S k) + shl1 w (v * 2 ^ Z.of_nat k) / 2 ^ (Z.of_nat w - Z.of_nat (w - S k)) = v)%Z).
  { rewrite Es. replace (Z.of_nat w - Z.of_nat (w - S k))%Z with (Z.succ (Z.of_nat k)) by lia. rewrite Z.pow_succ_r by lia.
    assert (0 < 2 ^ Z.of_nat k)%Z by (apply Z.pow_pos_nonneg; lia). rewrite Zdiv_mult_cancel_l by lia.
    assert (Ep : (2 ^ (Z.of_nat w - 1) = 2 ^ Z.of_nat (w - S k) * 2 ^ Z.of_nat k)%Z) by (rewrite <- Z.pow_add_r by lia; f_equal; lia).
    assert (Ev' : v0 = ((v - 2 ^ Z.of_nat (w - S k)) * 2 ^ Z.of_nat k)%Z) by (rewrite Ep in Ev; lia).
    rewrite Ev', Z.div_mul by lia. lia. }
  rewrite Ee in D3.
  destruct (sm_blocks_ok w Hw o i1 Hoi (pt (m i)) HP rbs v m3) as [D4 O4]; [exact Hf|lia|rewrite O3 by exact Hoi; exact Di2|exact D3|].
  eexists. split; [reflexivity|]. split; [exact D4|].
  intros q Hq Hq1. cbv zeta in O4. rewrite O4, O3 by exact Hq. unfold m2. rewrite copy_other by exact Hq. apply O1, Hq1.
Qed.

(** EcT::neg, sub and the operators *)
Lemma neg_ok (m : mem O) o i : okp (m i) ->
  let m' := ec_neg_m O m o i in den (m' o) (ec_neg K (pt (m i))) /\ (forall q, o <> q -> m' q = m q).
Proof.
  intros Hok. cbv zeta. unfold ec_neg_m. split; [|intros q Hq; rewrite st2_other, st1_other, st0_other by exact Hq; reflexivity].
  assert (E : st2 O (st1 O (st0 O m o (a3 (m i))) o (o_neg O (b3 (st0 O m o (a3 (m i)) i)))) o (c3 (st1 O (st0 O m o (a3 (m i))) o (o_neg O (b3 (st0 O m o (a3 (m i)) i))) i)) o = mk3 (a3 (m i)) (o_neg O (b3 (m i))) (c3 (m i))).
  { apply F3_eq; cbn [a3 b3 c3]; rewrite ?a3_st2, ?a3_st1, ?a3_st0, ?b3_st2, ?b3_st1, ?b3_st0, ?c3_st2, ?c3_st1, ?c3_st0; reflexivity. }
  rewrite E. clear E. destruct (fdec K (vl (c3 (m i))) 0) as [Z|Z].
  - pose proof (jac_inf K (vl3 (m i)) Z) as Ei. fold (pt (m i)) in Ei. rewrite Ei. apply pt_inf. cbn [c3]. rewrite <- Z. apply okp_z, Hok.
  - destruct (okp_xy _ Hok Z) as [Rx Ry]. pose proof (okp_z _ Hok) as Rz.
    destruct (okp_mk _ _ _ _ _ _ Rx (rp_neg _ _ Ry) Rz) as [H1 H4]. split; [exact H1|]. rewrite H4.
    unfold pt. destruct (jac_inv K (vl3 (m i)) Z) as (x & y & EJ & EX & EY). rewrite EJ. cbn [vl3 a3 b3 c3] in EX, EY. cbn [ec_neg].
    rewrite <- (jac_aff K x (- y) (vl (c3 (m i))) Z). f_equal. rewrite EX, EY. f_equal. ring.
Qed.
Lemma sub_ok (m : mem O) o a q : a <> Loc 1 -> okp (m a) -> okp (m q) -> onc (pt (m a)) -> onc (pt (m q)) ->
  let m' := ec_sub_m O m o a q in
  den (m' o) (ec_add K (pt (m a)) (ec_neg K (pt (m q)))) /\ (forall i, o <> i -> Loc 1 <> i -> m' i = m i).
Proof.
  intros Ha Oa Oq Ca Cq. cbv zeta. unfold ec_sub_m.
  destruct (neg_ok m (Loc 1) q Oq) as [D1 O1]. cbv zeta in D1, O1. set (m1 := ec_neg_m O m (Loc 1) q) in *.
  destruct (ECAdd_ok m1 o a (Loc 1)) as [D2 O2].
  - rewrite O1 by congruence. exact Oa.
  - exact (proj1 D1).
  - rewrite O1 by congruence. exact Ca.
  - rewrite (proj2 D1). apply ec_neg_on, Cq.
  - cbv zeta in D2, O2. rewrite (proj2 D1), O1 in D2 by congruence. split; [exact D2|]. intros i Hi H1. rewrite O2, O1 by assumption. reflexivity.
Qed.
Lemma minus_ok (m : mem O) a q : a <> Loc 1 -> okp (m a) -> okp (m q) -> onc (pt (m a)) -> onc (pt (m q)) ->
  den (ec_minus O m a q) (ec_add K (pt (m a)) (ec_neg K (pt (m q)))).
Proof. intros. apply sub_ok; assumption. Qed.

(** normalize, NormalizeJac *)
Definition normalized (P : F3 (fT O)) : Prop := vl (c3 P) = 0 \/ c3 P = o_1 O.
Lemma jac_scale (x y z u : K) : z <> 0 -> u * z = 1 -> jac K (mk3 (x * (u * u)) (y * (u * u * u)) 1) = jac K (mk3 x y z).
Proof.
  intros Hz Hu. destruct (jac_inv K (mk3 x y z) Hz) as (x' & y' & -> & EX & EY). cbn [a3 b3 c3] in EX, EY.
  rewrite <- (jac_aff K x' y' 1 (fnz K)). f_equal. f_equal.
  - rewrite EX. transitivity (x' * ((u * z) * (u * z))); [ring|]. rewrite Hu. ring.
  - rewrite EY. transitivity (y' * ((u * z) * (u * z) * (u * z))); [ring|]. rewrite Hu. ring.
Qed.
Lemma NormalizeJac_ok (m : mem O) o i : okp (m i) ->
  exists m', NormalizeJac O m o i = Ok m' /\ den (m' o) (pt (m i)) /\ (forall q, o <> q -> m' q = m q) /\
    (pt (m i) = EInf -> m' o = mk3 (o_0 O) (o_0 O) (o_0 O)) /\
    (forall x y, pt (m i) = EAff x y -> rp (a3 (m' o)) x /\ rp (b3 (m' o)) y /\ c3 (m' o) = o_1 O).
Proof.
  intros Hok. pose proof (okp_z _ Hok) as Rz. unfold NormalizeJac.
  assert (Haff : forall P, okp P -> c3 P = o_1 O -> forall x y, pt P = EAff x y -> rp (a3 P) x /\ rp (b3 P) y).
  { intros P HP E x y Exy. assert (Zn : vl (c3 P) <> 0) by (rewrite E, (proj2 rp_1); apply fnz). destruct (okp_xy P HP Zn) as [Rx Ry].
    unfold pt in Exy. destruct (jac_inv K (vl3 P) Zn) as (x' & y' & EJ & EX & EY). rewrite EJ in Exy. injection Exy as <- <-.
    cbn [vl3 a3 b3 c3] in EX, EY. rewrite E, (proj2 rp_1) in EX, EY. rewrite EX in Rx. rewrite EY in Ry.
    split; [replace x' with (x' * (1 * 1)) by ring; exact Rx|replace y' with (y' * (1 * 1 * 1)) by ring; exact Ry]. }
  destruct (fdec K (vl (c3 (m i))) 0) as [Z|Z].
  { rewrite (eqb_true _ _ _ _ Rz rp_0 Z). eexists. split; [reflexivity|]. rewrite clear_same.
    pose proof (jac_inf K (vl3 (m i)) Z) as Ei. fold (pt (m i)) in Ei. rewrite Ei. split; [apply pt_inf; apply rp_0|]. split; [intros q Hq; apply clear_other, Hq|]. split; [reflexivity|]. discriminate. }
  rewrite (eqb_false _ _ _ _ Rz rp_0 Z). destruct (okp_xy _ Hok Z) as [Rx Ry].
  destruct (fdec K (vl (c3 (m i))) 1) as [Z1|Z1].
  { rewrite (eqb_true _ _ _ _ Rz rp_1 Z1). eexists. split; [reflexivity|]. rewrite copy_same.
    assert (E1 : c3 (m i) = o_1 O). { apply (i_inj _ _ X); [apply Rz|apply rp_1|]. rewrite Z1. symmetry. apply rp_1. }
    split; [split; [exact Hok|reflexivity]|]. split; [intros q Hq; apply copy_other, Hq|].
    split; [intros Ei; exfalso; apply Z, pt_z, Ei|]. intros x y Exy. destruct (Haff (m i) Hok E1 x y Exy) as [Ax Ay]. split; [exact Ax|]. split; [exact Ay|exact E1]. }
  rewrite (eqb_false _ _ _ _ Rz rp_1 Z1). destruct (i_inv _ _ X _ (proj1 Rz) Z) as (A & EA & HA & HAz). rewrite EA. cbn [bind].
  eexists. split; [reflexivity|]. pose proof (rp_ok _ HA) as RA.
  match goal with |- den (?m' o) _ /\ _ => set (P' := m' o); assert (EP : P' = mk3 (o_mul O (a3 (m i)) (o_sq O A)) (o_mul O (b3 (m i)) (o_mul O (o_sq O A) A)) (o_1 O)) end.
  { unfold P'. apply F3_eq; cbn [a3 b3 c3]; rewrite ?a3_st2, ?a3_st1, ?a3_st0, ?b3_st2, ?b3_st1, ?b3_st0, ?c3_st2; reflexivity. }
  clearbody P'. assert (D : den P' (pt (m i))).
  { rewrite EP. destruct (okp_mk _ _ _ _ _ _ (rp_mul _ _ _ _ Rx (rp_sq _ _ RA)) (rp_mul _ _ _ _ Ry (rp_mul _ _ _ _ (rp_sq _ _ RA) RA)) rp_1) as [Hk Ek].
    split; [exact Hk|]. rewrite Ek. unfold pt, vl3. apply jac_scale; assumption. }
  split; [exact D|]. split.
  { intros q Hq. rewrite st2_other, st1_other, st0_other by exact Hq. reflexivity. }
  split; [intros Ei; exfalso; apply Z, pt_z, Ei|]. intros x y Exy. assert (E1 : c3 P' = o_1 O) by (rewrite EP; reflexivity).
  destruct (Haff P' (proj1 D) E1 x y) as [Ax Ay]; [rewrite (proj2 D); exact Exy|]. split; [exact Ax|]. split; [exact Ay|exact E1].
Qed.
Lemma normalize_ok (m : mem O) o : okp (m o) ->
  exists m', ec_normalize O m o = Ok m' /\ den (m' o) (pt (m o)) /\ (forall q, o <> q -> m' q = m q) /\
    (pt (m o) = EInf -> m' = m) /\
    (forall x y, pt (m o) = EAff x y -> rp (a3 (m' o)) x /\ rp (b3 (m' o)) y /\ c3 (m' o) = o_1 O).
Proof.
  intros Hok. pose proof (okp_z _ Hok) as Rz. unfold ec_normalize, ec_isZero.
  assert (Haff : forall P, okp P -> c3 P = o_1 O -> forall x y, pt P = EAff x y -> rp (a3 P) x /\ rp (b3 P) y).
  { intros P HP E x y Exy. assert (Zn : vl (c3 P) <> 0) by (rewrite E, (proj2 rp_1); apply fnz). destruct (okp_xy P HP Zn) as [Rx Ry].
    unfold pt in Exy. destruct (jac_inv K (vl3 P) Zn) as (x' & y' & EJ & EX & EY). rewrite EJ in Exy. injection Exy as <- <-.
    cbn [vl3 a3 b3 c3] in EX, EY. rewrite E, (proj2 rp_1) in EX, EY. rewrite EX in Rx. rewrite EY in Ry.
    split; [replace x' with (x' * (1 * 1)) by ring; exact Rx|replace y' with (y' * (1 * 1 * 1)) by ring; exact Ry]. }
  destruct (fdec K (vl (c3 (m o))) 0) as [Z|Z].
  { rewrite (isZ_true _ _ Rz Z). cbn [orb]. exists m. split; [reflexivity|]. split; [split; [exact Hok|reflexivity]|]. split; [auto|]. split; [auto|].
    pose proof (jac_inf K (vl3 (m o)) Z) as Ei. fold (pt (m o)) in Ei. rewrite Ei. discriminate. }
  rewrite (isZ_false _ _ Rz Z). destruct (okp_xy _ Hok Z) as [Rx Ry].
  destruct (fdec K (vl (c3 (m o))) 1) as [Z1|Z1].
  { rewrite (eqb_true _ _ _ _ Rz rp_1 Z1). cbn [orb]. exists m. split; [reflexivity|].
    assert (E1 : c3 (m o) = o_1 O). { apply (i_inj _ _ X); [apply Rz|apply rp_1|]. rewrite Z1. symmetry. apply rp_1. }
    split; [split; [exact Hok|reflexivity]|]. split; [auto|]. split; [auto|].
    intros x y Exy. destruct (Haff (m o) Hok E1 x y Exy) as [Ax Ay]. split; [exact Ax|]. split; [exact Ay|exact E1]. }
  rewrite (eqb_false _ _ _ _ Rz rp_1 Z1). cbn [orb]. destruct (i_inv _ _ X _ (proj1 Rz) Z) as (A & EA & HA & HAz). rewrite EA. cbn [bind].
  eexists. split; [reflexivity|]. pose proof (rp_ok _ HA) as RA.
  match goal with |- den (?m' o) _ /\ _ => set (P' := m' o); assert (EP : P' = mk3 (o_mul O (a3 (m o)) (o_sq O A)) (o_mul O (b3 (m o)) (o_mul O A (o_sq O A))) (o_1 O)) end.
  { unfold P'. apply F3_eq; cbn [a3 b3 c3]; rewrite ?a3_st2, ?a3_st1, ?a3_st0, ?a3_st2, ?b3_st2, ?b3_st1, ?b3_st0, ?b3_st2, ?c3_st0, ?c3_st2; reflexivity. }
  clearbody P'. assert (D : den P' (pt (m o))).
  { rewrite EP. destruct (okp_mk _ _ _ _ _ _ (rp_mul _ _ _ _ Rx (rp_sq _ _ RA)) (rp_mul _ _ _ _ Ry (rp_mul _ _ _ _ RA (rp_sq _ _ RA))) rp_1) as [Hk Ek].
    split; [exact Hk|]. rewrite Ek. unfold pt, vl3. rewrite <- (jac_scale _ _ _ _ Z HAz). f_equal. f_equal. ring. }
  split; [exact D|]. split.
  { intros q Hq. rewrite st2_other, st1_other, st0_other, st2_other by exact Hq. reflexivity. }
  split; [intros Ei; exfalso; apply Z, pt_z, Ei|]. intros x y Exy. assert (E1 : c3 P' = o_1 O) by (rewrite EP; reflexivity).
  destruct (Haff P' (proj1 D) E1 x y) as [Ax Ay]; [rewrite (proj2 D); exact Exy|]. split; [exact Ax|]. split; [exact Ay|exact E1].
Qed.
(** operator== : true exactly when the points are equal; the objects still denote the same points *)
Lemma eq_ok (m : mem O) a q : okp (m a) -> okp (m q) ->
  exists r m', ec_eq O m a q = Ok (r, m') /\ (r = true <-> pt (m a) = pt (m q)) /\
    (forall i, okp (m i) -> den (m' i) (pt (m i))) /\ (forall i, a <> i -> q <> i -> m' i = m i).
Proof.
  intros Ha Hq. unfold ec_eq.
  destruct (normalize_ok m a Ha) as (m1 & E1 & D1 & O1 & I1 & A1). rewrite E1. cbn [bind].
  assert (P1 : forall i, okp (m i) -> den (m1 i) (pt (m i))).
  { intros i Hi. destruct (ptr_dec a i) as [<-|N]; [exact D1|]. rewrite O1 by exact N. split; [exact Hi|reflexivity]. }
  destruct (normalize_ok m1 q (proj1 (P1 q Hq))) as (m2 & E2 & D2 & O2 & I2 & A2). rewrite E2. cbn [bind].
  rewrite (proj2 (P1 q Hq)) in D2, A2, I2.
  assert (P2 : forall i, okp (m i) -> den (m2 i) (pt (m i))).
  { intros i Hi. destruct (ptr_dec q i) as [<-|N]; [exact D2|]. rewrite O2 by exact N. apply P1, Hi. }
  eexists _, _. split; [reflexivity|]. split; [|split; [exact P2|intros i H1 H4; rewrite O2, O1 by assumption; reflexivity]].
  assert (Az : forall i, okp (m i) -> (ec_isZero O m2 i = true <-> pt (m i) = EInf)).
  { intros i Hi. destruct (P2 i Hi) as [Ok2 <-]. unfold ec_isZero. rewrite (i_isZero _ _ X _ (proj1 Ok2)). split; [apply (jac_inf K (vl3 (m2 i)))|apply pt_z]. }
  destruct (ec_isZero O m2 a) eqn:Za.
  { apply (Az a Ha) in Za. rewrite Za. rewrite (Az q Hq). split; intros H; symmetry; exact H. }
  destruct (ec_isZero O m2 q) eqn:Zq.
  { apply (Az q Hq) in Zq. split; [discriminate|]. intros T. rewrite Zq in T. apply (Az a Ha) in T. congruence. }
  destruct (pt (m a)) as [|x1 y1] eqn:Ea. { exfalso. apply (fun H => eq_true_false_abs _ H Za). apply (Az a Ha). exact Ea. }
  destruct (pt (m q)) as [|x2 y2] eqn:Eq. { exfalso. apply (fun H => eq_true_false_abs _ H Zq). apply (Az q Hq). exact Eq. }
  assert (Ra : rp (a3 (m2 a)) x1 /\ rp (b3 (m2 a)) y1).
  { destruct (ptr_dec q a) as [Eqa|N].
    - rewrite Eqa in Eq. rewrite Ea in Eq. injection Eq as <- <-. destruct (A2 _ _ eq_refl) as (B1 & B2 & _). rewrite Eqa in B1, B2. split; assumption.
    - rewrite O2 by exact N. destruct (A1 _ _ eq_refl) as (B1 & B2 & _). split; assumption. }
  destruct (A2 _ _ eq_refl) as (Rq1 & Rq2 & _). destruct Ra as [Ra1 Ra2].
  rewrite andb_true_iff. rewrite (i_eqb _ _ X _ _ (proj1 Ra1) (proj1 Rq1)), (i_eqb _ _ X _ _ (proj1 Ra2) (proj1 Rq2)).
  rewrite (proj2 Ra1), (proj2 Ra2), (proj2 Rq1), (proj2 Rq2). split; [intros [-> ->]; reflexivity|intros T; injection T; auto].
Qed.

(** operator+, ScalarMult by zero *)
Lemma plus_ok (m : mem O) a q : okp (m a) -> okp (m q) -> onc (pt (m a)) -> onc (pt (m q)) ->
  den (ec_plus O m a q) (ec_add K (pt (m a)) (pt (m q))).
Proof. intros. apply ECAdd_ok; assumption. Qed.
Lemma ScalarMult_0 w (m : mem O) o i bs : exists m', ScalarMult O w m o i true bs = Ok m' /\ den (m' o) EInf /\ (forall q, o <> q -> m' q = m q).
Proof.
  eexists. split; [reflexivity|]. split; [rewrite clear_same; apply pt_inf, rp_0|]. intros q Hq. apply clear_other, Hq.
Qed.

(** homogeneous coordinates *)
Definition pth (P : F3 (fT O)) : ecpt K := hom K (vl3 P).
Lemma NormalizeHom_ok (m : mem O) o i : okp (m i) ->
  exists m', NormalizeHom O m o i = Ok m' /\ okp (m' o) /\ (forall q, o <> q -> m' q = m q) /\
    (pth (m i) = EInf -> m' o = mk3 (o_0 O) (o_0 O) (o_0 O)) /\
    (forall x y, pth (m i) = EAff x y -> rp (a3 (m' o)) x /\ rp (b3 (m' o)) y /\ c3 (m' o) = o_1 O).
Proof.
  intros Hok. pose proof (okp_z _ Hok) as Rz. unfold NormalizeHom, pth, hom. cbn [vl3 a3 b3 c3].
  destruct (fdec K (vl (c3 (m i))) 0) as [Z|Z].
  { rewrite (eqb_true _ _ _ _ Rz rp_0 Z). eexists. split; [reflexivity|]. rewrite clear_same.
    split; [apply pt_inf; apply rp_0|]. split; [intros q Hq; apply clear_other, Hq|]. split; [reflexivity|]. discriminate. }
  rewrite (eqb_false _ _ _ _ Rz rp_0 Z). destruct (okp_xy _ Hok Z) as [Rx Ry].
  destruct (fdec K (vl (c3 (m i))) 1) as [Z1|Z1].
  { rewrite (eqb_true _ _ _ _ Rz rp_1 Z1). eexists. split; [reflexivity|]. rewrite copy_same.
    assert (E1 : c3 (m i) = o_1 O). { apply (i_inj _ _ X); [apply Rz|apply rp_1|]. rewrite Z1. symmetry. apply rp_1. }
    split; [exact Hok|]. split; [intros q Hq; apply copy_other, Hq|].
    split; [discriminate|]. intros x y Exy. injection Exy as <- <-. rewrite Z1. split; [|split; [|exact E1]].
    - split; [apply Rx|]. unfold rdiv. assert (finvr K 1 = 1) as -> by (rewrite <- (Poly.finv_l K 1 (fnz K)) at 2; ring). ring.
    - split; [apply Ry|]. unfold rdiv. assert (finvr K 1 = 1) as -> by (rewrite <- (Poly.finv_l K 1 (fnz K)) at 2; ring). ring. }
  rewrite (eqb_false _ _ _ _ Rz rp_1 Z1). destruct (i_inv _ _ X _ (proj1 Rz) Z) as (A & EA & HA & HAz). rewrite EA. cbn [bind].
  eexists. split; [reflexivity|]. pose proof (rp_ok _ HA) as RA.
  match goal with |- okp (?m' o) /\ _ => set (P' := m' o); assert (EP : P' = mk3 (o_mul O (a3 (m i)) A) (o_mul O (b3 (m i)) A) (o_1 O)) end.
  { unfold P'. apply F3_eq; cbn [a3 b3 c3]; rewrite ?a3_st2, ?a3_st1, ?a3_st0, ?b3_st2, ?b3_st1, ?b3_st0, ?c3_st2; reflexivity. }
  clearbody P'. assert (Ai : vl A = finvr K (vl (c3 (m i)))).
  { pose proof (Poly.finv_l K _ Z) as L. transitivity (vl A * (finvr K (vl (c3 (m i))) * vl (c3 (m i)))); [rewrite L; ring|].
    transitivity (finvr K (vl (c3 (m i))) * (vl A * vl (c3 (m i)))); [ring|]. rewrite HAz. ring. }
  rewrite EP. cbn [a3 b3 c3]. split; [exact (proj1 (okp_mk _ _ _ _ _ _ (rp_mul _ _ _ _ Rx RA) (rp_mul _ _ _ _ Ry RA) rp_1))|]. split.
  { intros q Hq. rewrite st2_other, st1_other, st0_other by exact Hq. reflexivity. }
  split; [discriminate|]. intros x y Exy. injection Exy as <- <-. unfold rdiv. rewrite <- Ai.
  split; [apply rp_mul; assumption|]. split; [apply rp_mul; assumption|reflexivity].
Qed.
(** membership in Jacobian and homogeneous coordinates *)
Lemma fcancel (x y z : K) : z <> 0 -> x * z = y * z -> x = y.
Proof.
  intros Hz E. pose proof (Poly.finv_l K z Hz) as L. transitivity (x * z * finvr K z); [|rewrite E].
  - transitivity (x * (finvr K z * z)); [rewrite L; ring|ring].
  - transitivity (y * (finvr K z * z)); [ring|rewrite L; ring].
Qed.
Lemma mul_nz (x y : K) : x <> 0 -> y <> 0 -> x * y <> 0.
Proof. intros Hx Hy E. apply Hx. apply (fcancel x 0 y Hy). rewrite E. ring. Qed.
Lemma jac_on (x y z : K) : z <> 0 ->
  (onc (jac K (mk3 x y z)) <-> y * y = x * x * x + z * z * z * (z * z * z) * b).
Proof.
  intros Hz. destruct (jac_inv K (mk3 x y z) Hz) as (x' & y' & -> & EX & EY). cbn [a3 b3 c3] in EX, EY. subst x y. unfold on_curve.
  assert (N : z * z * z * (z * z * z) <> 0) by (repeat apply mul_nz; assumption). split; intros E.
  - transitivity (y' * y' * (z * z * z * (z * z * z))); [ring|]. rewrite E. ring.
  - apply (fcancel _ _ _ N). transitivity (y' * (z * z * z) * (y' * (z * z * z))); [ring|]. rewrite E. ring.
Qed.
Lemma hom_on (x y z : K) : z <> 0 -> (onc (hom K (mk3 x y z)) <-> y * y * z = x * x * x + z * z * z * b).
Proof.
  intros Hz. unfold hom. cbn [a3 b3 c3]. destruct (fdec K z 0) as [E|_]; [contradiction|]. unfold on_curve, rdiv.
  pose proof (Poly.finv_l K z Hz) as L. set (i := finvr K z) in *. clearbody i.
  assert (N : z * z * z <> 0) by (repeat apply mul_nz; assumption).
  assert (E1 : y * i * (y * i) * (z * z * z) = y * y * z) by (transitivity (y * y * z * ((i * z) * (i * z))); [ring|rewrite L; ring]).
  assert (E2 : (x * i * (x * i) * (x * i) + b) * (z * z * z) = x * x * x + z * z * z * b)
    by (transitivity (x * x * x * ((i * z) * (i * z) * (i * z)) + z * z * z * b); [ring|rewrite L; ring]).
  split; intros E.
  - rewrite <- E1, <- E2, E. reflexivity.
  - apply (fcancel _ _ _ N). rewrite E1, E2. exact E.
Qed.

(** the membership tests, over the field operations; [f] multiplies by the curve constant *)
Definition gJac (f : fT O -> fT O) (P : F3 (fT O)) : bool :=
  if o_eqb O (c3 P) (o_0 O) then true
  else o_eqb O (o_mul O (b3 P) (b3 P)) (o_add O (o_mul O (o_mul O (a3 P) (a3 P)) (a3 P)) (f (o_sq O (o_mul O (o_sq O (c3 P)) (c3 P))))).
Definition gHom (f : fT O -> fT O) (P : F3 (fT O)) : bool :=
  if o_eqb O (c3 P) (o_0 O) then true
  else o_eqb O (o_mul O (o_mul O (b3 P) (b3 P)) (c3 P)) (o_add O (o_mul O (o_mul O (a3 P) (a3 P)) (a3 P)) (f (c3 P))).
Definition gHom2 (fb x y : fT O) : bool := o_eqb O (o_mul O y y) (o_add O (o_mul O (o_mul O x x) x) fb).
Lemma eqb_iff x y v w : rp x v -> rp y w -> (o_eqb O x y = true <-> v = w).
Proof. intros [Hx <-] [Hy <-]. exact (i_eqb _ _ X x y Hx Hy). Qed.
Lemma gJac_ok f P : (forall z v, rp z v -> rp (f z) (v * b)) -> okp P -> (gJac f P = true <-> onc (pt P)).
Proof.
  intros Hf Hx. unfold gJac. pose proof (okp_z _ Hx) as Rz. destruct (fdec K (vl (c3 P)) 0) as [Z|Z].
  { rewrite (eqb_true _ _ _ _ Rz rp_0 Z). unfold pt. rewrite (jac_inf K (vl3 P) Z). split; [intros _; exact I|reflexivity]. }
  rewrite (eqb_false _ _ _ _ Rz rp_0 Z). destruct (okp_xy _ Hx Z) as [Rx Ry]. unfold pt, vl3. rewrite (jac_on _ _ _ Z).
  apply eqb_iff; [rps|]. apply rp_add; [rps|]. apply Hf. rps.
Qed.
Lemma gHom_ok f P : (forall z v, rp z v -> rp (f z) (v * v * v * b)) -> okp P -> (gHom f P = true <-> onc (pth P)).
Proof.
  intros Hf Hx. unfold gHom. pose proof (okp_z _ Hx) as Rz. destruct (fdec K (vl (c3 P)) 0) as [Z|Z].
  { rewrite (eqb_true _ _ _ _ Rz rp_0 Z). unfold pth, hom. cbn [vl3 c3]. destruct (fdec K (vl (c3 P)) 0); [|contradiction]. split; [intros _; exact I|reflexivity]. }
  rewrite (eqb_false _ _ _ _ Rz rp_0 Z). destruct (okp_xy _ Hx Z) as [Rx Ry]. unfold pth, vl3. rewrite (hom_on _ _ _ Z).
  apply eqb_iff; [rps|]. apply rp_add; [rps|]. apply Hf. rps.
Qed.
Lemma gHom2_ok fb x y vx vy : rp fb b -> rp x vx -> rp y vy -> (gHom2 fb x y = true <-> onc (EAff vx vy)).
Proof. intros Hf Rx Ry. unfold gHom2, on_curve. apply eqb_iff; rps. Qed.
End Impl.
