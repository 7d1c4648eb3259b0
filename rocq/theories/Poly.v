(** Polynomials in one variable over a field with decidable equality, as lists of
    coefficients without trailing zeros; used only in the proof of the group law. *)
From Coq Require Import List Lia Ring Arith Eqdep_dec Setoid Morphisms.
From Verif Require Import TowerSpec.
Import ListNotations.

(** A field with an inverse function and decidable equality. *)
Record fld := Fld {
  fk :> cring;
  finvr : fk -> fk;
  fdec : forall x y : fk, {x = y} + {x <> y};
  fnz : (ro : fk) <> rz;
  finv_l : forall x : fk, x <> rz -> rmul (finvr x) x = ro }.

Lemma fld_field (K : fld) : is_field K.
Proof.
  split; [apply fnz|split].
  - intros x Hx. exists (finvr K x). apply finv_l, Hx.
  - intros x y. destruct (fdec K x y); auto.
Qed.

Section Poly.
Local Open Scope r_scope.
Variable K : fld.
Add Ring KRpoly : (rth K).
Notation L := (list K).
Definition coef (l : L) (n : nat) : K := nth n l 0.
Lemma coef_nil n : coef [] n = 0. Proof. destruct n; reflexivity. Qed.
Lemma coef_0 a l : coef (a :: l) 0 = a. Proof. reflexivity. Qed.
Lemma coef_S a l n : coef (a :: l) (S n) = coef l n. Proof. reflexivity. Qed.
Definition peq (l m : L) : Prop := forall n, coef l n = coef m n.
Instance peq_equiv : Equivalence peq.
Proof. split; intros x; unfold peq; [reflexivity|intros y H n; symmetry; apply H|intros y z H1 H2 n; rewrite H1; apply H2]. Qed.
Lemma peq_cons a b l m : a = b -> peq l m -> peq (a :: l) (b :: m).
Proof. intros -> H [|n]; [reflexivity|apply H]. Qed.
Lemma peq_nil_tl a l : peq [] (a :: l) -> a = 0 /\ peq [] l.
Proof. intros H. split; [symmetry; exact (H O)|]. intros n. specialize (H (S n)). rewrite coef_S in H. rewrite <- H, !coef_nil. reflexivity. Qed.

(** ** canonical lists *)
Definition pcons (a : K) (l : L) : L := match l with [] => if fdec K a 0 then [] else [a] | _ => a :: l end.
Fixpoint pnorm (l : L) : L := match l with [] => [] | a :: l' => pcons a (pnorm l') end.
Lemma coef_pcons a l : peq (pcons a l) (a :: l).
Proof. intros n. destruct l as [|b l]; [|reflexivity]. cbn. destruct (fdec K a 0) as [->|]; [|reflexivity]. destruct n as [|[|n]]; reflexivity. Qed.
Lemma coef_norm l : peq (pnorm l) l.
Proof. induction l as [|a l IH]; [reflexivity|]. cbn. rewrite coef_pcons. apply peq_cons; auto. Qed.
Lemma norm_nil l : peq [] l -> pnorm l = [].
Proof. induction l as [|a l IH]; [reflexivity|]. intros H. apply peq_nil_tl in H as [-> H]. cbn. rewrite IH by exact H. cbn. destruct (fdec K 0 0); congruence. Qed.
Lemma norm_ext l : forall m, peq l m -> pnorm l = pnorm m.
Proof.
  induction l as [|a l IH]; intros m H.
  - symmetry. apply norm_nil, H.
  - destruct m as [|b m]; [apply norm_nil; symmetry; exact H|]. cbn. f_equal; [exact (H O)|]. apply IH. intros n. exact (H (S n)).
Qed.
Lemma norm_norm l : pnorm (pnorm l) = pnorm l.
Proof. apply norm_ext, coef_norm. Qed.

Definition poly : Type := { l : L | pnorm l = l }.
Definition pl (p : poly) : L := proj1_sig p.
Definition mkp (l : L) : poly := exist _ (pnorm l) (norm_norm l).
Lemma poly_eq (p q : poly) : peq (pl p) (pl q) -> p = q.
Proof.
  destruct p as [l Hl], q as [m Hm]. cbn. intros H. assert (E : l = m) by (rewrite <- Hl, <- Hm; apply norm_ext, H).
  subst m. f_equal. apply UIP_dec. apply list_eq_dec, fdec.
Qed.
Lemma pl_mkp l : peq (pl (mkp l)) l. Proof. apply coef_norm. Qed.

(** ** raw operations *)
Fixpoint ladd (l m : L) : L := match l, m with [], _ => m | _, [] => l | a :: l', b :: m' => (a + b) :: ladd l' m' end.
Definition lscale (a : K) (l : L) : L := map (rmul a) l.
Fixpoint lmul (l m : L) : L := match l with [] => [] | a :: l' => ladd (lscale a m) (0 :: lmul l' m) end.
Lemma coef_add l : forall m n, coef (ladd l m) n = coef l n + coef m n.
Proof.
  induction l as [|a l IH]; intros m n.
  - cbn [ladd]. rewrite coef_nil. ring.
  - destruct m as [|b m]; [cbn [ladd]; rewrite coef_nil; ring|]. destruct n as [|n]; [reflexivity|]. cbn [ladd]. rewrite !coef_S. apply IH.
Qed.
Lemma coef_scale a l n : coef (lscale a l) n = a * coef l n.
Proof. revert n. induction l as [|b l IH]; intros n; [cbn [lscale map]; rewrite coef_nil; ring|]. destruct n as [|n]; [reflexivity|]. exact (IH n). Qed.
Definition sh (f : nat -> K) (n : nat) : K := match n with O => 0 | S n' => f n' end.
Lemma coef_mul_c a l m n : coef (lmul (a :: l) m) n = a * coef m n + sh (coef (lmul l m)) n.
Proof. cbn [lmul]. rewrite coef_add, coef_scale. destruct n; reflexivity. Qed.
Instance lmul_proper : Proper (peq ==> peq ==> peq) lmul.
Proof.
  assert (A : forall l m m', peq m m' -> peq (lmul l m) (lmul l m')).
  { induction l as [|a l IH]; intros m m' H; [reflexivity|]. intros n. rewrite !coef_mul_c, (H n). f_equal. destruct n; [reflexivity|]. cbn [sh]. apply IH, H. }
  assert (Z : forall l m, peq [] l -> peq [] (lmul l m)).
  { induction l as [|a l IH]; intros m H; [reflexivity|]. apply peq_nil_tl in H as [-> H]. intros n. rewrite coef_mul_c, coef_nil. destruct n as [|n]; cbn [sh]; [ring|].
    rewrite <- (IH m H n), coef_nil. ring. }
  assert (Bb : forall l l' m, peq l l' -> peq (lmul l m) (lmul l' m)).
  { induction l as [|a l IH]; intros l' m H.
    - apply Z, H.
    - destruct l' as [|b l']; [symmetry; apply Z; symmetry; exact H|]. intros n. rewrite !coef_mul_c. assert (E : a = b) by exact (H O). rewrite E. f_equal.
      destruct n as [|n]; [reflexivity|]. cbn [sh]. apply IH. intros k. exact (H (S k)). }
  intros l l' H m m' H'. rewrite (A _ _ _ H'). apply Bb, H.
Qed.
Lemma coef_mul_add l m k n : coef (lmul (ladd l m) k) n = coef (lmul l k) n + coef (lmul m k) n.
Proof.
  revert m n. induction l as [|a l IH]; intros m n; [cbn [ladd lmul]; rewrite coef_nil; ring|].
  destruct m as [|b m]; [cbn [ladd lmul]; rewrite coef_nil; ring|]. cbn [ladd]. rewrite !coef_mul_c.
  destruct n as [|n]; cbn [sh]; [ring|rewrite IH; ring].
Qed.
Lemma coef_mul_scale a l m n : coef (lmul (lscale a l) m) n = a * coef (lmul l m) n.
Proof.
  revert n. induction l as [|b l IH]; intros n; [cbn [lscale map lmul]; rewrite coef_nil; ring|].
  change (lscale a (b :: l)) with ((a * b) :: lscale a l). rewrite !coef_mul_c. destruct n as [|n]; cbn [sh]; [ring|rewrite IH; ring].
Qed.
Lemma coef_mul_sh l m n : coef (lmul (0 :: l) m) n = sh (coef (lmul l m)) n.
Proof. rewrite coef_mul_c. ring. Qed.
Lemma lmul_assoc l m k : peq (lmul l (lmul m k)) (lmul (lmul l m) k).
Proof.
  induction l as [|a l IH]; [reflexivity|]. intros n. cbn [lmul]. rewrite coef_mul_add, coef_mul_scale, coef_mul_sh, coef_add, coef_scale.
  destruct n as [|n]; [reflexivity|]. cbn [sh]. rewrite coef_S, (IH n). reflexivity.
Qed.
Lemma coef_mul_r l b m n : coef (lmul l (b :: m)) n = b * coef l n + sh (coef (lmul l m)) n.
Proof.
  revert n. induction l as [|a l IH]; intros n.
  - cbn [lmul]. rewrite !coef_nil. destruct n; cbn [sh]; [ring|rewrite coef_nil; ring].
  - rewrite coef_mul_c. destruct n as [|n]; cbn [sh]; [rewrite !coef_0; ring|]. rewrite IH, coef_S, coef_S.
    rewrite coef_mul_c. ring.
Qed.
Lemma lmul_nil_r l : peq (lmul l []) [].
Proof. induction l as [|a l IH]; [reflexivity|]. intros n. rewrite coef_mul_c, coef_nil. destruct n as [|n]; cbn [sh]; [ring|]. rewrite IH, coef_nil. ring. Qed.
Lemma lmul_comm l m : peq (lmul l m) (lmul m l).
Proof.
  induction l as [|a l IH]; [symmetry; apply lmul_nil_r|]. intros n. rewrite coef_mul_c, coef_mul_r. f_equal. destruct n as [|n]; [reflexivity|]. apply IH.
Qed.
Lemma lmul_1 l : peq (lmul [1] l) l.
Proof. intros n. rewrite coef_mul_c. destruct n as [|n]; cbn [sh lmul]; [ring|rewrite coef_nil; ring]. Qed.

Definition padd (p q : poly) : poly := mkp (ladd (pl p) (pl q)).
Definition pmul (p q : poly) : poly := mkp (lmul (pl p) (pl q)).
Definition popp (p : poly) : poly := mkp (lscale (- (1)) (pl p)).
Definition psub (p q : poly) : poly := padd p (popp q).
Definition pconst (a : K) : poly := mkp [a].
Definition p0 : poly := mkp [].
Definition p1 : poly := pconst 1.
Definition pX : poly := mkp [0; 1].
Lemma poly_ring : ring_theory p0 p1 padd pmul psub popp eq.
Proof.
  assert (CA : forall p q n, coef (pl (padd p q)) n = coef (pl p) n + coef (pl q) n) by (intros; unfold padd; rewrite (pl_mkp _ n); apply coef_add).
  assert (CO : forall p n, coef (pl (popp p)) n = - coef (pl p) n) by (intros; unfold popp; rewrite (pl_mkp _ n), coef_scale; ring).
  assert (CM : forall p q n, coef (pl (pmul p q)) n = coef (lmul (pl p) (pl q)) n) by (intros; unfold pmul; apply (pl_mkp _ n)).
  assert (C0 : forall n, coef (pl p0) n = 0) by (intros; apply coef_nil).
  constructor; intros; apply poly_eq; intros n; unfold psub; rewrite ?CA, ?CO, ?CM, ?CA, ?C0; try ring; try reflexivity.
  - rewrite (lmul_proper _ [1] (pl_mkp _) _ _ (reflexivity _) n). apply lmul_1.
  - apply lmul_comm.
  - assert (E1 : peq (pl (pmul y z)) (lmul (pl y) (pl z))) by (intros k; apply CM).
    assert (E2 : peq (pl (pmul x y)) (lmul (pl x) (pl y))) by (intros k; apply CM).
    rewrite (lmul_proper _ _ (reflexivity _) _ _ E1 n), (lmul_proper _ _ E2 _ _ (reflexivity _) n). apply lmul_assoc.
  - assert (E1 : peq (pl (padd x y)) (ladd (pl x) (pl y))) by (intros k; rewrite coef_add; apply CA).
    rewrite (lmul_proper _ _ E1 _ _ (reflexivity _) n). apply coef_mul_add.
Qed.
Definition polyR : cring := CRing poly p0 p1 padd pmul psub popp poly_ring.
Lemma cpl_add (p q : polyR) n : coef (pl (p + q)) n = coef (pl p) n + coef (pl q) n.
Proof. cbn [radd polyR]. unfold padd. rewrite pl_mkp. apply coef_add. Qed.
Lemma cpl_opp (p : polyR) n : coef (pl (- p)) n = - coef (pl p) n.
Proof. cbn [ropp polyR]. unfold popp. rewrite pl_mkp, coef_scale. ring. Qed.
Lemma cpl_sub (p q : polyR) n : coef (pl (p - q)) n = coef (pl p) n - coef (pl q) n.
Proof. cbn [rsub polyR]. unfold psub, padd. rewrite pl_mkp, coef_add. rewrite cpl_opp. ring. Qed.
Lemma cpl_0 n : coef (pl (0 : polyR)) n = 0.
Proof. apply coef_nil. Qed.
Lemma cpl_const a n : coef (pl (pconst a)) n = match n with O => a | _ => 0 end.
Proof. unfold pconst. rewrite pl_mkp. destruct n as [|[|n]]; reflexivity. Qed.
Lemma cpl_mul (p q : polyR) n : coef (pl (p * q)) n = coef (lmul (pl p) (pl q)) n.
Proof. cbn [rmul polyR]. unfold pmul. rewrite pl_mkp. reflexivity. Qed.

(** constants form a subring *)
Lemma pc_add a b : pconst (a + b) = (pconst a : polyR) + pconst b.
Proof. apply poly_eq. intros n. rewrite cpl_add, !cpl_const. destruct n; [reflexivity|ring]. Qed.
Lemma pc_sub a b : pconst (a - b) = (pconst a : polyR) - pconst b.
Proof. apply poly_eq. intros n. rewrite cpl_sub, !cpl_const. destruct n; [reflexivity|ring]. Qed.
Lemma pc_opp a : pconst (- a) = - (pconst a : polyR).
Proof. apply poly_eq. intros n. rewrite cpl_opp, !cpl_const. destruct n; [reflexivity|ring]. Qed.
Lemma pc_mul a b : pconst (a * b) = (pconst a : polyR) * pconst b.
Proof.
  apply poly_eq. intros n. rewrite cpl_mul, cpl_const. unfold pconst. rewrite (lmul_proper _ _ (pl_mkp _) _ _ (pl_mkp _) n), coef_mul_c.
  destruct n as [|n]; cbn [sh lmul]; rewrite ?coef_nil, ?coef_0; [ring|]. rewrite coef_S, coef_nil. ring.
Qed.
Lemma pc_0 : pconst 0 = (0 : polyR).
Proof. apply poly_eq. intros n. rewrite cpl_const, cpl_0. destruct n; reflexivity. Qed.
Lemma pc_1 : pconst 1 = (1 : polyR).
Proof. reflexivity. Qed.

(** ** evaluation *)
Fixpoint lev (l : L) (x : K) : K := match l with [] => 0 | a :: l' => a + x * lev l' x end.
Lemma lev_nil l x : peq [] l -> lev l x = 0.
Proof. induction l as [|a l IH]; [reflexivity|]. intros H. apply peq_nil_tl in H as [-> H]. cbn [lev]. rewrite IH by exact H. ring. Qed.
Lemma lev_ext l x : forall m, peq l m -> lev l x = lev m x.
Proof.
  induction l as [|a l IH]; intros m H; [symmetry; apply lev_nil, H|].
  destruct m as [|b m]; [apply lev_nil; symmetry; exact H|]. cbn [lev]. f_equal; [exact (H O)|]. f_equal. apply IH. intros n. exact (H (S n)).
Qed.
Lemma lev_add l x : forall m, lev (ladd l m) x = lev l x + lev m x.
Proof. induction l as [|a l IH]; intros m; [cbn [ladd lev]; ring|]. destruct m as [|b m]; [cbn [ladd lev]; ring|]. cbn [ladd lev]. rewrite IH. ring. Qed.
Lemma lev_scale a l x : lev (lscale a l) x = a * lev l x.
Proof. induction l as [|b l IH]; [cbn [lscale map lev]; ring|]. change (lscale a (b :: l)) with ((a * b) :: lscale a l). cbn [lev]. rewrite IH. ring. Qed.
Lemma lev_mul l m x : lev (lmul l m) x = lev l x * lev m x.
Proof. induction l as [|a l IH]; [cbn [lmul lev]; ring|]. cbn [lmul]. rewrite lev_add, lev_scale. cbn [lev]. rewrite IH. ring. Qed.
Definition pev (p : poly) (x : K) : K := lev (pl p) x.
Lemma pev_add (p q : polyR) x : pev (p + q) x = pev p x + pev q x.
Proof. unfold pev. cbn [radd polyR]. unfold padd. rewrite (lev_ext _ _ _ (pl_mkp _)). apply lev_add. Qed.
Lemma pev_mul (p q : polyR) x : pev (p * q) x = pev p x * pev q x.
Proof. unfold pev. cbn [rmul polyR]. unfold pmul. rewrite (lev_ext _ _ _ (pl_mkp _)). apply lev_mul. Qed.
Lemma pev_opp (p : polyR) x : pev (- p) x = - pev p x.
Proof. unfold pev. cbn [ropp polyR]. unfold popp. rewrite (lev_ext _ _ _ (pl_mkp _)), lev_scale. ring. Qed.
Lemma pev_const a x : pev (pconst a) x = a.
Proof. unfold pev, pconst. rewrite (lev_ext _ _ _ (pl_mkp _)). cbn [lev]. ring. Qed.
Lemma pev_X x : pev pX x = x.
Proof. unfold pev, pX. rewrite (lev_ext _ _ _ (pl_mkp _)). cbn [lev]. ring. Qed.
Lemma pev_sub (p q : polyR) x : pev (p - q) x = pev p x - pev q x.
Proof. change (p - q) with (p + - q). rewrite pev_add, pev_opp. ring. Qed.

(** ** degree: number of coefficients up to the leading one; 0 for the zero polynomial *)
Definition dg (p : poly) : nat := length (pl p).
Lemma norm_last l : pnorm l <> [] -> coef (pnorm l) (length (pnorm l) - 1) <> 0.
Proof.
  induction l as [|a l IH]; intros H; [contradiction H; reflexivity|]. cbn [pnorm] in *. destruct (pnorm l) as [|b m] eqn:E.
  - cbn in *. destruct (fdec K a 0); [congruence|]. exact n.
  - cbn [pcons length] in *. specialize (IH ltac:(discriminate)). cbn [length] in IH.
    replace (S (S (length m)) - 1)%nat with (S (length m))%nat by lia. rewrite coef_S.
    replace (S (length m) - 1)%nat with (length m) in IH by lia. exact IH.
Qed.
Lemma dg_spec (p : polyR) n : dg p = S n <-> (coef (pl p) n <> 0 /\ forall m, (n < m)%nat -> coef (pl p) m = 0).
Proof.
  assert (A : forall n, dg p = S n -> coef (pl p) n <> 0 /\ forall m, (n < m)%nat -> coef (pl p) m = 0).
  { clear n. intros n H. split.
    - destruct p as [l Hl]. unfold dg in H. cbn [pl proj1_sig] in *. rewrite <- Hl in H |- *. replace n with (length (pnorm l) - 1)%nat by lia. apply norm_last.
      intros E. rewrite E in H. discriminate.
    - intros m Hm. apply nth_overflow. unfold dg in H. lia. }
  split; [apply A|]. intros [H1 H2]. destruct (dg p) as [|k] eqn:E.
  - exfalso. apply H1. apply nth_overflow. unfold dg in E. lia.
  - destruct (A k eq_refl) as [B1 B2]. destruct (Nat.lt_trichotomy k n) as [Hlt|[->|Hlt]]; [|reflexivity|].
    + exfalso. apply H1, B2, Hlt.
    + exfalso. apply B1, H2, Hlt.
Qed.
Lemma dg_0 (p : polyR) : dg p = O <-> p = 0.
Proof.
  split.
  - intros H. apply poly_eq. intros n. rewrite cpl_0. apply nth_overflow. unfold dg in H. lia.
  - intros ->. reflexivity.
Qed.
Lemma dg_ex (p : polyR) : p <> 0 -> exists n, dg p = S n.
Proof. intros H. destruct (dg p) eqn:E; [|eauto]. apply dg_0 in E. contradiction. Qed.
Lemma top_mul l : forall i j m, (forall k, (i < k)%nat -> coef l k = 0) -> (forall k, (j < k)%nat -> coef m k = 0) ->
  coef (lmul l m) (i + j) = coef l i * coef m j /\ forall k, (i + j < k)%nat -> coef (lmul l m) k = 0.
Proof.
  induction l as [|a l IH]; intros i j m H1 H2.
  - cbn [lmul]. split; [rewrite !coef_nil; ring|]. intros. apply coef_nil.
  - destruct i as [|i].
    + assert (Z : peq (lmul l m) []). { transitivity (lmul [] m); [|reflexivity]. apply lmul_proper; [|reflexivity]. intros n. rewrite coef_nil. exact (H1 (S n) ltac:(lia)). }
      split.
      * rewrite coef_mul_c, coef_0. cbn [Nat.add]. destruct j as [|j]; cbn [sh]; [ring|]. rewrite Z, coef_nil. ring.
      * intros k Hk. rewrite coef_mul_c, H2 by lia. destruct k as [|k]; cbn [sh]; [ring|]. rewrite Z, coef_nil. ring.
    + destruct (IH i j m) as [A Bb]; [intros k Hk; exact (H1 (S k) ltac:(lia))|exact H2|]. split.
      * rewrite coef_mul_c. cbn [Nat.add sh]. rewrite H2 by lia. rewrite A, coef_S. ring.
      * intros k Hk. rewrite coef_mul_c, H2 by lia. destruct k as [|k]; cbn [sh]; [ring|]. rewrite Bb by lia. ring.
Qed.
Lemma dg_mul (p q : polyR) m n : dg p = S m -> dg q = S n -> dg (p * q) = S (m + n).
Proof.
  intros H1 H2. apply dg_spec in H1 as [A1 A2]. apply dg_spec in H2 as [B1 B2]. destruct (top_mul (pl p) m n (pl q) A2 B2) as [C D].
  apply dg_spec. split.
  - rewrite cpl_mul, C. intros E. apply (field_integral K (fld_field K)) in E. tauto.
  - intros k Hk. rewrite cpl_mul. apply D, Hk.
Qed.
Lemma poly_domain (p q : polyR) : p * q = 0 -> p = 0 \/ q = 0.
Proof.
  intros H. destruct (dg p) as [|m] eqn:E1; [apply dg_0 in E1; auto|]. destruct (dg q) as [|n] eqn:E2; [apply dg_0 in E2; auto|].
  pose proof (dg_mul p q m n E1 E2) as E. rewrite H in E. discriminate.
Qed.
Lemma dg_sub_l (p q : polyR) : (dg q < dg p)%nat -> dg (p - q) = dg p.
Proof.
  intros H. destruct (dg p) as [|n] eqn:E; [lia|]. apply dg_spec in E as [A1 A2].
  assert (Z : forall k, (n <= k)%nat -> coef (pl q) k = 0) by (intros k Hk; apply nth_overflow; unfold dg in H; lia).
  apply dg_spec. split.
  - rewrite cpl_sub, Z by lia. intros Ez. apply A1. rewrite <- Ez. ring.
  - intros k Hk. rewrite cpl_sub, A2, Z by lia. ring.
Qed.
Lemma dg_opp (p : polyR) : dg (- p) = dg p.
Proof.
  destruct (dg p) as [|n] eqn:E.
  - apply dg_0 in E. subst. apply dg_0. apply poly_eq. intros k. rewrite cpl_opp, cpl_0. ring.
  - apply dg_spec in E as [A1 A2]. apply dg_spec. split.
    + rewrite cpl_opp. intros Ez. apply A1. transitivity (- - coef (pl p) n); [ring|]. rewrite Ez. ring.
    + intros k Hk. rewrite cpl_opp, A2 by lia. ring.
Qed.
Lemma dg_sub_r (p q : polyR) : (dg p < dg q)%nat -> dg (p - q) = dg q.
Proof.
  intros H. assert (E : p - q = - (q - p)). { apply poly_eq. intros n. rewrite cpl_opp, !cpl_sub. ring. }
  rewrite E, dg_opp. apply dg_sub_l, H.
Qed.
Lemma dg_const a : a <> 0 -> dg (pconst a : polyR) = 1%nat.
Proof. intros H. apply dg_spec. rewrite cpl_const. split; [exact H|]. intros m Hm. rewrite cpl_const. destruct m; [lia|reflexivity]. Qed.
Lemma cpl_X n : coef (pl pX) n = match n with 1%nat => 1 | _ => 0 end.
Proof. unfold pX. rewrite pl_mkp. destruct n as [|[|[|n]]]; reflexivity. Qed.
Lemma dg_Xa a : dg ((pX : polyR) - pconst a) = 2%nat.
Proof.
  rewrite dg_sub_l.
  - apply dg_spec. rewrite cpl_X. split; [apply fnz|]. intros m Hm. rewrite cpl_X. destruct m as [|[|m]]; [lia|lia|reflexivity].
  - assert (E : dg (pX : polyR) = 2%nat). { apply dg_spec. rewrite cpl_X. split; [apply fnz|]. intros m Hm. rewrite cpl_X. destruct m as [|[|m]]; [lia|lia|reflexivity]. }
    rewrite E. destruct (fdec K a 0) as [->|Ha]; [rewrite pc_0; cbn; lia|]. rewrite dg_const by exact Ha. lia.
Qed.
End Poly.
