(** The points of y^2 = x^3 + b form a commutative group: proof by ideal classes of the
    coordinate ring K[X,Y]/(Y^2 - X^3 - b).  The class of the ideal (X - x, Y - y) of a point
    determines the point, and the ideal of P + Q is in the class of the product. *)
From Coq Require Import List Lia Ring Field Arith.
From Verif Require Import TowerSpec Poly EcSpec.
Import ListNotations.

(** ** Finitely generated ideals of a commutative ring *)
Section Ideals.
Local Open Scope r_scope.
Variable R : cring.
Add Ring RRi : (rth R).
Fixpoint inS (L : list R) (f : R) : Prop :=
  match L with [] => f = 0 | u :: L' => exists s, inS L' (f - s * u) end.
Lemma inS_0 L : inS L 0.
Proof. induction L as [|u L IH]; [reflexivity|]. exists 0. replace (0 - 0 * u) with (0 : R) by ring. exact IH. Qed.
Lemma inS_add L : forall f g, inS L f -> inS L g -> inS L (f + g).
Proof.
  induction L as [|u L IH]; cbn [inS]; intros f g Hf Hg.
  - rewrite Hf, Hg. ring.
  - destruct Hf as [s Hs], Hg as [t Ht]. exists (s + t). replace (f + g - (s + t) * u) with ((f - s * u) + (g - t * u)) by ring. apply IH; assumption.
Qed.
Lemma inS_mul L c : forall f, inS L f -> inS L (c * f).
Proof.
  induction L as [|u L IH]; cbn [inS]; intros f Hf.
  - rewrite Hf. ring.
  - destruct Hf as [s Hs]. exists (c * s). replace (c * f - c * s * u) with (c * (f - s * u)) by ring. apply IH; assumption.
Qed.
Lemma inS_opp L f : inS L f -> inS L (- f).
Proof. intros H. replace (- f) with (- (1) * f) by ring. apply inS_mul, H. Qed.
Lemma inS_sub L f g : inS L f -> inS L g -> inS L (f - g).
Proof. intros. replace (f - g) with (f + - g) by ring. apply inS_add, inS_opp; assumption. Qed.
Lemma inS_gen L u : In u L -> inS L u.
Proof.
  induction L as [|v L IH]; cbn [In inS]; [contradiction|]. intros [->|H].
  - exists 1. replace (u - 1 * u) with (0 : R) by ring. apply inS_0.
  - exists 0. replace (u - 0 * v) with u by ring. apply IH, H.
Qed.
Definition ile (L M : list R) : Prop := forall u, In u L -> inS M u.
Lemma ile_in L M f : ile L M -> inS L f -> inS M f.
Proof.
  revert f. induction L as [|u L IH]; cbn [inS]; intros f H Hf.
  - rewrite Hf. apply inS_0.
  - destruct Hf as [s Hs]. replace f with ((f - s * u) + s * u) by ring. apply inS_add; [apply IH; [intros v Hv; apply H; right; exact Hv|exact Hs]|].
    apply inS_mul, H. left. reflexivity.
Qed.
Lemma ile_refl L : ile L L. Proof. intros u. apply inS_gen. Qed.
Lemma ile_trans L M N : ile L M -> ile M N -> ile L N.
Proof. intros H1 H2 u Hu. apply (ile_in M); [exact H2|apply H1, Hu]. Qed.
Definition ipr (L M : list R) : list R := flat_map (fun u => map (rmul u) M) L.
Lemma in_ipr L M f : In f (ipr L M) <-> exists u v, In u L /\ In v M /\ f = u * v.
Proof.
  unfold ipr. rewrite in_flat_map. split.
  - intros (u & Hu & Hf). apply in_map_iff in Hf as (v & E & Hv). exists u, v. auto.
  - intros (u & v & Hu & Hv & ->). exists u. split; [exact Hu|]. apply in_map. exact Hv.
Qed.
Lemma inS_ipr L M f g : inS L f -> inS M g -> inS (ipr L M) (f * g).
Proof.
  intros Hf Hg. revert f Hf.
  assert (A : forall u, In u L -> inS (ipr L M) (u * g)).
  { intros u Hu. clear -Hu Hg. assert (B : forall M', (forall v, In v M' -> In v M) -> forall g, inS M' g -> inS (ipr L M) (u * g)).
    { induction M' as [|v M' IH]; cbn [inS]; intros Hin h Hh.
      - rewrite Hh. replace (u * 0) with (0 : R) by ring. apply inS_0.
      - destruct Hh as [s Hs]. replace (u * h) with (u * (h - s * v) + s * (u * v)) by ring. apply inS_add; [apply IH; [intros; apply Hin; right; assumption|exact Hs]|].
        apply inS_mul, inS_gen, in_ipr. exists u, v. split; [exact Hu|]. split; [apply Hin; left; reflexivity|reflexivity]. }
    apply (B M); auto. }
  assert (B : forall L', (forall v, In v L' -> In v L) -> forall f, inS L' f -> inS (ipr L M) (f * g)).
  { induction L' as [|v L' IH]; cbn [inS]; intros Hin h Hh.
    - rewrite Hh. replace (0 * g) with (0 : R) by ring. apply inS_0.
    - destruct Hh as [s Hs]. replace (h * g) with ((h - s * v) * g + s * (v * g)) by ring. apply inS_add; [apply IH; [intros; apply Hin; right; assumption|exact Hs]|].
      apply inS_mul, A, Hin. left. reflexivity. }
  intros f Hf. apply (B L); auto.
Qed.
Lemma ile_ipr L L' M M' : ile L L' -> ile M M' -> ile (ipr L M) (ipr L' M').
Proof. intros H1 H2 f Hf. apply in_ipr in Hf as (u & v & Hu & Hv & ->). apply inS_ipr; auto. Qed.
Lemma ile_comm L M : ile (ipr L M) (ipr M L).
Proof. intros f Hf. apply in_ipr in Hf as (u & v & Hu & Hv & ->). apply inS_gen, in_ipr. exists v, u. split; [auto|]. split; [auto|ring]. Qed.
Lemma ile_assoc1 L M N : ile (ipr L (ipr M N)) (ipr (ipr L M) N).
Proof.
  intros f Hf. apply in_ipr in Hf as (u & v & Hu & Hv & ->). apply in_ipr in Hv as (v' & w & Hv & Hw & ->).
  apply inS_gen, in_ipr. exists (u * v'), w. split; [apply in_ipr; exists u, v'; auto|]. split; [auto|ring].
Qed.
Lemma ile_assoc2 L M N : ile (ipr (ipr L M) N) (ipr L (ipr M N)).
Proof.
  intros f Hf. apply in_ipr in Hf as (u & v & Hu & Hv & ->). apply in_ipr in Hu as (u' & w & Hu & Hw & ->).
  apply inS_gen, in_ipr. exists u', (w * v). split; [auto|]. split; [apply in_ipr; exists w, v; auto|ring].
Qed.
Definition ieq (L M : list R) : Prop := ile L M /\ ile M L.
Lemma ieq_refl L : ieq L L. Proof. split; apply ile_refl. Qed.
Lemma ieq_sym L M : ieq L M -> ieq M L. Proof. intros [A B]. split; assumption. Qed.
Lemma ieq_trans L M N : ieq L M -> ieq M N -> ieq L N.
Proof. intros [A B] [C D]. split; eapply ile_trans; eassumption. Qed.
Lemma ieq_ipr L L' M M' : ieq L L' -> ieq M M' -> ieq (ipr L M) (ipr L' M').
Proof. intros [A B] [C D]. split; apply ile_ipr; assumption. Qed.
Lemma ieq_comm L M : ieq (ipr L M) (ipr M L). Proof. split; apply ile_comm. Qed.
Lemma ieq_assoc L M N : ieq (ipr L (ipr M N)) (ipr (ipr L M) N). Proof. split; [apply ile_assoc1|apply ile_assoc2]. Qed.
Lemma ieq_1 L : ieq (ipr [1] L) L.
Proof.
  split; intros f Hf.
  - apply in_ipr in Hf as (u & v & Hu & Hv & ->). destruct Hu as [<-|[]]. replace (1 * v) with v by ring. apply inS_gen, Hv.
  - replace f with (1 * f) by ring. apply inS_gen, in_ipr. exists 1, f. split; [left; reflexivity|auto].
Qed.
Lemma ieq_s (a b : R) : ieq (ipr [a] [b]) [a * b].
Proof.
  split; intros f Hf.
  - apply in_ipr in Hf as (u & v & Hu & Hv & ->). destruct Hu as [<-|[]], Hv as [<-|[]]. apply inS_gen. left. reflexivity.
  - destruct Hf as [<-|[]]. apply inS_gen, in_ipr. exists a, b. split; [left; reflexivity|]. split; [left; reflexivity|reflexivity].
Qed.

Hypothesis dom : forall x y : R, x * y = 0 -> x = 0 \/ y = 0.
(** same ideal class *)
Definition icl (L M : list R) : Prop := exists a b, a <> 0 /\ b <> 0 /\ ieq (ipr [a] L) (ipr [b] M).
Lemma nz_mul (a b : R) : a <> 0 -> b <> 0 -> a * b <> 0.
Proof. intros Ha Hb E. apply dom in E. tauto. Qed.
Hypothesis one_nz : (1 : R) <> 0.
Lemma ieq_icl L M : ieq L M -> icl L M.
Proof. intros H. exists 1, 1. split; [exact one_nz|]. split; [exact one_nz|]. apply ieq_ipr; [apply ieq_refl|exact H]. Qed.
Lemma icl_sym L M : icl L M -> icl M L.
Proof. intros (a & b & Ha & Hb & H). exists b, a. split; [auto|]. split; [auto|]. apply ieq_sym, H. Qed.
Lemma ieq_swap a b L : ieq (ipr [a] (ipr [b] L)) (ipr [b] (ipr [a] L)).
Proof.
  eapply ieq_trans; [apply ieq_assoc|]. eapply ieq_trans; [apply ieq_ipr; [apply ieq_comm|apply ieq_refl]|]. apply ieq_sym, ieq_assoc.
Qed.
Lemma ieq_ss a b L : ieq (ipr [a * b] L) (ipr [a] (ipr [b] L)).
Proof. apply ieq_sym. eapply ieq_trans; [apply ieq_assoc|]. apply ieq_ipr; [apply ieq_s|apply ieq_refl]. Qed.
Lemma icl_trans L M N : icl L M -> icl M N -> icl L N.
Proof.
  intros (a & b & Ha & Hb & H) (c & d & Hc & Hd & H'). exists (c * a), (b * d). split; [apply nz_mul; auto|]. split; [apply nz_mul; auto|].
  eapply ieq_trans; [apply ieq_ss|]. eapply ieq_trans; [apply ieq_ipr; [apply ieq_refl|exact H]|].
  eapply ieq_trans; [apply ieq_swap|]. eapply ieq_trans; [apply ieq_ipr; [apply ieq_refl|exact H']|]. apply ieq_sym, ieq_ss.
Qed.
Lemma ieq_mid L M L' M' : ieq (ipr (ipr L M) (ipr L' M')) (ipr (ipr L L') (ipr M M')).
Proof.
  eapply ieq_trans; [apply ieq_sym, ieq_assoc|]. eapply ieq_trans; [|apply ieq_assoc]. apply ieq_ipr; [apply ieq_refl|].
  eapply ieq_trans; [apply ieq_assoc|]. eapply ieq_trans; [|apply ieq_sym, ieq_assoc]. apply ieq_ipr; [apply ieq_comm|apply ieq_refl].
Qed.
Lemma icl_ipr L L' M M' : icl L L' -> icl M M' -> icl (ipr L M) (ipr L' M').
Proof.
  intros (a & b & Ha & Hb & H) (c & d & Hc & Hd & H'). exists (a * c), (b * d). split; [apply nz_mul; auto|]. split; [apply nz_mul; auto|].
  eapply ieq_trans; [apply ieq_ipr; [apply ieq_sym, ieq_s|apply ieq_refl]|]. eapply ieq_trans; [apply ieq_mid|].
  eapply ieq_trans; [apply ieq_ipr; [exact H|exact H']|]. eapply ieq_trans; [apply ieq_mid|]. apply ieq_ipr; [apply ieq_s|apply ieq_refl].
Qed.
Lemma icl_princ (a : R) : a <> 0 -> icl [a] [1].
Proof.
  intros Ha. exists 1, a. split; [exact one_nz|]. split; [exact Ha|]. eapply ieq_trans; [apply ieq_1|].
  eapply ieq_trans; [|apply ieq_comm]. apply ieq_sym, ieq_1.
Qed.
End Ideals.

(** ** The coordinate ring *)
Section Group.
Local Open Scope r_scope.
Variable K : fld.
Variable b : K.
Hypothesis H2 : (1 + 1 : K) <> 0.
Hypothesis H3 : (1 + 1 + 1 : K) <> 0.
Hypothesis Hb : b <> 0.
Add Ring KRg : (rth K).
Notation A := (polyR K).
Add Ring ARg : (rth A).
Notation X := (pX K : A).
Notation C := (pconst K : K -> A).
Definition cub : A := X * X * X + C b.
Definition CR : cring := quad A cub.
Add Ring RRg : (rth CR).
Definition eA (a : A) : CR := mk2 a 0.
Definition eK (a : K) : CR := eA (C a).
Definition rX : CR := eA X.
Definition rY : CR := mk2 0 1.
Lemma eA_add x y : eA (x + y) = eA x + eA y.
Proof. apply F2_eq; cbn; [reflexivity|]. change ((0 : A) = 0 + 0). ring. Qed.
Lemma eA_mul x y : eA (x * y) = eA x * eA y.
Proof. apply F2_eq; cbn [eA a2 b2 rmul CR quad qmul]; ring. Qed.
Lemma eA_opp x : eA (- x) = - eA x.
Proof. apply F2_eq; cbn [eA a2 b2 ropp CR quad qopp]; [reflexivity|]. ring. Qed.
Lemma eA_sub x y : eA (x - y) = eA x - eA y.
Proof. apply F2_eq; cbn [eA a2 b2 rsub CR quad qsub]; [reflexivity|]. ring. Qed.
Lemma eK_add x y : eK (x + y) = eK x + eK y. Proof. unfold eK. rewrite pc_add. apply eA_add. Qed.
Lemma eK_mul x y : eK (x * y) = eK x * eK y. Proof. unfold eK. rewrite pc_mul. apply eA_mul. Qed.
Lemma eK_sub x y : eK (x - y) = eK x - eK y. Proof. unfold eK. rewrite pc_sub. apply eA_sub. Qed.
Lemma eK_opp x : eK (- x) = - eK x. Proof. unfold eK. rewrite pc_opp. apply eA_opp. Qed.
Lemma eK_1 : eK 1 = 1. Proof. reflexivity. Qed.
Lemma eK_0 : eK 0 = 0. Proof. unfold eK. rewrite pc_0. reflexivity. Qed.
Lemma rY_sq : rY * rY = rX * rX * rX + eK b.
Proof. unfold rX, eK. rewrite <- !eA_mul, <- eA_add. apply F2_eq; cbn [rY eA a2 b2 rmul CR quad qmul]; unfold cub; ring. Qed.
(** evaluation at a point of the curve *)
Definition ev (x y : K) (f : CR) : K := pev K (a2 f) x + pev K (b2 f) x * y.
Lemma ev_add x y f g : ev x y (f + g) = ev x y f + ev x y g.
Proof. unfold ev. cbn [a2 b2 radd CR quad qadd]. rewrite !pev_add. ring. Qed.
Lemma ev_mul x y f g : y * y = x * x * x + b -> ev x y (f * g) = ev x y f * ev x y g.
Proof.
  intros H. unfold ev. cbn [a2 b2 rmul CR quad qmul]. unfold cub. rewrite !pev_add, !pev_mul, !pev_add, !pev_mul, pev_X, pev_const.
  set (p := pev K (a2 f) x). set (q := pev K (b2 f) x). set (r := pev K (a2 g) x). set (s := pev K (b2 g) x).
  transitivity (p * r + (x * x * x + b) * (q * s) + (p * s + q * r) * y); [ring|]. rewrite <- H. ring.
Qed.
Lemma ev_eA x y a : ev x y (eA a) = pev K a x.
Proof. unfold ev, eA. cbn [a2 b2]. assert (E : pev K (0 : A) x = 0) by reflexivity. rewrite E. ring. Qed.

(** ** the norm *)
Definition nm (f : CR) : A := qnorm A cub f.
Lemma nm_mul f g : nm (f * g) = nm f * nm g.
Proof. unfold nm, qnorm. cbn [a2 b2 rmul CR quad qmul]. ring. Qed.
Lemma dg_cub : dg K cub = 4%nat.
Proof.
  assert (DX : dg K X = 2%nat). { replace X with (X - C 0) by (rewrite pc_0; ring). apply dg_Xa. }
  unfold cub. replace (X * X * X + C b) with (X * X * X - C (- b)) by (rewrite pc_opp; ring).
  pose proof (dg_mul K _ _ _ _ (dg_mul K _ _ _ _ DX DX) DX) as E. cbn [Nat.add] in E.
  rewrite dg_sub_l; [exact E|]. rewrite E. destruct (fdec K (- b) 0) as [->|N]; [rewrite pc_0; cbn; lia|rewrite dg_const by exact N; lia].
Qed.
Lemma dg_nm f : dg K (nm f) = match dg K (a2 f), dg K (b2 f) with O, O => O | S m, O => S (m + m) | O, S n => (4 + (n + n))%nat | S m, S n => Nat.max (S (m + m)) (4 + (n + n)) end.
Proof.
  unfold nm, qnorm. set (p := a2 f). set (q := b2 f).
  assert (Z0 : dg K (0 : A) = O) by reflexivity.
  assert (Ep : dg K (p * p) = match dg K p with O => O | S m => S (m + m) end).
  { destruct (dg K p) as [|m] eqn:E; [|apply dg_mul; exact E]. apply dg_0 in E. rewrite E. replace (0 * 0) with (0 : A) by ring. reflexivity. }
  assert (Eq : dg K (cub * (q * q)) = match dg K q with O => O | S n => (4 + (n + n))%nat end).
  { destruct (dg K q) as [|n] eqn:E.
    - apply dg_0 in E. rewrite E. replace (cub * (0 * 0)) with (0 : A) by ring. reflexivity.
    - apply (dg_mul K cub _ 3 (n + n) dg_cub). apply dg_mul; exact E. }
  destruct (dg K p) as [|m], (dg K q) as [|n].
  - apply dg_0 in Ep, Eq. rewrite Ep, Eq. replace (0 - 0) with (0 : A) by ring. reflexivity.
  - rewrite dg_sub_r by lia. exact Eq.
  - rewrite dg_sub_l by lia. exact Ep.
  - destruct (Nat.lt_ge_cases (S (m + m)) (4 + (n + n))) as [H|H].
    + rewrite dg_sub_r by lia. rewrite Eq. lia.
    + rewrite dg_sub_l by lia. rewrite Ep. lia.
Qed.
Lemma nm_0 f : nm f = 0 -> f = 0.
Proof.
  intros E. apply (proj2 (dg_0 K _)) in E. rewrite dg_nm in E. destruct (dg K (a2 f)) eqn:Ea, (dg K (b2 f)) eqn:Eb; try lia.
  apply dg_0 in Ea, Eb. apply F2_eq; assumption.
Qed.
Lemma CR_dom (f g : CR) : f * g = 0 -> f = 0 \/ g = 0.
Proof.
  intros E. assert (N : nm f * nm g = 0). { rewrite <- nm_mul, E. unfold nm, qnorm. cbn [a2 b2 rz CR quad q0]. ring. }
  apply poly_domain in N. destruct N as [N|N]; apply nm_0 in N; auto.
Qed.
Lemma CR_1 : (1 : CR) <> 0.
Proof. intros E. apply (f_equal a2) in E. change ((1 : A) = 0) in E. assert (D : dg K (C 1) = O) by (apply dg_0; exact E). rewrite dg_const in D by apply fnz. discriminate. Qed.
Lemma CR_cancel (a f g : CR) : a <> 0 -> a * f = a * g -> f = g.
Proof. intros Ha E. apply rsub_eq. destruct (CR_dom a (f - g)) as [H|H]; [transitivity (a * f - a * g); [ring|]; rewrite E; ring|contradiction|exact H]. Qed.

(** ** ideals of points *)
Notation pt := (ecpt K).
Definition iP (P : pt) : list CR := match P with EInf => [1] | EAff x y => [rX - eK x; rY - eK y] end.
Notation "I ~~ J" := (icl CR I J) (at level 70).
Lemma rXx_nz x : rX - eK x <> 0.
Proof.
  intros E. unfold rX, eK in E. rewrite <- eA_sub in E. apply (f_equal a2) in E. change (X - C x = 0) in E.
  apply (proj2 (dg_0 K _)) in E. rewrite dg_Xa in E. discriminate.
Qed.
Lemma inS_unit L k : k <> 0 -> inS CR L (eK k) -> inS CR L 1.
Proof.
  intros Hk H. replace (1 : CR) with (eK (finvr K k) * eK k); [apply inS_mul, H|]. rewrite <- eK_mul, finv_l by exact Hk. apply eK_1.
Qed.
Ltac el := unfold ipr, iP; cbn [flat_map map app]; repeat (first [left; reflexivity|right]).

Lemma inS_1 (u f : CR) : inS CR [u] f <-> exists s, f = s * u.
Proof.
  cbn [inS]. split; intros [s H]; exists s; [apply (rsub_eq CR); exact H|rewrite H; ring].
Qed.
(** I_P I_{-P} = (X - x) *)
Lemma iP_neg x y : y * y = x * x * x + b -> ieq CR (ipr CR (iP (EAff x y)) (iP (EAff x (- y)))) [rX - eK x].
Proof.
  intros Hc. set (L := ipr CR _ _). set (u := rX - eK x).
  assert (Hy : (rY - eK y) * (rY - eK (- y)) = (rX * rX + eK x * rX + eK x * eK x) * u).
  { unfold u. rewrite eK_opp. transitivity (rY * rY - eK y * eK y); [ring|]. rewrite rY_sq, <- eK_mul, Hc, eK_add, !eK_mul. ring. }
  assert (G1 : inS CR L (u * u)) by (apply inS_gen; el).
  assert (G2 : inS CR L (u * (rY - eK (- y)))) by (apply inS_gen; el).
  assert (G3 : inS CR L ((rY - eK y) * u)) by (apply inS_gen; el).
  assert (G4 : inS CR L ((rY - eK y) * (rY - eK (- y)))) by (apply inS_gen; el).
  rewrite Hy in G4.
  split.
  - intros f Hf. apply in_ipr in Hf as (g & h & Hg & Hh & ->). apply inS_1. destruct Hg as [<-|[<-|[]]], Hh as [<-|[<-|[]]]; fold u.
    + exists u. reflexivity.
    + exists (rY - eK (- y)). ring.
    + exists (rY - eK y). ring.
    + eexists. exact Hy.
  - intros f [<-|[]]. destruct (fdec K y 0) as [E|E].
    + (* 3 x^2 is a unit *)
      assert (Hx : x <> 0). { intros Ex. apply Hb. rewrite E, Ex in Hc. transitivity (0 * 0 * 0 + b); [ring|]. rewrite <- Hc. ring. }
      assert (Hk : (1 + 1 + 1) * (x * x) <> 0). { intros Ek. apply (field_integral K (fld_field K)) in Ek as [Ek|Ek]; [exact (H3 Ek)|]. apply (field_integral K (fld_field K)) in Ek. tauto. }
      replace u with (eK (finvr K ((1 + 1 + 1) * (x * x))) * (eK ((1 + 1 + 1) * (x * x)) * u)).
      * apply inS_mul. replace (eK ((1 + 1 + 1) * (x * x)) * u) with ((rX * rX + eK x * rX + eK x * eK x) * u - (rX + (1 + 1) * eK x) * (u * u)).
        -- apply inS_sub; [exact G4|]. apply inS_mul, G1.
        -- rewrite !eK_mul, !eK_add, eK_1. unfold u. ring.
      * transitivity (eK (finvr K ((1 + 1 + 1) * (x * x))) * eK ((1 + 1 + 1) * (x * x)) * u); [ring|]. rewrite <- eK_mul, finv_l by exact Hk. rewrite eK_1. ring.
    + assert (Hk : (1 + 1) * y <> 0). { intros Ek. apply (field_integral K (fld_field K)) in Ek as [Ek|Ek]; [exact (H2 Ek)|exact (E Ek)]. }
      replace u with (eK (finvr K ((1 + 1) * y)) * (eK ((1 + 1) * y) * u)).
      * apply inS_mul. replace (eK ((1 + 1) * y) * u) with (u * (rY - eK (- y)) - (rY - eK y) * u).
        -- apply inS_sub; [exact G2|exact G3].
        -- rewrite !eK_mul, !eK_add, eK_1, eK_opp. ring.
      * transitivity (eK (finvr K ((1 + 1) * y)) * eK ((1 + 1) * y) * u); [ring|]. rewrite <- eK_mul, finv_l by exact Hk. rewrite eK_1. ring.
Qed.

(** three collinear points: the product of the ideals is generated by the line *)
Section Line.
Variables l c x1 x2 x3 : K.
Hypothesis E1 : x1 + x2 + x3 = l * l.
Hypothesis E2 : x1 * x2 + x1 * x3 + x2 * x3 = - ((1 + 1) * (l * c)).
Hypothesis E3 : x1 * x2 * x3 = c * c - b.
Let y1 := l * x1 + c.
Let y2 := l * x2 + c.
Let y3 := l * x3 + c.
(** no two of the points coincide with a point of order two *)
Hypothesis N12 : x1 = x2 -> y1 <> 0.
Hypothesis N13 : x1 = x3 -> y1 <> 0.
Hypothesis N23 : x2 = x3 -> y2 <> 0.
Let ln : CR := rY - (eK l * rX + eK c).
Lemma line_y x : rY - eK (l * x + c) = ln + eK l * (rX - eK x).
Proof. unfold ln. rewrite eK_add, eK_mul. ring. Qed.
Let lp : CR := rY + (eK l * rX + eK c).
Lemma line_prod : (rX - eK x1) * (rX - eK x2) * (rX - eK x3) = ln * lp.
Proof.
  unfold ln, lp. transitivity (rX * rX * rX - eK (x1 + x2 + x3) * (rX * rX) + eK (x1 * x2 + x1 * x3 + x2 * x3) * rX - eK (x1 * x2 * x3)).
  - rewrite !eK_add, !eK_mul. ring.
  - rewrite E1, E2, E3. rewrite eK_opp, eK_sub, !eK_mul, eK_add, eK_1. transitivity (rY * rY - (eK l * rX + eK c) * (eK l * rX + eK c)); [|ring]. rewrite rY_sq. ring.
Qed.
Lemma line_ideal : ieq CR (ipr CR (iP (EAff x1 y1)) (ipr CR (iP (EAff x2 y2)) (iP (EAff x3 y3)))) [ln].
Proof.
  set (L := ipr CR _ _).
  set (u1 := rX - eK x1). set (u2 := rX - eK x2). set (u3 := rX - eK x3).
  pose proof line_prod as Hp. fold u1 u2 u3 in Hp.
  split.
  - intros f Hf. apply in_ipr in Hf as (g & h' & Hg & Hh' & ->). apply in_ipr in Hh' as (h & k & Hh & Hk & ->). apply inS_1.
    assert (D : forall x g, In g (iP (EAff x (l * x + c))) -> exists s t, g = s * (rX - eK x) + t * ln).
    { intros x g0 [<-|[<-|[]]]; [exists 1, 0; ring|exists (eK l), 1; rewrite line_y; ring]. }
    apply D in Hg as (s1 & t1 & ->). apply D in Hh as (s2 & t2 & ->). apply D in Hk as (s3 & t3 & ->). fold u1 u2 u3.
    exists (s1 * s2 * s3 * lp + t1 * (s2 * u2 + t2 * ln) * (s3 * u3 + t3 * ln) + s1 * u1 * t2 * (s3 * u3 + t3 * ln) + s1 * u1 * (s2 * u2) * t3).
    transitivity (s1 * s2 * s3 * (u1 * u2 * u3) + (t1 * (s2 * u2 + t2 * ln) * (s3 * u3 + t3 * ln) + s1 * u1 * t2 * (s3 * u3 + t3 * ln) + s1 * u1 * (s2 * u2) * t3) * ln); [ring|]. rewrite Hp. ring.
  - (* it is enough that ln * w is in L for w generating the unit ideal *)
    assert (M : forall x f1 f2, inS CR (iP (EAff x (l * x + c))) (f1 * (rX - eK x) + f2 * ln)).
    { intros x f1 f2. replace (f1 * (rX - eK x) + f2 * ln) with ((f1 - f2 * eK l) * (rX - eK x) + f2 * (rY - eK (l * x + c))) by (rewrite line_y; ring).
      apply inS_add; apply inS_mul, inS_gen; el. }
    assert (M3 : forall f1 f2 g1 g2 h1 h2, inS CR L ((f1 * u1 + f2 * ln) * ((g1 * u2 + g2 * ln) * (h1 * u3 + h2 * ln)))).
    { intros. apply inS_ipr; [apply M|]. apply inS_ipr; apply M. }
    assert (Q0 : inS CR L (lp * ln)). { replace (lp * ln) with ((1 * u1 + 0 * ln) * ((1 * u2 + 0 * ln) * (1 * u3 + 0 * ln))); [apply M3|]. transitivity (u1 * u2 * u3); [ring|]. rewrite Hp. ring. }
    assert (Q12 : inS CR L (u1 * u2 * ln)). { replace (u1 * u2 * ln) with ((1 * u1 + 0 * ln) * ((1 * u2 + 0 * ln) * (0 * u3 + 1 * ln))) by ring. apply M3. }
    assert (Q13 : inS CR L (u1 * u3 * ln)). { replace (u1 * u3 * ln) with ((1 * u1 + 0 * ln) * ((0 * u2 + 1 * ln) * (1 * u3 + 0 * ln))) by ring. apply M3. }
    assert (Q23 : inS CR L (u2 * u3 * ln)). { replace (u2 * u3 * ln) with ((0 * u1 + 1 * ln) * ((1 * u2 + 0 * ln) * (1 * u3 + 0 * ln))) by ring. apply M3. }
    assert (P1 : inS CR L (u1 * ln * ln)). { replace (u1 * ln * ln) with ((1 * u1 + 0 * ln) * ((0 * u2 + 1 * ln) * (0 * u3 + 1 * ln))) by ring. apply M3. }
    assert (P2 : inS CR L (u2 * ln * ln)). { replace (u2 * ln * ln) with ((0 * u1 + 1 * ln) * ((1 * u2 + 0 * ln) * (0 * u3 + 1 * ln))) by ring. apply M3. }
    assert (P3 : inS CR L (u3 * ln * ln)). { replace (u3 * ln * ln) with ((0 * u1 + 1 * ln) * ((0 * u2 + 1 * ln) * (1 * u3 + 0 * ln))) by ring. apply M3. }
    assert (T0 : inS CR L (ln * ln * ln)). { replace (ln * ln * ln) with ((0 * u1 + 1 * ln) * ((0 * u2 + 1 * ln) * (0 * u3 + 1 * ln))) by ring. apply M3. }
    clearbody L. clear M M3 Hp.
    (* a unit constant times ln in L *)
    assert (U : forall k, k <> 0 -> inS CR L (eK k * ln) -> inS CR L ln).
    { intros k Hk Hi. replace ln with (eK (finvr K k) * (eK k * ln)); [apply inS_mul, Hi|]. transitivity (eK (finvr K k) * eK k * ln); [ring|]. rewrite <- eK_mul, finv_l by exact Hk. rewrite eK_1. ring. }
    assert (UU : forall k f, k <> 0 -> inS CR L (eK k * f) -> inS CR L f).
    { intros k f Hk Hi. replace f with (eK (finvr K k) * (eK k * f)); [apply inS_mul, Hi|]. transitivity (eK (finvr K k) * eK k * f); [ring|]. rewrite <- eK_mul, finv_l by exact Hk. rewrite eK_1. ring. }
    (* a double point x with y <> 0 *)
    assert (D : forall x, l * x + c <> 0 -> inS CR L ((rX - eK x) * (rX - eK x) * ln) -> inS CR L ((rX - eK x) * ln * ln) -> inS CR L ln).
    { intros x Hy G1 G2. set (v := rX - eK x) in *. set (y := l * x + c) in *.
      assert (Hy2 : (1 + 1) * y <> 0) by (intros Ek; apply (field_integral K (fld_field K)) in Ek as [Ek|Ek]; [exact (H2 Ek)|exact (Hy Ek)]).
      assert (El : lp = ln + (1 + 1) * (eK y + eK l * v)). { unfold lp, ln, y, v. rewrite eK_add, eK_mul. ring. }
      (* 2 y v ln *)
      assert (G3 : inS CR L (v * ln)).
      { apply (UU ((1 + 1) * y)); [exact Hy2|]. replace (eK ((1 + 1) * y) * (v * ln)) with (v * (lp * ln) - v * ln * ln - (1 + 1) * eK l * (v * v * ln)).
        - apply inS_sub; [apply inS_sub; [apply inS_mul, Q0|exact G2]|apply inS_mul, G1].
        - rewrite El, eK_mul, eK_add, eK_1. ring. }
      apply (UU ((1 + 1) * y)); [exact Hy2|]. apply (UU ((1 + 1) * y)); [exact Hy2|].
      (* (2y)^2 ln = (lp - ln - 2 l v)^2 ln *)
      replace (eK ((1 + 1) * y) * (eK ((1 + 1) * y) * ln)) with ((lp - (1 + 1) * ln - (1 + 1) * (1 + 1) * eK l * v) * (lp * ln) + ln * ln * ln + (1 + 1) * (1 + 1) * eK l * (ln + eK l * v) * (v * ln)).
      - apply inS_add; [apply inS_add; [apply inS_mul, Q0|exact T0]|apply inS_mul, G3].
      - rewrite El, eK_mul, eK_add, eK_1. ring. }
    intros f [<-|[]].
    destruct (fdec K x1 x2) as [X12|X12].
    { apply (D x1); [exact (N12 X12)| |exact P1]. fold u1. unfold u1 at 2. rewrite X12. exact Q12. }
    destruct (fdec K x1 x3) as [X13|X13].
    { apply (D x1); [exact (N13 X13)| |exact P1]. fold u1. unfold u1 at 2. rewrite X13. exact Q13. }
    destruct (fdec K x2 x3) as [X23|X23].
    { apply (D x2); [exact (N23 X23)| |exact P2]. fold u2. unfold u2 at 2. rewrite X23. exact Q23. }
    assert (S : forall x y : K, x <> y -> y - x <> 0) by (intros x y Hne Ez; apply Hne; symmetry; apply (rsub_eq K); exact Ez).
    assert (G3 : inS CR L (u3 * ln)).
    { apply (UU (x2 - x1)); [apply S, X12|]. replace (eK (x2 - x1) * (u3 * ln)) with (u1 * u3 * ln - u2 * u3 * ln); [apply inS_sub; assumption|]. unfold u1, u2. rewrite eK_sub. ring. }
    apply (UU (x3 - x1)); [apply S, X13|]. apply (UU (x3 - x2)); [apply S, X23|].
    replace (eK (x3 - x2) * (eK (x3 - x1) * ln)) with (u1 * u2 * ln - (u3 + eK (x3 - x1) + eK (x3 - x2)) * (u3 * ln)).
    + apply inS_sub; [exact Q12|apply inS_mul, G3].
    + unfold u1, u2, u3. rewrite !eK_sub. ring.
Qed.
Lemma ln_nz : ln <> 0.
Proof.
  intros E. apply (f_equal b2) in E. apply CR_1. unfold ln, rX, eK in E. cbn [b2 rsub radd rmul CR quad qsub qadd qmul eA rY rz q0] in E.
  apply F2_eq; [|reflexivity]. change ((1 : A) = 0). rewrite <- E. ring.
Qed.
End Line.

Notation "P ++ Q" := (ec_add K P Q).
Notation onc := (on_curve K b).
Local Notation fint := (field_integral K (fld_field K)).
Lemma two_cancel (x : K) : x + x = 0 -> x = 0.
Proof. intros E. assert (E' : (1 + 1) * x = 0) by (transitivity (x + x); [ring|exact E]). apply fint in E' as [E'|E']; [contradiction|exact E']. Qed.
Lemma sub_nz (x y : K) : x <> y -> y - x <> 0.
Proof. intros Hne Ez. apply Hne. symmetry. apply (rsub_eq K). exact Ez. Qed.

(** a line of slope l through (x1,y1) of the curve whose third root is x3 *)
Section Sum.
Variables l x1 y1 x2 : K.
Hypothesis C1 : y1 * y1 = x1 * x1 * x1 + b.
Let c := y1 - l * x1.
Let x3 := l * l - x1 - x2.
Hypothesis E2 : x1 * x2 + x1 * x3 + x2 * x3 = - ((1 + 1) * (l * c)).
Lemma sE1 : x1 + x2 + x3 = l * l. Proof using. unfold x3. ring. Qed.
Lemma sE3 : x1 * x2 * x3 = c * c - b.
Proof using C1 E2.
  transitivity (x1 * (x1 * x2 + x1 * x3 + x2 * x3) - x1 * x1 * (x1 + x2 + x3) + x1 * x1 * x1); [ring|].
  rewrite E2, sE1. assert (Eb : b = y1 * y1 - x1 * x1 * x1) by (rewrite C1; ring). rewrite Eb. unfold c. ring.
Qed.
Lemma s_root x : (x - x1) * (x - x2) * (x - x3) = x * x * x + b - (l * x + c) * (l * x + c).
Proof using C1 E2.
  transitivity (x * x * x - (x1 + x2 + x3) * (x * x) + (x1 * x2 + x1 * x3 + x2 * x3) * x - x1 * x2 * x3); [ring|].
  rewrite sE1, E2, sE3. ring.
Qed.
Lemma s_cv x : (x - x1) * (x - x2) * (x - x3) = 0 -> (l * x + c) * (l * x + c) = x * x * x + b.
Proof using C1 E2. rewrite s_root. intros E. symmetry. apply (rsub_eq K). exact E. Qed.
Lemma s_N xi xk : xi + xi + xk = l * l -> xi * xi + (xi * xk + xi * xk) = - ((1 + 1) * (l * c)) -> (l * xi + c) * (l * xi + c) = xi * xi * xi + b -> l * xi + c <> 0.
Proof using H3 Hb.
  intros F1 F2 F3 Ez. assert (Ec : c = - (l * xi)). { transitivity (l * xi + c - l * xi); [ring|]. rewrite Ez. ring. }
  assert (T : (1 + 1 + 1) * (xi * xi) = 0).
  { transitivity ((1 + 1) * (xi * (xi + xi + xk)) - (xi * xi + (xi * xk + xi * xk))); [ring|]. rewrite F1, F2, Ec. ring. }
  apply fint in T as [T|T]; [exact (H3 T)|]. assert (Z : xi = 0) by (apply fint in T; tauto).
  apply Hb. rewrite Ez, Z in F3. transitivity (0 * 0 * 0 + b); [ring|]. rewrite <- F3. ring.
Qed.
Lemma s_line : ieq CR (ipr CR (iP (EAff x1 (l * x1 + c))) (ipr CR (iP (EAff x2 (l * x2 + c))) (iP (EAff x3 (l * x3 + c))))) [rY - (eK l * rX + eK c)].
Proof using H2 H3 Hb C1 E2.
  apply line_ideal; [exact sE1|exact E2|exact sE3| | |]; intros Ex.
  - apply (s_N x1 x3); [rewrite <- sE1, <- Ex; ring|rewrite <- E2, <- Ex; ring|apply s_cv; ring].
  - apply (s_N x1 x2); [rewrite <- sE1, <- Ex; ring|rewrite <- E2, <- Ex; ring|apply s_cv; ring].
  - apply (s_N x2 x1); [rewrite <- sE1, <- Ex; ring|rewrite <- E2, <- Ex; ring|apply s_cv; ring].
Qed.
Lemma s_sum y2 : y2 = l * x2 + c -> icl CR (ipr CR (iP (EAff x1 y1)) (iP (EAff x2 y2))) (iP (ec_chord K l x1 y1 x2)) /\ onc (ec_chord K l x1 y1 x2).
Proof using H2 H3 Hb C1 E2.
  intros ->. assert (Y1 : y1 = l * x1 + c) by (unfold c; ring). pose proof s_line as SL. rewrite <- Y1 in SL.
  set (y3 := l * x3 + c) in *. assert (Es : ec_chord K l x1 y1 x2 = EAff x3 (- y3)).
  { unfold ec_chord. cbv zeta. fold x3. f_equal. unfold y3, c. ring. }
  assert (C3 : y3 * y3 = x3 * x3 * x3 + b) by (apply s_cv; ring).
  rewrite Es. split.
  - set (I1 := iP (EAff x1 y1)) in *. set (I2 := iP (EAff x2 (l * x2 + c))) in *.
    (* I1 I2 ~ I1 I2 (I3 I3') ~ [ln] I3' ~ I3' *)
    apply (icl_trans CR CR_dom _ (ipr CR (ipr CR I1 I2) (ipr CR (iP (EAff x3 y3)) (iP (EAff x3 (- y3)))))).
    + apply icl_sym. eapply (icl_trans CR CR_dom); [apply (icl_ipr CR CR_dom); [apply (ieq_icl CR CR_1), ieq_refl|eapply (icl_trans CR CR_dom); [apply (ieq_icl CR CR_1), iP_neg, C3|apply (icl_princ CR CR_1), rXx_nz]]|].
      apply (ieq_icl CR CR_1). eapply ieq_trans; [apply ieq_comm|apply ieq_1].
    + eapply (icl_trans CR CR_dom); [apply (ieq_icl CR CR_1); eapply ieq_trans; [apply ieq_assoc|]; apply ieq_ipr; [eapply ieq_trans; [apply ieq_sym, ieq_assoc|exact SL]|apply ieq_refl]|].
      eapply (icl_trans CR CR_dom); [apply (icl_ipr CR CR_dom); [apply (icl_princ CR CR_1), ln_nz|apply (ieq_icl CR CR_1), ieq_refl]|].
      apply (ieq_icl CR CR_1), ieq_1.
  - cbn [on_curve]. rewrite <- C3. ring.
Qed.
End Sum.

Lemma add_ideal P Q : onc P -> onc Q -> icl CR (ipr CR (iP P) (iP Q)) (iP (P ++ Q)) /\ onc (P ++ Q).
Proof.
  destruct P as [|x1 y1].
  { intros _ HQ. split; [|exact HQ]. apply (ieq_icl CR CR_1), ieq_1. }
  destruct Q as [|x2 y2].
  { intros HP _. split; [|exact HP]. apply (ieq_icl CR CR_1). eapply ieq_trans; [apply ieq_comm|]. apply ieq_1. }
  cbn [on_curve]. intros HP HQ. cbn [ec_add]. destruct (fdec K x1 x2) as [Ex|Nx].
  - subst x2. destruct (fdec K y1 (- y2)) as [Ey|Ny].
    + split; [|exact I]. assert (Ey' : y2 = - y1) by (rewrite Ey; ring). rewrite Ey'. eapply (icl_trans CR CR_dom); [apply (ieq_icl CR CR_1), iP_neg, HP|].
      apply (icl_princ CR CR_1), rXx_nz.
    + assert (Ey : y1 = y2).
      { assert (T : (y1 - y2) * (y1 + y2) = 0) by (transitivity (y1 * y1 - y2 * y2); [ring|]; rewrite HP, HQ; ring).
        apply fint in T as [T|T]; [apply (rsub_eq K); exact T|]. exfalso. apply Ny. apply (rsub_eq K). rewrite <- T. ring. }
      subst y2. assert (Y : (1 + 1) * y1 <> 0). { intros T. apply fint in T as [T|T]; [exact (H2 T)|]. apply Ny. rewrite T. ring. }
      set (l := rdiv K ((1 + 1 + 1) * (x1 * x1)) ((1 + 1) * y1)).
      assert (El : l * ((1 + 1) * y1) = (1 + 1 + 1) * (x1 * x1)).
      { unfold l, rdiv. transitivity ((1 + 1 + 1) * (x1 * x1) * (finvr K ((1 + 1) * y1) * ((1 + 1) * y1))); [ring|]. rewrite finv_l by exact Y. ring. }
      apply s_sum; [exact HP| |ring].
      clearbody l. transitivity ((1 + 1) * (l * l * x1) - (1 + 1 + 1) * (x1 * x1)); [ring|]. rewrite <- El. ring.
  - set (l := rdiv K (y2 - y1) (x2 - x1)). pose proof (sub_nz _ _ Nx) as Dx.
    assert (El : l * (x2 - x1) = y2 - y1).
    { unfold l, rdiv. transitivity ((y2 - y1) * (finvr K (x2 - x1) * (x2 - x1))); [ring|]. rewrite finv_l by exact Dx. ring. }
    clearbody l. assert (Ey : y2 = l * x2 + (y1 - l * x1)) by (transitivity (y2 - y1 + y1); [ring|]; rewrite <- El; ring).
    apply s_sum; [exact HP| |exact Ey].
    apply (field_cancel K (fld_field K) (x2 - x1)); [exact Dx|]. apply (rsub_eq K).
    set (cc := y1 - l * x1) in *. assert (Y1 : y1 = l * x1 + cc) by (unfold cc; ring). clearbody cc. subst y1 y2.
    transitivity (((l * x2 + cc) * (l * x2 + cc) - (l * x1 + cc) * (l * x1 + cc)) - (x2 * x2 * x2 - x1 * x1 * x1)); [ring|]. rewrite HP, HQ. ring.
Qed.

(** the ideal of an affine point is not principal *)
Lemma iP_not_principal x y : y * y = x * x * x + b -> ~ icl CR (iP (EAff x y)) [1].
Proof.
  intros Hc (a & d & Ha & Hd & [H1 H2']).
  (* d = a f *)
  assert (F : exists f s t, f = s * (rX - eK x) + t * (rY - eK y) /\ d = a * f).
  { assert (Id : inS CR (ipr CR [a] (iP (EAff x y))) d).
    { apply H2'. apply in_ipr. exists d, 1. split; [left; reflexivity|]. split; [left; reflexivity|]. ring. }
    cbn [ipr iP flat_map map app inS] in Id. destruct Id as (s & t & E).
    exists (s * (rX - eK x) + t * (rY - eK y)), s, t. split; [reflexivity|]. apply (rsub_eq CR). rewrite <- E. ring. }
  destruct F as (f & s & t & Ef & Ed).
  assert (G : forall g, In g (iP (EAff x y)) -> exists v, g = v * f).
  { intros g Hg. assert (Ig : inS CR (ipr CR [d] [1]) (a * g)). { apply H1. apply in_ipr. exists a, g. split; [left; reflexivity|]. split; [exact Hg|reflexivity]. }
    cbn [ipr flat_map map app inS] in Ig. destruct Ig as (v & E). exists v. apply (CR_cancel a); [exact Ha|]. apply (rsub_eq CR). rewrite <- E, Ed. ring. }
  destruct (G (rX - eK x)) as (u & Eu); [left; reflexivity|]. destruct (G (rY - eK y)) as (v & Ev); [right; left; reflexivity|].
  assert (Nx : nm (rX - eK x) = (X - C x) * (X - C x)). { unfold rX, eK. rewrite <- eA_sub. unfold nm, qnorm, eA. cbn [a2 b2]. ring. }
  assert (DN : dg K (nm (rX - eK x)) = 3%nat). { rewrite Nx. apply (dg_mul K _ _ 1 1); apply dg_Xa. }
  rewrite Eu, nm_mul in DN.
  assert (Df : exists m, dg K (nm f) = S m /\ (m <= 2)%nat).
  { destruct (dg K (nm u)) as [|k] eqn:E1. { apply dg_0 in E1. rewrite E1 in DN. replace (0 * nm f) with (0 : A) in DN by ring. discriminate. }
    destruct (dg K (nm f)) as [|m] eqn:E2'. { apply dg_0 in E2'. rewrite E2' in DN. replace (nm u * 0) with (0 : A) in DN by ring. discriminate. }
    pose proof (dg_mul K _ _ _ _ E1 E2') as E. rewrite DN in E. exists m. split; [reflexivity|lia]. }
  destruct Df as (m & Em & Hm). rewrite dg_nm in Em.
  destruct (dg K (b2 f)) as [|n] eqn:Eb; [|destruct (dg K (a2 f)); lia].
  destruct (dg K (a2 f)) as [|k] eqn:Ea; [discriminate|]. apply dg_0 in Eb.
  destruct k as [|[|k]]; [| |lia].
  - (* f is a constant unit: evaluate at the point *)
    apply (proj1 (dg_spec K _ _)) in Ea as [A1 A2]. assert (EvF : ev x y f = 0).
    { rewrite Ef, ev_add, !ev_mul by exact Hc. unfold rX, eK. rewrite <- eA_sub, !ev_eA, pev_sub, pev_X, pev_const.
      assert (EY : ev x y (rY - eA (C y)) = 0). { unfold ev, rY, eA. cbn [a2 b2 rsub CR quad qsub]. rewrite !pev_sub. rewrite pev_const. assert (Z : pev K (0 : A) x = 0) by reflexivity. assert (O : pev K (1 : A) x = 1) by exact (pev_const K 1 x). rewrite Z, O. ring. }
      rewrite EY. ring. }
    apply A1. unfold ev in EvF. rewrite Eb in EvF. assert (Z : pev K (0 : A) x = 0) by reflexivity. rewrite Z in EvF.
    assert (Ec : a2 f = C (coef K (pl K (a2 f)) 0)). { apply poly_eq. intros [|n]; rewrite cpl_const; [reflexivity|]. apply A2. lia. }
    rewrite Ec, pev_const in EvF. rewrite <- EvF. ring.
  - (* f = a linear polynomial cannot divide Y - y *)
    apply (f_equal b2) in Ev. unfold rY, eK, eA in Ev. cbn [a2 b2 rsub rmul CR quad qsub qmul] in Ev. rewrite Eb in Ev.
    assert (E1 : (1 : A) = b2 v * a2 f). { transitivity ((1 : A) - 0); [ring|]. rewrite Ev. ring. }
    assert (D1 : dg K (1 : A) = 1%nat) by (apply (dg_const K 1), fnz).
    destruct (dg K (b2 v)) as [|j] eqn:Ej. { apply dg_0 in Ej. rewrite Ej in E1. replace (0 * a2 f) with (0 : A) in E1 by ring. rewrite E1 in D1. discriminate. }
    pose proof (dg_mul K _ _ _ _ Ej Ea) as E. rewrite <- E1, D1 in E. lia.
Qed.

Lemma ec_neg_on P : onc P -> onc (ec_neg K P).
Proof. destruct P as [|x y]; [auto|]. cbn. intros H. rewrite <- H. ring. Qed.
Lemma iP_inj P Q : onc P -> onc Q -> icl CR (iP P) (iP Q) -> P = Q.
Proof.
  intros HP HQ H.
  assert (N : icl CR (ipr CR (iP Q) (iP (ec_neg K Q))) [1]).
  { destruct Q as [|x y]; [apply (ieq_icl CR CR_1), ieq_1|]. cbn [ec_neg]. eapply (icl_trans CR CR_dom); [apply (ieq_icl CR CR_1), iP_neg, HQ|apply (icl_princ CR CR_1), rXx_nz]. }
  assert (S : icl CR (iP (P ++ ec_neg K Q)) [1]).
  { eapply (icl_trans CR CR_dom); [apply icl_sym, add_ideal; [exact HP|apply ec_neg_on, HQ]|].
    eapply (icl_trans CR CR_dom); [|exact N]. apply (icl_ipr CR CR_dom); [exact H|apply (ieq_icl CR CR_1), ieq_refl]. }
  pose proof (proj2 (add_ideal P (ec_neg K Q) HP (ec_neg_on Q HQ))) as On.
  destruct (P ++ ec_neg K Q) as [|x y] eqn:E; [|exfalso; exact (iP_not_principal x y On S)].
  destruct P as [|x1 y1], Q as [|x2 y2]; cbn [ec_add ec_neg] in E; try discriminate; [reflexivity|].
  destruct (fdec K x1 x2) as [->|]; [|discriminate]. destruct (fdec K y1 (- - y2)) as [->|]; [|discriminate]. f_equal. ring.
Qed.

(** ** The group laws *)
Theorem ec_add_on P Q : onc P -> onc Q -> onc (P ++ Q).
Proof. intros HP HQ. apply add_ideal; assumption. Qed.
Theorem ec_add_assoc P Q R : onc P -> onc Q -> onc R -> (P ++ Q) ++ R = P ++ (Q ++ R).
Proof.
  intros HP HQ HR. assert (HPQ := ec_add_on P Q HP HQ). assert (HQR := ec_add_on Q R HQ HR).
  apply iP_inj; try (apply ec_add_on; assumption).
  eapply (icl_trans CR CR_dom); [apply icl_sym, add_ideal; assumption|].
  eapply (icl_trans CR CR_dom); [apply (icl_ipr CR CR_dom); [apply icl_sym, add_ideal; assumption|apply (ieq_icl CR CR_1), ieq_refl]|].
  eapply (icl_trans CR CR_dom); [apply (ieq_icl CR CR_1), ieq_sym, ieq_assoc|].
  eapply (icl_trans CR CR_dom); [apply (icl_ipr CR CR_dom); [apply (ieq_icl CR CR_1), ieq_refl|apply add_ideal; assumption]|].
  apply add_ideal; assumption.
Qed.
Theorem ec_add_comm P Q : onc P -> onc Q -> P ++ Q = Q ++ P.
Proof.
  intros HP HQ. apply iP_inj; try (apply ec_add_on; assumption).
  eapply (icl_trans CR CR_dom); [apply icl_sym, add_ideal; assumption|].
  eapply (icl_trans CR CR_dom); [apply (ieq_icl CR CR_1), ieq_comm|]. apply add_ideal; assumption.
Qed.
Theorem ec_add_0_l P : EInf ++ P = P. Proof. reflexivity. Qed.
Theorem ec_add_0_r P : P ++ EInf = P. Proof. destruct P; reflexivity. Qed.
Theorem ec_add_neg P : P ++ ec_neg K P = EInf.
Proof.
  destruct P as [|x y]; [reflexivity|]. cbn. destruct (fdec K x x) as [_|N]; [|congruence]. destruct (fdec K y (- - y)) as [_|N]; [reflexivity|]. exfalso. apply N. ring.
Qed.
Theorem ec_mul_on n P : onc P -> onc (ec_mul K n P).
Proof. intros H. induction n; [exact I|]. cbn [ec_mul]. apply ec_add_on; assumption. Qed.
Theorem ec_mul_add m n P : onc P -> ec_mul K (m + n) P = ec_mul K m P ++ ec_mul K n P.
Proof.
  intros H. induction m as [|m IH]; [reflexivity|]. cbn [ec_mul Nat.add]. rewrite IH. symmetry. apply ec_add_assoc; auto using ec_mul_on.
Qed.
Theorem ec_mul_mul m n P : onc P -> ec_mul K (m * n) P = ec_mul K m (ec_mul K n P).
Proof.
  intros H. induction m as [|m IH]; [reflexivity|]. cbn [Nat.mul]. rewrite ec_mul_add by exact H. cbn [ec_mul]. rewrite IH. reflexivity.
Qed.
Theorem ec_mul_add_distr n P Q : onc P -> onc Q -> ec_mul K n (P ++ Q) = ec_mul K n P ++ ec_mul K n Q.
Proof.
  intros HP HQ. induction n as [|n IH]; [reflexivity|]. cbn [ec_mul]. rewrite IH.
  pose proof (ec_mul_on n P HP). pose proof (ec_mul_on n Q HQ). set (A1 := ec_mul K n P) in *. set (B1 := ec_mul K n Q) in *.
  rewrite !ec_add_assoc by auto using ec_add_on. f_equal. rewrite <- !(ec_add_assoc _ A1), <- !(ec_add_assoc _ Q) by auto using ec_add_on. f_equal. apply ec_add_comm; assumption.
Qed.
Theorem ec_neg_add P Q : onc P -> onc Q -> ec_neg K (P ++ Q) = ec_neg K P ++ ec_neg K Q.
Proof.
  intros HP HQ. assert (HN := ec_add_on P Q HP HQ). pose proof (ec_neg_on P HP). pose proof (ec_neg_on Q HQ). pose proof (ec_neg_on _ HN).
  transitivity (ec_neg K (P ++ Q) ++ ((P ++ Q) ++ (ec_neg K P ++ ec_neg K Q))).
  - assert (E : (P ++ Q) ++ (ec_neg K P ++ ec_neg K Q) = EInf).
    { rewrite (ec_add_comm (ec_neg K P)) by assumption. rewrite ec_add_assoc by auto using ec_add_on. rewrite <- (ec_add_assoc Q) by assumption.
      rewrite ec_add_neg. rewrite ec_add_0_l. apply ec_add_neg. }
    rewrite E. symmetry. apply ec_add_0_r.
  - rewrite <- ec_add_assoc by auto using ec_add_on. rewrite (ec_add_comm (ec_neg K (P ++ Q))) by assumption. rewrite ec_add_neg. reflexivity.
Qed.
End Group.
