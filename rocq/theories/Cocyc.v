(** Functions on the curve y^2 = x^3 + b: for points P, Q the line through P and Q (a vertical
    line when P + Q or one of them is infinity), and the cocycle identity
    l(A,B) l(A+B,C) v(B+C) = k l(B,C) l(A,B+C) v(A+B), k a constant. *)
From Coq Require Import List Lia Ring Arith Permutation.
From Verif Require Import TowerSpec Poly EcSpec EcGroup.
Import ListNotations.

(** ** products of lists of ideals *)
Section IProd.
Variable R : cring.
Local Open Scope r_scope.
Definition ipl (l : list (list R)) : list R := fold_right (ipr R) [1] l.
Lemma ipl_cons x l : ipl (x :: l) = ipr R x (ipl l). Proof. reflexivity. Qed.
Lemma ipl_app l m : ieq R (ipl (l ++ m)) (ipr R (ipl l) (ipl m)).
Proof.
  induction l as [|x l IH]; [apply ieq_sym, ieq_1|]. cbn [app]. rewrite !ipl_cons.
  eapply ieq_trans; [apply ieq_ipr; [apply ieq_refl|exact IH]|apply ieq_assoc].
Qed.
Lemma ipl_perm l m : Permutation l m -> ieq R (ipl l) (ipl m).
Proof.
  induction 1 as [|x l m _ IH|x y l|l m n _ IH1 _ IH2].
  - apply ieq_refl.
  - rewrite !ipl_cons. apply ieq_ipr; [apply ieq_refl|exact IH].
  - rewrite !ipl_cons. eapply ieq_trans; [apply ieq_assoc|]. eapply ieq_trans; [apply ieq_ipr; [apply ieq_comm|apply ieq_refl]|apply ieq_sym, ieq_assoc].
  - eapply ieq_trans; eassumption.
Qed.
Lemma ipl_3 x y z : ieq R (ipl [x; y; z]) (ipr R x (ipr R y z)).
Proof.
  rewrite !ipl_cons. apply ieq_ipr; [apply ieq_refl|]. apply ieq_ipr; [apply ieq_refl|]. eapply ieq_trans; [apply ieq_comm|apply ieq_1].
Qed.
End IProd.

Ltac perm := solve [repeat (first [apply perm_nil |
  match goal with |- Permutation (?a :: ?l) ?m =>
    let rec go pre m := lazymatch m with
      | a :: ?m2 => let pre' := eval cbn [rev app] in (rev pre) in
          change (Permutation (a :: l) (app pre' (a :: m2))); apply Permutation_cons_app; cbn [app]
      | ?x :: ?m2 => go (x :: pre) m2 end in
    let T := type of a in go (@nil T) m end])].

Section Cocyc.
Local Open Scope r_scope.
Variable K : fld.
Variable b : K.
Hypothesis H2 : (1 + 1 : K) <> 0.
Hypothesis H3 : (1 + 1 + 1 : K) <> 0.
Hypothesis Hb : b <> 0.
Add Ring KRc : (rth K).
Notation A := (polyR K).
Add Ring ARc : (rth A).
Notation CR := (CR K b).
Add Ring RRc : (rth CR).
Notation pt := (ecpt K).
Notation "P ++ Q" := (ec_add K P Q).
Notation onc := (on_curve K b).
Notation ng := (ec_neg K).
Notation rX := (rX K b : CR).
Notation rY := (rY K b : CR).
Notation eK := (eK K b).
Notation iP := (iP K b).
Local Notation fint := (field_integral K (fld_field K)).

Definition lnl (l x1 y1 : K) : CR := rY - (eK l * rX + eK (y1 - l * x1)).
Definition lnv (x : K) : CR := rX - eK x.
Definition tslope (x1 y1 : K) : K := rdiv K ((1 + 1 + 1) * (x1 * x1)) ((1 + 1) * y1).
Definition cslope (x1 y1 x2 y2 : K) : K := rdiv K (y2 - y1) (x2 - x1).
(** the line through P, Q and -(P + Q) *)
Definition lnf (P Q : pt) : CR :=
  match P, Q with
  | EInf, EInf => 1
  | EInf, EAff x _ => lnv x
  | EAff x _, EInf => lnv x
  | EAff x1 y1, EAff x2 y2 =>
      if fdec K x1 x2 then
        if fdec K y1 (- y2) then lnv x1 else lnl (tslope x1 y1) x1 y1
      else lnl (cslope x1 y1 x2 y2) x1 y1
  end.
Lemma ng_on P : onc P -> onc (ng P).
Proof. exact (ec_neg_on K b P). Qed.
Lemma vert_ideal x y : y * y = x * x * x + b -> ieq CR (ipr CR (iP (EAff x y)) (iP (EAff x (- y)))) [lnv x].
Proof. exact (iP_neg K b H2 H3 Hb x y). Qed.
Lemma s3 l x1 y1 x2 y2 : y1 * y1 = x1 * x1 * x1 + b -> y2 = l * x2 + (y1 - l * x1) ->
  x1 * x2 + x1 * (l * l - x1 - x2) + x2 * (l * l - x1 - x2) = - ((1 + 1) * (l * (y1 - l * x1))) ->
  ieq CR (ipr CR (iP (EAff x1 y1)) (ipr CR (iP (EAff x2 y2)) (iP (ng (ec_chord K l x1 y1 x2))))) [lnl l x1 y1].
Proof.
  intros C1 E E2. pose proof (s_line K b H2 H3 Hb l x1 y1 x2 C1 E2) as SL.
  replace (l * x1 + (y1 - l * x1)) with y1 in SL by ring. rewrite <- E in SL.
  assert (Es : ng (ec_chord K l x1 y1 x2) = EAff (l * l - x1 - x2) (l * (l * l - x1 - x2) + (y1 - l * x1))).
  { unfold ec_chord, ec_neg. cbv zeta. f_equal. ring. }
  rewrite Es. exact SL.
Qed.
Lemma lnf_ideal P Q : onc P -> onc Q -> ieq CR (ipr CR (iP P) (ipr CR (iP Q) (iP (ng (P ++ Q))))) [lnf P Q].
Proof.
  destruct P as [|x1 y1], Q as [|x2 y2]; cbn [on_curve].
  - intros _ _. cbn [ec_add ec_neg lnf EcGroup.iP]. eapply ieq_trans; [apply ieq_1|]. apply ieq_1.
  - intros _ HQ. cbn [ec_add ec_neg lnf]. eapply ieq_trans; [apply ieq_1|]. apply vert_ideal, HQ.
  - intros HP _. cbn [ec_add ec_neg lnf]. eapply ieq_trans; [apply ieq_ipr; [apply ieq_refl|apply ieq_1]|]. apply vert_ideal, HP.
  - intros HP HQ. cbn [ec_add lnf]. destruct (fdec K x1 x2) as [Ex|Nx].
    + subst x2. destruct (fdec K y1 (- y2)) as [Ey|Ny].
      * assert (Ey' : y2 = - y1) by (rewrite Ey; ring). rewrite Ey'. cbn [ec_neg].
        eapply ieq_trans; [|apply vert_ideal, HP]. apply ieq_ipr; [apply ieq_refl|]. eapply ieq_trans; [apply ieq_comm|apply ieq_1].
      * assert (Ey : y1 = y2).
        { assert (T : (y1 - y2) * (y1 + y2) = 0) by (transitivity (y1 * y1 - y2 * y2); [ring|]; rewrite HP, HQ; ring).
          apply fint in T as [T|T]; [apply (rsub_eq K); exact T|]. exfalso. apply Ny. apply (rsub_eq K). rewrite <- T. ring. }
        subst y2. assert (Y : (1 + 1) * y1 <> 0). { intros T. apply fint in T as [T|T]; [exact (H2 T)|]. apply Ny. rewrite T. ring. }
        fold (tslope x1 y1). assert (El : tslope x1 y1 * ((1 + 1) * y1) = (1 + 1 + 1) * (x1 * x1)).
        { unfold tslope, rdiv. transitivity ((1 + 1 + 1) * (x1 * x1) * (finvr K ((1 + 1) * y1) * ((1 + 1) * y1))); [ring|]. rewrite finv_l by exact Y. ring. }
        set (l := tslope x1 y1) in *. clearbody l.
        apply s3; [exact HP|ring|]. transitivity ((1 + 1) * (l * l * x1) - (1 + 1 + 1) * (x1 * x1)); [ring|]. rewrite <- El. ring.
    + fold (cslope x1 y1 x2 y2). assert (Dx : x2 - x1 <> 0) by (intros Ez; apply Nx; symmetry; apply (rsub_eq K); exact Ez).
      assert (El : cslope x1 y1 x2 y2 * (x2 - x1) = y2 - y1).
      { unfold cslope, rdiv. transitivity ((y2 - y1) * (finvr K (x2 - x1) * (x2 - x1))); [ring|]. rewrite finv_l by exact Dx. ring. }
      set (l := cslope x1 y1 x2 y2) in *. clearbody l. assert (Ey : y2 = l * x2 + (y1 - l * x1)) by (transitivity (y2 - y1 + y1); [ring|]; rewrite <- El; ring).
      apply s3; [exact HP|exact Ey|].
      apply (field_cancel K (fld_field K) (x2 - x1)); [exact Dx|]. apply (rsub_eq K).
      set (cc := y1 - l * x1) in *. assert (Y1 : y1 = l * x1 + cc) by (unfold cc; ring). clearbody cc. subst y1 y2.
      transitivity (((l * x2 + cc) * (l * x2 + cc) - (l * x1 + cc) * (l * x1 + cc)) - (x2 * x2 * x2 - x1 * x1 * x1)); [ring|]. rewrite HP, HQ. ring.
Qed.
Lemma lnv_nz x : lnv x <> 0. Proof. exact (rXx_nz K b x). Qed.
Lemma lnl_nz l x1 y1 : lnl l x1 y1 <> 0. Proof. exact (ln_nz K b l (y1 - l * x1)). Qed.
Lemma lnf_nz P Q : lnf P Q <> 0.
Proof.
  destruct P as [|x1 y1], Q as [|x2 y2]; cbn [lnf]; [apply CR_1|apply lnv_nz|apply lnv_nz|].
  destruct (fdec K x1 x2); [destruct (fdec K y1 (- y2))|]; [apply lnv_nz|apply lnl_nz|apply lnl_nz].
Qed.

(** units are constants *)
Lemma unit_const (u v : CR) : v * u = 1 -> exists k, k <> 0 /\ u = eK k.
Proof.
  intros E. assert (N : nm K b v * nm K b u = 1). { rewrite <- nm_mul, E. unfold nm, qnorm. cbn [a2 b2 ro EcGroup.CR quad q1]. ring. }
  assert (D1 : dg K (1 : A) = 1%nat) by (apply (dg_const K 1), fnz).
  destruct (dg K (nm K b v)) as [|i] eqn:Ei. { apply dg_0 in Ei. rewrite Ei in N. replace (0 * nm K b u) with (0 : A) in N by ring. rewrite <- N in D1. discriminate. }
  destruct (dg K (nm K b u)) as [|j] eqn:Ej. { apply dg_0 in Ej. rewrite Ej in N. replace (nm K b v * 0) with (0 : A) in N by ring. rewrite <- N in D1. discriminate. }
  pose proof (dg_mul K _ _ _ _ Ei Ej) as Em. rewrite N, D1 in Em. assert (j = 0%nat) by lia. subst j.
  rewrite dg_nm in Ej. destruct (dg K (b2 u)) as [|n] eqn:Eb; [|destruct (dg K (a2 u)); lia].
  destruct (dg K (a2 u)) as [|k] eqn:Ea; [discriminate|]. assert (k = 0%nat) by lia. subst k. apply dg_0 in Eb.
  apply (proj1 (dg_spec K _ _)) in Ea as [A1 A2]. exists (coef K (pl K (a2 u)) 0). split; [exact A1|].
  apply F2_eq; [|exact Eb]. apply poly_eq. intros [|n]; cbn [a2 EcGroup.eK eA]; rewrite cpl_const; [reflexivity|]. apply A2. lia.
Qed.
Lemma princ_eq (f g : CR) : f <> 0 -> ieq CR [f] [g] -> exists k, k <> 0 /\ f = eK k * g.
Proof.
  intros Hf [A1 A2]. pose proof (A1 f (or_introl eq_refl)) as F. pose proof (A2 g (or_introl eq_refl)) as G.
  apply inS_1 in F as (s & Es). apply inS_1 in G as (t & Et).
  destruct (unit_const s t) as (k & Hk & Ek).
  - apply (CR_cancel K b f); [exact Hf|]. transitivity (s * (t * f)); [ring|]. rewrite <- Et, <- Es. ring.
  - exists k. split; [exact Hk|]. rewrite Es, Ek. reflexivity.
Qed.
Lemma lnf_ipl P Q : onc P -> onc Q -> ieq CR (ipl CR [iP P; iP Q; iP (ng (P ++ Q))]) [lnf P Q].
Proof. intros. eapply ieq_trans; [apply ipl_3|]. apply lnf_ideal; assumption. Qed.
Lemma cocyc P Q R : onc P -> onc Q -> onc R -> exists k, k <> 0 /\
  lnf P Q * (lnf (P ++ Q) R * lnf (Q ++ R) EInf) = eK k * (lnf Q R * (lnf P (Q ++ R) * lnf (P ++ Q) EInf)).
Proof.
  intros HP HQ HR. assert (HPQ := ec_add_on K b H2 H3 Hb P Q HP HQ). assert (HQR := ec_add_on K b H2 H3 Hb Q R HQ HR).
  assert (T : forall P1 Q1 P2 Q2 P3 Q3, onc P1 -> onc Q1 -> onc P2 -> onc Q2 -> onc P3 -> onc Q3 ->
    ieq CR (ipl CR (app [iP P1; iP Q1; iP (ng (P1 ++ Q1))] (app [iP P2; iP Q2; iP (ng (P2 ++ Q2))] [iP P3; iP Q3; iP (ng (P3 ++ Q3))]))) [lnf P1 Q1 * (lnf P2 Q2 * lnf P3 Q3)]).
  { intros. eapply ieq_trans; [apply ipl_app|]. eapply ieq_trans; [apply ieq_ipr; [apply lnf_ipl; assumption|]|apply ieq_s].
    eapply ieq_trans; [apply ipl_app|]. eapply ieq_trans; [apply ieq_ipr; apply lnf_ipl; assumption|]. apply ieq_s. }
  apply princ_eq.
  - apply (nz_mul CR (CR_dom K b)); [apply lnf_nz|]. apply (nz_mul CR (CR_dom K b)); apply lnf_nz.
  - eapply ieq_trans; [apply ieq_sym, T; try assumption; exact I|]. eapply ieq_trans; [|apply T; try assumption; exact I].
    rewrite !ec_add_0_r, (ec_add_assoc K b H2 H3 Hb P Q R HP HQ HR). cbn [app]. apply ipl_perm.
    set (a := iP P). set (bb := iP Q). set (d := iP R). set (e := iP (P ++ Q)). set (e' := iP (ng (P ++ Q))). set (g := iP (Q ++ R)). set (g' := iP (ng (Q ++ R))).
    set (i := iP EInf). set (s := iP (ng (P ++ (Q ++ R)))). clearbody a bb d e e' g g' i s.
    perm.
Qed.

(** ** evaluation at a point with coordinates in an extension ring *)
Section Eval.
Variable L : cring.
Variable phi : K -> L.
Hypothesis phi_add : forall x y, phi (x + y) = phi x + phi y.
Hypothesis phi_mul : forall x y, phi (x * y) = phi x * phi y.
Hypothesis phi_1 : phi 1 = 1.
Variables X Y : L.
Hypothesis HXY : Y * Y = X * X * X + phi b.
Add Ring LRc : (rth L).
Lemma phi_0 : phi 0 = 0.
Proof using phi_add. transitivity (phi 0 + phi 0 - phi 0); [ring|]. rewrite <- phi_add. replace (0 + 0) with (0 : K) by ring. ring. Qed.
Lemma phi_opp x : phi (- x) = - phi x.
Proof using phi_add. transitivity (phi (- x) + phi x - phi x); [ring|]. rewrite <- phi_add. replace (- x + x) with (0 : K) by ring. rewrite phi_0. ring. Qed.
Lemma phi_sub x y : phi (x - y) = phi x - phi y.
Proof using phi_add. replace (x - y) with (x + - y) by ring. rewrite phi_add, phi_opp. ring. Qed.
Fixpoint lv_ (l : list K) : L := match l with [] => 0 | a :: l' => phi a + X * lv_ l' end.
Lemma lv_nil l : peq K [] l -> lv_ l = 0.
Proof using phi_add. induction l as [|a l IH]; [reflexivity|]. intros H. apply peq_nil_tl in H as [-> H]. cbn [lv_]. rewrite IH by exact H. rewrite phi_0. ring. Qed.
Lemma lv_ext l : forall m, peq K l m -> lv_ l = lv_ m.
Proof using phi_add.
  induction l as [|a l IH]; intros m H; [symmetry; apply lv_nil, H|].
  destruct m as [|d m]; [apply lv_nil; intros n; symmetry; exact (H n)|]. cbn [lv_]. f_equal; [f_equal; exact (H O)|]. f_equal. apply IH. intros n. exact (H (S n)).
Qed.
Lemma lv_add l : forall m, lv_ (ladd K l m) = lv_ l + lv_ m.
Proof using phi_add. induction l as [|a l IH]; intros m; [cbn [ladd lv_]; ring|]. destruct m as [|d m]; [cbn [ladd lv_]; ring|]. cbn [ladd lv_]. rewrite IH, phi_add. ring. Qed.
Lemma lv_scale a l : lv_ (lscale K a l) = phi a * lv_ l.
Proof using phi_mul. induction l as [|d l IH]; [cbn [lscale map lv_]; ring|]. change (lscale K a (d :: l)) with ((a * d) :: lscale K a l). cbn [lv_]. rewrite IH, phi_mul. ring. Qed.
Lemma lv_mul l m : lv_ (lmul K l m) = lv_ l * lv_ m.
Proof using phi_add phi_mul. induction l as [|a l IH]; [cbn [lmul lv_]; ring|]. cbn [lmul]. rewrite lv_add, lv_scale. cbn [lv_]. rewrite IH, phi_0. ring. Qed.
Definition pv (p : poly K) : L := lv_ (pl K p).
Lemma pv_add (p q : A) : pv (p + q) = pv p + pv q.
Proof using phi_add. unfold pv. cbn [radd polyR]. unfold padd. rewrite (lv_ext _ _ (pl_mkp K _)). apply lv_add. Qed.
Lemma pv_mul (p q : A) : pv (p * q) = pv p * pv q.
Proof using phi_add phi_mul. unfold pv. cbn [rmul polyR]. unfold pmul. rewrite (lv_ext _ _ (pl_mkp K _)). apply lv_mul. Qed.
Lemma pv_const a : pv (pconst K a) = phi a.
Proof using phi_add. unfold pv, pconst. rewrite (lv_ext _ _ (pl_mkp K _)). cbn [lv_]. ring. Qed.
Lemma pv_X : pv (pX K) = X.
Proof using phi_add phi_1. unfold pv, pX. rewrite (lv_ext _ _ (pl_mkp K _)). cbn [lv_]. rewrite phi_0, phi_1. ring. Qed.
Lemma pv_0 : pv (0 : A) = 0. Proof using. reflexivity. Qed.
Lemma pv_1 : pv (1 : A) = 1. Proof using phi_add phi_1. rewrite <- phi_1. exact (pv_const 1). Qed.
Definition evL (f : CR) : L := pv (a2 f) + pv (b2 f) * Y.
Lemma evL_add f g : evL (f + g) = evL f + evL g.
Proof using phi_add. unfold evL. cbn [a2 b2 radd EcGroup.CR quad qadd]. rewrite !pv_add. ring. Qed.
Lemma evL_mul f g : evL (f * g) = evL f * evL g.
Proof using phi_add phi_mul phi_1 HXY.
  unfold evL. cbn [a2 b2 rmul EcGroup.CR quad qmul]. unfold cub. rewrite !pv_add, !pv_mul, !pv_add, !pv_mul, pv_const, pv_X.
  transitivity (pv (a2 f) * pv (a2 g) + (pv (a2 f) * pv (b2 g) + pv (b2 f) * pv (a2 g)) * Y + pv (b2 f) * pv (b2 g) * (Y * Y)); [rewrite HXY|]; ring.
Qed.
Lemma evL_eK k : evL (eK k) = phi k.
Proof using phi_add. unfold evL, EcGroup.eK, eA. cbn [a2 b2]. rewrite pv_const, pv_0. ring. Qed.
Lemma evL_1 : evL 1 = 1.
Proof using phi_add phi_1. rewrite <- phi_1. exact (evL_eK 1). Qed.
Lemma evL_X : evL rX = X.
Proof using phi_add phi_1. unfold evL, EcGroup.rX, eA. cbn [a2 b2]. rewrite pv_X, pv_0. ring. Qed.
Lemma evL_Y : evL rY = Y.
Proof using phi_add phi_1. unfold evL, EcGroup.rY. cbn [a2 b2]. rewrite pv_0, pv_1. ring. Qed.
Lemma evL_sub f g : evL (f - g) = evL f - evL g.
Proof using phi_add. transitivity (evL (f - g) + evL g - evL g); [ring|]. rewrite <- evL_add. replace (f - g + g) with f by ring. ring. Qed.
Lemma evL_lnv x : evL (lnv x) = X - phi x.
Proof using phi_add phi_1. unfold lnv. rewrite evL_sub, evL_X, evL_eK. reflexivity. Qed.
Lemma evL_lnl l x1 y1 : evL (lnl l x1 y1) = Y - (phi l * X + (phi y1 - phi l * phi x1)).
Proof using phi_add phi_mul phi_1 HXY. unfold lnl. rewrite evL_sub, evL_add, evL_mul, evL_X, evL_Y, !evL_eK, phi_sub, phi_mul. reflexivity. Qed.
(** the cocycle identity for the values *)
Lemma cocyc_ev P Q R : onc P -> onc Q -> onc R -> exists k, k <> 0 /\ evL (lnf P Q) * (evL (lnf (P ++ Q) R) * evL (lnf (Q ++ R) EInf)) = phi k * (evL (lnf Q R) * (evL (lnf P (Q ++ R)) * evL (lnf (P ++ Q) EInf))).
Proof using H2 H3 Hb phi_add phi_mul phi_1 HXY.
  intros HP HQ HR. destruct (cocyc P Q R HP HQ HR) as (k & Hk & E). exists k. split; [exact Hk|].
  rewrite <- !evL_mul, <- evL_eK, <- evL_mul, E. reflexivity.
Qed.
Lemma lnf_comm P Q : onc P -> onc Q -> exists k, k <> 0 /\ evL (lnf P Q) = phi k * evL (lnf Q P).
Proof using H2 H3 Hb phi_add phi_mul phi_1 HXY.
  intros HP HQ. destruct (princ_eq (lnf P Q) (lnf Q P) (lnf_nz P Q)) as (k & Hk & E).
  - eapply ieq_trans; [apply ieq_sym, lnf_ipl; assumption|]. eapply ieq_trans; [|apply lnf_ipl; assumption].
    rewrite (ec_add_comm K b H2 H3 Hb Q P HQ HP). apply ipl_perm. apply perm_swap.
  - exists k. split; [exact Hk|]. rewrite <- evL_eK, <- evL_mul, <- E. reflexivity.
Qed.
End Eval.
End Cocyc.
