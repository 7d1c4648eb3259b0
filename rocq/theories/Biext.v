(** Extensions of an abelian group G by an abelian group V along a symmetric cocycle h:
    pairs (A, a) with (A, a)(B, b) = (A + B, a b h(A, B)).
    The ate pairing of Q is the V-component of (Q, 1)^(-n) psi(Q, 1) psi^2(Q, 1)^(-1);
    this makes it additive in Q, and trivial for coboundaries. *)
From Coq Require Import ZArith List.

Section Ext.
Variables (G V : Type) (on : G -> Prop) (add : G -> G -> G) (neg : G -> G) (O : G).
Hypothesis on_add : forall A B, on A -> on B -> on (add A B).
Hypothesis on_neg : forall A, on A -> on (neg A).
Hypothesis on_O : on O.
Hypothesis add_assoc : forall A B C, on A -> on B -> on C -> add (add A B) C = add A (add B C).
Hypothesis add_comm : forall A B, on A -> on B -> add A B = add B A.
Hypothesis add_O : forall A, add O A = A.
Hypothesis add_neg : forall A, on A -> add A (neg A) = O.
Variables (vm : V -> V -> V) (v1 : V) (vi : V -> V) (okV : V -> Prop).
Hypothesis vm_assoc : forall a b c, vm (vm a b) c = vm a (vm b c).
Hypothesis vm_comm : forall a b, vm a b = vm b a.
Hypothesis vm_1 : forall a, vm v1 a = a.
Hypothesis ok_vm : forall a b, okV a -> okV b -> okV (vm a b).
Hypothesis ok_1 : okV v1.
Hypothesis ok_vi : forall a, okV a -> okV (vi a).
Hypothesis vm_vi : forall a, okV a -> vm a (vi a) = v1.
Variable ps : G -> G.
Variable q : V -> V.
Hypothesis on_ps : forall A, on A -> on (ps A).
Hypothesis ps_add : forall A B, on A -> on B -> ps (add A B) = add (ps A) (ps B).
Hypothesis ok_q : forall a, okV a -> okV (q a).
Hypothesis q_vm : forall a b, okV a -> okV b -> q (vm a b) = vm (q a) (q b).
Lemma vcancel a b c : okV a -> vm a b = vm a c -> b = c.
Proof.
  intros Ha E. rewrite <- (vm_1 b), <- (vm_1 c), <- (vm_vi a Ha), (vm_comm a (vi a)), !vm_assoc, E. reflexivity.
Qed.
Lemma q_1 : q v1 = v1.
Proof.
  apply (vcancel (q v1)); [apply ok_q, ok_1|]. rewrite <- q_vm by exact ok_1. rewrite vm_1, (vm_comm (q v1)), vm_1. reflexivity.
Qed.
Lemma vi_vm a b : okV a -> okV b -> vi (vm a b) = vm (vi a) (vi b).
Proof.
  intros Ha Hb. apply (vcancel (vm a b)); [apply ok_vm; assumption|]. rewrite vm_vi by (apply ok_vm; assumption).
  rewrite (vm_comm (vi a) (vi b)), vm_assoc, <- (vm_assoc b (vi b)), (vm_vi b Hb), vm_1, (vm_vi a Ha). reflexivity.
Qed.
Lemma vi_1 : vi v1 = v1.
Proof. rewrite <- (vm_1 (vi v1)). apply vm_vi, ok_1. Qed.
Lemma vm4 a b c d : vm (vm a b) (vm c d) = vm (vm a c) (vm b d).
Proof. rewrite !vm_assoc. f_equal. rewrite <- !vm_assoc. f_equal. apply vm_comm. Qed.
Fixpoint vpow (n : nat) (a : V) : V := match n with 0 => v1 | S n => vm a (vpow n a) end.
Lemma vpow_ok n a : okV a -> okV (vpow n a).
Proof. intros H. induction n; [exact ok_1|]. cbn [vpow]. apply ok_vm; assumption. Qed.
Lemma vpow_vm n a b : vpow n (vm a b) = vm (vpow n a) (vpow n b).
Proof. induction n as [|n IH]; cbn [vpow]; [symmetry; apply vm_1|]. rewrite IH. apply vm4. Qed.
Variable n : nat.
Definition kill (a : V) : V := vm (vm (vm (vi (vpow n a)) (q a)) (vi (q (q a)))) (q (q (q a))).

Definition okS (s : G * V) : Prop := on (fst s) /\ okV (snd s).
Section Coc.
Variable h : G -> G -> V.
Definition so (s t : G * V) : G * V := (add (fst s) (fst t), vm (vm (snd s) (snd t)) (h (fst s) (fst t))).
Definition se : G * V := (O, v1).
Definition sneg (s : G * V) : G * V := (neg (fst s), vi (snd s)).
Fixpoint spow (k : nat) (s : G * V) : G * V := match k with 0 => se | S k => so s (spow k s) end.
Definition Psi (s : G * V) : G * V := (ps (fst s), q (snd s)).
(** (Q, 1)^(-n) psi(Q, 1) psi^2(Q, 1)^(-1) *)
Definition epair (Q : G) : G * V := so (so (sneg (spow n (Q, v1))) (Psi (Q, v1))) (sneg (Psi (Psi (Q, v1)))).
Definition Theta (s : G * V) : G * V := so (so (so (sneg (spow n s)) (Psi s)) (sneg (Psi (Psi s)))) (Psi (Psi (Psi s))).

Hypothesis h_ok : forall A B, on A -> on B -> okV (h A B).
Hypothesis h_coc : forall A B C, on A -> on B -> on C -> vm (h A B) (h (add A B) C) = vm (h B C) (h A (add B C)).
Hypothesis h_comm : forall A B, on A -> on B -> h A B = h B A.
Hypothesis h_O : forall A, on A -> h O A = v1.
Hypothesis h_neg : forall A, on A -> h A (neg A) = v1.
Hypothesis h_ps : forall A B, on A -> on B -> h (ps A) (ps B) = q (h A B).

Lemma so_ok s t : okS s -> okS t -> okS (so s t).
Proof. intros [] []. split; cbn; auto. Qed.
Lemma se_ok : okS se. Proof. split; assumption. Qed.
Lemma so_assoc s t u : okS s -> okS t -> okS u -> so (so s t) u = so s (so t u).
Proof.
  destruct s as [A a], t as [B b], u as [C c]. intros [HA Ha] [HB Hb] [HC Hc]. unfold so. cbn [fst snd] in *.
  f_equal; [apply add_assoc; assumption|].
  transitivity (vm (vm a (vm b c)) (vm (h A B) (h (add A B) C))).
  - rewrite !vm_assoc. do 2 f_equal. rewrite <- !vm_assoc. f_equal. apply vm_comm.
  - rewrite h_coc by assumption. rewrite !vm_assoc. reflexivity.
Qed.
Lemma so_comm s t : okS s -> okS t -> so s t = so t s.
Proof. intros [] []. unfold so. f_equal; [apply add_comm; assumption|]. rewrite h_comm by assumption. f_equal. apply vm_comm. Qed.
Lemma so_e s : okS s -> so se s = s.
Proof. intros []. destruct s as [A a]. unfold so, se. cbn [fst snd] in *. rewrite add_O, h_O, vm_1 by assumption. f_equal. rewrite vm_comm. apply vm_1. Qed.
Lemma sneg_ok s : okS s -> okS (sneg s).
Proof. intros []. split; cbn; auto. Qed.
Lemma so_neg s : okS s -> so s (sneg s) = se.
Proof. intros []. unfold so, sneg, se. cbn [fst snd]. rewrite add_neg, vm_vi, h_neg, vm_1 by assumption. reflexivity. Qed.
Lemma inv_uniq s t u : okS s -> okS t -> okS u -> so s t = se -> so s u = se -> t = u.
Proof.
  intros Hs Ht Hu Et Eu. rewrite <- (so_e t Ht), <- Eu. rewrite (so_comm s u) by assumption. rewrite so_assoc by assumption. rewrite Et.
  rewrite so_comm; [apply so_e; assumption|exact Hu|exact se_ok].
Qed.
Lemma so4 s t u v : okS s -> okS t -> okS u -> okS v -> so (so s t) (so u v) = so (so s u) (so t v).
Proof.
  intros. pose proof so_ok. rewrite !so_assoc by auto. f_equal. rewrite <- !so_assoc by auto. f_equal. apply so_comm; assumption.
Qed.
Lemma sneg_so s t : okS s -> okS t -> sneg (so s t) = so (sneg s) (sneg t).
Proof.
  intros Hs Ht. pose proof so_ok as Hso. pose proof sneg_ok as Hn.
  apply (inv_uniq (so s t)); auto.
  - apply so_neg; auto.
  - rewrite so4 by auto. rewrite !so_neg by assumption. apply so_e, se_ok.
Qed.
Lemma spow_ok k s : okS s -> okS (spow k s).
Proof. intros H. induction k; [exact se_ok|]. cbn [spow]. apply so_ok; assumption. Qed.
Lemma spow_so k s t : okS s -> okS t -> spow k (so s t) = so (spow k s) (spow k t).
Proof.
  intros Hs Ht. induction k as [|k IH]; cbn [spow]; [symmetry; apply so_e, se_ok|]. rewrite IH. apply so4; auto using spow_ok.
Qed.
Lemma spow_add j k s : okS s -> spow (j + k) s = so (spow j s) (spow k s).
Proof.
  intros H. induction j as [|j IH]; cbn [spow Nat.add]; [symmetry; apply so_e, spow_ok, H|]. rewrite IH. symmetry. apply so_assoc; auto using spow_ok.
Qed.
Lemma Psi_ok s : okS s -> okS (Psi s).
Proof. intros []. split; cbn; auto. Qed.
Lemma Psi_so s t : okS s -> okS t -> Psi (so s t) = so (Psi s) (Psi t).
Proof.
  intros [H1 H2] [H3 H4]. unfold Psi, so. cbn [fst snd]. rewrite ps_add, h_ps by assumption. rewrite !q_vm by auto. reflexivity.
Qed.
Lemma Theta_so s t : okS s -> okS t -> Theta (so s t) = so (Theta s) (Theta t).
Proof.
  intros Hs Ht. pose proof so_ok as Hso. pose proof sneg_ok as Hn. pose proof Psi_ok as Hp. pose proof spow_ok as Hw.
  unfold Theta. rewrite spow_so, !Psi_so, !sneg_so by auto.
  rewrite (so4 (sneg (spow n s))) by auto. rewrite (so4 _ _ (sneg (Psi (Psi s)))) by auto. rewrite (so4 _ _ (Psi (Psi (Psi s)))) by auto. reflexivity.
Qed.
Lemma add_O_r A : on A -> add A O = A.
Proof. intros H. rewrite add_comm by assumption. apply add_O. Qed.
Lemma neg_O : neg O = O.
Proof. rewrite <- (add_O (neg O)). apply add_neg, on_O. Qed.
Lemma ps_O : ps O = O.
Proof.
  assert (E : add (ps O) (ps O) = ps O) by (rewrite <- ps_add by exact on_O; rewrite add_O; reflexivity).
  pose proof (on_ps O on_O) as H. transitivity (add (add (ps O) (ps O)) (neg (ps O))).
  - rewrite add_assoc by auto. rewrite add_neg by exact H. symmetry. apply add_O_r, H.
  - rewrite E. apply add_neg, H.
Qed.
Lemma soO a b : so (O, a) (O, b) = (O, vm a b).
Proof. unfold so. cbn [fst snd]. rewrite add_O, h_O by exact on_O. f_equal. rewrite vm_comm. apply vm_1. Qed.
Lemma spowO k a : okV a -> spow k (O, a) = (O, vpow k a).
Proof. intros Ha. induction k as [|k IH]; [reflexivity|]. cbn [spow vpow]. rewrite IH. apply soO. Qed.
Lemma ThetaO a : okV a -> Theta (O, a) = (O, kill a).
Proof.
  intros Ha. unfold Theta, Psi, sneg. rewrite spowO by exact Ha. cbn [fst snd]. rewrite !ps_O, neg_O. rewrite !soO. reflexivity.
Qed.
Lemma epair_ok Q : on Q -> okS (epair Q).
Proof.
  intros H. assert (okS (Q, v1)) by (split; [exact H|exact ok_1]). unfold epair. pose proof so_ok as Hso. pose proof sneg_ok as Hn. pose proof Psi_ok as Hp. pose proof spow_ok as Hw. auto 8.
Qed.
Lemma Theta_epair Q : on Q -> fst (epair Q) = neg (ps (ps (ps Q))) -> Theta (Q, v1) = (O, snd (epair Q)).
Proof.
  intros HQ E. unfold Theta. fold (epair Q). destruct (epair Q) as [A a]. cbn [fst snd] in *. subst A. unfold so, Psi. cbn [fst snd].
  assert (H3 : on (ps (ps (ps Q)))) by auto. rewrite (add_comm (neg _)), add_neg, h_comm, h_neg by auto. f_equal. rewrite !q_1.
  rewrite vm_comm, vm_1, vm_comm, vm_1. reflexivity.
Qed.
Theorem epair_add Q R : on Q -> on R -> (forall a, okV a -> kill a = v1) ->
  fst (epair Q) = neg (ps (ps (ps Q))) -> fst (epair R) = neg (ps (ps (ps R))) -> fst (epair (add Q R)) = neg (ps (ps (ps (add Q R)))) ->
  snd (epair (add Q R)) = vm (snd (epair Q)) (snd (epair R)).
Proof.
  intros HQ HR Hk EQ ER EQR. assert (OQ : okS (Q, v1)) by (split; [exact HQ|exact ok_1]). assert (OR : okS (R, v1)) by (split; [exact HR|exact ok_1]).
  assert (OQR : okS (add Q R, v1)) by (split; [apply on_add; assumption|exact ok_1]).
  assert (Oh : okV (h Q R)) by auto. assert (OO : okS (O, h Q R)) by (split; [exact on_O|exact Oh]).
  assert (E : so (O, h Q R) (add Q R, v1) = so (Q, v1) (R, v1)).
  { unfold so. cbn [fst snd]. rewrite add_O, h_O by auto. f_equal. rewrite !vm_1. rewrite (vm_comm (h Q R)), !vm_1, vm_comm. apply vm_1. }
  apply (f_equal Theta) in E. rewrite !Theta_so in E by assumption. rewrite ThetaO, !Theta_epair in E by auto.
  rewrite Hk in E by exact Oh. rewrite !soO, vm_1 in E. injection E as E. exact E.
Qed.
(** a coboundary pairs trivially *)
Theorem epair_cob (g : G -> V) Q : on Q -> (forall a, okV a -> kill a = v1) ->
  (forall A, on A -> okV (g A)) -> (forall A B, on A -> on B -> vm (h A B) (g (add A B)) = vm (g A) (g B)) -> (forall A, on A -> g (ps A) = q (g A)) ->
  fst (epair Q) = neg (ps (ps (ps Q))) -> snd (epair Q) = v1.
Proof.
  intros HQ Hk Hg Hcob Hgp EQ. set (rho := fun s : G * V => vm (snd s) (g (fst s))).
  assert (Rok : forall s, okS s -> okV (rho s)) by (intros s []; unfold rho; auto).
  assert (Rso : forall s t, okS s -> okS t -> rho (so s t) = vm (rho s) (rho t)).
  { intros s t [] []. unfold rho, so. cbn [fst snd]. rewrite vm_assoc, Hcob by assumption. apply vm4. }
  assert (RO : rho se = v1).
  { unfold rho, se. cbn [fst snd]. rewrite vm_1. apply (vcancel (g O)); [apply Hg, on_O|]. rewrite (vm_comm _ v1), vm_1.
    rewrite <- Hcob by exact on_O. rewrite add_O, h_O, vm_1 by exact on_O. reflexivity. }
  assert (Rn : forall s, okS s -> rho (sneg s) = vi (rho s)).
  { intros s Hs. apply (vcancel (rho s)); [apply Rok, Hs|]. rewrite <- Rso by auto using sneg_ok. rewrite so_neg by exact Hs. rewrite RO, vm_vi; auto. }
  assert (Rp : forall k s, okS s -> rho (spow k s) = vpow k (rho s)).
  { intros k s Hs. induction k as [|k IH]; [exact RO|]. cbn [spow vpow]. rewrite Rso by auto using spow_ok. rewrite IH. reflexivity. }
  assert (RP : forall s, okS s -> rho (Psi s) = q (rho s)).
  { intros s []. unfold rho, Psi. cbn [fst snd]. rewrite Hgp, q_vm by auto. reflexivity. }
  assert (OQ : okS (Q, v1)) by (split; [exact HQ|exact ok_1]).
  pose proof so_ok as Hso. pose proof sneg_ok as Hn. pose proof Psi_ok as Hp. pose proof spow_ok as Hw.
  pose proof (Theta_epair Q HQ EQ) as E. apply (f_equal rho) in E. unfold Theta in E. rewrite !Rso, !Rn, Rp, !RP in E by auto 8.
  fold (kill (rho (Q, v1))) in E. rewrite Hk in E by auto.
  assert (T : rho (O, snd (epair Q)) = snd (epair Q)).
  { unfold rho. cbn [fst snd]. unfold rho, se in RO. cbn [fst snd] in RO. rewrite vm_1 in RO. rewrite RO, vm_comm. apply vm_1. }
  rewrite T in E. symmetry. exact E.
Qed.
End Coc.

(** the pairing is multiplicative in the cocycle *)
Lemma spow_hh h h' k A : spow (fun X Y => vm (h X Y) (h' X Y)) k (A, v1) = (fst (spow h k (A, v1)), vm (snd (spow h k (A, v1))) (snd (spow h' k (A, v1)))) /\
  fst (spow h k (A, v1)) = fst (spow h' k (A, v1)).
Proof.
  induction k as [|k [IH E]].
  - cbn [spow]. unfold se. cbn [fst snd]. rewrite vm_1. split; reflexivity.
  - cbn [spow]. rewrite IH. unfold so. cbn [fst snd]. rewrite <- E. split; [|reflexivity]. f_equal. rewrite !vm_1. apply vm4.
Qed.
Lemma epair_hh h h' Q : on Q -> (forall A B, on A -> on B -> okV (h A B)) -> (forall A B, on A -> on B -> okV (h' A B)) ->
  snd (epair (fun X Y => vm (h X Y) (h' X Y)) Q) = vm (snd (epair h Q)) (snd (epair h' Q)).
Proof.
  intros HQ Hh Hh'. unfold epair. destruct (spow_hh h h' n Q) as [E1 E2]. rewrite E1.
  assert (OQ : okS (Q, v1)) by (split; [exact HQ|exact ok_1]).
  pose proof (spow_ok h Hh n (Q, v1) OQ) as [S1 S2]. pose proof (spow_ok h' Hh' n (Q, v1) OQ) as [S3 S4].
  unfold sneg, Psi, so. cbn [fst snd]. rewrite <- E2. rewrite !q_1, vi_1. rewrite vi_vm by assumption.
  set (a := vi (snd (spow h n (Q, v1)))). set (b := vi (snd (spow h' n (Q, v1)))).
  set (T := neg (fst (spow h n (Q, v1)))). clearbody a b T.
  assert (N : forall x, vm x v1 = x) by (intros x; rewrite vm_comm; apply vm_1). rewrite !N. rewrite (vm4 a b). apply vm4.
Qed.
Lemma epair_fst h h' Q : fst (epair h Q) = fst (epair h' Q).
Proof.
  unfold epair. cbn [so sneg Psi fst]. assert (E : fst (spow h n (Q, v1)) = fst (spow h' n (Q, v1))).
  { induction n as [|k IH]; [reflexivity|]. cbn [spow so fst]. rewrite IH. reflexivity. }
  rewrite E. reflexivity.
Qed.
End Ext.
