(** The optimal ate pairing is bilinear (default configuration). *)
From Coq Require Import ZArith Znumtheory Lia Ring List.
From Verif Require Import Base Prim FpSpec Pock Primes Cfg FpProofs FpM TowerSpec TowerField TowerM Fp2Proofs Fp6Proofs Frob ParamM ParamProofs FinalM FinalProofs TowerApi Poly EcSpec EcGroup EcM EcProofs EcInst EcFrob EcApi EcTors Cocyc Biext PairM PairProofs PairE PairH PairStep.
Local Open Scope Z_scope.

(** ** Multiples of a point of order dividing a prime r *)
Section Mul.
Variables (K : fld) (b : K).
Hypothesis H2 : (radd ro ro : K) <> rz.
Hypothesis H3 : (radd (radd ro ro) ro : K) <> rz.
Hypothesis Hb : b <> rz.
Variable r : Z.
Hypothesis Hr : prime r.
Variable Q : ecpt K.
Hypothesis HQ : on_curve K b Q.
Hypothesis HrQ : ec_mul K (Z.to_nat r) Q = EInf.
Notation mul := (ec_mul K).
Local Notation "A +++ B" := (ec_add K A B) (at level 50, left associativity).
Lemma rpos : 0 < r. Proof using Hr. destruct Hr. lia. Qed.
Definition M (a : Z) : ecpt K := mul (Z.to_nat (a mod r)) Q.
Lemma M_on a : on_curve K b (M a). Proof using H2 H3 Hb HQ. apply (ec_mul_on K b H2 H3 Hb), HQ. Qed.
Lemma M_nat a : 0 <= a -> mul (Z.to_nat a) Q = M a.
Proof using H2 H3 Hb HQ HrQ Hr.
  intros Ha. pose proof rpos as R. unfold M. pose proof (Z.div_mod a r ltac:(lia)) as D. pose proof (Z.mod_pos_bound a r R). pose proof (Z.div_pos a r Ha R).
  replace (Z.to_nat a) with (Z.to_nat (a / r) * Z.to_nat r + Z.to_nat (a mod r))%nat by (rewrite D at 3; rewrite Z2Nat.inj_add, Z2Nat.inj_mul by nia; lia).
  rewrite (ec_mul_add K b H2 H3 Hb), (ec_mul_mul K b H2 H3 Hb) by exact HQ. rewrite HrQ.
  assert (O : forall n, mul n EInf = (EInf : ecpt K)) by (induction n; [reflexivity|cbn [ec_mul]; assumption]). rewrite O. reflexivity.
Qed.
Lemma M_mod a : M (a mod r) = M a. Proof using. unfold M. rewrite Zmod_mod. reflexivity. Qed.
Lemma M_eq a a' : a mod r = a' mod r -> M a = M a'. Proof using. intros E. unfold M. rewrite E. reflexivity. Qed.
Lemma M_add a a' : M (a + a') = M a +++ M a'.
Proof using H2 H3 Hb HQ HrQ Hr.
  pose proof rpos as R. rewrite (M_eq (a + a') (a mod r + a' mod r)) by (apply Zplus_mod).
  rewrite <- M_nat by (pose proof (Z.mod_pos_bound a r R); pose proof (Z.mod_pos_bound a' r R); lia).
  rewrite Z2Nat.inj_add by (apply Z.mod_pos_bound; exact R). rewrite (ec_mul_add K b H2 H3 Hb) by exact HQ. reflexivity.
Qed.
Lemma M_0 : M 0 = EInf. Proof using. unfold M. rewrite Zmod_0_l. reflexivity. Qed.
Lemma M_1 : M 1 = Q.
Proof using Hr. unfold M. rewrite Z.mod_small by (destruct Hr; lia). change (Z.to_nat 1) with 1%nat. cbn [ec_mul]. apply ec_add_0_r. Qed.
Lemma neg_uniq A A' : on_curve K b A -> on_curve K b A' -> A +++ A' = EInf -> A' = ec_neg K A.
Proof using H2 H3 Hb.
  intros HA HA' E. pose proof (ec_neg_on K b A HA) as HN. transitivity (ec_neg K A +++ (A +++ A')).
  - rewrite <- (ec_add_assoc K b H2 H3 Hb) by assumption. rewrite (ec_add_comm K b H2 H3 Hb (ec_neg K A)), ec_add_neg by assumption. reflexivity.
  - rewrite E. apply ec_add_0_r.
Qed.
Lemma M_opp a : M (- a) = ec_neg K (M a).
Proof using H2 H3 Hb HQ HrQ Hr.
  apply neg_uniq; try apply M_on. rewrite <- M_add. replace (a + - a) with 0 by lia. apply M_0.
Qed.
Lemma M_mul k a : 0 <= k -> mul (Z.to_nat k) (M a) = M (k * a).
Proof using H2 H3 Hb HQ HrQ Hr.
  revert k. apply natlike_ind.
  - rewrite Z.mul_0_l, M_0. reflexivity.
  - intros k Hk IH. rewrite Z2Nat.inj_succ by exact Hk. cbn [ec_mul]. rewrite IH, <- M_add. f_equal. lia.
Qed.
Lemma M_inj a : Q <> EInf -> M a = EInf -> a mod r = 0.
Proof using H2 H3 Hb HQ HrQ Hr.
  intros NQ E. pose proof rpos as R. destruct (Z.eq_dec (a mod r) 0) as [D|D]; [exact D|]. exfalso. apply NQ.
  assert (G : rel_prime a r). { apply rel_prime_sym, prime_rel_prime; [exact Hr|]. intros F. apply D. apply Znumtheory.Zdivide_mod, F. }
  apply rel_prime_bezout in G. destruct G as [u v Euv].
  assert (E1 : M (u mod r * a) = M 1). { apply M_eq. rewrite Z.mul_mod_idemp_l by lia. replace (u * a) with (1 + (- v) * r) by lia. apply Z_mod_plus_full. }
  rewrite <- M_1, <- E1. rewrite <- M_mul by (apply Z.mod_pos_bound; exact R). rewrite E.
  induction (Z.to_nat (u mod r)); [reflexivity|]. cbn [ec_mul]. assumption.
Qed.
Lemma M_neq a a' : Q <> EInf -> (a - a') mod r <> 0 -> M a <> M a'.
Proof using H2 H3 Hb HQ HrQ Hr.
  intros NQ D E. apply D. apply M_inj; [exact NQ|]. unfold Z.sub. rewrite M_add, M_opp, E. apply ec_add_neg.
Qed.
End Mul.

Definition nn (c : cfg) : Z := Z.abs (6 * cz c + 2).
Lemma kill_dvd c : snark c = false -> (nn c * (cr c - 1) + cp c + cp c * cp c * (cr c - 1) + cp c * cp c * cp c) mod cr c = 0.
Proof. intros H. rewrite (is_BNb c H). vm_compute. reflexivity. Qed.
Lemma nn_pos c : 0 <= nn c. Proof. apply Z.abs_nonneg. Qed.

Lemma r_big_c c : 4 < cr c. Proof. destruct c; vm_compute; reflexivity. Qed.
Lemma r_big_n c : snark c = false -> 4 * nn c + 2 < cr c. Proof. intros H. rewrite (is_BNb c H). vm_compute. reflexivity. Qed.
Lemma deg_n c : snark c = false -> (- nn c - cp c) mod cr c <> 0 /\ (- nn c + cp c) mod cr c <> 0 /\
  (- nn c + cp c - - (cp c * cp c)) mod cr c <> 0 /\ (- nn c + cp c + - (cp c * cp c)) mod cr c <> 0.
Proof. intros H. rewrite (is_BNb c H). repeat split; vm_compute; intros E; discriminate E. Qed.
Lemma ps3_n c : snark c = false -> (- nn c + cp c + - (cp c * cp c) + cp c * (cp c * cp c)) mod cr c = 0.
Proof. intros H. rewrite (is_BNb c H). vm_compute. reflexivity. Qed.

Section Bil.
Local Open Scope r_scope.
Variable c : cfg.
Local Notation p := (cp c).
Local Notation r := (cr c).
Add Ring FRb : (rth (FpR (cp c))).
Add Ring KRb : (rth (K2 c)).
Add Ring KR6b : (rth (K6 c)).
Add Ring KR12b : (rth (K12 c)).
Local Notation Tw := (ecpt (K2F c)).
Local Notation onT := (on_curve (K2F c) (cb2 c)).
Local Notation e212 := (e212 c).
Local Notation E := (E c).
Local Notation psi := (psi c).
Local Notation "A +++ B" := (ec_add (K2F c) A B) (at level 50, left associativity).
Local Notation neg := (ec_neg (K2F c)).
Definition okV (a : K12 c) : Prop := rpz a r = 1.
Definition vi (a : K12 c) : K12 c := rpz a (r - 1).
Definition qf (a : K12 c) : K12 c := rpz a p.
Lemma okV_mul a b : okV a -> okV b -> okV (a * b).
Proof using. unfold okV. intros Ha Hb. rewrite rpz_mulb, Ha, Hb. ring. Qed.
Lemma okV_1 : okV 1. Proof using. apply rpz_one. Qed.
Lemma okV_pow a n : okV a -> (0 <= n)%Z -> okV (rpz a n).
Proof using.
  unfold okV. intros Ha Hn. pose proof (cr_pos c). rewrite <- rpz_mul by lia. rewrite Z.mul_comm, rpz_mul by lia. rewrite Ha. apply rpz_one.
Qed.
Lemma okV_vi a : okV a -> okV (vi a).
Proof using. intros Ha. pose proof (cr_pos c). apply okV_pow; [exact Ha|]. lia. Qed.
Lemma vi_r a : okV a -> a * vi a = 1.
Proof using.
  unfold okV, vi. intros Ha. pose proof (cr_pos c). rewrite <- Ha. replace r with (1 + (r - 1))%Z at 2 by lia. rewrite rpz_add, rpz_1 by lia. reflexivity.
Qed.
Lemma okV_q a : okV a -> okV (qf a).
Proof using. intros Ha. apply okV_pow; [exact Ha|]. pose proof (cp_pos c). lia. Qed.
Lemma qf_mul a b : okV a -> okV b -> qf (a * b) = qf a * qf b.
Proof using. intros _ _. apply rpz_mulb. Qed.
Local Notation nn := (nn c).
Hypothesis HB : snark c = false.
Lemma vpow_rpw n a : vpow (K12 c) rmul ro n a = rpw a n.
Proof using. induction n as [|n IH]; [reflexivity|]. cbn [vpow]. rewrite IH, rpw_S. reflexivity. Qed.
(** a^(p^3 - p^2 + p - |6z+2|) = 1 *)
Lemma okV_dvd a e : okV a -> (0 <= e)%Z -> (e mod r = 0)%Z -> rpz a e = 1.
Proof using.
  clear HB. intros Ha He D. pose proof (cr_pos c) as R. apply Z_div_exact_full_2 in D; [|lia]. pose proof (Z.div_pos e r He R).
  rewrite D, rpz_mul by lia. rewrite Ha. apply rpz_one.
Qed.
Lemma kill_ok a : okV a -> kill (K12 c) rmul ro vi qf (Z.to_nat nn) a = 1.
Proof using HB.
  intros Ha. pose proof (cr_pos c) as R. pose proof (cp_pos c) as Pp. pose proof (nn_pos c) as N. pose proof (kill_dvd c HB) as D.
  unfold kill, vi, qf. rewrite vpow_rpw. change (rpw a (Z.to_nat nn)) with (rpz a nn).
  clear HB. set (n := nn) in *. clearbody n. set (rr := r) in *. assert (Ra : okV a -> rr = r) by reflexivity. set (pp := p) in *. clearbody pp.
  assert (N1 : (0 <= rr - 1)%Z) by lia. assert (0 <= n * (rr - 1))%Z by nia. assert (0 <= pp * pp)%Z by nia. assert (0 <= pp * pp * (rr - 1))%Z by nia. assert (0 <= pp * pp * pp)%Z by nia.
  transitivity (rpz a (n * (rr - 1)) * rpz a pp * rpz a (pp * pp * (rr - 1)) * rpz a (pp * pp * pp)); [rewrite !rpz_mul by (assumption || lia); reflexivity|].
  rewrite <- !rpz_add by (assumption || lia).
  apply okV_dvd; [exact Ha|lia|exact D].
Qed.
(** ** The group G2 *)
Definition inG2 (Q : Tw) : Prop := onT Q /\ ec_mul (K2F c) (Z.to_nat r) Q = EInf /\ psi Q = ec_mul (K2F c) (Z.to_nat p) Q.
Local Notation add_on := (ec_add_on (K2F c) (cb2 c) (two2 c) (three2 c) (cb2_nz c)).
Local Notation add_assoc := (ec_add_assoc (K2F c) (cb2 c) (two2 c) (three2 c) (cb2_nz c)).
Local Notation add_comm := (ec_add_comm (K2F c) (cb2 c) (two2 c) (three2 c) (cb2_nz c)).
Local Notation neg_on := (ec_neg_on (K2F c) (cb2 c)).
Local Notation M := (M (K2F c) r).
Local Notation mulN := (ec_mul (K2F c)).
Lemma G2_add Q R : inG2 Q -> inG2 R -> inG2 (Q +++ R).
Proof using.
  intros (H1 & H2 & H3) (H4 & H5 & H6). split; [apply add_on; assumption|]. split.
  - rewrite (ec_mul_add_distr (K2F c) (cb2 c) (two2 c) (three2 c) (cb2_nz c)) by assumption. rewrite H2, H5. reflexivity.
  - rewrite psi_add by assumption. rewrite (ec_mul_add_distr (K2F c) (cb2 c) (two2 c) (three2 c) (cb2_nz c)) by assumption. rewrite H3, H6. reflexivity.
Qed.
Lemma mulN_O n : mulN n EInf = EInf. Proof using. induction n; [reflexivity|cbn [ec_mul]; assumption]. Qed.
Lemma G2_O : inG2 EInf. Proof using. split; [exact I|]. split; rewrite mulN_O; reflexivity. Qed.
Lemma G2_mul n Q : inG2 Q -> inG2 (mulN n Q).
Proof using. intros H. induction n as [|n IH]; [exact G2_O|]. cbn [ec_mul]. apply G2_add; assumption. Qed.
Lemma psi_mul n Q : onT Q -> psi (mulN n Q) = mulN n (psi Q).
Proof using.
  intros H. induction n as [|n IH]; [reflexivity|]. cbn [ec_mul]. rewrite psi_add, IH; [reflexivity|exact H|].
  apply (ec_mul_on (K2F c) (cb2 c) (two2 c) (three2 c) (cb2_nz c)), H.
Qed.
Section AtQ.
Variable Q : Tw.
Hypothesis HQ : inG2 Q.
Lemma HQon : onT Q. Proof using HQ. exact (proj1 HQ). Qed.
Lemma HQr : mulN (Z.to_nat r) Q = EInf. Proof using HQ. exact (proj1 (proj2 HQ)). Qed.
Local Notation MA L := (L (K2F c) (cb2 c) (two2 c) (three2 c) (cb2_nz c) r (cr_prime c) Q HQon HQr).
Lemma MQ_on a : onT (M Q a). Proof using HQ. exact (M_on (K2F c) (cb2 c) (two2 c) (three2 c) (cb2_nz c) r Q HQon a). Qed.
Lemma psi_M a : psi (M Q a) = M Q (p * a).
Proof using HQ HB.
  pose proof (cr_pos c) as R. pose proof (cp_pos c) as Pp. unfold PairBil.M at 1. rewrite psi_mul by exact HQon. rewrite (proj2 (proj2 HQ)).
  rewrite (MA M_nat) by lia. rewrite (MA M_mul) by (apply Z.mod_pos_bound; exact R). apply M_eq. rewrite Z.mul_mod_idemp_l by lia. rewrite Z.mul_comm. reflexivity.
Qed.
Lemma psi_Q : psi Q = M Q p.
Proof using HQ HB. rewrite <- (M_1 (K2F c) r (cr_prime c) Q) at 1. rewrite psi_M, Z.mul_1_r. reflexivity. Qed.
Lemma MA_nat a : (0 <= a)%Z -> mulN (Z.to_nat a) Q = M Q a. Proof using HQ. exact (MA M_nat a). Qed.
Lemma MA_opp a : M Q (- a) = neg (M Q a). Proof using HQ. exact (MA M_opp a). Qed.
Lemma MA_add a b : M Q (a + b) = M Q a +++ M Q b. Proof using HQ. exact (MA M_add a b). Qed.
End AtQ.
(** ** The Miller loop *)
Section AtP.
Variables xP yP : FpR p.
Hypothesis HPc : yP * yP = xP * xP * xP + mk p (cb c).
Local Notation hP := (hP c xP yP).
Local Notation so := (so Tw (K12 c) (ec_add (K2F c)) rmul hP).
Local Notation spow := (spow Tw (K12 c) (ec_add (K2F c)) EInf rmul ro hP).
Local Notation sneg := (sneg Tw (K12 c) neg vi).
Local Notation Psi := (Psi Tw (K12 c) psi qf).
Local Notation okS := (okS Tw (K12 c) onT okV).
Lemma vm_assoc (a b d : K12 c) : a * b * d = a * (b * d). Proof using. ring. Qed.
Lemma vm_comm (a b : K12 c) : a * b = b * a. Proof using. ring. Qed.
Lemma vm_1 (a : K12 c) : 1 * a = a. Proof using. ring. Qed.
Lemma hok A B : onT A -> onT B -> okV (hP A B). Proof using HB HPc. exact (hP_ok c HB xP yP HPc A B). Qed.
Lemma hcoc A B C : onT A -> onT B -> onT C -> hP A B * hP (A +++ B) C = hP B C * hP A (B +++ C). Proof using HB HPc. exact (hP_coc c HB xP yP HPc A B C). Qed.
Lemma hcomm A B : onT A -> onT B -> hP A B = hP B A. Proof using HPc. exact (hP_comm c xP yP HPc A B). Qed.
Lemma hO A : onT A -> hP EInf A = 1. Proof using HB HPc. intros _. exact (hP_O c HB xP yP HPc A). Qed.
Lemma hneg A : onT A -> hP A (neg A) = 1. Proof using HB HPc. intros _. exact (hP_neg c HB xP yP HPc A). Qed.
Lemma hpsi A B : onT A -> onT B -> hP (psi A) (psi B) = qf (hP A B). Proof using HB HPc. exact (hP_psi c HB xP yP HPc A B). Qed.
Lemma add_neg' (A : Tw) : onT A -> A +++ neg A = EInf. Proof using. intros _. apply ec_add_neg. Qed.
Lemma add_O' (A : Tw) : EInf +++ A = A. Proof using. reflexivity. Qed.
Lemma spow_add' j k s : okS s -> spow (j + k) s = so (spow j s) (spow k s).
Proof using HB HPc.
  exact (spow_add Tw (K12 c) onT (ec_add (K2F c)) EInf add_on I add_assoc add_O' rmul ro okV vm_assoc vm_comm vm_1 okV_mul okV_1 hP hok hcoc hO j k s).
Qed.
Lemma spow_ok' k s : okS s -> okS (spow k s).
Proof using HB HPc. exact (spow_ok Tw (K12 c) onT (ec_add (K2F c)) EInf add_on I rmul ro okV okV_mul okV_1 hP hok k s). Qed.
Lemma sneg_ok' s : okS s -> okS (sneg s). Proof using. exact (sneg_ok Tw (K12 c) onT neg neg_on vi okV okV_vi s). Qed.
Lemma so_comm' s t : okS s -> okS t -> so s t = so t s. Proof using HPc. exact (so_comm Tw (K12 c) onT (ec_add (K2F c)) add_comm rmul okV vm_comm hP hcomm s t). Qed.
Lemma so_assoc' s t u : okS s -> okS t -> okS u -> so (so s t) u = so s (so t u).
Proof using HB HPc. exact (so_assoc Tw (K12 c) onT (ec_add (K2F c)) add_assoc rmul okV vm_assoc vm_comm hP hcoc s t u). Qed.
Lemma so_neg' s : okS s -> so s (sneg s) = (EInf, 1). Proof using HB HPc. exact (so_neg Tw (K12 c) onT (ec_add (K2F c)) neg EInf add_neg' rmul ro vi okV vm_1 vi_r hP hneg s). Qed.
Lemma so_e' s : okS s -> so (EInf, 1) s = s. Proof using HB HPc. exact (so_e Tw (K12 c) onT (ec_add (K2F c)) EInf add_O' rmul ro okV vm_comm vm_1 hP hO s). Qed.
Lemma spow_fst k A a : fst (spow k (A, a)) = mulN k A.
Proof using. induction k as [|k IH]; [reflexivity|]. cbn [Biext.spow Biext.so fst ec_mul]. rewrite IH. reflexivity. Qed.
Definition eP (Q : Tw) : Tw * K12 c := epair Tw (K12 c) (ec_add (K2F c)) neg EInf rmul ro vi psi qf (Z.to_nat nn) hP Q.
Section AtQ2.
Variable P : param.
Hypothesis HP : par_ok c P.
Variables vx vy : K2 c.
Local Notation Q := (@EAff (K2F c) vx vy).
Hypothesis HQ : inG2 Q.
Variables (xq yq : fp2) (xc yc : Z).
Hypothesis Rxq : rep2 c xq vx.
Hypothesis Ryq : rep2 c yq vy.
Hypothesis Rxc : rep1 c xc xP.
Hypothesis Ryc : rep1 c yc yP.
Local Notation MA L := (L (K2F c) (cb2 c) (two2 c) (three2 c) (cb2_nz c) r (cr_prime c) Q (HQon Q HQ) (HQr Q HQ)).
Local Notation M := (PairBil.M (K2F c) r Q).
Lemma M_on' a : onT (M a). Proof using HQ. exact (MQ_on Q HQ a). Qed.
Lemma M_1' : M 1 = Q. Proof using. exact (M_1 (K2F c) r (cr_prime c) Q). Qed.
Lemma M_add' a b : M (a + b) = M a +++ M b. Proof using HQ. exact (MA M_add a b). Qed.
Lemma M_opp' a : M (- a) = neg (M a). Proof using HQ. exact (MA M_opp a). Qed.
Lemma M_nz a : (a mod r <> 0)%Z -> M a <> EInf.
Proof using HQ. intros H F. apply H. apply (MA M_inj); [discriminate|exact F]. Qed.
Lemma M_ne a b : ((a - b) mod r <> 0)%Z -> M a <> M b.
Proof using HQ. intros H. apply (MA M_neq); [discriminate|exact H]. Qed.
Lemma negQ : neg Q = M (-1). Proof using HQ. change (-1)%Z with (- (1))%Z. rewrite M_opp', M_1'. reflexivity. Qed.
Local Notation qs := ((Q, 1) : Tw * K12 c).
Lemma qs_ok : okS qs. Proof using HQ. split; [exact (HQon Q HQ)|exact okV_1]. Qed.
(** the state of the loop after the digits of k *)
Definition Inv (k : Z) (s : fp12 * F3 fp2) : Prop :=
  exists v g, repR c (snd s) v /\ homT c v (M k) /\ rep12 c (fst s) g /\ g <> 0 /\ E g = snd (spow (Z.to_nat k) qs).
Lemma spow_fst' k : (0 <= k)%Z -> fst (spow (Z.to_nat k) qs) = M k.
Proof using HQ. intros Hk. rewrite spow_fst. exact (MA M_nat k Hk). Qed.
Lemma spow_eta k : (0 <= k)%Z -> spow (Z.to_nat k) qs = (M k, snd (spow (Z.to_nat k) qs)).
Proof using HQ. intros Hk. rewrite <- (spow_fst' k Hk). apply surjective_pairing. Qed.
Lemma spow_dbl k : (0 <= k)%Z -> snd (spow (Z.to_nat (2 * k)) qs) = snd (spow (Z.to_nat k) qs) * snd (spow (Z.to_nat k) qs) * hP (M k) (M k).
Proof using HB HPc HQ.
  intros Hk. replace (Z.to_nat (2 * k)) with (Z.to_nat k + Z.to_nat k)%nat by (clear -Hk; lia). rewrite spow_add' by exact qs_ok.
  rewrite (spow_eta k Hk) at 1 2. reflexivity.
Qed.
Lemma spow_1 : spow 1 qs = qs.
Proof using HB HPc HQ. cbn [Biext.spow]. rewrite so_comm'; [apply so_e'; exact qs_ok|exact qs_ok|split; [exact I|exact okV_1]]. Qed.
Lemma spow_succ k : (0 <= k)%Z -> snd (spow (Z.to_nat (k + 1)) qs) = snd (spow (Z.to_nat k) qs) * hP (M k) Q.
Proof using HB HPc HQ.
  intros Hk. replace (Z.to_nat (k + 1)) with (Z.to_nat k + 1)%nat by (clear -Hk; lia). rewrite spow_add' by exact qs_ok. rewrite spow_1.
  rewrite (spow_eta k Hk) at 1. cbn [Biext.so snd fst]. ring.
Qed.
Lemma spow_pred k : (1 <= k)%Z -> snd (spow (Z.to_nat (k - 1)) qs) = snd (spow (Z.to_nat k) qs) * hP (M k) (neg Q).
Proof using HB HPc HQ.
  intros Hk. replace (Z.to_nat k) with (Z.to_nat (k - 1) + 1)%nat by (clear -Hk; lia). rewrite spow_add' by exact qs_ok. rewrite spow_1.
  set (s := spow (Z.to_nat (k - 1)) qs). assert (Os : okS s) by (apply spow_ok', qs_ok).
  assert (Es : so (so s qs) (sneg qs) = s).
  { rewrite so_assoc' by auto using qs_ok, sneg_ok'. rewrite so_neg' by exact qs_ok. rewrite so_comm'; [apply so_e'; exact Os|exact Os|split; [exact I|exact okV_1]]. }
  rewrite <- Es at 1. unfold Biext.sneg. cbn [Biext.so snd fst]. assert (F : fst s +++ Q = M k).
  { unfold s. rewrite spow_fst' by (clear -Hk; lia). transitivity (M (k - 1) +++ M 1); [rewrite M_1'; reflexivity|]. rewrite <- M_add'. f_equal. clear. lia. }
  assert (V : vi 1 = 1) by (apply rpz_one). rewrite V, F. ring.
Qed.
Lemma step_dbl k s : (2 <= k)%Z -> (4 * k + 2 < r)%Z -> Inv k s ->
  let '(l, T) := dblLine c P (snd s) xc yc in Inv (2 * k) (f12_mul_024 c (f12_square c (fst s)) l, T).
Proof using HB HP HPc HQ Rxc Ryc.
  intros Kl Kr (v & g & Rv & Hv & Rg & Ng & Eg). destruct s as [f T]. cbn [fst snd] in *.
  destruct (dbl_rep c HB P HP xP yP HPc T v (M k) xc yc Rv Hv (M_on' k) Rxc Ryc) as (lv & Rl & Nl & El & v' & Rv' & Hv').
  destruct (dblLine c P T xc yc) as [l T']. cbn [fst snd] in *. exists v', (g * g * line12 c lv). cbn [fst snd].
  split; [exact Rv'|]. split.
  - replace (2 * k)%Z with (k + k)%Z by (clear; lia). rewrite M_add'. exact Hv'.
  - split; [|split].
    + apply f12_mul_024_rep; [|exact Rl]. apply (f12_square_rep c (cp_6_c c HB)), Rg.
    + apply mul12_nz; [apply mul12_nz; assumption|exact Nl].
    + rewrite !E_mul, El, Eg. rewrite spow_dbl by (clear -Kl; lia). reflexivity.
Qed.
Lemma mod_nz a : (0 < a < r)%Z -> (a mod r <> 0)%Z. Proof using. clear. intros H. rewrite Z.mod_small by lia. lia. Qed.
Lemma step_add k s : (2 <= k)%Z -> (k + 1 < r)%Z -> Inv k s ->
  let '(l, T) := addLine c (snd s) xq yq xc yc in Inv (k + 1) (f12_mul_024 c (fst s) l, T).
Proof using HB HPc HQ Rxc Ryc Rxq Ryq.
  intros Kl Kr (v & g & Rv & Hv & Rg & Ng & Eg). destruct s as [f T]. cbn [fst snd] in *.
  assert (E1 : M k +++ Q = M (k + 1)) by (rewrite M_add', M_1'; reflexivity).
  assert (N1 : M k <> Q) by (intros F; apply (M_ne k 1); [apply mod_nz; clear -Kl Kr; lia|]; rewrite F, M_1'; reflexivity).
  assert (N2 : M k +++ Q <> EInf) by (rewrite E1; apply M_nz, mod_nz; clear -Kl Kr; lia).
  destruct (add_rep c HB xP yP HPc T v (M k) vx vy xq yq xc yc Rv Hv (M_on' k) (HQon Q HQ) N1 N2 Rxq Ryq Rxc Ryc) as (lv & Rl & Nl & El & v' & Rv' & Hv').
  destruct (addLine c T xq yq xc yc) as [l T']. cbn [fst snd] in *. exists v', (g * line12 c lv). cbn [fst snd].
  rewrite E1 in Hv'. split; [exact Rv'|]. split; [exact Hv'|]. split; [|split].
  - apply f12_mul_024_rep; assumption.
  - apply mul12_nz; assumption.
  - rewrite E_mul, El, Eg. rewrite spow_succ by (clear -Kl; lia). reflexivity.
Qed.
Lemma step_sub k s : (2 <= k)%Z -> (k + 1 < r)%Z -> Inv k s ->
  let '(l, T) := addLine c (snd s) xq (f2_neg c yq) xc yc in Inv (k - 1) (f12_mul_024 c (fst s) l, T).
Proof using HB HPc HQ Rxc Ryc Rxq Ryq.
  intros Kl Kr (v & g & Rv & Hv & Rg & Ng & Eg). destruct s as [f T]. cbn [fst snd] in *.
  change (neg Q) with (@EAff (K2F c) vx (@ropp (K2 c) vy)) in *. pose proof negQ as NQ. change (neg Q) with (@EAff (K2F c) vx (@ropp (K2 c) vy)) in NQ.
  assert (E1 : M k +++ @EAff (K2F c) vx (@ropp (K2 c) vy) = M (k - 1)) by (rewrite NQ, <- M_add'; reflexivity).
  assert (N1 : M k <> @EAff (K2F c) vx (@ropp (K2 c) vy)) by (rewrite NQ; apply M_ne, mod_nz; clear -Kl Kr; lia).
  assert (N2 : M k +++ @EAff (K2F c) vx (@ropp (K2 c) vy) <> EInf) by (rewrite E1; apply M_nz, mod_nz; clear -Kl Kr; lia).
  assert (HN : onT (@EAff (K2F c) vx (@ropp (K2 c) vy))) by (rewrite NQ; apply M_on').
  pose proof (f2_neg_rep c _ _ Ryq) as Rn.
  destruct (add_rep c HB xP yP HPc T v (M k) vx (- vy) xq (f2_neg c yq) xc yc Rv Hv (M_on' k) HN N1 N2 Rxq Rn Rxc Ryc) as (lv & Rl & Nl & El & v' & Rv' & Hv').
  destruct (addLine c T xq (f2_neg c yq) xc yc) as [l T']. cbn [fst snd] in *. exists v', (g * line12 c lv). cbn [fst snd].
  rewrite E1 in Hv'. split; [exact Rv'|]. split; [exact Hv'|]. split; [|split].
  - apply f12_mul_024_rep; assumption.
  - apply mul12_nz; assumption.
  - rewrite E_mul, El, Eg. rewrite spow_pred by (clear -Kl; lia). reflexivity.
Qed.
Local Notation mstep := (miller_step c P xq yq (f2_neg c yq) xc yc).
Lemma step_all k s d : (2 <= k)%Z -> (4 * k + 2 < r)%Z -> (d = -1 \/ d = 0 \/ d = 1)%Z -> Inv k s -> Inv (2 * k + d) (mstep s d).
Proof using HB HP HPc HQ Rxc Ryc Rxq Ryq.
  intros Kl Kr Hd HI. destruct s as [f T]. unfold miller_step. pose proof (step_dbl k (f, T) Kl Kr HI) as S1. cbn [fst snd] in S1.
  destruct (dblLine c P T xc yc) as [l T1]. set (f1 := f12_mul_024 c (f12_square c f) l) in *. clearbody f1.
  destruct Hd as [-> | [-> | ->]].
  - pose proof (step_sub (2 * k) (f1, T1) ltac:(clear -Kl; lia) ltac:(clear -Kl Kr; lia) S1) as S2. cbn [fst snd] in S2.
    change (-1 >? 0) with false. change (-1 <? 0) with true. cbv iota. destruct (addLine c T1 xq (f2_neg c yq) xc yc) as [l2 T2]. exact S2.
  - change (0 >? 0) with false. change (0 <? 0) with false. cbv iota. rewrite Z.add_0_r. exact S1.
  - pose proof (step_add (2 * k) (f1, T1) ltac:(clear -Kl; lia) ltac:(clear -Kl Kr; lia) S1) as S2. cbn [fst snd] in S2.
    change (1 >? 0) with true. cbv iota. destruct (addLine c T1 xq yq xc yc) as [l2 T2]. exact S2.
Qed.
Local Notation run := (fold_left (fun a d => 2 * a + d)%Z).
Lemma run_mono ds : forall k, digits3 ds -> (2 <= k)%Z -> (k <= run ds k)%Z.
Proof using.
  clear. induction ds as [|d ds IH]; intros k Hd Hk; cbn [fold_left]; [lia|]. inversion Hd as [|x y Hx Hy]; subst.
  specialize (IH (2 * k + d)%Z Hy ltac:(lia)). lia.
Qed.
Lemma loop_ok ds : forall k s, digits3 ds -> (2 <= k)%Z -> (4 * run ds k + 2 < r)%Z -> Inv k s -> Inv (run ds k) (fold_left mstep ds s).
Proof using HB HP HPc HQ Rxc Ryc Rxq Ryq.
  induction ds as [|d ds IH]; intros k s Hd Hk Hr HI; cbn [fold_left] in *; [exact HI|]. inversion Hd as [|x y Hx Hy]; subst.
  assert (K1 : (2 <= 2 * k + d)%Z) by (clear -Hx Hk; lia). pose proof (run_mono ds (2 * k + d) Hy K1) as Mo.
  apply IH; [exact Hy|exact K1|exact Hr|]. apply step_all; [exact Hk| |exact Hx|exact HI]. clear -Hx Hk Hr Mo. lia.
Qed.
Lemma spow_two : snd (spow 2 qs) = hP Q Q.
Proof using HB HPc HQ. change 2%nat with (1 + 1)%nat. rewrite spow_add' by exact qs_ok. rewrite spow_1. cbn [Biext.so snd fst]. ring. Qed.
Lemma start_ok : let '(d, T) := dblLine c P (mk3 xq yq (f2_1 c)) xc yc in let '(e, T) := addLine c T xq yq xc yc in Inv 3 (f12_mul_024_024 c d e, T).
Proof using HB HP HPc HQ Rxc Ryc Rxq Ryq.
  pose proof (HQon Q HQ) as OQ. pose proof (r_big_c c) as Rb.
  assert (Rv : repR c (mk3 xq yq (f2_1 c)) (mk3 vx vy 1)) by (split; [exact Rxq|split; [exact Ryq|exact (f2_1_rep_ c)]]).
  assert (Hv : homT c (mk3 vx vy 1) Q).
  { split; [exact (field_nz _ (K2_field c))|]. apply (hom_is (K2F c)); [exact (field_nz _ (K2_field c))|change (vx = @rmul (K2 c) vx 1); ring|change (vy = @rmul (K2 c) vy 1); ring]. }
  destruct (dbl_rep c HB P HP xP yP HPc _ _ Q xc yc Rv Hv OQ Rxc Ryc) as (lv & Rl & Nl & El & v' & Rv' & Hv').
  destruct (dblLine c P (mk3 xq yq (f2_1 c)) xc yc) as [d T]. cbn [fst snd] in *.
  assert (E2 : Q +++ Q = M 2). { change 2%Z with (1 + 1)%Z. rewrite M_add', M_1'. reflexivity. }
  assert (E3 : M 2 +++ Q = M 3). { change 3%Z with (2 + 1)%Z. rewrite M_add', M_1'. reflexivity. }
  rewrite E2 in Hv'. assert (N1 : M 2 <> Q) by (intros F; apply (M_ne 2 1); [apply mod_nz; clear -Rb; lia|]; rewrite F, M_1'; reflexivity).
  assert (N2 : M 2 +++ Q <> EInf) by (rewrite E3; apply M_nz, mod_nz; clear -Rb; lia).
  destruct (add_rep c HB xP yP HPc T v' (M 2) vx vy xq yq xc yc Rv' Hv' (M_on' 2) OQ N1 N2 Rxq Ryq Rxc Ryc) as (lw & Rl2 & Nl2 & El2 & v2 & Rv2 & Hv2).
  destruct (addLine c T xq yq xc yc) as [e T2]. cbn [fst snd] in *. exists v2, (line12 c lv * line12 c lw). cbn [fst snd]. rewrite E3 in Hv2.
  split; [exact Rv2|]. split; [exact Hv2|]. split; [apply f12_mul_024_024_rep; assumption|]. split; [apply mul12_nz; assumption|].
  rewrite E_mul, El, El2. change 3%Z with (2 + 1)%Z. rewrite spow_succ by (clear; lia). change (Z.to_nat 2) with 2%nat. rewrite spow_two. reflexivity.
Qed.
Lemma opp_mul_l (y Z : K2 c) : - (y * Z) = - y * Z. Proof using. ring. Qed.
Lemma opp6_z (y : K6 c) : - y = 0 -> y = 0. Proof using. intros H. transitivity (- - y); [ring|]. rewrite H. ring. Qed.
Lemma conj_nz (x : K12 c) : x <> 0 -> conj12 c x <> 0.
Proof using.
  intros Hx F. apply Hx. destruct x as [xa xb]. unfold conj12 in F. cbn [a2 b2] in F. pose proof (f_equal a2 F) as F1. pose proof (f_equal b2 F) as F2. cbn [a2 b2] in F1, F2.
  apply F2_eq; [exact F1|]. exact (opp6_z xb F2).
Qed.
Lemma hom_negY (v : F3 (K2 c)) A : homT c v A -> homT c (mk3 (a3 v) (- b3 v) (c3 v)) (neg A).
Proof using.
  destruct v as [X Y Z]. intros [H1 H2]. cbn [a3 b3 c3] in *. split; [exact H1|].
  destruct (hom_aff (K2F c) X Y Z H1) as (x & y & Ha & EX & EY). change (hom (K2F c) (mk3 X Y Z) = A) in H2.
  assert (A = EAff x y) as -> by (rewrite <- H2; exact Ha). cbn [ec_neg].
  apply (hom_is (K2F c)); [exact H1|exact EX|]. change (@ropp (K2 c) Y = @rmul (K2 c) (@ropp (K2 c) y) Z). change (Y = @rmul (K2 c) y Z) in EY. rewrite EY. exact (opp_mul_l y Z).
Qed.
Lemma E_conj_vi g : g <> 0 -> E (conj12 c g) = vi (E g).
Proof using.
  clear HB. intros Hg. pose proof (E_conj c g Hg) as H. assert (O : okV (E g)) by exact (E_r c g Hg). pose proof (vi_r (E g) O) as H'.
  transitivity (E (conj12 c g) * (E g * vi (E g))); [rewrite H'; ring|]. transitivity ((E g * E (conj12 c g)) * vi (E g)); [ring|]. rewrite H. ring.
Qed.
Lemma ps_Q : @EAff (K2F c) (fx c vx) (fy c vy) = M p.
Proof using HB HQ. exact (psi_Q Q HQ). Qed.
Lemma ps8_Q : @EAff (K2F c) (fx8 c vx) (fy8 c vy) = neg (psi (psi Q)).
Proof using.
  clear HB. cbn [EcFrob.psi ec_neg]. unfold fx8, fy8. rewrite !fx_fx, !fy_fy. f_equal; [|change (- - - - vy = - (- vy)); ring].
  transitivity (vx * e2 c ((hh c * hh c * hh c) * (hh c * hh c * hh c) * (hh c * hh c))).
  - apply F2_eq; unfold e2; cbn [radd rmul rsub ropp rz ro TowerField.K2 quad qadd qsub qopp qmul q0 q1 a2 b2]; ring.
  - rewrite hh3. f_equal. f_equal. ring.
Qed.
Lemma ps2_Q : psi (psi Q) = M (p * p).
Proof using HB HQ. rewrite (psi_Q Q HQ), (psi_M Q HQ). reflexivity. Qed.
Lemma miller_ok : exists g, rep12 c (miller c P xq yq xc yc) g /\ g <> 0 /\ E g = snd (eP Q).
Proof using HB HP HPc HQ Rxc Ryc Rxq Ryq.
  pose proof (HQon Q HQ) as OQ. destruct (ok_si c P HP) as (S1 & S2 & _). destruct (ok_si2 c P HP) as (ds & Sd).
  pose proof start_ok as S0. unfold miller. destruct (dblLine c P (mk3 xq yq (f2_1 c)) xc yc) as [d T]. destruct (addLine c T xq yq xc yc) as [e T0].
  set (f0 := f12_mul_024_024 c d e) in *. clearbody f0. rewrite Sd in *. cbn [skipn].
  assert (D : digits3 ds) by (inversion S2 as [|x y Hx Hy]; subst; inversion Hy; subst; assumption).
  assert (En : run ds 3%Z = nn) by exact S1.
  assert (HI : Inv nn (fold_left mstep ds (f0, T0))).
  { rewrite <- En. apply loop_ok; [exact D|clear; lia| |exact S0]. rewrite En. exact (r_big_n c HB). }
  destruct (fold_left mstep ds (f0, T0)) as [f T1]. clear S0 En D S1 S2 Sd. rewrite HB.
  destruct (FrobEnd1_rep c P xq yq vx vy HP Rxq Ryq) as [F1 F2]. destruct (FrobEnd1 c P xq yq) as [xq1 yq1]. cbn [fst snd] in F1, F2.
  destruct (FrobEnd8_rep c P xq yq vx vy HP Rxq Ryq) as [F3 F4]. destruct (FrobEnd8 c P xq yq) as [xq2 yq2]. cbn [fst snd] in F3, F4.
  destruct HI as (v & g & Rv & Hv & Rg & Ng & Eg). cbn [fst snd] in *.
  assert (Rv' : repR c (mk3 (a3 T1) (f2_neg c (b3 T1)) (c3 T1)) (mk3 (a3 v) (- b3 v) (c3 v))).
  { destruct Rv as (R1 & R2 & R3). split; [exact R1|]. split; [exact (f2_neg_rep c _ _ R2)|exact R3]. }
  pose proof (hom_negY v _ Hv) as Hv'. rewrite <- M_opp' in Hv'.
  destruct (deg_n c HB) as (D1 & D2 & D3 & D4).
  pose proof ps_Q as EP. assert (OP : onT (@EAff (K2F c) (fx c vx) (fy c vy))) by (rewrite EP; apply M_on').
  destruct (add_rep c HB xP yP HPc _ _ (M (- nn)) (fx c vx) (fy c vy) xq1 yq1 xc yc Rv' Hv' (M_on' _) OP) as (l1 & Rl1 & Nl1 & El1 & v1 & Rv1 & Hv1); try assumption.
  { rewrite EP. apply M_ne, D1. }
  { rewrite EP, <- M_add'. apply M_nz, D2. }
  destruct (addLine c (mk3 (a3 T1) (f2_neg c (b3 T1)) (c3 T1)) xq1 yq1 xc yc) as [d1 T2]. cbn [fst snd] in *.
  rewrite EP, <- M_add' in Hv1. pose proof ps8_Q as EP2. rewrite ps2_Q, <- M_opp' in EP2.
  assert (OP2 : onT (@EAff (K2F c) (fx8 c vx) (fy8 c vy))) by (rewrite EP2; apply M_on').
  destruct (add_rep c HB xP yP HPc _ _ (M (- nn + p)) (fx8 c vx) (fy8 c vy) xq2 yq2 xc yc Rv1 Hv1 (M_on' _) OP2) as (l2 & Rl2 & Nl2 & El2 & v2 & Rv2 & Hv2); try assumption.
  { rewrite EP2. apply M_ne, D3. }
  { rewrite EP2, <- M_add'. apply M_nz, D4. }
  destruct (addLine c T2 xq2 yq2 xc yc) as [d2 T3]. cbn [fst snd] in *.
  exists (conj12 c g * (line12 c l1 * line12 c l2)). split; [|split].
  - apply (f12_mul_rep c (cp_6_c c HB)); [exact (f12_conj_rep c f g Rg)|apply f12_mul_024_024_rep; assumption].
  - apply mul12_nz; [|apply mul12_nz; assumption]. exact (conj_nz g Ng).
  - rewrite !E_mul, El1, El2, E_conj_vi, Eg by exact Ng. unfold eP, epair, Biext.Psi, Biext.sneg. cbn [Biext.so fst snd].
    rewrite (spow_fst' nn (nn_pos c)). rewrite ps2_Q, (psi_Q Q HQ), EP, EP2, <- !M_opp', <- M_add'. unfold qf. rewrite !rpz_one.
    assert (V1 : vi 1 = 1) by apply rpz_one. rewrite V1. ring.
Qed.
End AtQ2.
Lemma eP_fst Q : inG2 Q -> fst (eP Q) = neg (psi (psi (psi Q))).
Proof using HB.
  intros HQ. unfold eP, epair, Biext.Psi, Biext.sneg. cbn [Biext.so fst snd]. rewrite spow_fst.
  pose proof (MA_nat Q HQ nn (nn_pos c)) as E1. rewrite E1. rewrite (psi_Q Q HQ), !(psi_M Q HQ), <- !(MA_opp Q HQ), <- !(MA_add Q HQ).
  apply M_eq. pose proof (ps3_n c HB) as Z3. pose proof (cr_pos c) as R. clear -Z3 R.
  set (x := (- nn + p + - (p * p))%Z) in *. clearbody x. set (y := (p * (p * p))%Z) in *. clearbody y. set (rr := r) in *. clearbody rr.
  apply Z_div_exact_full_2 in Z3; [|lia]. replace x with (- y + ((x + y) / rr) * rr)%Z by lia. apply Z_mod_plus_full.
Qed.
Theorem eP_add Q R : inG2 Q -> inG2 R -> snd (eP (Q +++ R)) = snd (eP Q) * snd (eP R).
Proof using HB HPc.
  intros HQ HR. pose proof (G2_add Q R HQ HR) as HQR.
  exact (epair_add Tw (K12 c) onT (ec_add (K2F c)) neg EInf add_on neg_on I add_assoc add_comm add_O' add_neg' rmul ro vi okV
    vm_assoc vm_comm vm_1 okV_mul okV_1 okV_vi vi_r psi qf (psi_on c) (psi_add c) okV_q qf_mul (Z.to_nat nn) hP hok hcoc hcomm hO hneg hpsi
    Q R (proj1 HQ) (proj1 HR) kill_ok (eP_fst Q HQ) (eP_fst R HR) (eP_fst _ HQR)).
Qed.
Lemma eP_O : snd (eP EInf) = 1.
Proof using HB HPc.
  pose proof (eP_add EInf EInf G2_O G2_O) as H. rewrite add_O' in H.
  assert (O : okV (snd (eP EInf))).
  { exact (proj2 (epair_ok Tw (K12 c) onT (ec_add (K2F c)) neg EInf add_on neg_on I rmul ro vi okV okV_mul okV_1 okV_vi psi qf (psi_on c) okV_q (Z.to_nat nn) hP hok EInf I)). }
  pose proof (vi_r _ O) as V. set (a := snd (eP EInf)) in *. clearbody a. transitivity (a * (a * vi a)); [rewrite V; ring|]. transitivity (a * a * vi a); [ring|]. rewrite <- H. exact V.
Qed.
Lemma eP_ok Q : onT Q -> okV (snd (eP Q)).
Proof using HB HPc.
  intros HQ. exact (proj2 (epair_ok Tw (K12 c) onT (ec_add (K2F c)) neg EInf add_on neg_on I rmul ro vi okV okV_mul okV_1 okV_vi psi qf (psi_on c) okV_q (Z.to_nat nn) hP hok Q HQ)).
Qed.
End AtP.
End Bil.
