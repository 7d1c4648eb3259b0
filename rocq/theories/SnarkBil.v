(** The optimal ate pairing on the SNARK curves is bilinear, as far as the products stay in range: the
    counterpart of PairBil.v for 6z + 2 > 0, on the checked loop of SnarkAte.v. *)
From Coq Require Import ZArith Znumtheory Lia Ring List Bool.
From Verif Require Import Base Prim FpSpec Pock Primes Cfg FpProofs FpM TowerSpec TowerField TowerM Fp2Proofs Fp6Proofs Frob ParamM ParamProofs FinalM FinalProofs TowerApi Poly EcSpec EcGroup EcM EcProofs EcInst EcFrob EcApi EcTors Cocyc SnarkBiext PairM PairProofs PairE PairH PairStep PairBil SnarkRun SnarkPow SnarkFinal SnarkAte.
Import ListNotations.
Local Open Scope Z_scope.

Lemma is_S c : snark c = true -> c = SNARK1 \/ c = SNARK2. Proof. destruct c; auto. discriminate. Qed.
Lemma kill_dvd c : snark c = true -> (nn c + cp c + cp c * cp c * (cr c - 1) + cp c * cp c * cp c) mod cr c = 0.
Proof. intros H. destruct (is_S c H) as [-> | ->]; vm_compute; reflexivity. Qed.
Lemma r_big_n c : 4 * nn c + 2 < cr c. Proof. destruct c; vm_compute; reflexivity. Qed.
Lemma deg_n c : snark c = true -> (nn c - cp c) mod cr c <> 0 /\ (nn c + cp c) mod cr c <> 0 /\
  (nn c + cp c - - (cp c * cp c)) mod cr c <> 0 /\ (nn c + cp c + - (cp c * cp c)) mod cr c <> 0.
Proof. intros H. destruct (is_S c H) as [-> | ->]; repeat split; vm_compute; intros E; discriminate E. Qed.
Lemma ps3_n c : snark c = true -> (nn c + cp c + - (cp c * cp c) + cp c * (cp c * cp c)) mod cr c = 0.
Proof. intros H. destruct (is_S c H) as [-> | ->]; vm_compute; reflexivity. Qed.

Lemma csquare_ok c x y (v : K12 c) : csquare c x = Some y -> rep12 c x v -> y = f12_square c x /\ rep12 c y (rmul v v).
Proof.
  unfold csquare. destruct (in12sqb c x) eqn:E; [|discriminate]. intros H Hx. injection H as <-. split; [reflexivity|].
  apply (f12_square_in c); [|exact Hx]. unfold in12sqb in E. apply andb_true_iff in E as [E1 E2]. split; apply in6b_ok; assumption.
Qed.
Section Bil.
Local Open Scope r_scope.
Variable c : cfg.
Local Notation p := (cp c).
Local Notation r := (cr c).
Add Ring FRb : (rth (FpR (cp c))).
Add Ring KRb : (rth (K2 c)).
Add Ring KR6b : (rth (K6 c)).
Add Ring KR12b : (rth (K12 c)).
Local Notation Tw := (ecpt (K2F c)).
Local Notation onT := (on_curve (K2F c) (cb2 c)).
Local Notation e212 := (e212 c).
Local Notation E := (E c).
Local Notation psi := (psi c).
Local Notation "A +++ B" := (ec_add (K2F c) A B) (at level 50, left associativity).
Local Notation neg := (ec_neg (K2F c)).
Local Notation okV := (PairBil.okV c).
Local Notation vi := (PairBil.vi c).
Local Notation qf := (PairBil.qf c).
Local Notation okV_mul := (PairBil.okV_mul c).
Local Notation okV_1 := (PairBil.okV_1 c).
Local Notation okV_vi := (PairBil.okV_vi c).
Local Notation vi_r := (PairBil.vi_r c).
Local Notation okV_q := (PairBil.okV_q c).
Local Notation qf_mul := (PairBil.qf_mul c).
Local Notation inG2 := (PairBil.inG2 c).
Local Notation G2_add := (PairBil.G2_add c).
Local Notation G2_O := (PairBil.G2_O c).
Local Notation psi_mul := (PairBil.psi_mul c).
Local Notation nn := (nn c).
Hypothesis HB : snark c = true.
Lemma vpow_rpw n a : vpow (K12 c) rmul ro n a = rpw a n.
Proof using. induction n as [|n IH]; [reflexivity|]. cbn [vpow]. rewrite IH, rpw_S. reflexivity. Qed.
Lemma kill_ok a : okV a -> kill (K12 c) rmul ro vi qf (Z.to_nat nn) a = 1.
Proof using HB.
  intros Ha. pose proof (cr_pos c) as R. pose proof (cp_pos c) as Pp. pose proof (nn_pos c) as N. pose proof (kill_dvd c HB) as D.
  unfold kill, PairBil.vi, PairBil.qf. rewrite vpow_rpw. change (rpw a (Z.to_nat nn)) with (rpz a nn).
  clear HB. set (n := nn) in *. clearbody n. set (rr := r) in *. assert (Ra : okV a -> rr = r) by reflexivity. set (pp := p) in *. clearbody pp.
  assert (N1 : (0 <= rr - 1)%Z) by lia. assert (0 <= pp * pp)%Z by nia. assert (0 <= pp * pp * (rr - 1))%Z by nia. assert (0 <= pp * pp * pp)%Z by nia.
  transitivity (rpz a n * rpz a pp * rpz a (pp * pp * (rr - 1)) * rpz a (pp * pp * pp)); [rewrite !rpz_mul by (assumption || lia); reflexivity|].
  rewrite <- !rpz_add by (assumption || lia).
  apply (okV_dvd c); [exact Ha|lia|exact D].
Qed.
(** ** The group G2 *)
Local Notation add_on := (ec_add_on (K2F c) (cb2 c) (two2 c) (three2 c) (cb2_nz c)).
Local Notation add_assoc := (ec_add_assoc (K2F c) (cb2 c) (two2 c) (three2 c) (cb2_nz c)).
Local Notation add_comm := (ec_add_comm (K2F c) (cb2 c) (two2 c) (three2 c) (cb2_nz c)).
Local Notation neg_on := (ec_neg_on (K2F c) (cb2 c)).
Local Notation M := (M (K2F c) r).
Local Notation mulN := (ec_mul (K2F c)).
Section AtQ.
Variable Q : Tw.
Hypothesis HQ : inG2 Q.
Lemma HQon : onT Q. Proof using HQ. exact (proj1 HQ). Qed.
Lemma HQr : mulN (Z.to_nat r) Q = EInf. Proof using HQ. exact (proj1 (proj2 HQ)). Qed.
Local Notation MA L := (L (K2F c) (cb2 c) (two2 c) (three2 c) (cb2_nz c) r (cr_prime c) Q HQon HQr).
Lemma MQ_on a : onT (M Q a). Proof using HQ. exact (M_on (K2F c) (cb2 c) (two2 c) (three2 c) (cb2_nz c) r Q HQon a). Qed.
Lemma psi_M a : psi (M Q a) = M Q (p * a).
Proof using HQ HB.
  pose proof (cr_pos c) as R. pose proof (cp_pos c) as Pp. unfold PairBil.M at 1. rewrite psi_mul by exact HQon. rewrite (proj2 (proj2 HQ)).
  rewrite (MA M_nat) by lia. rewrite (MA M_mul) by (apply Z.mod_pos_bound; exact R). apply M_eq. rewrite Z.mul_mod_idemp_l by lia. rewrite Z.mul_comm. reflexivity.
Qed.
Lemma psi_Q : psi Q = M Q p.
Proof using HQ HB. rewrite <- (M_1 (K2F c) r (cr_prime c) Q) at 1. rewrite psi_M, Z.mul_1_r. reflexivity. Qed.
Lemma MA_nat a : (0 <= a)%Z -> mulN (Z.to_nat a) Q = M Q a. Proof using HQ. exact (MA M_nat a). Qed.
Lemma MA_opp a : M Q (- a) = neg (M Q a). Proof using HQ. exact (MA M_opp a). Qed.
Lemma MA_add a b : M Q (a + b) = M Q a +++ M Q b. Proof using HQ. exact (MA M_add a b). Qed.
End AtQ.
(** ** The Miller loop *)
Section AtP.
Variables xP yP : FpR p.
Hypothesis HPc : yP * yP = xP * xP * xP + mk p (cb c).
Local Notation hP := (hP c xP yP).
Local Notation so := (so Tw (K12 c) (ec_add (K2F c)) rmul hP).
Local Notation spow := (spow Tw (K12 c) (ec_add (K2F c)) EInf rmul ro hP).
Local Notation sneg := (sneg Tw (K12 c) neg vi).
Local Notation Psi := (Psi Tw (K12 c) psi qf).
Local Notation okS := (okS Tw (K12 c) onT okV).
Lemma vm_assoc (a b d : K12 c) : a * b * d = a * (b * d). Proof using. ring. Qed.
Lemma vm_comm (a b : K12 c) : a * b = b * a. Proof using. ring. Qed.
Lemma vm_1 (a : K12 c) : 1 * a = a. Proof using. ring. Qed.
Lemma hok A B : onT A -> onT B -> okV (hP A B). Proof using HB HPc. exact (hP_ok c HB xP yP HPc A B). Qed.
Lemma hcoc A B C : onT A -> onT B -> onT C -> hP A B * hP (A +++ B) C = hP B C * hP A (B +++ C). Proof using HB HPc. exact (hP_coc c HB xP yP HPc A B C). Qed.
Lemma hcomm A B : onT A -> onT B -> hP A B = hP B A. Proof using HPc. exact (hP_comm c xP yP HPc A B). Qed.
Lemma hO A : onT A -> hP EInf A = 1. Proof using HB HPc. intros _. exact (hP_O c HB xP yP HPc A). Qed.
Lemma hneg A : onT A -> hP A (neg A) = 1. Proof using HB HPc. intros _. exact (hP_neg c HB xP yP HPc A). Qed.
Lemma hpsi A B : onT A -> onT B -> hP (psi A) (psi B) = qf (hP A B). Proof using HB HPc. exact (hP_psi c HB xP yP HPc A B). Qed.
Lemma add_neg' (A : Tw) : onT A -> A +++ neg A = EInf. Proof using. intros _. apply ec_add_neg. Qed.
Lemma add_O' (A : Tw) : EInf +++ A = A. Proof using. reflexivity. Qed.
Lemma spow_add' j k s : okS s -> spow (j + k) s = so (spow j s) (spow k s).
Proof using HB HPc.
  exact (spow_add Tw (K12 c) onT (ec_add (K2F c)) EInf add_on I add_assoc add_O' rmul ro okV vm_assoc vm_comm vm_1 okV_mul okV_1 hP hok hcoc hO j k s).
Qed.
Lemma spow_ok' k s : okS s -> okS (spow k s).
Proof using HB HPc. exact (spow_ok Tw (K12 c) onT (ec_add (K2F c)) EInf add_on I rmul ro okV okV_mul okV_1 hP hok k s). Qed.
Lemma sneg_ok' s : okS s -> okS (sneg s). Proof using. exact (sneg_ok Tw (K12 c) onT neg neg_on vi okV okV_vi s). Qed.
Lemma so_comm' s t : okS s -> okS t -> so s t = so t s. Proof using HPc. exact (so_comm Tw (K12 c) onT (ec_add (K2F c)) add_comm rmul okV vm_comm hP hcomm s t). Qed.
Lemma so_assoc' s t u : okS s -> okS t -> okS u -> so (so s t) u = so s (so t u).
Proof using HB HPc. exact (so_assoc Tw (K12 c) onT (ec_add (K2F c)) add_assoc rmul okV vm_assoc vm_comm hP hcoc s t u). Qed.
Lemma so_neg' s : okS s -> so s (sneg s) = (EInf, 1). Proof using HB HPc. exact (so_neg Tw (K12 c) onT (ec_add (K2F c)) neg EInf add_neg' rmul ro vi okV vm_1 vi_r hP hneg s). Qed.
Lemma so_e' s : okS s -> so (EInf, 1) s = s. Proof using HB HPc. exact (so_e Tw (K12 c) onT (ec_add (K2F c)) EInf add_O' rmul ro okV vm_comm vm_1 hP hO s). Qed.
Lemma spow_fst k A a : fst (spow k (A, a)) = mulN k A.
Proof using. induction k as [|k IH]; [reflexivity|]. cbn [SnarkBiext.spow SnarkBiext.so fst ec_mul]. rewrite IH. reflexivity. Qed.
Definition eP (Q : Tw) : Tw * K12 c := epair Tw (K12 c) (ec_add (K2F c)) neg EInf rmul ro vi psi qf (Z.to_nat nn) hP Q.
Section AtQ2.
Variable P : param.
Hypothesis HP : par_ok c P.
Variables vx vy : K2 c.
Local Notation Q := (@EAff (K2F c) vx vy).
Hypothesis HQ : inG2 Q.
Variables (xq yq : fp2) (xc yc : Z).
Hypothesis Rxq : rep2 c xq vx.
Hypothesis Ryq : rep2 c yq vy.
Hypothesis Rxc : rep1 c xc xP.
Hypothesis Ryc : rep1 c yc yP.
Local Notation MA L := (L (K2F c) (cb2 c) (two2 c) (three2 c) (cb2_nz c) r (cr_prime c) Q (HQon Q HQ) (HQr Q HQ)).
Local Notation M := (PairBil.M (K2F c) r Q).
Lemma M_on' a : onT (M a). Proof using HQ. exact (MQ_on Q HQ a). Qed.
Lemma M_1' : M 1 = Q. Proof using. exact (M_1 (K2F c) r (cr_prime c) Q). Qed.
Lemma M_add' a b : M (a + b) = M a +++ M b. Proof using HQ. exact (MA M_add a b). Qed.
Lemma M_opp' a : M (- a) = neg (M a). Proof using HQ. exact (MA M_opp a). Qed.
Lemma M_nz a : (a mod r <> 0)%Z -> M a <> EInf.
Proof using HQ. intros H F. apply H. apply (MA M_inj); [discriminate|exact F]. Qed.
Lemma M_ne a b : ((a - b) mod r <> 0)%Z -> M a <> M b.
Proof using HQ. intros H. apply (MA M_neq); [discriminate|exact H]. Qed.
Lemma negQ : neg Q = M (-1). Proof using HQ. change (-1)%Z with (- (1))%Z. rewrite M_opp', M_1'. reflexivity. Qed.
Local Notation qs := ((Q, 1) : Tw * K12 c).
Lemma qs_ok : okS qs. Proof using HQ. split; [exact (HQon Q HQ)|exact okV_1]. Qed.
(** the state of the loop after the digits of k *)
Definition Inv (k : Z) (s : fp12 * F3 fp2) : Prop :=
  exists v g, repR c (snd s) v /\ homT c v (M k) /\ rep12 c (fst s) g /\ g <> 0 /\ E g = snd (spow (Z.to_nat k) qs).
Lemma spow_fst' k : (0 <= k)%Z -> fst (spow (Z.to_nat k) qs) = M k.
Proof using HQ. intros Hk. rewrite spow_fst. exact (MA M_nat k Hk). Qed.
Lemma spow_eta k : (0 <= k)%Z -> spow (Z.to_nat k) qs = (M k, snd (spow (Z.to_nat k) qs)).
Proof using HQ. intros Hk. rewrite <- (spow_fst' k Hk). apply surjective_pairing. Qed.
Lemma spow_dbl k : (0 <= k)%Z -> snd (spow (Z.to_nat (2 * k)) qs) = snd (spow (Z.to_nat k) qs) * snd (spow (Z.to_nat k) qs) * hP (M k) (M k).
Proof using HB HPc HQ.
  intros Hk. replace (Z.to_nat (2 * k)) with (Z.to_nat k + Z.to_nat k)%nat by (clear -Hk; lia). rewrite spow_add' by exact qs_ok.
  rewrite (spow_eta k Hk) at 1 2. reflexivity.
Qed.
Lemma spow_1 : spow 1 qs = qs.
Proof using HB HPc HQ. cbn [SnarkBiext.spow]. rewrite so_comm'; [apply so_e'; exact qs_ok|exact qs_ok|split; [exact I|exact okV_1]]. Qed.
Lemma spow_succ k : (0 <= k)%Z -> snd (spow (Z.to_nat (k + 1)) qs) = snd (spow (Z.to_nat k) qs) * hP (M k) Q.
Proof using HB HPc HQ.
  intros Hk. replace (Z.to_nat (k + 1)) with (Z.to_nat k + 1)%nat by (clear -Hk; lia). rewrite spow_add' by exact qs_ok. rewrite spow_1.
  rewrite (spow_eta k Hk) at 1. cbn [SnarkBiext.so snd fst]. ring.
Qed.
Lemma spow_pred k : (1 <= k)%Z -> snd (spow (Z.to_nat (k - 1)) qs) = snd (spow (Z.to_nat k) qs) * hP (M k) (neg Q).
Proof using HB HPc HQ.
  intros Hk. replace (Z.to_nat k) with (Z.to_nat (k - 1) + 1)%nat by (clear -Hk; lia). rewrite spow_add' by exact qs_ok. rewrite spow_1.
  set (s := spow (Z.to_nat (k - 1)) qs). assert (Os : okS s) by (apply spow_ok', qs_ok).
  assert (Es : so (so s qs) (sneg qs) = s).
  { rewrite so_assoc' by auto using qs_ok, sneg_ok'. rewrite so_neg' by exact qs_ok. rewrite so_comm'; [apply so_e'; exact Os|exact Os|split; [exact I|exact okV_1]]. }
  rewrite <- Es at 1. unfold SnarkBiext.sneg. cbn [SnarkBiext.so snd fst]. assert (F : fst s +++ Q = M k).
  { unfold s. rewrite spow_fst' by (clear -Hk; lia). transitivity (M (k - 1) +++ M 1); [rewrite M_1'; reflexivity|]. rewrite <- M_add'. f_equal. clear. lia. }
  assert (V : vi 1 = 1) by (apply rpz_one). rewrite V, F. ring.
Qed.
Lemma step_dbl k s f2 : (2 <= k)%Z -> (4 * k + 2 < r)%Z -> Inv k s -> csquare c (fst s) = Some f2 ->
  f2 = f12_square c (fst s) /\ let '(l, T) := dblLine c P (snd s) xc yc in Inv (2 * k) (f12_mul_024 c f2 l, T).
Proof using HB HP HPc HQ Rxc Ryc.
  intros Kl Kr (v & g & Rv & Hv & Rg & Ng & Eg) Cs. destruct s as [f T]. cbn [fst snd] in *.
  destruct (csquare_ok c f f2 g Cs Rg) as [Ef Rf]. split; [exact Ef|].
  destruct (dbl_rep c HB P HP xP yP HPc T v (M k) xc yc Rv Hv (M_on' k) Rxc Ryc) as (lv & Rl & Nl & El & v' & Rv' & Hv').
  destruct (dblLine c P T xc yc) as [l T']. cbn [fst snd] in *. exists v', (g * g * line12 c lv). cbn [fst snd].
  split; [exact Rv'|]. split.
  - replace (2 * k)%Z with (k + k)%Z by (clear; lia). rewrite M_add'. exact Hv'.
  - split; [|split].
    + apply f12_mul_024_rep; [|exact Rl]. exact Rf.
    + apply mul12_nz; [apply mul12_nz; assumption|exact Nl].
    + rewrite !E_mul, El, Eg. rewrite spow_dbl by (clear -Kl; lia). reflexivity.
Qed.
Lemma mod_nz a : (0 < a < r)%Z -> (a mod r <> 0)%Z. Proof using. clear. intros H. rewrite Z.mod_small by lia. lia. Qed.
Lemma step_add k s : (2 <= k)%Z -> (k + 1 < r)%Z -> Inv k s ->
  let '(l, T) := addLine c (snd s) xq yq xc yc in Inv (k + 1) (f12_mul_024 c (fst s) l, T).
Proof using HB HPc HQ Rxc Ryc Rxq Ryq.
  intros Kl Kr (v & g & Rv & Hv & Rg & Ng & Eg). destruct s as [f T]. cbn [fst snd] in *.
  assert (E1 : M k +++ Q = M (k + 1)) by (rewrite M_add', M_1'; reflexivity).
  assert (N1 : M k <> Q) by (intros F; apply (M_ne k 1); [apply mod_nz; clear -Kl Kr; lia|]; rewrite F, M_1'; reflexivity).
  assert (N2 : M k +++ Q <> EInf) by (rewrite E1; apply M_nz, mod_nz; clear -Kl Kr; lia).
  destruct (add_rep c HB xP yP HPc T v (M k) vx vy xq yq xc yc Rv Hv (M_on' k) (HQon Q HQ) N1 N2 Rxq Ryq Rxc Ryc) as (lv & Rl & Nl & El & v' & Rv' & Hv').
  destruct (addLine c T xq yq xc yc) as [l T']. cbn [fst snd] in *. exists v', (g * line12 c lv). cbn [fst snd].
  rewrite E1 in Hv'. split; [exact Rv'|]. split; [exact Hv'|]. split; [|split].
  - apply f12_mul_024_rep; assumption.
  - apply mul12_nz; assumption.
  - rewrite E_mul, El, Eg. rewrite spow_succ by (clear -Kl; lia). reflexivity.
Qed.
Lemma step_sub k s : (2 <= k)%Z -> (k + 1 < r)%Z -> Inv k s ->
  let '(l, T) := addLine c (snd s) xq (f2_neg c yq) xc yc in Inv (k - 1) (f12_mul_024 c (fst s) l, T).
Proof using HB HPc HQ Rxc Ryc Rxq Ryq.
  intros Kl Kr (v & g & Rv & Hv & Rg & Ng & Eg). destruct s as [f T]. cbn [fst snd] in *.
  change (neg Q) with (@EAff (K2F c) vx (@ropp (K2 c) vy)) in *. pose proof negQ as NQ. change (neg Q) with (@EAff (K2F c) vx (@ropp (K2 c) vy)) in NQ.
  assert (E1 : M k +++ @EAff (K2F c) vx (@ropp (K2 c) vy) = M (k - 1)) by (rewrite NQ, <- M_add'; reflexivity).
  assert (N1 : M k <> @EAff (K2F c) vx (@ropp (K2 c) vy)) by (rewrite NQ; apply M_ne, mod_nz; clear -Kl Kr; lia).
  assert (N2 : M k +++ @EAff (K2F c) vx (@ropp (K2 c) vy) <> EInf) by (rewrite E1; apply M_nz, mod_nz; clear -Kl Kr; lia).
  assert (HN : onT (@EAff (K2F c) vx (@ropp (K2 c) vy))) by (rewrite NQ; apply M_on').
  pose proof (f2_neg_rep c _ _ Ryq) as Rn.
  destruct (add_rep c HB xP yP HPc T v (M k) vx (- vy) xq (f2_neg c yq) xc yc Rv Hv (M_on' k) HN N1 N2 Rxq Rn Rxc Ryc) as (lv & Rl & Nl & El & v' & Rv' & Hv').
  destruct (addLine c T xq (f2_neg c yq) xc yc) as [l T']. cbn [fst snd] in *. exists v', (g * line12 c lv). cbn [fst snd].
  rewrite E1 in Hv'. split; [exact Rv'|]. split; [exact Hv'|]. split; [|split].
  - apply f12_mul_024_rep; assumption.
  - apply mul12_nz; assumption.
  - rewrite E_mul, El, Eg. rewrite spow_pred by (clear -Kl; lia). reflexivity.
Qed.
Local Notation mstep := (miller_step c P xq yq (f2_neg c yq) xc yc).
Local Notation cstep := (cmstep c P xq yq (f2_neg c yq) xc yc).
Local Notation crun := (cmrun c P xq yq (f2_neg c yq) xc yc).
Lemma step_all k s d s' : (2 <= k)%Z -> (4 * k + 2 < r)%Z -> (d = -1 \/ d = 0 \/ d = 1)%Z -> Inv k s -> cstep s d = Some s' -> s' = mstep s d /\ Inv (2 * k + d) s'.
Proof using HB HP HPc HQ Rxc Ryc Rxq Ryq.
  intros Kl Kr Hd HI. destruct s as [f T]. unfold miller_step, cmstep. pose proof (fun f2 => step_dbl k (f, T) f2 Kl Kr HI) as S1. cbn [fst snd] in S1.
  destruct (dblLine c P T xc yc) as [l T1]. destruct (csquare c f) as [f2|]; [|discriminate]. destruct (S1 f2 eq_refl) as [<- S1']. clear S1.
  set (f1 := f12_mul_024 c f2 l) in *. clearbody f1.
  destruct Hd as [-> | [-> | ->]].
  - pose proof (step_sub (2 * k) (f1, T1) ltac:(clear -Kl; lia) ltac:(clear -Kl Kr; lia) S1') as S2. cbn [fst snd] in S2.
    change (-1 >? 0) with false. change (-1 <? 0) with true. cbv iota. destruct (addLine c T1 xq (f2_neg c yq) xc yc) as [l2 T2]. intros H. injection H as <-. split; [reflexivity|exact S2].
  - change (0 >? 0) with false. change (0 <? 0) with false. cbv iota. rewrite Z.add_0_r. intros H. injection H as <-. split; [reflexivity|exact S1'].
  - pose proof (step_add (2 * k) (f1, T1) ltac:(clear -Kl; lia) ltac:(clear -Kl Kr; lia) S1') as S2. cbn [fst snd] in S2.
    change (1 >? 0) with true. cbv iota. destruct (addLine c T1 xq yq xc yc) as [l2 T2]. intros H. injection H as <-. split; [reflexivity|exact S2].
Qed.
Local Notation run := (fold_left (fun a d => 2 * a + d)%Z).
Lemma run_mono ds : forall k, digits3 ds -> (2 <= k)%Z -> (k <= run ds k)%Z.
Proof using.
  clear. induction ds as [|d ds IH]; intros k Hd Hk; cbn [fold_left]; [lia|]. inversion Hd as [|x y Hx Hy]; subst.
  specialize (IH (2 * k + d)%Z Hy ltac:(lia)). lia.
Qed.
Lemma loop_ok ds : forall k s s', digits3 ds -> (2 <= k)%Z -> (4 * run ds k + 2 < r)%Z -> Inv k s -> crun ds s = Some s' ->
  s' = fold_left mstep ds s /\ Inv (run ds k) s'.
Proof using HB HP HPc HQ Rxc Ryc Rxq Ryq.
  induction ds as [|d ds IH]; intros k s s' Hd Hk Hr HI C; cbn [fold_left cmrun] in *; [injection C as <-; split; [reflexivity|exact HI]|]. inversion Hd as [|x y Hx Hy]; subst.
  assert (K1 : (2 <= 2 * k + d)%Z) by (clear -Hx Hk; lia). pose proof (run_mono ds (2 * k + d) Hy K1) as Mo.
  destruct (cstep s d) as [s1|] eqn:E1; [|discriminate C].
  destruct (step_all k s d s1 Hk ltac:(clear -Hx Hk Hr Mo; lia) Hx HI E1) as [-> I1].
  exact (IH (2 * k + d)%Z _ s' Hy K1 Hr I1 C).
Qed.
Lemma spow_two : snd (spow 2 qs) = hP Q Q.
Proof using HB HPc HQ. change 2%nat with (1 + 1)%nat. rewrite spow_add' by exact qs_ok. rewrite spow_1. cbn [SnarkBiext.so snd fst]. ring. Qed.
Lemma start_ok : let '(d, T) := dblLine c P (mk3 xq yq (f2_1 c)) xc yc in let '(e, T) := addLine c T xq yq xc yc in Inv 3 (f12_mul_024_024 c d e, T).
Proof using HB HP HPc HQ Rxc Ryc Rxq Ryq.
  pose proof (HQon Q HQ) as OQ. pose proof (r_big_c c) as Rb.
  assert (Rv : repR c (mk3 xq yq (f2_1 c)) (mk3 vx vy 1)) by (split; [exact Rxq|split; [exact Ryq|exact (f2_1_rep_ c)]]).
  assert (Hv : homT c (mk3 vx vy 1) Q).
  { split; [exact (field_nz _ (K2_field c))|]. apply (hom_is (K2F c)); [exact (field_nz _ (K2_field c))|change (vx = @rmul (K2 c) vx 1); ring|change (vy = @rmul (K2 c) vy 1); ring]. }
  destruct (dbl_rep c HB P HP xP yP HPc _ _ Q xc yc Rv Hv OQ Rxc Ryc) as (lv & Rl & Nl & El & v' & Rv' & Hv').
  destruct (dblLine c P (mk3 xq yq (f2_1 c)) xc yc) as [d T]. cbn [fst snd] in *.
  assert (E2 : Q +++ Q = M 2). { change 2%Z with (1 + 1)%Z. rewrite M_add', M_1'. reflexivity. }
  assert (E3 : M 2 +++ Q = M 3). { change 3%Z with (2 + 1)%Z. rewrite M_add', M_1'. reflexivity. }
  rewrite E2 in Hv'. assert (N1 : M 2 <> Q) by (intros F; apply (M_ne 2 1); [apply mod_nz; clear -Rb; lia|]; rewrite F, M_1'; reflexivity).
  assert (N2 : M 2 +++ Q <> EInf) by (rewrite E3; apply M_nz, mod_nz; clear -Rb; lia).
  destruct (add_rep c HB xP yP HPc T v' (M 2) vx vy xq yq xc yc Rv' Hv' (M_on' 2) OQ N1 N2 Rxq Ryq Rxc Ryc) as (lw & Rl2 & Nl2 & El2 & v2 & Rv2 & Hv2).
  destruct (addLine c T xq yq xc yc) as [e T2]. cbn [fst snd] in *. exists v2, (line12 c lv * line12 c lw). cbn [fst snd]. rewrite E3 in Hv2.
  split; [exact Rv2|]. split; [exact Hv2|]. split; [apply f12_mul_024_024_rep; assumption|]. split; [apply mul12_nz; assumption|].
  rewrite E_mul, El, El2. change 3%Z with (2 + 1)%Z. rewrite spow_succ by (clear; lia). change (Z.to_nat 2) with 2%nat. rewrite spow_two. reflexivity.
Qed.
Lemma ps_Q : @EAff (K2F c) (fx c vx) (fy c vy) = M p.
Proof using HB HQ. exact (psi_Q Q HQ). Qed.
Lemma ps2_Q : psi (psi Q) = M (p * p).
Proof using HB HQ. rewrite (psi_Q Q HQ), (psi_M Q HQ). reflexivity. Qed.
Lemma psn_Q : @EAff (K2F c) (fx c (fx c vx)) (- fy c (fy c vy)) = M (- (p * p)).
Proof using HB HQ. rewrite M_opp', <- ps2_Q. reflexivity. Qed.
Lemma miller_ok f' : cmiller c P xq yq xc yc = Some f' -> miller c P xq yq xc yc = f' /\ exists g, rep12 c f' g /\ g <> 0 /\ E g = snd (eP Q).
Proof using HB HP HPc HQ Rxc Ryc Rxq Ryq.
  pose proof (HQon Q HQ) as OQ. destruct (ok_si c P HP) as (S1 & S2 & _). destruct (ok_si2 c P HP) as (ds & Sd).
  pose proof start_ok as S0. unfold miller, cmiller. destruct (dblLine c P (mk3 xq yq (f2_1 c)) xc yc) as [d T]. destruct (addLine c T xq yq xc yc) as [e T0].
  set (f0 := f12_mul_024_024 c d e) in *. clearbody f0. rewrite Sd in *. cbn [skipn].
  assert (D : digits3 ds) by (inversion S2 as [|x y Hx Hy]; subst; inversion Hy; subst; assumption).
  assert (En : run ds 3%Z = nn) by exact S1.
  destruct (crun ds (f0, T0)) as [[f T1]|] eqn:EC; [|discriminate].
  destruct (loop_ok ds 3%Z (f0, T0) (f, T1) D ltac:(clear; lia) ltac:(rewrite En; exact (r_big_n c)) S0 EC) as [EL HI].
  rewrite <- EL. rewrite En in HI. clear S0 En D S1 S2 Sd EC EL. rewrite HB.
  destruct (FrobEnd1_rep c P xq yq vx vy HP Rxq Ryq) as [F1 F2]. destruct (FrobEnd1 c P xq yq) as [xq1 yq1]. cbn [fst snd] in F1, F2.
  destruct (FrobEnd2_rep c P xq yq vx vy HP Rxq Ryq) as [F3 F4]. destruct (FrobEnd2 c P xq yq) as [xq2 yq2]. cbn [fst snd] in F3, F4.
  apply (f2_neg_rep c) in F4.
  destruct HI as (v & g & Rv & Hv & Rg & Ng & Eg). cbn [fst snd] in *.
  destruct (deg_n c HB) as (D1 & D2 & D3 & D4).
  pose proof ps_Q as EP. assert (OP : onT (@EAff (K2F c) (fx c vx) (fy c vy))) by (rewrite EP; apply M_on').
  destruct (add_rep c HB xP yP HPc _ _ (M nn) (fx c vx) (fy c vy) xq1 yq1 xc yc Rv Hv (M_on' _) OP) as (l1 & Rl1 & Nl1 & El1 & v1 & Rv1 & Hv1); try assumption.
  { rewrite EP. apply M_ne, D1. }
  { rewrite EP, <- M_add'. apply M_nz, D2. }
  destruct (addLine c T1 xq1 yq1 xc yc) as [d1 T2]. cbn [fst snd] in *.
  rewrite EP, <- M_add' in Hv1. pose proof psn_Q as EP2.
  assert (OP2 : onT (@EAff (K2F c) (fx c (fx c vx)) (- fy c (fy c vy)))) by (rewrite EP2; apply M_on').
  destruct (add_rep c HB xP yP HPc _ _ (M (nn + p)) (fx c (fx c vx)) (- fy c (fy c vy)) xq2 (f2_neg c yq2) xc yc Rv1 Hv1 (M_on' _) OP2) as (l2 & Rl2 & Nl2 & El2 & v2 & Rv2 & Hv2); try assumption.
  { rewrite EP2. apply M_ne, D3. }
  { rewrite EP2, <- M_add'. apply M_nz, D4. }
  destruct (addLine c T2 xq2 (f2_neg c yq2) xc yc) as [d2 T3]. cbn [fst snd] in *.
  intros Cm. destruct (cmul_ok c f _ f' g (line12 c l1 * line12 c l2) Cm Rg ltac:(apply f12_mul_024_024_rep; assumption)) as [-> Rf].
  split; [reflexivity|].
  exists (g * (line12 c l1 * line12 c l2)). split; [exact Rf|split].
  - apply mul12_nz; [exact Ng|apply mul12_nz; assumption].
  - rewrite !E_mul, El1, El2, Eg. unfold eP, epair, SnarkBiext.Psi, SnarkBiext.sneg. cbn [SnarkBiext.so fst snd].
    rewrite (spow_fst' nn (nn_pos c)). rewrite ps2_Q, (psi_Q Q HQ), EP, EP2, <- !M_opp', <- M_add'. unfold PairBil.qf. rewrite !rpz_one.
    assert (V1 : vi 1 = 1) by apply rpz_one. rewrite V1. ring.
Qed.
End AtQ2.
Lemma eP_fst Q : inG2 Q -> fst (eP Q) = neg (psi (psi (psi Q))).
Proof using HB.
  intros HQ. unfold eP, epair, SnarkBiext.Psi, SnarkBiext.sneg. cbn [SnarkBiext.so fst snd]. rewrite spow_fst.
  pose proof (MA_nat Q HQ nn (nn_pos c)) as E1. rewrite E1. rewrite (psi_Q Q HQ), !(psi_M Q HQ), <- !(MA_opp Q HQ), <- !(MA_add Q HQ).
  apply M_eq. pose proof (ps3_n c HB) as Z3. pose proof (cr_pos c) as R. clear -Z3 R.
  set (x := (nn + p + - (p * p))%Z) in *. clearbody x. set (y := (p * (p * p))%Z) in *. clearbody y. set (rr := r) in *. clearbody rr.
  apply Z_div_exact_full_2 in Z3; [|lia]. replace x with (- y + ((x + y) / rr) * rr)%Z by lia. apply Z_mod_plus_full.
Qed.
Theorem eP_add Q R : inG2 Q -> inG2 R -> snd (eP (Q +++ R)) = snd (eP Q) * snd (eP R).
Proof using HB HPc.
  intros HQ HR. pose proof (G2_add Q R HQ HR) as HQR.
  exact (epair_add Tw (K12 c) onT (ec_add (K2F c)) neg EInf add_on neg_on I add_assoc add_comm add_O' add_neg' rmul ro vi okV
    vm_assoc vm_comm vm_1 okV_mul okV_1 okV_vi vi_r psi qf (psi_on c) (psi_add c) okV_q qf_mul (Z.to_nat nn) hP hok hcoc hcomm hO hneg hpsi
    Q R (proj1 HQ) (proj1 HR) kill_ok (eP_fst Q HQ) (eP_fst R HR) (eP_fst _ HQR)).
Qed.
Lemma eP_O : snd (eP EInf) = 1.
Proof using HB HPc.
  pose proof (eP_add EInf EInf G2_O G2_O) as H. rewrite add_O' in H.
  assert (O : okV (snd (eP EInf))).
  { exact (proj2 (epair_ok Tw (K12 c) onT (ec_add (K2F c)) neg EInf add_on neg_on I rmul ro vi okV okV_mul okV_1 okV_vi psi qf (psi_on c) okV_q (Z.to_nat nn) hP hok EInf I)). }
  pose proof (vi_r _ O) as V. set (a := snd (eP EInf)) in *. clearbody a. transitivity (a * (a * vi a)); [rewrite V; ring|]. transitivity (a * a * vi a); [ring|]. rewrite <- H. exact V.
Qed.
Lemma eP_ok Q : onT Q -> okV (snd (eP Q)).
Proof using HB HPc.
  intros HQ. exact (proj2 (epair_ok Tw (K12 c) onT (ec_add (K2F c)) neg EInf add_on neg_on I rmul ro vi okV okV_mul okV_1 okV_vi psi qf (psi_on c) okV_q (Z.to_nat nn) hP hok Q HQ)).
Qed.
End AtP.
End Bil.
