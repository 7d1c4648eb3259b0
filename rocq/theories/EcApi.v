(** Glue for P_Ec.v: scalars, sequences of point operations, witnesses. *)
From Coq Require Import ZArith Znumtheory Lia List Bool.
From Verif Require Import Base Prim PrimProofs Loop Vuint VuintProofs Power FpSpec Cfg FpM FpProofs TowerSpec TowerField TowerM Fp2Proofs Frob ParamM ParamProofs TowerApi Poly EcSpec EcGroup EcM EcProofs EcInst EcFrob.
Import ListNotations.
Local Open Scope Z_scope.

(** A program: a sequence of calls of the point API on the objects Obj 0, Obj 1, ... *)
Inductive ecall :=
| CAdd (o a b : nat) | CDbl (o a : nat) | CNeg (o a : nat) | CSub (o a b : nat)
| CMul (o a : nat) (k : vuint) | CNorm (o : nat) | CEq (a b : nat).
(** EcT::add, dbl, neg, sub, mul, normalize, operator== (bn.h:2827-2838, 2861-2905) *)
Definition run1 (O : fops) (i : ecall) (m : mem O) : res (mem O) :=
  match i with
  | CAdd o a b => Ok (ECAdd O m (Obj o) (Obj a) (Obj b))
  | CDbl o a => Ok (ECDouble O m (Obj o) (Obj a))
  | CNeg o a => Ok (ec_neg_m O m (Obj o) (Obj a))
  | CSub o a b => Ok (ec_sub_m O m (Obj o) (Obj a) (Obj b))
  | CMul o a k => ScalarMult_v O m (Obj o) (Obj a) k
  | CNorm o => ec_normalize O m (Obj o)
  | CEq a b => let! r := ec_eq O m (Obj a) (Obj b) in Ok (snd r)
  end.
Fixpoint runs (O : fops) (l : list ecall) (m : mem O) : res (mem O) :=
  match l with [] => Ok m | i :: l => let! m := run1 O i m in runs O l m end.
(** The same program on points. *)
Definition spec1 (K : fld) (i : ecall) (s : nat -> ecpt K) : nat -> ecpt K :=
  let set o P := fun n => if Nat.eqb n o then P else s n in
  match i with
  | CAdd o a b => set o (ec_add K (s a) (s b))
  | CDbl o a => set o (ec_add K (s a) (s a))
  | CNeg o a => set o (ec_neg K (s a))
  | CSub o a b => set o (ec_add K (s a) (ec_neg K (s b)))
  | CMul o a k => set o (ec_mulz K (lv k) (s a))
  | CNorm _ | CEq _ _ => s
  end.
Definition specs (K : fld) (l : list ecall) (s : nat -> ecpt K) : nat -> ecpt K := fold_left (fun s i => spec1 K i s) l s.
Definition scal_ok (i : ecall) : Prop := match i with CMul _ _ k => vwf k | _ => True end.

Lemma hv_lv k : hv 64 0 (rev k) = lv k.
Proof.
  unfold hv. rewrite <- fold_left_rev_right, rev_involutive. change (2 ^ Z.of_nat 64) with B. induction k as [|x k IH]; [reflexivity|]. cbn [fold_right lv]. rewrite IH. lia.
Qed.
Section EcApi.
Variables (O : fops) (K : fld) (X : fimpl O K) (b : K).
Hypothesis H2 : radd ro ro <> (rz : K).
Hypothesis H3 : radd (radd ro ro) ro <> (rz : K).
Hypothesis Hb : b <> rz.
Local Notation okp := (okp O K X). Local Notation pt := (pt O K X). Local Notation den := (den O K X).
Local Notation onc := (on_curve K b).

Lemma veq0 k : vwf k -> veq k (vset 0) = (lv k =? 0).
Proof.
  intros Hk. unfold veq. rewrite vcompare_spec; [|exact Hk|]. 2:{ apply vset_vwf. pose proof B_val. unfold isU. lia. }
  unfold vset. cbn [lv]. rewrite Z.mul_0_r, Z.add_0_r. rewrite Z.eqb_compare. destruct (lv k ?= 0); reflexivity.
Qed.
Lemma ScalarMult_v_ok (m : mem O) o i k : vwf k -> i <> Loc 1 -> o <> Loc 1 -> okp (m i) -> onc (pt (m i)) ->
  exists m', ScalarMult_v O m o i k = Ok m' /\ den (m' o) (ec_mulz K (lv k) (pt (m i))) /\ (forall q, o <> q -> Loc 1 <> q -> m' q = m q).
Proof.
  intros Hk Hi Ho Hok HP. unfold ScalarMult_v. rewrite (veq0 k Hk). destruct Hk as (Hl & Hn & Ht). destruct (Z.eqb_spec (lv k) 0) as [E|N].
  - rewrite E, mulz_0. destruct (ScalarMult_0 O K X 64 m o i k) as (m' & E' & D & F). exists m'. split; [exact E'|]. split; [exact D|]. intros q Hq _. apply F, Hq.
  - rewrite <- (hv_lv k). apply (ScalarMult_ok O K X b H2 H3 Hb 64 m o i k); try assumption; [lia|].
    destruct (rev k) as [|v l] eqn:E. { assert (k = []) by (rewrite <- (rev_involutive k), E; reflexivity). subst k. cbn in Hn. lia. }
    exists v, l. split; [reflexivity|]. intros ->. assert (Ek : k = rev l ++ [0]) by (rewrite <- (rev_involutive k), E; reflexivity).
    destruct Ht as [H1|H1].
    + apply N. rewrite Ek in H1 |- *. rewrite app_length in H1. cbn in H1. destruct (rev l); [reflexivity|cbn in H1; lia].
    + apply H1. rewrite Ek. apply last_last.
Qed.
Lemma ScalarMult_size_ok (m : mem O) o i k : 0 <= k < 2 ^ 64 -> i <> Loc 1 -> o <> Loc 1 -> okp (m i) -> onc (pt (m i)) ->
  exists m', ScalarMult_size O m o i k = Ok m' /\ den (m' o) (ec_mulz K k (pt (m i))) /\ (forall q, o <> q -> Loc 1 <> q -> m' q = m q).
Proof.
  intros Hk Hi Ho Hok HP. unfold ScalarMult_size. destruct (Z.eqb_spec k 0) as [E|N].
  - rewrite E, mulz_0. destruct (ScalarMult_0 O K X 64 m o i [k]) as (m' & E' & D & F). exists m'. rewrite <- E. split; [exact E'|]. split; [exact D|]. intros q Hq _. apply F, Hq.
  - pose proof (ScalarMult_ok O K X b H2 H3 Hb 64 m o i [k]) as R. cbn [rev app hv fold_left] in R. apply R; try assumption; [lia|constructor; [exact Hk|constructor]|]. exists k, []. auto.
Qed.
Lemma ScalarMult_int_ok (m : mem O) o i k : - 2 ^ 31 <= k < 2 ^ 31 -> i <> Loc 1 -> o <> Loc 1 -> okp (m i) -> onc (pt (m i)) ->
  exists m', ScalarMult_int O m o i k = Ok m' /\ den (m' o) (ec_mulz K (k mod 2 ^ 32) (pt (m i))) /\ (forall q, o <> q -> Loc 1 <> q -> m' q = m q).
Proof.
  intros Hk Hi Ho Hok HP. unfold ScalarMult_int. destruct (Z.eqb_spec k 0) as [E|N].
  - rewrite E. change (0 mod 2 ^ 32) with 0. rewrite mulz_0. destruct (ScalarMult_0 O K X 32 m o i [0]) as (m' & E' & D & F). exists m'. split; [exact E'|]. split; [exact D|]. intros q Hq _. apply F, Hq.
  - pose proof (ScalarMult_ok O K X b H2 H3 Hb 32 m o i [k mod 2 ^ 32]) as R. cbn [rev app hv fold_left] in R. pose proof (Z.mod_pos_bound k (2 ^ 32) ltac:(lia)) as Hm.
    apply R; try assumption; [lia|constructor; [exact Hm|constructor]|]. exists (k mod 2 ^ 32), []. split; [reflexivity|].
    intros E. pose proof (Z.div_mod k (2 ^ 32) ltac:(lia)) as Ed. rewrite E in Ed. change (2 ^ 32) with 4294967296 in *. change (2 ^ 31) with 2147483648 in *. lia.
Qed.
Lemma times_ok (m : mem O) a k : vwf k -> a <> Loc 1 -> okp (m a) -> onc (pt (m a)) ->
  exists P, ec_times O m a k = Ok P /\ den P (ec_mulz K (lv k) (pt (m a))).
Proof.
  intros Hk Ha Hok HP. destruct (ScalarMult_v_ok m (Loc 0) a k Hk Ha ltac:(discriminate) Hok HP) as (m' & E & D & _).
  exists (m' (Loc 0)). unfold ec_times. rewrite E. split; [reflexivity|exact D].
Qed.
(** programs *)
Definition valid (m : mem O) : Prop := forall n, okp (m (Obj n)) /\ onc (pt (m (Obj n))).
Lemma obj_neq n o : (n =? o)%nat = false -> Obj o <> Obj n.
Proof. intros E. apply Nat.eqb_neq in E. congruence. Qed.
Lemma oL1 n : Obj n <> Loc 1. Proof. discriminate. Qed.
Lemma Lo1 n : Loc 1 <> Obj n. Proof. discriminate. Qed.
Lemma spec_case (m m' : mem O) o P : valid m -> den (m' (Obj o)) P -> onc P -> (forall n, Obj o <> Obj n -> m' (Obj n) = m (Obj n)) ->
  valid m' /\ (forall n, pt (m' (Obj n)) = if Nat.eqb n o then P else pt (m (Obj n))).
Proof.
  intros V [D1 D2] HP F. split; intros n; destruct (Nat.eqb n o) eqn:E.
  - apply Nat.eqb_eq in E. subst n. split; [exact D1|]. rewrite D2. exact HP.
  - rewrite (F n (obj_neq _ _ E)). apply V.
  - apply Nat.eqb_eq in E. subst n. exact D2.
  - rewrite (F n (obj_neq _ _ E)). reflexivity.
Qed.
Lemma run1_ok i m : valid m -> scal_ok i ->
  exists m', run1 O i m = Ok m' /\ valid m' /\ (forall n, pt (m' (Obj n)) = spec1 K i (fun n => pt (m (Obj n))) n).
Proof.
  intros V S. destruct i as [o a q|o a|o a|o a q|o a k|o|a q]; cbn [run1 spec1] in *.
  - destruct (V a) as [Oa Ca]. destruct (V q) as [Oq Cq]. eexists. split; [reflexivity|]. destruct (ECAdd_ok O K X b H2 m (Obj o) (Obj a) (Obj q) Oa Oq Ca Cq) as [D F]. cbv zeta in D, F.
    apply (spec_case m); [exact V|exact D|apply ec_add_on; assumption|intros n; apply F].
  - destruct (V a) as [Oa Ca]. eexists. split; [reflexivity|]. destruct (ECDouble_ok O K X H2 m (Obj o) (Obj a) Oa) as [D F]. cbv zeta in D, F.
    apply (spec_case m); [exact V|exact D|apply ec_add_on; assumption|intros n; apply F].
  - destruct (V a) as [Oa Ca]. eexists. split; [reflexivity|]. destruct (neg_ok O K X m (Obj o) (Obj a) Oa) as [D F]. cbv zeta in D, F.
    apply (spec_case m); [exact V|exact D|apply ec_neg_on; assumption|intros n; apply F].
  - destruct (V a) as [Oa Ca]. destruct (V q) as [Oq Cq]. eexists. split; [reflexivity|]. destruct (sub_ok O K X b H2 m (Obj o) (Obj a) (Obj q) (oL1 a) Oa Oq Ca Cq) as [D F]. cbv zeta in D, F.
    apply (spec_case m); [exact V|exact D|apply ec_add_on; try apply ec_neg_on; assumption|intros n Hn; apply F; [exact Hn|apply Lo1]].
  - destruct (V a) as [Oa Ca]. destruct (ScalarMult_v_ok m (Obj o) (Obj a) k S (oL1 a) (oL1 o) Oa Ca) as (m' & E & D & F). exists m'. split; [exact E|].
    apply (spec_case m); [exact V|exact D|apply mulz_on; assumption|intros n Hn; apply F; [exact Hn|apply Lo1]].
  - destruct (V o) as [Oo Co]. destruct (normalize_ok O K X m (Obj o) Oo) as (m' & E & D & F & _). exists m'. split; [exact E|].
    destruct (spec_case m m' o _ V D Co (fun n => F (Obj n))) as [V' P']. split; [exact V'|]. intros n. rewrite P'. destruct (Nat.eqb_spec n o) as [->|]; reflexivity.
  - destruct (V a) as [Oa Ca]. destruct (V q) as [Oq Cq]. destruct (eq_ok O K X m (Obj a) (Obj q) Oa Oq) as (r & m' & E & _ & P & _). rewrite E. cbn [bind snd]. exists m'. split; [reflexivity|].
    assert (Pn : forall n, pt (m' (Obj n)) = pt (m (Obj n))) by (intros n; apply P, V). split; [|exact Pn].
    intros n. split; [apply P, V|]. rewrite Pn. apply V.
Qed.
Lemma spec1_ext i s s' : (forall n, s n = s' n) -> forall n, spec1 K i s n = spec1 K i s' n.
Proof. intros H n. destruct i; cbn [spec1]; rewrite ?H; destruct (Nat.eqb n _) || idtac; congruence. Qed.
Lemma specs_ext l : forall s s', (forall n, s n = s' n) -> forall n, specs K l s n = specs K l s' n.
Proof. induction l as [|i l IH]; intros s s' H n; [apply H|]. cbn. apply IH. apply spec1_ext, H. Qed.
Lemma runs_ok l : forall m, valid m -> Forall scal_ok l ->
  exists m', runs O l m = Ok m' /\ valid m' /\ (forall n, pt (m' (Obj n)) = specs K l (fun n => pt (m (Obj n))) n).
Proof.
  induction l as [|i l IH]; intros m V S.
  - exists m. split; [reflexivity|]. split; [exact V|reflexivity].
  - apply Forall_cons_iff in S as [Si Sl]. destruct (run1_ok i m V Si) as (m1 & E1 & V1 & P1). destruct (IH m1 V1 Sl) as (m2 & E2 & V2 & P2).
    exists m2. cbn [runs]. rewrite E1. cbn [bind]. split; [exact E2|]. split; [exact V2|]. intros n. rewrite P2. cbn. apply specs_ext, P1.
Qed.
(** == is true exactly for equal points *)
End EcApi.

(** ** The two groups *)
Inductive grp := G1 | G2.
Definition gO (g : grp) (c : cfg) : fops := match g with G1 => fpO c | G2 => fp2O c end.
Definition gK (g : grp) (c : cfg) : fld := match g with G1 => FpF c | G2 => K2F c end.
Definition gX (g : grp) (c : cfg) : fimpl (gO g c) (gK g c) := match g with G1 => impl1 c | G2 => impl2 c end.
(** b, and b / xi for the twist *)
Definition gb (g : grp) (c : cfg) : gK g c := match g with G1 => mk (cp c) (cb c) | G2 => rdiv (K2F c) (e2 c (mk (cp c) (cb c))) (xi c) end.
Definition gValid (g : grp) (c : cfg) (P : param) : F3 (fT (gO g c)) -> res bool :=
  match g with G1 => isValid1 c P | G2 => isValid2 c P end.
(** an object of class Ec1 / Ec2 is well-formed; the point it denotes; E *)
Definition wfP g c := okp (gO g c) (gK g c) (gX g c).
Definition ptP g c := pt (gO g c) (gK g c) (gX g c).
Definition onE g c := on_curve (gK g c) (gb g c).
Lemma g2 g c : radd ro ro <> (rz : gK g c). Proof. destruct g; [apply two1|apply two2]. Qed.
Lemma g3 g c : radd (radd ro ro) ro <> (rz : gK g c). Proof. destruct g; [apply three1|apply three2]. Qed.
Lemma gb2 c : gb G2 c = cb2 c.
Proof. unfold gb, cb2, rdiv. exact (Ring_theory.Rmul_comm (rth (K2F c)) _ _). Qed.
Lemma gbnz g c : gb g c <> rz. Proof. destruct g; [apply cb1_nz|rewrite gb2; apply cb2_nz]. Qed.
Lemma gValid_ok g c P x : par_ok c P -> wfP g c x -> exists r, gValid g c P x = Ok r /\ (r = true <-> onE g c (ptP g c x)).
Proof.
  intros HP Hx. destruct g; [apply isValid1_ok; assumption|]. unfold onE. rewrite gb2. apply isValid2_ok; assumption.
Qed.

Section PEc.
Variables (g : grp) (c : cfg).
Local Notation O := (gO g c). Local Notation K := (gK g c). Local Notation wf := (wfP g c). Local Notation pt := (ptP g c). Local Notation onE := (onE g c).
Lemma pe_dbl (m : mem O) o i : wf (m i) ->
  let m' := ECDouble O m o i in wf (m' o) /\ pt (m' o) = ec_add K (pt (m i)) (pt (m i)) /\ (forall q, o <> q -> m' q = m q).
Proof. intros H. destruct (ECDouble_ok O K (gX g c) (g2 g c) m o i H) as [[D1 D2] F]. split; [exact D1|]. split; [exact D2|exact F]. Qed.
Lemma pe_add (m : mem O) o a b : wf (m a) -> wf (m b) -> onE (pt (m a)) -> onE (pt (m b)) ->
  let m' := ECAdd O m o a b in wf (m' o) /\ pt (m' o) = ec_add K (pt (m a)) (pt (m b)) /\ (forall q, o <> q -> m' q = m q).
Proof. intros A B CA CB. destruct (ECAdd_ok O K (gX g c) (gb g c) (g2 g c) m o a b A B CA CB) as [[D1 D2] F]. split; [exact D1|]. split; [exact D2|exact F]. Qed.
Lemma pe_neg (m : mem O) o i : wf (m i) ->
  let m' := ec_neg_m O m o i in wf (m' o) /\ pt (m' o) = ec_neg K (pt (m i)) /\ (forall q, o <> q -> m' q = m q).
Proof. intros H. destruct (neg_ok O K (gX g c) m o i H) as [[D1 D2] F]. split; [exact D1|]. split; [exact D2|exact F]. Qed.
Lemma pe_sub (m : mem O) o a b : a <> Loc 1 -> wf (m a) -> wf (m b) -> onE (pt (m a)) -> onE (pt (m b)) ->
  let m' := ec_sub_m O m o a b in wf (m' o) /\ pt (m' o) = ec_add K (pt (m a)) (ec_neg K (pt (m b))) /\ (forall q, o <> q -> Loc 1 <> q -> m' q = m q).
Proof. intros Ha A B CA CB. destruct (sub_ok O K (gX g c) (gb g c) (g2 g c) m o a b Ha A B CA CB) as [[D1 D2] F]. split; [exact D1|]. split; [exact D2|exact F]. Qed.
Lemma pe_plus (m : mem O) a b : wf (m a) -> wf (m b) -> onE (pt (m a)) -> onE (pt (m b)) ->
  wf (ec_plus O m a b) /\ pt (ec_plus O m a b) = ec_add K (pt (m a)) (pt (m b)).
Proof. intros A B CA CB. exact (plus_ok O K (gX g c) (gb g c) (g2 g c) m a b A B CA CB). Qed.
Lemma pe_minus (m : mem O) a b : a <> Loc 1 -> wf (m a) -> wf (m b) -> onE (pt (m a)) -> onE (pt (m b)) ->
  wf (ec_minus O m a b) /\ pt (ec_minus O m a b) = ec_add K (pt (m a)) (ec_neg K (pt (m b))).
Proof. intros Ha A B CA CB. exact (minus_ok O K (gX g c) (gb g c) (g2 g c) m a b Ha A B CA CB). Qed.
Lemma pe_group : 
  (forall P Q, onE P -> onE Q -> onE (ec_add K P Q)) /\
  (forall P Q R, onE P -> onE Q -> onE R -> ec_add K (ec_add K P Q) R = ec_add K P (ec_add K Q R)) /\
  (forall P Q, onE P -> onE Q -> ec_add K P Q = ec_add K Q P) /\
  (forall P, ec_add K P EInf = P) /\
  (forall P, onE P -> onE (ec_neg K P) /\ ec_add K P (ec_neg K P) = EInf).
Proof.
  pose proof (g2 g c) as A2. pose proof (g3 g c) as A3. pose proof (gbnz g c) as Ab. unfold EcApi.onE. repeat split.
  - intros P Q HP HQ. apply ec_add_on; assumption.
  - intros P Q R HP HQ HR. apply (ec_add_assoc K (gb g c)); assumption.
  - intros P Q HP HQ. apply (ec_add_comm K (gb g c)); assumption.
  - intros P. apply ec_add_0_r.
  - apply ec_neg_on, H.
  - apply (ec_add_neg K).
Qed.
End PEc.

(** ** Witnesses: the generators of test/test_point.hpp *)
Definition rr (c : cfg) (x : Z) : Z := (x * W) mod cp c.
Definition gen1 (c : cfg) : F3 Z :=
  match c with
  | BNb => mk3 (rr c (-1)) (rr c 1) (cR c)
  | SNARK1 => mk3 (rr c 1) (rr c 2) (cR c)
  | SNARK2 => mk3 (rr c (-1)) (rr c 9) (cR c)
  end.
Definition gen2 (c : cfg) : F3 fp2 :=
  match c with
  | BNb => mk3 (mk2 (rr c 12723517038133731887338407189719511622662176727675373276651903807414909099441)
                    (rr c 4168783608814932154536427934509895782246573715297911553964171371032945126671))
               (mk2 (rr c 13891744915211034074451795021214165905772212241412891944830863846330766296736)
                    (rr c 7937318970632701341203597196594272556916396164729705624521405069090520231616)) (f2_1 c)
  | SNARK1 => mk3 (mk2 (rr c 15267802884793550383558706039165621050290089775961208824303765753922461897946)
                       (rr c 9034493566019742339402378670461897774509967669562610788113215988055021632533))
                  (mk2 (rr c 644888581738283025171396578091639672120333224302184904896215738366765861164)
                       (rr c 20532875081203448695448744255224543661959516361327385779878476709582931298750)) (f2_1 c)
  | SNARK2 => mk3 (mk2 (rr c 7281644703356799059368313064438243279269372005747477888712173236228325795991)
                       (rr c 15160700668152503952980485502602536850541312794041965342451842375663084147486))
                  (mk2 (rr c 13523979532236795535820810482891703536907572704519492618036353386190612673074)
                       (rr c 15929067770616689398844794432758732907995965312283969374632681891490787470887)) (f2_1 c)
  end.
Definition gen (g : grp) (c : cfg) : F3 (fT (gO g c)) := match g with G1 => gen1 c | G2 => gen2 c end.
(** a representative with z = 2: (4x, 8y, 2) *)
Definition gen1' (c : cfg) : F3 Z :=
  match c with
  | BNb => mk3 (rr c (-4)) (rr c 8) (rr c 2)
  | SNARK1 => mk3 (rr c 4) (rr c 16) (rr c 2)
  | SNARK2 => mk3 (rr c (-4)) (rr c 72) (rr c 2)
  end.
Lemma can_rr c x : can c (rr c x).
Proof. unfold can, rr. apply Z.mod_pos_bound, cp_pos. Qed.
Lemma gen_wf g c : wfP g c (gen g c).
Proof.
  destruct g.
  - destruct c; (split; [exact (proj1 (i_1 _ _ (impl1 _)))|intros _; split; apply can_rr]).
  - destruct c; (split; [exact (proj1 (i_1 _ _ (impl2 _)))|intros _; split; split; apply can_rr]).
Qed.
Lemma gen1_valid c : isOnECJac3 c (cb c) (gen1 c) = Ok true.
Proof. destruct c; vm_compute; reflexivity. Qed.
(** b / xi for the three curves *)
Definition bxi (c : cfg) : fp2 :=
  match c with
  | BNb => mk2 (rr c 1) (rr c (-1))
  | SNARK1 => mk2 (rr c (19485874751759354771024239261021720505790618469301721065564631296452457478373)) (rr c (266929791119991161246907387137283842545076965332900288569378510910307636690))
  | SNARK2 => mk2 (rr c 9) (rr c (-1))
  end.
Lemma gen2_valid c : isOnTwistECJac3 c (bxi c) (gen2 c) = true.
Proof. destruct c; vm_compute; reflexivity. Qed.
Lemma fv_rr c x : fv c (rr c x) = mk (cp c) x.
Proof. unfold rr. rewrite fv_mod. apply fv_W. Qed.
Definition bxa (c : cfg) : Z := match c with BNb => 1 | SNARK1 => 19485874751759354771024239261021720505790618469301721065564631296452457478373 | SNARK2 => 9 end.
Definition bxb (c : cfg) : Z := match c with BNb => -1 | SNARK1 => 266929791119991161246907387137283842545076965332900288569378510910307636690 | SNARK2 => -1 end.
Lemma bxi_eq c : bxi c = mk2 (rr c (bxa c)) (rr c (bxb c)). Proof. destruct c; reflexivity. Qed.
Lemma bxi_rep c : rep2 c (bxi c) (cb2 c).
Proof.
  apply rep2_can2. rewrite bxi_eq. split; [split; apply can_rr|]. unfold f2v. cbn [a2 b2]. rewrite !fv_rr.
  apply (fcancel (K2F c) _ (cb2 c) (xi c) (xi_nz c)).
  change (@rmul (K2 c) (mk2 (mk (cp c) (bxa c)) (mk (cp c) (bxb c))) (xi c) = @rmul (K2 c) (cb2 c) (xi c)). rewrite cb2_xi. unfold xi, e2.
  apply F2_eq; cbn [radd rmul rsub ropp rz ro K2 quad qadd qsub qopp qmul q0 q1 a2 b2 FpR]; unfold f1; rewrite <- ?mk_opp, <- !mk_mul, <- ?mk_add; apply mk_eq; destruct c; vm_compute; reflexivity.
Qed.
Lemma gen_on g c : onE g c (ptP g c (gen g c)).
Proof.
  destruct g; unfold onE.
  - destruct (isOnECJac3_ok c (gen1 c) (gen_wf G1 c)) as (r & E & R). rewrite gen1_valid in E. injection E as <-. apply R. reflexivity.
  - rewrite gb2. destruct (paramInit_ok c) as (P & _ & HP). apply (isOnTwistECJac3_ok c P (gen2 c) HP (gen_wf G2 c)).
    rewrite (rep2_inj c _ _ _ (binvxi_rep c P HP) (bxi_rep c)). apply gen2_valid.
Qed.
Lemma gen1'_wf c : wfP G1 c (gen1' c).
Proof. destruct c; (split; [apply can_rr|intros _; split; apply can_rr]). Qed.
Definition g1x (c : cfg) : Z := match c with SNARK1 => 1 | _ => -1 end.
Definition g1y (c : cfg) : Z := match c with BNb => 1 | SNARK1 => 2 | SNARK2 => 9 end.
Lemma gen1_eta c : gen1 c = mk3 (rr c (g1x c)) (rr c (g1y c)) (rr c 1).
Proof. assert (E : cR c = rr c 1) by (unfold cR, rr; rewrite Z.mul_1_l; reflexivity). destruct c; unfold gen1; rewrite E; reflexivity. Qed.
Lemma gen1'_eta c : gen1' c = mk3 (rr c (g1x c * (2 * 2))) (rr c (g1y c * (2 * 2 * 2))) (rr c 2).
Proof. destruct c; reflexivity. Qed.
Lemma gen1_pt c : ptP G1 c (gen1 c) = EAff (mk (cp c) (g1x c) : FpF c) (mk (cp c) (g1y c) : FpF c).
Proof.
  rewrite gen1_eta. unfold ptP, pt, vl3. cbn [gX gO gK a3 b3 c3 impl1 vl]. rewrite !fv_rr.
  transitivity (jac (FpF c) (mk3 (@rmul (FpF c) (mk (cp c) (g1x c)) (rmul ro ro)) (@rmul (FpF c) (mk (cp c) (g1y c)) (rmul (rmul ro ro) ro)) (ro : FpF c))).
  - f_equal. cbn [rmul ro FpF fk FpR]. unfold f1. rewrite <- !mk_mul. rewrite !Z.mul_1_r. reflexivity.
  - apply (jac_aff (FpF c)). apply fnz.
Qed.
Lemma gen1'_eq c : ptP G1 c (gen1' c) = ptP G1 c (gen1 c) /\ gen1' c <> gen1 c.
Proof.
  split; [|destruct c; vm_compute; intros E; discriminate E].
  rewrite gen1_pt, gen1'_eta. unfold ptP, pt, vl3. cbn [gX gO gK a3 b3 c3 impl1 vl]. rewrite !fv_rr, !mk_mul.
  apply (jac_aff (FpF c) (mk (cp c) (g1x c)) (mk (cp c) (g1y c)) (mk (cp c) 2)). apply mk_nz. lia.
Qed.

(** ** Statements of P_Ec.v *)
Lemma wfP_def1 c x : wfP G1 c x <-> can c (c3 x) /\ (fv c (c3 x) <> f0 -> can c (a3 x) /\ can c (b3 x)).
Proof. reflexivity. Qed.
Lemma wfP_def2 c x : wfP G2 c x <-> (exists z, rep2 c (c3 x) z /\ (z <> rz -> exists vx vy, rep2 c (a3 x) vx /\ rep2 c (b3 x) vy)).
Proof.
  split.
  - intros [Hz H]. exists (f2v c (c3 x)). split; [apply can2_rep, Hz|]. intros Nz. destruct (H Nz) as [Hx Hy]. exists (f2v c (a3 x)), (f2v c (b3 x)). split; apply can2_rep; assumption.
  - intros (z & Rz & H). apply rep2_can2 in Rz as [Hz <-]. split; [exact Hz|]. intros Nz. destruct (H Nz) as (vx & vy & Rx & Ry). apply rep2_can2 in Rx as [? _], Ry as [? _]. split; assumption.
Qed.
Lemma ptP_def1 c x : ptP G1 c x = jac (FpF c) (mk3 (fv c (a3 x)) (fv c (b3 x)) (fv c (c3 x))). Proof. reflexivity. Qed.
Lemma ptP_def2 c x vx vy vz : rep2 c (a3 x) vx -> rep2 c (b3 x) vy -> rep2 c (c3 x) vz -> ptP G2 c x = jac (K2F c) (mk3 (vx : K2F c) vy vz).
Proof. intros Rx Ry Rz. apply rep2_can2 in Rx as [_ <-], Ry as [_ <-], Rz as [_ <-]. reflexivity. Qed.
Section PEc2.
Variables (g : grp) (c : cfg).
Local Notation O := (gO g c). Local Notation K := (gK g c). Local Notation wf := (wfP g c). Local Notation pt := (ptP g c). Local Notation onE := (onE g c).
Lemma pe_valid P x : paramInit (snark c) (curveOf c) = Ok P -> wf x -> exists r, gValid g c P x = Ok r /\ (r = true <-> onE (pt x)).
Proof. intros HP. apply gValid_ok, param_par_ok, HP. Qed.
Lemma pe_runs l (m : mem O) : Forall scal_ok l -> (forall n, wf (m (Obj n)) /\ onE (pt (m (Obj n)))) ->
  exists m', runs O l m = Ok m' /\ (forall n, wf (m' (Obj n)) /\ onE (pt (m' (Obj n)))) /\
    (forall n, pt (m' (Obj n)) = specs K l (fun n => pt (m (Obj n))) n).
Proof. intros S V. exact (runs_ok O K (gX g c) (gb g c) (g2 g c) (g3 g c) (gbnz g c) l m V S). Qed.
Lemma pe_norm (m : mem O) o : wf (m o) ->
  exists m', ec_normalize O m o = Ok m' /\ wf (m' o) /\ pt (m' o) = pt (m o) /\ (forall q, o <> q -> m' q = m q) /\
    (pt (m o) = EInf -> m' = m) /\ (pt (m o) <> EInf -> c3 (m' o) = o_1 O).
Proof.
  intros H. destruct (normalize_ok O K (gX g c) m o H) as (m' & E & [D1 D2] & F & I & A). exists m'. split; [exact E|]. split; [exact D1|]. split; [exact D2|]. split; [exact F|]. split; [exact I|].
  intros N. change (EcApi.ptP g c (m o)) with (EcProofs.pt O K (gX g c) (m o)) in N. destruct (EcProofs.pt O K (gX g c) (m o)) as [|x y]; [contradiction|]. exact (proj2 (proj2 (A x y eq_refl))).
Qed.
Lemma pe_normJ (m : mem O) o i : wf (m i) ->
  exists m', NormalizeJac O m o i = Ok m' /\ wf (m' o) /\ pt (m' o) = pt (m i) /\ (forall q, o <> q -> m' q = m q) /\
    (pt (m i) = EInf -> m' o = mk3 (o_0 O) (o_0 O) (o_0 O)) /\
    (forall x y, pt (m i) = EAff x y -> vl (gX g c) (a3 (m' o)) = x /\ vl (gX g c) (b3 (m' o)) = y /\ c3 (m' o) = o_1 O).
Proof.
  intros H. destruct (NormalizeJac_ok O K (gX g c) m o i H) as (m' & E & [D1 D2] & F & I & A). exists m'. split; [exact E|]. split; [exact D1|]. split; [exact D2|]. split; [exact F|]. split; [exact I|].
  intros x y Exy. destruct (A x y Exy) as (A1 & A2 & A3). split; [apply A1|]. split; [apply A2|exact A3].
Qed.
Lemma pe_normH (m : mem O) o i : wf (m i) ->
  exists m', NormalizeHom O m o i = Ok m' /\ wf (m' o) /\ (forall q, o <> q -> m' q = m q) /\
    let P := hom K (mk3 (vl (gX g c) (a3 (m i))) (vl (gX g c) (b3 (m i))) (vl (gX g c) (c3 (m i)))) in
    (P = EInf -> m' o = mk3 (o_0 O) (o_0 O) (o_0 O)) /\
    (forall x y, P = EAff x y -> vl (gX g c) (a3 (m' o)) = x /\ vl (gX g c) (b3 (m' o)) = y /\ c3 (m' o) = o_1 O).
Proof.
  intros H. destruct (NormalizeHom_ok O K (gX g c) m o i H) as (m' & E & D1 & F & I & A). exists m'. split; [exact E|]. split; [exact D1|]. split; [exact F|]. cbv zeta. split; [exact I|].
  intros x y Exy. destruct (A x y Exy) as (A1 & A2 & A3). split; [apply A1|]. split; [apply A2|exact A3].
Qed.
Lemma pe_eq (m : mem O) a b : wf (m a) -> wf (m b) ->
  exists r m', ec_eq O m a b = Ok (r, m') /\ (r = true <-> pt (m a) = pt (m b)) /\
    (forall i, wf (m i) -> wf (m' i) /\ pt (m' i) = pt (m i)) /\ (forall i, a <> i -> b <> i -> m' i = m i).
Proof. exact (eq_ok O K (gX g c) m a b). Qed.
Lemma pe_mul (m : mem O) o i k : vwf k -> i <> Loc 1 -> o <> Loc 1 -> wf (m i) -> onE (pt (m i)) ->
  exists m', ScalarMult_v O m o i k = Ok m' /\ wf (m' o) /\ pt (m' o) = ec_mul K (Z.to_nat (lv k)) (pt (m i)) /\ (forall q, o <> q -> Loc 1 <> q -> m' q = m q).
Proof. intros Hk Hi Ho H1 H2'. destruct (ScalarMult_v_ok O K (gX g c) (gb g c) (g2 g c) (g3 g c) (gbnz g c) m o i k Hk Hi Ho H1 H2') as (m' & E & [D1 D2] & F). exists m'. split; [exact E|]. split; [exact D1|]. split; [exact D2|exact F]. Qed.
Lemma pe_mul_size (m : mem O) o i k : 0 <= k < 2 ^ 64 -> i <> Loc 1 -> o <> Loc 1 -> wf (m i) -> onE (pt (m i)) ->
  exists m', ScalarMult_size O m o i k = Ok m' /\ wf (m' o) /\ pt (m' o) = ec_mul K (Z.to_nat k) (pt (m i)) /\ (forall q, o <> q -> Loc 1 <> q -> m' q = m q).
Proof. intros Hk Hi Ho H1 H2'. destruct (ScalarMult_size_ok O K (gX g c) (gb g c) (g2 g c) (g3 g c) (gbnz g c) m o i k Hk Hi Ho H1 H2') as (m' & E & [D1 D2] & F). exists m'. split; [exact E|]. split; [exact D1|]. split; [exact D2|exact F]. Qed.
Lemma pe_mul_int (m : mem O) o i k : 0 <= k < 2 ^ 31 -> i <> Loc 1 -> o <> Loc 1 -> wf (m i) -> onE (pt (m i)) ->
  exists m', ScalarMult_int O m o i k = Ok m' /\ wf (m' o) /\ pt (m' o) = ec_mul K (Z.to_nat k) (pt (m i)) /\ (forall q, o <> q -> Loc 1 <> q -> m' q = m q).
Proof.
  intros Hk Hi Ho H1 H2'. destruct (ScalarMult_int_ok O K (gX g c) (gb g c) (g2 g c) (g3 g c) (gbnz g c) m o i k) as (m' & E & [D1 D2] & F); try assumption; [lia|].
  rewrite Z.mod_small in D2 by (change (2 ^ 32) with 4294967296; change (2 ^ 31) with 2147483648 in Hk; lia).
  exists m'. split; [exact E|]. split; [exact D1|]. split; [exact D2|exact F].
Qed.
Lemma pe_mul_nint (m : mem O) o i k : - 2 ^ 31 <= k < 0 -> i <> Loc 1 -> o <> Loc 1 -> wf (m i) -> onE (pt (m i)) ->
  exists m', ScalarMult_int O m o i k = Ok m' /\ wf (m' o) /\ pt (m' o) = ec_mul K (Z.to_nat (2 ^ 32 + k)) (pt (m i)) /\ (forall q, o <> q -> Loc 1 <> q -> m' q = m q).
Proof.
  intros Hk Hi Ho H1 H2'. destruct (ScalarMult_int_ok O K (gX g c) (gb g c) (g2 g c) (g3 g c) (gbnz g c) m o i k) as (m' & E & [D1 D2] & F); try assumption; [lia|].
  rewrite <- (Z.mod_add k 1) in D2 by (intros T; discriminate T). rewrite Z.mod_small in D2 by (change (2 ^ 32) with 4294967296; change (2 ^ 31) with 2147483648 in Hk; lia).
  rewrite Z.mul_1_l, Z.add_comm in D2.
  exists m'. split; [exact E|]. split; [exact D1|]. split; [exact D2|exact F].
Qed.
Lemma pe_mul_laws P Q a b : onE P -> onE Q ->
  ec_mul K (a + b) P = ec_add K (ec_mul K a P) (ec_mul K b P) /\
  ec_mul K (a * b) P = ec_mul K a (ec_mul K b P) /\
  ec_mul K a (ec_add K P Q) = ec_add K (ec_mul K a P) (ec_mul K a Q) /\ onE (ec_mul K a P).
Proof.
  pose proof (g2 g c) as A2. pose proof (g3 g c) as A3. pose proof (gbnz g c) as Ab. intros HP HQ. split; [apply (ec_mul_add K (gb g c)); assumption|]. split; [apply (ec_mul_mul K (gb g c)); assumption|].
  split; [apply (ec_mul_add_distr K (gb g c)); assumption|apply (ec_mul_on K (gb g c)); assumption].
Qed.
Lemma pe_set P (m : mem O) o x y z : paramInit (snark c) (curveOf c) = Ok P -> ok (gX g c) x -> ok (gX g c) y -> ok (gX g c) z ->
  let J := jac K (mk3 (vl (gX g c) x) (vl (gX g c) y) (vl (gX g c) z)) in
  (onE J -> exists m', ec_set3 O (gValid g c P) m o x y z true = Ok m' /\ m' o = mk3 x y z /\ (forall q, o <> q -> m' q = m q)) /\
  (~ onE J -> ec_set3 O (gValid g c P) m o x y z true = Throw).
Proof.
  intros HP Hx Hy Hz. cbv zeta. destruct (set3_ok O K (gX g c) (gValid g c P) (EcApi.onE g c) (fun x Hx => gValid_ok g c P x (param_par_ok c P HP) Hx) m o x y z Hx Hy Hz) as [A B]. split; [|exact B].
  intros H. eexists. split; [exact (A H)|]. split.
  - apply F3_eq; cbn [a3 b3 c3]; rewrite ?a3_st2, ?a3_st1, ?a3_st0, ?b3_st2, ?b3_st1, ?c3_st2; reflexivity.
  - intros q Hq. rewrite st2_other, st1_other, st0_other by exact Hq. reflexivity.
Qed.
Lemma pe_set2 P (m : mem O) o x y : paramInit (snark c) (curveOf c) = Ok P -> ok (gX g c) x -> ok (gX g c) y ->
  let J := EAff (vl (gX g c) x) (vl (gX g c) y) in
  (onE J -> exists m', ec_set2 O (gValid g c P) m o x y true = Ok m' /\ wf (m' o) /\ pt (m' o) = J /\ (forall q, o <> q -> m' q = m q)) /\
  (~ onE J -> ec_set2 O (gValid g c P) m o x y true = Throw).
Proof.
  intros HP Hx Hy. cbv zeta. destruct (i_1 _ _ (gX g c)) as [H1 V1]. destruct (pe_set P m o x y (o_1 O) HP Hx Hy H1) as [A B]. rewrite V1 in A, B.
  assert (E : jac K (mk3 (vl (gX g c) x) (vl (gX g c) y) ro) = EAff (vl (gX g c) x) (vl (gX g c) y)).
  { rewrite <- (jac_aff K _ _ ro (fnz K)). f_equal. assert (R1 : forall u : K, rmul u ro = u) by (intros u; rewrite (Ring_theory.Rmul_comm (rth K)); apply (Ring_theory.Rmul_1_l (rth K))). rewrite !R1. reflexivity. }
  rewrite E in A, B. split; [|exact B]. intros H. destruct (A H) as (m' & E' & M & F). exists m'. split; [exact E'|].
  rewrite M. split; [split; [exact H1|intros _; split; assumption]|]. split; [|exact F]. unfold EcApi.ptP, EcProofs.pt, vl3. cbn [a3 b3 c3]. rewrite V1. exact E.
Qed.
End PEc2.
Lemma pe_onECHom3 c x : wfP G1 c x ->
  exists r, isOnECHom3 c (cb c) x = Ok r /\ (r = true <-> onE G1 c (hom (FpF c) (mk3 (fv c (a3 x)) (fv c (b3 x)) (fv c (c3 x))))).
Proof. exact (isOnECHom3_ok c x). Qed.
Lemma pe_onECHom2 c x y : can c x -> can c y ->
  exists r, isOnECHom2 c (cb c) x y = Ok r /\ (r = true <-> onE G1 c (EAff (fv c x : FpF c) (fv c y : FpF c))).
Proof. exact (isOnECHom2_ok c x y). Qed.
Lemma pe_onTwHom3 c P x : paramInit (snark c) (curveOf c) = Ok P -> wfP G2 c x ->
  (isOnTwistECHom3 c (par_binvxi P) x = true <-> onE G2 c (hom (K2F c) (mk3 (f2v c (a3 x)) (f2v c (b3 x)) (f2v c (c3 x))))).
Proof. intros HP Hx. unfold onE. rewrite gb2. exact (isOnTwistECHom3_ok c P x (param_par_ok c P HP) Hx). Qed.
Lemma pe_onTwHom2 c P x y vx vy : paramInit (snark c) (curveOf c) = Ok P -> rep2 c x vx -> rep2 c y vy ->
  (isOnTwistECHom2 c (par_binvxi P) x y = true <-> onE G2 c (EAff (vx : K2F c) (vy : K2F c))).
Proof.
  intros HP Rx Ry. apply rep2_can2 in Rx as [Hx <-], Ry as [Hy <-]. unfold onE. rewrite gb2. exact (isOnTwistECHom2_ok c P x y (param_par_ok c P HP) Hx Hy).
Qed.
(** C40 *)
Section PFrob.
Variables (c : cfg) (P : param).
Hypothesis HP : paramInit (snark c) (curveOf c) = Ok P.
Lemma pe_fr1 x y vx vy : rep2 c x vx -> rep2 c y vy ->
  exists wx wy, rep2 c (fst (FrobEnd1 c P x y)) wx /\ rep2 c (snd (FrobEnd1 c P x y)) wy /\
    utx c wx = rpz (utx c vx) (cp c) /\ uty c wy = rpz (uty c vy) (cp c).
Proof. intros Rx Ry. destruct (FrobEnd1_rep c P x y vx vy (param_par_ok c P HP) Rx Ry) as [A B]. exists (fx c vx), (fy c vy). split; [exact A|]. split; [exact B|]. split; [apply utx_fr|apply uty_fr]. Qed.
Lemma pe_fr2 x y vx vy : rep2 c x vx -> rep2 c y vy ->
  exists wx wy, rep2 c (fst (FrobEnd2 c P x y)) wx /\ rep2 c (snd (FrobEnd2 c P x y)) wy /\
    utx c wx = rpz (utx c vx) (cp c ^ 2) /\ uty c wy = rpz (uty c vy) (cp c ^ 2).
Proof. intros Rx Ry. destruct (FrobEnd2_rep c P x y vx vy (param_par_ok c P HP) Rx Ry) as [A B]. eexists _, _. split; [exact A|]. split; [exact B|]. split; [apply utx_fr2|apply uty_fr2]. Qed.
Lemma pe_fr8 x y vx vy : rep2 c x vx -> rep2 c y vy ->
  exists wx wy, rep2 c (fst (FrobEnd8 c P x y)) wx /\ rep2 c (snd (FrobEnd8 c P x y)) wy /\
    utx c wx = rpz (utx c vx) (cp c ^ 8) /\ uty c wy = rpz (uty c vy) (cp c ^ 8).
Proof. intros Rx Ry. destruct (FrobEnd8_rep c P x y vx vy (param_par_ok c P HP) Rx Ry) as [A B]. eexists _, _. split; [exact A|]. split; [exact B|]. split; [apply utx_fr8|apply uty_fr8]. Qed.
End PFrob.
(** psi is an endomorphism of the twist, computed by FrobEnd1 *)
Lemma pe_psi c P : paramInit (snark c) (curveOf c) = Ok P -> exists psi : ecpt (K2F c) -> ecpt (K2F c),
  psi EInf = EInf /\
  (forall x y vx vy, rep2 c x vx -> rep2 c y vy -> exists wx wy, rep2 c (fst (FrobEnd1 c P x y)) wx /\ rep2 c (snd (FrobEnd1 c P x y)) wy /\ psi (EAff (vx : K2F c) (vy : K2F c)) = EAff (wx : K2F c) (wy : K2F c)) /\
  (forall Q, onE G2 c Q -> onE G2 c (psi Q)) /\
  (forall Q R, onE G2 c Q -> onE G2 c R -> psi (ec_add (K2F c) Q R) = ec_add (K2F c) (psi Q) (psi R)).
Proof.
  intros HP. exists (psi c). split; [reflexivity|]. split.
  - intros x y vx vy Rx Ry. destruct (FrobEnd1_rep c P x y vx vy (param_par_ok c P HP) Rx Ry) as [A B]. eexists _, _. split; [exact A|]. split; [exact B|reflexivity].
  - unfold onE. rewrite gb2. split; [apply psi_on|apply psi_add].
Qed.
Lemma paramInit_exists c : exists P, paramInit (snark c) (curveOf c) = Ok P.
Proof. destruct (paramInit_ok c) as (P & H & _). exists P. exact H. Qed.
