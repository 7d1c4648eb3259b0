(** Common base of the model: outcomes, 64-bit units and limb vectors.

    Build configuration modelled: common.mk (NDEBUG, 64-bit units,
    MIE_ZM_VUINT_BIT_LEN = 576, i.e. nine units per Vuint). *)
From Coq Require Export ZArith List Bool Lia.
From Coq Require Export ZifyBool ZifyNat ZifyN.
Export ListNotations.
Global Open Scope Z_scope.

(** ** Outcomes of a call.
    [Exit]  : local::errExit, i.e. printf + exit(1) (include/zm.h:110-114).
    [Throw] : a C++ exception leaves the call.
    [UB]    : the call has undefined behaviour (out-of-range access, signed
              overflow, read of an indeterminate unit ...).
    [Diverge] : the fuel of a modelled loop ran out (theorems exclude it). *)
Inductive res (A : Type) : Type :=
| Ok (a : A)
| Exit
| Throw
| UB
| Diverge.
Arguments Ok {A} a.
Arguments Exit {A}.
Arguments Throw {A}.
Arguments UB {A}.
Arguments Diverge {A}.

Definition bind {A C : Type} (m : res A) (f : A -> res C) : res C :=
  match m with
  | Ok a => f a
  | Exit => Exit
  | Throw => Throw
  | UB => UB
  | Diverge => Diverge
  end.

Declare Scope res_scope.
Notation "'let!' x ':=' m 'in' k" := (bind m (fun x => k))
  (at level 200, x pattern, m at level 100, k at level 200, right associativity) : res_scope.
Global Open Scope res_scope.

(** ** Units *)

(** The base of one unit: Unit = uint64_t (include/zm.h:37-45, no MIE_USE_UNIT32). *)
Definition B : Z := 2 ^ 64.

Lemma B_val : B = 18446744073709551616.
Proof. reflexivity. Qed.
Lemma B_pos : 0 < B.
Proof. rewrite B_val. lia. Qed.
Global Opaque B.

(** [isU x]: x is a value of type Unit. *)
Definition isU (x : Z) : Prop := 0 <= x < B.

(** Value denoted by a little-endian limb vector (specification). *)
Fixpoint lv (l : list Z) : Z :=
  match l with
  | [] => 0
  | d :: l' => d + B * lv l'
  end.

(** All limbs are units. *)
Definition limbs (l : list Z) : Prop := Forall isU l.

Lemma lv_nonneg l : limbs l -> 0 <= lv l.
Proof.
  induction 1 as [|d l Hd Hl IH]; cbn [lv]; [lia|].
  unfold isU in Hd. pose proof B_pos. nia.
Qed.

Lemma lv_bound l : limbs l -> lv l < B ^ Z.of_nat (length l).
Proof.
  induction 1 as [|d l Hd Hl IH]; cbn [lv length]; [cbn; lia|].
  rewrite Nat2Z.inj_succ, Z.pow_succ_r by lia.
  unfold isU in Hd. pose proof B_pos. nia.
Qed.

Lemma lv_app l1 l2 : lv (l1 ++ l2) = lv l1 + B ^ Z.of_nat (length l1) * lv l2.
Proof.
  induction l1 as [|d l1 IH]; cbn [lv app length].
  - change (Z.of_nat 0) with 0. rewrite Z.pow_0_r. lia.
  - rewrite Nat2Z.inj_succ, Z.pow_succ_r by lia. rewrite IH. ring.
Qed.

Lemma lv_repeat0 n : lv (repeat 0 n) = 0.
Proof. induction n as [|n IH]; cbn [repeat lv]; lia. Qed.

Lemma limbs_app l1 l2 : limbs (l1 ++ l2) <-> limbs l1 /\ limbs l2.
Proof. unfold limbs. apply Forall_app. Qed.

Lemma limbs_cons d l : limbs (d :: l) <-> isU d /\ limbs l.
Proof. unfold limbs. split; [intros H; inversion H; auto | intros [H1 H2]; constructor; auto]. Qed.

Lemma limbs_nil : limbs [].
Proof. constructor. Qed.

Lemma limbs_repeat0 n : limbs (repeat 0 n).
Proof.
  induction n as [|n IH]; cbn [repeat]; constructor; auto.
  unfold isU. pose proof B_pos. lia.
Qed.

Lemma limbs_firstn n l : limbs l -> limbs (firstn n l).
Proof. intros H. apply Forall_forall. intros x Hx.
  apply (proj1 (Forall_forall _ _) H). rewrite <- (firstn_skipn n l).
  apply in_or_app. auto. Qed.

Lemma limbs_skipn n l : limbs l -> limbs (skipn n l).
Proof. intros H. apply Forall_forall. intros x Hx.
  apply (proj1 (Forall_forall _ _) H). rewrite <- (firstn_skipn n l).
  apply in_or_app. auto. Qed.

Lemma lv_split n l : lv l = lv (firstn n l) + B ^ Z.of_nat (length (firstn n l)) * lv (skipn n l).
Proof. rewrite <- (firstn_skipn n l) at 1. apply lv_app. Qed.

Lemma lv_inj l1 l2 : limbs l1 -> limbs l2 -> length l1 = length l2 -> lv l1 = lv l2 -> l1 = l2.
Proof.
  revert l2; induction l1 as [|a l1 IH]; intros [|b l2] H1 H2 HL HV; try discriminate; auto.
  apply limbs_cons in H1. apply limbs_cons in H2. destruct H1 as [Ha H1], H2 as [Hb H2].
  cbn [lv length] in *. injection HL as HL.
  unfold isU in *. pose proof B_pos.
  assert (lv l1 = lv l2) by nia.
  f_equal; [nia|]. apply IH; auto.
Qed.

Lemma Bpow_pos n : 0 < B ^ Z.of_nat n.
Proof. apply Z.pow_pos_nonneg; [apply B_pos | lia]. Qed.
