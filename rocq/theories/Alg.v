(** Commutative rings: powers, the binomial theorem, and the p-th power map in
    characteristic p. Pure algebra used by the specifications; nothing of the
    code is modelled here. *)
From Coq Require Import ZArith Znumtheory Lia Ring Ring_theory Arith.
From Verif Require Import Power.

Local Open Scope nat_scope.

(** Binomial coefficients. *)
Fixpoint binom (n k : nat) : nat :=
  match n, k with
  | _, O => 1
  | O, S _ => 0
  | S n', S k' => binom n' k' + binom n' (S k')
  end.

Lemma binom_0 n : binom n 0 = 1.
Proof. destruct n; reflexivity. Qed.

Lemma binom_gt n k : n < k -> binom n k = 0.
Proof.
  revert k; induction n as [|n IH]; intros [|k] H; cbn [binom]; try lia.
  rewrite !IH by lia. reflexivity.
Qed.

Lemma binom_nn n : binom n n = 1.
Proof. induction n as [|n IH]; cbn [binom]; [reflexivity|]. rewrite IH, (binom_gt n (S n)); lia. Qed.

Lemma binom_absorb n k : S k * binom (S n) (S k) = S n * binom n k.
Proof.
  revert k; induction n as [|n IH]; intros k.
  - destruct k; cbn [binom]; [reflexivity|]. rewrite !Nat.mul_0_r. reflexivity.
  - cbn [binom]. fold (binom (S n) k). destruct k as [|k].
    + specialize (IH 0). cbn [binom] in IH. rewrite !binom_0 in *. nia.
    + pose proof (IH k) as H1. pose proof (IH (S k)) as H2. cbn [binom] in *. nia.
Qed.

Lemma prime_binom p k : prime (Z.of_nat p) -> 0 < k < p -> exists c, binom p k = p * c.
Proof.
  intros Hp Hk. destruct k as [|k]; [lia|]. destruct p as [|p]; [lia|].
  pose proof (binom_absorb p k) as H.
  assert (Hd : (Z.of_nat (S p) | Z.of_nat (S k) * Z.of_nat (binom (S p) (S k)))%Z).
  { exists (Z.of_nat (binom p k)). rewrite <- Nat2Z.inj_mul, H. rewrite Nat2Z.inj_mul. ring. }
  apply prime_mult in Hd; auto. destruct Hd as [Hd|Hd].
  - apply Z.divide_pos_le in Hd; lia.
  - destruct Hd as [c Hc].
    assert (0 <= c)%Z by nia.
    exists (Z.to_nat c). apply Nat2Z.inj. rewrite Nat2Z.inj_mul, Z2Nat.id by auto. lia.
Qed.

Section CommRing.
Variable T : Type.
Variables (rO rI : T) (radd rmul rsub : T -> T -> T) (ropp : T -> T).
Hypothesis RT : ring_theory rO rI radd rmul rsub ropp eq.
Add Ring TR : RT.
Local Infix "+" := radd. Local Infix "*" := rmul. Local Infix "-" := rsub.
Local Notation pw := (npow rmul rI).

Lemma pw_S x n : pw x (S n) = x * pw x n.
Proof. reflexivity. Qed.
Lemma pw_add x a b : pw x (a + b)%nat = pw x a * pw x b.
Proof. induction a as [|a IH]; cbn [Nat.add npow]; [ring|]. rewrite IH. ring. Qed.
Lemma pw_1 n : pw rI n = rI.
Proof. induction n as [|n IH]; cbn [npow]; [reflexivity|]. rewrite IH. ring. Qed.
Lemma pw_0 n : pw rO (S n) = rO.
Proof. cbn [npow]. ring. Qed.
Lemma pw_mulb x y n : pw (x * y) n = pw x n * pw y n.
Proof. induction n as [|n IH]; cbn [npow]; [ring|]. rewrite IH. ring. Qed.
Lemma pw_mul x a b : pw x (a * b)%nat = pw (pw x a) b.
Proof.
  induction b as [|b IH].
  - rewrite Nat.mul_0_r. reflexivity.
  - rewrite Nat.mul_succ_r, Nat.add_comm, pw_add, IH. cbn [npow]. ring.
Qed.
Lemma pw_x1 x : pw x 1 = x.
Proof. cbn [npow]. ring. Qed.

(** n-fold sum. *)
Fixpoint nm (n : nat) (x : T) : T := match n with O => rO | S n' => x + nm n' x end.
Lemma nm_add a b x : nm (a + b)%nat x = nm a x + nm b x.
Proof. induction a as [|a IH]; cbn [Nat.add nm]; [ring|]. rewrite IH. ring. Qed.
Lemma nm_mulr n x : nm n x = nm n rI * x.
Proof. induction n as [|n IH]; cbn [nm]; [ring|]. rewrite IH at 1. ring. Qed.
Lemma nm_distr n x y : nm n (x + y) = nm n x + nm n y.
Proof. induction n as [|n IH]; cbn [nm]; [ring|]. rewrite IH. ring. Qed.
Lemma nm_mul a b x : nm (a * b)%nat x = nm a (nm b x).
Proof. induction a as [|a IH]; cbn [Nat.mul nm]; [reflexivity|]. rewrite nm_add, IH. reflexivity. Qed.
Lemma nm_0 n : nm n rO = rO.
Proof. induction n as [|n IH]; cbn [nm]; [reflexivity|]. rewrite IH. ring. Qed.
Lemma nm_mul_l n x y : nm n x * y = nm n (x * y).
Proof. induction n as [|n IH]; cbn [nm]; [ring|]. rewrite <- IH. ring. Qed.

(** Sum of f 0 .. f (n-1). *)
Fixpoint sm (n : nat) (f : nat -> T) : T := match n with O => rO | S n' => sm n' f + f n' end.
Lemma sm_ext n f g : (forall i, (i < n)%nat -> f i = g i) -> sm n f = sm n g.
Proof. induction n as [|n IH]; intros H; cbn [sm]; [reflexivity|]. rewrite IH, H; auto. Qed.
Lemma sm_add n f g : sm n (fun i => f i + g i) = sm n f + sm n g.
Proof. induction n as [|n IH]; cbn [sm]; [ring|]. rewrite IH. ring. Qed.
Lemma sm_mul n c f : sm n (fun i => c * f i) = c * sm n f.
Proof. induction n as [|n IH]; cbn [sm]; [ring|]. rewrite IH. ring. Qed.
Lemma sm_shift n f : sm (S n) f = f O + sm n (fun i => f (S i)).
Proof. induction n as [|n IH]; [cbn [sm]; ring|]. cbn [sm] in *. rewrite IH. ring. Qed.
Lemma sm_zero n f : (forall i, (i < n)%nat -> f i = rO) -> sm n f = rO.
Proof. induction n as [|n IH]; intros H; cbn [sm]; [reflexivity|]. rewrite IH, H by auto. ring. Qed.

Lemma binomial x y n :
  pw (x + y) n = sm (S n) (fun k => nm (binom n k) (pw x k * pw y (n - k)%nat)).
Proof.
  induction n as [|n IH].
  - cbn. ring.
  - rewrite pw_S, IH.
    rewrite (sm_shift (S n)).
    rewrite (sm_ext (S n)
       (fun i => nm (binom (S n) (S i)) (pw x (S i) * pw y (S n - S i)%nat))
       (fun i => x * nm (binom n i) (pw x i * pw y (n - i)%nat)
               + nm (binom n (S i)) (pw x (S i) * pw y (n - i)%nat))).
    2:{ intros i Hi. cbn [binom Nat.sub]. rewrite nm_add. f_equal.
        rewrite (ARmul_comm (Rth_ARth (Eqsth T) (Eq_ext radd rmul ropp) RT) x), nm_mul_l.
        f_equal. cbn [npow]. ring. }
    rewrite sm_add, sm_mul.
    rewrite !binom_0. cbn [nm]. rewrite Nat.sub_0_r.
    set (A := sm (S n) (fun k => nm (binom n k) (pw x k * pw y (n - k)%nat))).
    assert (HB : y * A = pw y (S n) + sm (S n) (fun i => nm (binom n (S i)) (pw x (S i) * pw y (n - i)%nat))).
    { unfold A. rewrite sm_shift, !binom_0. cbn [nm]. rewrite Nat.sub_0_r.
      cbn [sm]. rewrite (binom_gt n (S n)) by lia. cbn [nm].
      rewrite (sm_ext n (fun i => nm (binom n (S i)) (pw x (S i) * pw y (n - i)%nat))
                        (fun i => y * nm (binom n (S i)) (pw x (S i) * pw y (n - S i)%nat))).
      { rewrite sm_mul. cbn [npow]. ring. }
      intros i Hi. rewrite (ARmul_comm (Rth_ARth (Eqsth T) (Eq_ext radd rmul ropp) RT) y), nm_mul_l. f_equal.
      replace (n - i)%nat with (S (n - S i)) by lia. cbn [npow]. ring. }
    assert (HC : (x + y) * A = x * A + y * A) by ring.
    rewrite HC, HB. cbn [npow]. ring.
Qed.

Section CharP.
Variable p : nat.
Hypothesis Hp : prime (Z.of_nat p).
Hypothesis Hchar : nm p rI = rO.

Lemma nm_char c x : nm (p * c)%nat x = rO.
Proof. rewrite Nat.mul_comm, nm_mul, (nm_mulr p x), Hchar. replace (rO * x) with rO by ring. apply nm_0. Qed.

(** x -> x^p is additive. *)
Lemma frob_add x y : pw (x + y) p = pw x p + pw y p.
Proof.
  rewrite binomial.
  assert (1 < p)%nat. { destruct Hp as [H _]. lia. }
  rewrite sm_shift.
  destruct p as [|q] eqn:E; [lia|]. cbn [sm]. rewrite <- E in *.
  rewrite sm_zero.
  - rewrite binom_0. rewrite binom_nn, Nat.sub_0_r, Nat.sub_diag. cbn [nm npow]. ring.
  - intros i Hi. destruct (prime_binom p (S i) Hp) as [c Hc]; [lia|]. rewrite Hc. apply nm_char.
Qed.
Lemma frob_0 : pw rO p = rO.
Proof. destruct p as [|q]; [destruct Hp; lia|]. apply pw_0. Qed.
Lemma frob_opp x : pw (ropp x) p = ropp (pw x p).
Proof.
  assert (H : pw (ropp x) p + pw x p = rO).
  { rewrite <- frob_add. replace (ropp x + x) with rO by ring. apply frob_0. }
  transitivity (pw (ropp x) p + pw x p - pw x p); [ring|]. rewrite H. ring.
Qed.
Lemma frob_nm n : pw (nm n rI) p = nm n rI.
Proof. induction n as [|n IH]; cbn [nm]; [apply frob_0|]. rewrite frob_add, IH, pw_1. reflexivity. Qed.
End CharP.
End CommRing.
