(** Primality proofs checked by the kernel: trial division for small numbers and a
    Pocklington-style criterion for large ones. *)
From Coq Require Import ZArith Znumtheory Lia Bool List Zpow_facts.
From Verif Require Import FpSpec.
Import ListNotations.
Local Open Scope Z_scope.

(** Partial reduction modulo n: subtracts multiples of n. The estimate only affects the
    size of the result, not its class; [k] is about the bit length of n, mu = 2^(k+66)/n. *)
Definition rstep (n mu k x s : Z) : Z :=
  x - Z.shiftl (Z.shiftr (Z.shiftr x (s + k) * mu) 66 * n) s.
Definition red (n mu k x : Z) : Z :=
  if 200 <? k then rstep n mu k (rstep n mu k (rstep n mu k (rstep n mu k x 192) 128) 64) 0
  else x mod n.

Lemma rstep_mod n mu k x s : 0 <= s -> rstep n mu k x s mod n = x mod n.
Proof.
  intros Hs. unfold rstep. rewrite Z.shiftl_mul_pow2 by auto.
  set (q := Z.shiftr (Z.shiftr x (s + k) * mu) 66).
  replace (x - q * n * 2 ^ s) with (x + (- q * 2 ^ s) * n) by ring. apply Z_mod_plus_full.
Qed.
Lemma red_mod n mu k x : red n mu k x mod n = x mod n.
Proof. unfold red. destruct (200 <? k); [rewrite !rstep_mod by (clear; lia); reflexivity|apply Zmod_mod]. Qed.

(** a^e modulo n by square and multiply. *)
Fixpoint powr (a n mu k : Z) (e : positive) : Z :=
  match e with
  | xH => a
  | xO e' => let y := powr a n mu k e' in red n mu k (Z.square y)
  | xI e' => let y := powr a n mu k e' in red n mu k (red n mu k (Z.square y) * a)
  end.
Definition powm (a n : Z) (e : positive) : Z :=
  let k := Z.log2 n - 1 in
  powr a n (2 ^ (k + 66) / n) k e mod n.

Lemma powr_spec a n mu k e : powr a n mu k e mod n = a ^ Zpos e mod n.
Proof.
  induction e as [e IH|e IH|]; cbn [powr].
  - rewrite red_mod, <- Zmult_mod_idemp_l, red_mod, Z.square_spec.
    rewrite Pos2Z.inj_xI. replace (2 * Zpos e + 1) with (Zpos e + Zpos e + 1) by lia.
    rewrite !Z.pow_add_r, Z.pow_1_r by (clear; lia).
    rewrite (Zmult_mod (powr _ _ _ _ _)), IH, <- Zmult_mod, Zmult_mod_idemp_l. reflexivity.
  - rewrite red_mod, Z.square_spec, Pos2Z.inj_xO. replace (2 * Zpos e) with (Zpos e + Zpos e) by lia.
    rewrite Z.pow_add_r by (clear; lia). rewrite Zmult_mod, IH, <- Zmult_mod. reflexivity.
  - rewrite Z.pow_1_r. reflexivity.
Qed.
Lemma powm_spec a n e : powm a n e = a ^ Zpos e mod n.
Proof. apply powr_spec. Qed.

(** ** Small primes *)
(** no divisor among d, d+1, ..., d+k-1 *)
Fixpoint nodiv (k : nat) (d n : Z) : bool :=
  match k with O => true | S k' => negb (n mod d =? 0) && nodiv k' (d + 1) n end.
Definition small_prime (n : Z) : bool :=
  let s := Z.sqrt n in (1 <? n) && nodiv (Z.to_nat (s - 1)) 2 n.

Lemma nodiv_spec k d n : nodiv k d n = true -> forall x, d <= x < d + Z.of_nat k -> n mod x <> 0.
Proof.
  revert d; induction k as [|k IH]; intros d H x Hx; [lia|].
  cbn [nodiv] in H. apply andb_true_iff in H. destruct H as [H1 H2].
  destruct (Z.eq_dec x d) as [->|].
  - apply negb_true_iff, Z.eqb_neq in H1. exact H1.
  - apply (IH (d + 1)); auto. lia.
Qed.

(** A number n > 1 that has a prime divisor only if that divisor exceeds its square root is prime. *)
Lemma prime_divisor n : 1 < n -> exists q, prime q /\ (q | n).
Proof.
  intros Hn. assert (H0 : 0 <= n) by lia. revert n H0 Hn.
  refine (Z_lt_induction (fun n => 1 < n -> exists q, prime q /\ (q | n)) _). intros n IH Hn. destruct (prime_dec n) as [Hp|Hp].
  - exists n. split; auto. apply Z.divide_refl.
  - destruct (not_prime_divide n Hn Hp) as (d & Hd & Hdn).
    destruct (IH d) as (q & Hq & Hqd); [lia|lia|]. exists q. split; auto. eapply Z.divide_trans; eauto.
Qed.

Lemma prime_by_sqrt n : 1 < n -> (forall q, prime q -> (q | n) -> n < q * q) -> prime n.
Proof.
  intros Hn H. destruct (prime_dec n) as [Hp|Hp]; auto. exfalso.
  destruct (not_prime_divide n Hn Hp) as (d & Hd & e & He).
  assert (1 < e) by nia.
  destruct (prime_divisor d) as (q & Hq & Hqd); [lia|].
  destruct (prime_divisor e) as (r & Hr & Hre); [lia|].
  assert (Hqn : n < q * q) by (apply H; auto; eapply Z.divide_trans; [exact Hqd|exists e; auto]).
  assert (Hrn : n < r * r) by (apply H; auto; eapply Z.divide_trans; [exact Hre|exists d; lia]).
  apply Z.divide_pos_le in Hqd; [|lia]. apply Z.divide_pos_le in Hre; [|lia].
  destruct Hq as [Hq _], Hr as [Hr _].
  assert (r * q <= n) by nia. destruct (Z_le_gt_dec q r); nia.
Qed.

Lemma small_prime_ok n : small_prime n = true -> prime n.
Proof.
  unfold small_prime. intros H. apply andb_true_iff in H. destruct H as [H1 H2].
  apply Z.ltb_lt in H1. apply prime_by_sqrt; auto. intros q Hq Hqn.
  destruct (Z_lt_le_dec n (q * q)) as [|Hle]; auto. exfalso.
  destruct Hq as [Hq _].
  assert (Hs : q <= Z.sqrt n) by (apply Z.sqrt_le_square; lia).
  apply (nodiv_spec _ _ _ H2 q); [lia|]. apply Z.mod_divide; [lia|auto].
Qed.

(** ** Pocklington *)
Fixpoint prodZ (l : list Z) : Z := match l with [] => 1 | q :: l' => q * prodZ l' end.

Lemma bezout_pos q m : 1 < q -> 0 < m -> rel_prime q m -> exists u v, 0 <= u /\ 0 <= v /\ u * q = v * m + 1.
Proof.
  intros Hq Hm H. destruct (rel_prime_bezout _ _ H) as [u v E].
  (* u q + v m = 1; shift u by multiples of m *)
  set (k := Z.abs u + Z.abs v).
  exists (u + k * m), (k * q - v). unfold k. split; [nia|]. split; [nia|]. nia.
Qed.

(** An element c of order q modulo every prime divisor of N. *)
Lemma pock_step N P c q : prime P -> (P | N) -> prime q ->
  c ^ q mod N = 1 mod N -> Z.gcd (c - 1) N = 1 -> (q | P - 1).
Proof.
  intros HP HPN Hq H1 Hg.
  destruct (Zdivide_dec q (P - 1)) as [|Hn]; auto. exfalso.
  assert (HP1 : 1 < P) by (destruct HP; auto). assert (Hq1 : 1 < q) by (destruct Hq; auto).
  assert (Hrel : rel_prime q (P - 1)) by (apply prime_rel_prime; auto).
  assert (H1P : c ^ q mod P = 1 mod P).
  { destruct HPN as [k ->]. 
    assert (E : forall x, (x mod (k * P)) mod P = x mod P).
    { intros x. destruct (Z.eq_dec k 0) as [->|]; [rewrite Z.mul_0_l, Zmod_0_r; reflexivity|].
      rewrite (Z.mod_eq x (k * P)) by lia.
      replace (x - k * P * (x / (k * P))) with (x + (- k * (x / (k * P))) * P) by ring.
      apply Z_mod_plus_full. }
    rewrite <- (E (c ^ q)), <- (E 1), H1. reflexivity. }
  rewrite (Z.mod_small 1 P) in H1P by lia.
  pose proof H1P as Hcq.
  assert (Hc0 : c mod P <> 0).
  { intros E. assert (Hz : c ^ q mod P = 0).
    { rewrite Zpower_mod by lia. rewrite E. rewrite Z.pow_0_l by lia. apply Zmod_0_l. }
    rewrite Hz in Hcq. discriminate Hcq. }
  clear H1 H1P.
  destruct (bezout_pos q (P - 1) Hq1 ltac:(lia) Hrel) as (u & v & Hu & Hv & E).
  assert (F1 : c ^ (q * u) mod P = 1).
  { rewrite Z.pow_mul_r by (clear - Hq1 Hu; lia). rewrite Zpower_mod by (clear - HP1; lia). rewrite Hcq, Z.pow_1_l by auto.
    apply Z.mod_small. clear - HP1; lia. }
  assert (F2 : c ^ ((P - 1) * v + 1) mod P = c mod P).
  { rewrite Z.pow_add_r, Z.pow_1_r, Z.pow_mul_r by (clear - HP1 Hv; nia). rewrite Zmult_mod.
    rewrite (Zpower_mod (c ^ (P - 1))) by (clear - HP1; lia). rewrite (fermat1Z P HP c Hc0), Z.pow_1_l by auto.
    rewrite (Z.mod_small 1 P), Z.mul_1_l by (clear - HP1; lia). apply Zmod_mod. }
  replace ((P - 1) * v + 1) with (q * u) in F2 by (clear - E; lia).
  assert (Hdiv : (P | c - 1)).
  { apply Z.mod_divide; [clear - HP1; lia|]. rewrite Zminus_mod, <- F2, F1, (Z.mod_small 1 P) by (clear - HP1; lia). reflexivity. }
  assert (Hd : (P | 1)) by (rewrite <- Hg; apply Z.gcd_greatest; auto).
  apply Z.divide_pos_le in Hd; clear - Hd HP1; lia.
Qed.

Lemma prod_divide l n : Forall prime l -> NoDup l -> (forall q, In q l -> (q | n)) -> (prodZ l | n).
Proof.
  induction l as [|q l IH]; intros Hp Hd H; cbn [prodZ]; [apply Z.divide_1_l|].
  inversion Hp as [|? ? Hq Hp']; subst. inversion Hd as [|? ? Hni Hd']; subst.
  assert (Hl : (prodZ l | n)) by (apply IH; auto; intros r Hr; apply H; right; auto).
  destruct Hl as [k Hk].
  assert (Hqk : (q | k * prodZ l)) by (rewrite <- Hk; apply H; left; auto).
  assert (Hrel : rel_prime q (prodZ l)).
  { clear - Hq Hp' Hni. induction l as [|r l IH]; cbn [prodZ]; [apply rel_prime_sym, rel_prime_1|].
    inversion Hp' as [|? ? Hr Hp'']; subst. apply rel_prime_mult.
    - apply prime_rel_prime; auto. intros Hdv. apply Hni. left.
      symmetry. apply prime_div_prime; auto.
    - apply IH; auto. intros Hin. apply Hni. right; auto. }
  rewrite Z.mul_comm in Hqk.
  apply Gauss in Hqk; auto. destruct Hqk as [j ->]. exists j. rewrite Hk. ring.
Qed.

(** Each (q, c): c has order q modulo every prime divisor of N; the q are distinct primes
    whose product F satisfies F^2 > N. *)
Definition pock_check (N : Z) (qs : list (Z * Z)) : bool :=
  let F := prodZ (map fst qs) in
  (1 <? N) && (N <? F * F) &&
  forallb (fun qc => (powm (snd qc) N (Z.to_pos (fst qc)) =? 1) && (Z.gcd (snd qc - 1) N =? 1)) qs.

Fixpoint nodupb (l : list Z) : bool :=
  match l with [] => true | q :: l' => negb (existsb (Z.eqb q) l') && nodupb l' end.
Lemma nodupb_ok l : nodupb l = true -> NoDup l.
Proof.
  induction l as [|q l IH]; intros H; constructor; cbn [nodupb] in H; apply andb_true_iff in H; destruct H as [H1 H2].
  - apply negb_true_iff in H1. intros Hin. assert (Ht : existsb (Z.eqb q) l = true).
    { apply existsb_exists. exists q. split; auto. apply Z.eqb_refl. } congruence.
  - auto.
Qed.

Lemma prodZ_pos l : Forall prime l -> 0 < prodZ l.
Proof. induction 1 as [|q l [Hq _] _ IH]; cbn [prodZ]; nia. Qed.

Lemma pocklington N qs : Forall prime (map fst qs) -> nodupb (map fst qs) = true ->
  pock_check N qs = true -> prime N.
Proof.
  intros Hp Hd H. unfold pock_check in H.
  apply andb_true_iff in H. destruct H as [H H4]. 
  apply andb_true_iff in H. destruct H as [H1 H2].
  apply Z.ltb_lt in H1. apply Z.ltb_lt in H2.
  apply prime_by_sqrt; auto. intros P HP HPN.
  assert (Hdv : (prodZ (map fst qs) | P - 1)).
  { apply prod_divide; auto. { apply nodupb_ok; auto. }
    intros q Hq.
    assert (Hqp : prime q) by (apply (proj1 (Forall_forall _ _) Hp); auto).
    apply in_map_iff in Hq. destruct Hq as ((q', c) & E & Hq). cbn [fst] in E. subst q'.
    apply (proj1 (forallb_forall _ _) H4) in Hq. cbn [fst snd] in Hq. apply andb_true_iff in Hq. destruct Hq as [Hc Hg].
    apply Z.eqb_eq in Hc. apply Z.eqb_eq in Hg.
    apply (pock_step N P c q); auto.
    rewrite powm_spec, Z2Pos.id in Hc by (destruct Hqp; lia). rewrite Hc. symmetry. apply Z.mod_small. lia. }
  assert (HP1 : 1 < P) by (destruct HP; auto).
  pose proof (prodZ_pos _ Hp). apply Z.divide_pos_le in Hdv; [|lia]. nia.
Qed.
