(** Loops with a binary iteration budget.

    [loop2 k f s] runs [f] at most 2^k times and stops at the first [Done].
    It models an unbounded C++ [while]: theorems show that the budget is never
    exhausted, i.e. the result is [Done _]. *)
From Verif Require Import Base.

Inductive step (S R : Type) : Type :=
| Next (s : S)
| Done (r : R).
Arguments Next {S R} s.
Arguments Done {S R} r.

Fixpoint loop2 {S R : Type} (k : nat) (f : S -> step S R) (s : S) : step S R :=
  match k with
  | O => f s
  | Datatypes.S k' =>
      match loop2 k' f s with
      | Next s' => loop2 k' f s'
      | Done r => Done r
      end
  end.

Section LoopRule.
Context {S R : Type}.
Variable f : S -> step S R.
Variable P : S -> Prop.
Variable Q : R -> Prop.
Variable m : S -> Z.
Hypothesis Hstep : forall s, P s ->
  match f s with
  | Next s' => P s' /\ 0 <= m s' < m s
  | Done r => Q r
  end.

Lemma loop2_inv k s : P s ->
  match loop2 k f s with
  | Next s' => P s' /\ 0 <= m s' <= m s - 2 ^ Z.of_nat k
  | Done r => Q r
  end.
Proof.
  revert s; induction k as [|k IH]; intros s Hs.
  - cbn [loop2]. specialize (Hstep s Hs). destruct (f s) as [s'|r]; auto.
    destruct Hstep as [H1 H2]. split; auto. change (2 ^ Z.of_nat 0) with 1. lia.
  - cbn [loop2]. pose proof (IH s Hs) as H1. destruct (loop2 k f s) as [s'|r]; auto.
    destruct H1 as [H1 H2]. pose proof (IH s' H1) as H3.
    destruct (loop2 k f s') as [s''|r]; auto. destruct H3 as [H3 H4].
    split; auto. rewrite Nat2Z.inj_succ, Z.pow_succ_r by lia. lia.
Qed.

Lemma loop2_total k s : P s -> m s < 2 ^ Z.of_nat k ->
  exists r, loop2 k f s = Done r /\ Q r.
Proof.
  intros Hs Hk. pose proof (loop2_inv k s Hs) as H.
  destruct (loop2 k f s) as [s'|r].
  - destruct H as [_ H]. lia.
  - exists r. auto.
Qed.
End LoopRule.

(** A loop whose body may also leave with an outcome other than [Ok]. *)
Definition loopR {S R : Type} (k : nat) (f : S -> res (step S R)) (s : S) : res R :=
  match loop2 k (fun s => match f s with
                          | Ok (Next s') => Next s'
                          | Ok (Done r) => Done (Ok r)
                          | Exit => Done Exit
                          | Throw => Done Throw
                          | UB => Done UB
                          | Diverge => Done Diverge
                          end) s with
  | Next _ => Diverge
  | Done r => r
  end.

Lemma loopR_total {S R : Type} (f : S -> res (step S R)) (P : S -> Prop) (Q : R -> Prop) (m : S -> Z)
  (Hstep : forall s, P s ->
    match f s with
    | Ok (Next s') => P s' /\ 0 <= m s' < m s
    | Ok (Done r) => Q r
    | _ => False
    end) k s : P s -> m s < 2 ^ Z.of_nat k ->
  exists r, loopR k f s = Ok r /\ Q r.
Proof.
  intros Hs Hk. unfold loopR.
  match goal with |- context [loop2 k ?g s] =>
    destruct (loop2_total g P (fun r => exists a, r = Ok a /\ Q a) m) with (k := k) (s := s)
      as (r & E & a & -> & Ha); auto end.
  - clear s Hs Hk. intros s Hs. specialize (Hstep s Hs).
    destruct (f s) as [[s'|r]| | | |]; auto; try contradiction. exists r. auto.
  - rewrite E. exists a. auto.
Qed.
