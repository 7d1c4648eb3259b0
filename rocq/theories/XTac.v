(** Symbolic execution of blocks; facts about words in memory. *)
From Coq Require Import ZArith List Bool Lia.
From Verif Require Import Base X64 XLog JitSpec.
Import ListNotations.
Local Open Scope Z_scope.

Lemma rd_mem g x f m a k v : ea g a = k -> m k = Some v -> rd (mkSt g x f m) (M a) = Some v.
Proof. intros <- E. exact E. Qed.
Lemma rd_imm s v : 0 <= v < B -> rd s (Im v) = Some v.
Proof. intros H. cbn. rewrite Z.mod_small by exact H. reflexivity. Qed.
Lemma rd_reg g x f m r v : getr g r = v -> rd (mkSt g x f m) (R r) = Some v.
Proof. intros <-. reflexivity. Qed.
Lemma mod_id a b : 0 <= a < B -> a = b -> a mod B = b.
Proof. intros H <-. apply Z.mod_small. exact H. Qed.
Lemma look_eq m a b v w : b = a -> v = w -> mset m a v b = Some w.
Proof. intros -> ->. apply mset_eq. reflexivity. Qed.
Lemma look_ne m a b v w : b <> a -> m b = Some w -> mset m a v b = Some w.
Proof. intros H <-. apply mset_ne. exact H. Qed.
Lemma look_at (m : memory) a b w : m a = Some w -> b = a -> m b = Some w.
Proof. intros H ->. exact H. Qed.

Ltac sr := cbn [setr getr rax rbx rcx rdx rsi rdi rbp rsp r8 r9 r10 r11 r12 r13 r14 r15
                setx getx xv0 xv1 xv2 xv3 xv4 xv5 rg xm fl mem cf zf lf].
Ltac look :=
  lazymatch goal with
  | |- mset _ _ _ _ = Some _ =>
      first [ apply look_ne; [solve [lia] | look] | apply look_eq; [solve [lia] | reflexivity] ]
  | |- ?m ?b = Some _ =>
      first [ eassumption
            | multimatch goal with H : m ?a = Some _ |- _ => apply (look_at m a b _ H); solve [lia] end ]
  end.
Ltac addr := cbn [ea]; sr; apply mod_id; [lia | reflexivity].
Ltac rdo :=
  lazymatch goal with
  | |- rd _ (R _) = _ => apply rd_reg; sr; reflexivity
  | |- rd _ (Im _) = _ => apply rd_imm; solve [rewrite B_val; lia]
  | |- rd _ (M _) = _ => eapply rd_mem; [addr | look]
  end.
Ltac bnd := sr; first [ assumption | unfold isU; rewrite ?B_val in *; lia ].
(** one instruction; new values get the names [z], [k] *)
Ltac st1 :=
  lazymatch goal with
  | |- wps (Mov (R _) _ :: _) _ _ => eapply wps_mov; [rdo | sr]
  | |- wps (Mov (M _) (R _) :: _) _ _ => eapply wps_store; [addr | look | sr]
  | |- wps (Lea _ _ :: _) _ _ => eapply wps_lea; [addr | sr]
  | |- wps (Lab _ :: _) _ _ => apply wps_lab
  | |- wps (Add (R _) _ :: _) _ _ => eapply wps_add; [rdo | bnd | bnd | sr; intros ? ? ? ?]
  | |- wps (Adc (R _) _ :: _) _ _ => eapply wps_adc; [rdo | reflexivity | bnd | bnd | sr; intros ? ? ? ?]
  | |- wps (Sub (R _) _ :: _) _ _ => eapply wps_sub; [rdo | bnd | bnd | sr; intros ? ? ? ?]
  | |- wps (Sbb (R _) _ :: _) _ _ => eapply wps_sbb; [rdo | reflexivity | bnd | bnd | sr; intros ? ? ? ?]
  | |- wps (Cmp (R _) _ :: _) _ _ => eapply wps_cmp; [rdo | bnd | bnd | sr]
  | |- wps (Mul _ :: _) _ _ => eapply wps_mul; [rdo | bnd | bnd | sr; intros ? ? ? ? ?]
  | |- wps (Mulx _ _ _ :: _) _ _ => eapply wps_mulx; [rdo | bnd | bnd | sr; intros ? ? ? ? ?]
  | |- wps (Div _ :: _) _ _ => eapply wps_div; [bnd | bnd | bnd | sr; intros ? ? ? ? ? ?]
  | |- wps (And (R _) _ :: _) _ _ => eapply wps_and; [rdo | sr]
  | |- wps (Or (R _) _ :: _) _ _ => eapply wps_or; [rdo | sr]
  | |- wps (Xor (R ?r) (R ?r) :: _) _ _ => apply wps_xor_self; sr
  | |- wps (Dec _ :: _) _ _ => eapply wps_dec; [bnd | sr; lia | sr]
  | |- wps (SetcAl :: _) _ _ => eapply wps_setc; [reflexivity | sr; lia | sr]
  | |- wps (Cmovc _ _ :: _) _ _ => eapply wps_cmovc; [reflexivity | rdo | sr]
  | |- wps (MovqX _ _ :: _) _ _ => apply wps_movqx; sr
  | |- wps (MovqR _ _ :: _) _ _ => apply wps_movqr; sr
  | |- wps (_ :: _) _ _ => eapply wps_other; [cbn [ex1 bin rd wr]; sr; reflexivity | sr]
  end.
Ltac sts := repeat st1.

(** ** Words *)
Lemma words_mset m a l b v : (b < a \/ a + 8 * Z.of_nat (length l) <= b) -> words m a l -> words (mset m b v) a l.
Proof.
  revert a. induction l as [|w l IH]; intros a H; cbn [words length] in *; [auto|].
  intros [E H2]. split; [rewrite mset_ne; [exact E|lia]|]. apply IH; [lia|exact H2].
Qed.
Lemma words_same m m' a l : (forall b, a <= b < a + 8 * Z.of_nat (length l) -> m' b = m b) -> words m a l -> words m' a l.
Proof.
  revert a. induction l as [|w l IH]; intros a H; cbn [words length] in *; [auto|].
  intros [E H2]. split; [rewrite H; [exact E|lia]|]. apply IH; [intros b Hb; apply H; lia|exact H2].
Qed.
Lemma mapped_mset m a n b v : mapped m a n -> mapped (mset m b v) a n.
Proof.
  revert a. induction n as [|n IH]; intros a; cbn [mapped]; [auto|].
  intros [[w E] H2]. split; [|auto]. unfold mset. destruct (a =? b); eexists; [reflexivity|exact E].
Qed.
Lemma same_refl m a n : same_but m m a n.
Proof. intros b _. reflexivity. Qed.
Lemma words_app m a l1 l2 : words m a (l1 ++ l2) <-> words m a l1 /\ words m (a + 8 * Z.of_nat (length l1)) l2.
Proof.
  revert a. induction l1 as [|v l IH]; intros a; cbn [app words length].
  - rewrite Z.add_0_r. tauto.
  - rewrite IH. replace (a + 8 * Z.of_nat (S (length l))) with (a + 8 + 8 * Z.of_nat (length l)) by lia. tauto.
Qed.
Lemma mapped_app m a i j : mapped m a (i + j) <-> mapped m a i /\ mapped m (a + 8 * Z.of_nat i) j.
Proof.
  revert a. induction i as [|i IH]; intros a; cbn [Nat.add mapped].
  - rewrite Z.add_0_r. tauto.
  - rewrite IH. replace (a + 8 * Z.of_nat (S i)) with (a + 8 + 8 * Z.of_nat i) by lia. tauto.
Qed.
Lemma mapped_keep m m' a n : (forall b v, m b = Some v -> exists w, m' b = Some w) -> mapped m a n -> mapped m' a n.
Proof.
  intros H. revert a. induction n as [|n IH]; intros a; cbn [mapped]; [auto|].
  intros [[v E] H2]. split; [exact (H _ _ E)|auto].
Qed.
Lemma mapped_words m a l : words m a l -> mapped m a (length l).
Proof.
  revert a. induction l as [|v l IH]; intros a; cbn [words mapped length]; [auto|].
  intros [E H]. split; [exists v; exact E|auto].
Qed.
Lemma at_comp c pc l : 0 <= pc -> (Z.to_nat pc <=? length c)%nat = true ->
  firstn (length l) (skipn (Z.to_nat pc) c) = l -> at_ c pc l.
Proof.
  intros H1 H2 H3. apply Nat.leb_le in H2. rewrite <- (Z2Nat.id pc) by exact H1. apply at_compute; assumption.
Qed.
(** the block [l] stands at [pc] *)
Ltac blk pc l :=
  apply (wp_block _ pc l); [apply at_comp; [lia | reflexivity | reflexivity] | cbn [length]].
Ltac pcs := repeat match goal with |- wp _ ?p _ _ =>
  lazymatch p with Z0 => fail | Zpos _ => fail | _ => let v := eval vm_compute in p in progress change p with v end end.
