(** Reasoning about X64: weakest preconditions for straight-line blocks ([wps]) and for
    whole programs ([wp]), and the arithmetic of one instruction. *)
From Coq Require Import ZArith List Bool Lia.
From Verif Require Import Base X64.
Import ListNotations.
Local Open Scope Z_scope.

(** a block of instructions without jumps runs from [s] to a state in [Q] *)
Fixpoint wps (l : code) (s : state) (Q : state -> Prop) : Prop :=
  match l with
  | [] => Q s
  | i :: l' => exists s', ex1 i s = Some s' /\ wps l' s' Q
  end.
(** the program [c], started at [pc], is left in a state (address, registers ...) in [Q] *)
Definition wp (c : code) (pc : Z) (s : state) (Q : Z -> state -> Prop) : Prop :=
  exists n t s', run n c pc s = Ok (t, s') /\ Q t s'.
(** the instructions [l] stand at position [pc] of [c] *)
Definition at_ (c : code) (pc : Z) (l : code) : Prop :=
  0 <= pc /\ forall k i, fetch l k = Some i -> fetch c (pc + k) = Some i.

Lemma wps_app l1 l2 s Q : wps l1 s (fun s' => wps l2 s' Q) -> wps (l1 ++ l2) s Q.
Proof.
  revert s. induction l1 as [|i l IH]; intros s; cbn; [auto|].
  intros [s' [E H]]. exists s'. auto.
Qed.
Lemma wps_mono l s (Q R : state -> Prop) : wps l s Q -> (forall s', Q s' -> R s') -> wps l s R.
Proof.
  revert s. induction l as [|i l IH]; intros s; cbn; [auto|].
  intros [s' [E H]] HR. exists s'. auto.
Qed.

Lemma wp_mono c pc s (Q R : Z -> state -> Prop) : wp c pc s Q -> (forall t s', Q t s' -> R t s') -> wp c pc s R.
Proof. intros (n & t & s' & E & H) HR. exists n, t, s'. auto. Qed.
Lemma wp_done c pc s (Q : Z -> state -> Prop) : fetch c pc = None -> Q pc s -> wp c pc s Q.
Proof. intros E H. exists 1%nat, pc, s. cbn. rewrite E. auto. Qed.
Lemma wp_ex c pc i s s' Q : fetch c pc = Some i -> ex1 i s = Some s' -> wp c (pc + 1) s' Q -> wp c pc s Q.
Proof.
  intros E1 E2 (n & t & s2 & E & H). exists (S n), t, s2. split; [|exact H]. cbn [run]. rewrite E1.
  destruct i; try (rewrite E2; exact E); cbn in E2; discriminate E2.
Qed.
Lemma wp_jmp c pc l t s Q : fetch c pc = Some (Jmp l) -> find c l 0 = Some t -> wp c t s Q -> wp c pc s Q.
Proof.
  intros E1 E2 (n & t' & s2 & E & H). exists (S n), t', s2. split; [|exact H]. cbn [run]. rewrite E1, E2. exact E.
Qed.
Lemma wp_jcc c pc k l t b s Q : fetch c pc = Some (Jcc k l) -> find c l 0 = Some t -> holds k (fl s) = Some b ->
  (b = true -> wp c t s Q) -> (b = false -> wp c (pc + 1) s Q) -> wp c pc s Q.
Proof.
  intros E1 E2 E3 HT HF. destruct b.
  - destruct (HT eq_refl) as (n & t' & s2 & E & H). exists (S n), t', s2. split; [|exact H].
    cbn [run]. rewrite E1, E2, E3. exact E.
  - destruct (HF eq_refl) as (n & t' & s2 & E & H). exists (S n), t', s2. split; [|exact H].
    cbn [run]. rewrite E1, E2, E3. exact E.
Qed.
Lemma wp_ret c pc t s Q : fetch c pc = Some Ret -> mem s (rsp (rg s)) = Some t ->
  wp c t (mkSt (setr (rg s) RSP ((rsp (rg s) + 8) mod B)) (xm s) (fl s) (mem s)) Q -> wp c pc s Q.
Proof.
  intros E1 E2 (n & t' & s2 & E & H). exists (S n), t', s2. split; [|exact H]. cbn [run]. rewrite E1, E2. exact E.
Qed.
Lemma wp_call c pc l t w s Q : fetch c pc = Some (Call l) -> find c l 0 = Some t ->
  mem s ((rsp (rg s) - 8) mod B) = Some w ->
  wp c t (mkSt (setr (rg s) RSP ((rsp (rg s) - 8) mod B)) (xm s) (fl s) (mset (mem s) ((rsp (rg s) - 8) mod B) (pc + 1))) Q ->
  wp c pc s Q.
Proof.
  intros E1 E2 E3 (n & t' & s2 & E & H). exists (S n), t', s2. split; [|exact H]. cbn [run]. rewrite E1, E2, E3. exact E.
Qed.

Lemma fetch_neg c k : k < 0 -> fetch c k = None.
Proof.
  revert k. induction c as [|i c IH]; intros k H; cbn; [reflexivity|].
  destruct (Z.eqb_spec k 0); [lia|]. apply IH. lia.
Qed.
Lemma fetch_len c k : Z.of_nat (length c) <= k -> fetch c k = None.
Proof.
  revert k. induction c as [|i c IH]; intros k H; cbn; [reflexivity|].
  cbn [length] in H. destruct (Z.eqb_spec k 0); [lia|]. apply IH. lia.
Qed.
Lemma at_cons c pc i l : at_ c pc (i :: l) -> fetch c pc = Some i /\ at_ c (pc + 1) l.
Proof.
  intros [H0 H]. split.
  - generalize (H 0 i eq_refl). rewrite Z.add_0_r. auto.
  - split; [lia|]. intros k j E. replace (pc + 1 + k) with (pc + (k + 1)) by lia. apply H. cbn [fetch].
    assert (Hk : 0 <= k). { destruct (Z.lt_ge_cases k 0) as [L|L]; [|exact L]. rewrite fetch_neg in E by exact L. discriminate. }
    destruct (Z.eqb_spec (k + 1) 0); [lia|]. replace (k + 1 - 1) with k by lia. exact E.
Qed.
Lemma at_app c pc l1 l2 : at_ c pc (l1 ++ l2) -> at_ c pc l1 /\ at_ c (pc + Z.of_nat (length l1)) l2.
Proof.
  revert pc. induction l1 as [|i l1 IH]; intros pc H.
  - split; [split; [apply H|intros k j E; discriminate]|]. cbn. rewrite Z.add_0_r. exact H.
  - cbn [app] in H. destruct (at_cons _ _ _ _ H) as [E H2]. destruct (IH _ H2) as [H3 H4]. split.
    + split; [apply H|]. intros k j Ek. cbn [fetch] in Ek. destruct (Z.eqb_spec k 0) as [->|N].
      * rewrite Z.add_0_r. congruence.
      * replace (pc + k) with (pc + 1 + (k - 1)) by lia. apply H3. exact Ek.
    + cbn [length]. replace (pc + Z.of_nat (S (length l1))) with (pc + 1 + Z.of_nat (length l1)) by lia. exact H4.
Qed.
Lemma at_self c : at_ c 0 c.
Proof. split; [lia|]. intros k i E. exact E. Qed.
Lemma wp_block c pc l s Q : at_ c pc l -> wps l s (fun s' => wp c (pc + Z.of_nat (length l)) s' Q) -> wp c pc s Q.
Proof.
  revert pc s. induction l as [|i l IH]; intros pc s Ha; cbn [wps length].
  - cbn. rewrite Z.add_0_r. auto.
  - intros [s' [E H]]. destruct (at_cons _ _ _ _ Ha) as [E1 H1]. eapply wp_ex; [exact E1|exact E|].
    apply IH; [exact H1|]. eapply wps_mono; [exact H|]. intros s2 H2.
    replace (pc + 1 + Z.of_nat (length l)) with (pc + Z.of_nat (S (length l))) by lia. exact H2.
Qed.
(** by computation *)
Definition at_b (c : code) (pc : nat) (l : code) : Prop := firstn (length l) (skipn pc c) = l.
Lemma fetch_app c d k : Z.of_nat (length c) <= k -> fetch (c ++ d) k = fetch d (k - Z.of_nat (length c)).
Proof.
  revert k. induction c as [|i c IH]; intros k H; cbn [app length fetch] in *.
  - f_equal. lia.
  - destruct (Z.eqb_spec k 0); [lia|]. rewrite IH by lia. f_equal. lia.
Qed.
Lemma fetch_app_l c d k i : fetch c k = Some i -> fetch (c ++ d) k = Some i.
Proof.
  revert k. induction c as [|j c IH]; intros k H; cbn in *; [discriminate|].
  destruct (k =? 0); [exact H|]. apply IH. exact H.
Qed.
Lemma at_compute c pc l : at_b c pc l -> (pc <= length c)%nat -> at_ c (Z.of_nat pc) l.
Proof.
  intros H HL. split; [lia|]. intros k i E.
  assert (Hk : 0 <= k). { destruct (Z.lt_ge_cases k 0) as [L|L]; [|exact L]. rewrite fetch_neg in E by exact L. discriminate. }
  rewrite <- (firstn_skipn pc c). assert (Lf : length (firstn pc c) = pc) by (apply firstn_length_le; exact HL).
  rewrite fetch_app; rewrite Lf; [|lia]. replace (Z.of_nat pc + k - Z.of_nat pc) with k by lia.
  rewrite <- (firstn_skipn (length l) (skipn pc c)). rewrite H. apply fetch_app_l. exact E.
Qed.

(** ** Memory *)
Lemma mset_eq m a b v : b = a -> mset m a v b = Some v.
Proof. intros ->. unfold mset. rewrite Z.eqb_refl. reflexivity. Qed.
Lemma mset_ne m a b v : b <> a -> mset m a v b = m b.
Proof. intros H. unfold mset. apply Z.eqb_neq in H. rewrite H. reflexivity. Qed.

(** ** One instruction of a block *)
(** Facts kept out of the sight of [lia] while a block is executed. *)
Definition EQ (a b : Z) : Prop := a = b.

Section One.
  Variables (l : code) (g : regs) (x : xregs) (f : flags) (m : memory) (Q : state -> Prop).
  Lemma wps_mov d o v : rd (mkSt g x f m) o = Some v -> wps l (mkSt (setr g d v) x f m) Q ->
    wps (Mov (R d) o :: l) (mkSt g x f m) Q.
  Proof. intros E H. exists (mkSt (setr g d v) x f m). cbn [ex1]. rewrite E. split; [reflexivity|exact H]. Qed.
  Lemma wps_store a s k w : ea g a = k -> m k = Some w -> wps l (mkSt g x f (mset m k (getr g s))) Q ->
    wps (Mov (M a) (R s) :: l) (mkSt g x f m) Q.
  Proof.
    intros <- E H. exists (mkSt g x f (mset m (ea g a) (getr g s))). split; [|exact H].
    cbn [ex1 rd wr rg mem xm fl]. rewrite E. reflexivity.
  Qed.
  Lemma wps_lea d a k : ea g a = k -> wps l (mkSt (setr g d k) x f m) Q -> wps (Lea d a :: l) (mkSt g x f m) Q.
  Proof. intros <- H. exists (mkSt (setr g d (ea g a)) x f m). split; [reflexivity|exact H]. Qed.
  Lemma wps_lab k : wps l (mkSt g x f m) Q -> wps (Lab k :: l) (mkSt g x f m) Q.
  Proof. intros H. exists (mkSt g x f m). split; [reflexivity|exact H]. Qed.

  Lemma wps_add d o b : rd (mkSt g x f m) o = Some b -> isU (getr g d) -> isU b ->
    (forall z k, isU z -> EQ (z + B * Z.b2z k) (getr g d + b) ->
       wps l (mkSt (setr g d z) x (mkF (Some k) (Some (z =? 0)) None) m) Q) ->
    wps (Add (R d) o :: l) (mkSt g x f m) Q.
  Proof.
    intros E H1 H2 H. unfold isU, EQ in *. pose proof B_pos.
    exists (mkSt (setr g d ((getr g d + b) mod B)) x (fadd (getr g d + b)) m). split.
    - cbn [ex1]. unfold bin. rewrite E. cbn. reflexivity.
    - apply H; [apply Z.mod_pos_bound; assumption|].
      rewrite Z.mod_eq by lia. destruct (Z.leb_spec B (getr g d + b)); cbn [Z.b2z].
      + replace ((getr g d + b) / B) with 1; [lia|]. apply (Z.div_unique _ _ _ (getr g d + b - B)); lia.
      + rewrite Z.div_small; lia.
  Qed.
  Lemma wps_adc d o b c : rd (mkSt g x f m) o = Some b -> cf f = Some c -> isU (getr g d) -> isU b ->
    (forall z k, isU z -> EQ (z + B * Z.b2z k) (getr g d + b + Z.b2z c) ->
       wps l (mkSt (setr g d z) x (mkF (Some k) (Some (z =? 0)) None) m) Q) ->
    wps (Adc (R d) o :: l) (mkSt g x f m) Q.
  Proof.
    intros E Ec H1 H2 H. unfold isU, EQ in *. pose proof B_pos.
    assert (Hc : 0 <= Z.b2z c <= 1) by (destruct c; cbn; lia).
    exists (mkSt (setr g d ((getr g d + b + Z.b2z c) mod B)) x (fadd (getr g d + b + Z.b2z c)) m). split.
    - cbn [ex1]. unfold withc, bin. cbn [fl]. rewrite Ec, E. cbn. reflexivity.
    - apply H; [apply Z.mod_pos_bound; assumption|].
      rewrite Z.mod_eq by lia. destruct (Z.leb_spec B (getr g d + b + Z.b2z c)); cbn [Z.b2z].
      + replace ((getr g d + b + Z.b2z c) / B) with 1; [lia|].
        apply (Z.div_unique _ _ _ (getr g d + b + Z.b2z c - B)); lia.
      + rewrite Z.div_small; lia.
  Qed.
  Lemma sub_eq a b c : 0 <= a < B -> 0 <= b < B -> 0 <= c <= 1 ->
    (a - b - c) mod B = a - b - c + B * Z.b2z (a - b - c <? 0).
  Proof.
    intros H1 H2 H3. destruct (Z.ltb_spec (a - b - c) 0); cbn [Z.b2z].
    - symmetry. apply (Z.mod_unique _ _ (-1)); lia.
    - rewrite Z.mod_small; lia.
  Qed.
  Lemma wps_sub d o b : rd (mkSt g x f m) o = Some b -> isU (getr g d) -> isU b ->
    (forall z k, isU z -> EQ z (getr g d - b + B * Z.b2z k) ->
       wps l (mkSt (setr g d z) x (mkF (Some k) (Some (z =? 0)) (Some (signed (getr g d) <? signed b))) m) Q) ->
    wps (Sub (R d) o :: l) (mkSt g x f m) Q.
  Proof.
    intros E H1 H2 H. unfold isU, EQ in *. pose proof B_pos.
    exists (mkSt (setr g d ((getr g d - b) mod B)) x (fsub (getr g d) b 0) m). split.
    - cbn [ex1]. unfold bin. rewrite E. cbn. reflexivity.
    - unfold fsub. rewrite !Z.sub_0_r, Z.add_0_r. apply H; [apply Z.mod_pos_bound; assumption|].
      pose proof (sub_eq (getr g d) b 0 H1 H2). rewrite !Z.sub_0_r in *. lia.
  Qed.
  Lemma wps_sbb d o b c : rd (mkSt g x f m) o = Some b -> cf f = Some c -> isU (getr g d) -> isU b ->
    (forall z k, isU z -> EQ z (getr g d - b - Z.b2z c + B * Z.b2z k) ->
       wps l (mkSt (setr g d z) x (mkF (Some k) (Some (z =? 0)) (Some (signed (getr g d) <? signed b + Z.b2z c))) m) Q) ->
    wps (Sbb (R d) o :: l) (mkSt g x f m) Q.
  Proof.
    intros E Ec H1 H2 H. unfold isU, EQ in *. pose proof B_pos.
    assert (Hc : 0 <= Z.b2z c <= 1) by (destruct c; cbn; lia).
    exists (mkSt (setr g d ((getr g d - b - Z.b2z c) mod B)) x (fsub (getr g d) b (Z.b2z c)) m). split.
    - cbn [ex1]. unfold withc, bin. cbn [fl]. rewrite Ec, E. cbn. reflexivity.
    - unfold fsub. apply H; [apply Z.mod_pos_bound; assumption|].
      pose proof (sub_eq (getr g d) b (Z.b2z c) H1 H2 Hc). lia.
  Qed.
  Lemma wps_cmp d o b : rd (mkSt g x f m) o = Some b -> isU (getr g d) -> isU b ->
    wps l (mkSt g x (mkF (Some (getr g d <? b)) (Some (getr g d =? b)) (Some (signed (getr g d) <? signed b))) m) Q ->
    wps (Cmp (R d) o :: l) (mkSt g x f m) Q.
  Proof.
    intros E H1 H2 H. unfold isU, EQ in *. pose proof B_pos.
    exists (mkSt g x (fsub (getr g d) b 0) m). split.
    - cbn [ex1]. unfold bin. rewrite E. cbn. reflexivity.
    - unfold fsub. pose proof (sub_eq (getr g d) b 0 H1 H2) as S. rewrite !Z.sub_0_r in *. rewrite Z.add_0_r.
      replace ((getr g d - b) mod B =? 0) with (getr g d =? b) by lia.
      replace (getr g d - b <? 0) with (getr g d <? b) by lia. exact H.
  Qed.
  Lemma wps_mul o b : rd (mkSt g x f m) o = Some b -> isU (rax g) -> isU b ->
    (forall lo hi, isU lo -> isU hi -> EQ (lo + B * hi) (rax g * b) ->
       wps l (mkSt (setr (setr g RAX lo) RDX hi) x noF m) Q) ->
    wps (Mul o :: l) (mkSt g x f m) Q.
  Proof.
    intros E H1 H2 H. unfold isU, EQ in *. pose proof B_pos.
    exists (mkSt (setr (setr g RAX ((rax g * b) mod B)) RDX ((rax g * b) / B)) x noF m). split.
    - cbn [ex1]. rewrite E. reflexivity.
    - apply H; [apply Z.mod_pos_bound; assumption| |].
      + split; [apply Z.div_pos; nia|apply Z.div_lt_upper_bound; nia].
      + rewrite Z.mod_eq by lia. lia.
  Qed.
  Lemma wps_mulx hr lr o b : rd (mkSt g x f m) o = Some b -> isU (rdx g) -> isU b ->
    (forall lo hi, isU lo -> isU hi -> EQ (lo + B * hi) (rdx g * b) ->
       wps l (mkSt (setr (setr g lr lo) hr hi) x f m) Q) ->
    wps (Mulx hr lr o :: l) (mkSt g x f m) Q.
  Proof.
    intros E H1 H2 H. unfold isU, EQ in *. pose proof B_pos.
    exists (mkSt (setr (setr g lr ((rdx g * b) mod B)) hr ((rdx g * b) / B)) x f m). split.
    - cbn [ex1]. rewrite E. reflexivity.
    - apply H; [apply Z.mod_pos_bound; assumption| |].
      + split; [apply Z.div_pos; nia|apply Z.div_lt_upper_bound; nia].
      + rewrite Z.mod_eq by lia. lia.
  Qed.
  Lemma wps_div o : isU (rax g) -> 0 <= rdx g < getr g o -> getr g o < B ->
    (forall q r, isU q -> 0 <= r < getr g o -> q = (rdx g * B + rax g) / getr g o -> r = (rdx g * B + rax g) mod getr g o ->
       wps l (mkSt (setr (setr g RAX q) RDX r) x noF m) Q) ->
    wps (Div o :: l) (mkSt g x f m) Q.
  Proof.
    intros H1 H2 H3 H. unfold isU, EQ in *. pose proof B_pos. eexists. split.
    - cbn [ex1 rg xm fl mem]. replace (rdx g <? getr g o) with true by lia. reflexivity.
    - apply H; try reflexivity.
      + split; [apply Z.div_pos; nia|apply Z.div_lt_upper_bound; nia].
      + apply Z.mod_pos_bound. lia.
  Qed.
  Lemma wps_setc c : cf f = Some c -> 0 <= rax g < 256 -> wps l (mkSt (setr g RAX (Z.b2z c)) x f m) Q ->
    wps (SetcAl :: l) (mkSt g x f m) Q.
  Proof.
    intros Ec H0 H. eexists. split; [cbn [ex1]; unfold withc; cbn [fl]; rewrite Ec; reflexivity|].
    cbn [rg xm mem]. replace (rax g / 256) with 0 by (symmetry; apply Z.div_small; lia). exact H.
  Qed.
  Lemma wps_cmovc d o v c : cf f = Some c -> rd (mkSt g x f m) o = Some v ->
    wps l (mkSt (setr g d (if c then v else getr g d)) x f m) Q ->
    wps (Cmovc d o :: l) (mkSt g x f m) Q.
  Proof.
    intros Ec E H. eexists. split; [cbn [ex1]; unfold withc; cbn [fl]; rewrite Ec, E; reflexivity|].
    destruct c; exact H.
  Qed.
  Lemma wps_movqx d o : wps l (mkSt g (setx x d (getr g o)) f m) Q -> wps (MovqX d o :: l) (mkSt g x f m) Q.
  Proof. intros H. eexists. split; [reflexivity|exact H]. Qed.
  Lemma wps_movqr d o : wps l (mkSt (setr g d (getx x o)) x f m) Q -> wps (MovqR d o :: l) (mkSt g x f m) Q.
  Proof. intros H. eexists. split; [reflexivity|exact H]. Qed.
  Lemma wps_and d o b : rd (mkSt g x f m) o = Some b ->
    wps l (mkSt (setr g d (Z.land (getr g d) b)) x (flog (Z.land (getr g d) b)) m) Q -> wps (And (R d) o :: l) (mkSt g x f m) Q.
  Proof. intros E H. eexists. split; [cbn [ex1]; unfold bin; rewrite E; reflexivity|exact H]. Qed.
  Lemma wps_or d o b : rd (mkSt g x f m) o = Some b ->
    wps l (mkSt (setr g d (Z.lor (getr g d) b)) x (flog (Z.lor (getr g d) b)) m) Q -> wps (Or (R d) o :: l) (mkSt g x f m) Q.
  Proof. intros E H. eexists. split; [cbn [ex1]; unfold bin; rewrite E; reflexivity|exact H]. Qed.
  Lemma wps_xor_self d : wps l (mkSt (setr g d 0) x (mkF (Some false) (Some true) (Some false)) m) Q -> wps (Xor (R d) (R d) :: l) (mkSt g x f m) Q.
  Proof.
    intros H. eexists. split; [cbn [ex1]; unfold bin; cbn [rd]; reflexivity|]. cbn [rg xm mem].
    rewrite Z.lxor_nilpotent. exact H.
  Qed.
  (** additions and subtractions of addresses and counters, known not to wrap *)
  Lemma wps_add_ex d o b : rd (mkSt g x f m) o = Some b -> 0 <= getr g d + b < B ->
    wps l (mkSt (setr g d (getr g d + b)) x (mkF (Some false) (Some (getr g d + b =? 0)) None) m) Q ->
    wps (Add (R d) o :: l) (mkSt g x f m) Q.
  Proof.
    intros E H1 H. eexists. split; [cbn [ex1]; unfold bin; rewrite E; reflexivity|]. cbn [rg xm mem]. unfold fadd.
    rewrite Z.mod_small by exact H1. replace (B <=? getr g d + b) with false by lia. exact H.
  Qed.
  Lemma wps_sub_ex d o b : rd (mkSt g x f m) o = Some b -> 0 <= getr g d - b < B ->
    wps l (mkSt (setr g d (getr g d - b)) x (mkF (Some false) (Some (getr g d - b =? 0)) (Some (signed (getr g d) <? signed b))) m) Q ->
    wps (Sub (R d) o :: l) (mkSt g x f m) Q.
  Proof.
    intros E H1 H. eexists. split; [cbn [ex1]; unfold bin; rewrite E; reflexivity|]. cbn [rg xm mem]. unfold fsub.
    rewrite Z.sub_0_r, Z.add_0_r, Z.mod_small by lia. replace (getr g d - b <? 0) with false by lia. exact H.
  Qed.
  Lemma wps_dec d : isU (getr g d) -> 1 <= getr g d ->
    wps l (mkSt (setr g d (getr g d - 1)) x (mkF (cf f) (Some (getr g d - 1 =? 0)) None) m) Q ->
    wps (Dec d :: l) (mkSt g x f m) Q.
  Proof.
    unfold isU. intros H1 H2 H. eexists. split; [reflexivity|]. cbn [rg xm fl mem]. rewrite Z.mod_small by lia. exact H.
  Qed.
  (** any other instruction: by its definition *)
  Lemma wps_other i s : ex1 i (mkSt g x f m) = Some s -> wps l s Q -> wps (i :: l) (mkSt g x f m) Q.
  Proof. intros E H. exists s. auto. Qed.
End One.
