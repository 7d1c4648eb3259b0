(** Execution of blocks over an abstract register file: what an instruction leaves alone
    ([keep]), what groups of registers hold ([regn]), four-word macros. *)
From Coq Require Import ZArith List Bool Lia.
From Verif Require Import Base Primes FpSpec Cfg X64 XLog JitSpec XTac.
Import ListNotations.
Local Open Scope Z_scope.

Lemma reqb_eq a b : reqb a b = true <-> a = b.
Proof. destruct a, b; cbn; split; congruence. Qed.
Lemma reqb_refl a : reqb a a = true.
Proof. destruct a; reflexivity. Qed.
Lemma reqb_sym a b : reqb a b = reqb b a.
Proof. destruct a, b; reflexivity. Qed.
Lemma getr_same g r v : getr (setr g r v) r = v.
Proof. destruct g, r; reflexivity. Qed.
Lemma getr_ne g r r' v : reqb r' r = false -> getr (setr g r v) r' = getr g r'.
Proof. destruct g, r, r'; intros H; try discriminate H; reflexivity. Qed.
Fixpoint inb (r : reg) (l : list reg) : bool :=
  match l with [] => false | a :: l' => if reqb r a then true else inb r l' end.
Fixpoint nodup (l : list reg) : bool :=
  match l with [] => true | a :: l' => if inb a l' then false else nodup l' end.
(** the registers outside [l] are the same *)
Definition keep (l : list reg) (g g' : regs) : Prop := forall r, inb r l = false -> getr g' r = getr g r.
Lemma inb_app r l l' : inb r (l ++ l') = false <-> inb r l = false /\ inb r l' = false.
Proof.
  induction l as [|a l IH]; cbn [app inb]; [tauto|]. destruct (reqb r a); [|exact IH]. intuition discriminate.
Qed.
Lemma keep_refl g : keep [] g g.
Proof. intros r _. reflexivity. Qed.
Lemma keep_trans l l' g g' g'' : keep l g g' -> keep l' g' g'' -> keep (l ++ l') g g''.
Proof. intros H1 H2 r E. apply inb_app in E. destruct E as [E1 E2]. rewrite H2, H1; auto. Qed.
(** [sub l l'] by computation *)
Fixpoint subb (l l' : list reg) : bool :=
  match l with [] => true | a :: t => if inb a l' then subb t l' else false end.
Lemma subb_ok l l' r : subb l l' = true -> inb r l' = false -> inb r l = false.
Proof.
  induction l as [|a l IH]; cbn [subb inb]; [auto|]. destruct (inb a l') eqn:E; [|discriminate].
  intros H1 H2. destruct (reqb r a) eqn:Er; [|auto]. apply reqb_eq in Er. subst a. congruence.
Qed.
Lemma keep_sub l l' g g' : subb l l' = true -> keep l g g' -> keep l' g g'.
Proof. intros H1 H2 r E. apply H2. exact (subb_ok _ _ _ H1 E). Qed.
Lemma keep_setr g r v : keep [r] g (setr g r v).
Proof. intros r' E. cbn in E. destruct (reqb r' r) eqn:E'; [discriminate|]. apply getr_ne. exact E'. Qed.

(** ** Addresses *)
Lemma ea_ad g b d v k : getr g b = v -> 0 <= v + d < B -> v + d = k -> ea g (Ad b d) = k.
Proof. intros <- H <-. cbn [ea]. apply Z.mod_small. exact H. Qed.

(** ** One instruction *)
Section OneK.
  Variables (l : code) (g : regs) (x : xregs) (f : flags) (m : memory) (Q : state -> Prop).
  Lemma k_mov d o v : rd (mkSt g x f m) o = Some v ->
    (forall g', keep [d] g g' -> getr g' d = v -> wps l (mkSt g' x f m) Q) ->
    wps (Mov (R d) o :: l) (mkSt g x f m) Q.
  Proof. intros E H. eapply wps_mov; [exact E|]. apply H; [apply keep_setr|apply getr_same]. Qed.
  Lemma k_store a s k w v : ea g a = k -> m k = Some w -> getr g s = v -> wps l (mkSt g x f (mset m k v)) Q ->
    wps (Mov (M a) (R s) :: l) (mkSt g x f m) Q.
  Proof. intros E1 E2 <- H. eapply wps_store; [exact E1|exact E2|exact H]. Qed.
  Lemma k_lea d a k : ea g a = k -> (forall g', keep [d] g g' -> getr g' d = k -> wps l (mkSt g' x f m) Q) ->
    wps (Lea d a :: l) (mkSt g x f m) Q.
  Proof. intros E H. eapply wps_lea; [exact E|]. apply H; [apply keep_setr|apply getr_same]. Qed.
  Lemma k_add d o a b : getr g d = a -> rd (mkSt g x f m) o = Some b -> isU a -> isU b ->
    (forall z k g' f', isU z -> EQ (z + B * Z.b2z k) (a + b) -> keep [d] g g' -> getr g' d = z -> cf f' = Some k -> wps l (mkSt g' x f' m) Q) ->
    wps (Add (R d) o :: l) (mkSt g x f m) Q.
  Proof. intros <- E H1 H2 H. eapply wps_add; [exact E|exact H1|exact H2|]. intros z k Uz Ez. eapply H; eauto using keep_setr, getr_same. Qed.
  Lemma k_adc d o a b c : getr g d = a -> rd (mkSt g x f m) o = Some b -> cf f = Some c -> isU a -> isU b ->
    (forall z k g' f', isU z -> EQ (z + B * Z.b2z k) (a + b + Z.b2z c) -> keep [d] g g' -> getr g' d = z -> cf f' = Some k -> wps l (mkSt g' x f' m) Q) ->
    wps (Adc (R d) o :: l) (mkSt g x f m) Q.
  Proof. intros <- E Ec H1 H2 H. eapply wps_adc; [exact E|exact Ec|exact H1|exact H2|]. intros z k Uz Ez. eapply H; eauto using keep_setr, getr_same. Qed.
  Lemma k_sub d o a b : getr g d = a -> rd (mkSt g x f m) o = Some b -> isU a -> isU b ->
    (forall z k g' f', isU z -> EQ z (a - b + B * Z.b2z k) -> keep [d] g g' -> getr g' d = z -> cf f' = Some k -> wps l (mkSt g' x f' m) Q) ->
    wps (Sub (R d) o :: l) (mkSt g x f m) Q.
  Proof. intros <- E H1 H2 H. eapply wps_sub; [exact E|exact H1|exact H2|]. intros z k Uz Ez. eapply H; eauto using keep_setr, getr_same. Qed.
  Lemma k_sbb d o a b c : getr g d = a -> rd (mkSt g x f m) o = Some b -> cf f = Some c -> isU a -> isU b ->
    (forall z k g' f', isU z -> EQ z (a - b - Z.b2z c + B * Z.b2z k) -> keep [d] g g' -> getr g' d = z -> cf f' = Some k -> wps l (mkSt g' x f' m) Q) ->
    wps (Sbb (R d) o :: l) (mkSt g x f m) Q.
  Proof. intros <- E Ec H1 H2 H. eapply wps_sbb; [exact E|exact Ec|exact H1|exact H2|]. intros z k Uz Ez. eapply H; eauto using keep_setr, getr_same. Qed.
  (** sbb r, r: 0 or -1, whatever r holds *)
  Lemma k_sbb_self d c : cf f = Some c ->
    (forall g' f', keep [d] g g' -> getr g' d = (if c then B - 1 else 0) -> wps l (mkSt g' x f' m) Q) ->
    wps (Sbb (R d) (R d) :: l) (mkSt g x f m) Q.
  Proof.
    intros Ec H. eapply wps_other.
    - cbn [ex1]. unfold withc. cbn [fl]. rewrite Ec. unfold bin. cbn [rd rg wr]. reflexivity.
    - cbn [xm mem rg]. apply H; [apply keep_setr|]. rewrite getr_same. pose proof B_pos. destruct c; cbn [Z.b2z].
      + symmetry. apply (Z.mod_unique _ _ (-1)); lia.
      + rewrite Z.mod_small; lia.
  Qed.
  Lemma k_and d o a b : getr g d = a -> rd (mkSt g x f m) o = Some b ->
    (forall g' f', keep [d] g g' -> getr g' d = Z.land a b -> zf f' = Some (Z.land a b =? 0) -> wps l (mkSt g' x f' m) Q) -> wps (And (R d) o :: l) (mkSt g x f m) Q.
  Proof. intros <- E H. eapply wps_and; [exact E|]. apply H; [apply keep_setr|apply getr_same|reflexivity]. Qed.
  Lemma k_or d o a b : getr g d = a -> rd (mkSt g x f m) o = Some b ->
    (forall g' f', keep [d] g g' -> getr g' d = Z.lor a b -> zf f' = Some (Z.lor a b =? 0) -> wps l (mkSt g' x f' m) Q) -> wps (Or (R d) o :: l) (mkSt g x f m) Q.
  Proof. intros <- E H. eapply wps_or; [exact E|]. apply H; [apply keep_setr|apply getr_same|reflexivity]. Qed.
  Lemma k_cmovc d o a v c : getr g d = a -> cf f = Some c -> rd (mkSt g x f m) o = Some v ->
    (forall g', keep [d] g g' -> getr g' d = (if c then v else a) -> wps l (mkSt g' x f m) Q) ->
    wps (Cmovc d o :: l) (mkSt g x f m) Q.
  Proof. intros <- Ec E H. eapply wps_cmovc; [exact Ec|exact E|]. apply H; [apply keep_setr|apply getr_same]. Qed.
  Lemma k_mul o a b : getr g RAX = a -> rd (mkSt g x f m) o = Some b -> isU a -> isU b ->
    (forall lo hi g' f', isU lo -> isU hi -> EQ (lo + B * hi) (a * b) -> keep [RAX; RDX] g g' -> getr g' RAX = lo -> getr g' RDX = hi -> wps l (mkSt g' x f' m) Q) ->
    wps (Mul o :: l) (mkSt g x f m) Q.
  Proof.
    intros <- E H1 H2 H. eapply wps_mul; [exact E|exact H1|exact H2|]. intros lo hi U1 U2 E2. apply (H lo hi); [exact U1|exact U2|exact E2| | |].
    - intros r Er. cbn [inb] in Er. destruct (reqb r RAX) eqn:E3; [discriminate|]. destruct (reqb r RDX) eqn:E4; [discriminate|].
      rewrite !getr_ne; auto.
    - rewrite getr_ne by reflexivity. apply getr_same.
    - apply getr_same.
  Qed.
  Lemma k_mulx hr lr o a b : reqb lr hr = false -> getr g RDX = a -> rd (mkSt g x f m) o = Some b -> isU a -> isU b ->
    (forall lo hi g', isU lo -> isU hi -> EQ (lo + B * hi) (a * b) -> keep [lr; hr] g g' -> getr g' lr = lo -> getr g' hr = hi -> wps l (mkSt g' x f m) Q) ->
    wps (Mulx hr lr o :: l) (mkSt g x f m) Q.
  Proof.
    intros D <- E H1 H2 H. eapply wps_mulx; [exact E|exact H1|exact H2|]. intros lo hi U1 U2 E2. apply (H lo hi); [exact U1|exact U2|exact E2| | |].
    - intros r Er. cbn [inb] in Er. destruct (reqb r lr) eqn:E3; [discriminate|]. destruct (reqb r hr) eqn:E4; [discriminate|].
      rewrite !getr_ne; auto.
    - rewrite getr_ne by exact D. apply getr_same.
    - apply getr_same.
  Qed.
  Lemma k_movqx d o v : getr g o = v -> wps l (mkSt g (setx x d v) f m) Q -> wps (MovqX d o :: l) (mkSt g x f m) Q.
  Proof. intros <- H. apply wps_movqx. exact H. Qed.
  Lemma k_movqr d o v : getx x o = v -> (forall g', keep [d] g g' -> getr g' d = v -> wps l (mkSt g' x f m) Q) -> wps (MovqR d o :: l) (mkSt g x f m) Q.
  Proof. intros <- H. apply wps_movqr. apply H; [apply keep_setr|apply getr_same]. Qed.
  (** pointers and counters, known not to wrap *)
  Lemma k_addx d o a b : getr g d = a -> rd (mkSt g x f m) o = Some b -> 0 <= a + b < B ->
    (forall g' f', keep [d] g g' -> getr g' d = a + b -> wps l (mkSt g' x f' m) Q) -> wps (Add (R d) o :: l) (mkSt g x f m) Q.
  Proof. intros <- E H1 H. eapply wps_add_ex; [exact E|exact H1|]. apply H; [apply keep_setr|apply getr_same]. Qed.
  Lemma k_subx d o a b : getr g d = a -> rd (mkSt g x f m) o = Some b -> 0 <= a - b < B ->
    (forall g' f', keep [d] g g' -> getr g' d = a - b -> wps l (mkSt g' x f' m) Q) -> wps (Sub (R d) o :: l) (mkSt g x f m) Q.
  Proof. intros <- E H1 H. eapply wps_sub_ex; [exact E|exact H1|]. apply H; [apply keep_setr|apply getr_same]. Qed.
  Lemma k_shr d n a : getr g d = a ->
    (forall g' f', keep [d] g g' -> getr g' d = a / 2 ^ n -> wps l (mkSt g' x f' m) Q) -> wps (Shr d n :: l) (mkSt g x f m) Q.
  Proof. intros <- H. eapply wps_other; [reflexivity|]. apply H; [apply keep_setr|apply getr_same]. Qed.
  Lemma k_shl d n a : getr g d = a ->
    (forall g' f', keep [d] g g' -> getr g' d = (a * 2 ^ n) mod B -> wps l (mkSt g' x f' m) Q) -> wps (Shl d n :: l) (mkSt g x f m) Q.
  Proof. intros <- H. eapply wps_other; [reflexivity|]. apply H; [apply keep_setr|apply getr_same]. Qed.
  Lemma k_shrd d o n a b : getr g d = a -> getr g o = b ->
    (forall g' f', keep [d] g g' -> getr g' d = (a + B * b) / 2 ^ n mod B -> wps l (mkSt g' x f' m) Q) -> wps (Shrd d o n :: l) (mkSt g x f m) Q.
  Proof. intros <- <- H. eapply wps_other; [reflexivity|]. apply H; [apply keep_setr|apply getr_same]. Qed.
  Lemma k_shld d o n a b : getr g d = a -> getr g o = b ->
    (forall g' f', keep [d] g g' -> getr g' d = (b + B * a) / 2 ^ (64 - n) mod B -> wps l (mkSt g' x f' m) Q) -> wps (Shld d o n :: l) (mkSt g x f m) Q.
  Proof. intros <- <- H. eapply wps_other; [reflexivity|]. apply H; [apply keep_setr|apply getr_same]. Qed.
End OneK.

(** ** Membership *)
Lemma inb_In r l : inb r l = true <-> In r l.
Proof.
  induction l as [|a l IH]; cbn [inb In]; [split; [discriminate|tauto]|].
  destruct (reqb r a) eqn:E.
  - apply reqb_eq in E. subst. tauto.
  - rewrite IH. split; [tauto|]. intros [->|H]; [rewrite reqb_refl in E; discriminate|exact H].
Qed.
Lemma keep_incl l l' g g' : incl l l' -> keep l g g' -> keep l' g g'.
Proof.
  intros H K r E. apply K. destruct (inb r l) eqn:E2; [|reflexivity]. apply inb_In in E2. apply H, inb_In in E2. congruence.
Qed.
(** all inequalities of [nodup l = true], both ways round *)
Ltac nd H :=
  cbn [nodup inb] in H;
  repeat match type of H with context [reqb ?a ?b] =>
    let E := fresh "D" in destruct (reqb a b) eqn:E; [discriminate H|]; pose proof (eq_trans (reqb_sym b a) E) end;
  clear H.
(** side conditions on registers: [c] for given registers, by computation, [g] for variables *)
Ltac nic := reflexivity.
Ltac nig :=
  cbn [inb]; repeat match goal with H : reqb ?a ?b = false |- context [reqb ?a ?b] => rewrite H end; exact eq_refl.
Ltac ni := nig.
Ltac gr :=
  lazymatch goal with
  | |- getr ?g ?r = _ =>
      first [ match goal with H : getr g r = _ |- _ => exact H end
            | match goal with K : keep ?l ?g0 g |- _ =>
                let E := fresh in assert (E : inb r l = false) by ni; rewrite (K r E); clear E; gr end
            | reflexivity ]
  end.
Ltac kp0 :=
  lazymatch goal with
  | |- keep _ ?g ?g => apply keep_refl
  | |- keep _ ?g ?g' => first [ match goal with K : keep _ g g' |- _ => exact K end
                              | match goal with K : keep _ ?g1 g' |- _ => eapply keep_trans; [|exact K]; [kp0] end ]
  end.
Ltac kpc := eapply keep_sub; [|kp0]; [reflexivity].
Ltac kpg := eapply keep_incl; [|kp0]; [clear; intros ?; cbn [app In]; tauto].
Ltac kp := kpg.

(** ** Registers and memory holding integers *)
Definition regn (g : regs) (l : list reg) (v : Z) : Prop := limbs (map (getr g) l) /\ lv (map (getr g) l) = v.
(** [A] denotes the address [a] (and the [n] bytes after it), also when the registers [l] change *)
Definition isat (l : list reg) (g : regs) (A : addr) (a n : Z) : Prop :=
  forall g' k, keep l g g' -> 0 <= k < n -> ea g' (plus A k) = a + k.
Lemma isat_ad l g b d v a n : inb b l = false -> getr g b = v -> v + d = a -> 0 <= a -> a + n <= B -> isat l g (Ad b d) a n.
Proof.
  intros E1 E2 <- H1 H2 g' k K Hk. cbn [plus ea]. rewrite (K b E1), E2, Z.add_assoc. apply Z.mod_small. lia.
Qed.
Lemma isat_sub l l' g A a n n' : incl l' l -> n' <= n -> isat l g A a n -> isat l' g A a n'.
Proof. intros H1 H2 H g' k K Hk. apply H; [exact (keep_incl _ _ _ _ H1 K)|lia]. Qed.
Lemma isat_keep l l' g g' A a n : keep l' g g' -> isat (l' ++ l) g A a n -> isat l g' A a n.
Proof. intros K H g2 k K2 Hk. apply H; [exact (keep_trans _ _ _ _ _ K K2)|exact Hk]. Qed.
Lemma isat_plus l g A a n j n' : 0 <= j -> j + n' <= n -> isat l g A a n -> isat l g (plus A j) (a + j) n'.
Proof.
  intros H1 H2 H g' k K Hk. rewrite <- Z.add_assoc. rewrite <- (H g' (j + k) K ltac:(lia)). destruct A; cbn [plus]; rewrite Z.add_assoc; reflexivity.
Qed.
Lemma regn_keep l l' g g' v : keep l' g g' -> forallb (fun r => negb (inb r l')) l = true -> regn g l v -> regn g' l v.
Proof.
  intros K D [H1 H2]. assert (E : map (getr g') l = map (getr g) l).
  { clear H1 H2. induction l as [|a l IH]; cbn [map forallb] in *; [reflexivity|].
    apply andb_prop in D. destruct D as [D1 D2]. rewrite IH by exact D2. f_equal. apply K. destruct (inb a l'); [discriminate|reflexivity]. }
  unfold regn. rewrite E. auto.
Qed.
Lemma int_at_eq m a b n x : int_at m a n x -> a = b -> int_at m b n x.
Proof. intros H <-. exact H. Qed.
Lemma int_at_same m m' a n x : (forall b, a <= b < a + 8 * Z.of_nat n -> m' b = m b) -> int_at m a n x -> int_at m' a n x.
Proof. intros H (l & L & U & Wd & V). exists l. subst n. repeat split; try assumption. exact (words_same _ _ _ _ H Wd). Qed.
Lemma int_at_mapped m a n x : int_at m a n x -> mapped m a n.
Proof. intros (l & <- & _ & Wd & _). exact (mapped_words _ _ _ Wd). Qed.
Lemma int_at_range m a n x : int_at m a n x -> 0 <= x < B ^ Z.of_nat n.
Proof. intros (l & <- & U & _ & <-). split; [exact (lv_nonneg _ U)|exact (lv_bound _ U)]. Qed.

(** ** Four words *)
Lemma len4 {A} (l : list A) : length l = 4%nat -> exists a b c d, l = [a; b; c; d].
Proof.
  intros H. destruct l as [|a [|b [|c [|d [|]]]]]; try discriminate H. exists a, b, c, d. reflexivity.
Qed.
Lemma B4 : B ^ Z.of_nat 4 = W.
Proof. rewrite W_B. change (Z.of_nat 4) with 4. ring. Qed.
Lemma int4 m a x : int_at m a 4 x -> exists x0 x1 x2 x3, isU x0 /\ isU x1 /\ isU x2 /\ isU x3 /\
  m a = Some x0 /\ m (a + 8) = Some x1 /\ m (a + 16) = Some x2 /\ m (a + 24) = Some x3 /\ lv [x0; x1; x2; x3] = x.
Proof.
  intros (l & L & U & Wd & V). destruct (len4 l L) as (x0 & x1 & x2 & x3 & ->). cbn [words] in Wd. destruct Wd as (W0 & W1 & W2 & W3 & _).
  replace (a + 8 + 8) with (a + 16) in * by lia. replace (a + 16 + 8) with (a + 24) in * by lia.
  unfold limbs in U. inversion U as [|? ? U0 U']; subst. inversion U' as [|? ? U1 U'']; subst. inversion U'' as [|? ? U2 U3]; subst. inversion U3; subst.
  exists x0, x1, x2, x3. repeat (split; [assumption|]). reflexivity.
Qed.
Lemma map4 m a : mapped m a 4 -> exists x0 x1 x2 x3, m a = Some x0 /\ m (a + 8) = Some x1 /\ m (a + 16) = Some x2 /\ m (a + 24) = Some x3.
Proof.
  cbn [mapped]. replace (a + 8 + 8) with (a + 16) by lia. replace (a + 16 + 8) with (a + 24) by lia.
  intros ([x0 E0] & [x1 E1] & [x2 E2] & [x3 E3] & _). eauto 10.
Qed.
Lemma reg4 g z0 z1 z2 z3 x : regn g [z0; z1; z2; z3] x -> exists x0 x1 x2 x3, isU x0 /\ isU x1 /\ isU x2 /\ isU x3 /\
  getr g z0 = x0 /\ getr g z1 = x1 /\ getr g z2 = x2 /\ getr g z3 = x3 /\ lv [x0; x1; x2; x3] = x.
Proof.
  intros [U V]. cbn [map] in *. unfold limbs in U. inversion U as [|? ? U0 U']; subst. inversion U' as [|? ? U1 U'']; subst. inversion U'' as [|? ? U2 U3]; subst. inversion U3; subst.
  exists (getr g z0), (getr g z1), (getr g z2), (getr g z3). repeat (split; [assumption|]). repeat (split; [reflexivity|]). reflexivity.
Qed.
Lemma reg4_mk g z0 z1 z2 z3 x0 x1 x2 x3 x : isU x0 -> isU x1 -> isU x2 -> isU x3 ->
  getr g z0 = x0 -> getr g z1 = x1 -> getr g z2 = x2 -> getr g z3 = x3 -> lv [x0; x1; x2; x3] = x -> regn g [z0; z1; z2; z3] x.
Proof.
  intros U0 U1 U2 U3 <- <- <- <- E. split; [|exact E]. unfold limbs. cbn [map].
  repeat (apply Forall_cons; [assumption|]). apply Forall_nil.
Qed.
Lemma lv4_bound x0 x1 x2 x3 : isU x0 -> isU x1 -> isU x2 -> isU x3 -> 0 <= lv [x0; x1; x2; x3] < W.
Proof.
  intros U0 U1 U2 U3. assert (U : limbs [x0; x1; x2; x3]) by (unfold limbs; repeat (apply Forall_cons; [assumption|]); apply Forall_nil).
  split; [exact (lv_nonneg _ U)|]. rewrite <- B4. exact (lv_bound _ U).
Qed.
Lemma carry_mod w s z (k : bool) : 0 <= z < w -> z + w * Z.b2z k = s -> z = s mod w /\ k = (w <=? s).
Proof.
  intros Hz E. split.
  - apply (Z.mod_unique _ _ (Z.b2z k)); [lia|]. rewrite <- E. ring.
  - destruct k; cbn [Z.b2z] in E; symmetry; [apply Z.leb_le|apply Z.leb_gt]; lia.
Qed.
Lemma borrow_mod w s z (k : bool) : 0 <= z < w -> z = s + w * Z.b2z k -> z = s mod w /\ k = (s <? 0).
Proof.
  intros Hz E. split.
  - apply (Z.mod_unique _ _ (- Z.b2z k)); [lia|]. rewrite E. ring.
  - destruct k; cbn [Z.b2z] in E; symmetry; [apply Z.ltb_lt|apply Z.ltb_ge]; lia.
Qed.
Lemma add4 a0 a1 a2 a3 b0 b1 b2 b3 c z0 z1 z2 z3 k0 k1 k2 k3 : isU z0 -> isU z1 -> isU z2 -> isU z3 ->
  EQ (z0 + B * Z.b2z k0) (a0 + b0 + c) -> EQ (z1 + B * Z.b2z k1) (a1 + b1 + Z.b2z k0) ->
  EQ (z2 + B * Z.b2z k2) (a2 + b2 + Z.b2z k1) -> EQ (z3 + B * Z.b2z k3) (a3 + b3 + Z.b2z k2) ->
  let s := lv [a0; a1; a2; a3] + lv [b0; b1; b2; b3] + c in
  lv [z0; z1; z2; z3] = s mod W /\ k3 = (W <=? s).
Proof.
  intros U0 U1 U2 U3 E0 E1 E2 E3 s. unfold EQ in *. apply carry_mod; [apply lv4_bound; assumption|]. unfold s. rewrite W_B. cbn [lv].
  replace z0 with (a0 + b0 + c - B * Z.b2z k0) by lia. replace z1 with (a1 + b1 + Z.b2z k0 - B * Z.b2z k1) by lia.
  replace z2 with (a2 + b2 + Z.b2z k1 - B * Z.b2z k2) by lia. replace z3 with (a3 + b3 + Z.b2z k2 - B * Z.b2z k3) by lia. ring.
Qed.
Lemma sub4 a0 a1 a2 a3 b0 b1 b2 b3 c z0 z1 z2 z3 k0 k1 k2 k3 : isU z0 -> isU z1 -> isU z2 -> isU z3 ->
  EQ z0 (a0 - b0 - c + B * Z.b2z k0) -> EQ z1 (a1 - b1 - Z.b2z k0 + B * Z.b2z k1) ->
  EQ z2 (a2 - b2 - Z.b2z k1 + B * Z.b2z k2) -> EQ z3 (a3 - b3 - Z.b2z k2 + B * Z.b2z k3) ->
  let s := lv [a0; a1; a2; a3] - lv [b0; b1; b2; b3] - c in
  lv [z0; z1; z2; z3] = s mod W /\ k3 = (s <? 0).
Proof.
  intros U0 U1 U2 U3 E0 E1 E2 E3 s. unfold EQ in *. apply borrow_mod; [apply lv4_bound; assumption|]. unfold s. rewrite W_B. cbn [lv].
  rewrite E0, E1, E2, E3. ring.
Qed.
