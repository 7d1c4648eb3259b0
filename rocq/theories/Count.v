(** E(Fp) has exactly r points: it is the group generated by the generator of the test-suite.
    There are at most 2 p + 1 points, fewer than 3 r, and none of order two. *)
From Coq Require Import ZArith Znumtheory Lia Ring List Bool.
From Verif Require Import Base FpSpec Pock Primes Cfg FpProofs TowerSpec TowerField Poly EcSpec EcGroup EcProofs EcInst EcApi EcFrob EcTors EcZ Gen1.
Import ListNotations.
Local Open Scope Z_scope.

Lemma NoDup_map_on {A B : Type} (f : A -> B) (l : list A) : (forall x y, In x l -> In y l -> f x = f y -> x = y) -> NoDup l -> NoDup (map f l).
Proof.
  intros H N. induction N as [|x l Hx N IH]; cbn [map]; [constructor|]. constructor.
  - intros I. apply in_map_iff in I as (y & E & Iy). apply Hx. rewrite <- (H y x (or_intror Iy) (or_introl eq_refl) E). exact Iy.
  - apply IH. intros a b Ia Ib. apply H; right; assumption.
Qed.
Lemma NoDup_app {A : Type} (l l' : list A) : NoDup l -> NoDup l' -> (forall x, In x l -> ~ In x l') -> NoDup (l ++ l').
Proof.
  intros N N' H. induction N as [|x l Hx N IH]; cbn [app]; [exact N'|]. constructor.
  - intros I. apply in_app_iff in I as [I|I]; [exact (Hx I)|]. exact (H x (or_introl eq_refl) I).
  - apply IH. intros y Iy. apply H. right. exact Iy.
Qed.
Section Count.
Variable c : cfg.
Local Notation p := (cp c).
Local Notation r := (cr c).
Local Notation K := (FpF c).
Local Notation onE := (on_curve K (cb1 c)).
Local Notation "A +++ B" := (ec_add K A B) (at level 50, left associativity).
Local Notation zm := (zmul K).
Local Notation neg := (ec_neg K).
Local Notation ZL L := (L K (cb1 c) (two1 c) (three1 c) (cb1_nz c)).
Local Notation g := (ptP G1 c (gen1 c)).
Lemma r_pos : 1 < r. Proof. pose proof (prime_ge_2 r (cr_prime c)). lia. Qed.
Lemma r_big : 2 * p + 1 < 3 * r. Proof. apply Z.ltb_lt. destruct c; vm_compute; reflexivity. Qed.
Lemma zm_on k : onE (zm k g). Proof. apply (ZL zmul_on). apply gen1_on. Qed.
Lemma on_add A D : onE A -> onE D -> onE (A +++ D). Proof. apply (ZL z_on). Qed.
Lemma on_neg A : onE A -> onE (neg A). Proof. apply ec_neg_on. Qed.
Local Hint Resolve zm_on on_add on_neg : cc.
Lemma zm_r k : zm (k * r) g = EInf.
Proof. rewrite (ZL zmul_mul) by apply gen1_on. rewrite gen1_r. apply (ZL zmul_O). Qed.
Lemma zm_dvd k : zm k g = EInf -> (r | k).
Proof.
  intros E. destruct (Zdivide_dec r k) as [D|D]; [exact D|]. exfalso. pose proof (prime_rel_prime r (cr_prime c) k D) as RP.
  apply rel_prime_bezout in RP as [u v Huv]. apply (gen1_nz c). rewrite <- (zmul_1 K g). rewrite <- Huv.
  rewrite (ZL zmul_add) by apply gen1_on. rewrite zm_r. rewrite (ZL zmul_mul) by apply gen1_on. rewrite E. rewrite (ZL zmul_O). reflexivity.
Qed.
Lemma zm_mod k : zm (k mod r) g = zm k g.
Proof.
  rewrite (Z.div_mod k r) at 2 by (pose proof r_pos; lia). rewrite Z.mul_comm. rewrite (ZL zmul_add) by apply gen1_on. rewrite zm_r. reflexivity.
Qed.
Lemma zm_inj j k : 0 <= j < r -> 0 <= k < r -> zm j g = zm k g -> j = k.
Proof.
  intros Hj Hk E. assert (Z0 : zm (j + - k) g = EInf) by (rewrite (ZL zmul_add) by apply gen1_on; rewrite E, (ZL zmul_neg) by apply gen1_on; apply z_neg).
  apply zm_dvd in Z0 as [q Hq]. assert (q = 0) by nia. lia.
Qed.
Definition inH (P : ecpt K) : Prop := exists k, P = zm k g.
Definition L0 : list (ecpt K) := map (fun k => zm (Z.of_nat k) g) (seq 0 (Z.to_nat r)).
Lemma L0_in P : In P L0 <-> inH P.
Proof.
  unfold L0. rewrite in_map_iff. split.
  - intros (k & E & _). exists (Z.of_nat k). symmetry. exact E.
  - intros (k & ->). exists (Z.to_nat (k mod r)). pose proof (Z.mod_pos_bound k r ltac:(pose proof r_pos; lia)) as M. split.
    + rewrite Z2Nat.id by lia. apply zm_mod.
    + apply in_seq. lia.
Qed.
Lemma L0_nd : NoDup L0.
Proof.
  apply NoDup_map_on; [|apply seq_NoDup]. intros x y Hx Hy E. apply in_seq in Hx, Hy. apply zm_inj in E; lia.
Qed.
Lemma L0_len : length L0 = Z.to_nat r. Proof. unfold L0. rewrite map_length. apply seq_length. Qed.
Lemma H_on P : inH P -> onE P. Proof. intros (k & ->). apply zm_on. Qed.
Lemma H_add P Q : inH P -> inH Q -> inH (P +++ Q).
Proof. intros (j & ->) (k & ->). exists (j + k). symmetry. apply (ZL zmul_add). apply gen1_on. Qed.
Lemma H_neg P : inH P -> inH (neg P).
Proof. intros (j & ->). exists (- j). symmetry. apply (ZL zmul_neg). apply gen1_on. Qed.
Lemma canc P A D : onE P -> onE A -> onE D -> P +++ A = P +++ D -> A = D.
Proof.
  intros HP HA HD E. assert (F : forall X, onE X -> neg P +++ (P +++ X) = X).
  { intros X HX. rewrite <- (ZL z_assoc) by auto with cc. rewrite (ZL z_comm (neg P) P) by auto with cc. rewrite z_neg. reflexivity. }
  rewrite <- (F A HA), E, (F D HD). reflexivity.
Qed.
(** P + A = D with A, D multiples of g makes P a multiple of g *)
Lemma H_sub P A D : onE P -> inH A -> inH D -> P +++ A = D -> inH P.
Proof.
  intros HP HA HD E. assert (EP : P = D +++ neg A).
  { rewrite <- E. rewrite (ZL z_assoc) by auto using H_on with cc. rewrite z_neg. symmetry. apply z_0r. }
  rewrite EP. apply H_add; [exact HD|apply H_neg, HA].
Qed.
Lemma ecpt_dec (P Q : ecpt K) : {P = Q} + {P <> Q}.
Proof.
  destruct P as [|x y], Q as [|x' y']; try (right; discriminate); [left; reflexivity|].
  destruct (fdec K x x') as [->|N]; [|right; intros E; injection E; intros; contradiction].
  destruct (fdec K y y') as [->|N]; [left; reflexivity|right; intros E; injection E; intros; contradiction].
Qed.
Lemma H_dec P : inH P \/ ~ inH P.
Proof. destruct (in_dec ecpt_dec P L0) as [I|N]; [left; apply L0_in; exact I|right; intros H; apply N, L0_in, H]. Qed.

(** ** at most 2 p + 1 points *)
Definition code (P : ecpt K) : Z := match P with EInf => 2 * p | EAff x y => 2 * @zv p x + @zv p y mod 2 end.
Lemma zv_range (x : Fp p) : 0 <= zv x < p.
Proof. pose proof (zin x) as H. apply Z.eqb_eq in H. rewrite <- H. apply Z.mod_pos_bound, cp_pos. Qed.
Lemma code_range P : 0 <= code P <= 2 * p.
Proof.
  destruct P as [|x y]; cbn [code]; [pose proof (cp_pos c); lia|]. pose proof (zv_range x). pose proof (Z.mod_pos_bound (zv y) 2 ltac:(lia)). lia.
Qed.
Add Ring FRc : (rth (FpR (cp c))).
Lemma pm (a d : FpR p) : rmul a a = rmul d d -> a = d \/ a = ropp d.
Proof.
  intros E. destruct (fdec K (rsub a d) rz) as [Z0|N].
  - left. transitivity (radd (rsub a d) d : FpR p); [ring|]. change ((rsub a d : FpR p) = rz) in Z0. rewrite Z0. ring.
  - destruct (fdec K (radd a d) rz) as [Z0|N'].
    + right. transitivity (rsub (radd a d) d : FpR p); [ring|]. change ((radd a d : FpR p) = rz) in Z0. rewrite Z0. ring.
    + exfalso. apply (mul_nz K _ _ N N'). change (rmul (rsub a d) (radd a d) = (rz : FpR p)). transitivity (rsub (rmul a a) (rmul d d) : FpR p); [ring|]. rewrite E. ring.
Qed.
Lemma p_odd : p mod 2 = 1. Proof. destruct c; vm_compute; reflexivity. Qed.
Lemma code_inj P Q : onE P -> onE Q -> code P = code Q -> P = Q.
Proof.
  destruct P as [|x y], Q as [|x' y']; cbn [code]; intros HP HQ E; [reflexivity| | |].
  - exfalso. pose proof (zv_range x'). pose proof (Z.mod_pos_bound (@zv p y') 2 ltac:(lia)). lia.
  - exfalso. pose proof (zv_range x). pose proof (Z.mod_pos_bound (@zv p y) 2 ltac:(lia)). lia.
  - pose proof (Z.mod_pos_bound (@zv p y) 2 ltac:(lia)) as B1. pose proof (Z.mod_pos_bound (@zv p y') 2 ltac:(lia)) as B2.
    assert (Ex : x = x') by (apply Fp_eq; lia). subst x'. assert (Ey : @zv p y mod 2 = @zv p y' mod 2) by lia. f_equal.
    cbn [on_curve] in HP, HQ. destruct (pm y y') as [F|F]; [change (@rmul K y y = rmul y' y'); rewrite HP, HQ; reflexivity|exact F|].
    change (y = fopp (p := p) y') in F. apply (f_equal zv) in F. cbn [fopp zv mk] in F.
    destruct (Z.eq_dec (@zv p y') 0) as [Z0|N0]; [apply Fp_eq; rewrite F, Z0; apply Z.mod_0_l; pose proof (cp_pos c); lia|]. exfalso.
    pose proof (zv_range y') as R. rewrite <- (Z.mod_add _ 1), Z.mod_small in F by lia. rewrite F in Ey. pose proof p_odd as PO.
    pose proof (Z.div_mod p 2 ltac:(lia)). pose proof (Z.div_mod (@zv p y') 2 ltac:(lia)). pose proof (Z.div_mod (- @zv p y' + 1 * p) 2 ltac:(lia)). lia.
Qed.
Lemma few (l : list (ecpt K)) : NoDup l -> (forall P, In P l -> onE P) -> Z.of_nat (length l) <= 2 * p + 1.
Proof.
  intros N H. assert (I : (length (map (fun P => Z.to_nat (code P)) l) <= length (seq 0 (Z.to_nat (2 * p + 1))))%nat).
  { apply NoDup_incl_length.
    - apply NoDup_map_on; [|exact N]. intros x y Ix Iy E. apply code_inj; auto. pose proof (code_range x). pose proof (code_range y). lia.
    - intros k Hk. apply in_map_iff in Hk as (P & <- & _). apply in_seq. pose proof (code_range P). lia. }
  rewrite map_length, seq_length in I. pose proof (cp_pos c). lia.
Qed.
(** ** hence one coset *)
Lemma double_H P : onE P -> inH P \/ inH (P +++ P).
Proof.
  intros HP. destruct (H_dec P) as [I|N1]; [left; exact I|]. destruct (H_dec (P +++ P)) as [I|N2]; [right; exact I|]. exfalso.
  assert (HPP : onE (P +++ P)) by auto with cc.
  assert (ND : forall Q, onE Q -> NoDup (map (ec_add K Q) L0)).
  { intros Q HQ. apply NoDup_map_on; [|apply L0_nd]. intros x y Hx Hy E. apply L0_in in Hx, Hy. apply (canc Q); auto using H_on. }
  assert (F : Z.of_nat (length (L0 ++ map (ec_add K P) L0 ++ map (ec_add K (P +++ P)) L0)) <= 2 * p + 1).
  { apply few.
    - apply NoDup_app; [apply L0_nd| |].
      + apply NoDup_app; [apply ND, HP|apply ND, HPP|]. intros X HX HX'. apply in_map_iff in HX as (A & <- & HA). apply in_map_iff in HX' as (D & E & HD).
        apply L0_in in HA, HD. rewrite (ZL z_assoc) in E by auto using H_on with cc. apply canc in E; [|exact HP|auto using H_on with cc|auto using H_on with cc].
        apply N1. exact (H_sub P D A HP HD HA E).
      + intros X HX HX'. apply L0_in in HX. apply in_app_iff in HX' as [HX'|HX']; apply in_map_iff in HX' as (D & E & HD); apply L0_in in HD.
        * apply N1. exact (H_sub P D X HP HD HX E).
        * apply N2. exact (H_sub _ D X HPP HD HX E).
    - intros X HX. apply in_app_iff in HX as [HX|HX]; [apply H_on, L0_in, HX|]. apply in_app_iff in HX as [HX|HX]; apply in_map_iff in HX as (D & <- & HD); apply L0_in, H_on in HD; auto with cc. }
  rewrite !app_length, !map_length, !L0_len in F. pose proof r_big. pose proof r_pos. lia.
Qed.
Lemma r_odd : r mod 2 = 1. Proof. destruct c; vm_compute; reflexivity. Qed.
Theorem all_H P : onE P -> inH P.
Proof.
  intros HP. destruct (double_H P HP) as [I|(k & E)]; [exact I|]. set (j := k * ((r + 1) / 2)).
  assert (J : zm (j + j) g = zm k g).
  { replace (j + j) with (k + k * r); [rewrite (ZL zmul_add) by apply gen1_on; rewrite zm_r; apply z_0r|].
    unfold j. pose proof r_odd as RO. pose proof (Z.div_mod r 2 ltac:(lia)) as D. assert (Eh : (r + 1) / 2 = r / 2 + 1) by (rewrite D at 1; rewrite RO; replace (2 * (r / 2) + 1 + 1) with ((r / 2 + 1) * 2) by ring; apply Z.div_mul; lia).
    rewrite Eh. transitivity (k * (2 * (r / 2) + r mod 2 + 1)); [rewrite <- D; ring|rewrite RO; ring]. }
  assert (T : P +++ neg (zm j g) = EInf).
  { apply (no_2tors c); [unfold EcApi.onE; cbn [gK gb]; change (onE (P +++ neg (zm j g))); auto with cc|].
    rewrite (ZL z4) by auto with cc. rewrite <- (ZL z_nadd), E by auto with cc. rewrite <- (ZL zmul_add) by apply gen1_on. rewrite J. apply z_neg. }
  exists j. rewrite <- (z_0r K P). rewrite <- (z_neg K (zm j g)). rewrite (ZL z_comm (zm j g)) by auto with cc. rewrite <- (ZL z_assoc) by auto with cc. rewrite T. reflexivity.
Qed.
(** the points are 0 g, ..., (r - 1) g, pairwise different *)
Theorem all_points P : onE P -> exists k, 0 <= k < r /\ P = zm k g.
Proof.
  intros HP. destruct (all_H P HP) as (k & ->). exists (k mod r). split; [apply Z.mod_pos_bound; pose proof r_pos; lia|symmetry; apply zm_mod].
Qed.
Theorem all_order P : onE P -> zm r P = EInf.
Proof.
  intros HP. destruct (all_H P HP) as (k & ->). rewrite <- (ZL zmul_mul) by apply gen1_on. rewrite Z.mul_comm. apply zm_r.
Qed.
(** r is the order of every point but infinity *)
Theorem order_exact P k : onE P -> P <> EInf -> zm k P = EInf -> (r | k).
Proof.
  intros HP N E. destruct (Zdivide_dec r k) as [D|D]; [exact D|]. exfalso. pose proof (prime_rel_prime r (cr_prime c) k D) as RP.
  apply rel_prime_bezout in RP as [u v Huv]. apply N. rewrite <- (zmul_1 K P). rewrite <- Huv.
  rewrite (ZL zmul_add) by exact HP. rewrite !(ZL zmul_mul) by exact HP. rewrite E, all_order, !(ZL zmul_O) by exact HP. reflexivity.
Qed.
End Count.
