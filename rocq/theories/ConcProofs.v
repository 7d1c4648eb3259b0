(** Proofs about ConcM: executions on normalized points, and two bad schedules. *)
From Coq Require Import ZArith List Bool Lia.
From Verif Require Import Base Cfg FpM FpProofs FpApi FpApiProofs ParamProofs TowerApi TowerM TowerSpec ParamM Poly EcSpec EcM EcProofs EcInst EcApi ConcM.
Import ListNotations.
Local Open Scope Z_scope.

Section Q.
Variable O : fops.
Notation T := (fT O).
(** [p] does not write when it runs on [m] *)
Inductive quiet (m : mem O) : prog O -> Prop :=
| Q_done rs : quiet m (PDone rs)
| Q_rd o i k : quiet m (k (getc O (m o) i)) -> quiet m (PRd O o i k).
Definition normed (P : F3 T) : Prop := o_isZero O (c3 P) = true \/ o_eqb O (c3 P) (o_1 O) = true.

Lemma q_norm m o k : normed (m o) -> quiet m k -> quiet m (c_normalize O o k).
Proof.
  intros N K. unfold c_normalize. constructor. cbn [getc]. destruct (o_isZero O (c3 (m o))) eqn:E; [exact K|].
  destruct N as [N|N]; [rewrite N in E; discriminate|]. constructor. cbn [getc]. rewrite N. exact K.
Qed.
Lemma q_isZero m o k : (forall b, quiet m (k b)) -> quiet m (c_isZero O o k).
Proof. intros K. constructor. apply K. Qed.
Lemma q_eq m a b k : normed (m a) -> normed (m b) -> (forall r, quiet m (k r)) -> quiet m (c_eq O a b k).
Proof.
  intros Na Nb K. unfold c_eq. apply q_norm; [exact Na|]. apply q_norm; [exact Nb|]. apply q_isZero. intros [|].
  - apply q_isZero. exact K.
  - apply q_isZero. intros [|]; [apply K|]. constructor. constructor. destruct (negb _); [apply K|]. constructor. constructor. apply K.
Qed.
Lemma q_print m o k : normed (m o) -> (forall r, quiet m (k r)) -> quiet m (c_print O o k).
Proof.
  intros N K. unfold c_print. apply q_isZero. intros [|]; [apply K|]. apply q_norm; [exact N|]. constructor. constructor. apply K.
Qed.

Variable fin : T -> T -> T -> T -> T -> T -> T -> res bool.
Variable okc : F3 T -> Prop.
Hypothesis Hfin : forall P, okc P -> exists b, fin (c3 P) (c3 P) (b3 P) (b3 P) (a3 P) (a3 P) (a3 P) = Ok b.
Lemma q_valid m o k : okc (m o) -> (forall r, quiet m (k r)) -> quiet m (c_valid O fin o k).
Proof.
  intros N K. unfold c_valid. constructor. cbn [getc]. destruct (o_eqb O _ _); [apply K|]. do 7 constructor. cbn [getc].
  destruct (Hfin _ N) as [b ->]. apply K.
Qed.
Definition on_ok (m : mem O) (f : cop) : Prop :=
  match f with
  | CEq a b => normed (m a) /\ normed (m b)
  | CPrint o | CNorm o => normed (m o)
  | CIsZero o => True
  | CValid o => okc (m o)
  end.
Lemma q_thread m l : forall done, Forall (on_ok m) l -> quiet m (thread O fin l done).
Proof.
  induction l as [|f l IH]; intros done H; cbn [thread]; [constructor|].
  inversion_clear H as [|? ? Hf Hl]. destruct f; cbn [on_ok] in Hf.
  - apply q_eq; [apply Hf|apply Hf|]. intros r. apply IH, Hl.
  - apply q_print; [exact Hf|]. intros r. apply IH, Hl.
  - apply q_isZero. intros r. apply IH, Hl.
  - apply q_valid; [exact Hf|]. intros r. apply IH, Hl.
  - apply q_norm; [exact Hf|]. apply IH, Hl.
Qed.

Lemma quiet_step m p p' m' : quiet m p -> pstep O p m = Some (p', m') -> m' = m /\ quiet m p' /\ prun O p' m = prun O p m.
Proof.
  intros Q E. destruct Q as [|o i k Q]; cbn in E; [discriminate|]. injection E as <- <-. split; [reflexivity|]. split; [exact Q|reflexivity].
Qed.
Lemma quiet_run m p : quiet m p -> exists rs, prun O p m = Ok (rs, m).
Proof. induction 1 as [rs|o i k Q IH]; [exists rs; reflexivity|exact IH]. Qed.
Lemma quiet_stuck m p : quiet m p -> pstep O p m = None -> exists rs, p = PDone rs.
Proof. destruct 1; [eexists; reflexivity|discriminate]. Qed.

Lemma quiet_all ths m ths' m' : Forall (quiet m) ths -> csteps O (ths, m) (ths', m') ->
  m' = m /\ Forall2 (fun p p' => quiet m p' /\ prun O p' m = prun O p m) ths ths'.
Proof.
  intros Q S. remember (ths, m) as s eqn:Es. remember (ths', m') as s' eqn:Es'. revert ths' m' Es'.
  induction S as [s|s1 s2 s3 S IH St]; intros ths' m' Es'.
  - subst s. injection Es' as <- <-. split; [reflexivity|]. clear -Q. induction Q; constructor; [split; [assumption|reflexivity]|assumption].
  - destruct s2 as [t2 m2]. destruct (IH Es t2 m2 eq_refl) as [-> F]. subst s3. inversion St as [l1 p l2 mm p' mm' E Ea Eb]; subst.
    apply Forall2_app_inv_r in F. destruct F as (k1 & k2 & F1 & F2 & ->). inversion F2 as [|q ? k2' ? [Qp Rp] F2']; subst.
    destruct (quiet_step _ _ _ _ Qp E) as (-> & Q' & R'). split; [reflexivity|].
    apply Forall2_app; [exact F1|]. constructor; [split; [exact Q'|rewrite R'; exact Rp]|exact F2'].
Qed.

(** every interleaving of any number of threads of const calls on normalized objects *)
Lemma conc_ok (ops : list (list cop)) (m : mem O) ths' m' : Forall (Forall (on_ok m)) ops ->
  csteps O (map (fun l => thread O fin l []) ops, m) (ths', m') ->
  m' = m /\ length ths' = length ops /\
  (forall i l p, nth_error ops i = Some l -> nth_error ths' i = Some p ->
     (exists rs, prun O (thread O fin l []) m = Ok (rs, m)) /\
     (forall rs, p = PDone rs -> prun O (thread O fin l []) m = Ok (rs, m)) /\
     ((forall rs, p <> PDone rs) -> pstep O p m' <> None)).
Proof.
  intros H S. destruct (quiet_all (map (fun l => thread O fin l []) ops) m ths' m') as [-> F]; [|exact S|].
  { clear -H Hfin. induction H; cbn [map]; constructor; [apply q_thread; assumption|assumption]. }
  split; [reflexivity|]. split; [rewrite <- (map_length (fun l => thread O fin l []) ops); clear -F; induction F; cbn; congruence|].
  intros i l p Hl Hp. assert (Q0 : quiet m (thread O fin l [])).
  { apply q_thread. rewrite Forall_forall in H. apply H. eapply nth_error_In, Hl. }
  split; [apply quiet_run, Q0|].
  assert (G : quiet m p /\ prun O p m = prun O (thread O fin l []) m).
  { clear -F Hl Hp. revert i ops ths' F Hl Hp. induction i as [|i IH]; intros [|l0 ops] [|p0 ths'] F Hl Hp; cbn in Hl, Hp; try discriminate.
    - injection Hl as ->. injection Hp as ->. cbn in F. inversion F; subst. assumption.
    - cbn in F. inversion F; subst. eapply IH; eassumption. }
  destruct G as [Qp Rp]. split.
  - intros rs ->. rewrite <- Rp. reflexivity.
  - intros N E. destruct (quiet_stuck _ _ Qp E) as [rs ->]. exact (N rs eq_refl).
Qed.

Lemma nthstep_cstep n : forall l m l' m', nthstep O n l m = Some (l', m') -> forall l0, cstep O (l0 ++ l, m) (l0 ++ l', m').
Proof.
  induction n as [|n IH]; intros [|p l] m l' m' E l0; cbn [nthstep] in E; try discriminate.
  - destruct (pstep O p m) as [[p' m1]|] eqn:Ep; [|discriminate]. injection E as <- <-. constructor. exact Ep.
  - destruct (nthstep O n l m) as [[l1 m1]|] eqn:En; [|discriminate]. injection E as <- <-.
    specialize (IH _ _ _ _ En (l0 ++ [p])). rewrite <- !app_assoc in IH. exact IH.
Qed.
Lemma schedule_csteps s : forall st st0 st', csteps O st0 st -> schedule O s st = Some st' -> csteps O st0 st'.
Proof.
  induction s as [|i s IH]; intros [l m] st0 st' C E; cbn [schedule fst snd] in E; [injection E as <-; exact C|].
  destruct (nthstep O i l m) as [[l' m1]|] eqn:En; [|discriminate].
  apply (IH (l', m1) st0 st'); [|exact E]. eapply CTrans; [exact C|]. exact (nthstep_cstep _ _ _ _ _ En []).
Qed.

(** a call running alone is the call of EcM *)
Lemma c_normalize_run m o k : prun O (c_normalize O o k) m =
  match ec_normalize O m o with Ok m' => prun O k m' | _ => UB end.
Proof.
  unfold c_normalize, ec_normalize, ec_isZero. cbn [prun getc]. destruct (o_isZero O (c3 (m o))); cbn [orb]; [reflexivity|].
  cbn [prun getc]. destruct (o_eqb O (c3 (m o)) (o_1 O)); [reflexivity|]. cbn [prun getc].
  destruct (o_inv O (c3 (m o))); cbn [bind]; reflexivity.
Qed.
Lemma c_eq_run m a b k : prun O (c_eq O a b k) m =
  match ec_eq O m a b with Ok (r, m') => prun O (k r) m' | _ => UB end.
Proof.
  unfold c_eq, ec_eq. rewrite c_normalize_run. destruct (ec_normalize O m a) as [m1| | | |]; cbn [bind]; try reflexivity.
  rewrite c_normalize_run. destruct (ec_normalize O m1 b) as [m2| | | |]; cbn [bind]; try reflexivity.
  unfold c_isZero, ec_isZero. cbn [prun getc]. destruct (o_isZero O (c3 (m2 a))); [reflexivity|]. cbn [prun getc].
  destruct (o_isZero O (c3 (m2 b))); [reflexivity|]. cbn [prun getc]. destruct (o_eqb O (a3 (m2 a)) (a3 (m2 b))); reflexivity.
Qed.
End Q.

(** ** Ec1 and Ec2 *)
Definition gfin (g : grp) (c : cfg) (P : param) : let T := fT (gO g c) in T -> T -> T -> T -> T -> T -> T -> res bool :=
  match g with G1 => fin1 c (par_b P) | G2 => fin2 c (par_binvxi P) end.
(** isValid is the computation [gfin] on one content *)
Lemma gfin_valid g c P x : gValid g c P x =
  if o_eqb (gO g c) (c3 x) (o_0 (gO g c)) then Ok true else gfin g c P (c3 x) (c3 x) (b3 x) (b3 x) (a3 x) (a3 x) (a3 x).
Proof.
  destruct g; cbn [gValid gfin gO fpO fp2O o_eqb o_0].
  - unfold isValid1, isOnECJac3, fin1. reflexivity.
  - unfold isValid2, isOnTwistECJac3, fin2.
    assert (G : forall b e : bool, Ok (if b then true else e) = if b then Ok true else Ok e) by (intros [|] e; reflexivity).
    exact (G (f2_eqb (c3 x) f2_0) _).
Qed.
Lemma gfin_ok g c P x : paramInit (snark c) (curveOf c) = Ok P ->
  exists b, gfin g c P (c3 x) (c3 x) (b3 x) (b3 x) (a3 x) (a3 x) (a3 x) = Ok b.
Proof.
  intros HP. destruct g; [|eexists; reflexivity]. apply param_par_ok in HP. cbn [gfin]. unfold fin1.
  rewrite (ok_b c P HP). destruct (fp_setInt_ok c (cb c)) as (fb & -> & _); [destruct c; cbn; lia|]. cbn [bind]. eexists. reflexivity.
Qed.
Definition ready g c (x : F3 (fT (gO g c))) : Prop := wfP g c x /\ (ptP g c x = EInf \/ c3 x = o_1 (gO g c)).
Lemma ready_normed g c x : ready g c x -> normed (gO g c) x.
Proof.
  intros [W [E|E]].
  - left. change (ptP g c x) with (pt (gO g c) (gK g c) (gX g c) x) in E.
    rewrite (i_isZero _ _ (gX g c) _ (proj1 W)). exact (pt_z (gO g c) (gK g c) (gX g c) x E).
  - right. rewrite E. apply (i_eqb _ _ (gX g c)); [apply (i_1 _ _ (gX g c))|apply (i_1 _ _ (gX g c))|reflexivity].
Qed.

Lemma conc_norm g c P (ops : list (list cop)) (m : mem (gO g c)) ths' m' : paramInit (snark c) (curveOf c) = Ok P ->
  (forall o, ready g c (m o)) ->
  csteps (gO g c) (map (fun l => thread (gO g c) (gfin g c P) l []) ops, m) (ths', m') ->
  m' = m /\ length ths' = length ops /\
  (forall i l p, nth_error ops i = Some l -> nth_error ths' i = Some p ->
     (exists rs, prun (gO g c) (thread (gO g c) (gfin g c P) l []) m = Ok (rs, m)) /\
     (forall rs, p = PDone rs -> prun (gO g c) (thread (gO g c) (gfin g c P) l []) m = Ok (rs, m)) /\
     ((forall rs, p <> PDone rs) -> pstep (gO g c) p m' <> None)).
Proof.
  intros HP R. apply (conc_ok (gO g c) (gfin g c P) (fun _ => True)).
  - intros x _. apply gfin_ok, HP.
  - apply Forall_forall. intros l _. apply Forall_forall. intros f _. destruct f; cbn [on_ok]; try exact I; try split; apply ready_normed, R.
Qed.

(** ** Bad schedules.  Object 0 is the generator in the form (4x, 8y, 2), object 1 the
    generator in the form (x, y, 1). *)
Definition cmem (c : cfg) : mem (fpO c) := fun o => match o with Obj 1 => gen1 c | _ => gen1' c end.
Definition eqthread (c : cfg) (P : param) : prog (fpO c) := thread (fpO c) (gfin G1 c P) [CEq (Obj 0) (Obj 1)] [].
(** both threads read z and compute 1/z (three accesses), thread 0 finishes, then thread 1 does *)
Definition sched_eq : list nat := repeat 0%nat 3 ++ repeat 1%nat 3 ++ repeat 0%nat 16 ++ repeat 1%nat 14.
Definition fin_eq (c : cfg) (P : param) := schedule (fpO c) sched_eq ([eqthread c P; eqthread c P], cmem c).
Definition doneOf {O} (p : prog O) : option bool := match p with PDone [RBool b] => Some b | _ => None end.
Definition view c (x : option (list (prog (fpO c)) * mem (fpO c))) : option (list (option bool) * F3 Z) :=
  match x with None => None | Some (l, m) => Some (map doneOf l, m (Obj 0)) end.
Lemma doneOf_some {O} (p : prog O) b : doneOf p = Some b -> p = PDone [RBool b].
Proof. destruct p as [[|[|b'|] [|]]| | |]; cbn; try discriminate. intros [= ->]. reflexivity. Qed.
Lemma view_csteps c s st0 r1 r2 Q : view c (schedule (fpO c) s st0) = Some ([Some r1; Some r2], Q) ->
  exists m', csteps (fpO c) st0 ([PDone [RBool r1]; PDone [RBool r2]], m') /\ m' (Obj 0) = Q.
Proof.
  intros V. destruct (schedule (fpO c) s st0) as [[l m']|] eqn:E; [|discriminate]. cbn [view] in V. injection V as V1 V2.
  destruct l as [|p1 [|p2 [|p3 l]]]; try discriminate. cbn [map] in V1. injection V1 as D1 D2.
  apply doneOf_some in D1, D2. subst. exists m'. split; [|reflexivity]. eapply schedule_csteps; [apply CRefl|exact E].
Qed.

Definition badpt : F3 Z := mk3 4648195152702615713988862032291490856460878076467998688003034850167225319462
  14474011154664524427946373126085988481658748083205070504932198000989141204992
  15003436851221201713926160155297504393934861937006144945855291451476606451598.
Lemma fin_eq_val P : view BNb (fin_eq BNb P) = Some ([Some true; Some false], badpt).
Proof. vm_compute. reflexivity. Qed.
Lemma badpt_off : wfP G1 BNb badpt /\ ~ onE G1 BNb (ptP G1 BNb badpt).
Proof.
  assert (Cx : can BNb (a3 badpt)) by (split; vm_compute; congruence).
  assert (Cy : can BNb (b3 badpt)) by (split; vm_compute; congruence).
  assert (Cz : can BNb (c3 badpt)) by (split; vm_compute; congruence).
  assert (W : wfP G1 BNb badpt) by exact (conj Cz (fun _ => conj Cx Cy)). clear Cx Cy Cz.
  split; [exact W|]. destruct (isOnECJac3_ok BNb badpt W) as (r & E & R).
  assert (F : isOnECJac3 BNb (cb BNb) badpt = Ok false) by (vm_compute; reflexivity).
  rewrite F in E. injection E as <-. intros H. apply R in H. discriminate.
Qed.
Lemma cmem_ok c : wfP G1 c (cmem c (Obj 0)) /\ onE G1 c (ptP G1 c (cmem c (Obj 0))) /\
  wfP G1 c (cmem c (Obj 1)) /\ ptP G1 c (cmem c (Obj 0)) = ptP G1 c (cmem c (Obj 1)).
Proof.
  cbn [cmem]. split; [apply gen1'_wf|]. rewrite (proj1 (gen1'_eq c)). split; [exact (gen_on G1 c)|]. split; [exact (gen_wf G1 c)|reflexivity].
Qed.
Lemma bad_eq P : exists m', csteps (fpO BNb) ([eqthread BNb P; eqthread BNb P], cmem BNb) ([PDone [RBool true]; PDone [RBool false]], m') /\
  wfP G1 BNb (m' (Obj 0)) /\ ~ onE G1 BNb (ptP G1 BNb (m' (Obj 0))).
Proof.
  destruct (view_csteps BNb sched_eq _ _ _ _ (fin_eq_val P)) as (m' & S & E). exists m'. split; [exact S|]. rewrite E. exact badpt_off.
Qed.

(** one thread compares, the other only calls isValid *)
Definition valthread (c : cfg) (P : param) : prog (fpO c) := thread (fpO c) (gfin G1 c P) [CValid (Obj 0)] [].
Definition sched_val : list nat := repeat 1%nat 3 ++ repeat 0%nat 19 ++ repeat 1%nat 5.
Lemma bad_valid P : paramInit (snark BNb) (curveOf BNb) = Ok P ->
  exists m', csteps (fpO BNb) ([eqthread BNb P; valthread BNb P], cmem BNb) ([PDone [RBool true]; PDone [RBool false]], m').
Proof.
  intros HP. apply param_par_ok in HP. unfold valthread. cbn [gfin]. rewrite (ok_b BNb P HP).
  destruct (view_csteps BNb sched_val ([eqthread BNb P; thread (fpO BNb) (fin1 BNb (cb BNb)) [CValid (Obj 0)] []], cmem BNb) true false (gen1 BNb)) as (m' & S & _).
  - vm_compute. reflexivity.
  - exists m'. exact S.
Qed.
Lemma ready_ex g c : ready g c (gen g c).
Proof. split; [apply gen_wf|]. right. destruct g, c; reflexivity. Qed.
(** running alone, the calls return what C36 and C35 say *)
Lemma seq_eq g c P (m : mem (gO g c)) a b : wfP g c (m a) -> wfP g c (m b) ->
  exists r m', prun (gO g c) (thread (gO g c) (gfin g c P) [CEq a b] []) m = Ok ([RBool r], m') /\
    (r = true <-> ptP g c (m a) = ptP g c (m b)).
Proof.
  intros Wa Wb. destruct (pe_eq g c m a b Wa Wb) as (r & m' & E & R & _). exists r, m'. split; [|exact R].
  cbn [thread app]. rewrite c_eq_run, E. reflexivity.
Qed.
Lemma seq_valid g c P (m : mem (gO g c)) o : paramInit (snark c) (curveOf c) = Ok P -> wfP g c (m o) ->
  exists r, prun (gO g c) (thread (gO g c) (gfin g c P) [CValid o] []) m = Ok ([RBool r], m) /\
    (r = true <-> onE g c (ptP g c (m o))).
Proof.
  intros HP Wo. destruct (pe_valid g c P (m o) HP Wo) as (r & E & R). exists r. split; [|exact R].
  cbn [thread app]. unfold c_valid. cbn [prun getc]. rewrite gfin_valid in E.
  destruct (o_eqb (gO g c) (c3 (m o)) (o_0 (gO g c))); [injection E as <-; reflexivity|].
  cbn [prun getc]. rewrite E. reflexivity.
Qed.
