(** Symbolic execution (JitSym) of a subroutine and of a call. *)
From Coq Require Import ZArith List Bool Lia.
From Verif Require Import X64 XLog JitSpec XTac XReg JitFp JitMac JitMac2 JitFrame JitFp2Mac JitFp2Api JitSym.
From Verif Require Import Base Cfg Prim FpM.
Import ListNotations.
Local Open Scope Z_scope.
Local Notation find := X64.find.
Local Notation length := List.length.

Lemma int_at_fun m a n v v' : int_at m a n v -> int_at m a n v' -> v = v'.
Proof.
  intros (l & L & U & Wl & V) (l' & L' & U' & Wl' & V'). assert (E : l = l'); [|congruence].
  clear U U' V V'. revert a l l' L L' Wl Wl'. induction n as [|n IH]; intros a [|x l] [|x' l']; cbn [length words]; intros E1 E2 H1 H2; try discriminate; [reflexivity|].
  destruct H1 as [H1 H1']. destruct H2 as [H2 H2']. assert (x = x') by congruence. subst x'. f_equal. injection E1 as E1. injection E2 as E2. exact (IH _ _ _ E1 E2 H1' H2').
Qed.
Lemma reads_fun m a fs vs vs' : reads m a fs vs -> reads m a fs vs' -> vs = vs'.
Proof.
  intros H. revert vs'. induction H as [|f v fs vs H1 H2 IH]; intros vs' H'; inversion H'; subst; [reflexivity|]. f_equal; [exact (int_at_fun _ _ _ _ _ H1 ltac:(eassumption))|apply IH; assumption].
Qed.

Lemma reads_len m a fs vs : reads m a fs vs -> length vs = length fs.
Proof. intros H. induction H as [|e v fs vs H1 H2 IH]; cbn [length]; [reflexivity|f_equal; exact IH]. Qed.

(** ** A call *)
Definition bump (R : rout) : rout :=
  mkRt (r_nz R) (r_nx R) (r_ny R) (r_x R) (r_y R) (r_z R) (r_ax R) (r_ay R) (r_clob R) (r_xclob R) (S (r_stk R)) (r_fn R) (r_pre R) (r_rin R) (r_rax R).
Definition arg_ok (a : arg) : bool := match a with AR b _ => negb (reqb b RSP) | _ => true end.
Lemma argv_call a g g1 X v : arg_ok a = true -> keep [RSP] g g1 -> argv g X a v -> argv g1 X a v.
Proof.
  destruct a as [b o| |]; cbn; auto. intros E K <-. f_equal. apply K. cbn [inb]. destruct (reqb b RSP); [discriminate|reflexivity].
Qed.
Section Call.
  Variables (C : code) (T : Z) (tabs : list tab) (l : Z) (sub : code) (az ax ay : arg) (R : rout).
  Hypothesis Oz : arg_ok az = true.
  Hypothesis Oxx : arg_ok ax = true.
  Hypothesis Oyy : arg_ok ay = true.
  Hypothesis NL : inb RSP (r_clob R) = false.
  Hypothesis TW : Forall (fun t => Forall (fun e => t_o t <= fst (fst e) /\ fst (fst e) + Wd (snd (fst e)) <= t_o t + Wd (t_n t)) (t_f t)) tabs.
  Hypothesis XW : Forall (fun e => 0 <= fst e /\ fst e + Wd (snd e) <= Wd (r_nx R)) (r_x R).
  Hypothesis YW : Forall (fun e => 0 <= fst e /\ fst e + Wd (snd e) <= Wd (r_ny R)) (r_y R).
  Hypothesis HS : aspec C T tabs sub az ax ay R.
  Hypothesis HH : has C l ([Lab l] ++ sub ++ [Ret]).
  Lemma reads_off m m1 a n fs vs p k : chg [(p, k)] m m1 -> (n = 0)%nat \/ (a + Wd n <= p \/ p + k <= a) -> 
    Forall (fun e => 0 <= fst e /\ fst e + Wd (snd e) <= Wd n) fs -> reads m a fs vs -> reads m1 a fs vs.
  Proof.
    clear. intros CH D W H. induction H as [|e v fs vs H1 H2 IH]; [constructor|]. inversion W as [|? ? W1 W2]; subst. constructor; [|exact (IH W2)].
    destruct D as [D|D].
    - subst n. destruct e as [o w]. cbn [fst snd] in *. assert (w = 0%nat) by lia. subst w. destruct H1 as (l & L & U & Wl & V). exists l. destruct l; [|discriminate]. split; [exact L|]. split; [exact U|]. split; [exact I|exact V].
    - refine (int_at_chg _ _ _ _ _ _ CH _ H1). constructor; [|constructor]. unfold clear_of. cbn [fst snd]. lia.
  Qed.
  Lemma call_aspec : aspec C T tabs [Call l] az ax ay (bump R).
  Proof.
    intros pc g X f m sp z x y vx vy Q A Gs Az Ax Ay Rx Ry TB Mz Ms Rs Rz Ox Oy Dzs CZ HP HR H. unfold bump in *. cbn [r_nz r_nx r_ny r_x r_y r_z r_ax r_ay r_clob r_xclob r_stk r_fn r_pre r_rin r_rax] in *.
    destruct HH as (t & Ft & At). destruct (at_cons _ _ _ _ A) as [F1 _].
    assert (W1 : Wd (S (r_stk R)) = Wd (r_stk R) + 8) by (clear; lia). rewrite W1 in *. clear W1. set (k := Wd (r_stk R)) in *. assert (Hk : 0 <= k) by (unfold k; clear; lia).
    change (8 * Z.of_nat (S (r_stk R))) with (8 * Z.of_nat (S (r_stk R))) in Ms.
    assert (Ms' : mapped m (sp - (k + 8)) (r_stk R) /\ mapped m (sp - 8) 1).
    { replace (S (r_stk R)) with (r_stk R + 1)%nat in Ms by (clear; lia). apply mapped_app in Ms. destruct Ms as [M1 M2]. split; [exact M1|]. replace (sp - 8) with (sp - (k + 8) + 8 * Z.of_nat (r_stk R)) by (unfold k; clear; lia). exact M2. }
    destruct Ms' as [Ms1 [[v Ev] _]]. clear Ms.
    assert (E8 : (getr g RSP - 8) mod B = sp - 8) by (rewrite Gs; apply Z.mod_small; clear -Rs Hk; lia).
    eapply wp_call; [exact F1|exact Ft|cbn [mem rg]; change (rsp g) with (getr g RSP); rewrite E8; exact Ev|].
    cbn [mem rg xm fl]. change (rsp g) with (getr g RSP). rewrite E8.
    destruct (at_cons _ _ _ _ At) as [FL A1]. eapply wp_ex; [exact FL|reflexivity|]. destruct (at_app _ _ _ _ A1) as [A2 A3].
    pose proof (chg_mset m (sp - 8) (pc + 1) v Ev) as C0. pose proof (keep_setr g RSP (sp - 8)) as K0.
    set (m1 := mset m (sp - 8) (pc + 1)) in *. set (g1 := setr g RSP (sp - 8)) in *.
    assert (Ek : sp - 8 - k = sp - (k + 8)) by (clear; lia).
    refine (HS (t + 1) g1 X f m1 (sp - 8) z x y vx vy Q A2 (getr_same _ _ _) (argv_call _ _ _ _ _ Oz K0 Az) (argv_call _ _ _ _ _ Oxx K0 Ax) (argv_call _ _ _ _ _ Oyy K0 Ay) _ _ _ (chg_mapped _ _ _ _ _ C0 Mz) _ _ Rz _ _ _ _ HP _ _).
    - refine (reads_off _ _ _ (r_nx R) _ _ _ _ C0 _ XW Rx). destruct Ox as [Ox|(_ & Ox & _)]; [left; exact Ox|right]. clear -Ox Hk. unfold disj in Ox. lia.
    - refine (reads_off _ _ _ (r_ny R) _ _ _ _ C0 _ YW Ry). destruct Oy as [Oy|(_ & Oy & _)]; [left; exact Oy|right]. clear -Oy Hk. unfold disj in Oy. lia.
    - rewrite Forall_forall in TB, TW, CZ |- *. intros tb Ht. specialize (TB tb Ht). specialize (TW tb Ht). destruct (CZ tb Ht) as (_ & _ & D). unfold tab_at in *. rewrite Forall_forall in TB, TW |- *. intros e He. specialize (TW e He).
      refine (int_at_chg _ _ _ _ _ _ C0 _ (TB e He)). constructor; [|constructor]. unfold clear_of. cbn [fst snd]. unfold disj in D. rewrite <- Nat2Z.inj_succ in D || idtac. clear -D TW Hk. unfold k in *. lia.
    - fold k. rewrite Ek. exact (chg_mapped _ _ _ _ _ C0 Ms1).
    - fold k. clear -Rs Hk. lia.
    - fold k. rewrite Ek. destruct Ox as [Ox|(O1 & O2 & O3)]; [left; exact Ox|right]. split; [exact O1|]. split; [|exact O3]. clear -O2. unfold disj in *. lia.
    - fold k. rewrite Ek. destruct Oy as [Oy|(O1 & O2 & O3)]; [left; exact Oy|right]. split; [exact O1|]. split; [|exact O3]. clear -O2. unfold disj in *. lia.
    - fold k. rewrite Ek. clear -Dzs. unfold disj in *. lia.
    - refine (Forall_impl _ _ CZ). intros tb (D1 & D2 & D3). split; [exact D1|]. split; [exact D2|]. fold k. rewrite Ek. unfold k in *. clear -D3. unfold disj in *. lia.
    - intros Er. rewrite (K0 RAX eq_refl). exact (HR Er).
    - intros g2 X2 f2 m2 K2 XK C2 R2 AX2. fold k in C2. rewrite Ek in C2. assert (G2 : getr g2 RSP = sp - 8) by (rewrite (K2 RSP NL); apply getr_same).
      eapply wp_ret; [apply (at_cons _ _ _ _ A3)|cbn [mem rg]; change (rsp g2) with (getr g2 RSP); rewrite G2|].
      { destruct C2 as [C2 _]. rewrite C2; [apply mset_eq; reflexivity|]. apply off2. clear -Dzs Hk. unfold disj in Dzs. lia. }
      cbn [mem rg xm fl]. change (rsp g2) with (getr g2 RSP). rewrite G2.
      replace ((sp - 8 + 8) mod B) with sp by (symmetry; replace (sp - 8 + 8) with sp by (clear; lia); apply Z.mod_small; clear -Rs Hk; lia).
      change (Z.of_nat (length [Call l])) with 1 in H. apply H; [|exact XK| |exact R2|].
      + intros r Er. destruct (reqb r RSP) eqn:E.
        * apply reqb_eq in E. subst r. rewrite getr_same. symmetry. exact Gs.
        * rewrite getr_ne by exact E. rewrite (K2 r Er). apply getr_ne. exact E.
      + refine (chg_sub _ _ _ _ _ (chg_trans _ _ _ _ _ C0 C2)). intros b Hb. apply off2 in Hb. constructor; [unfold off; cbn [fst snd]; clear -Hb Hk; lia|]. apply off2. clear -Hb Hk. lia.
      + intros Er. rewrite getr_ne by reflexivity. exact (AX2 Er).
  Qed.
End Call.

(** ** The constants in memory: s_pTbl, pNTbl_[2], halfTbl_ *)
Definition ctabs (c : cfg) (T NT HF : Z) : list tab :=
  [mkTab T (-32) 40 (map (fun i => (-32 + 32 * i, 4%nat, (i * cp c) mod W)) [0; 1; 2; 3; 4; 5; 6; 7; 8; 9]);
   mkTab NT 0 8 [(0, 8%nat, pNTbl c 2)];
   mkTab HF 0 8 [(0, 4%nat, 0); (32, 4%nat, (cp c + 1) / 2)]].
Definition tfits (t : tab) : Prop := Forall (fun e => t_o t <= fst (fst e) /\ fst (fst e) + Wd (snd (fst e)) <= t_o t + Wd (t_n t)) (t_f t).
Lemma ctabs_fit c T NT HF : Forall tfits (ctabs c T NT HF).
Proof. repeat constructor; cbn; intro; discriminate. Qed.

(** ** A subroutine that is a list of items *)
Definition aokT (C : code) (T : Z) (tabs : list tab) (i : item) : Prop := match i with IA cd az ax ay U => aspec C T tabs cd az ax ay U | _ => True end.
Definition seedr (a : arg) (p : ptr) : list (reg * ptr) := match a with AR b _ => [(b, p)] | _ => [] end.
Definition seedx (a : arg) (p : ptr) : list (xreg * ptr) := match a with AX x => [(x, p)] | _ => [] end.
Definition arg0 (a : arg) : bool := match a with AR _ o => o =? 0 | _ => true end.
Section Sub.
  Variables (C : code) (c : cfg) (T NT HF : Z).
  Variables (items : list item) (cd : code) (az ax ay : arg) (R : rout).
  Local Notation nx0 := (Nat.eqb (r_nx R) 0).
  Local Notation ny0 := (Nat.eqb (r_ny R) 0).
  Definition slay (bx by_ : bool) : layout := fun r =>
    match r with
    | RO => (0, Wd (r_nz R), true) | RA => (0, if bx then 0 else Wd (r_nx R), false) | RB => (0, if by_ then 0 else Wd (r_ny R), false)
    | RS => (- Wd (r_stk R), 0, true) | RT => (-32, 288, false) | RN | RH | RC => (0, 64, false)
    end.
  Definition sbase (bx by_ : bool) (z x y sp : Z) : rgn -> Z := fun r =>
    match r with
    | RO => z | RA => if bx || nx0 then z else x | RB => if by_ || ny0 then z else y
    | RS => sp | RT => T | RN => NT | RH | RC => HF
    end.
  Definition srx (bx : bool) : ptr := (if bx then RO else RA, 0).
  Definition sry (by_ : bool) : ptr := (if by_ then RO else RB, 0).
  Definition s0 (bx by_ : bool) (vx vy : list Z) : sst :=
    mkS ((RSP, (RS, 0)) :: (if r_rin R then [(RAX, (RT, 0))] else []) ++ seedr az (RO, 0) ++ (if nx0 then [] else seedr ax (srx bx)) ++ (if ny0 then [] else seedr ay (sry by_)))
        (seedx az (RO, 0) ++ (if nx0 then [] else seedx ax (srx bx)) ++ (if ny0 then [] else seedx ay (sry by_)))
        (addf (srx bx) (r_x R) vx (addf (sry by_) (r_y R) vy [])) [].
  Definition sK (vx vy : list Z) (s : sst) : Prop :=
    lookfs (s_f s) (RO, 0) (r_z R) = Some (r_fn R (vx ++ vy)) /\ lookr (s_r s) RSP = Some (RS, 0) /\ (r_rax R = true -> lookr (s_r s) RAX = Some (RT, 0)).
  Definition sgood : Prop :=
    forall bx by_ vx vy, (bx = true -> nx0 = false /\ r_ax R = true) -> (by_ = true -> ny0 = false /\ r_ay R = true) -> (bx = true -> by_ = true -> vx = vy) ->
    length vx = length (r_x R) -> length vy = length (r_y R) -> r_pre R (vx ++ vy) -> exec (slay bx by_) items (s0 bx by_ vx vy) (sK vx vy).
  Hypothesis AO : Forall (aokT C T (ctabs c T NT HF)) items.
  Hypothesis FL : forall base, base RT = T -> base RN = NT -> base RH = HF -> flat base items = cd.
  Hypothesis A0 : arg0 az && arg0 ax && arg0 ay = true.
  Hypothesis XN : r_nx R = 0%nat -> r_x R = [].
  Hypothesis YN : r_ny R = 0%nat -> r_y R = [].
  Hypothesis XY : r_ax R = true -> r_ay R = true -> r_x R = r_y R.
  Hypothesis CL : forallb (fun r => inb r (RSP :: r_clob R)) (clob items) = true.
  Hypothesis XC : forallb (fun r => inx r (r_xclob R)) (xclob items) = true.
  Hypothesis NL : inb RSP (r_clob R) = false.
  Hypothesis EX : sgood.

  Lemma seedr_ok lay base g X a v p : argv g X a v -> arg0 a = true -> okp lay p = true -> at_p base p = v ->
    Forall (fun e => okp lay (snd e) = true /\ getr g (fst e) = at_p base (snd e)) (seedr a p).
  Proof. intros H E O P. destruct a; cbn; constructor; [|constructor]. cbn [fst snd]. split; [exact O|]. rewrite P, <- H. cbn in E. apply Z.eqb_eq in E. rewrite E. clear. lia. Qed.
  Lemma seedx_ok lay base g X a v p : argv g X a v -> okp lay p = true -> at_p base p = v ->
    Forall (fun e => okp lay (snd e) = true /\ getx X (fst e) = at_p base (snd e)) (seedx a p).
  Proof. intros H O P. destruct a; cbn; constructor; [|constructor]. cbn [fst snd]. split; [exact O|]. rewrite P, <- H. reflexivity. Qed.

  Lemma sub_aspec : aspec C T (ctabs c T NT HF) cd az ax ay R.
  Proof.
    intros pc g X f m sp z x y vx vy Q A Gs Az Ax Ay Rx Ry TB Mz Ms Rs Rz Ox Oy Dzs CZ HP HR H.
    assert (DX : exists bx : bool, (bx = true -> nx0 = false /\ r_ax R = true /\ z = x) /\ (bx = false -> nx0 = true \/ (0 <= x /\ x + Wd (r_nx R) < B) /\ disj x (Wd (r_nx R)) (sp - Wd (r_stk R)) (Wd (r_stk R)) /\ disj x (Wd (r_nx R)) z (Wd (r_nz R)))).
    { destruct Ox as [Ox|(O1 & O2 & [O3|[O3 O4]])].
      - exists false. split; [discriminate|]. intros _. left. rewrite Ox. reflexivity.
      - exists false. split; [discriminate|]. intros _. right. auto.
      - destruct nx0 eqn:En; [exists false; split; [discriminate|auto]|]. exists true. split; [auto|discriminate]. }
    assert (DY : exists by_ : bool, (by_ = true -> ny0 = false /\ r_ay R = true /\ z = y) /\ (by_ = false -> ny0 = true \/ (0 <= y /\ y + Wd (r_ny R) < B) /\ disj y (Wd (r_ny R)) (sp - Wd (r_stk R)) (Wd (r_stk R)) /\ disj y (Wd (r_ny R)) z (Wd (r_nz R)))).
    { destruct Oy as [Oy|(O1 & O2 & [O3|[O3 O4]])].
      - exists false. split; [discriminate|]. intros _. left. rewrite Oy. reflexivity.
      - exists false. split; [discriminate|]. intros _. right. auto.
      - destruct ny0 eqn:En; [exists false; split; [discriminate|auto]|]. exists true. split; [auto|discriminate]. }
    destruct DX as (bx & DX1 & DX2). destruct DY as (by_ & DY1 & DY2). clear Ox Oy.
    set (base := sbase bx by_ z x y sp). set (lay := slay bx by_).
    assert (Ex : nx0 = false -> at_p base (srx bx) = x).
    { intros E. unfold at_p, srx, base. destruct bx; cbn [fst snd sbase orb]; [destruct (DX1 eq_refl) as (_ & _ & ->); clear; lia|]. rewrite E. clear. lia. }
    assert (Ey : ny0 = false -> at_p base (sry by_) = y).
    { intros E. unfold at_p, sry, base. destruct by_; cbn [fst snd sbase orb]; [destruct (DY1 eq_refl) as (_ & _ & ->); clear; lia|]. rewrite E. clear. lia. }
    assert (Kx : okp lay (srx bx) = true).
    { unfold okp, inr_, srx, lo, hi, lay. destruct bx; cbn [fst snd slay]; apply andb_true_intro; split; apply Z.leb_le; clear; lia. }
    assert (Ky : okp lay (sry by_) = true).
    { unfold okp, inr_, sry, lo, hi, lay. destruct by_; cbn [fst snd slay]; apply andb_true_intro; split; apply Z.leb_le; clear; lia. }
    assert (Kz : okp lay (RO, 0) = true) by (unfold okp, inr_, lo, hi, lay; cbn [fst snd slay]; apply andb_true_intro; split; apply Z.leb_le; clear; lia).
    assert (Ksp : okp lay (RS, 0) = true) by (unfold okp, inr_, lo, hi, lay; cbn [fst snd slay]; apply andb_true_intro; split; apply Z.leb_le; clear; lia).
    assert (Kt : okp lay (RT, 0) = true) by reflexivity.
    unfold ctabs in CZ. inversion CZ as [|? ? (T1 & T2 & T3) CZ2]; subst. inversion CZ2 as [|? ? (N1 & N2 & N3) CZ3]; subst. inversion CZ3 as [|? ? (H1 & H2 & H3) _]; subst. clear CZ CZ2 CZ3. cbn [t_a t_o t_n] in *.
    change (8 * Z.of_nat 40) with 320 in *. change (8 * Z.of_nat 8) with 64 in *.
    pose proof (Wd_nn (r_nz R)) as W1. pose proof (Wd_nn (r_stk R)) as W2. pose proof (Wd_nn (r_nx R)) as W3. pose proof (Wd_nn (r_ny R)) as W4.
    assert (OK : regions_ok lay base).
    { assert (XR : 0 <= base RA + lo lay RA /\ base RA + hi lay RA < B /\ disj (base RA + lo lay RA) (hi lay RA - lo lay RA) z (Wd (r_nz R)) /\ disj (base RA + lo lay RA) (hi lay RA - lo lay RA) (getr g RSP - Wd (r_stk R)) (Wd (r_stk R))).
      { unfold base, lay, lo, hi. cbn [sbase slay fst snd]. destruct bx; cbn [orb]; [clear -Rz W1 Dzs W2; unfold disj in *; lia|]. destruct nx0 eqn:E.
        - apply Nat.eqb_eq in E. rewrite E. clear -Rz W1 Dzs W2; unfold disj in *; lia.
        - destruct (DX2 eq_refl) as [D|D]; [discriminate D|]. clear -D W3 W1 W2. unfold disj in *. lia. }
      assert (YR : 0 <= base RB + lo lay RB /\ base RB + hi lay RB < B /\ disj (base RB + lo lay RB) (hi lay RB - lo lay RB) z (Wd (r_nz R)) /\ disj (base RB + lo lay RB) (hi lay RB - lo lay RB) (getr g RSP - Wd (r_stk R)) (Wd (r_stk R))).
      { unfold base, lay, lo, hi. cbn [sbase slay fst snd]. destruct by_; cbn [orb]; [clear -Rz W1 Dzs W2; unfold disj in *; lia|]. destruct ny0 eqn:E.
        - apply Nat.eqb_eq in E. rewrite E. clear -Rz W1 Dzs W2; unfold disj in *; lia.
        - destruct (DY2 eq_refl) as [D|D]; [discriminate D|]. clear -D W4 W1 W2. unfold disj in *. lia. }
      split.
      - intros r. destruct r; try (split; [apply XR|apply XR]); try (split; [apply YR|apply YR]); unfold base, lay, lo, hi; cbn [sbase slay fst snd]; clear -Rs Rz T1 N1 H1 W2; lia.
      - intros r r' Hw Hn. destruct r; try discriminate Hw; destruct r'; try discriminate Hn.
        all: first [ (destruct XR as (_ & _ & XR1 & XR2); unfold lo, hi, base, lay in *; cbn [sbase slay fst snd] in *; clear -XR1 XR2 W1 W2; unfold disj in *; lia)
                   | (destruct YR as (_ & _ & YR1 & YR2); unfold lo, hi, base, lay in *; cbn [sbase slay fst snd] in *; clear -YR1 YR2 W1 W2; unfold disj in *; lia)
                   | (unfold lo, hi, base, lay; cbn [sbase slay fst snd]; clear -Dzs T2 T3 N2 N3 H2 H3 W1 W2; unfold disj in *; lia)]. }
    assert (TAB : Forall (tab_at m) (ctabs c T NT HF)) by exact TB.
    assert (LX : length vx = length (r_x R)) by exact (reads_len _ _ _ _ Rx). assert (LY : length vy = length (r_y R)) by exact (reads_len _ _ _ _ Ry).
    assert (SAT : sat lay base (s0 bx by_ vx vy) g X m).
    { unfold sat, s0. cbn [s_r s_x s_f s_p]. apply andb_prop in A0. destruct A0 as [A01 A03]. apply andb_prop in A01. destruct A01 as [A01 A02]. split; [|split; [|split; [|split]]].
      - constructor; [cbn [fst snd]; split; [exact Ksp|unfold at_p, base; cbn [fst snd sbase]; clear; lia]|]. apply Forall_app. split; [|apply Forall_app; split; [|apply Forall_app; split]].
        + destruct (r_rin R) eqn:E; [|constructor]. constructor; [|constructor]. cbn [fst snd]. split; [reflexivity|]. rewrite (HR eq_refl). unfold at_p, base. cbn [fst snd sbase]. clear. lia.
        + refine (seedr_ok _ _ _ _ _ _ _ Az A01 Kz _). unfold at_p, base. cbn [fst snd sbase]. clear. lia.
        + destruct nx0 eqn:E; [constructor|]. exact (seedr_ok _ _ _ _ _ _ _ Ax A02 Kx (Ex eq_refl)).
        + destruct ny0 eqn:E; [constructor|]. exact (seedr_ok _ _ _ _ _ _ _ Ay A03 Ky (Ey eq_refl)).
      - apply Forall_app. split; [|apply Forall_app; split].
        + refine (seedx_ok _ _ _ _ _ _ _ Az Kz _). unfold at_p, base. cbn [fst snd sbase]. clear. lia.
        + destruct nx0 eqn:E; [constructor|]. exact (seedx_ok _ _ _ _ _ _ _ Ax Kx (Ex eq_refl)).
        + destruct ny0 eqn:E; [constructor|]. exact (seedx_ok _ _ _ _ _ _ _ Ay Ky (Ey eq_refl)).
      - apply addf_ok; [|apply addf_ok; [|constructor]].
        + destruct nx0 eqn:E; [apply Nat.eqb_eq in E; rewrite (XN E) in Rx |- *; inversion Rx; subst; constructor|]. rewrite (Ex eq_refl). exact Rx.
        + destruct ny0 eqn:E; [apply Nat.eqb_eq in E; rewrite (YN E) in Ry |- *; inversion Ry; subst; constructor|]. rewrite (Ey eq_refl). exact Ry.
      - constructor.
      - intros r o Hw L1 L2 L3. assert (MA : forall a n o, mapped m a n -> 0 <= o -> o + 8 <= Wd n -> o mod 8 = 0 -> exists v, m (a + o) = Some v).
        { clear. intros a n o M L1 L2 L3. apply mapped_avail in M. destruct (M (o / 8)) as [v E]; [split; [apply Z.div_pos; lia|apply Z.div_lt_upper_bound; lia]|]. exists v. rewrite <- E. f_equal. pose proof (Z.div_mod o 8). lia. }
        destruct r; try discriminate Hw; unfold lo, hi, base, lay in *; cbn [sbase slay fst snd] in *.
        + rewrite Z.sub_0_r in L3. exact (MA _ _ _ Mz L1 L2 L3).
        + destruct (MA _ _ (o - - Wd (r_stk R)) Ms ltac:(clear -L1; lia) ltac:(clear -L2; lia) L3) as [v E]. exists v. rewrite <- E. f_equal. clear. lia. }
    refine (exec_ok lay base OK C (ctabs c T NT HF) _ _ items (s0 bx by_ vx vy) (sK vx vy) pc g X f m Q AO _ _ SAT TAB _).
    - cbn. repeat apply Forall_cons; [exists RT|exists RN|exists RH|apply Forall_nil]; repeat split; try reflexivity; try (cbn; intro; discriminate); unfold base, lay, lo, hi; cbn [sbase slay fst snd t_o t_n]; try (clear; lia).
      all: repeat constructor; cbn; try (intro; discriminate).
    - exact Kt.
    - apply EX; try assumption.
      + intros E. destruct (DX1 E) as (E1 & E2 & _). auto.
      + intros E. destruct (DY1 E) as (E1 & E2 & _). auto.
      + intros E E'. destruct (DX1 E) as (_ & E1 & E2). destruct (DY1 E') as (_ & E3 & E4). subst x y. rewrite (XY E1 E3) in Rx. exact (reads_fun _ _ _ _ _ Rx Ry).
    - rewrite (FL base eq_refl eq_refl eq_refl). exact A.
    - intros s' g' X' f' m' (K1 & K2 & K3) SA' KP XK CH. rewrite (FL base eq_refl eq_refl eq_refl).
      assert (GS : getr g' RSP = getr g RSP).
      { rewrite (proj2 (lookr_ok _ _ _ _ _ _ _ _ SA' K2)). unfold at_p, base. cbn [fst snd sbase]. clear. lia. }
      apply H.
      + apply (keep_drop RSP); [|exact GS]. intros r Hr. apply KP. destruct (inb r (clob items)) eqn:E; [|reflexivity]. exfalso.
        rewrite forallb_forall in CL. rewrite (CL r) in Hr; [discriminate|]. clear -E. induction (clob items) as [|q l IH]; cbn [inb] in E; [discriminate|]. destruct (reqb r q) eqn:E2; [apply reqb_eq in E2; subst; left; reflexivity|right; apply IH; exact E].
      + intros r Hr. apply XK. destruct (inx r (xclob items)) eqn:E; [|reflexivity]. exfalso.
        rewrite forallb_forall in XC. rewrite (XC r) in Hr; [discriminate|]. clear -E. induction (xclob items) as [|q l IH]; cbn [inx] in E; [discriminate|]. destruct (xeqb r q) eqn:E2; [apply xeqb_eq in E2; subst; left; reflexivity|right; apply IH; exact E].
      + refine (chg_sub _ _ _ _ _ CH). intros b Hb. apply off2 in Hb. change (wreg lay base) with [(z + 0, Wd (r_nz R) - 0); (getr g RSP + - Wd (r_stk R), 0 - - Wd (r_stk R))]. apply off2. clear -Hb. lia.
      + destruct SA' as (_ & _ & S3 & _). pose proof (lookfs_ok _ _ _ _ _ _ S3 K1) as RR. unfold at_p, base in RR. cbn [fst snd sbase] in RR. rewrite Z.add_0_r in RR. exact RR.
      + intros E. rewrite (proj2 (lookr_ok _ _ _ _ _ _ _ _ SA' (K3 E))). unfold at_p, base. cbn [fst snd sbase]. clear. lia.
  Qed.
End Sub.
