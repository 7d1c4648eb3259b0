(** Stack frames of the generated functions (MakeStackFrame): what storeReg saves, restoreReg
    gives back. *)
From Coq Require Import ZArith List Bool Lia.
From Verif Require Import Base Prim Primes FpSpec Cfg FpM X64 XLog JitSpec XTac XReg JitFp JitMac JitMac2 JitZmApi.
Import ListNotations.
Local Open Scope Z_scope.

(** the words below [sp], from the i-th on, hold the registers [l] *)
Fixpoint slots (m : memory) (sp i : Z) (l : list reg) (g : regs) : Prop :=
  match l with [] => True | r :: l' => m (sp - 8 * i) = Some (getr g r) /\ slots m sp (i + 1) l' g end.
Lemma slots_same m m' sp i l g g' : (forall b, sp - 8 * (i + Z.of_nat (length l) - 1) <= b <= sp - 8 * i -> m' b = m b) ->
  (forall r, In r l -> getr g' r = getr g r) -> slots m sp i l g -> slots m' sp i l g'.
Proof.
  revert i. induction l as [|r l IH]; intros i Hm Hg; cbn [slots length] in *; [auto|]. intros [E H]. split.
  - rewrite Hm by lia. rewrite Hg by (left; reflexivity). exact E.
  - apply IH; [intros b Hb; apply Hm; lia|intros r' Hr; apply Hg; right; exact Hr|exact H].
Qed.
Lemma off1 b a n : Forall (off b) [(a, n)] <-> b < a \/ a + n <= b.
Proof. split; [intros H; exact (Forall_inv H)|intros H; constructor; [exact H|constructor]]. Qed.
Lemma off2 b a n a' n' : Forall (off b) [(a, n); (a', n')] <-> (b < a \/ a + n <= b) /\ (b < a' \/ a' + n' <= b).
Proof.
  split; [intros H; split; [exact (Forall_inv H)|exact (Forall_inv (Forall_inv_tail H))]|].
  intros [H1 H2]. constructor; [exact H1|]. constructor; [exact H2|constructor].
Qed.
Definition avail (m : memory) (lo : Z) (n : Z) : Prop := forall j, 0 <= j < n -> exists v, m (lo + 8 * j) = Some v.
Lemma avail_chg l m m' lo n : chg l m m' -> avail m lo n -> avail m' lo n.
Proof. intros [_ C] H j Hj. destruct (H j Hj) as [v E]. exact (C _ _ E). Qed.
Lemma mapped_avail m lo n : mapped m lo n -> avail m lo (Z.of_nat n).
Proof.
  revert lo. induction n as [|n IH]; intros lo H j Hj; [lia|]. cbn [mapped] in H. destruct H as [[v E] H].
  destruct (Z.eq_dec j 0) as [->|N]; [exists v; rewrite Z.add_0_r; exact E|].
  destruct (IH _ H (j - 1) ltac:(lia)) as [w Ew]. exists w. rewrite <- Ew. f_equal. lia.
Qed.

Section Save.
  Variables (P sp : Z) (X : xregs) (f : flags) (Q : state -> Prop) (k : code).
  Lemma save_ok l : forall i g m, getr g RSP = sp - P -> 0 <= sp - P -> sp < B -> 1 <= i -> 8 * (i + Z.of_nat (length l) - 1) <= P ->
    (forall j, i <= j < i + Z.of_nat (length l) -> exists v, m (sp - 8 * j) = Some v) ->
    (forall m', slots m' sp i l g -> chg [(sp - 8 * (i + Z.of_nat (length l) - 1), 8 * Z.of_nat (length l))] m m' -> wps k (mkSt g X f m') Q) ->
    wps (saveRegs P i l ++ k) (mkSt g X f m) Q.
  Proof.
    induction l as [|r l IH]; intros i g m G H1 H2 H3 H4 M H; cbn [saveRegs app length] in *.
    - apply H; [exact I|]. apply (chg_sub []); [intros; constructor|apply chg_refl].
    - destruct (M i ltac:(lia)) as [v0 E0].
      eapply (k_store _ _ _ _ _ _ _ _ (sp - 8 * i)); [eapply ea_ad; [exact G|lia|lia]|exact E0|reflexivity|].
      apply IH; try assumption; try lia.
      + intros j Hj. rewrite mset_ne by lia. apply M. lia.
      + intros m' S C. apply H.
        * cbn [slots]. split; [|exact S]. destruct C as [C _]. rewrite C; [apply mset_eq; reflexivity|].
          constructor; [|constructor]. unfold off. cbn [fst snd]. lia.
        * eapply chg_sub; [|exact (chg_trans _ _ _ _ _ (chg_mset m (sp - 8 * i) (getr g r) v0 E0) C)].
          intros b Hb. apply off1 in Hb. cbn [app]. apply off2. lia.
  Qed.
  Lemma load_ok l : forall i g g0 m, nodup (RSP :: l) = true -> getr g RSP = sp - P -> 0 <= sp - P -> sp < B -> 1 <= i -> 8 * (i + Z.of_nat (length l) - 1) <= P ->
    slots m sp i l g0 ->
    (forall g', keep l g g' -> (forall r, In r l -> getr g' r = getr g0 r) -> wps k (mkSt g' X f m) Q) ->
    wps (loadRegs P i l ++ k) (mkSt g X f m) Q.
  Proof.
    induction l as [|r l IH]; intros i g g0 m D G H1 H2 H3 H4 S H; cbn [loadRegs app length slots] in *.
    - apply H; [apply keep_refl|intros r []].
    - destruct S as [E S]. cbn [nodup inb] in D. destruct (reqb RSP r) eqn:E1; [discriminate D|].
      destruct (inb RSP l) eqn:E2; [discriminate D|]. destruct (inb r l) eqn:E3; [discriminate D|].
      eapply k_mov; [eapply rd_mem; [eapply ea_ad; [exact G|lia|reflexivity]|replace (sp - P + (P - 8 * i)) with (sp - 8 * i) by lia; exact E]|].
      intros g1 K1 L1. apply (IH (i + 1) g1 g0); try assumption; try lia.
      + cbn [nodup]. rewrite E2. exact D.
      + rewrite (K1 RSP); [exact G|]. cbn [inb]. rewrite E1. reflexivity.
      + intros g2 K2 L2. apply H.
        * apply (keep_trans [r] l _ _ _ K1 K2).
        * intros r' [<-|Hr]; [|exact (L2 _ Hr)]. rewrite (K2 r E3). exact L1.
  Qed.
End Save.

(** the stack below [sp] holds what the function needs, [S] bytes; the return address is above *)
Definition preserved : list reg := [RBX; RBP; R12; R13; R14; R15].
Lemma saved_len gtn : 5 <= gtn <= 10 -> Z.of_nat (length (saved gtn)) = gtn - 4 /\ nodup (RSP :: saved gtn) = true /\
  (forall r, In r (saved gtn) -> In r preserved).
Proof.
  intros H. assert (D : gtn = 5 \/ gtn = 6 \/ gtn = 7 \/ gtn = 8 \/ gtn = 9 \/ gtn = 10) by lia.
  repeat destruct D as [->|D]; try subst gtn; (split; [reflexivity|split; [reflexivity|intros r Hr; vm_compute in Hr |- *; tauto]]).
Qed.
Section FrameWp.
  Variables (C body : code) (gtn nq d : Z) (L : list reg) (outs : list (Z * Z)) (s : state) (Post : Z -> memory -> Prop).
  Notation sp := (getr (rg s) RSP).
  Notation P := (frameP gtn nq).
  Hypothesis Hg : 5 <= gtn <= 10.
  Hypothesis Hq : 0 <= nq.
  Hypothesis Hd : 0 <= d.
  Hypothesis HC : at_ C 0 (frame gtn nq body).
  Hypothesis Hcall : called C s.
  Hypothesis Hsp : 0 <= sp - P - 8 * d.
  Hypothesis Hav : avail (mem s) (sp - P - 8 * d) (P / 8 + d).
  Hypothesis Hout : Forall (clear_of (sp - P - 8 * d) (P + 8 * d + 8)) outs.
  Hypothesis HL : inb RSP L = false.
  Hypothesis HS : forallb (fun r => if inb r L then inb r (saved gtn) else true) preserved = true.
  Hypothesis Hbody : forall pc g1 f1 m1 (Q : Z -> state -> Prop), at_ C pc body -> keep [RSP; R9] (rg s) g1 ->
    getr g1 RSP = sp - P -> getr g1 R9 = rdx (rg s) -> chg [(sp - P, P)] (mem s) m1 ->
    (forall g2 X2 f2 m2, keep L g1 g2 -> chg (outs ++ [(sp - P - 8 * d, 8 * (nq + d))]) m1 m2 -> Post (getr g2 RAX) m2 ->
       wp C (pc + Z.of_nat (length body)) (mkSt g2 X2 f2 m2) Q) ->
    wp C pc (mkSt g1 (xm s) f1 m1) Q.
  Lemma frame_wpl : calls C s (fun s' => Post (getr (rg s') RAX) (mem s') /\ chg (outs ++ [(sp - P - 8 * d, P + 8 * d)]) (mem s) (mem s')).
  Proof using All.
    destruct (saved_len gtn Hg) as (SL & SN & SP). destruct Hcall as [(ra & Era & Fra) [A1 A2]].
    change (rsp (rg s)) with sp in *. change (8 * Z.of_nat 1) with 8 in A2.
    assert (HP : P = 8 * (gtn - 4) + 8 * nq) by (unfold frameP; lia).
    assert (HP8 : P / 8 = gtn - 4 + nq) by (rewrite HP; replace (8 * (gtn - 4) + 8 * nq) with ((gtn - 4 + nq) * 8) by ring; apply Z.div_mul; discriminate).
    rewrite HP8 in Hav. unfold frame in HC.
    destruct (at_app _ _ _ _ HC) as [A_s A_r]. destruct (at_app _ _ _ _ A_r) as [A_b A_e]. clear A_r.
    set (pcb := 0 + Z.of_nat (length (storeReg gtn nq))) in *.
    assert (EP : (0 <? P) = true) by (apply Z.ltb_lt; lia).
    destruct s as [g X f m]. cbn [rg mem xm] in *. set (spv := getr g RSP) in *.
    eapply (calls_wp C _ _ (fun t s' => t = ra /\ getr (rg s') RSP = spv + 8 /\ (forall r, In r preserved -> getr (rg s') r = getr g r) /\
        Post (getr (rg s') RAX) (mem s') /\ chg (outs ++ [(spv - P - 8 * d, P + 8 * d)]) m (mem s'))).
    2:{ intros t s' (-> & E1 & E2 & E3 & E4). split; [|split; [exact E3|exact E4]]. split; [exact Era|]. split; [exact E1|].
        unfold callee_saved. change (rbx g) with (getr g RBX). change (rbp g) with (getr g RBP). change (r12 g) with (getr g R12).
        change (r13 g) with (getr g R13). change (r14 g) with (getr g R14). change (r15 g) with (getr g R15). cbn [rg].
        repeat split; (apply (E2 RBX) || apply (E2 RBP) || apply (E2 R12) || apply (E2 R13) || apply (E2 R14) || apply (E2 R15)); cbn; tauto. }
    apply (wp_block _ 0 (storeReg gtn nq) _ _ A_s). change (0 + Z.of_nat (length (storeReg gtn nq))) with pcb. clearbody pcb.
    unfold storeReg. rewrite EP. cbn [app].
    eapply k_subx; [reflexivity|apply rd_imm; lia|lia|]. intros g1 f1 K1 L1.
    eapply (save_ok P spv); [exact L1|lia|lia|lia|lia| |].
    { intros j Hj. destruct (Hav (gtn - 4 + nq + d - j) ltac:(lia)) as [v Ev]. exists v. rewrite <- Ev. f_equal. lia. }
    intros m1 S1 C1. eapply k_mov; [reflexivity|]. intros g2 K2 L2. cbn [wps].
    assert (C1' : chg [(spv - P, P)] m m1).
    { refine (chg_sub _ _ _ _ _ C1). intros b Hb. apply off1 in Hb. apply off1. lia. }
    eapply Hbody; [exact A_b| | | |exact C1'|].
    { exact (keep_trans [RSP] [R9] _ _ _ K1 K2). }
    { rewrite (K2 RSP eq_refl). exact L1. }
    { rewrite L2. change (rdx g) with (getr g RDX). exact (K1 RDX eq_refl). }
    intros g3 X3 f3 m3 K3 C3 HPost.
    assert (OO : forall b, spv - P <= b < spv + 8 -> Forall (off b) outs).
    { intros b Hb. refine (Forall_impl _ _ Hout). intros [q e]. unfold clear_of, off. cbn [fst snd]. lia. }
    assert (OS : forall b, spv - 8 * (gtn - 4) <= b < spv + 8 -> Forall (off b) (outs ++ [(spv - P - 8 * d, 8 * (nq + d))])).
    { intros b Hb. apply Forall_app. split; [apply OO; lia|apply off1; lia]. }
    assert (Sl : slots m3 spv 1 (saved gtn) g).
    { refine (slots_same m1 m3 spv 1 (saved gtn) g1 g _ _ S1).
      - intros b Hb. destruct C3 as [C3 _]. apply C3. apply OS. lia.
      - intros r Hr. symmetry. apply K1. cbn [inb]. destruct (reqb r RSP) eqn:E; [|reflexivity].
        apply reqb_eq in E. subst r. specialize (SP _ Hr). cbn in SP. intuition discriminate. }
    assert (Ra : m3 spv = Some ra).
    { destruct C3 as [C3 _]. rewrite C3 by (apply OS; lia). destruct C1' as [C1' _]. rewrite C1' by (apply off1; lia). exact Era. }
    assert (G3 : getr g3 RSP = spv - P) by (rewrite (K3 _ HL), (K2 RSP eq_refl); exact L1).
    unfold restoreReg in A_e. rewrite EP in A_e.
    rewrite app_assoc in A_e. destruct (at_app _ _ _ _ A_e) as [A_1 A_2].
    set (pce := pcb + Z.of_nat (length body)) in *.
    apply (wp_block _ pce _ _ _ A_1). clearbody pce.
    eapply (load_ok P spv); [exact SN|exact G3|lia|lia|lia|lia|exact Sl|]. intros g4 K4 L4.
    assert (G4 : getr g4 RSP = spv - P).
    { rewrite (K4 RSP); [exact G3|]. destruct (inb RSP (saved gtn)) eqn:E; [|reflexivity]. apply inb_In in E.
      specialize (SP _ E). cbn in SP. intuition discriminate. }
    eapply k_addx; [exact G4|apply rd_imm; lia|lia|]. intros g5 f5 K5 L5. cbn [wps].
    replace (spv - P + P) with spv in L5 by lia.
    eapply wp_ret; [apply (at_cons _ _ _ _ A_2)|cbn [mem rg]; change (rsp g5) with (getr g5 RSP); rewrite L5; exact Ra|].
    cbn [rg xm fl mem]. change (rsp g5) with (getr g5 RSP). rewrite L5. apply wp_done; [exact Fra|].
    split; [reflexivity|]. cbn [rg mem]. split; [rewrite getr_same; apply Z.mod_small; lia|]. 
    assert (NA : inb RAX (saved gtn) = false).
    { destruct (inb RAX (saved gtn)) eqn:E; [|reflexivity]. apply inb_In in E. specialize (SP _ E). cbn in SP. intuition discriminate. }
    split; [|split; [rewrite getr_ne by reflexivity; rewrite (K5 RAX eq_refl), (K4 RAX NA); exact HPost|]].
    - intros r Hr. assert (NR : reqb r RSP = false).
      { destruct (reqb r RSP) eqn:E; [|reflexivity]. apply reqb_eq in E. subst r. cbn in Hr. intuition discriminate. }
      rewrite getr_ne by exact NR. rewrite (K5 r) by (cbn [inb]; rewrite NR; reflexivity).
      destruct (inb r (saved gtn)) eqn:E.
      + apply L4. apply inb_In. exact E.
      + rewrite (K4 r E). rewrite forallb_forall in HS. specialize (HS r Hr). rewrite E in HS.
        destruct (inb r L) eqn:EL; [discriminate HS|]. rewrite (K3 r EL), (K2 r), (K1 r); [reflexivity| |].
        * cbn [inb]. rewrite NR. reflexivity.
        * cbn [inb]. destruct (reqb r R9) eqn:E9; [|reflexivity]. apply reqb_eq in E9. subst r. cbn in Hr. intuition discriminate.
    - refine (chg_sub _ _ _ _ _ (chg_trans _ _ _ _ _ C1' C3)). intros b Hb. apply Forall_app in Hb. destruct Hb as [H1 H2]. apply off1 in H2. cbn [app].
      constructor; [unfold off; cbn [fst snd]; lia|]. apply Forall_app. split; [exact H1|]. apply off1. lia.
  Qed.
End FrameWp.
(** one output *)
Lemma frame_wpr (C body : code) (gtn nq d : Z) (L : list reg) (o n : Z) (s : state) (Post : Z -> memory -> Prop) :
  let sp := getr (rg s) RSP in let P := frameP gtn nq in
  5 <= gtn <= 10 -> 0 <= nq -> 0 <= d -> at_ C 0 (frame gtn nq body) -> called C s ->
  0 <= sp - P - 8 * d -> avail (mem s) (sp - P - 8 * d) (P / 8 + d) -> o + n <= sp - P - 8 * d \/ sp + 8 <= o ->
  inb RSP L = false -> forallb (fun r => if inb r L then inb r (saved gtn) else true) preserved = true ->
  (forall pc g1 f1 m1 (Q : Z -> state -> Prop), at_ C pc body -> keep [RSP; R9] (rg s) g1 ->
    getr g1 RSP = sp - P -> getr g1 R9 = rdx (rg s) -> chg [(sp - P, P)] (mem s) m1 ->
    (forall g2 X2 f2 m2, keep L g1 g2 -> chg [(o, n); (sp - P - 8 * d, 8 * (nq + d))] m1 m2 -> Post (getr g2 RAX) m2 ->
       wp C (pc + Z.of_nat (length body)) (mkSt g2 X2 f2 m2) Q) ->
    wp C pc (mkSt g1 (xm s) f1 m1) Q) ->
  calls C s (fun s' => Post (getr (rg s') RAX) (mem s') /\ chg [(o, n); (sp - P - 8 * d, P + 8 * d)] (mem s) (mem s')).
Proof.
  intros sp P Hg Hq Hd HC Hcall Hsp Hav Hout. refine (frame_wpl C body gtn nq d L [(o, n)] s Post Hg Hq Hd HC Hcall Hsp Hav _).
  constructor; [|constructor]. unfold clear_of. cbn [fst snd]. fold P. fold sp. lia.
Qed.
(** when the result register does not matter *)
Lemma frame_wp (C body : code) (gtn nq d : Z) (L : list reg) (o n : Z) (s : state) (Post : memory -> Prop) :
  let sp := getr (rg s) RSP in let P := frameP gtn nq in
  5 <= gtn <= 10 -> 0 <= nq -> 0 <= d -> at_ C 0 (frame gtn nq body) -> called C s ->
  0 <= sp - P - 8 * d -> avail (mem s) (sp - P - 8 * d) (P / 8 + d) -> o + n <= sp - P - 8 * d \/ sp + 8 <= o ->
  inb RSP L = false -> forallb (fun r => if inb r L then inb r (saved gtn) else true) preserved = true ->
  (forall pc g1 f1 m1 (Q : Z -> state -> Prop), at_ C pc body -> keep [RSP; R9] (rg s) g1 ->
    getr g1 RSP = sp - P -> getr g1 R9 = rdx (rg s) -> chg [(sp - P, P)] (mem s) m1 ->
    (forall g2 X2 f2 m2, keep L g1 g2 -> chg [(o, n); (sp - P - 8 * d, 8 * (nq + d))] m1 m2 -> Post m2 ->
       wp C (pc + Z.of_nat (length body)) (mkSt g2 X2 f2 m2) Q) ->
    wp C pc (mkSt g1 (xm s) f1 m1) Q) ->
  calls C s (fun s' => Post (mem s') /\ chg [(o, n); (sp - P - 8 * d, P + 8 * d)] (mem s) (mem s')).
Proof. exact (frame_wpr C body gtn nq d L o n s (fun _ => Post)). Qed.


(** call of a subroutine that stands elsewhere in the code *)
Lemma call_wp C pc l t sub g X f m sp L R (Post : memory -> Prop) (Q : Z -> state -> Prop) :
  fetch C pc = Some (Call l) -> find C l 0 = Some t -> at_ C t ([Lab l] ++ sub ++ [Ret]) ->
  getr g RSP = sp -> 0 <= sp - 8 -> sp < B -> (exists v, m (sp - 8) = Some v) ->
  inb RSP L = false -> Forall (clear_of (sp - 8) 8) R ->
  (forall g1 m1 (Q' : state -> Prop), keep [RSP] g g1 -> getr g1 RSP = sp - 8 -> chg [(sp - 8, 8)] m m1 ->
    (forall g2 X2 f2 m2, keep L g1 g2 -> chg R m1 m2 -> Post m2 -> Q' (mkSt g2 X2 f2 m2)) -> wps sub (mkSt g1 X f m1) Q') ->
  (forall g3 X3 f3 m3, keep L g g3 -> chg ((sp - 8, 8) :: R) m m3 -> Post m3 -> wp C (pc + 1) (mkSt g3 X3 f3 m3) Q) ->
  wp C pc (mkSt g X f m) Q.
Proof.
  intros F1 F2 A G H1 H2 [v Ev] NL NR Hs H.
  assert (E8 : (getr g RSP - 8) mod B = sp - 8) by (rewrite G; apply Z.mod_small; lia).
  eapply wp_call; [exact F1|exact F2|cbn [mem rg]; change (rsp g) with (getr g RSP); rewrite E8; exact Ev|].
  cbn [mem rg xm fl]. change (rsp g) with (getr g RSP). rewrite E8.
  destruct (at_cons _ _ _ _ A) as [FL A1]. eapply wp_ex; [exact FL|reflexivity|].
  destruct (at_app _ _ _ _ A1) as [A2 A3]. apply (wp_block _ _ sub _ _ A2).
  pose proof (chg_mset m (sp - 8) (pc + 1) v Ev) as C0. pose proof (keep_setr g RSP (sp - 8)) as K0.
  eapply Hs; [exact K0|apply getr_same|exact C0|].
  intros g2 X2 f2 m2 K2 C2 HP. assert (G2 : getr g2 RSP = sp - 8) by (rewrite (K2 RSP NL); apply getr_same).
  eapply wp_ret; [apply (at_cons _ _ _ _ A3)|cbn [mem rg]; change (rsp g2) with (getr g2 RSP); rewrite G2|].
  { destruct C2 as [C2 _]. rewrite C2; [apply mset_eq; reflexivity|]. refine (Forall_impl _ _ NR). intros [c e]. unfold clear_of, off. cbn [fst snd]. lia. }
  cbn [mem rg xm fl]. change (rsp g2) with (getr g2 RSP). rewrite G2.
  replace ((sp - 8 + 8) mod B) with sp by (symmetry; replace (sp - 8 + 8) with sp by lia; apply Z.mod_small; lia).
  apply H; [|exact (chg_trans _ _ _ _ _ C0 C2)|exact HP].
  intros r Er. destruct (reqb r RSP) eqn:E.
  - apply reqb_eq in E. subst r. rewrite getr_same. congruence.
  - rewrite getr_ne by exact E. rewrite (K2 r Er). apply getr_ne. exact E.
Qed.
