(** The subroutines Fp6Dbl_mul and Fp6_mul. *)
From Coq Require Import ZArith List Bool Lia.
From Verif Require Import X64 XLog JitSpec JitFpSpec XTac XReg JitFp JitMac JitMac2 JitMul JitMont JitMul4 JitMod JitFrame JitFp2 JitFp2Spec JitFp2Mac JitFp2Mac2 JitFp2Api JitFp2Api2 JitSym JitSub JitLib JitFp6 JitFp6Sub.
From Verif Require Import Base Prim Primes FpSpec Cfg FpM TowerSpec TowerM.
Import ListNotations.
Local Open Scope Z_scope.
Local Notation find := X64.find.
Local Notation length := List.length.

(** ** From code to items: calls by a table of routines, [mov r, imm] loads the address of p *)
Record ent := mkE { e_l : Z; e_z : arg; e_x : arg; e_y : arg; e_r : rout }.
Definition eok (C : code) (T : Z) (tabs : list tab) (e : ent) : Prop := aspec C T tabs [Call (e_l e)] (e_z e) (e_x e) (e_y e) (e_r e).
Fixpoint lk (tb : list ent) (l : Z) : item :=
  match tb with [] => I_ (Call l) | e :: tb' => if e_l e =? l then IA [Call l] (e_z e) (e_x e) (e_y e) (e_r e) else lk tb' l end.
Definition it1 (tb : list ent) (i : instr) : item :=
  match i with Call l => lk tb l | Mov (R r) (Im _) => IT r (RT, 0) | _ => I_ i end.
Definition tr (tb : list ent) (cd : code) : list item := map (it1 tb) cd.
Definition trok (T : Z) (i : instr) : Prop := match i with Mov (R _) (Im t) => t = T | _ => True end.
Lemma lk_ok C T tabs tb l : Forall (eok C T tabs) tb -> aokT C T tabs (lk tb l).
Proof. intros H. induction H as [|e tb He H IH]; cbn [lk]; [exact I|]. destruct (Z.eqb_spec (e_l e) l) as [E|]; [|exact IH]. subst l. exact He. Qed.
Lemma tr_ok C T tabs tb cd : Forall (eok C T tabs) tb -> Forall (aokT C T tabs) (tr tb cd).
Proof.
  intros H. induction cd as [|i cd IH]; cbn [tr map]; constructor; [|exact IH].
  destruct i; try exact I; [destruct d; try exact I; destruct s; exact I|exact (lk_ok C T tabs tb l H)].
Qed.
Lemma flat_lk base tb l : flat1 base (lk tb l) = [Call l].
Proof. induction tb as [|e tb IH]; cbn [lk]; [reflexivity|]. destruct (e_l e =? l); [reflexivity|exact IH]. Qed.
Lemma flat_tr base T tb cd : base RT = T -> Forall (trok T) cd -> flat base (tr tb cd) = cd.
Proof.
  intros E H. induction H as [|i cd Hi H IH]; [reflexivity|]. cbn [tr map flat flat_map]. change (flat_map (flat1 base) (map (it1 tb) cd)) with (flat base (tr tb cd)). rewrite IH.
  destruct i; try reflexivity; [|cbn [it1]; rewrite flat_lk; reflexivity].
  destruct d; try reflexivity. destruct s; try reflexivity. cbn in Hi |- *. subst. reflexivity.
Qed.
Lemma flat_app base a b : flat base (a ++ b) = flat base a ++ flat base b.
Proof. apply flat_map_app. Qed.

Section Lib.
  Variables (c : cfg) (il mx : bool) (T NT HF : Z) (pre : code).
  Hypothesis NP : nolab pre = true.
  Local Notation C := (pre ++ lib il mx (snark c) T (cpp c) NT).
  Local Notation tabs := (ctabs c T NT HF).
  Local Notation asp := (aspec C T tabs).
  Local Notation P1 := (AR gp1 0).
  Local Notation P2 := (AR gp2 0).
  Local Notation P3 := (AR gp3 0).
  Definition tb1 : list ent :=
    [mkE L_FpDbl_mod P1 P2 AN (bump (r_mod c)); mkE L_FpDbl_addNC P1 P2 P3 (bump (r_dbl dbl_addNC g4)); mkE L_FpDbl_subNC P1 P2 P3 (bump (r_dbl dbl_subNC g4));
     mkE L_FpDbl_add P1 P2 P3 (bump (r_dbl (dbl_add c) (RAX :: g8))); mkE L_FpDbl_sub P1 P2 P3 (bump (r_dbl (dbl_sub c) (RAX :: g8)));
     mkE L_mulOpt1 P1 P2 P3 (bump (r_mulOpt c true)); mkE L_mulOpt2 P1 P2 P3 (bump (r_mulOpt c false)); mkE L_Fp2Dbl_mul_xi P1 P2 AN (bump (r_dmul_xi c));
     mkE L_Fp2_addNC P1 P2 P3 (bump (r_fp2 f2_addNC g4)); mkE L_Fp2_add P1 P2 P3 (bump (r_fp2 (f2_add c) (RAX :: g8))); mkE L_Fp2_sub P1 P2 P3 (bump (r_fp2 (f2_sub c) (RAX :: g8)));
     mkE L_Fp6_add P1 P2 P3 (bump (r_fp6 (f6_add c))); mkE L_Fp6_sub P1 P2 P3 (bump (r_fp6 (f6_sub c)))].
  Lemma tb1_ok : Forall (eok C T tabs) tb1.
  Proof.
    unfold tb1. repeat (apply Forall_cons; [unfold eok; cbn [e_l e_z e_x e_y e_r]|]); [..|apply Forall_nil].
    - apply k_mod; exact NP.
    - apply k_addNC; exact NP.
    - apply k_subNC; exact NP.
    - apply k_add; exact NP.
    - apply k_sub; exact NP.
    - apply k_opt1; exact NP.
    - apply k_opt2; exact NP.
    - apply k_mul_xi; exact NP.
    - apply k_addNC2; exact NP.
    - apply k_add2; exact NP.
    - apply k_sub2; exact NP.
    - apply k_add6; exact NP.
    - apply k_sub6; exact NP.
  Qed.
  (** inline pieces *)
  Definition i_add8 bz oz bx ox by_ oy := IA (in_FpDbl_add il T (Ad bz oz) (Ad bx ox) (Ad by_ oy)) (AR bz oz) (AR bx ox) (AR by_ oy) (r_dbl (dbl_add c) (RAX :: g8)).
  Definition i_sub8 bz oz bx ox by_ oy := IA (sub_FpDbl_sub il T (Ad bz oz) (Ad bx ox) (Ad by_ oy)) (AR bz oz) (AR bx ox) (AR by_ oy) (r_dbl (dbl_sub c) (RAX :: g8)).
  Definition i_opt1 bz oz bx ox by_ oy := IA (in_FpDbl_subOpt1 il NT (Ad bz oz) (Ad bx ox) (Ad by_ oy)) (AR bz oz) (AR bx ox) (AR by_ oy) (r_dbl (dbl_subOpt1 c) (RAX :: g8)).
  Definition n8 b := inb b (RAX :: g8) = false.
  Lemma ok_add8 bz oz bx ox by_ oy : n8 bz -> n8 bx -> n8 by_ -> aokT C T tabs (i_add8 bz oz bx ox by_ oy).
  Proof. exact (a_add8 C c il T NT HF bz bx by_ oz ox oy). Qed.
  Lemma ok_sub8 bz oz bx ox by_ oy : n8 bz -> n8 bx -> n8 by_ -> aokT C T tabs (i_sub8 bz oz bx ox by_ oy).
  Proof. exact (a_sub8 C c il T NT HF bz bx by_ oz ox oy). Qed.
  Lemma ok_opt1 bz oz bx ox by_ oy : n8 bz -> n8 bx -> n8 by_ -> aokT C T tabs (i_opt1 bz oz bx ox by_ oy).
  Proof. exact (a_subOpt1 C c il T NT HF bz bx by_ oz ox oy). Qed.

  Local Notation z_ o := (Ad gt8 o).
  Local Notation x_ o := (Ad gt9 o).
  Local Notation y_ o := (Ad gt10 o).
  Local Notation t0 := (Ad RSP 0).
  Local Notation t1 := (Ad RSP 64).
  Local Notation T0 o := (Ad RSP (128 + o)).
  Local Notation T1 o := (Ad RSP (256 + o)).
  Local Notation T2 o := (Ad RSP (384 + o)).
  Definition d6a : code :=
    [X64.Sub (R RSP) (Im 512)] ++ getz ++ getxy ++
    lea3 (T0 0) (x_ 0) (y_ 0) L_mulOpt1 ++
    getxy ++ lea3 (T1 0) (x_ 64) (y_ 64) L_mulOpt1 ++
    getxy ++ lea3 (T2 0) (x_ 128) (y_ 128) L_mulOpt1 ++
    getxy ++ c_Fp2_addNC t0 (x_ 64) (x_ 128) ++ c_Fp2_addNC t1 (y_ 64) (y_ 128) ++
    getz ++ lea3 (z_ 256) t0 t1 L_mulOpt2 ++
    getz ++ getxy ++ c_FpDbl_addNC_n 2 (z_ 128) (T1 0) (T2 0) ++
    c_FpDbl_sub (z_ 256) (z_ 256) (z_ 128) ++ c_FpDbl_subNC (z_ 320) (z_ 320) (z_ 192) ++
    c_Fp2Dbl_mul_xi T (z_ 128) (z_ 256) ++ c_Fp2Dbl_add (z_ 0) (z_ 128) (T0 0) ++
    c_Fp2_addNC t0 (x_ 0) (x_ 64) ++ c_Fp2_addNC t1 (y_ 0) (y_ 64) ++
    lea3 (z_ 256) t0 t1 L_mulOpt2 ++
    getz ++ getxy ++ c_FpDbl_addNC_n 2 (z_ 128) (T0 0) (T1 0) ++
    c_FpDbl_sub (z_ 256) (z_ 256) (z_ 128) ++ c_FpDbl_subNC (z_ 320) (z_ 320) (z_ 192).
  Definition d6b : code := c_Fp2Dbl_mul_xi T (z_ 128) (T2 0).
  Definition d6c : code :=
    c_Fp2Dbl_add (z_ 128) (z_ 128) (z_ 256) ++
    c_Fp2_addNC t0 (x_ 0) (x_ 128) ++ c_Fp2_addNC t1 (y_ 0) (y_ 128) ++
    lea3 (z_ 256) t0 t1 L_mulOpt2 ++
    getz ++ c_FpDbl_addNC_n 2 (T2 0) (T2 0) (T0 0) ++ c_FpDbl_sub (z_ 256) (z_ 256) (T2 0).
  Definition d6d : code :=
    c_FpDbl_subNC (z_ 320) (z_ 320) (T2 64) ++ c_FpDbl_addNC (z_ 320) (z_ 320) (T1 64) ++ [X64.Add (R RSP) (Im 512)].
  Definition d6_items (sn : bool) : list item :=
    tr tb1 d6a ++ (if sn then tr tb1 d6b else [i_opt1 gt8 128 RSP 384 RSP 448; i_add8 gt8 192 RSP 384 RSP 448]) ++
    tr tb1 d6c ++ [i_add8 gt8 256 gt8 256 RSP 256] ++ tr tb1 d6d.
  Ltac trk := repeat (apply Forall_cons; [first [exact I | reflexivity]|]); apply Forall_nil.
  Lemma d6_flat base sn : base RT = T -> flat base (d6_items sn) = b_Fp6Dbl_mul il sn T NT.
  Proof.
    intros E. unfold d6_items. rewrite !flat_app, (flat_tr base T tb1 d6a E), (flat_tr base T tb1 d6c E), (flat_tr base T tb1 d6d E); [|trk..].
    unfold b_Fp6Dbl_mul, d6a, d6c, d6d. destruct sn; [rewrite (flat_tr base T tb1 d6b E); [|trk]; unfold d6b; cbn [flat flat_map flat1 i_add8]; rewrite !app_nil_r|cbn [flat flat_map flat1 i_opt1 i_add8]; rewrite !app_nil_r]; rewrite <- !app_assoc; reflexivity.
  Qed.
  Lemma d6_ok sn : Forall (aokT C T tabs) (d6_items sn).
  Proof.
    unfold d6_items. rewrite !Forall_app. split; [apply tr_ok; exact tb1_ok|]. split; [|split; [apply tr_ok; exact tb1_ok|split; [|apply tr_ok; exact tb1_ok]]].
    - destruct sn; [apply tr_ok; exact tb1_ok|]. constructor; [apply ok_opt1; reflexivity|]. constructor; [apply ok_add8; reflexivity|constructor].
    - constructor; [apply ok_add8; reflexivity|constructor].
  Qed.
  Ltac fin tac := ex_; [tac|reflexivity|discriminate].
  Ltac vals := cbn [a2 b2 a3 b3 c3]; rewrite ?eta2; reflexivity.
  Ltac d6v := unfold d6_mul, d2_mulOpt1, d2_mulOpt2, d2_addNC, d2_add; cbv zeta; match goal with E : snark _ = _ |- _ => rewrite E end; vals.
  Ltac cl H HHas := lazymatch goal with |- aspec _ _ _ [Call ?l] ?az ?ax ?ay (bump ?R) => refine (call_aspec C T tabs l _ az ax ay R eq_refl eq_refl eq_refl eq_refl (ctabs_fit c T NT HF) _ _ H HHas) end; repeat constructor; cbn; intro; discriminate.
  Lemma s_d6 : asp (b_Fp6Dbl_mul il (snark c) T NT) (AX X3) (AX X4) (AX X5) (r_d6mul c).
  Proof.
    refine (sub_aspec C c T NT HF (d6_items (snark c)) _ (AX X3) (AX X4) (AX X5) (r_d6mul c) (d6_ok _) _ eq_refl _ _ _ _ _ _); try (intro; discriminate).
    - intros base E _ _. exact (d6_flat base _ E).
    - destruct (snark c); vm_compute; reflexivity.
    - destruct (snark c); vm_compute; reflexivity.
    - intros bx by_ vx vy E1 E2 E3 L1 L2 _. cbn in L1, L2. len6 vx. len6 vy. destruct bx; [destruct (E1 eq_refl) as [_ ?]; discriminate|]. destruct by_; [destruct (E2 eq_refl) as [_ ?]; discriminate|].
      clear E1 E2 E3 L1 L2. destruct (snark c) eqn:Es.
      + lz. fin d6v.
      + lz. fin d6v.
  Qed.
  Lemma k_d6 : asp [Call L_Fp6Dbl_mul] (AX X3) (AX X4) (AX X5) (bump (r_d6mul c)).
  Proof. cl s_d6 (h_d6 il mx (snark c) T (cpp c) NT pre NP). Qed.
  (** Fp6_mul *)
  Definition tb2 : list ent := mkE L_Fp6Dbl_mul (AX X3) (AX X4) (AX X5) (bump (r_d6mul c)) :: tb1.
  Lemma tb2_ok : Forall (eok C T tabs) tb2.
  Proof. constructor; [exact k_d6|exact tb1_ok]. Qed.
  Lemma s_f6 : asp b_Fp6_mul P1 P2 P3 (r_f6mul c).
  Proof.
    refine (sub_aspec C c T NT HF (tr tb2 b_Fp6_mul) _ P1 P2 P3 (r_f6mul c) (tr_ok _ _ _ _ _ tb2_ok) _ eq_refl _ _ _ _ _ _); try (intro; discriminate).
    - intros base E _ _. apply (flat_tr base T tb2 _ E). trk.
    - reflexivity.
    - vm_compute. reflexivity.
    - vm_compute. reflexivity.
    - intros bx by_ vx vy E1 E2 E3 L1 L2 _. cbn in L1, L2. len6 vx. len6 vy. clear E1 E2 L1 L2.
      destruct bx, by_; [injection (E3 eq_refl eq_refl) as -> -> -> -> -> ->|..]; clear E3; lz; fin ltac:(unfold f6_mul, d6_mod, d2_mod; vals).
  Qed.
  Lemma k_f6 : asp [Call L_Fp6_mul] P1 P2 P3 (bump (r_f6mul c)).
  Proof. cl s_f6 (h_f6 il mx (snark c) T (cpp c) NT pre NP). Qed.
  Definition tb3 : list ent := mkE L_Fp6_mul P1 P2 P3 (bump (r_f6mul c)) :: tb2.
  Lemma tb3_ok : Forall (eok C T tabs) tb3.
  Proof. constructor; [exact k_f6|exact tb2_ok]. Qed.
End Lib.
