(** Symbolic execution of the generated functions that are made of calls: a computation on
    named regions of memory, the integers known to lie in them and the registers known to
    point into them; what it computes holds of every run. *)
From Coq Require Import ZArith List Bool Lia.
From Verif Require Import X64 XLog JitSpec XTac XReg JitFp JitMac JitMac2 JitFrame JitFp2Mac JitFp2Api.
From Verif Require Import Base.
Import ListNotations.
Local Open Scope Z_scope.
Local Notation find := X64.find.
Local Notation length := List.length.

(** ** Actions: a piece of code that reads integers at two places and writes integers at a third *)
(** where an address comes from *)
Inductive arg := AR (b : reg) (o : Z) | AX (x : xreg) | AN.
Definition argv (g : regs) (X : xregs) (a : arg) (v : Z) : Prop :=
  match a with AR b o => getr g b + o = v | AX x => getx X x = v | AN => True end.
Definition xeqb (a b : xreg) : bool :=
  match a, b with X0, X0 | X1, X1 | X2, X2 | X3, X3 | X4, X4 | X5, X5 => true | _, _ => false end.
Lemma xeqb_eq a b : xeqb a b = true <-> a = b.
Proof. destruct a, b; cbn; split; congruence. Qed.
Fixpoint inx (r : xreg) (l : list xreg) : bool := match l with [] => false | a :: l' => if xeqb r a then true else inx r l' end.
Definition xkeep (l : list xreg) (X X' : xregs) : Prop := forall r, inx r l = false -> getx X' r = getx X r.
(** offset and number of words *)
Definition fld := (Z * nat)%type.
Record rout := mkRt {
  r_nz : nat; r_nx : nat; r_ny : nat;          (** words of output and of the operands *)
  r_x : list fld; r_y : list fld; r_z : list fld;
  r_ax : bool; r_ay : bool;                    (** the output may be exactly the operand *)
  r_clob : list reg; r_xclob : list xreg; r_stk : nat;
  r_fn : list Z -> list Z; r_pre : list Z -> Prop;
  r_rin : bool; r_rax : bool                   (** rax must point to p before, points to p afterwards *)
}.
Definition reads (m : memory) (a : Z) : list fld -> list Z -> Prop := Forall2 (fun f v => int_at m (a + fst f) (snd f) v).
Definition disj (a n b k : Z) : Prop := a + n <= b \/ b + k <= a.
(** a table of constants: base, size in words, contents *)
Record tab := mkTab { t_a : Z; t_o : Z; t_n : nat; t_f : list (Z * nat * Z) }.
Definition tab_at (m : memory) (t : tab) : Prop := Forall (fun e => int_at m (t_a t + fst (fst e)) (snd (fst e)) (snd e)) (t_f t).
Notation Wd n := (8 * Z.of_nat n).
Section Act.
  Variables (C : code) (T : Z) (tabs : list tab).
  Definition clearz (z : Z) (nz : nat) (sp : Z) (k : nat) (t : tab) : Prop :=
    (0 <= t_a t + t_o t /\ t_a t + t_o t + Wd (t_n t) < B) /\ disj (t_a t + t_o t) (Wd (t_n t)) z (Wd nz) /\ disj (t_a t + t_o t) (Wd (t_n t)) (sp - Wd k) (Wd k).
  Definition aspec (cd : code) (az ax ay : arg) (R : rout) : Prop :=
    forall pc g X f m sp z x y vx vy (Q : Z -> state -> Prop),
    at_ C pc cd -> getr g RSP = sp -> argv g X az z -> argv g X ax x -> argv g X ay y ->
    reads m x (r_x R) vx -> reads m y (r_y R) vy -> Forall (tab_at m) tabs ->
    mapped m z (r_nz R) -> mapped m (sp - Wd (r_stk R)) (r_stk R) ->
    (0 <= sp - Wd (r_stk R) /\ sp < B) -> (0 <= z /\ z + Wd (r_nz R) < B) ->
    ((r_nx R = 0)%nat \/ (0 <= x /\ x + Wd (r_nx R) < B) /\ disj x (Wd (r_nx R)) (sp - Wd (r_stk R)) (Wd (r_stk R)) /\ (disj x (Wd (r_nx R)) z (Wd (r_nz R)) \/ r_ax R = true /\ z = x)) ->
    ((r_ny R = 0)%nat \/ (0 <= y /\ y + Wd (r_ny R) < B) /\ disj y (Wd (r_ny R)) (sp - Wd (r_stk R)) (Wd (r_stk R)) /\ (disj y (Wd (r_ny R)) z (Wd (r_nz R)) \/ r_ay R = true /\ z = y)) ->
    disj z (Wd (r_nz R)) (sp - Wd (r_stk R)) (Wd (r_stk R)) -> Forall (clearz z (r_nz R) sp (r_stk R)) tabs ->
    r_pre R (vx ++ vy) -> (r_rin R = true -> getr g RAX = T) ->
    (forall g' X' f' m', keep (r_clob R) g g' -> xkeep (r_xclob R) X X' -> chg [(sp - Wd (r_stk R), Wd (r_stk R)); (z, Wd (r_nz R))] m m' ->
      reads m' z (r_z R) (r_fn R (vx ++ vy)) -> (r_rax R = true -> getr g' RAX = T) -> wp C (pc + Z.of_nat (length cd)) (mkSt g' X' f' m') Q) ->
    wp C pc (mkSt g X f m) Q.
End Act.

(** ** Regions *)
Inductive rgn := RO | RA | RB | RS | RT | RN | RH | RC.
Definition geqb (a b : rgn) : bool :=
  match a, b with RO, RO | RA, RA | RB, RB | RS, RS | RT, RT | RN, RN | RH, RH | RC, RC => true | _, _ => false end.
Lemma geqb_eq a b : geqb a b = true <-> a = b.
Proof. destruct a, b; cbn; split; congruence. Qed.
Definition ptr := (rgn * Z)%type.
(** extent (relative to the base) and whether the region may be written *)
Definition layout := rgn -> (Z * Z * bool).
Record fact := mkF_ { f_r : rgn; f_o : Z; f_n : nat; f_v : Z }.
Record sst := mkS { s_r : list (reg * ptr); s_x : list (xreg * ptr); s_f : list fact; s_p : list (ptr * ptr) }.

Section Sym.
Variables (lay : layout) (base : rgn -> Z).
Definition lo r := fst (fst (lay r)).
Definition hi r := snd (fst (lay r)).
Definition wrt r := snd (lay r).
Definition at_p (p : ptr) : Z := base (fst p) + snd p.
Definition inr_ (p : ptr) (n : Z) : bool := (lo (fst p) <=? snd p) && (snd p + n <=? hi (fst p)).
(** items of a program *)
Inductive item :=
| I_ (i : instr)
| IT (r : reg) (p : ptr)    (** mov r, address of a table *)
| IA (cd : code) (az ax ay : arg) (R : rout).
Definition flat1 (i : item) : code := match i with I_ i => [i] | IT r p => [Mov (R r) (Im (if snd p =? 0 then base (fst p) else at_p p))] | IA cd _ _ _ _ => cd end.
Definition flat (l : list item) : code := flat_map flat1 l.

Fixpoint lookr (l : list (reg * ptr)) (r : reg) : option ptr := match l with [] => None | (a, p) :: l' => if reqb r a then Some p else lookr l' r end.
Fixpoint lookx (l : list (xreg * ptr)) (r : xreg) : option ptr := match l with [] => None | (a, p) :: l' => if xeqb r a then Some p else lookx l' r end.
Definition peqb (p q : ptr) : bool := geqb (fst p) (fst q) && (snd p =? snd q).
Fixpoint lookp (l : list (ptr * ptr)) (p : ptr) : option ptr := match l with [] => None | (a, q) :: l' => if peqb p a then Some q else lookp l' p end.
Fixpoint lookf (l : list fact) (p : ptr) (n : nat) : option Z :=
  match l with [] => None | f :: l' => if geqb (f_r f) (fst p) && (f_o f =? snd p) && Nat.eqb (f_n f) n then Some (f_v f) else lookf l' p n end.
Fixpoint lookfs (l : list fact) (p : ptr) (fs : list fld) : option (list Z) :=
  match fs with
  | [] => Some []
  | (o, n) :: fs' => match lookf l (fst p, snd p + o) n, lookfs l p fs' with Some v, Some vs => Some (v :: vs) | _, _ => None end
  end.
Definition killr (L : list reg) (l : list (reg * ptr)) := filter (fun e => negb (inb (fst e) L)) l.
Definition killx (L : list xreg) (l : list (xreg * ptr)) := filter (fun e => negb (inx (fst e) L)) l.
(** does [n] bytes at p stay apart from [k] bytes at q *)
Definition offp (p : ptr) (n : Z) (q : ptr) (k : Z) : bool :=
  if geqb (fst p) (fst q) then (snd p + n <=? snd q) || (snd q + k <=? snd p) else true.
Definition killf (p : ptr) (n : Z) (l : list fact) := filter (fun f => offp (f_r f, f_o f) (Wd (f_n f)) p n && inr_ (f_r f, f_o f) (Wd (f_n f))) l.
Definition killp (p : ptr) (n : Z) (l : list (ptr * ptr)) := filter (fun e => offp (fst e) 8 p n && inr_ (fst e) 8) l.
Definition setp (s : sst) (r : reg) (p : ptr) : sst := mkS ((r, p) :: killr [r] (s_r s)) (s_x s) (s_f s) (s_p s).
Definition wmem (s : sst) (p : ptr) (n : Z) : sst := mkS (s_r s) (s_x s) (killf p n (s_f s)) (killp p n (s_p s)).
Fixpoint addf (p : ptr) (fs : list fld) (vs : list Z) (l : list fact) : list fact :=
  match fs, vs with (o, n) :: fs', v :: vs' => mkF_ (fst p) (snd p + o) n v :: addf p fs' vs' l | _, _ => l end.
(** an offset at which a word may lie *)
Definition aln (p : ptr) : bool := (snd p - lo (fst p)) mod 8 =? 0.
Definition okw (p : ptr) (n : Z) : bool := wrt (fst p) && inr_ p n && aln p.
Definition aval (s : sst) (a : arg) : option ptr :=
  match a with
  | AR b o => match lookr (s_r s) b with Some p => Some (fst p, snd p + o) | None => None end
  | AX x => lookx (s_x s) x
  | AN => Some (RS, 0)
  end.
(** operand place: in its region, apart from the stack words, apart from the output or on it *)
Definition okop (p : ptr) (n : nat) (z : ptr) (nz : nat) (sp : ptr) (k : nat) (al : bool) : bool :=
  Nat.eqb n 0 || (inr_ p (Wd n) && offp p (Wd n) (fst sp, snd sp - Wd k) (Wd k) && (offp p (Wd n) z (Wd nz) || (al && peqb z p))).
Definition isT (p : ptr) : bool := geqb (fst p) RT || geqb (fst p) RN || geqb (fst p) RH.
Definition act (s : sst) (az ax ay : arg) (R : rout) (K : sst -> Prop) : Prop :=
  match lookr (s_r s) RSP, aval s az, aval s ax, aval s ay with
  | Some sp, Some z, Some x, Some y =>
    match lookfs (s_f s) x (r_x R), lookfs (s_f s) y (r_y R) with
    | Some vx, Some vy =>
      if geqb (fst sp) RS && okw (fst sp, snd sp - Wd (r_stk R)) (Wd (r_stk R)) && okw z (Wd (r_nz R)) && offp z (Wd (r_nz R)) (fst sp, snd sp - Wd (r_stk R)) (Wd (r_stk R)) &&
         okop x (r_nx R) z (r_nz R) sp (r_stk R) (r_ax R) && okop y (r_ny R) z (r_nz R) sp (r_stk R) (r_ay R) && negb (inb RSP (r_clob R)) && negb (isT z) && (if r_rin R then match lookr (s_r s) RAX with Some p => peqb p (RT, 0) | None => false end else true)
      then r_pre R (vx ++ vy) /\
        (let s1 := wmem s (fst sp, snd sp - Wd (r_stk R)) (Wd (r_stk R)) in
         let s2 := wmem s1 z (Wd (r_nz R)) in
         let sr := killr (r_clob R) (s_r s2) in
         K (mkS (if r_rax R then (RAX, (RT, 0)) :: sr else sr) (killx (r_xclob R) (s_x s2)) (addf z (r_z R) (r_fn R (vx ++ vy)) (s_f s2)) (s_p s2)))
      else False
    | _, _ => False
    end
  | _, _, _, _ => False
  end.
Definition okp (p : ptr) : bool := inr_ p 0.
Definition instr1 (s : sst) (i : instr) (K : sst -> Prop) : Prop :=
  match i with
  | Lea d (Ad b o) => match lookr (s_r s) b with Some p => if okp (fst p, snd p + o) then K (setp s d (fst p, snd p + o)) else False | None => False end
  | Mov (R d) (R b) => match lookr (s_r s) b with Some p => K (setp s d p) | None => False end
  | Mov (R d) (M (Ad b o)) => match lookr (s_r s) b with
      | Some p => if okp (fst p, snd p + o) then match lookp (s_p s) (fst p, snd p + o) with Some q => K (setp s d q) | None => False end else False
      | None => False end
  | Mov (M (Ad b o)) (R d) => match lookr (s_r s) b, lookr (s_r s) d with
      | Some p, Some q => let a := (fst p, snd p + o) in if okw a 8 then (let s' := wmem s a 8 in K (mkS (s_r s') (s_x s') (s_f s') ((a, q) :: s_p s'))) else False
      | _, _ => False end
  | MovqX x r => K (mkS (s_r s) (match lookr (s_r s) r with Some p => (x, p) :: killx [x] (s_x s) | None => killx [x] (s_x s) end) (s_f s) (s_p s))
  | MovqR r x => match lookx (s_x s) x with Some p => K (setp s r p) | None => False end
  | X64.Add (R d) (Im k) => match lookr (s_r s) d with Some p => if okp (fst p, snd p + k) && (0 <=? k) && (k <? 4096) then K (setp s d (fst p, snd p + k)) else False | None => False end
  | X64.Sub (R d) (Im k) => match lookr (s_r s) d with Some p => if okp (fst p, snd p - k) && (0 <=? k) && (k <? 4096) then K (setp s d (fst p, snd p - k)) else False | None => False end
  | _ => False
  end.
Definition step (s : sst) (i : item) (K : sst -> Prop) : Prop :=
  match i with
  | I_ i => instr1 s i K
  | IT r p => if okp p then K (setp s r p) else False
  | IA _ az ax ay U => act s az ax ay U K
  end.
Fixpoint exec (l : list item) (s : sst) (K : sst -> Prop) : Prop :=
  match l with [] => K s | i :: l' => step s i (fun s' => exec l' s' K) end.
Definition clob1 (i : item) : list reg :=
  match i with
  | I_ (Lea d _) | I_ (Mov (R d) _) | I_ (MovqR d _) | I_ (X64.Add (R d) _) | I_ (X64.Sub (R d) _) => [d]
  | I_ _ => [] | IT r _ => [r] | IA _ _ _ _ U => r_clob U
  end.
Definition xclob1 (i : item) : list xreg := match i with I_ (MovqX x _) => [x] | I_ _ => [] | IT _ _ => [] | IA _ _ _ _ U => r_xclob U end.
Definition clob (l : list item) : list reg := flat_map clob1 l.
Definition xclob (l : list item) : list xreg := flat_map xclob1 l.

(** ** The meaning *)
Definition regions_ok : Prop :=
  (forall r, 0 <= base r + lo r /\ base r + hi r < B) /\
  (forall r r', wrt r = true -> geqb r r' = false -> disj (base r + lo r) (hi r - lo r) (base r' + lo r') (hi r' - lo r')).
Definition writ (m : memory) : Prop := forall r o, wrt r = true -> lo r <= o -> o + 8 <= hi r -> (o - lo r) mod 8 = 0 -> exists v, m (base r + o) = Some v.
Definition sat (s : sst) (g : regs) (X : xregs) (m : memory) : Prop :=
  Forall (fun e => okp (snd e) = true /\ getr g (fst e) = at_p (snd e)) (s_r s) /\ Forall (fun e => okp (snd e) = true /\ getx X (fst e) = at_p (snd e)) (s_x s) /\
  Forall (fun f => int_at m (at_p (f_r f, f_o f)) (f_n f) (f_v f)) (s_f s) /\ Forall (fun e => okp (snd e) = true /\ m (at_p (fst e)) = Some (at_p (snd e))) (s_p s) /\ writ m.
(** the writable memory *)
Definition wreg : list (Z * Z) := map (fun r => (base r + lo r, hi r - lo r)) (filter wrt [RO; RA; RB; RS; RT; RN; RH; RC]).

Hypothesis OK : regions_ok.
Lemma Wd_nn n : 0 <= Wd n.
Proof. clear. lia. Qed.
Lemma wr_ne z r : wrt z = true -> wrt r = false -> geqb z r = false.
Proof. clear. intros H1 H2. destruct (geqb z r) eqn:E; [|reflexivity]. apply geqb_eq in E. subst r. rewrite H1 in H2. discriminate. Qed.
Lemma wreg_in r : wrt r = true -> In (base r + lo r, hi r - lo r) wreg.
Proof. intros H. unfold wreg. apply (in_map (fun r => (base r + lo r, hi r - lo r)) _ r). apply filter_In. split; [destruct r; cbn; tauto|exact H]. Qed.
Lemma inr_ok p n : inr_ p n = true -> lo (fst p) <= snd p /\ snd p + n <= hi (fst p).
Proof. unfold inr_. intros H. apply andb_prop in H. destruct H as [H1 H2]. apply Z.leb_le in H1, H2. auto. Qed.
Lemma okp_range p : okp p = true -> 0 <= at_p p < B.
Proof. intros H. apply inr_ok in H. unfold at_p. destruct (proj1 OK (fst p)). lia. Qed.
Lemma inr_range p n : inr_ p n = true -> 0 <= n -> 0 <= at_p p /\ at_p p + n < B.
Proof. intros H Hn. apply inr_ok in H. unfold at_p. destruct (proj1 OK (fst p)). lia. Qed.
Lemma offp_disj p n q k : inr_ p n = true -> inr_ q k = true -> wrt (fst q) = true -> offp p n q k = true -> disj (at_p p) n (at_p q) k.
Proof.
  intros Hp Hq Hw H. apply inr_ok in Hp. apply inr_ok in Hq. unfold offp in H. unfold disj, at_p. destruct (geqb (fst p) (fst q)) eqn:E.
  - apply geqb_eq in E. rewrite E. apply orb_prop in H. destruct H as [H|H]; apply Z.leb_le in H; lia.
  - assert (E' : geqb (fst q) (fst p) = false) by (destruct (fst p), (fst q); (discriminate E || reflexivity)).
    pose proof (proj2 OK _ _ Hw E') as D. unfold disj in D. lia.
Qed.
Lemma chg_w p n m m' : inr_ p n = true -> wrt (fst p) = true -> chg [(at_p p, n)] m m' -> chg wreg m m'.
Proof.
  intros Hp Hw. apply inr_ok in Hp. apply chg_sub. intros b Hb. apply off1. pose proof (wreg_in _ Hw) as HI.
  rewrite Forall_forall in Hb. specialize (Hb _ HI). unfold off in Hb. cbn [fst snd] in Hb. unfold at_p. lia.
Qed.
Lemma chg_idem m m' m'' : chg wreg m m' -> chg wreg m' m'' -> chg wreg m m''.
Proof. intros H1 H2. refine (chg_sub _ _ _ _ _ (chg_trans _ _ _ _ _ H1 H2)). intros b Hb. apply Forall_app. auto. Qed.
Lemma writ_chg l m m' : chg l m m' -> writ m -> writ m'.
Proof. intros [_ H] Hw r o H1 H2 H3 H4. destruct (Hw r o H1 H2 H3 H4) as [v E]. exact (H _ _ E). Qed.
Lemma writ_mapped m p n : writ m -> okw p (Wd n) = true -> mapped m (at_p p) n.
Proof.
  intros Hw H. unfold okw in H. apply andb_prop in H. destruct H as [H HA]. apply andb_prop in H. destruct H as [H1 H2]. apply inr_ok in H2.
  unfold aln in HA. apply Z.eqb_eq in HA. destruct p as [r o]. cbn [fst snd] in *. unfold at_p. cbn [fst snd].
  revert o H2 HA. induction n as [|n IH]; intros o H2 HA; cbn [mapped]; [exact I|]. split.
  - apply (Hw r o); [exact H1|lia|lia|exact HA].
  - rewrite <- Z.add_assoc. apply IH; [lia|]. replace (o + 8 - lo r) with (o - lo r + 1 * 8) by ring. rewrite Z.mod_add by discriminate. exact HA.
Qed.

Lemma lookr_ok s g X m r p : sat s g X m -> lookr (s_r s) r = Some p -> okp p = true /\ getr g r = at_p p.
Proof.
  intros [H _]. induction (s_r s) as [|[a q] l IH]; cbn [lookr]; [discriminate|]. inversion H as [|? ? H1 H2]; subst.
  destruct (reqb r a) eqn:E; [|exact (IH H2)]. apply reqb_eq in E. subst a. intros E2. injection E2 as <-. exact H1.
Qed.
Lemma lookx_ok s g X m r p : sat s g X m -> lookx (s_x s) r = Some p -> okp p = true /\ getx X r = at_p p.
Proof.
  intros (_ & H & _). induction (s_x s) as [|[a q] l IH]; cbn [lookx]; [discriminate|]. inversion H as [|? ? H1 H2]; subst.
  destruct (xeqb r a) eqn:E; [|exact (IH H2)]. apply xeqb_eq in E. subst a. intros E2. injection E2 as <-. exact H1.
Qed.
Lemma peqb_eq p q : peqb p q = true -> p = q.
Proof.
  unfold peqb. intros H. apply andb_prop in H. destruct H as [H1 H2]. apply geqb_eq in H1. apply Z.eqb_eq in H2. destruct p, q. cbn [fst snd] in *. congruence.
Qed.
Lemma lookp_ok s g X m a p : sat s g X m -> lookp (s_p s) a = Some p -> okp p = true /\ m (at_p a) = Some (at_p p).
Proof.
  intros (_ & _ & _ & H & _). induction (s_p s) as [|[b q] l IH]; cbn [lookp]; [discriminate|]. inversion H as [|? ? H1 H2]; subst.
  destruct (peqb a b) eqn:E; [|exact (IH H2)]. apply peqb_eq in E. subst b. intros E2. injection E2 as <-. exact H1.
Qed.
Lemma lookf_ok l m p n v : Forall (fun f => int_at m (at_p (f_r f, f_o f)) (f_n f) (f_v f)) l -> lookf l p n = Some v -> int_at m (at_p p) n v.
Proof.
  intros H. induction l as [|f l IH]; cbn [lookf]; [discriminate|]. inversion H as [|? ? H1 H2]; subst.
  destruct (geqb (f_r f) (fst p) && (f_o f =? snd p) && Nat.eqb (f_n f) n) eqn:E; [|exact (IH H2)].
  apply andb_prop in E. destruct E as [E E3]. apply andb_prop in E. destruct E as [E1 E2]. apply geqb_eq in E1. apply Z.eqb_eq in E2. apply Nat.eqb_eq in E3.
  intros E4. injection E4 as <-. rewrite E1, E2, E3 in H1. destruct p. exact H1.
Qed.
Lemma lookfs_ok l m p fs vs : Forall (fun f => int_at m (at_p (f_r f, f_o f)) (f_n f) (f_v f)) l -> lookfs l p fs = Some vs -> reads m (at_p p) fs vs.
Proof.
  intros H. revert vs. induction fs as [|[o n] fs IH]; intros vs; cbn [lookfs].
  - intros E. injection E as <-. constructor.
  - destruct (lookf l _ n) as [v|] eqn:E1; [|discriminate]. destruct (lookfs l p fs) as [vs'|] eqn:E2; [|discriminate]. intros E. injection E as <-.
    constructor; [|apply IH; reflexivity]. cbn [fst snd]. apply (lookf_ok _ m) in E1; [|exact H]. unfold at_p in *. cbn [fst snd] in E1. rewrite <- Z.add_assoc. exact E1.
Qed.
Lemma killr_keep L g g' l : keep L g g' -> Forall (fun e => okp (snd e) = true /\ getr g (fst e) = at_p (snd e)) l -> Forall (fun e => okp (snd e) = true /\ getr g' (fst e) = at_p (snd e)) (killr L l).
Proof.
  intros K H. rewrite Forall_forall in H |- *. intros e He. apply filter_In in He. destruct He as [He E]. destruct (H e He) as [H1 H2]. split; [exact H1|].
  rewrite (K (fst e)); [exact H2|]. destruct (inb (fst e) L); [discriminate E|reflexivity].
Qed.
Lemma killx_keep L X X' l : xkeep L X X' -> Forall (fun e => okp (snd e) = true /\ getx X (fst e) = at_p (snd e)) l -> Forall (fun e => okp (snd e) = true /\ getx X' (fst e) = at_p (snd e)) (killx L l).
Proof.
  intros K H. rewrite Forall_forall in H |- *. intros e He. apply filter_In in He. destruct He as [He E]. destruct (H e He) as [H1 H2]. split; [exact H1|].
  rewrite (K (fst e)); [exact H2|]. destruct (inx (fst e) L); [discriminate E|reflexivity].
Qed.
Lemma sat_setp s g g' X m r p : sat s g X m -> keep [r] g g' -> getr g' r = at_p p -> okp p = true -> sat (setp s r p) g' X m.
Proof.
  intros (H1 & H2 & H3 & H4 & H5) K E Hp. unfold sat, setp. cbn [s_r s_x s_f s_p]. split; [|auto]. constructor; [cbn [fst snd]; auto|]. exact (killr_keep _ _ _ _ K H1).
Qed.
Lemma sat_wmem s g X m m' p n : sat s g X m -> inr_ p n = true -> wrt (fst p) = true -> chg [(at_p p, n)] m m' -> sat (wmem s p n) g X m'.
Proof.
  intros (H1 & H2 & H3 & H4 & H5) Hi Hw C. unfold sat, wmem. cbn [s_r s_x s_f s_p]. split; [exact H1|]. split; [exact H2|]. split; [|split; [|exact (writ_chg _ _ _ C H5)]].
  - rewrite Forall_forall in H3 |- *. intros f Hf. apply filter_In in Hf. destruct Hf as [Hf E]. apply andb_prop in E. destruct E as [E1 E2].
    refine (int_at_chg _ _ _ _ _ _ C _ (H3 f Hf)). constructor; [|constructor]. exact (offp_disj _ _ _ _ E2 Hi Hw E1).
  - rewrite Forall_forall in H4 |- *. intros e He. apply filter_In in He. destruct He as [He E]. apply andb_prop in E. destruct E as [E1 E2].
    destruct (H4 e He) as [H6 H7]. split; [exact H6|]. destruct C as [C _]. rewrite C; [exact H7|]. apply off1. pose proof (offp_disj _ _ _ _ E2 Hi Hw E1) as D. unfold disj in D. lia.
Qed.
Lemma addf_ok m p fs vs l : reads m (at_p p) fs vs -> Forall (fun f => int_at m (at_p (f_r f, f_o f)) (f_n f) (f_v f)) l ->
  Forall (fun f => int_at m (at_p (f_r f, f_o f)) (f_n f) (f_v f)) (addf p fs vs l).
Proof.
  intros H Hl. induction H as [|[o n] v fs vs H1 H2 IH]; cbn [addf]; [exact Hl|]. constructor; [|exact IH]. cbn [f_r f_o f_n f_v fst snd] in *. unfold at_p in *. cbn [fst snd]. rewrite Z.add_assoc. exact H1.
Qed.
Lemma aval_ok s g X m a p : sat s g X m -> aval s a = Some p -> match a with AN => True | _ => argv g X a (at_p p) end.
Proof.
  intros H E. destruct a as [b o|x|]; cbn [aval argv] in *; [| |exact I].
  - destruct (lookr (s_r s) b) as [q|] eqn:E1; [|discriminate]. injection E as <-. destruct (lookr_ok _ _ _ _ _ _ H E1) as [_ ->]. unfold at_p. cbn [fst snd]. lia.
  - exact (proj2 (lookx_ok _ _ _ _ _ _ H E)).
Qed.
Lemma xkeep_setx X x v : xkeep [x] X (setx X x v).
Proof. intros r H. cbn [inx] in H. destruct (xeqb r x) eqn:E; [discriminate|]. destruct X, x, r; try reflexivity; discriminate E. Qed.
Lemma getx_setx X x v : getx (setx X x v) x = v.
Proof. destruct X, x; reflexivity. Qed.
Lemma xkeep_trans l l' X X' X'' : xkeep l X X' -> xkeep l' X' X'' -> xkeep (l ++ l') X X''.
Proof.
  intros H1 H2 r H. assert (E : inx r l = false /\ inx r l' = false).
  { clear -H. induction l as [|a l IH]; cbn [app inx] in *; [auto|]. destruct (xeqb r a); [discriminate|]. exact (IH H). }
  rewrite H2, H1; tauto.
Qed.

(** ** Soundness *)
Variables (C : code) (tabs : list tab).
(** the tables are regions that are not written *)
Hypothesis TABS : Forall (fun t => exists r, t_a t = base r /\ wrt r = false /\ lo r <= t_o t /\ t_o t + Wd (t_n t) <= hi r /\
  Forall (fun e => t_o t <= fst (fst e) /\ fst (fst e) + Wd (snd (fst e)) <= t_o t + Wd (t_n t)) (t_f t)) tabs.
Definition aok (i : item) : Prop := match i with IA cd az ax ay U => aspec C (base RT) tabs cd az ax ay U | _ => True end.
Hypothesis RTok : okp (RT, 0) = true.
Lemma tabs_chg l m m' : chg l m m' -> (forall b, Forall (off b) wreg -> Forall (off b) l) -> Forall (tab_at m) tabs -> Forall (tab_at m') tabs.
Proof.
  intros HC Hl H. apply (chg_sub _ _ _ _ Hl) in HC. rewrite Forall_forall in H, TABS |- *. intros t Ht. specialize (H t Ht). destruct (TABS t Ht) as (r & Ea & Hw & L1 & L2 & L3).
  unfold tab_at in *. rewrite Forall_forall in H, L3 |- *. intros e He. refine (int_at_chg _ _ _ _ _ _ HC _ (H e He)). specialize (L3 e He).
  apply Forall_forall. intros q Hq. unfold wreg in Hq. apply in_map_iff in Hq. destruct Hq as (r' & <- & Hr'). apply filter_In in Hr'. destruct Hr' as [_ Hr'].
  unfold clear_of. cbn [fst snd]. rewrite Ea. assert (E : geqb r' r = false) by (destruct (geqb r' r) eqn:E; [apply geqb_eq in E; congruence|reflexivity]).
  pose proof (proj2 OK _ _ Hr' E) as D. unfold disj in D. lia.
Qed.

Definition good (i : item) : Prop :=
  forall s K pc g X f m (Q : Z -> state -> Prop), step s i K -> at_ C pc (flat1 i) -> sat s g X m -> Forall (tab_at m) tabs ->
  (forall s' g' X' f' m', K s' -> sat s' g' X' m' -> keep (clob1 i) g g' -> xkeep (xclob1 i) X X' -> chg wreg m m' -> wp C (pc + Z.of_nat (length (flat1 i))) (mkSt g' X' f' m') Q) ->
  wp C pc (mkSt g X f m) Q.
Lemma chg_nil m : chg wreg m m.
Proof. apply (chg_sub []); [intros; constructor|apply chg_refl]. Qed.
Lemma xkeep_nil X l : xkeep l X X.
Proof. intros r _. reflexivity. Qed.

Ltac pl p := destruct p as [?r ?o].
Lemma good_instr i : good (I_ i).
Proof.
  intros s K pc g X f m Q ST A SA TB H. cbn [flat1] in *. apply (wp_block _ _ _ _ _ A). cbn [step] in ST. cbn [flat1 clob1 xclob1] in H.
  destruct i; cbn [instr1] in ST; try contradiction ST.
  - (* Mov *)
    destruct d as [d|[b o|]|]; try contradiction ST.
    + destruct s0 as [b|[b o|]|]; try contradiction ST.
      * destruct (lookr (s_r s) b) as [p|] eqn:E; [|contradiction ST]. destruct (lookr_ok _ _ _ _ _ _ SA E) as [Hp Hg].
        eapply k_mov; [cbn [rd rg]; rewrite Hg; reflexivity|]. intros g' K' L'. cbn [wps]. apply (H _ _ _ _ _ ST); [exact (sat_setp _ _ _ _ _ _ _ SA K' L' Hp)|exact K'|apply xkeep_nil|apply chg_nil].
      * destruct (lookr (s_r s) b) as [p|] eqn:E; [|contradiction ST]. destruct (okp (fst p, snd p + o)) eqn:Eo; [|contradiction ST].
        destruct (lookp (s_p s) (fst p, snd p + o)) as [q|] eqn:E2; [|contradiction ST]. destruct (lookr_ok _ _ _ _ _ _ SA E) as [Hp Hg]. destruct (lookp_ok _ _ _ _ _ _ SA E2) as [Hq Hm].
        pose proof (okp_range _ Eo) as RR. unfold at_p in RR, Hm. cbn [fst snd] in RR, Hm.
        eapply k_mov; [eapply rd_mem; [eapply ea_ad; [exact Hg|unfold at_p; lia|unfold at_p; rewrite <- Z.add_assoc; reflexivity]|exact Hm]|].
        intros g' K' L'. cbn [wps]. apply (H _ _ _ _ _ ST); [exact (sat_setp _ _ _ _ _ _ _ SA K' L' Hq)|exact K'|apply xkeep_nil|apply chg_nil].
    + destruct s0 as [d| |]; try contradiction ST.
      destruct (lookr (s_r s) b) as [p|] eqn:E; [|contradiction ST]. destruct (lookr (s_r s) d) as [q|] eqn:E2; [|contradiction ST].
      destruct (okw (fst p, snd p + o) 8) eqn:Eo; [|contradiction ST]. destruct (lookr_ok _ _ _ _ _ _ SA E) as [Hp Hg]. destruct (lookr_ok _ _ _ _ _ _ SA E2) as [Hq Hg2].
      pose proof SA as (_ & _ & _ & _ & WR). destruct (writ_mapped m (fst p, snd p + o) 1 WR Eo) as [[v Ev] _].
      unfold okw in Eo. apply andb_prop in Eo. destruct Eo as [Eo _]. apply andb_prop in Eo. destruct Eo as [Ew Ei].
      pose proof (inr_range _ _ Ei ltac:(lia)) as RR.
      assert (Ea : ea g (Ad b o) = at_p (fst p, snd p + o)) by (eapply ea_ad; [exact Hg|unfold at_p in *; cbn [fst snd] in *; lia|unfold at_p; cbn [fst snd]; lia]).
      eapply k_store; [exact Ea|exact Ev|exact Hg2|]. cbn [wps]. pose proof (chg_mset m _ (at_p q) v Ev) as CH.
      apply (H _ _ _ _ _ ST); [|apply keep_refl|apply xkeep_nil|exact (chg_w _ _ _ _ Ei Ew CH)].
      destruct (sat_wmem _ _ _ _ _ _ _ SA Ei Ew CH) as (S1 & S2 & S3 & S4 & S5). unfold sat. cbn [s_r s_x s_f s_p].
      split; [exact S1|]. split; [exact S2|]. split; [exact S3|]. split; [|exact S5]. constructor; [|exact S4]. cbn [fst snd]. split; [exact Hq|]. apply mset_eq. reflexivity.
  - (* Lea *)
    destruct a as [b o|]; [|contradiction ST]. destruct (lookr (s_r s) b) as [p|] eqn:E; [|contradiction ST]. destruct (okp (fst p, snd p + o)) eqn:Eo; [|contradiction ST].
    destruct (lookr_ok _ _ _ _ _ _ SA E) as [Hp Hg]. pose proof (okp_range _ Eo) as RR. unfold at_p in RR. cbn [fst snd] in RR.
    eapply (k_lea _ _ _ _ _ _ _ _ (at_p (fst p, snd p + o))); [eapply ea_ad; [exact Hg|unfold at_p; lia|unfold at_p; cbn [fst snd]; lia]|]. intros g' K' L'. cbn [wps].
    apply (H _ _ _ _ _ ST); [exact (sat_setp _ _ _ _ _ _ _ SA K' L' Eo)|exact K'|apply xkeep_nil|apply chg_nil].
  - (* Add *)
    destruct d as [d| |]; try contradiction ST. destruct s0 as [| |k]; try contradiction ST. destruct (lookr (s_r s) d) as [p|] eqn:E; [|contradiction ST].
    destruct (okp (fst p, snd p + k) && (0 <=? k) && (k <? 4096)) eqn:Eo; [|contradiction ST]. apply andb_prop in Eo. destruct Eo as [Eo E2]. apply andb_prop in Eo. destruct Eo as [Eo E1].
    apply Z.leb_le in E1. apply Z.ltb_lt in E2.
    destruct (lookr_ok _ _ _ _ _ _ SA E) as [Hp Hg]. pose proof (okp_range _ Eo) as RR. unfold at_p in RR. cbn [fst snd] in RR.
    eapply k_addx; [exact Hg|apply rd_imm; rewrite B_val; lia|unfold at_p; lia|]. intros g' f' K' L'. cbn [wps].
    apply (H _ _ _ _ _ ST); [|exact K'|apply xkeep_nil|apply chg_nil]. refine (sat_setp _ _ _ _ _ _ _ SA K' _ Eo). rewrite L'. unfold at_p. cbn [fst snd]. lia.
  - (* Sub *)
    destruct d as [d| |]; try contradiction ST. destruct s0 as [| |k]; try contradiction ST. destruct (lookr (s_r s) d) as [p|] eqn:E; [|contradiction ST].
    destruct (okp (fst p, snd p - k) && (0 <=? k) && (k <? 4096)) eqn:Eo; [|contradiction ST]. apply andb_prop in Eo. destruct Eo as [Eo E2]. apply andb_prop in Eo. destruct Eo as [Eo E1].
    apply Z.leb_le in E1. apply Z.ltb_lt in E2.
    destruct (lookr_ok _ _ _ _ _ _ SA E) as [Hp Hg]. pose proof (okp_range _ Eo) as RR. unfold at_p in RR. cbn [fst snd] in RR.
    eapply k_subx; [exact Hg|apply rd_imm; rewrite B_val; lia|unfold at_p; lia|]. intros g' f' K' L'. cbn [wps].
    apply (H _ _ _ _ _ ST); [|exact K'|apply xkeep_nil|apply chg_nil]. refine (sat_setp _ _ _ _ _ _ _ SA K' _ Eo). rewrite L'. unfold at_p. cbn [fst snd]. lia.
  - (* MovqX *)
    eapply k_movqx; [reflexivity|]. cbn [wps]. apply (H _ _ _ _ _ ST); [|apply keep_refl|apply xkeep_setx|apply chg_nil].
    pose proof SA as (S1 & S2 & S3 & S4 & S5). unfold sat. cbn [s_r s_x s_f s_p]. split; [exact S1|]. split; [|auto]. pose proof (killx_keep _ _ _ _ (xkeep_setx X d (getr g s0)) S2) as KX.
    destruct (lookr (s_r s) s0) as [p|] eqn:E; [|exact KX]. destruct (lookr_ok _ _ _ _ _ _ SA E) as [Hp Hg]. constructor; [|exact KX]. cbn [fst snd]. split; [exact Hp|]. rewrite getx_setx. exact Hg.
  - (* MovqR *)
    destruct (lookx (s_x s) s0) as [p|] eqn:E; [|contradiction ST]. destruct (lookx_ok _ _ _ _ _ _ SA E) as [Hp Hg].
    eapply k_movqr; [exact Hg|]. intros g' K' L'. cbn [wps]. apply (H _ _ _ _ _ ST); [exact (sat_setp _ _ _ _ _ _ _ SA K' L' Hp)|exact K'|apply xkeep_nil|apply chg_nil].
Qed.
Lemma good_IT r p : good (IT r p).
Proof.
  intros s K pc g X f m Q ST A SA TB H. cbn [flat1 step clob1 xclob1] in *. apply (wp_block _ _ _ _ _ A). destruct (okp p) eqn:Ep; [|contradiction ST].
  assert (E : (if snd p =? 0 then base (fst p) else at_p p) = at_p p) by (destruct (snd p =? 0) eqn:E0; [apply Z.eqb_eq in E0; unfold at_p; rewrite E0; clear; lia|reflexivity]).
  rewrite E in *. eapply k_mov; [apply rd_imm; exact (okp_range _ Ep)|]. intros g' K' L'. cbn [wps]. apply (H _ _ _ _ _ ST); [exact (sat_setp _ _ _ _ _ _ _ SA K' L' Ep)|exact K'|apply xkeep_nil|apply chg_nil].
Qed.
Lemma okop_ok p n z nz sp k al : okop p n z nz sp k al = true -> okw z (Wd nz) = true -> okw (fst sp, snd sp - Wd k) (Wd k) = true ->
  (n = 0)%nat \/ (0 <= at_p p /\ at_p p + Wd n < B) /\ disj (at_p p) (Wd n) (at_p sp - Wd k) (Wd k) /\ (disj (at_p p) (Wd n) (at_p z) (Wd nz) \/ al = true /\ at_p z = at_p p).
Proof.
  intros H Hz Hs. unfold okop in H. apply orb_prop in H. destruct H as [H|H]; [left; apply Nat.eqb_eq; exact H|right].
  apply andb_prop in H. destruct H as [H H3]. apply andb_prop in H. destruct H as [H1 H2].
  unfold okw in Hz, Hs. apply andb_prop in Hz. destruct Hz as [Hz _]. apply andb_prop in Hz. destruct Hz as [Z1 Z2]. apply andb_prop in Hs. destruct Hs as [Hs _]. apply andb_prop in Hs. destruct Hs as [S1 S2].
  split; [exact (inr_range _ _ H1 (Wd_nn _))|]. split.
  - pose proof (offp_disj _ _ _ _ H1 S2 S1 H2) as D. rewrite <- (Z.add_sub_assoc (base (fst sp))) || idtac. replace (at_p sp - Wd k) with (at_p (fst sp, snd sp - Wd k)) by (unfold at_p; cbn [fst snd]; clear; lia). exact D.
  - apply orb_prop in H3. destruct H3 as [H3|H3]; [left; exact (offp_disj _ _ _ _ H1 Z2 Z1 H3)|right]. apply andb_prop in H3. destruct H3 as [H3 H4]. apply peqb_eq in H4. split; [exact H3|congruence].
Qed.
Lemma arg_some g X a p : match a with AN => True | _ => argv g X a (at_p p) end -> argv g X a (at_p p).
Proof. destruct a; auto. Qed.
Lemma good_act cd az ax ay R : aspec C (base RT) tabs cd az ax ay R -> good (IA cd az ax ay R).
Proof.
  intros SP s K pc g X f m Q ST A SA TB H. cbn [flat1 step clob1 xclob1] in *. unfold act in ST.
  destruct (lookr (s_r s) RSP) as [sp|] eqn:Esp; [|contradiction ST]. destruct (aval s az) as [z|] eqn:Ez; [|contradiction ST].
  destruct (aval s ax) as [x|] eqn:Ex; [|contradiction ST]. destruct (aval s ay) as [y|] eqn:Ey; [|contradiction ST].
  destruct (lookfs (s_f s) x (r_x R)) as [vx|] eqn:Evx; [|contradiction ST]. destruct (lookfs (s_f s) y (r_y R)) as [vy|] eqn:Evy; [|contradiction ST].
  match type of ST with if ?b then _ else _ => destruct b eqn:E end; [|contradiction ST].
  repeat match type of E with _ && _ = true => let E' := fresh "E" in apply andb_prop in E; destruct E as [E E'] end.
  destruct ST as [HP HK].
  pose proof (lookr_ok _ _ _ _ _ _ SA Esp) as [Hsp Gsp]. apply arg_some in Ez || idtac.
  pose proof (arg_some _ _ _ _ (aval_ok _ _ _ _ _ _ SA Ez)) as AZ. pose proof (arg_some _ _ _ _ (aval_ok _ _ _ _ _ _ SA Ex)) as AXx. pose proof (arg_some _ _ _ _ (aval_ok _ _ _ _ _ _ SA Ey)) as AY.
  pose proof SA as (S1 & S2 & S3 & S4 & S5).
  pose proof (lookfs_ok _ m _ _ _ S3 Evx) as RX. pose proof (lookfs_ok _ m _ _ _ S3 Evy) as RY.
  rename E7 into Est, E6 into Ezw, E5 into Ezs, E4 into Exo, E3 into Eyo, E2 into Ecl, E1 into EzT, E0 into Era.
  assert (Asp : at_p (fst sp, snd sp - Wd (r_stk R)) = at_p sp - Wd (r_stk R)) by (unfold at_p; cbn [fst snd]; clear; lia).
  pose proof (writ_mapped m _ _ S5 Est) as Mst. rewrite Asp in Mst. pose proof (writ_mapped m _ _ S5 Ezw) as Mz.
  pose proof (okop_ok _ _ _ _ _ _ _ Exo Ezw Est) as Ox. pose proof (okop_ok _ _ _ _ _ _ _ Eyo Ezw Est) as Oy.
  pose proof Est as Est'. pose proof Ezw as Ezw'.
  unfold okw in Est', Ezw'. apply andb_prop in Ezw'. destruct Ezw' as [Ezw' _]. apply andb_prop in Ezw'. destruct Ezw' as [Z1 Z2]. apply andb_prop in Est'. destruct Est' as [Est' _]. apply andb_prop in Est'. destruct Est' as [T1 T2].
  pose proof (inr_range _ _ T2 (Wd_nn _)) as RS1. rewrite Asp in RS1. pose proof (inr_range _ _ Z2 (Wd_nn _)) as RZ1.
  pose proof (okp_range _ Hsp) as RS2.
  pose proof (offp_disj _ _ _ _ Z2 T2 T1 Ezs) as Dzs. rewrite Asp in Dzs.
  refine (SP pc g X f m (at_p sp) (at_p z) (at_p x) (at_p y) vx vy Q A Gsp AZ AXx AY RX RY TB Mz Mst _ _ Ox Oy Dzs _ HP _ _); [split; [exact (proj1 RS1)|exact (proj2 RS2)]|exact RZ1| | |].
  - rewrite Forall_forall in TABS |- *. intros t Ht. destruct (TABS t Ht) as (r & Ea & Hw & L1 & L2 & _). destruct (proj1 OK r) as [L3 L4].
    unfold clearz. rewrite Ea. split; [clear -L1 L2 L3 L4; lia|]. apply inr_ok in Z2. apply inr_ok in T2. cbn [fst snd] in T2.
    pose proof (wr_ne _ _ Z1 Hw) as Q1.
    cbn [fst] in T1. pose proof (wr_ne _ _ T1 Hw) as Q2. pose proof (proj2 OK _ _ Z1 Q1) as D1. pose proof (proj2 OK _ _ T1 Q2) as D2. clear -L1 L2 Z2 T2 D1 D2. unfold disj in *. unfold at_p. split; lia.
  - intros Er. rewrite Er in Era. destruct (lookr (s_r s) RAX) as [q|] eqn:Eq; [|discriminate Era]. apply peqb_eq in Era. subst q.
    rewrite (proj2 (lookr_ok _ _ _ _ _ _ SA Eq)). unfold at_p. cbn [fst snd]. clear. lia.
  - intros g' X' f' m' K' XK' C' R' AX'.
    assert (CW : chg wreg m m').
    { refine (chg_sub _ _ _ _ _ C'). intros b Hb. apply off2. rewrite Forall_forall in Hb.
      pose proof (Hb _ (wreg_in _ Z1)) as B1. pose proof (Hb _ (wreg_in _ T1)) as B2. unfold off in B1, B2. cbn [fst snd] in B1, B2. apply inr_ok in Z2. apply inr_ok in T2. cbn [fst snd] in T2. clear -B1 B2 Z2 T2. unfold at_p. lia. }
    apply (H _ _ _ _ _ HK); [|exact K'|exact XK'|exact CW].
    (* memory change as two changes *)
    set (p1 := (fst sp, snd sp - Wd (r_stk R))) in *.
    assert (F1 : forall f, In f (killf z (Wd (r_nz R)) (killf p1 (Wd (r_stk R)) (s_f s))) -> int_at m' (at_p (f_r f, f_o f)) (f_n f) (f_v f)).
    { intros q Hq. apply filter_In in Hq. destruct Hq as [Hq B1]. apply filter_In in Hq. destruct Hq as [Hq B2]. apply andb_prop in B1. destruct B1 as [B1 B3]. apply andb_prop in B2. destruct B2 as [B2 _].
      rewrite Forall_forall in S3. refine (int_at_chg _ _ _ _ _ _ C' _ (S3 q Hq)). constructor; [|constructor; [|constructor]].
      - rewrite <- Asp. exact (offp_disj _ _ _ _ B3 T2 T1 B2).
      - exact (offp_disj _ _ _ _ B3 Z2 Z1 B1). }
    assert (F2 : forall e, In e (killp z (Wd (r_nz R)) (killp p1 (Wd (r_stk R)) (s_p s))) -> okp (snd e) = true /\ m' (at_p (fst e)) = Some (at_p (snd e))).
    { intros q Hq. apply filter_In in Hq. destruct Hq as [Hq B1]. apply filter_In in Hq. destruct Hq as [Hq B2]. apply andb_prop in B1. destruct B1 as [B1 B3]. apply andb_prop in B2. destruct B2 as [B2 _].
      rewrite Forall_forall in S4. destruct (S4 q Hq) as [Q1 Q2]. split; [exact Q1|]. rewrite (proj1 C'); [exact Q2|]. 
      pose proof (offp_disj _ _ _ _ B3 T2 T1 B2) as D1. pose proof (offp_disj _ _ _ _ B3 Z2 Z1 B1) as D2. rewrite Asp in D1. apply off2. clear -D1 D2. unfold disj in *. lia. }
    unfold sat, wmem. cbn [s_r s_x s_f s_p]. split; [|split; [|split; [|split]]].
    + pose proof (killr_keep _ _ _ _ K' S1) as KR. destruct (r_rax R) eqn:Er; [|exact KR]. constructor; [|exact KR]. cbn [fst snd]. split; [exact RTok|].
      rewrite (AX' eq_refl). unfold at_p. cbn [fst snd]. clear. lia.
    + exact (killx_keep _ _ _ _ XK' S2).
    + apply addf_ok; [exact R'|]. apply Forall_forall. exact F1.
    + apply Forall_forall. exact F2.
    + exact (writ_chg _ _ _ C' S5).
Qed.
Lemma good_item i : aok i -> good i.
Proof. destruct i as [i|r p|cd az ax ay R]; intros H; [apply good_instr|apply good_IT|apply good_act; exact H]. Qed.

Theorem exec_ok l : forall s K pc g X f m (Q : Z -> state -> Prop), Forall aok l -> exec l s K -> at_ C pc (flat l) -> sat s g X m -> Forall (tab_at m) tabs ->
  (forall s' g' X' f' m', K s' -> sat s' g' X' m' -> keep (clob l) g g' -> xkeep (xclob l) X X' -> chg wreg m m' -> wp C (pc + Z.of_nat (length (flat l))) (mkSt g' X' f' m') Q) ->
  wp C pc (mkSt g X f m) Q.
Proof.
  induction l as [|i l IH]; intros s K pc g X f m Q AO EX A SA TB H.
  - cbn [exec flat flat_map length] in *. rewrite Z.add_0_r in H. exact (H _ _ _ _ _ EX SA (keep_refl _) (xkeep_nil _ _) (chg_nil _)).
  - inversion AO as [|? ? A1 A2]; subst. cbn [exec] in EX. unfold flat in A. cbn [flat_map] in A. destruct (at_app _ _ _ _ A) as [A3 A4].
    refine (good_item i A1 _ _ _ _ _ _ _ _ EX A3 SA TB _). intros s1 g1 X1 f1 m1 HK SA1 K1 XK1 C1.
    refine (IH _ _ _ _ _ _ _ _ A2 HK A4 SA1 (tabs_chg _ _ _ C1 (fun b H => H) TB) _). intros s2 g2 X2 f2 m2 HK2 SA2 K2 XK2 C2.
    rewrite <- Z.add_assoc. unfold flat in H. cbn [flat_map] in H. rewrite app_length, Nat2Z.inj_add in H.
    apply (H _ _ _ _ _ HK2 SA2); [exact (keep_trans _ _ _ _ _ K1 K2)|exact (xkeep_trans _ _ _ _ _ XK1 XK2)|exact (chg_idem _ _ _ C1 C2)].
Qed.
End Sym.
