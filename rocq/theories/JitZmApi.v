(** The proofs of JitZmProofs and JitZmMul in the form of P_Jit. *)
From Coq Require Import ZArith List Bool Lia.
From Verif Require Import Base Prim PrimProofs X64 XLog JitSpec XTac JitZm JitZmProofs JitZmMul.
Import ListNotations.
Local Open Scope Z_scope.

Lemma calls_wp c s (Q : state -> Prop) (P : Z -> state -> Prop) :
  wp c 0 s P -> (forall t s', P t s' -> returned s t s' /\ Q s') -> calls c s Q.
Proof. intros (n & t & s' & E & H) HP. destruct (HP _ _ H). exists n, t, s'. auto. Qed.

Lemma jit_addsub_ok isAdd s xs ys : let g := rg s in let n := length xs in
  (1 <= n)%nat -> length ys = n -> limbs xs -> limbs ys ->
  rcx g = Z.of_nat n -> words (mem s) (rsi g) xs -> words (mem s) (rdx g) ys -> mapped (mem s) (rdi g) n ->
  area (rdi g) n -> area (rsi g) n -> area (rdx g) n ->
  behind (rdi g) (rsi g) n -> behind (rdi g) (rdx g) n ->
  called (genAddSub isAdd) s -> apart (rsp g) 1 (rdi g) n ->
  calls (genAddSub isAdd) s (fun s' => exists zs k, 
    chunk isAdd false k (mem s) (mem s') (rdi g) xs ys zs /\ rax (rg s') = Z.b2z k).
Proof.
  intros g n. unfold g, n. destruct s as [[a b0 c d si di bp sp g8 g9 g10 g11 g12 g13 g14 g15] X f m]. cbn [rg mem rcx rsi rdx rdi rsp].
  intros Hn Ly Ux Uy -> Wx Wy Mo A1 A2 A3 B1 B2 ((ra & Em & Hra) & A4) Ap. cbn [rg mem rsp] in *.
  eapply calls_wp; [apply (all_ok isAdd ra Hra xs ys); assumption|].
  intros t s' (-> & E2 & E3 & E4). split; [|exact E4]. split; [exact Em|]. split; [exact E2|exact E3].
Qed.
Lemma split_uniq n z1 z2 (k1 k2 : bool) : limbs z1 -> limbs z2 -> length z1 = n -> length z2 = n ->
  lv z1 + B ^ Z.of_nat n * Z.b2z k1 = lv z2 + B ^ Z.of_nat n * Z.b2z k2 -> z1 = z2 /\ k1 = k2.
Proof.
  intros U1 U2 L1 L2 E. pose proof (lv_nonneg _ U1). pose proof (lv_nonneg _ U2).
  pose proof (lv_bound _ U1) as H1. pose proof (lv_bound _ U2) as H2. rewrite L1 in H1. rewrite L2 in H2.
  set (W := B ^ Z.of_nat n) in *. clearbody W.
  assert (k1 = k2) by (destruct k1, k2; cbn [Z.b2z] in E; try reflexivity; lia). subst k2. split; [|reflexivity].
  apply lv_inj; try assumption; [congruence|lia].
Qed.
Lemma ifb (k : bool) w : (if k then w else 0) = w * Z.b2z k.
Proof. destruct k; cbn; ring. Qed.

Lemma jit_addN_ok s xs ys : let g := rg s in let n := length xs in
  (1 <= n)%nat -> length ys = n -> limbs xs -> limbs ys ->
  rcx g = Z.of_nat n -> words (mem s) (rsi g) xs -> words (mem s) (rdx g) ys -> mapped (mem s) (rdi g) n ->
  area (rdi g) n -> area (rsi g) n -> area (rdx g) n ->
  behind (rdi g) (rsi g) n -> behind (rdi g) (rdx g) n ->
  called jit_addN s -> apart (rsp g) 1 (rdi g) n ->
  calls jit_addN s (fun s' => exists zs carry,
    length zs = n /\ limbs zs /\ lv zs + B ^ Z.of_nat n * Z.b2z carry = lv xs + lv ys /\
    in_addN xs ys = (zs, carry) /\
    rax (rg s') = Z.b2z carry /\ words (mem s') (rdi g) zs /\ same_but (mem s) (mem s') (rdi g) n).
Proof.
  intros g n Hn Ly Ux Uy H1 H2 H3 H4 H5 H6 H7 H8 H9 H10 H11.
  destruct (jit_addsub_ok true s xs ys Hn Ly Ux Uy H1 H2 H3 H4 H5 H6 H7 H8 H9 H10 H11) as (k & t & s' & E & Rt & zs & c & HC & Ea).
  exists k, t, s'. split; [exact E|]. split; [exact Rt|]. exists zs, c.
  destruct HC as (L & U & V & W & S & _). cbn [sg Z.b2z] in V.
  assert (V' : lv zs + B ^ Z.of_nat n * Z.b2z c = lv xs + lv ys) by (rewrite V; fold n; ring).
  split; [exact L|]. split; [exact U|]. split; [exact V'|]. split; [|split; [exact Ea|split; [exact W|exact S]]].
  pose proof (in_addN_spec xs ys Ux Uy ltac:(fold n; congruence)) as Sp. destruct (in_addN xs ys) as [z2 c2]. destruct Sp as (U2 & L2 & V2).
  rewrite ifb in V2. fold n in V2. destruct (split_uniq n zs z2 c c2) as [-> ->]; try assumption; [congruence|reflexivity].
Qed.
Lemma jit_subN_ok s xs ys : let g := rg s in let n := length xs in
  (1 <= n)%nat -> length ys = n -> limbs xs -> limbs ys ->
  rcx g = Z.of_nat n -> words (mem s) (rsi g) xs -> words (mem s) (rdx g) ys -> mapped (mem s) (rdi g) n ->
  area (rdi g) n -> area (rsi g) n -> area (rdx g) n ->
  behind (rdi g) (rsi g) n -> behind (rdi g) (rdx g) n ->
  called jit_subN s -> apart (rsp g) 1 (rdi g) n ->
  calls jit_subN s (fun s' => exists zs borrow,
    length zs = n /\ limbs zs /\ lv zs = lv xs - lv ys + B ^ Z.of_nat n * Z.b2z borrow /\
    in_subN xs ys = (zs, borrow) /\
    rax (rg s') = Z.b2z borrow /\ words (mem s') (rdi g) zs /\ same_but (mem s) (mem s') (rdi g) n).
Proof.
  intros g n Hn Ly Ux Uy H1 H2 H3 H4 H5 H6 H7 H8 H9 H10 H11.
  destruct (jit_addsub_ok false s xs ys Hn Ly Ux Uy H1 H2 H3 H4 H5 H6 H7 H8 H9 H10 H11) as (k & t & s' & E & Rt & zs & c & HC & Ea).
  exists k, t, s'. split; [exact E|]. split; [exact Rt|]. exists zs, c.
  destruct HC as (L & U & V & W & S & _). cbn [sg Z.b2z] in V.
  assert (V' : lv zs = lv xs - lv ys + B ^ Z.of_nat n * Z.b2z c) by (rewrite V; fold n; ring).
  split; [exact L|]. split; [exact U|]. split; [exact V'|]. split; [|split; [exact Ea|split; [exact W|exact S]]].
  pose proof (in_subN_spec xs ys Ux Uy ltac:(fold n; congruence)) as Sp. destruct (in_subN xs ys) as [z2 c2]. destruct Sp as (U2 & L2 & V2).
  rewrite ifb in V2. fold n in V2.
  assert (E2 : lv zs + B ^ Z.of_nat n * Z.b2z c2 = lv z2 + B ^ Z.of_nat n * Z.b2z c) by lia.
  destruct (split_uniq n zs z2 c2 c) as [-> ->]; try assumption. reflexivity.
Qed.
Lemma jit_add1_ok s xs : let g := rg s in let n := length xs in let y := rcx g in
  (1 <= n)%nat -> limbs xs -> isU y ->
  rdx g = Z.of_nat n -> words (mem s) (rsi g) xs -> mapped (mem s) (rdi g) n ->
  area (rdi g) n -> area (rsi g) n -> behind (rdi g) (rsi g) n ->
  called jit_add1 s -> apart (rsp g) 1 (rdi g) n ->
  calls jit_add1 s (fun s' => exists zs carry,
    length zs = n /\ limbs zs /\ lv zs + B ^ Z.of_nat n * Z.b2z carry = lv xs + y /\
    in_add xs y = (zs, carry) /\
    rax (rg s') = Z.b2z carry /\ words (mem s') (rdi g) zs /\ same_but (mem s) (mem s') (rdi g) n).
Proof.
  intros g n y. unfold y, g. clear y g. destruct s as [[a b0 c d si di bp sp g8 g9 g10 g11 g12 g13 g14 g15] X f m]. cbn [rg mem rcx rsi rdx rdi rsp].
  intros Hn Ux Uy Ed Wx Mo A1 A2 B1 ((ra & Em & Hra) & A4) Ap. cbn [rg mem rsp] in *.
  eapply calls_wp; [apply (all1_ok true ra Hra xs) with (n := n); try assumption; reflexivity|].
  intros t s' (-> & E2 & E3 & zs & k & HC & Ea). split; [split; [exact Em|split; [exact E2|exact E3]]|].
  exists zs, k. destruct HC as (L & U & V & W & S & _). cbn [sg Z.b2z lv] in V.
  assert (V' : lv zs + B ^ Z.of_nat n * Z.b2z k = lv xs + c) by (rewrite V; fold n; ring).
  split; [exact L|]. split; [exact U|]. split; [exact V'|]. split; [|split; [exact Ea|split; [exact W|exact S]]].
  assert (Nn : xs <> []) by (intros ->; unfold n in Hn; cbn in Hn; lia).
  pose proof (in_add_spec xs c Ux Nn Uy) as Sp. destruct (in_add xs c) as [z2 c2]. destruct Sp as (U2 & L2 & V2).
  rewrite ifb in V2. fold n in V2. destruct (split_uniq n zs z2 k c2) as [-> ->]; try assumption; [congruence|reflexivity].
Qed.
Lemma jit_mul1_ok s xs : let g := rg s in let n := length xs in let y := rcx g in
  (1 <= n)%nat -> limbs xs -> isU y ->
  rdx g = Z.of_nat n -> words (mem s) (rsi g) xs -> mapped (mem s) (rdi g) (S n) ->
  area (rdi g) (S n) -> area (rsi g) n -> behind (rdi g) (rsi g) n ->
  called jit_mul1 s -> apart (rsp g) 1 (rdi g) (S n) ->
  calls jit_mul1 s (fun s' => exists zs,
    length zs = S n /\ limbs zs /\ lv zs = lv xs * y /\ in_mul xs y = zs /\
    words (mem s') (rdi g) zs /\ same_but (mem s) (mem s') (rdi g) (S n)).
Proof.
  intros g n y. unfold y, g. clear y g. destruct s as [[a b0 c d si di bp sp g8 g9 g10 g11 g12 g13 g14 g15] X f m]. cbn [rg mem rcx rsi rdx rdi rsp].
  intros Hn Ux Uy -> Wx Mo A1 A2 B1 ((ra & Em & Hra) & A4) Ap. cbn [rg mem rsp] in *.
  eapply calls_wp; [apply (allm_ok ra Hra xs) with (n := n); try assumption; reflexivity|].
  intros t s' (-> & E2 & E3 & zs & L & U & V & W & S). split; [split; [exact Em|split; [exact E2|exact E3]]|].
  exists zs. split; [exact L|]. split; [exact U|]. split; [exact V|]. split; [|split; [exact W|exact S]].
  destruct (in_mul_spec xs c Ux Uy) as (U2 & L2 & V2). apply lv_inj; try assumption; [fold n in L2; congruence|congruence].
Qed.
Lemma jit_div1_ok s xs : let g := rg s in let n := length xs in let y := rcx g in
  (1 <= n)%nat -> limbs xs -> isU y -> y <> 0 ->
  rdx g = Z.of_nat n -> words (mem s) (rsi g) xs -> mapped (mem s) (rdi g) n ->
  area (rdi g) n -> area (rsi g) n -> ahead (rdi g) (rsi g) n ->
  called jit_div1 s -> apart (rsp g) 1 (rdi g) n ->
  calls jit_div1 s (fun s' => exists qs,
    length qs = n /\ limbs qs /\ lv qs = lv xs / y /\ rax (rg s') = lv xs mod y /\
    in_div xs y = (qs, rax (rg s')) /\
    words (mem s') (rdi g) qs /\ same_but (mem s) (mem s') (rdi g) n).
Proof.
  intros g n y. unfold y, g. clear y g. destruct s as [[a b0 c d si di bp sp g8 g9 g10 g11 g12 g13 g14 g15] X f m]. cbn [rg mem rcx rsi rdx rdi rsp].
  intros Hn Ux Uy Hy -> Wx Mo A1 A2 B1 ((ra & Em & Hra) & A4) Ap. cbn [rg mem rsp] in *.
  assert (Hy' : 0 < c < B) by (unfold isU in Uy; lia).
  eapply calls_wp; [apply (alld_ok ra Hra xs) with (n := n); try assumption; try reflexivity; lia|].
  intros t s' (-> & E2 & E3 & zs & L & U & V & Hr & W & S). split; [split; [exact Em|split; [exact E2|exact E3]]|].
  assert (Ed : lv xs / c = lv zs) by (symmetry; apply (Z.div_unique _ _ _ (rax (rg s'))); lia).
  assert (Er : lv xs mod c = rax (rg s')) by (symmetry; apply (Z.mod_unique _ _ (lv zs)); lia).
  exists zs. split; [exact L|]. split; [exact U|]. split; [congruence|]. split; [congruence|]. split; [|split; [exact W|exact S]].
  pose proof (in_div_spec xs c Ux Hy') as Sp. destruct (in_div xs c) as [q r]. destruct Sp as (U2 & L2 & V2 & Hr2).
  fold n in L2.
  assert (Er2 : lv xs mod c = r) by (symmetry; apply (Z.mod_unique _ _ (lv q)); lia).
  assert (Ed2 : lv xs / c = lv q) by (symmetry; apply (Z.div_unique _ _ _ r); lia).
  f_equal; [|congruence]. apply lv_inj; try assumption; congruence.
Qed.
Lemma jit_mod1_ok s xs : let g := rg s in let n := length xs in let y := rdx g in
  (1 <= n)%nat -> limbs xs -> isU y -> y <> 0 ->
  rsi g = Z.of_nat n -> words (mem s) (rdi g) xs -> area (rdi g) n ->
  called jit_mod1 s ->
  calls jit_mod1 s (fun s' => rax (rg s') = lv xs mod y /\ in_mod xs y = rax (rg s') /\ (forall a, mem s' a = mem s a)).
Proof.
  intros g n y. unfold y, g. clear y g. destruct s as [[a b0 c d si di bp sp g8 g9 g10 g11 g12 g13 g14 g15] X f m]. cbn [rg mem rcx rsi rdx rdi rsp].
  intros Hn Ux Uy Hy -> Wx A1 ((ra & Em & Hra) & A4). cbn [rg mem rsp] in *.
  assert (Hy' : 0 < d < B) by (unfold isU in Uy; lia).
  eapply calls_wp; [apply (allr_ok ra Hra xs) with (n := n); try assumption; try reflexivity; lia|].
  intros t s' (-> & E2 & E3 & Em' & Er). split; [split; [exact Em|split; [exact E2|exact E3]]|].
  split; [exact Er|]. split; [|intros b; rewrite Em'; reflexivity].
  rewrite in_mod_spec, Er. pose proof (in_div_spec xs d Ux Hy') as Sp. destruct (in_div xs d) as [q r]. destruct Sp as (U2 & L2 & V2 & Hr2).
  cbn [snd]. apply (Z.mod_unique _ _ (lv q)); lia.
Qed.

Definition ex_mem : memory := fun a =>
  if a =? 8000 then Some 1000000
  else if (4096 <=? a) && (a <? 4136) && (a mod 8 =? 0) then Some (2 ^ 64 - 1)
  else if (8192 <=? a) && (a <? 8232) && (a mod 8 =? 0) then Some (if a =? 8192 then 1 else 0)
  else None.
Definition ex_st : state :=
  mkSt (mkR 7 7 5 8192 4096 4096 7 8000 7 7 7 7 7 7 7 7) (mkX 0 0 0 0 0 0) noF ex_mem.
Lemma ex_addN : let g := rg ex_st in let xs := repeat (2 ^ 64 - 1) 5 in let ys := [1; 0; 0; 0; 0] in let n := length xs in
  (1 <= n)%nat /\ length ys = n /\ limbs xs /\ limbs ys /\
  rcx g = Z.of_nat n /\ words (mem ex_st) (rsi g) xs /\ words (mem ex_st) (rdx g) ys /\ mapped (mem ex_st) (rdi g) n /\
  area (rdi g) n /\ area (rsi g) n /\ area (rdx g) n /\
  behind (rdi g) (rsi g) n /\ behind (rdi g) (rdx g) n /\
  called jit_addN ex_st /\ apart (rsp g) 1 (rdi g) n /\
  in_addN xs ys = ([0; 0; 0; 0; 0], true).
Proof.
  cbn [rg mem rcx rsi rdx rdi rsp ex_st repeat length].
  unfold called, area, behind, apart, limbs. cbn [rg mem rsp ex_st].
  assert (U : forall v, (0 <=? v) && (v <? 18446744073709551616) = true -> isU v) by (intros v H; unfold isU; rewrite B_val; lia).
  split; [lia|]. split; [reflexivity|].
  split; [repeat (constructor; [apply U; reflexivity|]); constructor|].
  split; [repeat (constructor; [apply U; reflexivity|]); constructor|].
  split; [reflexivity|].
  split; [repeat (split; [reflexivity|]); exact I|].
  split; [repeat (split; [reflexivity|]); exact I|].
  split; [repeat (split; [eexists; reflexivity|]); exact I|].
  rewrite B_val.
  split; [lia|]. split; [lia|]. split; [lia|]. split; [lia|]. split; [lia|].
  split; [split; [exists 1000000; split; reflexivity|lia]|]. split; [lia|]. vm_compute. reflexivity.
Qed.
