(** Facts about the double model used by bitLen and the division loop. *)
From Verif Require Import Base Dbl.

Lemma p2pos n : 0 <= n -> 0 < 2 ^ n.
Proof. intros. apply Z.pow_pos_nonneg; lia. Qed.

Lemma rnd_core num den : 0 < num -> 0 < den -> -256 <= Z.log2 num - Z.log2 den - 53 ->
  exists e q r,
    -256 <= e /\ Z.log2 num - Z.log2 den - 53 <= e <= Z.log2 num - Z.log2 den - 52 /\
    num * 2 ^ 256 = q * (den * 2 ^ (e + 256)) + r /\ 0 <= r < den * 2 ^ (e + 256) /\
    2 ^ 52 <= q < 2 ^ 53 /\
    ((rnd num den = Ok (q, e) /\ 2 * r <= den * 2 ^ (e + 256) /\
       (2 * r = den * 2 ^ (e + 256) -> Z.odd q = false)) \/
     (rnd num den = Ok (q + 1, e) /\ den * 2 ^ (e + 256) <= 2 * r /\ q + 1 < 2 ^ 53) \/
     (rnd num den = Ok (2 ^ 52, e + 1) /\ den * 2 ^ (e + 256) <= 2 * r /\ q + 1 = 2 ^ 53)).
Proof.
  intros Hn Hd He. unfold rnd.
  set (e0 := Z.log2 num - Z.log2 den - 53) in *.
  destruct (Z.ltb_spec e0 (-256)); [lia|].
  pose proof (Z.log2_spec num Hn) as Ln. pose proof (Z.log2_spec den Hd) as Ld.
  pose proof (Z.log2_nonneg num). pose proof (Z.log2_nonneg den).
  set (ln := Z.log2 num) in *. set (ld := Z.log2 den) in *.
  unfold Z.succ in *. rewrite Z.pow_add_r, Z.pow_1_r in Ln, Ld by lia.
  set (d0 := den * 2 ^ (e0 + 256)).
  set (T := 2 ^ (ln + 203)). assert (HT : 0 < T) by (apply p2pos; lia).
  assert (Hd0 : T <= d0 < 2 * T).
  { unfold d0, T. replace (ln + 203) with (ld + (e0 + 256)) by lia.
    rewrite Z.pow_add_r by lia. pose proof (p2pos (e0 + 256) ltac:(lia)). nia. }
  assert (Hnn : 2 ^ 53 * T <= num * 2 ^ 256 < 2 ^ 54 * T).
  { unfold T. rewrite Z.pow_add_r by lia.
    pose proof (p2pos ln ltac:(lia)).
    change (2 ^ 256) with (2 ^ 53 * 2 ^ 203). change (2 ^ 54) with (2 ^ 53 * 2).
    pose proof (p2pos 53 ltac:(lia)). pose proof (p2pos 203 ltac:(lia)).
    set (a := 2 ^ 53) in *. set (b := 2 ^ 203) in *. clearbody a b. 
    assert (0 < a * b) by nia. nia. }
  set (n := num * 2 ^ 256) in *.
  change (2 ^ 53) with (2 * 2 ^ 52) in *. change (2 ^ 54) with (4 * 2 ^ 52) in *.
  pose proof (p2pos 52 ltac:(lia)) as P52. set (P := 2 ^ 52) in *.
  assert (Hq0 : P <= n / d0 < 4 * P).
  { split; [apply Z.div_le_lower_bound; nia | apply Z.div_lt_upper_bound; nia]. }
  assert (HX : exists e, (if n / d0 <? 2 * P then e0 else e0 + 1) = e /\ e0 <= e <= e0 + 1 /\
      P <= n / (den * 2 ^ (e + 256)) < 2 * P /\ 0 < den * 2 ^ (e + 256)).
  { destruct (Z.ltb_spec (n / d0) (2 * P)) as [L|L].
    - exists e0. fold d0. repeat split; try lia.
    - exists (e0 + 1).
      replace (den * 2 ^ (e0 + 1 + 256)) with (d0 * 2).
      2:{ unfold d0. replace (e0 + 1 + 256) with ((e0 + 256) + 1) by lia.
          rewrite (Z.pow_add_r 2 (e0 + 256) 1) by lia. ring. }
      assert (P <= n / d0 / 2) by (apply Z.div_le_lower_bound; lia).
      assert (n / d0 / 2 < 2 * P) by (apply Z.div_lt_upper_bound; lia).
      rewrite <- Z.div_div by lia. repeat split; lia. }
  destruct HX as (e & -> & He1 & Hq & Hdp).
  set (d := den * 2 ^ (e + 256)) in *.
  exists e, (n / d), (n mod d).
  pose proof (Z.div_mod n d ltac:(lia)) as DM. pose proof (Z.mod_pos_bound n d ltac:(lia)) as MB.
  set (q := n / d) in *. set (r := n mod d) in *.
  split; [lia|]. split; [lia|]. split; [lia|]. split; [lia|]. split; [lia|].
  destruct (Z.ltb_spec d (2 * r)) as [L|L]; cbn [orb].
  - destruct (Z.eqb_spec (q + 1) (2 * P)) as [E|E]; [right; right|right; left]; repeat split; lia.
  - destruct (Z.eqb_spec (2 * r) d) as [L2|L2]; cbn [andb].
    + destruct (Z.odd q) eqn:Eo.
      * destruct (Z.eqb_spec (q + 1) (2 * P)) as [E|E]; [right; right|right; left]; repeat split; lia.
      * destruct (Z.eqb_spec q (2 * P)); [lia|]. left. split; [auto|split; [lia|intros; first [reflexivity|lia]]].
    + destruct (Z.eqb_spec q (2 * P)); [lia|]. left. split; [auto|split; [lia|intros; first [reflexivity|lia]]].
Qed.

Lemma log2_53 k j : 2 ^ 52 <= k < 2 ^ 53 -> 0 <= j -> Z.log2 (k * 2 ^ j) = 52 + j.
Proof.
  intros Hk Hj. rewrite Z.log2_mul_pow2 by (pose proof (p2pos 52 ltac:(lia)); lia).
  replace (Z.log2 k) with 52; [lia|]. symmetry. apply Z.log2_unique; [lia|]. exact Hk.
Qed.

(** representable rationals are not rounded *)
Lemma rnd_exact num den k j : 0 < num -> 0 < den -> -256 <= Z.log2 num - Z.log2 den - 53 ->
  2 ^ 52 <= k < 2 ^ 53 -> -256 <= j -> num * 2 ^ 256 = k * (den * 2 ^ (j + 256)) ->
  rnd num den = Ok (k, j).
Proof.
  intros Hn Hd He Hk Hj HE.
  destruct (rnd_core num den Hn Hd He) as (e & q & r & E1 & _ & E2 & E3 & E4 & E5).
  change (2 ^ 53) with (2 * 2 ^ 52) in *. pose proof (p2pos 52 ltac:(lia)) as P52.
  set (P := 2 ^ 52) in *.
  pose proof (p2pos (e + 256) ltac:(lia)) as Pe. pose proof (p2pos (j + 256) ltac:(lia)) as Pj.
  assert (Hej : e = j).
  { destruct (Z.lt_trichotomy e j) as [L|[L|L]]; auto; exfalso.
    - assert (X : 2 ^ (j + 256) = 2 ^ (e + 256) * (2 * 2 ^ (j - e - 1))).
      { rewrite <- Z.pow_succ_r, <- Z.pow_add_r by lia. f_equal. lia. }
      pose proof (p2pos (j - e - 1) ltac:(lia)).
      set (g := 2 ^ (j - e - 1)) in *. set (D := den * 2 ^ (e + 256)) in *.
      assert (HE' : num * 2 ^ 256 = k * 2 * g * D) by (rewrite HE, X; unfold D; ring).
      assert (0 < D) by (unfold D; nia). assert (q + 1 <= k * 2 * g) by nia. nia.
    - assert (X : 2 ^ (e + 256) = 2 ^ (j + 256) * (2 * 2 ^ (e - j - 1))).
      { rewrite <- Z.pow_succ_r, <- Z.pow_add_r by lia. f_equal. lia. }
      pose proof (p2pos (e - j - 1) ltac:(lia)).
      set (g := 2 ^ (e - j - 1)) in *. rewrite X in *.
      set (D := den * 2 ^ (j + 256)) in *.
      assert (0 < D) by (unfold D; nia).
      assert (k * D >= q * (2 * g) * D) by nia.
      assert (k >= q * (2 * g)) by nia. nia. }
  subst e. set (D := den * 2 ^ (j + 256)) in *. assert (0 < D) by (unfold D; nia).
  assert (q = k) by nia. subst q. assert (r = 0) by nia. subst r.
  destruct E5 as [[-> _]|[[_ E5]|[_ E5]]]; auto; lia.
Qed.

(** rounding increases a number by at most a factor 1 + 2^-53 *)
Lemma rnd_upper num den : 0 < num -> 0 < den -> -256 <= Z.log2 num - Z.log2 den - 53 ->
  exists v, rnd num den = Ok v /\ 0 <= dv v /\
    2 ^ 53 * (dv v * den) <= (2 ^ 53 + 1) * (num * 2 ^ 256).
Proof.
  intros Hn Hd He.
  destruct (rnd_core num den Hn Hd He) as (e & q & r & E1 & _ & E2 & E3 & E4 & E5).
  change (2 ^ 53) with (2 * 2 ^ 52) in *. pose proof (p2pos 52 ltac:(lia)) as P52.
  set (P := 2 ^ 52) in *.
  pose proof (p2pos (e + 256) ltac:(lia)) as Pe.
  destruct E5 as [[-> H]|[[-> H]|[-> H]]]; eexists; (split; [reflexivity|]); unfold dv; cbn [fst snd].
  - split; [nia|]. nia.
  - split; [nia|]. rewrite E2. set (D := 2 ^ (e + 256)) in *.
    replace (2 * P * ((q + 1) * D * den)) with (2 * P * (q + 1) * (den * D)) by ring.
    set (G := den * D) in *. nia.
  - split; [nia|]. rewrite E2. replace (e + 1 + 256) with ((e + 256) + 1) by lia.
    rewrite Z.pow_add_r, Z.pow_1_r by lia. set (D := 2 ^ (e + 256)) in *.
    replace (2 * P * (P * (D * 2) * den)) with (2 * P * (q + 1) * (den * D)) by nia.
    set (G := den * D) in *. nia.
Qed.

Definition dnorm (x : dbl) : Prop := 2 ^ 52 <= fst x < 2 ^ 53.

Lemma of_u64_spec H : 0 < H < 2 ^ 64 ->
  exists m e, of_u64 H = Ok (m, e) /\ dnorm (m, e) /\
    Z.log2 H - 52 <= e <= Z.log2 H - 51 /\
    (Z.log2 H <= 52 -> e = Z.log2 H - 52 /\ m = H * 2 ^ (52 - Z.log2 H)) /\
    (e = Z.log2 H - 51 <-> 53 <= Z.log2 H /\ 2 ^ 54 - 1 <= H / 2 ^ (Z.log2 H - 53)).
Proof.
  intros HH. unfold of_u64. pose proof (Z.log2_nonneg H) as N0.
  pose proof (Z.log2_spec H ltac:(lia)) as LS. unfold Z.succ in LS.
  rewrite Z.pow_add_r, Z.pow_1_r in LS by lia.
  change (Z.log2 1) with 0 in *.
  assert (He : -256 <= Z.log2 H - Z.log2 1 - 53) by (change (Z.log2 1) with 0; lia).
  destruct (Z.le_gt_cases (Z.log2 H) 52) as [LL|LL].
  - set (L := Z.log2 H) in *.
    assert (X : 2 ^ L * 2 ^ (52 - L) = 2 ^ 52) by (rewrite <- Z.pow_add_r by lia; f_equal; lia).
    pose proof (p2pos (52 - L) ltac:(lia)). pose proof (p2pos L ltac:(lia)).
    exists (H * 2 ^ (52 - L)), (L - 52).
    assert (HN : dnorm (H * 2 ^ (52 - L), L - 52)).
    { unfold dnorm. cbn [fst]. change (2 ^ 53) with (2 * 2 ^ 52). rewrite <- X. nia. }
    split; [|split; [exact HN|split; [lia|split; [auto|]]]].
    + apply rnd_exact; try lia; [exact HN|]. rewrite Z.mul_1_l, <- Z.mul_assoc, <- Z.pow_add_r by lia.
      f_equal. f_equal. lia.
    + split; intros; lia.
  - destruct (rnd_core H 1 ltac:(lia) ltac:(lia) He) as (e & q & r & E1 & E0 & E2 & E3 & E4 & E5).
    change (Z.log2 1) with 0 in E0. set (L := Z.log2 H) in *.
    rewrite Z.mul_1_l in *.
    assert (e = L - 52).
    { destruct (Z.eq_dec e (L - 52)) as [E|E]; auto. exfalso. assert (e = L - 53) by lia. subst e.
      replace (L - 53 + 256) with (L + 203) in * by lia. rewrite Z.pow_add_r in * by lia.
      change (2 ^ 256) with (2 ^ 53 * 2 ^ 203) in E2. pose proof (p2pos 203 ltac:(lia)).
      pose proof (p2pos L ltac:(lia)).
      pose proof (p2pos 53 ltac:(lia)). set (a := 2 ^ 53) in *. set (b := 2 ^ 203) in *. set (c := 2 ^ L) in *.
      clearbody a b c.
      assert (a * c * b <= H * (a * b)) by nia. assert (q * (c * b) + r < a * (c * b)) by nia. nia. }
    subst e.
    assert (K : forall k, 0 <= k -> 2 ^ (k + 256) = 2 ^ k * 2 ^ 256) by (intros; apply Z.pow_add_r; lia).
    rewrite K in * by lia.
    assert (S1 : 2 ^ (L - 52) = 2 * 2 ^ (L - 53)) by (rewrite <- Z.pow_succ_r by lia; f_equal; lia).
    pose proof (p2pos (L - 53) ltac:(lia)) as P53. set (u := 2 ^ (L - 53)) in *.
    rewrite S1 in *. pose proof (p2pos 256 ltac:(lia)) as PW. set (W := 2 ^ 256) in *.
    assert (exists r', r = r' * W) as (r' & ->).
    { exists (H - q * (2 * u)). lia. }
    assert (EH : H = q * (2 * u) + r') by nia. assert (0 <= r' < 2 * u) by nia.
    change (2 ^ 54) with (2 * 2 ^ 53).
    assert (HQ : H / u = 2 * q + (if r' <? u then 0 else 1)).
    { symmetry. destruct (Z.ltb_spec r' u).
      - apply Z.div_unique with (r := r'); lia.
      - apply Z.div_unique with (r := r' - u); lia. }
    rewrite HQ. change (2 ^ 53) with (2 * 2 ^ 52) in *. set (P := 2 ^ 52) in *.
    assert (0 < P) by (apply p2pos; lia).
    destruct E5 as [[-> R]|[[-> R]|[-> R]]].
    + exists q, (L - 52). split; [reflexivity|]. split; [exact E4|]. split; [lia|]. split; [lia|].
      split; [lia|]. intros [_ HG]. exfalso. destruct (Z.ltb_spec r' u); [lia|].
      (* r' >= u and rounded down: tie, q even *)
      assert (r' = u) by nia. subst r'. destruct R as [_ R].
      assert (Hodd : Z.odd q = true) by (replace q with (2 * P - 1) by lia; rewrite Z.odd_sub, Z.odd_mul; reflexivity).
      rewrite R in Hodd; [discriminate|lia].
    + exists (q + 1), (L - 52). split; [reflexivity|]. split; [unfold dnorm; cbn [fst]; change (2 ^ 53) with (2 * P); lia|].
      split; [lia|]. split; [lia|]. split; intros; [lia|]. destruct (Z.ltb_spec r' u); lia.
    + exists P, (L - 51). replace (L - 52 + 1) with (L - 51) by lia. split; [reflexivity|].
      split; [unfold dnorm; cbn [fst]; change (2 ^ 53) with (2 * P); lia|].
      split; [lia|]. split; [lia|]. split; intros; [|lia]. destruct (Z.ltb_spec r' u); [nia|lia].
Qed.
