(** Malformed text of points and of Fp2 elements. *)
From Coq Require Import ZArith Lia List Bool.
From Verif Require Import Base Vuint StrSpec VStr VStrProofs Cfg FpSpec FpM FpProofs FpApi FpApiProofs TowerSpec TowerField TowerM Fp2Proofs ParamM EcM EcInst TextM TextProofs.
Import ListNotations.
Local Open Scope Z_scope.

Lemma cut_none t : Forall (fun ch => is_space ch = false /\ ch <> 95) t -> cut_at 95 t = None.
Proof.
  induction t as [|ch t IH]; intros H; [reflexivity|]. apply Forall_cons_iff in H as [[_ H] Hs]. cbn [cut_at].
  destruct (Z.eqb_spec ch 95); [contradiction|]. rewrite IH by exact Hs. reflexivity.
Qed.
Lemma t_ec_bad O rd ws (m : mem O) o t r : Forall (fun ch => is_space ch = false /\ ch <> 95) t -> t <> [] -> t <> [48] -> after r ->
  ec_in O rd ws m o (t ++ r, true) = Throw.
Proof.
  intros H N1 N2 Hr. assert (Hs : Forall (fun ch => is_space ch = false) t) by (refine (Forall_impl _ _ H); intros a Ha; apply Ha).
  unfold ec_in, rd_token.
  assert (Es : (if ws then skip_space (t ++ r) else t ++ r) = t ++ r).
  { destruct ws; [|reflexivity]. destruct t as [|ch t]; [congruence|]. apply Forall_cons_iff in Hs as [H0 _]. cbn [app skip_space]. unfold is_space in H0. rewrite H0. reflexivity. }
  rewrite Es, (take_token_plain' _ r Hs Hr).
  assert (E0 : match t with [ch] => ch =? 48 | _ => false end = false).
  { destruct t as [|ch [|]]; try reflexivity. apply Z.eqb_neq. congruence. }
  rewrite E0, (cut_none t H). reflexivity.
Qed.
Lemma t_fp2_sep c base ws x v y w k1 k2 k3 r : base = 10 \/ base = 16 -> rep1 c x v -> rep1 c y w ->
  is_space k1 = false -> is_space k2 = false -> is_space k3 = false -> not_digit_head [k2] -> not_digit_head [k3] ->
  exists sx sy, fp_out c base x = Ok sx /\ fp_out c base y = Ok sy /\
  f2_in c ws (k1 :: sx ++ k2 :: sy ++ k3 :: r, true) =
    if ((k1 =? 91) && (k2 =? 44) && (k3 =? 93))%bool then Ok (mk2 x y, (r, true)) else Throw.
Proof.
  intros Hb [Hx _] [Hy _] S1 S2 S3 D2 D3.
  destruct (fp_out_ok c base x Hb Hx) as (sx & Ex & Nx & Rx & _). destruct (fp_out_ok c base y Hb Hy) as (sy & Ey & Ny & Ry & _).
  exists sx, sy. split; [exact Ex|]. split; [exact Ey|].
  unfold f2_in. rewrite rd_char_run by exact S1. unfold fp_in. rewrite rd_digits_run by (try exact Nx; exact D2). rewrite Rx. cbn [bind live].
  rewrite rd_char_run by exact S2. rewrite rd_digits_run by (try exact Ny; exact D3). rewrite Ry. cbn [bind live]. rewrite rd_char_run by exact S3.
  cbn [expect]. destruct (k1 =? 91), (k2 =? 44), (k3 =? 93); reflexivity.
Qed.
