(** Orders of the points the API accepts. *)
From Coq Require Import ZArith Znumtheory Lia List.
From Verif Require Import Base Prim Vuint VuintProofs Power FpSpec Cfg FpM FpProofs TowerSpec TowerField TowerM Fp2Proofs ParamM ParamProofs Poly EcSpec EcGroup EcM EcProofs EcInst EcFrob EcApi EcZ Gen1 Count GenT.
Import ListNotations.
Local Open Scope Z_scope.
Section O.
Variable c : cfg.
Local Notation K := (FpF c).
Lemma mulz_zmul (F : fld) k (P : ecpt F) : 0 <= k -> ec_mulz F k P = zmul F k P.
Proof. intros H. rewrite zmul_pos by exact H. reflexivity. Qed.
Lemma r_ge0 : 0 <= cr c. Proof. pose proof (r_pos c). lia. Qed.
Lemma ord_gen P x : paramInit (snark c) (curveOf c) = Ok P -> wfP G1 c x -> gValid G1 c P x = Ok true ->
  exists k, 0 <= k < cr c /\ ptP G1 c x = ec_mulz K k (ptP G1 c (gen1 c)).
Proof.
  intros HI Hx HV. destruct (pe_valid G1 c P x HI Hx) as (r & E & R). rewrite E in HV. injection HV as ->. pose proof (proj1 R eq_refl) as HO.
  destruct (all_points c (ptP G1 c x) HO) as (k & Hk & Ek). exists k. split; [exact Hk|]. rewrite mulz_zmul by lia. exact Ek.
Qed.
Lemma ord_all P : onE G1 c P -> ec_mulz K (cr c) P = EInf.
Proof. intros H. rewrite mulz_zmul by apply r_ge0. apply all_order. exact H. Qed.
Lemma ord_exact P k : onE G1 c P -> P <> EInf -> 0 < k < cr c -> ec_mulz K k P <> EInf.
Proof.
  intros H N Hk E. rewrite mulz_zmul in E by lia. apply (order_exact c P k H N) in E. apply Zdivide_le in E; lia.
Qed.
Lemma ord_inj j k : 0 <= j < cr c -> 0 <= k < cr c -> ec_mulz K j (ptP G1 c (gen1 c)) = ec_mulz K k (ptP G1 c (gen1 c)) -> j = k.
Proof. intros Hj Hk E. rewrite !mulz_zmul in E by lia. exact (zm_inj c j k Hj Hk E). Qed.
Lemma ord_mul (m : mem (gO G1 c)) o i k : vwf k -> lv k = cr c -> i <> Loc 1 -> o <> Loc 1 -> wfP G1 c (m i) -> onE G1 c (ptP G1 c (m i)) ->
  exists m', ScalarMult_v (gO G1 c) m o i k = Ok m' /\ wfP G1 c (m' o) /\ ptP G1 c (m' o) = EInf.
Proof.
  intros Hk Ek Hi Ho Hw HO. destruct (pe_mul G1 c m o i k Hk Hi Ho Hw HO) as (m' & E & W' & E' & _). exists m'. split; [exact E|]. split; [exact W'|].
  rewrite E', Ek. exact (ord_all _ HO).
Qed.
Lemma twist_bad : exists x, wfP G2 c x /\
  (forall P, paramInit (snark c) (curveOf c) = Ok P -> gValid G2 c P x = Ok true) /\
  ec_mulz (K2F c) (cr c) (ptP G2 c x) <> EInf /\
  ptP G2 c x <> EInf /\ ec_mulz (K2F c) (tq c) (ptP G2 c x) = EInf.
Proof.
  exists (tobj c). split; [apply tobj_wf|]. split; [|split; [|split]].
  - intros P HI. destruct (pe_valid G2 c P (tobj c) HI (tobj_wf c)) as (r & E & R). rewrite E. f_equal. apply R. unfold onE. rewrite gb2. apply tobj_on.
  - rewrite mulz_zmul by apply r_ge0. apply tobj_r.
  - apply tobj_nz.
  - rewrite mulz_zmul by (destruct c; vm_compute; discriminate). apply tobj_q.
Qed.
End O.
