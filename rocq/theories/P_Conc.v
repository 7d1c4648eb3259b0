(** C50: const member functions of one shared point called from several threads.

    Reading guide.  [thread O fin ops []] is a thread that performs the const calls [ops] (==,
    printing, isZero, isValid, normalize) one after the other; it is a program whose steps are
    the single reads and writes of coordinates (ConcM.v).  [csteps] is any interleaving of the
    steps of all threads.  [PDone rs]: the thread has finished and its calls returned [rs].
    [prun p m]: the program running alone.  [ready g c x]: the object x denotes the point at
    infinity or has z = 1 (what normalize() leaves). *)
From Coq Require Import ZArith List.
From Verif Require Import Base Cfg TowerSpec ParamM EcSpec EcM EcApi ConcM ConcProofs.
Import ListNotations.

(** "Const calls from two threads never change the point" is false.  Both threads evaluate
    P == Q, where P is the generator with z = 2 and Q is the same point with z = 1.  Then the
    threads may get different answers, and P may end up off the curve. *)
Theorem C50_equal_equal_refuted P : exists m',
  csteps (fpO BNb) ([eqthread BNb P; eqthread BNb P], cmem BNb) ([PDone [RBool true]; PDone [RBool false]], m') /\
  wfP G1 BNb (m' (Obj 0)) /\ ~ onE G1 BNb (ptP G1 BNb (m' (Obj 0))).
Proof. exact (bad_eq P). Qed.
(** One thread only asks isValid() and gets the answer false for a valid point. *)
Theorem C50_equal_isValid_refuted P : paramInit (snark BNb) (curveOf BNb) = Ok P ->
  exists m', csteps (fpO BNb) ([eqthread BNb P; valthread BNb P], cmem BNb) ([PDone [RBool true]; PDone [RBool false]], m').
Proof. exact (bad_valid P). Qed.
Example C50_initial c : wfP G1 c (cmem c (Obj 0)) /\ onE G1 c (ptP G1 c (cmem c (Obj 0))) /\
  wfP G1 c (cmem c (Obj 1)) /\ ptP G1 c (cmem c (Obj 0)) = ptP G1 c (cmem c (Obj 1)).
Proof. exact (cmem_ok c). Qed.

(** What does hold: if the shared objects were normalized before, then in every interleaving
    of any number of threads, each making any number of const calls, nothing is ever written,
    every finished thread has the results it would have had running alone, and no thread is
    blocked or fails. *)
Theorem C50_normalized g c P (ops : list (list cop)) (m : mem (gO g c)) ths' m' : paramInit (snark c) (curveOf c) = Ok P ->
  (forall o, ready g c (m o)) ->
  csteps (gO g c) (map (fun l => thread (gO g c) (gfin g c P) l []) ops, m) (ths', m') ->
  m' = m /\ length ths' = length ops /\
  (forall i l p, nth_error ops i = Some l -> nth_error ths' i = Some p ->
     (exists rs, prun (gO g c) (thread (gO g c) (gfin g c P) l []) m = Ok (rs, m)) /\
     (forall rs, p = PDone rs -> prun (gO g c) (thread (gO g c) (gfin g c P) l []) m = Ok (rs, m)) /\
     ((forall rs, p <> PDone rs) -> pstep (gO g c) p m' <> None)).
Proof. exact (conc_norm g c P ops m ths' m'). Qed.
Example C50_ready g c : ready g c (gen g c).
Proof. exact (ready_ex g c). Qed.
(** Running alone, == and isValid are right for every representative. *)
Theorem C50_alone_equal g c P (m : mem (gO g c)) a b : wfP g c (m a) -> wfP g c (m b) ->
  exists r m', prun (gO g c) (thread (gO g c) (gfin g c P) [CEq a b] []) m = Ok ([RBool r], m') /\
    (r = true <-> ptP g c (m a) = ptP g c (m b)).
Proof. exact (seq_eq g c P m a b). Qed.
Theorem C50_alone_isValid g c P (m : mem (gO g c)) o : paramInit (snark c) (curveOf c) = Ok P -> wfP g c (m o) ->
  exists r, prun (gO g c) (thread (gO g c) (gfin g c P) [CValid o] []) m = Ok ([RBool r], m) /\
    (r = true <-> onE g c (ptP g c (m o))).
Proof. exact (seq_valid g c P m o). Qed.

(** One query covers all theorems of this file. *)
Definition all_theorems_P_Conc :=
  (@C50_equal_equal_refuted,
   @C50_equal_isValid_refuted,
   @C50_normalized,
   @C50_alone_equal,
   @C50_alone_isValid).
Print Assumptions all_theorems_P_Conc.
