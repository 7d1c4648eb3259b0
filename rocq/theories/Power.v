(** mie::power (include/zm.h:1387-1412), generic in the element type, and the
    recodings of loop counters bn::util (include/bn.h:102-179). *)
From Verif Require Import Base Prim Loop Vuint Dbl VDiv.

Section Power.
Context {T : Type}.
Variable mul : T -> T -> T.
Variable one : T.

(** avoid unused multiplication: while (m > 0 && bit m-1 of v is 0) m-- (zm.h:1398-1402) *)
Fixpoint top_bits (m : nat) (v : Z) : nat :=
  match m with
  | O => O
  | S m' => if Z.testbit v (Z.of_nat m') then m else top_bits m' v
  end.

(** for (j = 0; j < m; j++) (zm.h:1404-1409); [j] is the current index, [m] the number of
    iterations left. Result (t, out). *)
Fixpoint pow_loop (m : nat) (v j : Z) (t out : T) : T * T :=
  match m with
  | O => (t, out)
  | S m' => pow_loop m' v (j + 1) (mul t t) (if Z.testbit v j then mul out t else out)
  end.

(** outer loop over the blocks of y, [w] bits each (zm.h:1395-1410). *)
Fixpoint pow_blocks (w : nat) (bs : list Z) (t out : T) : T :=
  match bs with
  | [] => out
  | [v] => snd (pow_loop (top_bits w v) v 0 t out)
  | v :: bs' => let '(t, out) := pow_loop w v 0 t out in pow_blocks w bs' t out
  end.

(** power(x, y) for y of type Vuint (IntTag<T>, zm.h:1346-1356). *)
Definition power_v (x : T) (y : vuint) : T := pow_blocks 64 y x one.
(** for y of type size_t (zm.h:1371-1381). *)
Definition power_size (x : T) (y : Z) : T := pow_blocks 64 [y] x one.
(** for y of type int (zm.h:1358-1369): the bits of the 32-bit pattern are used. *)
Definition power_int (x : T) (y : Z) : T := pow_blocks 32 [y mod 2 ^ 32] x one.

(** Specification: n-fold product. *)
Fixpoint npow (x : T) (n : nat) : T :=
  match n with O => one | S n' => mul x (npow x n') end.
End Power.

(** convertToBinary (include/bn.h:102-110): the most significant digit comes first. *)
Definition convertToBinary (x : vuint) : res (list Z) :=
  let! len := vbitLen x in
  fold_left (fun acc i =>
      let! v := acc in
      let! b := vtestBit x (len - 1 - Z.of_nat i) in
      Ok (v ++ [b2z b]))
    (seq 0 (Z.to_nat len)) (Ok []).

(** v[i] and v[i] = d of the vector type; out of range is UB. *)
Definition getv (v : list Z) (i : nat) : res Z :=
  match nth_error v i with Some d => Ok d | None => UB end.
Fixpoint upd (v : list Z) (i : nat) (d : Z) : list Z :=
  match v, i with
  | [], _ => []
  | _ :: v', O => d :: v'
  | c :: v', S i' => c :: upd v' i' d
  end.

(** getContinuousVal (include/bn.h:111-119). *)
Fixpoint getContinuousVal (v : list Z) (pos : nat) (val : Z) : res nat :=
  match pos with
  | S p =>
      if Nat.leb 2 pos then
        let! d := getv v pos in
        if d =? val then getContinuousVal v p val else Ok pos
      else Ok pos
  | O => Ok O
  end.

(** convertToNAF (include/bn.h:120-144): one iteration of for (;;).
    p - q and p - 1 are size_t; p = 0 only happens for a vector of one element, where
    pos becomes 2^64 - 1 and the next access is out of range. *)
Definition naf_body (s : list Z * nat) : res (step (list Z * nat) (list Z)) :=
  let '(v, pos) := s in
  let! p := getContinuousVal v pos 0 in
  if Nat.eqb p 1 then Ok (Done v) else
  let! q := getContinuousVal v p 1 in
  if Nat.eqb q 1 then Ok (Done v) else
  if Nat.leb (p - q) 1 then
    (if Nat.eqb p 0 then UB else Ok (Next (v, (p - 1)%nat)))
  else
    let v := upd v q 1 in
    let v := fold_left (fun v i => upd v i 0) (seq (q + 1) (p - q - 1)) v in
    let v := upd v p (-1) in
    Ok (Next (v, q)).
Definition convertToNAF (v : list Z) : res (list Z) :=
  match v with
  | [] => UB
  | _ => loopR 64 naf_body (v, (length v - 1)%nat)
  end.

(** getNumOfNonZeroElement (include/bn.h:145-153). *)
Fixpoint getNumOfNonZeroElement (v : list Z) : nat :=
  match v with
  | [] => O
  | d :: v' => ((if (d =? 0)%Z then 0 else 1) + getNumOfNonZeroElement v')%nat
  end.

(** getGoodRepl (include/bn.h:154-177): (digits, useNAF). *)
Definition getGoodRepl (x : vuint) : res (list Z * bool) :=
  let! bin := convertToBinary x in
  let! naf := convertToNAF bin in
  if Nat.ltb (getNumOfNonZeroElement naf) (getNumOfNonZeroElement bin) then Ok (naf, true)
  else Ok (bin, false).

(** Specification: value of a digit vector, most significant digit first. *)
Definition bval (v : list Z) : Z := fold_left (fun a d => 2 * a + d) v 0.
