(** Model of the division of mie::Vuint and of bitLen (include/zm.h). *)
From Verif Require Import Base Prim Loop Vuint Dbl.

(** VuintT::bitLen (include/zm.h:526-537): 1 + (biased - 1024 + 1) + 64 * (size - 1). *)
Definition vbitLen (x : vuint) : res Z :=
  if visZero x then Ok 0 else
  let v := last x 0 in
  let! t := of_u64 v in
  Ok (expo_len t + (Z.of_nat (length x) - 1) * 64).

(** VuintT::GetApp (include/zm.h:862-892), 64-bit units.  With a zero top unit
    the shift amount is out of range (undefined). *)
Definition getApp (x : list Z) (up : bool) : res dbl :=
  let xn := length x in
  let H := nth (xn - 1) x 0 in
  if (Nat.ltb xn 2) || (H =? 0) then UB else
  let! d0 := of_u64 H in
  let len := expo_len d0 in
  let! t :=
    if len <? 53 then
      let L := nth (xn - 2) x 0 in
      Ok (or_frac d0 (Z.shiftr L (len + 11)))
    else of_u64 (Z.ldiff H (2 ^ (len - 53) - 1)) in
  if up then fadd t (of_expo (len + 1022 - 52 + 1)) else Ok t.

(** while (xn >= yn && x[xn - 1] == 0) xn--; (include/zm.h:951-953).  [rx] is the
    number in reverse order (most significant unit first). *)
Fixpoint drop_top (rx : list Z) (yn : nat) : list Z :=
  match rx with
  | [] => []
  | d :: rx' => if (Nat.leb yn (length rx)) && (d =? 0) then drop_top rx' yn else rx
  end.

(** q[i] += qt *)
Definition upd_add (q : list Z) (i : nat) (qt : Z) : list Z :=
  firstn i q ++ match skipn i q with
                | [] => []
                | d :: t => (d + qt) mod B :: t
                end.

(** One turn of the loop of div(T *q, T *x, ...) (include/zm.h:935-954).
    State: the xn low units of x, and q.  The borrow of subN is ignored. *)
Definition div_body (y : list Z) (yt : dbl) (s : list Z * list Z)
  : res (step (list Z * list Z) (list Z * list Z)) :=
  let '(x, q) := s in
  let xn := length x in
  let yn := length y in
  match prim_compare x y with
  | Lt => Ok (Done (x, q))
  | _ =>
    let! xt := getApp x false in
    let less := match prim_compare (skipn (xn - yn) x) y with Lt => true | _ => false end in
    let xt := if less then fmul2_64 xt else xt in
    let len := if less then S yn else yn in
    if Nat.ltb xn len then UB else
    let! d := fdiv xt yt in
    let! qt := to_u64 d in
    let qt := if qt =? 0 then 1 else qt in
    let t := in_mul y qt in
    let '(hi, _) := in_subN (skipn (xn - len) x) (firstn len t) in
    let x' := firstn (xn - len) x ++ hi in
    let q' := upd_add q (xn - len) qt in
    Ok (Next (rev (drop_top (rev x') yn), q'))
  end.

(** static div(T *q, T *x, xn, y, yn) (include/zm.h:926-955): returns (q, x) with
    x-yn+1 and xn units.  Buffer t has yn + 1 units. *)
Definition raw_div (x y : list Z) : res (list Z * list Z) :=
  let! _ := alloc (S (length y)) in
  let q := repeat 0 (length x - length y + 1) in
  let! yt := getApp y true in
  let! (x', q') := loopR 600 (div_body y yt) (x, q) in
  Ok (q', x' ++ repeat 0 (length x - length x')).

(** VuintT::div(q, r, x, y) (include/zm.h:661-727) with q != 0: [None] for the
    return value false (y == 0). *)
Definition vdiv (x y : vuint) : res (option (vuint * vuint)) :=
  match y with
  | [y0] =>
      if y0 =? 0 then Ok None
      else let! (q, r) := vdiv1 x y0 in Ok (Some (q, vset r))
  | _ =>
      match prim_compare x y with
      | Lt => Ok (Some (vset 0, x))
      | Eq => Ok (Some (vset 1, vset 0))
      | Gt =>
          let! _ := alloc (length x - length y + 1) in
          let! (q, r) := raw_div x y in
          Ok (Some (trim q, trim r))
      end
  end.

(** VuintT::div(0, r, x, y): only the remainder (include/zm.h:661-727, 642-656). *)
Definition vmod (x y : vuint) : res (option vuint) :=
  match y with
  | [y0] =>
      if y0 =? 0 then Ok None
      else Ok (Some (vset (in_mod x y0)))
  | _ =>
      match prim_compare x y with
      | Lt => Ok (Some x)
      | Eq => Ok (Some (vset 0))
      | Gt => let! (_, r) := raw_div x y in Ok (Some (trim r))
      end
  end.
