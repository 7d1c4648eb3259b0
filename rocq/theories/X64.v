(** The x86-64 instructions that the run-time code generators of the library emit
    (src/zm.cpp:197-560, src/zm2.cpp:432-3520), as a machine with registers, flags and memory.
    Simplifications: memory is a partial map from byte addresses to 64-bit words whose domain
    is meant to consist of multiples of 8, so that different addresses do not overlap; an
    access outside the domain is a fault.  Code is a list of instructions, the address of an
    instruction is its position, labels take a position.  Of the flags only CF, ZF and the
    signed order (SF <> OF) are kept; [None] is a flag the manual leaves undefined, or whose
    value the code never needs; a jump on it is a fault.  Of an xmm register the low 64 bits
    are kept. *)
From Coq Require Import ZArith List Bool.
From Verif Require Import Base.
Import ListNotations.
Local Open Scope Z_scope.

Inductive reg := RAX | RBX | RCX | RDX | RSI | RDI | RBP | RSP | R8 | R9 | R10 | R11 | R12 | R13 | R14 | R15.
Record regs := mkR { rax : Z; rbx : Z; rcx : Z; rdx : Z; rsi : Z; rdi : Z; rbp : Z; rsp : Z;
  r8 : Z; r9 : Z; r10 : Z; r11 : Z; r12 : Z; r13 : Z; r14 : Z; r15 : Z }.
Definition getr (g : regs) (r : reg) : Z :=
  match r with
  | RAX => rax g | RBX => rbx g | RCX => rcx g | RDX => rdx g | RSI => rsi g | RDI => rdi g | RBP => rbp g | RSP => rsp g
  | R8 => r8 g | R9 => r9 g | R10 => r10 g | R11 => r11 g | R12 => r12 g | R13 => r13 g | R14 => r14 g | R15 => r15 g
  end.
Definition setr (g : regs) (r : reg) (v : Z) : regs :=
  let '(mkR a b c d si di bp sp g8 g9 g10 g11 g12 g13 g14 g15) := g in
  match r with
  | RAX => mkR v b c d si di bp sp g8 g9 g10 g11 g12 g13 g14 g15
  | RBX => mkR a v c d si di bp sp g8 g9 g10 g11 g12 g13 g14 g15
  | RCX => mkR a b v d si di bp sp g8 g9 g10 g11 g12 g13 g14 g15
  | RDX => mkR a b c v si di bp sp g8 g9 g10 g11 g12 g13 g14 g15
  | RSI => mkR a b c d v di bp sp g8 g9 g10 g11 g12 g13 g14 g15
  | RDI => mkR a b c d si v bp sp g8 g9 g10 g11 g12 g13 g14 g15
  | RBP => mkR a b c d si di v sp g8 g9 g10 g11 g12 g13 g14 g15
  | RSP => mkR a b c d si di bp v g8 g9 g10 g11 g12 g13 g14 g15
  | R8 => mkR a b c d si di bp sp v g9 g10 g11 g12 g13 g14 g15
  | R9 => mkR a b c d si di bp sp g8 v g10 g11 g12 g13 g14 g15
  | R10 => mkR a b c d si di bp sp g8 g9 v g11 g12 g13 g14 g15
  | R11 => mkR a b c d si di bp sp g8 g9 g10 v g12 g13 g14 g15
  | R12 => mkR a b c d si di bp sp g8 g9 g10 g11 v g13 g14 g15
  | R13 => mkR a b c d si di bp sp g8 g9 g10 g11 g12 v g14 g15
  | R14 => mkR a b c d si di bp sp g8 g9 g10 g11 g12 g13 v g15
  | R15 => mkR a b c d si di bp sp g8 g9 g10 g11 g12 g13 g14 v
  end.

Definition reqb (a b : reg) : bool :=
  match a, b with
  | RAX, RAX | RBX, RBX | RCX, RCX | RDX, RDX | RSI, RSI | RDI, RDI | RBP, RBP | RSP, RSP
  | R8, R8 | R9, R9 | R10, R10 | R11, R11 | R12, R12 | R13, R13 | R14, R14 | R15, R15 => true
  | _, _ => false
  end.

(** xmm0 .. xmm5 *)
Record xregs := mkX { xv0 : Z; xv1 : Z; xv2 : Z; xv3 : Z; xv4 : Z; xv5 : Z }.
Inductive xreg := X0 | X1 | X2 | X3 | X4 | X5.
Definition getx (g : xregs) (r : xreg) : Z :=
  match r with X0 => xv0 g | X1 => xv1 g | X2 => xv2 g | X3 => xv3 g | X4 => xv4 g | X5 => xv5 g end.
Definition setx (g : xregs) (r : xreg) (v : Z) : xregs :=
  let '(mkX a b c d e f) := g in
  match r with
  | X0 => mkX v b c d e f | X1 => mkX a v c d e f | X2 => mkX a b v d e f
  | X3 => mkX a b c v e f | X4 => mkX a b c d v f | X5 => mkX a b c d e v
  end.

Definition memory := Z -> option Z.
Definition mset (m : memory) (a v : Z) : memory := fun b => if b =? a then Some v else m b.

(** CF, ZF, SF <> OF *)
Record flags := mkF { cf : option bool; zf : option bool; lf : option bool }.
Definition noF : flags := mkF None None None.
Record state := mkSt { rg : regs; xm : xregs; fl : flags; mem : memory }.

(** [base + index * scale + displacement] *)
Inductive addr := Ad (b : reg) (d : Z) | AdI (b i : reg) (s d : Z).
(** adding to the displacement *)
Definition plus (m : addr) (k : Z) : addr :=
  match m with Ad b d => Ad b (d + k) | AdI b i s d => AdI b i s (d + k) end.
Inductive opd := R (r : reg) | M (a : addr) | Im (v : Z).
Inductive cond := CC | CNC | CZ | CNZ | CGE.
Inductive instr :=
| Mov (d s : opd) | Lea (d : reg) (a : addr)
| Add (d s : opd) | Adc (d s : opd) | Sub (d s : opd) | Sbb (d s : opd) | Cmp (d s : opd) | Test (d s : opd)
| And (d s : opd) | Or (d s : opd) | Xor (d s : opd)
| Neg (d : reg) | Inc (d : reg) | Dec (d : reg)
| Shr (d : reg) (n : Z) | Shl (d : reg) (n : Z) | Shrd (d s : reg) (n : Z) | Shld (d s : reg) (n : Z)
| Mul (s : opd) | Mulx (hi lo : reg) (s : opd) | Div (s : reg)
| SetcAl | Cmovc (d : reg) (s : opd)
| MovqX (d : xreg) (s : reg) | MovqR (d : reg) (s : xreg) | Pxor (d : xreg) | Paddd (d s : xreg)
| Lab (l : Z) | Jcc (c : cond) (l : Z) | Jmp (l : Z) | Call (l : Z) | Ret.

Definition ea (g : regs) (a : addr) : Z :=
  match a with
  | Ad b d => (getr g b + d) mod B
  | AdI b i s d => (getr g b + getr g i * s + d) mod B
  end.
(** reading an operand; immediates are taken modulo 2^64 (they are sign extended) *)
Definition rd (s : state) (o : opd) : option Z :=
  match o with
  | R r => Some (getr (rg s) r)
  | M a => mem s (ea (rg s) a)
  | Im v => Some (v mod B)
  end.
(** writing an operand, leaving the flags [f] *)
Definition wr (s : state) (o : opd) (v : Z) (f : flags) : option state :=
  match o with
  | R r => Some (mkSt (setr (rg s) r v) (xm s) f (mem s))
  | M a => match mem s (ea (rg s) a) with
           | Some _ => Some (mkSt (rg s) (xm s) f (mset (mem s) (ea (rg s) a) v))
           | None => None
           end
  | Im _ => None
  end.
Definition signed (v : Z) : Z := if v <? 2 ^ 63 then v else v - B.
Definition fadd (v : Z) : flags := mkF (Some (B <=? v)) (Some (v mod B =? 0)) None.
Definition fsub (a b c : Z) : flags :=
  mkF (Some (a - b - c <? 0)) (Some ((a - b - c) mod B =? 0)) (Some (signed a <? signed b + c)).
Definition flog (v : Z) : flags := mkF (Some false) (Some (v =? 0)) (Some (signed v <? 0)).
(** the 64-bit word as two 32-bit lanes, added lane by lane *)
Definition lanes (a b : Z) : Z :=
  (a mod 2 ^ 32 + b mod 2 ^ 32) mod 2 ^ 32 + 2 ^ 32 * ((a / 2 ^ 32 + b / 2 ^ 32) mod 2 ^ 32).

Definition bin (s : state) (d o : opd) (k : Z -> Z -> option state) : option state :=
  match rd s d, rd s o with Some a, Some b => k a b | _, _ => None end.
Definition withc (s : state) (k : Z -> option state) : option state :=
  match cf (fl s) with Some c => k (Z.b2z c) | None => None end.
(** one instruction that is not a jump *)
Definition ex1 (i : instr) (s : state) : option state :=
  match i with
  | Mov d o => match rd s o with Some v => wr s d v (fl s) | None => None end
  | Lea d a => wr s (R d) (ea (rg s) a) (fl s)
  | Add d o => bin s d o (fun a b => wr s d ((a + b) mod B) (fadd (a + b)))
  | Adc d o => withc s (fun c => bin s d o (fun a b => wr s d ((a + b + c) mod B) (fadd (a + b + c))))
  | Sub d o => bin s d o (fun a b => wr s d ((a - b) mod B) (fsub a b 0))
  | Sbb d o => withc s (fun c => bin s d o (fun a b => wr s d ((a - b - c) mod B) (fsub a b c)))
  | Cmp d o => bin s d o (fun a b => Some (mkSt (rg s) (xm s) (fsub a b 0) (mem s)))
  | Test d o => bin s d o (fun a b => Some (mkSt (rg s) (xm s) (flog (Z.land a b)) (mem s)))
  | And d o => bin s d o (fun a b => wr s d (Z.land a b) (flog (Z.land a b)))
  | Or d o => bin s d o (fun a b => wr s d (Z.lor a b) (flog (Z.lor a b)))
  | Xor d o => bin s d o (fun a b => wr s d (Z.lxor a b) (flog (Z.lxor a b)))
  | Neg d => let a := getr (rg s) d in wr s (R d) ((- a) mod B) (mkF (Some (negb (a =? 0))) (Some (a =? 0)) None)
  | Inc d => let v := (getr (rg s) d + 1) mod B in wr s (R d) v (mkF (cf (fl s)) (Some (v =? 0)) None)
  | Dec d => let v := (getr (rg s) d - 1) mod B in wr s (R d) v (mkF (cf (fl s)) (Some (v =? 0)) None)
  | Shr d n => wr s (R d) (getr (rg s) d / 2 ^ n) noF
  | Shl d n => wr s (R d) ((getr (rg s) d * 2 ^ n) mod B) noF
  | Shrd d o n => wr s (R d) ((getr (rg s) d + B * getr (rg s) o) / 2 ^ n mod B) noF
  | Shld d o n => wr s (R d) ((getr (rg s) o + B * getr (rg s) d) / 2 ^ (64 - n) mod B) noF
  | Mul o => match rd s o with
             | Some b => let v := rax (rg s) * b in
                 Some (mkSt (setr (setr (rg s) RAX (v mod B)) RDX (v / B)) (xm s) noF (mem s))
             | None => None
             end
  | Mulx hi lo o => match rd s o with
             | Some b => let v := rdx (rg s) * b in
                 Some (mkSt (setr (setr (rg s) lo (v mod B)) hi (v / B)) (xm s) (fl s) (mem s))
             | None => None
             end
  | Div o => let v := rdx (rg s) * B + rax (rg s) in let y := getr (rg s) o in
             (* a quotient that does not fit 64 bits is a fault, as is y = 0 *)
             if rdx (rg s) <? y then Some (mkSt (setr (setr (rg s) RAX (v / y)) RDX (v mod y)) (xm s) noF (mem s)) else None
  (* al = CF; the upper 56 bits of rax stay *)
  | SetcAl => withc s (fun c => wr s (R RAX) (rax (rg s) / 256 * 256 + c) (fl s))
  | Cmovc d o => withc s (fun c => match rd s o with
                                   | Some v => wr s (R d) (if c =? 1 then v else getr (rg s) d) (fl s)
                                   | None => None
                                   end)
  | MovqX d o => Some (mkSt (rg s) (setx (xm s) d (getr (rg s) o)) (fl s) (mem s))
  | MovqR d o => wr s (R d) (getx (xm s) o) (fl s)
  | Pxor d => Some (mkSt (rg s) (setx (xm s) d 0) (fl s) (mem s))
  | Paddd d o => Some (mkSt (rg s) (setx (xm s) d (lanes (getx (xm s) d) (getx (xm s) o))) (fl s) (mem s))
  | Lab _ => Some s
  | Jcc _ _ | Jmp _ | Call _ | Ret => None
  end.
Definition holds (c : cond) (f : flags) : option bool :=
  match c with
  | CC => cf f
  | CNC => option_map negb (cf f)
  | CZ => zf f
  | CNZ => option_map negb (zf f)
  | CGE => option_map negb (lf f)
  end.

Definition code := list instr.
Fixpoint fetch (c : code) (pc : Z) : option instr :=
  match c with
  | [] => None
  | i :: c' => if pc =? 0 then Some i else fetch c' (pc - 1)
  end.
Fixpoint find (c : code) (l pc : Z) : option Z :=
  match c with
  | [] => None
  | Lab l' :: c' => if l =? l' then Some pc else find c' l (pc + 1)
  | _ :: c' => find c' l (pc + 1)
  end.
(** [run n c pc s]: at most [n] instructions from position [pc].  Leaving the code (a return
    to an address outside it) ends the run: (address, state). *)
Fixpoint run (n : nat) (c : code) (pc : Z) (s : state) : res (Z * state) :=
  match n with
  | O => Diverge
  | S n' =>
      match fetch c pc with
      | None => Ok (pc, s)
      | Some (Jmp l) => match find c l 0 with Some t => run n' c t s | None => UB end
      | Some (Jcc k l) =>
          match holds k (fl s), find c l 0 with
          | Some true, Some t => run n' c t s
          | Some false, Some _ => run n' c (pc + 1) s
          | _, _ => UB
          end
      | Some (Call l) =>
          let sp := (rsp (rg s) - 8) mod B in
          match mem s sp, find c l 0 with
          | Some _, Some t => run n' c t (mkSt (setr (rg s) RSP sp) (xm s) (fl s) (mset (mem s) sp (pc + 1)))
          | _, _ => UB
          end
      | Some Ret =>
          match mem s (rsp (rg s)) with
          | Some t => run n' c t (mkSt (setr (rg s) RSP ((rsp (rg s) + 8) mod B)) (xm s) (fl s) (mem s))
          | None => UB
          end
      | Some i => match ex1 i s with Some s' => run n' c (pc + 1) s' | None => UB end
      end
  end.
