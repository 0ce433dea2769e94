(** A small interpreter for the amd64 instructions used by primitivefuncs_amd64.s (Go assembler syntax: source operand first).
    - Registers, frame slots and argument slots hold 64-bit words (as integers in [0, 2^64)).
    - [fp]: the words of the argument and result area of the caller, addressed name+off(FP) with off a byte offset.
      [sp]: the words of the function's own frame, addressed off(SP).  The two areas do not overlap.
    - An access outside the area or not at a multiple of 8, and reading the carry flag while it is undefined, is an error ([None]).
    - Only the carry flag is modelled: no instruction used here reads another flag.
    - The function prologue and epilogue that the Go assembler adds are not modelled. *)
Require Import ZArith Lia Bool List.
From Verif Require Import Words.
Import ListNotations.
Open Scope Z_scope.

Inductive reg := AX | BX | CX | DX | BP | SI | DI | R8 | R9 | R10 | R11 | R12 | R13 | R14 | R15.
Inductive operand := Reg (r : reg) | Imm (z : Z) | FPm (off : Z) | SPm (off : Z).
Inductive instr :=
| MOVQ (src dst : operand) | ADDQ (src dst : operand) | ADCQ (src dst : operand) | SUBQ (src dst : operand) | SBBQ (src dst : operand)
| MULQ (src : operand) | XORQ (src dst : operand) | ORQ (src dst : operand) | SETCS (r : reg) | RET.
Record func := mkFunc { f_frame : Z; f_args : Z; f_body : list instr }.

Record regs := mkRegs { rAX : Z; rBX : Z; rCX : Z; rDX : Z; rBP : Z; rSI : Z; rDI : Z; rR8 : Z; rR9 : Z; rR10 : Z; rR11 : Z; rR12 : Z; rR13 : Z; rR14 : Z; rR15 : Z }.
Record state := mkSt { rg : regs; cf : option bool; fp : list Z; sp : list Z }.

Definition getr (r : reg) (g : regs) : Z :=
  match r with AX => rAX g | BX => rBX g | CX => rCX g | DX => rDX g | BP => rBP g | SI => rSI g | DI => rDI g | R8 => rR8 g | R9 => rR9 g
  | R10 => rR10 g | R11 => rR11 g | R12 => rR12 g | R13 => rR13 g | R14 => rR14 g | R15 => rR15 g end.
Definition setr (r : reg) (v : Z) (g : regs) : regs :=
  let '(mkRegs a b c d e f h i j k l m n o p) := g in
  match r with
  | AX => mkRegs v b c d e f h i j k l m n o p | BX => mkRegs a v c d e f h i j k l m n o p | CX => mkRegs a b v d e f h i j k l m n o p
  | DX => mkRegs a b c v e f h i j k l m n o p | BP => mkRegs a b c d v f h i j k l m n o p | SI => mkRegs a b c d e v h i j k l m n o p
  | DI => mkRegs a b c d e f v i j k l m n o p | R8 => mkRegs a b c d e f h v j k l m n o p | R9 => mkRegs a b c d e f h i v k l m n o p
  | R10 => mkRegs a b c d e f h i j v l m n o p | R11 => mkRegs a b c d e f h i j k v m n o p | R12 => mkRegs a b c d e f h i j k l v n o p
  | R13 => mkRegs a b c d e f h i j k l m v o p | R14 => mkRegs a b c d e f h i j k l m n v p | R15 => mkRegs a b c d e f h i j k l m n o v end.

(** word slot at byte offset [off] of an area *)
Definition slot (off : Z) : option nat := if (off mod 8 =? 0) && (0 <=? off) then Some (Z.to_nat (off / 8)) else None.
Fixpoint put (n : nat) (v : Z) (l : list Z) : option (list Z) :=
  match l, n with
  | [], _ => None
  | _ :: t, O => Some (v :: t)
  | x :: t, S k => match put k v t with Some t' => Some (x :: t') | None => None end
  end.
Definition load (off : Z) (l : list Z) : option Z := match slot off with Some n => nth_error l n | None => None end.
Definition store (off v : Z) (l : list Z) : option (list Z) := match slot off with Some n => put n v l | None => None end.

Definition rd (o : operand) (s : state) : option Z :=
  match o with Reg r => Some (getr r (rg s)) | Imm z => Some (wlo z) | FPm off => load off (fp s) | SPm off => load off (sp s) end.
Definition wr (o : operand) (v : Z) (s : state) : option state :=
  match o with
  | Reg r => Some (mkSt (setr r v (rg s)) (cf s) (fp s) (sp s))
  | Imm _ => None
  | FPm off => match store off v (fp s) with Some l => Some (mkSt (rg s) (cf s) l (sp s)) | None => None end
  | SPm off => match store off v (sp s) with Some l => Some (mkSt (rg s) (cf s) (fp s) l) | None => None end
  end.
Definition setcf (b : bool) (s : state) : state := mkSt (rg s) (Some b) (fp s) (sp s).

(** destination := destination + source + carry, carry flag := carry out; likewise for subtraction *)
Definition add_op (c : bool) (src dst : operand) (s : state) : option state :=
  match rd src s, rd dst s with
  | Some x, Some y => wr dst (wlo (y + x + Z.b2z c)) (setcf (W <=? y + x + Z.b2z c) s)
  | _, _ => None
  end.
Definition sub_op (c : bool) (src dst : operand) (s : state) : option state :=
  match rd src s, rd dst s with
  | Some x, Some y => wr dst (wlo (y - x - Z.b2z c)) (setcf (y - x - Z.b2z c <? 0) s)
  | _, _ => None
  end.
Definition log_op (f : Z -> Z -> Z) (src dst : operand) (s : state) : option state :=
  match rd src s, rd dst s with Some x, Some y => wr dst (f y x) (setcf false s) | _, _ => None end.

Definition step (i : instr) (s : state) : option state :=
  match i with
  | MOVQ src dst => match rd src s with Some v => wr dst v s | None => None end
  | ADDQ src dst => add_op false src dst s
  | ADCQ src dst => match cf s with Some c => add_op c src dst s | None => None end
  | SUBQ src dst => sub_op false src dst s
  | SBBQ src dst => match cf s with Some c => sub_op c src dst s | None => None end
  | MULQ src => match rd src s with
      | Some x => let p := rAX (rg s) * x in Some (mkSt (setr AX (wlo p) (setr DX (whi p) (rg s))) (Some (negb (whi p =? 0))) (fp s) (sp s))
      | None => None end
  | XORQ src dst => log_op Z.lxor src dst s
  | ORQ src dst => log_op Z.lor src dst s
  | SETCS r => match cf s with
      | Some c => let v := getr r (rg s) in Some (mkSt (setr r (v - v mod 256 + Z.b2z c) (rg s)) (cf s) (fp s) (sp s))
      | None => None end
  | RET => Some s
  end.
(** [RET] ends the function; falling off the end is an error *)
Fixpoint exec (l : list instr) (s : state) : option state :=
  match l with
  | [] => None
  | RET :: _ => Some s
  | i :: t => match step i s with Some s' => exec t s' | None => None end
  end.
(** the two areas have the sizes announced in the TEXT line *)
Definition entry (f : func) (s : state) : Prop := Z.of_nat (length (fp s)) * 8 = f_args f /\ Z.of_nat (length (sp s)) * 8 = f_frame f.
Definition wfregs (g : regs) : Prop := forall r, isW (getr r g).
Definition wfst (s : state) : Prop := wfregs (rg s) /\ Forall isW (fp s) /\ Forall isW (sp s).
Definition run (f : func) (s : state) : option state := exec (f_body f) s.
