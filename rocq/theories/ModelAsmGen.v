(** asm/asm.go: the program that generates primitivefuncs_amd64.s with the avo library.
    - A function of the generator is a list of instructions with virtual registers; [v n] is the physical register that avo's
      allocator gives to the n-th call of GP64() in that function.  [v] is a parameter: the allocation itself is not modelled.
    - Load and Store are MOVQ from and to the argument area; Param, Return and Index follow Go's layout of the declared signature.
    - Comments and documentation lines are dropped. *)
Require Import ZArith List.
From Verif Require Import ModelAsm.
Import ListNotations.
Open Scope Z_scope.

(** asm.go:44 *)
Definition gen_QFieldModulus : list Z := [0xb9feffffffffaaab; 0x1eabfffeb153ffff; 0x6730d2a0f6b0f624; 0x64774b84f38512bf; 0x4b1ba7b6434bacd7; 0x1a0111ea397fe69a].
(** asm.go:46 *)
Definition gen_montInvFQ : Z := 0x89f3fffcfffcfffd.
(** asm.go:12-23 and 26-37 *)
Definition muladdc (loRef a b carry : operand) : list instr :=
  [MOVQ a (Reg AX); MULQ b; ADDQ loRef (Reg AX); ADCQ (Imm 0) (Reg DX); ADDQ carry (Reg AX); ADCQ (Imm 0) (Reg DX); MOVQ (Reg DX) carry; MOVQ (Reg AX) loRef].
Definition idx (i : nat) : Z := 8 * Z.of_nat i.
(** for i := 0; i < n; i++ { body } *)
Definition loop (n : nat) (body : nat -> list instr) : list instr := flat_map body (seq 0 n).

Section Gen.
Context (v : nat -> reg).
Let V n := Reg (v n).

(** asm.go:58-77: a 0, b 8, c 16, carry 24, results 32 and 40 *)
Definition gen_MACWithCarry : list instr :=
  let b := V 0 in let c := Reg AX in let a := V 1 in let carry := V 2 in
  [MOVQ (FPm 8) b; MOVQ (FPm 16) c; MULQ b; MOVQ (FPm 0) a; ADDQ a c; ADCQ (Imm 0) (Reg DX); MOVQ (FPm 24) carry; ADDQ carry c; ADCQ (Imm 0) (Reg DX);
   MOVQ c (FPm 32); MOVQ (Reg DX) (FPm 40); RET].
(** asm.go:79-100: a 0, b 8, borrow 16, results 24 and 32 *)
Definition gen_SubWithBorrow : list instr :=
  let a := V 0 in let b := V 1 in let newBorrow1 := V 2 in let borrow := V 3 in let newBorrow2 := V 4 in
  [MOVQ (FPm 0) a; MOVQ (FPm 8) b; XORQ newBorrow1 newBorrow1; SUBQ b a; SETCS (v 2); MOVQ (FPm 16) borrow; XORQ newBorrow2 newBorrow2; SUBQ borrow a; SETCS (v 4);
   ORQ newBorrow1 newBorrow2; MOVQ a (FPm 24); MOVQ newBorrow2 (FPm 32); RET].
(** asm.go:102-120: a 0, b 8, carry 16, results 24 and 32 *)
Definition gen_AddWithCarry : list instr :=
  let a := V 0 in let b := V 1 in let carry := V 2 in let newCarry := V 3 in
  [MOVQ (FPm 0) a; MOVQ (FPm 8) b; MOVQ (FPm 16) carry; XORQ newCarry newCarry; ADDQ b a; ADCQ (Imm 0) newCarry; ADDQ carry a; ADCQ (Imm 0) newCarry;
   MOVQ a (FPm 24); MOVQ newCarry (FPm 32); RET].
(** asm.go:150-188: a 0, b 48, hi and lo at the two results; registers[i] is V i, the carry of round i is V (12 + i).
    registersUsed[i + j] is false exactly in round 0 *)
Definition gen_MultiplyFQRepr (lo hi : Z) : list instr :=
  loop 6 (fun i => let carry := V (12 + i) in
    XORQ carry carry ::
    loop 6 (fun j => [MOVQ (FPm (0 + idx i)) (Reg AX); MOVQ (FPm (48 + idx j)) (Reg BX)] ++
      (if Nat.eqb i 0 then [XORQ (V (i + j)) (V (i + j))] else []) ++
      muladdc (V (i + j)) (Reg AX) (Reg BX) carry) ++
    [MOVQ carry (V (i + 6))]) ++
  loop 6 (fun i => [MOVQ (V i) (FPm (lo + idx i))]) ++
  loop 6 (fun i => [MOVQ (V (i + 6)) (FPm (hi + idx i))]) ++ [RET].
(** asm.go:190-252.  GP64() in the order tempReg, carryOver, newCarry, lastReg, k, carry, regValue for each (i,j), tempReg *)
Definition gen_MontReduce (lo hi out : Z) : list instr :=
  let r i := if Nat.leb 6 i then FPm (hi + idx (i - 6)) else FPm (lo + idx i) in
  let carryOver := V 1 in let newCarry := V 2 in let lastReg := V 3 in let k := V 4 in let carry := V 5 in
  loop 12 (fun i => [MOVQ (r i) (V 0); MOVQ (V 0) (SPm (idx i))]) ++
  [XORQ carryOver carryOver] ++
  loop 6 (fun i =>
    [MOVQ (Imm gen_montInvFQ) (Reg AX); MOVQ (SPm (idx i)) k; MULQ k; MOVQ (Reg AX) k; XORQ carry carry] ++
    loop 6 (fun j => let regValue := V (6 + 6 * i + j) in
      MOVQ (SPm (idx (i + j))) regValue :: muladdc regValue (Imm (nth j gen_QFieldModulus 0)) k carry ++
      (if Nat.eqb j 0 then [] else [MOVQ regValue (SPm (idx (i + j)))])) ++
    [XORQ newCarry newCarry; MOVQ (SPm (idx (i + 6))) lastReg; ADDQ carry lastReg; ADCQ (Imm 0) newCarry; ADDQ carryOver lastReg; ADCQ (Imm 0) newCarry;
     MOVQ newCarry carryOver; MOVQ lastReg (SPm (idx (i + 6)))]) ++
  loop 6 (fun i => [MOVQ (SPm (idx (i + 6))) (V 42); MOVQ (V 42) (FPm (out + idx i))]) ++ [RET].
(** asm.go:254-273 and 275-294: aRegs[i] is V (2 i), bRegs[i] is V (2 i + 1) *)
Definition gen_AddNoCarry : list instr :=
  loop 6 (fun i => [MOVQ (FPm (0 + idx i)) (V (2 * i)); MOVQ (FPm (48 + idx i)) (V (2 * i + 1))]) ++
  [ADDQ (V 0) (V 1)] ++ flat_map (fun i => [ADCQ (V (2 * i)) (V (2 * i + 1))]) (seq 1 5) ++
  loop 6 (fun i => [MOVQ (V (2 * i + 1)) (FPm (96 + idx i))]) ++ [RET].
Definition gen_SubNoBorrow : list instr :=
  loop 6 (fun i => [MOVQ (FPm (0 + idx i)) (V (2 * i)); MOVQ (FPm (48 + idx i)) (V (2 * i + 1))]) ++
  [SUBQ (V 1) (V 0)] ++ flat_map (fun i => [SBBQ (V (2 * i + 1)) (V (2 * i))]) (seq 1 5) ++
  loop 6 (fun i => [MOVQ (V (2 * i)) (FPm (96 + idx i))]) ++ [RET].
End Gen.
