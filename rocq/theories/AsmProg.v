(** The instructions of primitivefuncs_amd64.s, generated from that file by tools/gen_asm.py (one constructor per line).
    [f_frame] and [f_args] are the two sizes in the TEXT line, in bytes. *)
Require Import ZArith List.
From Verif Require Import ModelAsm.
Import ListNotations.
Open Scope Z_scope.

(** primitivefuncs_amd64.s:4 TEXT MACWithCarry $0-48 *)
Definition asm_MACWithCarry : func := mkFunc 0 48 [
  MOVQ (FPm 8) (Reg CX);
  MOVQ (FPm 16) (Reg AX);
  MULQ (Reg CX);
  MOVQ (FPm 0) (Reg CX);
  ADDQ (Reg CX) (Reg AX);
  ADCQ (Imm 0x00) (Reg DX);
  MOVQ (FPm 24) (Reg CX);
  ADDQ (Reg CX) (Reg AX);
  ADCQ (Imm 0x00) (Reg DX);
  MOVQ (Reg AX) (FPm 32);
  MOVQ (Reg DX) (FPm 40);
  RET].

(** primitivefuncs_amd64.s:29 TEXT SubWithBorrow $0-40 *)
Definition asm_SubWithBorrow : func := mkFunc 0 40 [
  MOVQ (FPm 0) (Reg AX);
  MOVQ (FPm 8) (Reg CX);
  XORQ (Reg DX) (Reg DX);
  SUBQ (Reg CX) (Reg AX);
  SETCS DX;
  MOVQ (FPm 16) (Reg CX);
  XORQ (Reg BX) (Reg BX);
  SUBQ (Reg CX) (Reg AX);
  SETCS BX;
  ORQ (Reg DX) (Reg BX);
  MOVQ (Reg AX) (FPm 24);
  MOVQ (Reg BX) (FPm 32);
  RET].

(** primitivefuncs_amd64.s:55 TEXT AddWithCarry $0-40 *)
Definition asm_AddWithCarry : func := mkFunc 0 40 [
  MOVQ (FPm 0) (Reg AX);
  MOVQ (FPm 8) (Reg CX);
  MOVQ (FPm 16) (Reg DX);
  XORQ (Reg BX) (Reg BX);
  ADDQ (Reg CX) (Reg AX);
  ADCQ (Imm 0x00) (Reg BX);
  ADDQ (Reg DX) (Reg AX);
  ADCQ (Imm 0x00) (Reg BX);
  MOVQ (Reg AX) (FPm 24);
  MOVQ (Reg BX) (FPm 32);
  RET].

(** primitivefuncs_amd64.s:79 TEXT MultiplyFQRepr $0-192 *)
Definition asm_MultiplyFQRepr : func := mkFunc 0 192 [
  XORQ (Reg R10) (Reg R10);
  MOVQ (FPm 0) (Reg AX);
  MOVQ (FPm 48) (Reg BX);
  XORQ (Reg CX) (Reg CX);
  MOVQ (Reg AX) (Reg AX);
  MULQ (Reg BX);
  ADDQ (Reg CX) (Reg AX);
  ADCQ (Imm 0x00) (Reg DX);
  ADDQ (Reg R10) (Reg AX);
  ADCQ (Imm 0x00) (Reg DX);
  MOVQ (Reg DX) (Reg R10);
  MOVQ (Reg AX) (Reg CX);
  MOVQ (FPm 0) (Reg AX);
  MOVQ (FPm 56) (Reg BX);
  XORQ (Reg BP) (Reg BP);
  MOVQ (Reg AX) (Reg AX);
  MULQ (Reg BX);
  ADDQ (Reg BP) (Reg AX);
  ADCQ (Imm 0x00) (Reg DX);
  ADDQ (Reg R10) (Reg AX);
  ADCQ (Imm 0x00) (Reg DX);
  MOVQ (Reg DX) (Reg R10);
  MOVQ (Reg AX) (Reg BP);
  MOVQ (FPm 0) (Reg AX);
  MOVQ (FPm 64) (Reg BX);
  XORQ (Reg SI) (Reg SI);
  MOVQ (Reg AX) (Reg AX);
  MULQ (Reg BX);
  ADDQ (Reg SI) (Reg AX);
  ADCQ (Imm 0x00) (Reg DX);
  ADDQ (Reg R10) (Reg AX);
  ADCQ (Imm 0x00) (Reg DX);
  MOVQ (Reg DX) (Reg R10);
  MOVQ (Reg AX) (Reg SI);
  MOVQ (FPm 0) (Reg AX);
  MOVQ (FPm 72) (Reg BX);
  XORQ (Reg DI) (Reg DI);
  MOVQ (Reg AX) (Reg AX);
  MULQ (Reg BX);
  ADDQ (Reg DI) (Reg AX);
  ADCQ (Imm 0x00) (Reg DX);
  ADDQ (Reg R10) (Reg AX);
  ADCQ (Imm 0x00) (Reg DX);
  MOVQ (Reg DX) (Reg R10);
  MOVQ (Reg AX) (Reg DI);
  MOVQ (FPm 0) (Reg AX);
  MOVQ (FPm 80) (Reg BX);
  XORQ (Reg R8) (Reg R8);
  MOVQ (Reg AX) (Reg AX);
  MULQ (Reg BX);
  ADDQ (Reg R8) (Reg AX);
  ADCQ (Imm 0x00) (Reg DX);
  ADDQ (Reg R10) (Reg AX);
  ADCQ (Imm 0x00) (Reg DX);
  MOVQ (Reg DX) (Reg R10);
  MOVQ (Reg AX) (Reg R8);
  MOVQ (FPm 0) (Reg AX);
  MOVQ (FPm 88) (Reg BX);
  XORQ (Reg R9) (Reg R9);
  MOVQ (Reg AX) (Reg AX);
  MULQ (Reg BX);
  ADDQ (Reg R9) (Reg AX);
  ADCQ (Imm 0x00) (Reg DX);
  ADDQ (Reg R10) (Reg AX);
  ADCQ (Imm 0x00) (Reg DX);
  MOVQ (Reg DX) (Reg R10);
  MOVQ (Reg AX) (Reg R9);
  MOVQ (Reg R10) (Reg R10);
  XORQ (Reg R11) (Reg R11);
  MOVQ (FPm 8) (Reg AX);
  MOVQ (FPm 48) (Reg BX);
  MOVQ (Reg AX) (Reg AX);
  MULQ (Reg BX);
  ADDQ (Reg BP) (Reg AX);
  ADCQ (Imm 0x00) (Reg DX);
  ADDQ (Reg R11) (Reg AX);
  ADCQ (Imm 0x00) (Reg DX);
  MOVQ (Reg DX) (Reg R11);
  MOVQ (Reg AX) (Reg BP);
  MOVQ (FPm 8) (Reg AX);
  MOVQ (FPm 56) (Reg BX);
  MOVQ (Reg AX) (Reg AX);
  MULQ (Reg BX);
  ADDQ (Reg SI) (Reg AX);
  ADCQ (Imm 0x00) (Reg DX);
  ADDQ (Reg R11) (Reg AX);
  ADCQ (Imm 0x00) (Reg DX);
  MOVQ (Reg DX) (Reg R11);
  MOVQ (Reg AX) (Reg SI);
  MOVQ (FPm 8) (Reg AX);
  MOVQ (FPm 64) (Reg BX);
  MOVQ (Reg AX) (Reg AX);
  MULQ (Reg BX);
  ADDQ (Reg DI) (Reg AX);
  ADCQ (Imm 0x00) (Reg DX);
  ADDQ (Reg R11) (Reg AX);
  ADCQ (Imm 0x00) (Reg DX);
  MOVQ (Reg DX) (Reg R11);
  MOVQ (Reg AX) (Reg DI);
  MOVQ (FPm 8) (Reg AX);
  MOVQ (FPm 72) (Reg BX);
  MOVQ (Reg AX) (Reg AX);
  MULQ (Reg BX);
  ADDQ (Reg R8) (Reg AX);
  ADCQ (Imm 0x00) (Reg DX);
  ADDQ (Reg R11) (Reg AX);
  ADCQ (Imm 0x00) (Reg DX);
  MOVQ (Reg DX) (Reg R11);
  MOVQ (Reg AX) (Reg R8);
  MOVQ (FPm 8) (Reg AX);
  MOVQ (FPm 80) (Reg BX);
  MOVQ (Reg AX) (Reg AX);
  MULQ (Reg BX);
  ADDQ (Reg R9) (Reg AX);
  ADCQ (Imm 0x00) (Reg DX);
  ADDQ (Reg R11) (Reg AX);
  ADCQ (Imm 0x00) (Reg DX);
  MOVQ (Reg DX) (Reg R11);
  MOVQ (Reg AX) (Reg R9);
  MOVQ (FPm 8) (Reg AX);
  MOVQ (FPm 88) (Reg BX);
  MOVQ (Reg AX) (Reg AX);
  MULQ (Reg BX);
  ADDQ (Reg R10) (Reg AX);
  ADCQ (Imm 0x00) (Reg DX);
  ADDQ (Reg R11) (Reg AX);
  ADCQ (Imm 0x00) (Reg DX);
  MOVQ (Reg DX) (Reg R11);
  MOVQ (Reg AX) (Reg R10);
  MOVQ (Reg R11) (Reg R11);
  XORQ (Reg R12) (Reg R12);
  MOVQ (FPm 16) (Reg AX);
  MOVQ (FPm 48) (Reg BX);
  MOVQ (Reg AX) (Reg AX);
  MULQ (Reg BX);
  ADDQ (Reg SI) (Reg AX);
  ADCQ (Imm 0x00) (Reg DX);
  ADDQ (Reg R12) (Reg AX);
  ADCQ (Imm 0x00) (Reg DX);
  MOVQ (Reg DX) (Reg R12);
  MOVQ (Reg AX) (Reg SI);
  MOVQ (FPm 16) (Reg AX);
  MOVQ (FPm 56) (Reg BX);
  MOVQ (Reg AX) (Reg AX);
  MULQ (Reg BX);
  ADDQ (Reg DI) (Reg AX);
  ADCQ (Imm 0x00) (Reg DX);
  ADDQ (Reg R12) (Reg AX);
  ADCQ (Imm 0x00) (Reg DX);
  MOVQ (Reg DX) (Reg R12);
  MOVQ (Reg AX) (Reg DI);
  MOVQ (FPm 16) (Reg AX);
  MOVQ (FPm 64) (Reg BX);
  MOVQ (Reg AX) (Reg AX);
  MULQ (Reg BX);
  ADDQ (Reg R8) (Reg AX);
  ADCQ (Imm 0x00) (Reg DX);
  ADDQ (Reg R12) (Reg AX);
  ADCQ (Imm 0x00) (Reg DX);
  MOVQ (Reg DX) (Reg R12);
  MOVQ (Reg AX) (Reg R8);
  MOVQ (FPm 16) (Reg AX);
  MOVQ (FPm 72) (Reg BX);
  MOVQ (Reg AX) (Reg AX);
  MULQ (Reg BX);
  ADDQ (Reg R9) (Reg AX);
  ADCQ (Imm 0x00) (Reg DX);
  ADDQ (Reg R12) (Reg AX);
  ADCQ (Imm 0x00) (Reg DX);
  MOVQ (Reg DX) (Reg R12);
  MOVQ (Reg AX) (Reg R9);
  MOVQ (FPm 16) (Reg AX);
  MOVQ (FPm 80) (Reg BX);
  MOVQ (Reg AX) (Reg AX);
  MULQ (Reg BX);
  ADDQ (Reg R10) (Reg AX);
  ADCQ (Imm 0x00) (Reg DX);
  ADDQ (Reg R12) (Reg AX);
  ADCQ (Imm 0x00) (Reg DX);
  MOVQ (Reg DX) (Reg R12);
  MOVQ (Reg AX) (Reg R10);
  MOVQ (FPm 16) (Reg AX);
  MOVQ (FPm 88) (Reg BX);
  MOVQ (Reg AX) (Reg AX);
  MULQ (Reg BX);
  ADDQ (Reg R11) (Reg AX);
  ADCQ (Imm 0x00) (Reg DX);
  ADDQ (Reg R12) (Reg AX);
  ADCQ (Imm 0x00) (Reg DX);
  MOVQ (Reg DX) (Reg R12);
  MOVQ (Reg AX) (Reg R11);
  MOVQ (Reg R12) (Reg R12);
  XORQ (Reg R13) (Reg R13);
  MOVQ (FPm 24) (Reg AX);
  MOVQ (FPm 48) (Reg BX);
  MOVQ (Reg AX) (Reg AX);
  MULQ (Reg BX);
  ADDQ (Reg DI) (Reg AX);
  ADCQ (Imm 0x00) (Reg DX);
  ADDQ (Reg R13) (Reg AX);
  ADCQ (Imm 0x00) (Reg DX);
  MOVQ (Reg DX) (Reg R13);
  MOVQ (Reg AX) (Reg DI);
  MOVQ (FPm 24) (Reg AX);
  MOVQ (FPm 56) (Reg BX);
  MOVQ (Reg AX) (Reg AX);
  MULQ (Reg BX);
  ADDQ (Reg R8) (Reg AX);
  ADCQ (Imm 0x00) (Reg DX);
  ADDQ (Reg R13) (Reg AX);
  ADCQ (Imm 0x00) (Reg DX);
  MOVQ (Reg DX) (Reg R13);
  MOVQ (Reg AX) (Reg R8);
  MOVQ (FPm 24) (Reg AX);
  MOVQ (FPm 64) (Reg BX);
  MOVQ (Reg AX) (Reg AX);
  MULQ (Reg BX);
  ADDQ (Reg R9) (Reg AX);
  ADCQ (Imm 0x00) (Reg DX);
  ADDQ (Reg R13) (Reg AX);
  ADCQ (Imm 0x00) (Reg DX);
  MOVQ (Reg DX) (Reg R13);
  MOVQ (Reg AX) (Reg R9);
  MOVQ (FPm 24) (Reg AX);
  MOVQ (FPm 72) (Reg BX);
  MOVQ (Reg AX) (Reg AX);
  MULQ (Reg BX);
  ADDQ (Reg R10) (Reg AX);
  ADCQ (Imm 0x00) (Reg DX);
  ADDQ (Reg R13) (Reg AX);
  ADCQ (Imm 0x00) (Reg DX);
  MOVQ (Reg DX) (Reg R13);
  MOVQ (Reg AX) (Reg R10);
  MOVQ (FPm 24) (Reg AX);
  MOVQ (FPm 80) (Reg BX);
  MOVQ (Reg AX) (Reg AX);
  MULQ (Reg BX);
  ADDQ (Reg R11) (Reg AX);
  ADCQ (Imm 0x00) (Reg DX);
  ADDQ (Reg R13) (Reg AX);
  ADCQ (Imm 0x00) (Reg DX);
  MOVQ (Reg DX) (Reg R13);
  MOVQ (Reg AX) (Reg R11);
  MOVQ (FPm 24) (Reg AX);
  MOVQ (FPm 88) (Reg BX);
  MOVQ (Reg AX) (Reg AX);
  MULQ (Reg BX);
  ADDQ (Reg R12) (Reg AX);
  ADCQ (Imm 0x00) (Reg DX);
  ADDQ (Reg R13) (Reg AX);
  ADCQ (Imm 0x00) (Reg DX);
  MOVQ (Reg DX) (Reg R13);
  MOVQ (Reg AX) (Reg R12);
  MOVQ (Reg R13) (Reg R13);
  XORQ (Reg R14) (Reg R14);
  MOVQ (FPm 32) (Reg AX);
  MOVQ (FPm 48) (Reg BX);
  MOVQ (Reg AX) (Reg AX);
  MULQ (Reg BX);
  ADDQ (Reg R8) (Reg AX);
  ADCQ (Imm 0x00) (Reg DX);
  ADDQ (Reg R14) (Reg AX);
  ADCQ (Imm 0x00) (Reg DX);
  MOVQ (Reg DX) (Reg R14);
  MOVQ (Reg AX) (Reg R8);
  MOVQ (FPm 32) (Reg AX);
  MOVQ (FPm 56) (Reg BX);
  MOVQ (Reg AX) (Reg AX);
  MULQ (Reg BX);
  ADDQ (Reg R9) (Reg AX);
  ADCQ (Imm 0x00) (Reg DX);
  ADDQ (Reg R14) (Reg AX);
  ADCQ (Imm 0x00) (Reg DX);
  MOVQ (Reg DX) (Reg R14);
  MOVQ (Reg AX) (Reg R9);
  MOVQ (FPm 32) (Reg AX);
  MOVQ (FPm 64) (Reg BX);
  MOVQ (Reg AX) (Reg AX);
  MULQ (Reg BX);
  ADDQ (Reg R10) (Reg AX);
  ADCQ (Imm 0x00) (Reg DX);
  ADDQ (Reg R14) (Reg AX);
  ADCQ (Imm 0x00) (Reg DX);
  MOVQ (Reg DX) (Reg R14);
  MOVQ (Reg AX) (Reg R10);
  MOVQ (FPm 32) (Reg AX);
  MOVQ (FPm 72) (Reg BX);
  MOVQ (Reg AX) (Reg AX);
  MULQ (Reg BX);
  ADDQ (Reg R11) (Reg AX);
  ADCQ (Imm 0x00) (Reg DX);
  ADDQ (Reg R14) (Reg AX);
  ADCQ (Imm 0x00) (Reg DX);
  MOVQ (Reg DX) (Reg R14);
  MOVQ (Reg AX) (Reg R11);
  MOVQ (FPm 32) (Reg AX);
  MOVQ (FPm 80) (Reg BX);
  MOVQ (Reg AX) (Reg AX);
  MULQ (Reg BX);
  ADDQ (Reg R12) (Reg AX);
  ADCQ (Imm 0x00) (Reg DX);
  ADDQ (Reg R14) (Reg AX);
  ADCQ (Imm 0x00) (Reg DX);
  MOVQ (Reg DX) (Reg R14);
  MOVQ (Reg AX) (Reg R12);
  MOVQ (FPm 32) (Reg AX);
  MOVQ (FPm 88) (Reg BX);
  MOVQ (Reg AX) (Reg AX);
  MULQ (Reg BX);
  ADDQ (Reg R13) (Reg AX);
  ADCQ (Imm 0x00) (Reg DX);
  ADDQ (Reg R14) (Reg AX);
  ADCQ (Imm 0x00) (Reg DX);
  MOVQ (Reg DX) (Reg R14);
  MOVQ (Reg AX) (Reg R13);
  MOVQ (Reg R14) (Reg R14);
  XORQ (Reg R15) (Reg R15);
  MOVQ (FPm 40) (Reg AX);
  MOVQ (FPm 48) (Reg BX);
  MOVQ (Reg AX) (Reg AX);
  MULQ (Reg BX);
  ADDQ (Reg R9) (Reg AX);
  ADCQ (Imm 0x00) (Reg DX);
  ADDQ (Reg R15) (Reg AX);
  ADCQ (Imm 0x00) (Reg DX);
  MOVQ (Reg DX) (Reg R15);
  MOVQ (Reg AX) (Reg R9);
  MOVQ (FPm 40) (Reg AX);
  MOVQ (FPm 56) (Reg BX);
  MOVQ (Reg AX) (Reg AX);
  MULQ (Reg BX);
  ADDQ (Reg R10) (Reg AX);
  ADCQ (Imm 0x00) (Reg DX);
  ADDQ (Reg R15) (Reg AX);
  ADCQ (Imm 0x00) (Reg DX);
  MOVQ (Reg DX) (Reg R15);
  MOVQ (Reg AX) (Reg R10);
  MOVQ (FPm 40) (Reg AX);
  MOVQ (FPm 64) (Reg BX);
  MOVQ (Reg AX) (Reg AX);
  MULQ (Reg BX);
  ADDQ (Reg R11) (Reg AX);
  ADCQ (Imm 0x00) (Reg DX);
  ADDQ (Reg R15) (Reg AX);
  ADCQ (Imm 0x00) (Reg DX);
  MOVQ (Reg DX) (Reg R15);
  MOVQ (Reg AX) (Reg R11);
  MOVQ (FPm 40) (Reg AX);
  MOVQ (FPm 72) (Reg BX);
  MOVQ (Reg AX) (Reg AX);
  MULQ (Reg BX);
  ADDQ (Reg R12) (Reg AX);
  ADCQ (Imm 0x00) (Reg DX);
  ADDQ (Reg R15) (Reg AX);
  ADCQ (Imm 0x00) (Reg DX);
  MOVQ (Reg DX) (Reg R15);
  MOVQ (Reg AX) (Reg R12);
  MOVQ (FPm 40) (Reg AX);
  MOVQ (FPm 80) (Reg BX);
  MOVQ (Reg AX) (Reg AX);
  MULQ (Reg BX);
  ADDQ (Reg R13) (Reg AX);
  ADCQ (Imm 0x00) (Reg DX);
  ADDQ (Reg R15) (Reg AX);
  ADCQ (Imm 0x00) (Reg DX);
  MOVQ (Reg DX) (Reg R15);
  MOVQ (Reg AX) (Reg R13);
  MOVQ (FPm 40) (Reg AX);
  MOVQ (FPm 88) (Reg BX);
  MOVQ (Reg AX) (Reg AX);
  MULQ (Reg BX);
  ADDQ (Reg R14) (Reg AX);
  ADCQ (Imm 0x00) (Reg DX);
  ADDQ (Reg R15) (Reg AX);
  ADCQ (Imm 0x00) (Reg DX);
  MOVQ (Reg DX) (Reg R15);
  MOVQ (Reg AX) (Reg R14);
  MOVQ (Reg R15) (Reg AX);
  MOVQ (Reg CX) (FPm 144);
  MOVQ (Reg BP) (FPm 152);
  MOVQ (Reg SI) (FPm 160);
  MOVQ (Reg DI) (FPm 168);
  MOVQ (Reg R8) (FPm 176);
  MOVQ (Reg R9) (FPm 184);
  MOVQ (Reg R10) (FPm 96);
  MOVQ (Reg R11) (FPm 104);
  MOVQ (Reg R12) (FPm 112);
  MOVQ (Reg R13) (FPm 120);
  MOVQ (Reg R14) (FPm 128);
  MOVQ (Reg AX) (FPm 136);
  RET].

(** primitivefuncs_amd64.s:640 TEXT MontReduce $96-144 *)
Definition asm_MontReduce : func := mkFunc 96 144 [
  MOVQ (FPm 48) (Reg AX);
  MOVQ (Reg AX) (SPm 0);
  MOVQ (FPm 56) (Reg AX);
  MOVQ (Reg AX) (SPm 8);
  MOVQ (FPm 64) (Reg AX);
  MOVQ (Reg AX) (SPm 16);
  MOVQ (FPm 72) (Reg AX);
  MOVQ (Reg AX) (SPm 24);
  MOVQ (FPm 80) (Reg AX);
  MOVQ (Reg AX) (SPm 32);
  MOVQ (FPm 88) (Reg AX);
  MOVQ (Reg AX) (SPm 40);
  MOVQ (FPm 0) (Reg AX);
  MOVQ (Reg AX) (SPm 48);
  MOVQ (FPm 8) (Reg AX);
  MOVQ (Reg AX) (SPm 56);
  MOVQ (FPm 16) (Reg AX);
  MOVQ (Reg AX) (SPm 64);
  MOVQ (FPm 24) (Reg AX);
  MOVQ (Reg AX) (SPm 72);
  MOVQ (FPm 32) (Reg AX);
  MOVQ (Reg AX) (SPm 80);
  MOVQ (FPm 40) (Reg AX);
  MOVQ (Reg AX) (SPm 88);
  XORQ (Reg CX) (Reg CX);
  MOVQ (Imm 0x89f3fffcfffcfffd) (Reg AX);
  MOVQ (SPm 0) (Reg BP);
  MULQ (Reg BP);
  MOVQ (Reg AX) (Reg BP);
  XORQ (Reg SI) (Reg SI);
  MOVQ (SPm 0) (Reg DI);
  MOVQ (Imm 0xb9feffffffffaaab) (Reg AX);
  MULQ (Reg BP);
  ADDQ (Reg DI) (Reg AX);
  ADCQ (Imm 0x00) (Reg DX);
  ADDQ (Reg SI) (Reg AX);
  ADCQ (Imm 0x00) (Reg DX);
  MOVQ (Reg DX) (Reg SI);
  MOVQ (Reg AX) (Reg DI);
  MOVQ (SPm 8) (Reg DI);
  MOVQ (Imm 0x1eabfffeb153ffff) (Reg AX);
  MULQ (Reg BP);
  ADDQ (Reg DI) (Reg AX);
  ADCQ (Imm 0x00) (Reg DX);
  ADDQ (Reg SI) (Reg AX);
  ADCQ (Imm 0x00) (Reg DX);
  MOVQ (Reg DX) (Reg SI);
  MOVQ (Reg AX) (Reg DI);
  MOVQ (Reg DI) (SPm 8);
  MOVQ (SPm 16) (Reg DI);
  MOVQ (Imm 0x6730d2a0f6b0f624) (Reg AX);
  MULQ (Reg BP);
  ADDQ (Reg DI) (Reg AX);
  ADCQ (Imm 0x00) (Reg DX);
  ADDQ (Reg SI) (Reg AX);
  ADCQ (Imm 0x00) (Reg DX);
  MOVQ (Reg DX) (Reg SI);
  MOVQ (Reg AX) (Reg DI);
  MOVQ (Reg DI) (SPm 16);
  MOVQ (SPm 24) (Reg DI);
  MOVQ (Imm 0x64774b84f38512bf) (Reg AX);
  MULQ (Reg BP);
  ADDQ (Reg DI) (Reg AX);
  ADCQ (Imm 0x00) (Reg DX);
  ADDQ (Reg SI) (Reg AX);
  ADCQ (Imm 0x00) (Reg DX);
  MOVQ (Reg DX) (Reg SI);
  MOVQ (Reg AX) (Reg DI);
  MOVQ (Reg DI) (SPm 24);
  MOVQ (SPm 32) (Reg DI);
  MOVQ (Imm 0x4b1ba7b6434bacd7) (Reg AX);
  MULQ (Reg BP);
  ADDQ (Reg DI) (Reg AX);
  ADCQ (Imm 0x00) (Reg DX);
  ADDQ (Reg SI) (Reg AX);
  ADCQ (Imm 0x00) (Reg DX);
  MOVQ (Reg DX) (Reg SI);
  MOVQ (Reg AX) (Reg DI);
  MOVQ (Reg DI) (SPm 32);
  MOVQ (SPm 40) (Reg DI);
  MOVQ (Imm 0x1a0111ea397fe69a) (Reg AX);
  MULQ (Reg BP);
  ADDQ (Reg DI) (Reg AX);
  ADCQ (Imm 0x00) (Reg DX);
  ADDQ (Reg SI) (Reg AX);
  ADCQ (Imm 0x00) (Reg DX);
  MOVQ (Reg DX) (Reg SI);
  MOVQ (Reg AX) (Reg DI);
  MOVQ (Reg DI) (SPm 40);
  XORQ (Reg BX) (Reg BX);
  MOVQ (SPm 48) (Reg AX);
  ADDQ (Reg SI) (Reg AX);
  ADCQ (Imm 0x00) (Reg BX);
  ADDQ (Reg CX) (Reg AX);
  ADCQ (Imm 0x00) (Reg BX);
  MOVQ (Reg BX) (Reg CX);
  MOVQ (Reg AX) (SPm 48);
  MOVQ (Imm 0x89f3fffcfffcfffd) (Reg AX);
  MOVQ (SPm 8) (Reg BP);
  MULQ (Reg BP);
  MOVQ (Reg AX) (Reg BP);
  XORQ (Reg SI) (Reg SI);
  MOVQ (SPm 8) (Reg DI);
  MOVQ (Imm 0xb9feffffffffaaab) (Reg AX);
  MULQ (Reg BP);
  ADDQ (Reg DI) (Reg AX);
  ADCQ (Imm 0x00) (Reg DX);
  ADDQ (Reg SI) (Reg AX);
  ADCQ (Imm 0x00) (Reg DX);
  MOVQ (Reg DX) (Reg SI);
  MOVQ (Reg AX) (Reg DI);
  MOVQ (SPm 16) (Reg DI);
  MOVQ (Imm 0x1eabfffeb153ffff) (Reg AX);
  MULQ (Reg BP);
  ADDQ (Reg DI) (Reg AX);
  ADCQ (Imm 0x00) (Reg DX);
  ADDQ (Reg SI) (Reg AX);
  ADCQ (Imm 0x00) (Reg DX);
  MOVQ (Reg DX) (Reg SI);
  MOVQ (Reg AX) (Reg DI);
  MOVQ (Reg DI) (SPm 16);
  MOVQ (SPm 24) (Reg DI);
  MOVQ (Imm 0x6730d2a0f6b0f624) (Reg AX);
  MULQ (Reg BP);
  ADDQ (Reg DI) (Reg AX);
  ADCQ (Imm 0x00) (Reg DX);
  ADDQ (Reg SI) (Reg AX);
  ADCQ (Imm 0x00) (Reg DX);
  MOVQ (Reg DX) (Reg SI);
  MOVQ (Reg AX) (Reg DI);
  MOVQ (Reg DI) (SPm 24);
  MOVQ (SPm 32) (Reg DI);
  MOVQ (Imm 0x64774b84f38512bf) (Reg AX);
  MULQ (Reg BP);
  ADDQ (Reg DI) (Reg AX);
  ADCQ (Imm 0x00) (Reg DX);
  ADDQ (Reg SI) (Reg AX);
  ADCQ (Imm 0x00) (Reg DX);
  MOVQ (Reg DX) (Reg SI);
  MOVQ (Reg AX) (Reg DI);
  MOVQ (Reg DI) (SPm 32);
  MOVQ (SPm 40) (Reg DI);
  MOVQ (Imm 0x4b1ba7b6434bacd7) (Reg AX);
  MULQ (Reg BP);
  ADDQ (Reg DI) (Reg AX);
  ADCQ (Imm 0x00) (Reg DX);
  ADDQ (Reg SI) (Reg AX);
  ADCQ (Imm 0x00) (Reg DX);
  MOVQ (Reg DX) (Reg SI);
  MOVQ (Reg AX) (Reg DI);
  MOVQ (Reg DI) (SPm 40);
  MOVQ (SPm 48) (Reg DI);
  MOVQ (Imm 0x1a0111ea397fe69a) (Reg AX);
  MULQ (Reg BP);
  ADDQ (Reg DI) (Reg AX);
  ADCQ (Imm 0x00) (Reg DX);
  ADDQ (Reg SI) (Reg AX);
  ADCQ (Imm 0x00) (Reg DX);
  MOVQ (Reg DX) (Reg SI);
  MOVQ (Reg AX) (Reg DI);
  MOVQ (Reg DI) (SPm 48);
  XORQ (Reg BX) (Reg BX);
  MOVQ (SPm 56) (Reg AX);
  ADDQ (Reg SI) (Reg AX);
  ADCQ (Imm 0x00) (Reg BX);
  ADDQ (Reg CX) (Reg AX);
  ADCQ (Imm 0x00) (Reg BX);
  MOVQ (Reg BX) (Reg CX);
  MOVQ (Reg AX) (SPm 56);
  MOVQ (Imm 0x89f3fffcfffcfffd) (Reg AX);
  MOVQ (SPm 16) (Reg BP);
  MULQ (Reg BP);
  MOVQ (Reg AX) (Reg BP);
  XORQ (Reg SI) (Reg SI);
  MOVQ (SPm 16) (Reg DI);
  MOVQ (Imm 0xb9feffffffffaaab) (Reg AX);
  MULQ (Reg BP);
  ADDQ (Reg DI) (Reg AX);
  ADCQ (Imm 0x00) (Reg DX);
  ADDQ (Reg SI) (Reg AX);
  ADCQ (Imm 0x00) (Reg DX);
  MOVQ (Reg DX) (Reg SI);
  MOVQ (Reg AX) (Reg DI);
  MOVQ (SPm 24) (Reg DI);
  MOVQ (Imm 0x1eabfffeb153ffff) (Reg AX);
  MULQ (Reg BP);
  ADDQ (Reg DI) (Reg AX);
  ADCQ (Imm 0x00) (Reg DX);
  ADDQ (Reg SI) (Reg AX);
  ADCQ (Imm 0x00) (Reg DX);
  MOVQ (Reg DX) (Reg SI);
  MOVQ (Reg AX) (Reg DI);
  MOVQ (Reg DI) (SPm 24);
  MOVQ (SPm 32) (Reg DI);
  MOVQ (Imm 0x6730d2a0f6b0f624) (Reg AX);
  MULQ (Reg BP);
  ADDQ (Reg DI) (Reg AX);
  ADCQ (Imm 0x00) (Reg DX);
  ADDQ (Reg SI) (Reg AX);
  ADCQ (Imm 0x00) (Reg DX);
  MOVQ (Reg DX) (Reg SI);
  MOVQ (Reg AX) (Reg DI);
  MOVQ (Reg DI) (SPm 32);
  MOVQ (SPm 40) (Reg DI);
  MOVQ (Imm 0x64774b84f38512bf) (Reg AX);
  MULQ (Reg BP);
  ADDQ (Reg DI) (Reg AX);
  ADCQ (Imm 0x00) (Reg DX);
  ADDQ (Reg SI) (Reg AX);
  ADCQ (Imm 0x00) (Reg DX);
  MOVQ (Reg DX) (Reg SI);
  MOVQ (Reg AX) (Reg DI);
  MOVQ (Reg DI) (SPm 40);
  MOVQ (SPm 48) (Reg DI);
  MOVQ (Imm 0x4b1ba7b6434bacd7) (Reg AX);
  MULQ (Reg BP);
  ADDQ (Reg DI) (Reg AX);
  ADCQ (Imm 0x00) (Reg DX);
  ADDQ (Reg SI) (Reg AX);
  ADCQ (Imm 0x00) (Reg DX);
  MOVQ (Reg DX) (Reg SI);
  MOVQ (Reg AX) (Reg DI);
  MOVQ (Reg DI) (SPm 48);
  MOVQ (SPm 56) (Reg DI);
  MOVQ (Imm 0x1a0111ea397fe69a) (Reg AX);
  MULQ (Reg BP);
  ADDQ (Reg DI) (Reg AX);
  ADCQ (Imm 0x00) (Reg DX);
  ADDQ (Reg SI) (Reg AX);
  ADCQ (Imm 0x00) (Reg DX);
  MOVQ (Reg DX) (Reg SI);
  MOVQ (Reg AX) (Reg DI);
  MOVQ (Reg DI) (SPm 56);
  XORQ (Reg BX) (Reg BX);
  MOVQ (SPm 64) (Reg AX);
  ADDQ (Reg SI) (Reg AX);
  ADCQ (Imm 0x00) (Reg BX);
  ADDQ (Reg CX) (Reg AX);
  ADCQ (Imm 0x00) (Reg BX);
  MOVQ (Reg BX) (Reg CX);
  MOVQ (Reg AX) (SPm 64);
  MOVQ (Imm 0x89f3fffcfffcfffd) (Reg AX);
  MOVQ (SPm 24) (Reg BP);
  MULQ (Reg BP);
  MOVQ (Reg AX) (Reg BP);
  XORQ (Reg SI) (Reg SI);
  MOVQ (SPm 24) (Reg DI);
  MOVQ (Imm 0xb9feffffffffaaab) (Reg AX);
  MULQ (Reg BP);
  ADDQ (Reg DI) (Reg AX);
  ADCQ (Imm 0x00) (Reg DX);
  ADDQ (Reg SI) (Reg AX);
  ADCQ (Imm 0x00) (Reg DX);
  MOVQ (Reg DX) (Reg SI);
  MOVQ (Reg AX) (Reg DI);
  MOVQ (SPm 32) (Reg DI);
  MOVQ (Imm 0x1eabfffeb153ffff) (Reg AX);
  MULQ (Reg BP);
  ADDQ (Reg DI) (Reg AX);
  ADCQ (Imm 0x00) (Reg DX);
  ADDQ (Reg SI) (Reg AX);
  ADCQ (Imm 0x00) (Reg DX);
  MOVQ (Reg DX) (Reg SI);
  MOVQ (Reg AX) (Reg DI);
  MOVQ (Reg DI) (SPm 32);
  MOVQ (SPm 40) (Reg DI);
  MOVQ (Imm 0x6730d2a0f6b0f624) (Reg AX);
  MULQ (Reg BP);
  ADDQ (Reg DI) (Reg AX);
  ADCQ (Imm 0x00) (Reg DX);
  ADDQ (Reg SI) (Reg AX);
  ADCQ (Imm 0x00) (Reg DX);
  MOVQ (Reg DX) (Reg SI);
  MOVQ (Reg AX) (Reg DI);
  MOVQ (Reg DI) (SPm 40);
  MOVQ (SPm 48) (Reg DI);
  MOVQ (Imm 0x64774b84f38512bf) (Reg AX);
  MULQ (Reg BP);
  ADDQ (Reg DI) (Reg AX);
  ADCQ (Imm 0x00) (Reg DX);
  ADDQ (Reg SI) (Reg AX);
  ADCQ (Imm 0x00) (Reg DX);
  MOVQ (Reg DX) (Reg SI);
  MOVQ (Reg AX) (Reg DI);
  MOVQ (Reg DI) (SPm 48);
  MOVQ (SPm 56) (Reg DI);
  MOVQ (Imm 0x4b1ba7b6434bacd7) (Reg AX);
  MULQ (Reg BP);
  ADDQ (Reg DI) (Reg AX);
  ADCQ (Imm 0x00) (Reg DX);
  ADDQ (Reg SI) (Reg AX);
  ADCQ (Imm 0x00) (Reg DX);
  MOVQ (Reg DX) (Reg SI);
  MOVQ (Reg AX) (Reg DI);
  MOVQ (Reg DI) (SPm 56);
  MOVQ (SPm 64) (Reg DI);
  MOVQ (Imm 0x1a0111ea397fe69a) (Reg AX);
  MULQ (Reg BP);
  ADDQ (Reg DI) (Reg AX);
  ADCQ (Imm 0x00) (Reg DX);
  ADDQ (Reg SI) (Reg AX);
  ADCQ (Imm 0x00) (Reg DX);
  MOVQ (Reg DX) (Reg SI);
  MOVQ (Reg AX) (Reg DI);
  MOVQ (Reg DI) (SPm 64);
  XORQ (Reg BX) (Reg BX);
  MOVQ (SPm 72) (Reg AX);
  ADDQ (Reg SI) (Reg AX);
  ADCQ (Imm 0x00) (Reg BX);
  ADDQ (Reg CX) (Reg AX);
  ADCQ (Imm 0x00) (Reg BX);
  MOVQ (Reg BX) (Reg CX);
  MOVQ (Reg AX) (SPm 72);
  MOVQ (Imm 0x89f3fffcfffcfffd) (Reg AX);
  MOVQ (SPm 32) (Reg BP);
  MULQ (Reg BP);
  MOVQ (Reg AX) (Reg BP);
  XORQ (Reg SI) (Reg SI);
  MOVQ (SPm 32) (Reg DI);
  MOVQ (Imm 0xb9feffffffffaaab) (Reg AX);
  MULQ (Reg BP);
  ADDQ (Reg DI) (Reg AX);
  ADCQ (Imm 0x00) (Reg DX);
  ADDQ (Reg SI) (Reg AX);
  ADCQ (Imm 0x00) (Reg DX);
  MOVQ (Reg DX) (Reg SI);
  MOVQ (Reg AX) (Reg DI);
  MOVQ (SPm 40) (Reg DI);
  MOVQ (Imm 0x1eabfffeb153ffff) (Reg AX);
  MULQ (Reg BP);
  ADDQ (Reg DI) (Reg AX);
  ADCQ (Imm 0x00) (Reg DX);
  ADDQ (Reg SI) (Reg AX);
  ADCQ (Imm 0x00) (Reg DX);
  MOVQ (Reg DX) (Reg SI);
  MOVQ (Reg AX) (Reg DI);
  MOVQ (Reg DI) (SPm 40);
  MOVQ (SPm 48) (Reg DI);
  MOVQ (Imm 0x6730d2a0f6b0f624) (Reg AX);
  MULQ (Reg BP);
  ADDQ (Reg DI) (Reg AX);
  ADCQ (Imm 0x00) (Reg DX);
  ADDQ (Reg SI) (Reg AX);
  ADCQ (Imm 0x00) (Reg DX);
  MOVQ (Reg DX) (Reg SI);
  MOVQ (Reg AX) (Reg DI);
  MOVQ (Reg DI) (SPm 48);
  MOVQ (SPm 56) (Reg DI);
  MOVQ (Imm 0x64774b84f38512bf) (Reg AX);
  MULQ (Reg BP);
  ADDQ (Reg DI) (Reg AX);
  ADCQ (Imm 0x00) (Reg DX);
  ADDQ (Reg SI) (Reg AX);
  ADCQ (Imm 0x00) (Reg DX);
  MOVQ (Reg DX) (Reg SI);
  MOVQ (Reg AX) (Reg DI);
  MOVQ (Reg DI) (SPm 56);
  MOVQ (SPm 64) (Reg DI);
  MOVQ (Imm 0x4b1ba7b6434bacd7) (Reg AX);
  MULQ (Reg BP);
  ADDQ (Reg DI) (Reg AX);
  ADCQ (Imm 0x00) (Reg DX);
  ADDQ (Reg SI) (Reg AX);
  ADCQ (Imm 0x00) (Reg DX);
  MOVQ (Reg DX) (Reg SI);
  MOVQ (Reg AX) (Reg DI);
  MOVQ (Reg DI) (SPm 64);
  MOVQ (SPm 72) (Reg DI);
  MOVQ (Imm 0x1a0111ea397fe69a) (Reg AX);
  MULQ (Reg BP);
  ADDQ (Reg DI) (Reg AX);
  ADCQ (Imm 0x00) (Reg DX);
  ADDQ (Reg SI) (Reg AX);
  ADCQ (Imm 0x00) (Reg DX);
  MOVQ (Reg DX) (Reg SI);
  MOVQ (Reg AX) (Reg DI);
  MOVQ (Reg DI) (SPm 72);
  XORQ (Reg BX) (Reg BX);
  MOVQ (SPm 80) (Reg AX);
  ADDQ (Reg SI) (Reg AX);
  ADCQ (Imm 0x00) (Reg BX);
  ADDQ (Reg CX) (Reg AX);
  ADCQ (Imm 0x00) (Reg BX);
  MOVQ (Reg BX) (Reg CX);
  MOVQ (Reg AX) (SPm 80);
  MOVQ (Imm 0x89f3fffcfffcfffd) (Reg AX);
  MOVQ (SPm 40) (Reg BP);
  MULQ (Reg BP);
  MOVQ (Reg AX) (Reg BP);
  XORQ (Reg SI) (Reg SI);
  MOVQ (SPm 40) (Reg DI);
  MOVQ (Imm 0xb9feffffffffaaab) (Reg AX);
  MULQ (Reg BP);
  ADDQ (Reg DI) (Reg AX);
  ADCQ (Imm 0x00) (Reg DX);
  ADDQ (Reg SI) (Reg AX);
  ADCQ (Imm 0x00) (Reg DX);
  MOVQ (Reg DX) (Reg SI);
  MOVQ (Reg AX) (Reg DI);
  MOVQ (SPm 48) (Reg DI);
  MOVQ (Imm 0x1eabfffeb153ffff) (Reg AX);
  MULQ (Reg BP);
  ADDQ (Reg DI) (Reg AX);
  ADCQ (Imm 0x00) (Reg DX);
  ADDQ (Reg SI) (Reg AX);
  ADCQ (Imm 0x00) (Reg DX);
  MOVQ (Reg DX) (Reg SI);
  MOVQ (Reg AX) (Reg DI);
  MOVQ (Reg DI) (SPm 48);
  MOVQ (SPm 56) (Reg DI);
  MOVQ (Imm 0x6730d2a0f6b0f624) (Reg AX);
  MULQ (Reg BP);
  ADDQ (Reg DI) (Reg AX);
  ADCQ (Imm 0x00) (Reg DX);
  ADDQ (Reg SI) (Reg AX);
  ADCQ (Imm 0x00) (Reg DX);
  MOVQ (Reg DX) (Reg SI);
  MOVQ (Reg AX) (Reg DI);
  MOVQ (Reg DI) (SPm 56);
  MOVQ (SPm 64) (Reg DI);
  MOVQ (Imm 0x64774b84f38512bf) (Reg AX);
  MULQ (Reg BP);
  ADDQ (Reg DI) (Reg AX);
  ADCQ (Imm 0x00) (Reg DX);
  ADDQ (Reg SI) (Reg AX);
  ADCQ (Imm 0x00) (Reg DX);
  MOVQ (Reg DX) (Reg SI);
  MOVQ (Reg AX) (Reg DI);
  MOVQ (Reg DI) (SPm 64);
  MOVQ (SPm 72) (Reg DI);
  MOVQ (Imm 0x4b1ba7b6434bacd7) (Reg AX);
  MULQ (Reg BP);
  ADDQ (Reg DI) (Reg AX);
  ADCQ (Imm 0x00) (Reg DX);
  ADDQ (Reg SI) (Reg AX);
  ADCQ (Imm 0x00) (Reg DX);
  MOVQ (Reg DX) (Reg SI);
  MOVQ (Reg AX) (Reg DI);
  MOVQ (Reg DI) (SPm 72);
  MOVQ (SPm 80) (Reg DI);
  MOVQ (Imm 0x1a0111ea397fe69a) (Reg AX);
  MULQ (Reg BP);
  ADDQ (Reg DI) (Reg AX);
  ADCQ (Imm 0x00) (Reg DX);
  ADDQ (Reg SI) (Reg AX);
  ADCQ (Imm 0x00) (Reg DX);
  MOVQ (Reg DX) (Reg SI);
  MOVQ (Reg AX) (Reg DI);
  MOVQ (Reg DI) (SPm 80);
  XORQ (Reg BX) (Reg BX);
  MOVQ (SPm 88) (Reg AX);
  ADDQ (Reg SI) (Reg AX);
  ADCQ (Imm 0x00) (Reg BX);
  ADDQ (Reg CX) (Reg AX);
  ADCQ (Imm 0x00) (Reg BX);
  MOVQ (Reg BX) (Reg CX);
  MOVQ (Reg AX) (SPm 88);
  MOVQ (SPm 48) (Reg AX);
  MOVQ (Reg AX) (FPm 96);
  MOVQ (SPm 56) (Reg AX);
  MOVQ (Reg AX) (FPm 104);
  MOVQ (SPm 64) (Reg AX);
  MOVQ (Reg AX) (FPm 112);
  MOVQ (SPm 72) (Reg AX);
  MOVQ (Reg AX) (FPm 120);
  MOVQ (SPm 80) (Reg AX);
  MOVQ (Reg AX) (FPm 128);
  MOVQ (SPm 88) (Reg AX);
  MOVQ (Reg AX) (FPm 136);
  RET].

(** primitivefuncs_amd64.s:1469 TEXT AddNoCarry $0-144 *)
Definition asm_AddNoCarry : func := mkFunc 0 144 [
  MOVQ (FPm 0) (Reg AX);
  MOVQ (FPm 48) (Reg CX);
  MOVQ (FPm 8) (Reg DX);
  MOVQ (FPm 56) (Reg BX);
  MOVQ (FPm 16) (Reg BP);
  MOVQ (FPm 64) (Reg SI);
  MOVQ (FPm 24) (Reg DI);
  MOVQ (FPm 72) (Reg R8);
  MOVQ (FPm 32) (Reg R9);
  MOVQ (FPm 80) (Reg R10);
  MOVQ (FPm 40) (Reg R11);
  MOVQ (FPm 88) (Reg R12);
  ADDQ (Reg AX) (Reg CX);
  ADCQ (Reg DX) (Reg BX);
  ADCQ (Reg BP) (Reg SI);
  ADCQ (Reg DI) (Reg R8);
  ADCQ (Reg R9) (Reg R10);
  ADCQ (Reg R11) (Reg R12);
  MOVQ (Reg CX) (FPm 96);
  MOVQ (Reg BX) (FPm 104);
  MOVQ (Reg SI) (FPm 112);
  MOVQ (Reg R8) (FPm 120);
  MOVQ (Reg R10) (FPm 128);
  MOVQ (Reg R12) (FPm 136);
  RET].

(** primitivefuncs_amd64.s:1497 TEXT SubNoBorrow $0-144 *)
Definition asm_SubNoBorrow : func := mkFunc 0 144 [
  MOVQ (FPm 0) (Reg AX);
  MOVQ (FPm 48) (Reg CX);
  MOVQ (FPm 8) (Reg DX);
  MOVQ (FPm 56) (Reg BX);
  MOVQ (FPm 16) (Reg BP);
  MOVQ (FPm 64) (Reg SI);
  MOVQ (FPm 24) (Reg DI);
  MOVQ (FPm 72) (Reg R8);
  MOVQ (FPm 32) (Reg R9);
  MOVQ (FPm 80) (Reg R10);
  MOVQ (FPm 40) (Reg R11);
  MOVQ (FPm 88) (Reg R12);
  SUBQ (Reg CX) (Reg AX);
  SBBQ (Reg BX) (Reg DX);
  SBBQ (Reg SI) (Reg BP);
  SBBQ (Reg R8) (Reg DI);
  SBBQ (Reg R10) (Reg R9);
  SBBQ (Reg R12) (Reg R11);
  MOVQ (Reg AX) (FPm 96);
  MOVQ (Reg DX) (FPm 104);
  MOVQ (Reg BP) (FPm 112);
  MOVQ (Reg DI) (FPm 120);
  MOVQ (Reg R9) (FPm 128);
  MOVQ (Reg R11) (FPm 136);
  RET].
