(** The checked-in assembly is what the generator emits, for some allocation of registers. *)
Require Import ZArith List.
From Verif Require Import ModelAsm AsmProg ModelAsmGen.
Import ListNotations.
Open Scope Z_scope.

Ltac alloc n := match n with O => constr:(@nil reg) | S ?m => let t := alloc m in let e := open_constr:(_ : reg) in constr:(e :: t) end.
Ltac solve_alloc n := let l := alloc n in exists (fun k => nth k l AX); cbv; reflexivity.
Lemma emit_MACWithCarry : exists v, gen_MACWithCarry v = f_body asm_MACWithCarry. Proof. solve_alloc 3%nat. Qed.
Lemma emit_SubWithBorrow : exists v, gen_SubWithBorrow v = f_body asm_SubWithBorrow. Proof. solve_alloc 5%nat. Qed.
Lemma emit_AddWithCarry : exists v, gen_AddWithCarry v = f_body asm_AddWithCarry. Proof. solve_alloc 4%nat. Qed.
(** stub.go:10 (hi, lo) and stub.go:13 (hi, lo) -> out *)
Lemma emit_MultiplyFQRepr : exists v, gen_MultiplyFQRepr v 144 96 = f_body asm_MultiplyFQRepr. Proof. solve_alloc 18%nat. Qed.
Lemma emit_MontReduce : exists v, gen_MontReduce v 48 0 96 = f_body asm_MontReduce. Proof. solve_alloc 43%nat. Qed.
Lemma emit_AddNoCarry : exists v, gen_AddNoCarry v = f_body asm_AddNoCarry. Proof. solve_alloc 12%nat. Qed.
Lemma emit_SubNoBorrow : exists v, gen_SubNoBorrow v = f_body asm_SubNoBorrow. Proof. solve_alloc 12%nat. Qed.
