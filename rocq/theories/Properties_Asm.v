(** Property C05: the functions of primitivefuncs_amd64.s, executed instruction by instruction, agree with the portable functions of
    stub_fallback.go; and C68: the frame pointer register.
    - [run f s]: executes the body of f from machine state s ([None]: access outside the argument area or frame, or undefined flag read).
    - [wfst s]: all registers and memory words are in [0, 2^64); registers, carry flag, frame and result slots are otherwise arbitrary.
    - [fp s]: the argument area followed by the result area; [sp s]: the frame. *)
Require Import ZArith Lia Bool List.
From Verif Require Import Words ModelRepr ModelFq ModelAsm AsmProg AsmProofs.
Import ListNotations.
Open Scope Z_scope.

Theorem C05_MACWithCarry s a b c carry o1 o2 : wfst s -> fp s = [a; b; c; carry; o1; o2] ->
  option_map fp (run asm_MACWithCarry s) = let '(lo, hi) := MACWithCarry a b c carry in Some [a; b; c; carry; lo; hi].
Proof. exact (asm_MACWithCarry_ok s a b c carry o1 o2). Qed.
Theorem C05_AddWithCarry s a b carry o1 o2 : wfst s -> fp s = [a; b; carry; o1; o2] ->
  option_map fp (run asm_AddWithCarry s) = let '(out, c) := AddWithCarry a b carry in Some [a; b; carry; out; c].
Proof. exact (asm_AddWithCarry_ok s a b carry o1 o2). Qed.
Theorem C05_SubWithBorrow s a b borrow o1 o2 : wfst s -> fp s = [a; b; borrow; o1; o2] -> 0 <= borrow <= 1 ->
  option_map fp (run asm_SubWithBorrow s) = let '(out, c) := SubWithBorrow a b borrow in Some [a; b; borrow; out; c].
Proof. exact (asm_SubWithBorrow_ok s a b borrow o1 o2). Qed.
Theorem C05_MultiplyFQRepr s a b out : wfst s -> fp s = limbs a ++ limbs b ++ out -> length out = 12%nat ->
  option_map fp (run asm_MultiplyFQRepr s) = let '(hi, lo) := MultiplyFQRepr a b in Some (limbs a ++ limbs b ++ limbs hi ++ limbs lo).
Proof. exact (asm_MultiplyFQRepr_ok s a b out). Qed.
Theorem C05_MontReduce s hi lo out : wfst s -> fp s = limbs hi ++ limbs lo ++ out -> length out = 6%nat -> length (sp s) = 12%nat ->
  option_map fp (run asm_MontReduce s) = Some (limbs hi ++ limbs lo ++ limbs (MontReduce hi lo)).
Proof. exact (asm_MontReduce_ok s hi lo out). Qed.
Theorem C05_AddNoCarry s a b out : wfst s -> fp s = limbs a ++ limbs b ++ out -> length out = 6%nat ->
  option_map fp (run asm_AddNoCarry s) = Some (limbs a ++ limbs b ++ limbs (AddNoCarry a b)).
Proof. exact (asm_AddNoCarry_ok s a b out). Qed.
Theorem C05_SubNoBorrow s a b out : wfst s -> fp s = limbs a ++ limbs b ++ out -> length out = 6%nat ->
  option_map fp (run asm_SubNoBorrow s) = Some (limbs a ++ limbs b ++ limbs (SubNoBorrow a b)).
Proof. exact (asm_SubNoBorrow_ok s a b out). Qed.
Example C05_nonvacuous : let x := W - 1 in let f := repeat x 6 in
  option_map fp (run asm_MACWithCarry (ex_st 2 0 [x; x; x; x])) = Some [x; x; x; x; x; x] /\
  option_map fp (run asm_AddWithCarry (ex_st 2 0 [x; x; x])) = Some [x; x; x; x - 2; 2] /\
  option_map fp (run asm_SubWithBorrow (ex_st 2 0 [0; x; 1])) = Some [0; x; 1; 0; 1] /\
  option_map fp (run asm_MultiplyFQRepr (ex_st 12 0 (f ++ f))) = Some (f ++ f ++ [x - 1; x; x; x; x; x] ++ [1; 0; 0; 0; 0; 0]) /\
  option_map fp (run asm_AddNoCarry (ex_st 6 0 (f ++ f))) = Some (f ++ f ++ [x - 1; x; x; x; x; x]) /\
  option_map fp (run asm_SubNoBorrow (ex_st 6 0 (repeat 0 6 ++ f))) = Some (repeat 0 6 ++ f ++ [1; 0; 0; 0; 0; 0]) /\
  run asm_MontReduce (ex_st 6 12 (f ++ f)) <> None /\ run asm_MontReduce (ex_st 6 11 (f ++ f)) = None.
Proof. exact asm_runs. Qed.

(** C68: BP is the callee-saved frame pointer; the assembler saves it only in functions with a nonzero frame size (MontReduce). *)
Theorem C68_scalar_functions_partial f s s' : In f [asm_MACWithCarry; asm_SubWithBorrow; asm_AddWithCarry] -> run f s = Some s' -> rBP (rg s') = rBP (rg s).
Proof. exact (asm_keeps_BP f s s'). Qed.
Theorem C68_MultiplyFQRepr_refuted : exists s s', wfst s /\ entry asm_MultiplyFQRepr s /\ f_frame asm_MultiplyFQRepr = 0 /\ run asm_MultiplyFQRepr s = Some s' /\ rBP (rg s') <> rBP (rg s).
Proof. exact clobber_MultiplyFQRepr. Qed.
Theorem C68_AddNoCarry_refuted : exists s s', wfst s /\ entry asm_AddNoCarry s /\ f_frame asm_AddNoCarry = 0 /\ run asm_AddNoCarry s = Some s' /\ rBP (rg s') <> rBP (rg s).
Proof. exact clobber_AddNoCarry. Qed.
Theorem C68_SubNoBorrow_refuted : exists s s', wfst s /\ entry asm_SubNoBorrow s /\ f_frame asm_SubNoBorrow = 0 /\ run asm_SubNoBorrow s = Some s' /\ rBP (rg s') <> rBP (rg s).
Proof. exact clobber_SubNoBorrow. Qed.

Print Assumptions C05_MACWithCarry.
Print Assumptions C05_AddWithCarry.
Print Assumptions C05_SubWithBorrow.
Print Assumptions C05_MultiplyFQRepr.
Print Assumptions C05_MontReduce.
Print Assumptions C05_AddNoCarry.
Print Assumptions C05_SubNoBorrow.
Print Assumptions C68_scalar_functions_partial.
Print Assumptions C68_MultiplyFQRepr_refuted.
Print Assumptions C68_AddNoCarry_refuted.
Print Assumptions C68_SubNoBorrow_refuted.
