(** The pairing of the generators is not 1: computed step by step with the machine-integer instance. *)
Require Import ZArith Lia Bool List Uint63.
From Verif Require Import Words ModelRepr ModelFq ModelOps ModelTower ModelCurve ModelPairing NumTheory Primality Fp FpOps OpsRel OpsRel2 UNat UInst.
Import ListNotations.
Open Scope Z_scope.

Section Steps.
Context {F : Type} (B : BOps F).
Notation mul := (FQ12_MulAssign B). Notation cj := (FQ12_ConjugateAssign B). Notation fr := (FQ12_FrobeniusMapAssign B).
Lemma FE_steps m i a b y0 y1 y2 z1 z2 z3 z3' w1 w2 v e :
  FQ12_InverseAssign B m = (i, true) -> mul (cj m) i = a -> mul (fr a 2) a = b -> FQ12_SquareAssign B b = y0 ->
  ExpByX B y0 blsX = y1 -> ExpByX B y1 (FQRepr_Rsh blsX 1) = y2 -> mul (cj (mul y1 (cj b))) y2 = z1 ->
  ExpByX B z1 (FQRepr_Lsh (FQRepr_Rsh blsX 1) 1) = z2 -> ExpByX B z2 (FQRepr_Lsh (FQRepr_Rsh blsX 1) 1) = z3 -> mul z3 (cj z1) = z3' ->
  mul (fr (cj (cj z1)) 3) (fr z2 2) = w1 -> ExpByX B z3' (FQRepr_Lsh (FQRepr_Rsh blsX 1) 1) = w2 -> mul w1 (mul (mul w2 y0) b) = v -> mul v (fr z3' 1) = e ->
  FinalExponentiation B m = Some e.
Proof.
  unfold FinalExponentiation. generalize blsX. intros x H1 H2 H3 H4 H5 H6 H7 H8 H9 H10 H11 H12 H13 H14. rewrite H1. cbn [negb]. cbv zeta.
  rewrite H2, H3, H4, H5, H6, H7, H8, H9, H10, H11, H12, H13, H14. reflexivity.
Qed.
End Steps.
Definition g1u := Eval vm_compute in G1AffineOne UB.
Definition g2u := Eval vm_compute in G2AffineOne UB.
Definition pru := Eval vm_compute in G2AffineToPrepared UB g2u.
Definition mlu := Eval vm_compute in match MillerLoop UB [(g1u, pru)] with Some m => m | None => FQ12Zero UB end.
Definition tri := Eval vm_compute in
  let mul := FQ12_MulAssign UB in let cj := FQ12_ConjugateAssign UB in let fr := FQ12_FrobeniusMapAssign UB in
  let i := fst (FQ12_InverseAssign UB mlu) in
  let a := mul (cj mlu) i in let b := mul (fr a 2) a in let y0 := FQ12_SquareAssign UB b in
  let y1 := ExpByX UB y0 blsX in let y2 := ExpByX UB y1 (FQRepr_Rsh blsX 1) in let z1 := mul (cj (mul y1 (cj b))) y2 in
  let z2 := ExpByX UB z1 (FQRepr_Lsh (FQRepr_Rsh blsX 1) 1) in let z3 := ExpByX UB z2 (FQRepr_Lsh (FQRepr_Rsh blsX 1) 1) in
  let z3' := mul z3 (cj z1) in let w1 := mul (fr (cj (cj z1)) 3) (fr z2 2) in
  let w2 := ExpByX UB z3' (FQRepr_Lsh (FQRepr_Rsh blsX 1) 1) in let v := mul w1 (mul (mul w2 y0) b) in let e := mul v (fr z3' 1) in
  [i; a; b; y0; y1; y2; z1; z2; z3; z3'; w1; w2; v; e].
Definition tri_n (n : nat) := nth n tri (FQ12Zero UB).
Definition u_i := Eval vm_compute in tri_n 0. Definition u_a := Eval vm_compute in tri_n 1. Definition u_b := Eval vm_compute in tri_n 2.
Definition u_y0 := Eval vm_compute in tri_n 3. Definition u_y1 := Eval vm_compute in tri_n 4. Definition u_y2 := Eval vm_compute in tri_n 5.
Definition u_z1 := Eval vm_compute in tri_n 6. Definition u_z2 := Eval vm_compute in tri_n 7. Definition u_z3 := Eval vm_compute in tri_n 8. Definition u_z3' := Eval vm_compute in tri_n 9.
Definition u_w1 := Eval vm_compute in tri_n 10. Definition u_w2 := Eval vm_compute in tri_n 11. Definition u_v := Eval vm_compute in tri_n 12. Definition u_e := Eval vm_compute in tri_n 13.
Lemma g1u_eq : G1AffineOne UB = g1u. Proof. vm_compute. reflexivity. Qed.
Lemma g2u_eq : G2AffineOne UB = g2u. Proof. vm_compute. reflexivity. Qed.
Lemma pru_eq : G2AffineToPrepared UB g2u = pru. Proof. vm_compute. reflexivity. Qed.
Lemma mlu_eq : MillerLoop UB [(g1u, pru)] = Some mlu. Proof. vm_compute. reflexivity. Qed.
Lemma s_i : FQ12_InverseAssign UB mlu = (u_i, true). Proof. vm_compute. reflexivity. Qed.
Lemma s_a : FQ12_MulAssign UB (FQ12_ConjugateAssign UB mlu) u_i = u_a. Proof. vm_compute. reflexivity. Qed.
Lemma s_b : FQ12_MulAssign UB (FQ12_FrobeniusMapAssign UB u_a 2) u_a = u_b. Proof. vm_compute. reflexivity. Qed.
Lemma s_y0 : FQ12_SquareAssign UB u_b = u_y0. Proof. vm_compute. reflexivity. Qed.
Lemma s_y1 : ExpByX UB u_y0 blsX = u_y1. Proof. vm_compute. reflexivity. Qed.
Lemma s_y2 : ExpByX UB u_y1 (FQRepr_Rsh blsX 1) = u_y2. Proof. vm_compute. reflexivity. Qed.
Lemma s_z1 : FQ12_MulAssign UB (FQ12_ConjugateAssign UB (FQ12_MulAssign UB u_y1 (FQ12_ConjugateAssign UB u_b))) u_y2 = u_z1. Proof. vm_compute. reflexivity. Qed.
Lemma s_z2 : ExpByX UB u_z1 (FQRepr_Lsh (FQRepr_Rsh blsX 1) 1) = u_z2. Proof. vm_compute. reflexivity. Qed.
Lemma s_z3 : ExpByX UB u_z2 (FQRepr_Lsh (FQRepr_Rsh blsX 1) 1) = u_z3. Proof. vm_compute. reflexivity. Qed.
Lemma s_z3' : FQ12_MulAssign UB u_z3 (FQ12_ConjugateAssign UB u_z1) = u_z3'. Proof. vm_compute. reflexivity. Qed.
Lemma s_w1 : FQ12_MulAssign UB (FQ12_FrobeniusMapAssign UB (FQ12_ConjugateAssign UB (FQ12_ConjugateAssign UB u_z1)) 3) (FQ12_FrobeniusMapAssign UB u_z2 2) = u_w1. Proof. vm_compute. reflexivity. Qed.
Lemma s_w2 : ExpByX UB u_z3' (FQRepr_Lsh (FQRepr_Rsh blsX 1) 1) = u_w2. Proof. vm_compute. reflexivity. Qed.
Lemma s_v : FQ12_MulAssign UB u_w1 (FQ12_MulAssign UB (FQ12_MulAssign UB u_w2 u_y0) u_b) = u_v. Proof. vm_compute. reflexivity. Qed.
Lemma s_e : FQ12_MulAssign UB u_v (FQ12_FrobeniusMapAssign UB u_z3' 1) = u_e. Proof. vm_compute. reflexivity. Qed.
Lemma feu_eq : FinalExponentiation UB mlu = Some u_e.
Proof. exact (FE_steps UB _ _ _ _ _ _ _ _ _ _ _ _ _ _ _ s_i s_a s_b s_y0 s_y1 s_y2 s_z1 s_z2 s_z3 s_z3' s_w1 s_w2 s_v s_e). Qed.
