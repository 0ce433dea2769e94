(** Properties C25-C31: the curve groups.  The functions are the limb-level code: [FqO] / [FqO2] are the
    operation records of FQ and FQ2, [FqB] the record of everything the generic code needs.
    - [canonP1/canonA1 (canonP2/canonA2)]: the coordinates are canonical FQ (FQ2) elements.
    - [jac1 P]: the point a Jacobian triple stands for ([Inf] if z = 0, else (x/z^2, y/z^3)); [aff1 A]: the point
      an affine object stands for ([Inf] if the flag is set, else (x, y)).
    - [on1]: the point at infinity or y^2 = x^3 + 4 over the integers modulo q; [on2]: y^2 = x^3 + 4(1+u) over GF(q^2).
    - [plus1/plus2]: the chord-and-tangent sum; [mul1 k/mul2 k]: the k-fold sum.  Their defining equations are
      restated in the first theorems. *)
Require Import ZArith Lia Bool List.
From Verif Require Import BlsProofs CasesEx.
From Verif Require Import Words ModelRepr ReprProofs ReprProofs2 ModelFq ModelOps ModelTower ModelCurve NumTheory Primality Fp FpOps FqProofs FqProofs2 FqRel FqMisc OpsRel OpsRel2 FqTransfer Ext TowerProofs TowerLimb Fld AbGrp EcGroup EcJac EcMul Curves CurveLimb CurveMisc.
Import ListNotations.
Open Scope Z_scope.

(** What the specification functions are. *)
Theorem group_law_spec_G1 :
  (forall P, plus1 Inf P = P /\ plus1 P Inf = P) /\
  (forall x1 y1 x2 y2, x1 <> x2 -> exists x3 y3, plus1 (Pt x1 y1) (Pt x2 y2) = Pt x3 y3 /\
     let l := fdiv (fsub y2 y1) (fsub x2 x1) in x3 = fsub (fsub (fmul l l) x1) x2 /\ y3 = fsub (fmul l (fsub x1 x3)) y1) /\
  (forall x y, y <> f0 q -> exists x3 y3, plus1 (Pt x y) (Pt x y) = Pt x3 y3 /\
     let l := fdiv (fmul (z2q 3) (fmul x x)) (fmul (z2q 2) y) in x3 = fsub (fsub (fmul l l) x) x /\ y3 = fsub (fmul l (fsub x x3)) y) /\
  (forall x y y', y <> y' -> plus1 (Pt x y) (Pt x y') = Inf) /\
  (forall x, plus1 (Pt x (f0 q)) (Pt x (f0 q)) = Inf) /\
  (forall x y, neg1 (Pt x y) = Pt x (fopp y)) /\ neg1 Inf = Inf /\
  (forall P, mul1 0 P = Inf) /\ (forall k P, on1 P -> mul1 (k + 1) P = plus1 (mul1 k P) P).
Proof. exact plus1_spec. Qed.
Theorem group_law_spec_G2 :
  (forall P, plus2 Inf P = P /\ plus2 P Inf = P) /\
  (forall x1 y1 x2 y2, x1 <> x2 -> exists x3 y3, plus2 (Pt x1 y1) (Pt x2 y2) = Pt x3 y3 /\
     let l := k2_div (k2_sub y2 y1) (k2_sub x2 x1) in x3 = k2_sub (k2_sub (k2_mul l l) x1) x2 /\ y3 = k2_sub (k2_mul l (k2_sub x1 x3)) y1) /\
  (forall x y, y <> k2_0 -> exists x3 y3, plus2 (Pt x y) (Pt x y) = Pt x3 y3 /\
     let l := k2_div (k2_mul (k2_emb (z2q 3)) (k2_mul x x)) (k2_mul (k2_emb (z2q 2)) y) in x3 = k2_sub (k2_sub (k2_mul l l) x) x /\ y3 = k2_sub (k2_mul l (k2_sub x x3)) y) /\
  (forall x y y', y <> y' -> plus2 (Pt x y) (Pt x y') = Inf) /\
  (forall x, plus2 (Pt x k2_0) (Pt x k2_0) = Inf) /\
  (forall x y, neg2 (Pt x y) = Pt x (k2_opp y)) /\ neg2 Inf = Inf /\
  (forall P, mul2 0 P = Inf) /\ (forall k P, on2 P -> mul2 (k + 1) P = plus2 (mul2 k P) P).
Proof. exact plus2_spec. Qed.
Print Assumptions group_law_spec_G1.
Print Assumptions group_law_spec_G2.

(** * G1 *)
(** No side condition: the formulas are right for every operand, on the curve or not. *)
Theorem C25_G1_group_law P Q A : canonP1 P -> canonP1 Q -> canonA1 A ->
  (canonP1 (Double FqO P) /\ jac1 (Double FqO P) = plus1 (jac1 P) (jac1 P)) /\
  (canonP1 (Add FqO P Q) /\ jac1 (Add FqO P Q) = plus1 (jac1 P) (jac1 Q)) /\
  (canonP1 (AddAffine FqO P A) /\ jac1 (AddAffine FqO P A) = plus1 (jac1 P) (aff1 A)) /\
  (on1 (jac1 P) -> on1 (jac1 (Double FqO P)) /\
     (on1 (jac1 Q) -> on1 (jac1 (Add FqO P Q))) /\ (on1 (aff1 A) -> on1 (jac1 (AddAffine FqO P A)))).
Proof. exact (G1_group_law P Q A). Qed.
Example C25_G1_nonvacuous : let G := G1AffineOne FqB in
  canonA1 G /\ on1 (aff1 G) /\ jac1 (Add FqO (G1ProjectiveOne FqB) (Proj_NegAssign FqO (G1ProjectiveOne FqB))) = Inf /\ jac1 (Double FqO (G1ProjectiveOne FqB)) <> Inf.
Proof. exact G1_ex25. Qed.
Print Assumptions C25_G1_group_law.

Theorem C26_G1_conversions P Q A : canonP1 P -> canonP1 Q -> canonA1 A ->
  (canonA1 (G1_ToAffine FqO P) /\ aff1 (G1_ToAffine FqO P) = jac1 P) /\
  (canonP1 (Affine_ToProjective FqO A) /\ jac1 (Affine_ToProjective FqO A) = aff1 A) /\
  (ainf A = false -> G1_ToAffine FqO (Affine_ToProjective FqO A) = A) /\
  G1_ToAffine FqO (Affine_ToProjective FqO (AffineZero FqO)) = AffineZero FqO /\
  (Proj_IsZero FqO P = true <-> jac1 P = Inf) /\
  (Proj_Equal FqO P Q = true <-> jac1 P = jac1 Q).
Proof. exact (G1_conversions P Q A). Qed.
Example C26_G1_nonvacuous : let P := G1ProjectiveOne FqB in let Q := Add FqO (Double FqO P) (Proj_NegAssign FqO P) in
  Q <> P /\ Proj_Equal FqO P Q = true /\ G1_ToAffine FqO Q = G1AffineOne FqB.
Proof. exact G1_ex26. Qed.
Print Assumptions C26_G1_conversions.

Theorem C28_G1_abelian_group P Q S : canonP1 P -> canonP1 Q -> canonP1 S -> on1 (jac1 P) -> on1 (jac1 Q) -> on1 (jac1 S) ->
  jac1 (Add FqO (Add FqO P Q) S) = jac1 (Add FqO P (Add FqO Q S)) /\
  jac1 (Add FqO P Q) = jac1 (Add FqO Q P) /\
  jac1 (Add FqO P (ProjectiveZero FqO)) = jac1 P /\
  jac1 (Add FqO P (Proj_NegAssign FqO P)) = Inf.
Proof. exact (G1_abelian P Q S). Qed.
Print Assumptions C28_G1_abelian_group.
Theorem C28_G1_associative_points P Q S : on1 P -> on1 Q -> on1 S -> plus1 P (plus1 Q S) = plus1 (plus1 P Q) S.
Proof. exact (G1_assoc P Q S). Qed.
Example C28_G1_nonvacuous : let G := G1ProjectiveOne FqB in valid1 G /\ valid1 (Double FqO G) /\ valid1 (ProjectiveZero FqO) /\ jac1 G <> jac1 (Double FqO G) /\ jac1 G <> Inf /\ jac1 (Double FqO G) <> Inf /\ jac1 (ProjectiveZero FqO) = Inf.
Proof. exact points1. Qed.
Print Assumptions C28_G1_associative_points.

Theorem C29_G1_scalar_multiplication A P n m k : canonA1 A -> on1 (aff1 A) -> canonP1 P -> on1 (jac1 P) -> wf6 n -> wf4 m -> 0 <= k ->
  (canonP1 (Affine_Mul FqO A n) /\ jac1 (Affine_Mul FqO A n) = mul1 (eval6 n) (aff1 A)) /\
  (canonP1 (Affine_MulFR FqO A m) /\ jac1 (Affine_MulFR FqO A m) = mul1 (eval4 m) (aff1 A)) /\
  (canonP1 (Affine_MulBig FqO A k) /\ jac1 (Affine_MulBig FqO A k) = mul1 k (aff1 A)) /\
  (canonP1 (Proj_Mul FqO P n) /\ jac1 (Proj_Mul FqO P n) = mul1 (eval6 n) (jac1 P)) /\
  (canonP1 (Proj_MulFR FqO P m) /\ jac1 (Proj_MulFR FqO P m) = mul1 (eval4 m) (jac1 P)).
Proof. exact (G1_scalar A P n m k). Qed.
Example C29_G1_nonvacuous : Proj_Equal FqO (Affine_Mul FqO (G1AffineOne FqB) (NewFQRepr 3))
  (Add FqO (Double FqO (G1ProjectiveOne FqB)) (G1ProjectiveOne FqB)) = true.
Proof. exact G1_ex29. Qed.
Print Assumptions C29_G1_scalar_multiplication.

(** The check computes r*P; it is not specific to points of the curve generated by honest code. *)
Theorem C30_G1_subgroup_check A : canonA1 A -> on1 (aff1 A) ->
  (G1_IsInCorrectSubgroupAssumingOnCurve FqB A = true <-> mul1 r (aff1 A) = Inf) /\
  (G1_IsOnCurve FqB A = true) /\
  canonP1 (G1_ScaleByCofactor FqB A) /\ jac1 (G1_ScaleByCofactor FqB A) = mul1 76329603384216526031706109802092473003 (aff1 A).
Proof. exact (G1_subgroup_check A). Qed.
Print Assumptions C30_G1_subgroup_check.
Theorem C30_G1_on_curve_check A : canonA1 A -> (G1_IsOnCurve FqB A = true <-> on1 (aff1 A)).
Proof. exact (G1_oncurve A). Qed.
(** on the curve and inside the subgroup, on the curve and outside it *)
Example C30_G1_nonvacuous : (canonA1 (G1AffineOne FqB) /\ on1 (aff1 (G1AffineOne FqB))) /\ exists A, canonA1 A /\ on1 (aff1 A) /\ ainf A = false /\ mul1 r (aff1 A) <> Inf.
Proof. exact (conj (conj G1one_canon G1one_on) outside_example1). Qed.
Print Assumptions C30_G1_on_curve_check.

(** A valid G1Affine: canonical coordinates, on the curve, and the infinity object is the one the package makes. *)
Theorem C27_G1_Equals A B : valid_affine1 A -> valid_affine1 B -> (G1Affine_Equals FqO A B = true <-> A = B).
Proof. exact (G1_equals A B). Qed.
Example C27_G1_nonvacuous : valid_affine1 (G1AffineOne FqB) /\ valid_affine1 (AffineZero FqO) /\ G1Affine_Equals FqO (G1AffineOne FqB) (AffineZero FqO) = false.
Proof. exact G1_ex27. Qed.
Print Assumptions C27_G1_Equals.

Theorem C31_GetG1PointFromX x g : canon x ->
  ((forall s, fmul s s <> fadd (fmul (fmul (fqval x) (fqval x)) (fqval x)) (z2q 4)) -> GetG1PointFromX FqB x g = None) /\
  ((exists s, fmul s s = fadd (fmul (fmul (fqval x) (fqval x)) (fqval x)) (z2q 4)) ->
    exists y, GetG1PointFromX FqB x g = Some (mkAff x y false) /\ canon y /\ on1 (Pt (fqval x) (fqval y)) /\
      (fqval y <> f0 q -> (g = true <-> fval (FQ_NegAssign y) < fval y))).
Proof. exact (g1_fromx x g). Qed.
Example C31_G1_nonvacuous : (exists y, GetG1PointFromX FqB FQZero true = Some (mkAff FQZero y false) /\ fval y = q - 2) /\ GetG1PointFromX FqB (FQ_NegAssign (FQ_DoubleAssign FQOne)) true = None.
Proof. exact G1_ex31. Qed.
Print Assumptions C31_GetG1PointFromX.

(** * G2 *)
(** No side condition: the formulas are right for every operand, on the curve or not. *)
Theorem C25_G2_group_law P Q A : canonP2 P -> canonP2 Q -> canonA2 A ->
  (canonP2 (Double FqO2 P) /\ jac2 (Double FqO2 P) = plus2 (jac2 P) (jac2 P)) /\
  (canonP2 (Add FqO2 P Q) /\ jac2 (Add FqO2 P Q) = plus2 (jac2 P) (jac2 Q)) /\
  (canonP2 (AddAffine FqO2 P A) /\ jac2 (AddAffine FqO2 P A) = plus2 (jac2 P) (aff2 A)) /\
  (on2 (jac2 P) -> on2 (jac2 (Double FqO2 P)) /\
     (on2 (jac2 Q) -> on2 (jac2 (Add FqO2 P Q))) /\ (on2 (aff2 A) -> on2 (jac2 (AddAffine FqO2 P A)))).
Proof. exact (G2_group_law P Q A). Qed.
Example C25_G2_nonvacuous : let G := G2AffineOne FqB in
  canonA2 G /\ on2 (aff2 G) /\ jac2 (Add FqO2 (G2ProjectiveOne FqB) (Proj_NegAssign FqO2 (G2ProjectiveOne FqB))) = Inf /\ jac2 (Double FqO2 (G2ProjectiveOne FqB)) <> Inf.
Proof. exact G2_ex25. Qed.
Print Assumptions C25_G2_group_law.

Theorem C26_G2_conversions P Q A : canonP2 P -> canonP2 Q -> canonA2 A ->
  (canonA2 (G2_ToAffine FqO2 P) /\ aff2 (G2_ToAffine FqO2 P) = jac2 P) /\
  (canonP2 (Affine_ToProjective FqO2 A) /\ jac2 (Affine_ToProjective FqO2 A) = aff2 A) /\
  (ainf A = false -> G2_ToAffine FqO2 (Affine_ToProjective FqO2 A) = A) /\
  G2_ToAffine FqO2 (Affine_ToProjective FqO2 (AffineZero FqO2)) = AffineZero FqO2 /\
  (Proj_IsZero FqO2 P = true <-> jac2 P = Inf) /\
  (Proj_Equal FqO2 P Q = true <-> jac2 P = jac2 Q).
Proof. exact (G2_conversions P Q A). Qed.
Example C26_G2_nonvacuous : let P := G2ProjectiveOne FqB in let Q := Add FqO2 (Double FqO2 P) (Proj_NegAssign FqO2 P) in
  Proj_Equal FqO2 P Q = true /\ G2_ToAffine FqO2 Q = G2AffineOne FqB.
Proof. exact G2_ex26. Qed.
Print Assumptions C26_G2_conversions.

Theorem C28_G2_abelian_group P Q S : canonP2 P -> canonP2 Q -> canonP2 S -> on2 (jac2 P) -> on2 (jac2 Q) -> on2 (jac2 S) ->
  jac2 (Add FqO2 (Add FqO2 P Q) S) = jac2 (Add FqO2 P (Add FqO2 Q S)) /\
  jac2 (Add FqO2 P Q) = jac2 (Add FqO2 Q P) /\
  jac2 (Add FqO2 P (ProjectiveZero FqO2)) = jac2 P /\
  jac2 (Add FqO2 P (Proj_NegAssign FqO2 P)) = Inf.
Proof. exact (G2_abelian P Q S). Qed.
Print Assumptions C28_G2_abelian_group.
Theorem C28_G2_associative_points P Q S : on2 P -> on2 Q -> on2 S -> plus2 P (plus2 Q S) = plus2 (plus2 P Q) S.
Proof. exact (G2_assoc P Q S). Qed.
Example C28_G2_nonvacuous : let G := G2ProjectiveOne FqB in valid2 G /\ valid2 (Double FqO2 G) /\ valid2 (ProjectiveZero FqO2) /\ jac2 G <> jac2 (Double FqO2 G) /\ jac2 G <> Inf /\ jac2 (Double FqO2 G) <> Inf /\ jac2 (ProjectiveZero FqO2) = Inf.
Proof. exact points2. Qed.
Print Assumptions C28_G2_associative_points.

Theorem C29_G2_scalar_multiplication A P n m k : canonA2 A -> on2 (aff2 A) -> canonP2 P -> on2 (jac2 P) -> wf6 n -> wf4 m -> 0 <= k ->
  (canonP2 (Affine_Mul FqO2 A n) /\ jac2 (Affine_Mul FqO2 A n) = mul2 (eval6 n) (aff2 A)) /\
  (canonP2 (Affine_MulFR FqO2 A m) /\ jac2 (Affine_MulFR FqO2 A m) = mul2 (eval4 m) (aff2 A)) /\
  (canonP2 (Affine_MulBig FqO2 A k) /\ jac2 (Affine_MulBig FqO2 A k) = mul2 k (aff2 A)) /\
  (canonP2 (Proj_Mul FqO2 P n) /\ jac2 (Proj_Mul FqO2 P n) = mul2 (eval6 n) (jac2 P)) /\
  (canonP2 (Proj_MulFR FqO2 P m) /\ jac2 (Proj_MulFR FqO2 P m) = mul2 (eval4 m) (jac2 P)).
Proof. exact (G2_scalar A P n m k). Qed.
Example C29_G2_nonvacuous : Proj_Equal FqO2 (Affine_Mul FqO2 (G2AffineOne FqB) (NewFQRepr 3))
  (Add FqO2 (Double FqO2 (G2ProjectiveOne FqB)) (G2ProjectiveOne FqB)) = true.
Proof. exact G2_ex29. Qed.
Print Assumptions C29_G2_scalar_multiplication.

(** The check computes r*P; it is not specific to points of the curve generated by honest code. *)
Theorem C30_G2_subgroup_check A : canonA2 A -> on2 (aff2 A) ->
  (G2_IsInCorrectSubgroupAssumingOnCurve FqB A = true <-> mul2 r (aff2 A) = Inf) /\
  (G2_IsOnCurve FqB A = true) /\
  canonP2 (G2_ScaleByCofactor FqB A) /\ jac2 (G2_ScaleByCofactor FqB A) = mul2 g2Cofactor (aff2 A).
Proof. exact (G2_subgroup_check A). Qed.
Print Assumptions C30_G2_subgroup_check.
Theorem C30_G2_on_curve_check A : canonA2 A -> (G2_IsOnCurve FqB A = true <-> on2 (aff2 A)).
Proof. exact (G2_oncurve A). Qed.
Example C30_G2_nonvacuous : (canonA2 (G2AffineOne FqB) /\ on2 (aff2 (G2AffineOne FqB))) /\ exists x y, on2 (Pt x y) /\ mul2 r (Pt x y) <> Inf.
Proof. exact (conj (conj G2one_canon G2one_on) outside_example2). Qed.
Print Assumptions C30_G2_on_curve_check.

(** G2Affine.Equals compares the infinity flags and stops there: it is true for every two finite points. *)
Theorem C27_G2_Equals_refuted : exists A B, canonA2 A /\ canonA2 B /\ on2 (aff2 A) /\ on2 (aff2 B) /\
  aff2 A <> aff2 B /\ G2Affine_Equals FqO2 A B = true.
Proof. exact G2_equals_refuted. Qed.
Print Assumptions C27_G2_Equals_refuted.
Theorem C27_G2_Equals_partial A B : canonA2 A -> canonA2 B ->
  (A = B -> G2Affine_Equals FqO2 A B = true) /\
  (G2Affine_Equals FqO2 A B = true <-> ainf A = ainf B \/ (ax A = ax B /\ ay A = ay B)).
Proof. exact (G2_equals_partial A B). Qed.
Print Assumptions C27_G2_Equals_partial.

Theorem C31_GetG2PointFromX x g : canon2 x ->
  ((forall s, k2_mul s s <> k2_add (k2_mul (k2_mul (val2 x) (val2 x)) (val2 x)) (mkFQ2 (z2q 4) (z2q 4))) -> GetG2PointFromX FqB x g = None) /\
  ((exists s, k2_mul s s = k2_add (k2_mul (k2_mul (val2 x) (val2 x)) (val2 x)) (mkFQ2 (z2q 4) (z2q 4))) ->
    exists y, GetG2PointFromX FqB x g = Some (mkAff x y false) /\ canon2 y /\ on2 (Pt (val2 x) (val2 y)) /\
      (val2 y <> k2_0 -> (g = true <-> k2_lt (k2_opp (val2 y)) (val2 y)))).
Proof. exact (g2_fromx x g). Qed.
Print Assumptions C31_GetG2PointFromX.
