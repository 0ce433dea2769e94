(** Statements about the curve code assembled from CurveLimb, and concrete cases. *)
Require Import ZArith Lia Bool List Znumtheory Ring Field.
From Verif Require Import Words ModelRepr ReprProofs ReprProofs2 ModelFq ModelOps ModelTower ModelCurve NumTheory Primality Fp FpOps FqProofs FqProofs2 FqInverse FqRel FqMisc OpsRel OpsRel2 FqTransfer Ext TowerProofs TowerLimb Fld AbGrp EcGroup EcJac EcMul Curves CurveLimb.
Import ListNotations.
Open Scope Z_scope.

Lemma three_k2 : three FldQ2 = k2_emb (z2q 3).
Proof. apply k2_eq; cbn [c0 c1 k2_emb]. - exact three_Q. - change (fadd (fadd (f0 q) (f0 q)) (f0 q) = f0 q). ring. Qed.
Lemma two_k2 : two FldQ2 = k2_emb (z2q 2).
Proof. apply k2_eq; cbn [c0 c1 k2_emb]. - exact two_Q. - change (fadd (f0 q) (f0 q) = f0 q). ring. Qed.

Section Spec.
Context (T : Type) (o i : T) (a m s : T -> T -> T) (n : T -> T) (d : T -> T -> T) (v : T -> T)
  (th : field_theory o i a m s n d v (@eq T)) (dec : forall x y : T, {x = y} + {x <> y}).
Let K := mkFld T o i a m s n d v th dec.
Lemma pplus_spec :
  (forall P, pplus K Inf P = P /\ pplus K P Inf = P) /\
  (forall x1 y1 x2 y2, x1 <> x2 -> exists x3 y3, pplus K (Pt x1 y1) (Pt x2 y2) = Pt x3 y3 /\
     let l := d (s y2 y1) (s x2 x1) in x3 = s (s (m l l) x1) x2 /\ y3 = s (m l (s x1 x3)) y1) /\
  (forall x y, y <> o -> exists x3 y3, pplus K (Pt x y) (Pt x y) = Pt x3 y3 /\
     let l := d (m (three K) (m x x)) (m (two K) y) in x3 = s (s (m l l) x) x /\ y3 = s (m l (s x x3)) y) /\
  (forall x y y', y <> y' -> pplus K (Pt x y) (Pt x y') = Inf) /\
  (forall x, pplus K (Pt x o) (Pt x o) = Inf) /\
  (forall x y, pneg K (Pt x y) = Pt x (n y)) /\ pneg K Inf = Inf.
Proof.
  split; [|split; [|split; [|split; [|split; [|split]]]]].
  - intros P. split; [reflexivity|apply pplus_inf_r].
  - intros x1 y1 x2 y2 N. eexists _, _. split; [unfold pplus, K; cbn [fDec fO]; destruct (dec x1 x2); [contradiction|]; unfold chord; reflexivity|]. split; reflexivity.
  - intros x y N. eexists _, _. split; [unfold pplus, K; cbn [fDec fO]; destruct (dec x x); [|contradiction]; destruct (dec y y); [|contradiction]; destruct (dec y o); [contradiction|]; unfold chord; reflexivity|]. split; reflexivity.
  - intros x y y' N. unfold pplus, K; cbn [fDec fO]. destruct (dec x x); [|contradiction]. destruct (dec y y'); [contradiction|reflexivity].
  - intros x. unfold pplus, K; cbn [fDec fO]. destruct (dec x x); [|contradiction]. destruct (dec o o); [|contradiction]. destruct (dec o o) as [_|N]; [reflexivity|contradiction].
  - reflexivity.
  - reflexivity.
Qed.
End Spec.
Lemma pk_spec (E : Curve) : (forall P, pk E 0 P = Inf) /\ (forall k P, on E (cb E) P -> pk E (k + 1) P = pplus E (pk E k P) P).
Proof. split; [reflexivity|]. intros k P H. rewrite pk_add by exact H. rewrite pk_1. reflexivity. Qed.

Lemma plus1_spec :
  (forall P, plus1 Inf P = P /\ plus1 P Inf = P) /\
  (forall x1 y1 x2 y2, x1 <> x2 -> exists x3 y3, plus1 (Pt x1 y1) (Pt x2 y2) = Pt x3 y3 /\
     let l := fdiv (fsub y2 y1) (fsub x2 x1) in x3 = fsub (fsub (fmul l l) x1) x2 /\ y3 = fsub (fmul l (fsub x1 x3)) y1) /\
  (forall x y, y <> f0 q -> exists x3 y3, plus1 (Pt x y) (Pt x y) = Pt x3 y3 /\
     let l := fdiv (fmul (z2q 3) (fmul x x)) (fmul (z2q 2) y) in x3 = fsub (fsub (fmul l l) x) x /\ y3 = fsub (fmul l (fsub x x3)) y) /\
  (forall x y y', y <> y' -> plus1 (Pt x y) (Pt x y') = Inf) /\
  (forall x, plus1 (Pt x (f0 q)) (Pt x (f0 q)) = Inf) /\
  (forall x y, neg1 (Pt x y) = Pt x (fopp y)) /\ neg1 Inf = Inf /\
  (forall P, mul1 0 P = Inf) /\ (forall k P, on1 P -> mul1 (k + 1) P = plus1 (mul1 k P) P).
Proof.
  pose proof (pplus_spec Fq (f0 q) (f1 q) fadd fmul fsub fopp fdiv finv Fq_field (@Fp_dec q)) as S. fold FldQ in S. rewrite three_Q, two_Q in S.
  destruct S as (S1 & S2 & S3 & S4 & S5 & S6 & S7). exact (conj S1 (conj S2 (conj S3 (conj S4 (conj S5 (conj S6 (conj S7 (pk_spec E1)))))))).
Qed.
Lemma plus2_spec :
  (forall P, plus2 Inf P = P /\ plus2 P Inf = P) /\
  (forall x1 y1 x2 y2, x1 <> x2 -> exists x3 y3, plus2 (Pt x1 y1) (Pt x2 y2) = Pt x3 y3 /\
     let l := k2_div (k2_sub y2 y1) (k2_sub x2 x1) in x3 = k2_sub (k2_sub (k2_mul l l) x1) x2 /\ y3 = k2_sub (k2_mul l (k2_sub x1 x3)) y1) /\
  (forall x y, y <> k2_0 -> exists x3 y3, plus2 (Pt x y) (Pt x y) = Pt x3 y3 /\
     let l := k2_div (k2_mul (k2_emb (z2q 3)) (k2_mul x x)) (k2_mul (k2_emb (z2q 2)) y) in x3 = k2_sub (k2_sub (k2_mul l l) x) x /\ y3 = k2_sub (k2_mul l (k2_sub x x3)) y) /\
  (forall x y y', y <> y' -> plus2 (Pt x y) (Pt x y') = Inf) /\
  (forall x, plus2 (Pt x k2_0) (Pt x k2_0) = Inf) /\
  (forall x y, neg2 (Pt x y) = Pt x (k2_opp y)) /\ neg2 Inf = Inf /\
  (forall P, mul2 0 P = Inf) /\ (forall k P, on2 P -> mul2 (k + 1) P = plus2 (mul2 k P) P).
Proof.
  pose proof (pplus_spec K2 k2_0 k2_1 k2_add k2_mul k2_sub k2_opp k2_div k2_inv k2_field k2_dec) as S. fold FldQ2 in S. rewrite three_k2, two_k2 in S.
  destruct S as (S1 & S2 & S3 & S4 & S5 & S6 & S7). exact (conj S1 (conj S2 (conj S3 (conj S4 (conj S5 (conj S6 (conj S7 (pk_spec E2)))))))).
Qed.
Lemma canonb_ok f : validb (fq_n f) = true -> canon f. Proof. apply validb_spec. Qed.
Lemma pk_3 (E : Curve) P : on E (cb E) P -> pk E 3 P = pplus E (pplus E P P) P.
Proof. intros H. rewrite <- (pk_2 E P). exact (proj2 (pk_spec E) 2 P H). Qed.

(** * G1 *)
Lemma G1_group_law P Q A : canonP1 P -> canonP1 Q -> canonA1 A ->
  (canonP1 (Double FqO P) /\ jac1 (Double FqO P) = plus1 (jac1 P) (jac1 P)) /\
  (canonP1 (Add FqO P Q) /\ jac1 (Add FqO P Q) = plus1 (jac1 P) (jac1 Q)) /\
  (canonP1 (AddAffine FqO P A) /\ jac1 (AddAffine FqO P A) = plus1 (jac1 P) (aff1 A)) /\
  (on1 (jac1 P) -> on1 (jac1 (Double FqO P)) /\
     (on1 (jac1 Q) -> on1 (jac1 (Add FqO P Q))) /\ (on1 (aff1 A) -> on1 (jac1 (AddAffine FqO P A)))).
Proof.
  intros CP CQ CA. split; [exact (G1_double P CP)|]. split; [exact (G1_add P Q CP CQ)|]. split; [exact (G1_addaffine P A CP CA)|].
  intros HP. rewrite (proj2 (G1_double P CP)), (proj2 (G1_add P Q CP CQ)), (proj2 (G1_addaffine P A CP CA)).
  split; [|split; intros H]; apply G1_on_plus; assumption.
Qed.
Lemma G1_conversions P Q A : canonP1 P -> canonP1 Q -> canonA1 A ->
  (canonA1 (G1_ToAffine FqO P) /\ aff1 (G1_ToAffine FqO P) = jac1 P) /\
  (canonP1 (Affine_ToProjective FqO A) /\ jac1 (Affine_ToProjective FqO A) = aff1 A) /\
  (ainf A = false -> G1_ToAffine FqO (Affine_ToProjective FqO A) = A) /\
  G1_ToAffine FqO (Affine_ToProjective FqO (AffineZero FqO)) = AffineZero FqO /\
  (Proj_IsZero FqO P = true <-> jac1 P = Inf) /\
  (Proj_Equal FqO P Q = true <-> jac1 P = jac1 Q).
Proof.
  intros CP CQ CA. split; [exact (G1_toaffine P CP)|]. split; [exact (G1_toproj A CA)|]. split; [exact (G1_roundtrip A CA)|].
  split; [vm_compute; reflexivity|]. split; [exact (G1_iszero P CP)|exact (G1_equal P Q CP CQ)].
Qed.
Lemma G1_abelian P Q S : canonP1 P -> canonP1 Q -> canonP1 S -> on1 (jac1 P) -> on1 (jac1 Q) -> on1 (jac1 S) ->
  jac1 (Add FqO (Add FqO P Q) S) = jac1 (Add FqO P (Add FqO Q S)) /\
  jac1 (Add FqO P Q) = jac1 (Add FqO Q P) /\
  jac1 (Add FqO P (ProjectiveZero FqO)) = jac1 P /\
  jac1 (Add FqO P (Proj_NegAssign FqO P)) = Inf.
Proof.
  intros CP CQ CS HP HQ HS. destruct (G1_add P Q CP CQ) as [C1 X1]. destruct (G1_add Q S CQ CS) as [C2 X2]. destruct (G1_neg P CP) as [C3 X3]. destruct G1_zero as [C4 X4].
  rewrite (proj2 (G1_add _ S C1 CS)), (proj2 (G1_add P _ CP C2)), X1, X2, (proj2 (G1_add Q P CQ CP)), (proj2 (G1_add P _ CP C3)), (proj2 (G1_add P _ CP C4)), X3, X4.
  split; [symmetry; apply G1_assoc; assumption|]. split; [apply G1_comm; assumption|]. split; [exact (proj2 (proj1 plus1_spec (jac1 P)))|apply G1_plus_neg].
Qed.
Lemma G1_scalar A P n m k : canonA1 A -> on1 (aff1 A) -> canonP1 P -> on1 (jac1 P) -> wf6 n -> wf4 m -> 0 <= k ->
  (canonP1 (Affine_Mul FqO A n) /\ jac1 (Affine_Mul FqO A n) = mul1 (eval6 n) (aff1 A)) /\
  (canonP1 (Affine_MulFR FqO A m) /\ jac1 (Affine_MulFR FqO A m) = mul1 (eval4 m) (aff1 A)) /\
  (canonP1 (Affine_MulBig FqO A k) /\ jac1 (Affine_MulBig FqO A k) = mul1 k (aff1 A)) /\
  (canonP1 (Proj_Mul FqO P n) /\ jac1 (Proj_Mul FqO P n) = mul1 (eval6 n) (jac1 P)) /\
  (canonP1 (Proj_MulFR FqO P m) /\ jac1 (Proj_MulFR FqO P m) = mul1 (eval4 m) (jac1 P)).
Proof.
  intros CA HA CP HP Wn Wm Hk. split; [exact (G1_mul A n CA HA Wn)|]. split; [exact (G1_mulfr A m CA HA Wm)|]. split; [exact (G1_mulbig A k CA HA Hk)|].
  split; [exact (G1_pmul P n CP HP Wn)|exact (G1_pmulfr P m CP HP Wm)].
Qed.
Lemma G1_cofactor A : canonA1 A -> on1 (aff1 A) -> canonP1 (G1_ScaleByCofactor FqB A) /\ jac1 (G1_ScaleByCofactor FqB A) = mul1 76329603384216526031706109802092473003 (aff1 A).
Proof.
  intros C H. assert (wf6 g1Cofactor) as W by (apply wf6_intro; unfold isW; lia).
  replace (76329603384216526031706109802092473003) with (eval6 g1Cofactor) by (vm_compute; reflexivity). exact (G1_mul A g1Cofactor C H W).
Qed.
Lemma G1_subgroup_check A : canonA1 A -> on1 (aff1 A) ->
  (G1_IsInCorrectSubgroupAssumingOnCurve FqB A = true <-> mul1 r (aff1 A) = Inf) /\
  (G1_IsOnCurve FqB A = true) /\
  canonP1 (G1_ScaleByCofactor FqB A) /\ jac1 (G1_ScaleByCofactor FqB A) = mul1 76329603384216526031706109802092473003 (aff1 A).
Proof. intros C H. split; [exact (g1_subgroup A C H)|]. split; [apply G1_oncurve; assumption|exact (G1_cofactor A C H)]. Qed.
Lemma G1one_canon : canonA1 (G1AffineOne FqB).
Proof. split; apply canonb_ok; vm_compute; reflexivity. Qed.
Lemma G1one_on : on1 (aff1 (G1AffineOne FqB)).
Proof. apply (G1_oncurve _ G1one_canon). vm_compute. reflexivity. Qed.
Lemma G1pone_canon : canonP1 (G1ProjectiveOne FqB). Proof. exact (proj1 (G1_toproj _ G1one_canon)). Qed.
Lemma G1pone_jac : jac1 (G1ProjectiveOne FqB) = aff1 (G1AffineOne FqB). Proof. exact (proj2 (G1_toproj _ G1one_canon)). Qed.
Lemma G1_ex25 : let G := G1AffineOne FqB in
  canonA1 G /\ on1 (aff1 G) /\ jac1 (Add FqO (G1ProjectiveOne FqB) (Proj_NegAssign FqO (G1ProjectiveOne FqB))) = Inf /\ jac1 (Double FqO (G1ProjectiveOne FqB)) <> Inf.
Proof.
  split; [exact G1one_canon|]. split; [exact G1one_on|]. split.
  - destruct (G1_neg _ G1pone_canon) as [C X]. rewrite (proj2 (G1_add _ _ G1pone_canon C)), X. apply G1_plus_neg.
  - intros X. apply (G1_iszero _ (proj1 (G1_double _ G1pone_canon))) in X. revert X. vm_compute. discriminate.
Qed.
Lemma G1_two_minus_one P : canonP1 P -> on1 (jac1 P) -> canonP1 (Add FqO (Double FqO P) (Proj_NegAssign FqO P)) /\ jac1 (Add FqO (Double FqO P) (Proj_NegAssign FqO P)) = jac1 P.
Proof.
  intros C HP. destruct (G1_double P C) as [C1 X1]. destruct (G1_neg P C) as [C2 X2]. destruct (G1_add _ _ C1 C2) as [C3 X3]. split; [exact C3|].
  rewrite X3, X1, X2. rewrite <- G1_assoc by (try apply G1_on_neg; assumption). rewrite G1_plus_neg. exact (proj2 (proj1 plus1_spec (jac1 P))).
Qed.
Lemma G1_ex26 : let P := G1ProjectiveOne FqB in let Q := Add FqO (Double FqO P) (Proj_NegAssign FqO P) in
  Q <> P /\ Proj_Equal FqO P Q = true /\ G1_ToAffine FqO Q = G1AffineOne FqB.
Proof.
  assert (on1 (jac1 (G1ProjectiveOne FqB))) as HP by (rewrite G1pone_jac; exact G1one_on).
  destruct (G1_two_minus_one _ G1pone_canon HP) as [C3 E]. cbv zeta.
  split; [|split].
  - intros X. apply (f_equal (fun R => o_equals FqO (pz R) (pz (G1ProjectiveOne FqB)))) in X. revert X. vm_compute. discriminate.
  - apply (G1_equal _ _ G1pone_canon C3). symmetry. exact E.
  - destruct (G1_toaffine _ C3) as [C4 X4]. symmetry. apply G1_aff_inj; [exact G1one_canon|exact C4|reflexivity|]. rewrite X4, E. symmetry. exact G1pone_jac.
Qed.
Lemma G1_ex29 : Proj_Equal FqO (Affine_Mul FqO (G1AffineOne FqB) (NewFQRepr 3))
  (Add FqO (Double FqO (G1ProjectiveOne FqB)) (G1ProjectiveOne FqB)) = true.
Proof.
  assert (wf6 (NewFQRepr 3)) as W by (apply wf6_intro; unfold isW; lia).
  destruct (G1_mul _ _ G1one_canon G1one_on W) as [C X]. destruct (G1_double _ G1pone_canon) as [C1 X1]. destruct (G1_add _ _ C1 G1pone_canon) as [C2 X2].
  apply (G1_equal _ _ C C2). rewrite X, X2, X1, G1pone_jac. change (eval6 (NewFQRepr 3)) with 3.
  unfold mul1, plus1. exact (pk_3 E1 _ G1one_on).
Qed.

(** * G2 *)
Lemma G2_group_law P Q A : canonP2 P -> canonP2 Q -> canonA2 A ->
  (canonP2 (Double FqO2 P) /\ jac2 (Double FqO2 P) = plus2 (jac2 P) (jac2 P)) /\
  (canonP2 (Add FqO2 P Q) /\ jac2 (Add FqO2 P Q) = plus2 (jac2 P) (jac2 Q)) /\
  (canonP2 (AddAffine FqO2 P A) /\ jac2 (AddAffine FqO2 P A) = plus2 (jac2 P) (aff2 A)) /\
  (on2 (jac2 P) -> on2 (jac2 (Double FqO2 P)) /\
     (on2 (jac2 Q) -> on2 (jac2 (Add FqO2 P Q))) /\ (on2 (aff2 A) -> on2 (jac2 (AddAffine FqO2 P A)))).
Proof.
  intros CP CQ CA. split; [exact (G2_double P CP)|]. split; [exact (G2_add P Q CP CQ)|]. split; [exact (G2_addaffine P A CP CA)|].
  intros HP. rewrite (proj2 (G2_double P CP)), (proj2 (G2_add P Q CP CQ)), (proj2 (G2_addaffine P A CP CA)).
  split; [|split; intros H]; apply G2_on_plus; assumption.
Qed.
Lemma G2_conversions P Q A : canonP2 P -> canonP2 Q -> canonA2 A ->
  (canonA2 (G2_ToAffine FqO2 P) /\ aff2 (G2_ToAffine FqO2 P) = jac2 P) /\
  (canonP2 (Affine_ToProjective FqO2 A) /\ jac2 (Affine_ToProjective FqO2 A) = aff2 A) /\
  (ainf A = false -> G2_ToAffine FqO2 (Affine_ToProjective FqO2 A) = A) /\
  G2_ToAffine FqO2 (Affine_ToProjective FqO2 (AffineZero FqO2)) = AffineZero FqO2 /\
  (Proj_IsZero FqO2 P = true <-> jac2 P = Inf) /\
  (Proj_Equal FqO2 P Q = true <-> jac2 P = jac2 Q).
Proof.
  intros CP CQ CA. split; [exact (G2_toaffine P CP)|]. split; [exact (G2_toproj A CA)|]. split; [exact (G2_roundtrip A CA)|].
  split; [vm_compute; reflexivity|]. split; [exact (G2_iszero P CP)|exact (G2_equal P Q CP CQ)].
Qed.
Lemma G2_abelian P Q S : canonP2 P -> canonP2 Q -> canonP2 S -> on2 (jac2 P) -> on2 (jac2 Q) -> on2 (jac2 S) ->
  jac2 (Add FqO2 (Add FqO2 P Q) S) = jac2 (Add FqO2 P (Add FqO2 Q S)) /\
  jac2 (Add FqO2 P Q) = jac2 (Add FqO2 Q P) /\
  jac2 (Add FqO2 P (ProjectiveZero FqO2)) = jac2 P /\
  jac2 (Add FqO2 P (Proj_NegAssign FqO2 P)) = Inf.
Proof.
  intros CP CQ CS HP HQ HS. destruct (G2_add P Q CP CQ) as [C1 X1]. destruct (G2_add Q S CQ CS) as [C2 X2]. destruct (G2_neg P CP) as [C3 X3]. destruct G2_zero as [C4 X4].
  rewrite (proj2 (G2_add _ S C1 CS)), (proj2 (G2_add P _ CP C2)), X1, X2, (proj2 (G2_add Q P CQ CP)), (proj2 (G2_add P _ CP C3)), (proj2 (G2_add P _ CP C4)), X3, X4.
  split; [symmetry; apply G2_assoc; assumption|]. split; [apply G2_comm; assumption|]. split; [exact (proj2 (proj1 plus2_spec (jac2 P)))|apply G2_plus_neg].
Qed.
Lemma G2_scalar A P n m k : canonA2 A -> on2 (aff2 A) -> canonP2 P -> on2 (jac2 P) -> wf6 n -> wf4 m -> 0 <= k ->
  (canonP2 (Affine_Mul FqO2 A n) /\ jac2 (Affine_Mul FqO2 A n) = mul2 (eval6 n) (aff2 A)) /\
  (canonP2 (Affine_MulFR FqO2 A m) /\ jac2 (Affine_MulFR FqO2 A m) = mul2 (eval4 m) (aff2 A)) /\
  (canonP2 (Affine_MulBig FqO2 A k) /\ jac2 (Affine_MulBig FqO2 A k) = mul2 k (aff2 A)) /\
  (canonP2 (Proj_Mul FqO2 P n) /\ jac2 (Proj_Mul FqO2 P n) = mul2 (eval6 n) (jac2 P)) /\
  (canonP2 (Proj_MulFR FqO2 P m) /\ jac2 (Proj_MulFR FqO2 P m) = mul2 (eval4 m) (jac2 P)).
Proof.
  intros CA HA CP HP Wn Wm Hk. split; [exact (G2_mul A n CA HA Wn)|]. split; [exact (G2_mulfr A m CA HA Wm)|]. split; [exact (G2_mulbig A k CA HA Hk)|].
  split; [exact (G2_pmul P n CP HP Wn)|exact (G2_pmulfr P m CP HP Wm)].
Qed.
Lemma G2_cofactor A : canonA2 A -> on2 (aff2 A) -> canonP2 (G2_ScaleByCofactor FqB A) /\ jac2 (G2_ScaleByCofactor FqB A) = mul2 g2Cofactor (aff2 A).
Proof.
  intros C H. assert (0 <= g2Cofactor) as W by (apply Z.leb_le; vm_compute; reflexivity). exact (G2_mulbig A g2Cofactor C H W).
Qed.
Lemma G2_subgroup_check A : canonA2 A -> on2 (aff2 A) ->
  (G2_IsInCorrectSubgroupAssumingOnCurve FqB A = true <-> mul2 r (aff2 A) = Inf) /\
  (G2_IsOnCurve FqB A = true) /\
  canonP2 (G2_ScaleByCofactor FqB A) /\ jac2 (G2_ScaleByCofactor FqB A) = mul2 g2Cofactor (aff2 A).
Proof. intros C H. split; [exact (g2_subgroup A C H)|]. split; [apply G2_oncurve; assumption|exact (G2_cofactor A C H)]. Qed.
Lemma G2one_canon : canonA2 (G2AffineOne FqB).
Proof. split; split; apply canonb_ok; vm_compute; reflexivity. Qed.
Lemma G2one_on : on2 (aff2 (G2AffineOne FqB)).
Proof. apply (G2_oncurve _ G2one_canon). vm_compute. reflexivity. Qed.
Lemma G2pone_canon : canonP2 (G2ProjectiveOne FqB). Proof. exact (proj1 (G2_toproj _ G2one_canon)). Qed.
Lemma G2pone_jac : jac2 (G2ProjectiveOne FqB) = aff2 (G2AffineOne FqB). Proof. exact (proj2 (G2_toproj _ G2one_canon)). Qed.
Lemma G2_ex25 : let G := G2AffineOne FqB in
  canonA2 G /\ on2 (aff2 G) /\ jac2 (Add FqO2 (G2ProjectiveOne FqB) (Proj_NegAssign FqO2 (G2ProjectiveOne FqB))) = Inf /\ jac2 (Double FqO2 (G2ProjectiveOne FqB)) <> Inf.
Proof.
  split; [exact G2one_canon|]. split; [exact G2one_on|]. split.
  - destruct (G2_neg _ G2pone_canon) as [C X]. rewrite (proj2 (G2_add _ _ G2pone_canon C)), X. apply G2_plus_neg.
  - intros X. apply (G2_iszero _ (proj1 (G2_double _ G2pone_canon))) in X. revert X. vm_compute. discriminate.
Qed.
Lemma G2_two_minus_one P : canonP2 P -> on2 (jac2 P) -> canonP2 (Add FqO2 (Double FqO2 P) (Proj_NegAssign FqO2 P)) /\ jac2 (Add FqO2 (Double FqO2 P) (Proj_NegAssign FqO2 P)) = jac2 P.
Proof.
  intros C HP. destruct (G2_double P C) as [C1 X1]. destruct (G2_neg P C) as [C2 X2]. destruct (G2_add _ _ C1 C2) as [C3 X3]. split; [exact C3|].
  rewrite X3, X1, X2. rewrite <- G2_assoc by (try apply G2_on_neg; assumption). rewrite G2_plus_neg. exact (proj2 (proj1 plus2_spec (jac2 P))).
Qed.
Lemma G2_ex26 : let P := G2ProjectiveOne FqB in let Q := Add FqO2 (Double FqO2 P) (Proj_NegAssign FqO2 P) in
  Proj_Equal FqO2 P Q = true /\ G2_ToAffine FqO2 Q = G2AffineOne FqB.
Proof.
  assert (on2 (jac2 (G2ProjectiveOne FqB))) as HP by (rewrite G2pone_jac; exact G2one_on).
  destruct (G2_two_minus_one _ G2pone_canon HP) as [C3 E]. cbv zeta.
  split.
  - apply (G2_equal _ _ G2pone_canon C3). symmetry. exact E.
  - destruct (G2_toaffine _ C3) as [C4 X4]. symmetry. apply G2_aff_inj; [exact G2one_canon|exact C4|reflexivity|]. rewrite X4, E. symmetry. exact G2pone_jac.
Qed.
Lemma G2_ex29 : Proj_Equal FqO2 (Affine_Mul FqO2 (G2AffineOne FqB) (NewFQRepr 3))
  (Add FqO2 (Double FqO2 (G2ProjectiveOne FqB)) (G2ProjectiveOne FqB)) = true.
Proof.
  assert (wf6 (NewFQRepr 3)) as W by (apply wf6_intro; unfold isW; lia).
  destruct (G2_mul _ _ G2one_canon G2one_on W) as [C X]. destruct (G2_double _ G2pone_canon) as [C1 X1]. destruct (G2_add _ _ C1 G2pone_canon) as [C2 X2].
  apply (G2_equal _ _ C C2). rewrite X, X2, X1, G2pone_jac. change (eval6 (NewFQRepr 3)) with 3.
  unfold mul2, plus2. exact (pk_3 E2 _ G2one_on).
Qed.

(** ** Equality of affine objects *)
Definition valid_affine1 (A : Affine FQ) : Prop := canonA1 A /\ on1 (aff1 A) /\ (ainf A = true -> A = AffineZero FqO).
Lemma azero_not_on : ~ on1 (Pt (fqval FQZero) (fqval FQOne)).
Proof.
  intros H. change (fmul (fqval FQOne) (fqval FQOne) = fadd (fmul (fmul (fqval FQZero) (fqval FQZero)) (fqval FQZero)) b1) in H.
  apply (f_equal zof) in H. revert H. unfold fqval. rewrite FQOne_fval, FQZero_fval. unfold fmul, fadd, b1, z2q. rewrite !zof_zp. vm_compute. discriminate.
Qed.
Lemma G1_equals A B : valid_affine1 A -> valid_affine1 B -> (G1Affine_Equals FqO A B = true <-> A = B).
Proof.
  intros (CA & HA & IA) (CB & HB & IB). rewrite (l_aequals1 FqO E1 FpO RFq HR1 FpO_ok fqval canon RFq_iff A B CA CB). split.
  - intros [[X Y]|[X Y]]; [rewrite (IA X), (IB Y); reflexivity|].
    apply fqval_inj in X; [|apply CA|apply CB]. apply fqval_inj in Y; [|apply CA|apply CB].
    destruct A as [x y i], B as [x' y' i']. cbn [ax ay ainf] in *. subst x' y'. destruct i, i'; try reflexivity; exfalso; apply azero_not_on.
    + specialize (IA eq_refl). injection IA as -> ->. exact HB.
    + specialize (IB eq_refl). injection IB as -> ->. exact HA.
  - intros <-. right. auto.
Qed.
Lemma G1_ex27 : valid_affine1 (G1AffineOne FqB) /\ valid_affine1 (AffineZero FqO) /\ G1Affine_Equals FqO (G1AffineOne FqB) (AffineZero FqO) = false.
Proof.
  split; [|split].
  - split; [exact G1one_canon|]. split; [exact G1one_on|]. discriminate.
  - destruct G1_azero as [C X]. split; [exact C|]. split; [rewrite X; exact I|reflexivity].
  - vm_compute. reflexivity.
Qed.
Lemma G2_equals_refuted : exists A B, canonA2 A /\ canonA2 B /\ on2 (aff2 A) /\ on2 (aff2 B) /\ aff2 A <> aff2 B /\ G2Affine_Equals FqO2 A B = true.
Proof.
  exists (G2AffineOne FqB), (Affine_NegAssign FqO2 (G2AffineOne FqB)). destruct (G2_aneg _ G2one_canon) as [C X].
  split; [exact G2one_canon|]. split; [exact C|]. split; [exact G2one_on|]. split; [rewrite X; apply G2_on_neg, G2one_on|]. split; [|vm_compute; reflexivity].
  intros E. apply (G2_aff_inj _ _ G2one_canon C eq_refl) in E. apply (f_equal (fun A => FQ2_Equals FqB (ay A) (ay (G2AffineOne FqB)))) in E. revert E. vm_compute. discriminate.
Qed.
Lemma G2_equals_partial A B : canonA2 A -> canonA2 B ->
  (A = B -> G2Affine_Equals FqO2 A B = true) /\
  (G2Affine_Equals FqO2 A B = true <-> ainf A = ainf B \/ (ax A = ax B /\ ay A = ay B)).
Proof.
  intros CA CB. pose proof (l_aequals2 FqO2 E2 (FQ2O FpB) (R2 RFq) HR2 FpO2_ok val2 canon2 R2_val A B CA CB) as H.
  assert (G2Affine_Equals FqO2 A B = true <-> ainf A = ainf B \/ (ax A = ax B /\ ay A = ay B)) as H'.
  { rewrite H. split; (intros [X|[X Y]]; [left; exact X|right]).
    - split; apply val2_inj; try assumption; try apply CA; apply CB.
    - rewrite X, Y. auto. }
  split; [|exact H']. intros <-. apply H'. auto.
Qed.
(** a concrete case of GetG1PointFromX: x = 0 gives the two roots of 4; x = -2 gives -4, which is not a square *)
Lemma G1_ex31 : (exists y, GetG1PointFromX FqB FQZero true = Some (mkAff FQZero y false) /\ fval y = q - 2) /\
  GetG1PointFromX FqB (FQ_NegAssign (FQ_DoubleAssign FQOne)) true = None.
Proof.
  split.
  - destruct (g1_fromx FQZero true FQZero_canon) as [_ H]. destruct H as (y & E & Cy & Hy & Hg).
    { exists (z2q 2). apply zof_inj. unfold fqval. rewrite FQZero_fval. unfold fmul, fadd, b1, z2q. rewrite !zof_zp. vm_compute. reflexivity. }
    exists y. split; [exact E|].
    assert (fval y = 2 \/ fval y = q - 2) as D.
    { change (fmul (fqval y) (fqval y) = fadd (fmul (fmul (fqval FQZero) (fqval FQZero)) (fqval FQZero)) b1) in Hy.
      assert (fmul (fsub (fqval y) (z2q 2)) (fadd (fqval y) (z2q 2)) = f0 q) as Z.
      { transitivity (fsub (fmul (fqval y) (fqval y)) (fmul (z2q 2) (z2q 2))); [ring|]. rewrite Hy.
        apply zof_inj. unfold fqval. rewrite FQZero_fval. unfold fmul, fadd, fsub, f0, b1, z2q. rewrite !zof_zp. vm_compute. reflexivity. }
      rewrite <- (fqval_zof y Cy).
      apply Fq_integral in Z. destruct Z as [Z|Z]; [left|right].
      - assert (fqval y = z2q 2) as -> by (transitivity (fadd (fsub (fqval y) (z2q 2)) (z2q 2)); [ring|rewrite Z; ring]). unfold z2q. rewrite zof_zp. vm_compute. reflexivity.
      - assert (fqval y = fopp (z2q 2)) as -> by (transitivity (fsub (fadd (fqval y) (z2q 2)) (z2q 2)); [ring|rewrite Z; ring]). unfold fopp, z2q. rewrite !zof_zp. vm_compute. reflexivity. }
    destruct D as [D|D]; [|exact D]. exfalso. assert (fqval y <> f0 q) as N.
    { unfold fqval. rewrite D. apply z2q_ne_0. vm_compute. discriminate. }
    destruct (Hg N) as [Hl _]. specialize (Hl eq_refl). destruct (FQ_NegAssign_spec y Cy) as [_ X]. rewrite X, D in Hl. revert Hl. vm_compute. discriminate.
  - assert (canon (FQ_NegAssign (FQ_DoubleAssign FQOne))) as C by (apply FQ_NegAssign_spec, FQ_DoubleAssign_spec, FQOne_canon).
    destruct (g1_fromx _ true C) as [H _]. apply H. intros s Hs.
    assert (fqval (FQ_NegAssign (FQ_DoubleAssign FQOne)) = fopp (z2q 2)) as V.
    { unfold fqval. rewrite (proj2 (FQ_NegAssign_spec _ (proj1 (FQ_DoubleAssign_spec _ FQOne_canon)))), (proj2 (FQ_DoubleAssign_spec _ FQOne_canon)), FQOne_fval.
      apply zof_inj. unfold fopp, z2q. rewrite !zof_zp. vm_compute. reflexivity. }
    rewrite V in Hs. apply neg1_nonsquare. exists (fdiv s (z2q 2)).
    assert (z2q 2 <> f0 q) as N2 by (apply z2q_ne_0; vm_compute; discriminate).
    assert (b1 = fmul (z2q 2) (z2q 2)) as B by (apply zof_inj; unfold b1, fmul, z2q; rewrite !zof_zp; vm_compute; reflexivity).
    assert (z2q 2 = fadd (f1 q) (f1 q)) as T by (apply zof_inj; unfold f1, fadd, z2q; rewrite !zof_zp; vm_compute; reflexivity).
    transitivity (fdiv (fmul s s) (fmul (z2q 2) (z2q 2))); [field; exact N2|]. rewrite Hs, B.
    transitivity (fsub (f1 q) (z2q 2)); [field; exact N2|]. rewrite T. ring.
Qed.
