(** The functions of g1.go and g2.go without loops, run from their source text, compute the model. *)
Require Import ZArith Bool String List Lia.
From Verif Require Import Words ModelRepr ModelFq ModelFr ModelOps ModelTower ModelCurve ModelPairing ModelHash ModelBls SrcAst SrcSem SrcCode SrcCall SrcTac.
Import ListNotations.
Open Scope Z_scope.

Section S.
Context {F : Type} (B : BOps F).
Lemma src_NewG1Affine_ok n x y : runB B n src_NewG1Affine [VF x; VF y] = Done [] [VA1 (NewAffine x y)].
Proof. intros. unfold NewAffine. src. Qed.
Lemma src_G1Affine_Copy_ok n g : runB B n src_G1Affine_Copy [VA1 g] = Done [] [VA1 g].
Proof. intros. src. Qed.
Lemma src_G1Affine_IsZero_ok n g : runB B n src_G1Affine_IsZero [VA1 g] = Done [] [VB (Affine_IsZero g)].
Proof. intros. unfold Affine_IsZero. src. Qed.
Lemma src_G1Affine_NegAssign_ok n g : runB B n src_G1Affine_NegAssign [VA1 g] = Done [VA1 (Affine_NegAssign (b_ops B) g)] [].
Proof. intros. unfold Affine_NegAssign. src. Qed.
Lemma src_G1Affine_ToProjective_ok n g : runB B n src_G1Affine_ToProjective [VA1 g] = Done [] [VP1 (Affine_ToProjective (b_ops B) g)].
Proof. intros. unfold Affine_ToProjective. src. Qed.
Lemma src_G1Affine_IsOnCurve_ok n g : runB B n src_G1Affine_IsOnCurve [VA1 g] = Done [] [VB (G1_IsOnCurve B g)].
Proof. intros. unfold G1_IsOnCurve, IsOnCurve. src. Qed.
Lemma src_GetG1PointFromX_ok n x greatest : runB B n src_GetG1PointFromX [VF x; VB greatest] = Done [] (orerr VA1 (GetG1PointFromX B x greatest)).
Proof. intros. unfold GetG1PointFromX, GetPointFromX. src. Qed.
Lemma src_G1Affine_IsInCorrectSubgroupAssumingOnCurve_ok n g : runB B n src_G1Affine_IsInCorrectSubgroupAssumingOnCurve [VA1 g] = Done [] [VB (G1_IsInCorrectSubgroupAssumingOnCurve B g)].
Proof. intros. unfold G1_IsInCorrectSubgroupAssumingOnCurve. src. Qed.
Lemma src_G1Affine_ScaleByCofactor_ok n g : runB B n src_G1Affine_ScaleByCofactor [VA1 g] = Done [] [VP1 (G1_ScaleByCofactor B g)].
Proof. intros. unfold G1_ScaleByCofactor. src. Qed.
Lemma src_G1Affine_Equals_ok n g h : runB B n src_G1Affine_Equals [VA1 g; VA1 h] = Done [VA1 h] [VB (G1Affine_Equals (b_ops B) g h)].
Proof. intros. unfold G1Affine_Equals. src. Qed.
Lemma src_DecompressG1_ok n b : runB B n src_DecompressG1 [VBy b] = Done [] (orerr VA1 (DecompressG1 B b)).
Proof. intros. unfold DecompressG1. src. Qed.
Lemma src_NewG1Projective_ok n x y z : runB B n src_NewG1Projective [VF x; VF y; VF z] = Done [] [VP1 (mkProj x y z)].
Proof. intros. src. Qed.
Lemma src_G1Projective_Copy_ok n g : runB B n src_G1Projective_Copy [VP1 g] = Done [] [VP1 g].
Proof. intros. src. Qed.
Lemma src_G1Projective_NegAssign_ok n g : runB B n src_G1Projective_NegAssign [VP1 g] = Done [VP1 (Proj_NegAssign (b_ops B) g)] [].
Proof. intros. unfold Proj_NegAssign. src. Qed.
Lemma src_G1Projective_IsZero_ok n g : runB B n src_G1Projective_IsZero [VP1 g] = Done [] [VB (Proj_IsZero (b_ops B) g)].
Proof. intros. unfold Proj_IsZero. src. Qed.
Lemma src_G1Projective_Equal_ok n g h : runB B n src_G1Projective_Equal [VP1 g; VP1 h] = Done [VP1 h] [VB (Proj_Equal (b_ops B) g h)].
Proof. intros. unfold Proj_Equal. src. Qed.
Lemma src_G1Projective_ToAffine_ok n g : runB B n src_G1Projective_ToAffine [VP1 g] = Done [] [VA1 (G1_ToAffine (b_ops B) g)].
Proof. intros. unfold G1_ToAffine, ToAffine_div. src. Qed.
Lemma src_G1Projective_Double_ok n g : runB B n src_G1Projective_Double [VP1 g] = Done [] [VP1 (Double (b_ops B) g)].
Proof. intros. unfold Double. src. Qed.
Lemma src_G1Projective_Add_ok n g h : runB B n src_G1Projective_Add [VP1 g; VP1 h] = Done [VP1 h] [VP1 (Add (b_ops B) g h)].
Proof. intros. unfold Add. src. Qed.
Lemma src_G1Projective_AddAffine_ok n g h : runB B n src_G1Projective_AddAffine [VP1 g; VA1 h] = Done [VA1 h] [VP1 (AddAffine (b_ops B) g h)].
Proof. intros. unfold AddAffine. src. Qed.
Lemma src_NewG2Affine_ok n x y : runB B n src_NewG2Affine [V2 x; V2 y] = Done [] [VA2 (NewAffine x y)].
Proof. intros. unfold NewAffine. src. Qed.
Lemma src_G2Affine_Copy_ok n g : runB B n src_G2Affine_Copy [VA2 g] = Done [] [VA2 g].
Proof. intros. src. Qed.
Lemma src_G2Affine_IsZero_ok n g : runB B n src_G2Affine_IsZero [VA2 g] = Done [] [VB (Affine_IsZero g)].
Proof. intros. unfold Affine_IsZero. src. Qed.
Lemma src_G2Affine_NegAssign_ok n g : runB B n src_G2Affine_NegAssign [VA2 g] = Done [VA2 (Affine_NegAssign (FQ2O B) g)] [].
Proof. intros. unfold Affine_NegAssign. src2. Qed.
Lemma src_G2Affine_ToProjective_ok n g : runB B n src_G2Affine_ToProjective [VA2 g] = Done [] [VP2 (Affine_ToProjective (FQ2O B) g)].
Proof. intros. unfold Affine_ToProjective. src2. Qed.
Lemma src_G2Affine_IsOnCurve_ok n g : runB B n src_G2Affine_IsOnCurve [VA2 g] = Done [] [VB (G2_IsOnCurve B g)].
Proof. intros. unfold G2_IsOnCurve, IsOnCurve. src2. Qed.
Lemma src_GetG2PointFromX_ok n x greatest : runB B n src_GetG2PointFromX [V2 x; VB greatest] = Done [] (orerr VA2 (GetG2PointFromX B x greatest)).
Proof. intros. unfold GetG2PointFromX, GetPointFromX. src2. Qed.
Lemma src_G2Affine_IsInCorrectSubgroupAssumingOnCurve_ok n g : runB B n src_G2Affine_IsInCorrectSubgroupAssumingOnCurve [VA2 g] = Done [] [VB (G2_IsInCorrectSubgroupAssumingOnCurve B g)].
Proof. intros. unfold G2_IsInCorrectSubgroupAssumingOnCurve. src. Qed.
Lemma src_G2Affine_ScaleByCofactor_ok n g : runB B n src_G2Affine_ScaleByCofactor [VA2 g] = Done [] [VP2 (G2_ScaleByCofactor B g)].
Proof. intros. unfold G2_ScaleByCofactor. src. Qed.
Lemma src_G2Affine_Equals_ok n g h : runB B n src_G2Affine_Equals [VA2 g; VA2 h] = Done [VA2 h] [VB (G2Affine_Equals (FQ2O B) g h)].
Proof. intros. unfold G2Affine_Equals. src2. Qed.
Lemma src_DecompressG2_ok n b : runB B n src_DecompressG2 [VBy b] = Done [] (orerr VA2 (DecompressG2 B b)).
Proof. intros. unfold DecompressG2. src. Qed.
Lemma src_NewG2Projective_ok n x y z : runB B n src_NewG2Projective [V2 x; V2 y; V2 z] = Done [] [VP2 (mkProj x y z)].
Proof. intros. src. Qed.
Lemma src_G2Projective_Copy_ok n g : runB B n src_G2Projective_Copy [VP2 g] = Done [] [VP2 g].
Proof. intros. src. Qed.
Lemma src_G2Projective_IsZero_ok n g : runB B n src_G2Projective_IsZero [VP2 g] = Done [] [VB (Proj_IsZero (FQ2O B) g)].
Proof. intros. unfold Proj_IsZero. src2. Qed.
Lemma src_G2Projective_Equals_ok n g h : runB B n src_G2Projective_Equals [VP2 g; VP2 h] = Done [VP2 h] [VB (Proj_Equal (FQ2O B) g h)].
Proof. intros. unfold Proj_Equal. src2. Qed.
Lemma src_G2Projective_ToAffine_ok n g : runB B n src_G2Projective_ToAffine [VP2 g] = Done [] [VA2 (G2_ToAffine (FQ2O B) g)].
Proof. intros. unfold G2_ToAffine, ToAffine_div. src2. Qed.
Lemma src_G2Projective_Double_ok n g : runB B n src_G2Projective_Double [VP2 g] = Done [] [VP2 (Double (FQ2O B) g)].
Proof. intros. unfold Double. src2. Qed.
Lemma src_G2Projective_Add_ok n g h : runB B n src_G2Projective_Add [VP2 g; VP2 h] = Done [VP2 h] [VP2 (Add (FQ2O B) g h)].
Proof. intros. unfold Add. src2. Qed.
Lemma src_G2Projective_AddAffine_ok n g h : runB B n src_G2Projective_AddAffine [VP2 g; VA2 h] = Done [VA2 h] [VP2 (AddAffine (FQ2O B) g h)].
Proof. intros. unfold AddAffine. src2. Qed.
End S.
