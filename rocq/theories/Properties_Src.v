(** C81: the functions of the package, run statement by statement from their source text, compute the functions of the model.

    [runB B n src_F args] runs the syntax tree of the Go function F (SrcCode.v, written from the text of the repository by
    tools/gen_srccode.py) on [args] with the meaning of SrcSem.v; functions and methods that F calls are those of the model. [n] bounds
    the number of turns of a loop. [Done ps rs]: the run ends without panic, the parameters the caller can see (pointers, slices) have
    the values [ps], the results are [rs]. Each line holds for every field [B], every bound and all arguments.
    [runL n src_F args] is the same for the functions below the towers, on limbs (the FQ of the values is the record of six words). *)
Require Import ZArith Bool String List.
From Verif Require Import Words ModelRepr ModelFq ModelFr ModelOps ModelTower ModelCurve ModelPairing ModelHash ModelBls ModelStr ReprProofs FqProofs FqProofs2 FrProofs
  SrcAst SrcSem SrcCode SrcCall SrcTac SrcLimb SrcTower SrcCurve SrcLoops SrcLoops2 SrcBytes SrcPairing SrcPairing2 SrcPairing3 SrcHash SrcBls SrcBls2 SrcRepr SrcRepr2 SrcFq SrcFq2.
Import ListNotations.
Open Scope Z_scope.

(** fq2.go: 21 functions *)
Theorem C81_fq2_source : forall (F : Type) (B : BOps F),
  (forall n x y, runB B n src_NewFQ2 [VF x; VF y] = Done [] [V2 (mkFQ2 x y)]) /\
  (forall n f g, runB B n src_FQ2_Cmp [V2 f; V2 g] = Done [] [VI (FQ2_Cmp B f g)]) /\
  (forall n f, runB B n src_FQ2_MultiplyByNonresidueAssign [V2 f] = Done [V2 (FQ2_MultiplyByNonresidueAssign B f)] []) /\
  (forall n f, runB B n src_FQ2_Norm [V2 f] = Done [V2 f] [VF (FQ2_Norm B f)]) /\
  (forall n f, runB B n src_FQ2_IsZero [V2 f] = Done [] [VB (FQ2_IsZero B f)]) /\
  (forall n f, runB B n src_FQ2_SquareAssign [V2 f] = Done [V2 (FQ2_SquareAssign B f)] []) /\
  (forall n f, runB B n src_FQ2_DoubleAssign [V2 f] = Done [V2 (FQ2_DoubleAssign B f)] []) /\
  (forall n f, runB B n src_FQ2_NegAssign [V2 f] = Done [V2 (FQ2_NegAssign B f)] []) /\
  (forall n f g, runB B n src_FQ2_AddAssign [V2 f; V2 g] = Done [V2 (FQ2_AddAssign B f g)] []) /\
  (forall n f g, runB B n src_FQ2_SubAssign [V2 f; V2 g] = Done [V2 (FQ2_SubAssign B f g)] []) /\
  (forall n f g, runB B n src_FQ2_MulAssign [V2 f; V2 g] = Done [V2 (FQ2_MulAssign B f g)] []) /\
  (forall n f, runB B n src_FQ2_InverseAssign [V2 f] = Done [V2 (fst (FQ2_InverseAssign B f))] [VB (snd (FQ2_InverseAssign B f))]) /\
  (forall n f g, runB B n src_FQ2_Equals [V2 f; V2 g] = Done [] [VB (FQ2_Equals B f g)]) /\
  (forall n f, runB B n src_FQ2_Sqrt [V2 f] = Done [] [V2 (fst (FQ2_Sqrt B f)); VB (snd (FQ2_Sqrt B f))]) /\
  (forall n f, runB B n src_FQ2_Copy [V2 f] = Done [V2 f] [V2 f]) /\
  (forall n f, runB B n src_FQ2_Parity [V2 f] = Done [] [VB (FQ2_Parity B f)]) /\
  (forall n f, runB B n src_FQ2_Legendre [V2 f] = Done [] [leg (FQ2_Legendre B f)]) /\
  (forall n f g, runB B n src_FQ2_DivAssign [V2 f; V2 g] = Done [V2 (FQ2_DivAssign B f g)] []) /\
  (forall k f n, runB B (385 + k) src_FQ2_Exp [V2 f; VR n] = Done [] [V2 (FQ2_Exp B f n)]) /\
  (forall n f b, runB B (Z.to_nat (big_BitLen b) + S n) src_FQ2_MulBits [V2 f; VBig b] = Done [VBig b] [V2 (FQ2_MulBits B f b)]) /\
  (forall n f p, runB B n src_FQ2_FrobeniusMapAssign [V2 f; VU 8 p] = Done [V2 (FQ2_FrobeniusMapAssign B f p)] []).
Proof. exact (fun F B => conj (src_NewFQ2_ok B) (conj (src_FQ2_Cmp_ok B) (conj (src_FQ2_MultiplyByNonresidueAssign_ok B) (conj (src_FQ2_Norm_ok B) (conj (src_FQ2_IsZero_ok B) (conj (src_FQ2_SquareAssign_ok B) (conj (src_FQ2_DoubleAssign_ok B) (conj (src_FQ2_NegAssign_ok B) (conj (src_FQ2_AddAssign_ok B) (conj (src_FQ2_SubAssign_ok B) (conj (src_FQ2_MulAssign_ok B) (conj (src_FQ2_InverseAssign_ok B) (conj (src_FQ2_Equals_ok B) (conj (src_FQ2_Sqrt_ok B) (conj (src_FQ2_Copy_ok B) (conj (src_FQ2_Parity_ok B) (conj (src_FQ2_Legendre_ok B) (conj (src_FQ2_DivAssign_ok B) (conj (src_FQ2_Exp_ok B) (conj (src_FQ2_MulBits_ok B) (@src_FQ2_FrobeniusMapAssign_ok F B))))))))))))))))))))). Qed.
Print Assumptions C81_fq2_source.

(** fq6.go: 17 functions *)
Theorem C81_fq6_source : forall (F : Type) (B : BOps F),
  (forall n x y z, runB B n src_NewFQ6 [V2 x; V2 y; V2 z] = Done [] [V6 (mkFQ6 x y z)]) /\
  (forall n f, runB B n src_FQ6_Copy [V6 f] = Done [] [V6 f]) /\
  (forall n f, runB B n src_FQ6_MulByNonresidueAssign [V6 f] = Done [V6 (FQ6_MulByNonresidueAssign B f)] []) /\
  (forall n f c1, runB B n src_FQ6_MulBy1Assign [V6 f; V2 c1] = Done [V6 (FQ6_MulBy1Assign B f c1)] []) /\
  (forall n f c0 c1, runB B n src_FQ6_MulBy01Assign [V6 f; V2 c0; V2 c1] = Done [V6 (FQ6_MulBy01Assign B f c0 c1)] []) /\
  (forall n f g, runB B n src_FQ6_Equals [V6 f; V6 g] = Done [V6 g] [VB (FQ6_Equals B f g)]) /\
  (forall n f, runB B n src_FQ6_IsZero [V6 f] = Done [] [VB (FQ6_IsZero B f)]) /\
  (forall n f, runB B n src_FQ6_DoubleAssign [V6 f] = Done [V6 (FQ6_DoubleAssign B f)] []) /\
  (forall n f, runB B n src_FQ6_NegAssign [V6 f] = Done [V6 (FQ6_NegAssign B f)] []) /\
  (forall n f, runB B n src_FQ6_SquareAssign [V6 f] = Done [V6 (FQ6_SquareAssign B f)] []) /\
  (forall n f g, runB B n src_FQ6_AddAssign [V6 f; V6 g] = Done [V6 (FQ6_AddAssign B f g); V6 g] []) /\
  (forall n f g, runB B n src_FQ6_SubAssign [V6 f; V6 g] = Done [V6 (FQ6_SubAssign B f g); V6 g] []) /\
  (forall n f g, runB B n src_FQ6_MulAssign [V6 f; V6 g] = Done [V6 (FQ6_MulAssign B f g); V6 g] []) /\
  (forall n f, runB B n src_FQ6_InverseAssign [V6 f] = Done [V6 (fst (FQ6_InverseAssign B f))] [VB (snd (FQ6_InverseAssign B f))]) /\
  (forall k f n, wf6 n -> runB B (385 + k) src_FQ6_Exp [V6 f; VR n] = Done [VR n] [V6 (FQ6_Exp B f n)]) /\
  (forall n f, runB B n (alias "other" "f" src_FQ6_MulAssign) [V6 f] = Done [V6 (FQ6_MulAssign_aliased B f)] []) /\
  (forall n f p, runB B n src_FQ6_FrobeniusMapAssign [V6 f; VU 8 p] = Done [V6 (FQ6_FrobeniusMapAssign B f p)] []).
Proof. exact (fun F B => conj (src_NewFQ6_ok B) (conj (src_FQ6_Copy_ok B) (conj (src_FQ6_MulByNonresidueAssign_ok B) (conj (src_FQ6_MulBy1Assign_ok B) (conj (src_FQ6_MulBy01Assign_ok B) (conj (src_FQ6_Equals_ok B) (conj (src_FQ6_IsZero_ok B) (conj (src_FQ6_DoubleAssign_ok B) (conj (src_FQ6_NegAssign_ok B) (conj (src_FQ6_SquareAssign_ok B) (conj (src_FQ6_AddAssign_ok B) (conj (src_FQ6_SubAssign_ok B) (conj (src_FQ6_MulAssign_ok B) (conj (src_FQ6_InverseAssign_ok B) (conj (src_FQ6_Exp_ok B) (conj (src_FQ6_MulAssign_alias_ok B) (@src_FQ6_FrobeniusMapAssign_ok F B))))))))))))))))). Qed.
Print Assumptions C81_fq6_source.

(** fq12.go: 16 functions *)
Theorem C81_fq12_source : forall (F : Type) (B : BOps F),
  (forall n x y, runB B n src_NewFQ12 [V6 x; V6 y] = Done [VMoved; VMoved] [V12 (mkFQ12 x y)]) /\
  (forall n f, runB B n src_FQ12_Copy [V12 f] = Done [] [V12 f]) /\
  (forall n f, runB B n src_FQ12_ConjugateAssign [V12 f] = Done [V12 (FQ12_ConjugateAssign B f)] []) /\
  (forall n f, runB B n src_FQ12_DoubleAssign [V12 f] = Done [V12 (FQ12_DoubleAssign B f)] []) /\
  (forall n f, runB B n src_FQ12_NegAssign [V12 f] = Done [V12 (FQ12_NegAssign B f)] []) /\
  (forall n f, runB B n src_FQ12_SquareAssign [V12 f] = Done [V12 (FQ12_SquareAssign B f)] []) /\
  (forall n f c0 c1 c4, runB B n src_FQ12_MulBy014Assign [V12 f; V2 c0; V2 c1; V2 c4] = Done [V12 (FQ12_MulBy014Assign B f c0 c1 c4)] []) /\
  (forall n f g, runB B n src_FQ12_AddAssign [V12 f; V12 g] = Done [V12 (FQ12_AddAssign B f g); V12 g] []) /\
  (forall n f g, runB B n src_FQ12_SubAssign [V12 f; V12 g] = Done [V12 (FQ12_SubAssign B f g); V12 g] []) /\
  (forall n f g, runB B n src_FQ12_MulAssign [V12 f; V12 g] = Done [V12 (FQ12_MulAssign B f g); V12 g] []) /\
  (forall n f g, runB B n src_FQ12_Equals [V12 f; V12 g] = Done [V12 g] [VB (FQ12_Equals B f g)]) /\
  (forall n f, runB B n src_FQ12_IsZero [V12 f] = Done [V12 f] [VB (FQ12_IsZero B f)]) /\
  (forall n f, runB B n src_FQ12_InverseAssign [V12 f] = Done [V12 (fst (FQ12_InverseAssign B f))] [VB (snd (FQ12_InverseAssign B f))]) /\
  (forall k f n, wf6 n -> runB B (385 + k) src_FQ12_Exp [V12 f; VR n] = Done [] [V12 (FQ12_Exp B f n)]) /\
  (forall n f, runB B n (alias "other" "f" src_FQ12_MulAssign) [V12 f] = Done [V12 (FQ12_MulAssign B f f)] []) /\
  (forall n f p, runB B n src_FQ12_FrobeniusMapAssign [V12 f; VU 8 p] = Done [V12 (FQ12_FrobeniusMapAssign B f p)] []).
Proof. exact (fun F B => conj (src_NewFQ12_ok B) (conj (src_FQ12_Copy_ok B) (conj (src_FQ12_ConjugateAssign_ok B) (conj (src_FQ12_DoubleAssign_ok B) (conj (src_FQ12_NegAssign_ok B) (conj (src_FQ12_SquareAssign_ok B) (conj (src_FQ12_MulBy014Assign_ok B) (conj (src_FQ12_AddAssign_ok B) (conj (src_FQ12_SubAssign_ok B) (conj (src_FQ12_MulAssign_ok B) (conj (src_FQ12_Equals_ok B) (conj (src_FQ12_IsZero_ok B) (conj (src_FQ12_InverseAssign_ok B) (conj (src_FQ12_Exp_ok B) (conj (src_FQ12_MulAssign_alias_ok B) (@src_FQ12_FrobeniusMapAssign_ok F B)))))))))))))))). Qed.
Print Assumptions C81_fq12_source.

(** g1.go: 28 functions *)
Theorem C81_g1_source : forall (F : Type) (B : BOps F),
  (forall n x y, runB B n src_NewG1Affine [VF x; VF y] = Done [] [VA1 (NewAffine x y)]) /\
  (forall n g, runB B n src_G1Affine_Copy [VA1 g] = Done [] [VA1 g]) /\
  (forall n g, runB B n src_G1Affine_IsZero [VA1 g] = Done [] [VB (Affine_IsZero g)]) /\
  (forall n g, runB B n src_G1Affine_NegAssign [VA1 g] = Done [VA1 (Affine_NegAssign (b_ops B) g)] []) /\
  (forall n g, runB B n src_G1Affine_ToProjective [VA1 g] = Done [] [VP1 (Affine_ToProjective (b_ops B) g)]) /\
  (forall n g, runB B n src_G1Affine_IsOnCurve [VA1 g] = Done [] [VB (G1_IsOnCurve B g)]) /\
  (forall n x greatest, runB B n src_GetG1PointFromX [VF x; VB greatest] = Done [] (orerr VA1 (GetG1PointFromX B x greatest))) /\
  (forall n g, runB B n src_G1Affine_IsInCorrectSubgroupAssumingOnCurve [VA1 g] = Done [] [VB (G1_IsInCorrectSubgroupAssumingOnCurve B g)]) /\
  (forall n g, runB B n src_G1Affine_ScaleByCofactor [VA1 g] = Done [] [VP1 (G1_ScaleByCofactor B g)]) /\
  (forall n g h, runB B n src_G1Affine_Equals [VA1 g; VA1 h] = Done [VA1 h] [VB (G1Affine_Equals (b_ops B) g h)]) /\
  (forall n b, runB B n src_DecompressG1 [VBy b] = Done [] (orerr VA1 (DecompressG1 B b))) /\
  (forall n x y z, runB B n src_NewG1Projective [VF x; VF y; VF z] = Done [] [VP1 (mkProj x y z)]) /\
  (forall n g, runB B n src_G1Projective_Copy [VP1 g] = Done [] [VP1 g]) /\
  (forall n g, runB B n src_G1Projective_NegAssign [VP1 g] = Done [VP1 (Proj_NegAssign (b_ops B) g)] []) /\
  (forall n g, runB B n src_G1Projective_IsZero [VP1 g] = Done [] [VB (Proj_IsZero (b_ops B) g)]) /\
  (forall n g h, runB B n src_G1Projective_Equal [VP1 g; VP1 h] = Done [VP1 h] [VB (Proj_Equal (b_ops B) g h)]) /\
  (forall n g, runB B n src_G1Projective_ToAffine [VP1 g] = Done [] [VA1 (G1_ToAffine (b_ops B) g)]) /\
  (forall n g, runB B n src_G1Projective_Double [VP1 g] = Done [] [VP1 (Double (b_ops B) g)]) /\
  (forall n g h, runB B n src_G1Projective_Add [VP1 g; VP1 h] = Done [VP1 h] [VP1 (Add (b_ops B) g h)]) /\
  (forall n g h, runB B n src_G1Projective_AddAffine [VP1 g; VA1 h] = Done [VA1 h] [VP1 (AddAffine (b_ops B) g h)]) /\
  (forall n g b, wf6 b -> runB B (385 + n) src_G1Affine_Mul [VA1 g; VR b] = Done [] [VP1 (Affine_Mul (b_ops B) g b)]) /\
  (forall n g b, wf4 b -> runB B (257 + n) src_G1Affine_MulFR [VA1 g; VRr b] = Done [VRr b] [VP1 (Affine_MulFR (b_ops B) g b)]) /\
  (forall n g b, wf6 b -> runB B (385 + n) src_G1Projective_Mul [VP1 g; VR b] = Done [] [VP1 (Proj_Mul (b_ops B) g b)]) /\
  (forall n g b, wf4 b -> runB B (257 + n) src_G1Projective_MulFR [VP1 g; VRr b] = Done [VRr b] [VP1 (Proj_MulFR (b_ops B) g b)]) /\
  (forall n g, runB B n src_G1Affine_SerializeBytes [VA1 g] = Done [VA1 g] [VBy (G1_SerializeBytes B g)]) /\
  (forall n g b, length b = 96%nat -> runB B n src_G1Affine_SetRawBytes [VA1 g; VBy b] = Done [VA1 (G1_SetRawBytes B g b)] []) /\
  (forall n b, length b = 48%nat -> runB B (S n) src_DecompressG1Unchecked [VBy b] = Done [] (orerr VA1 (DecompressG1Unchecked B b))) /\
  (forall n g, runB B n src_CompressG1 [VA1 g] = Done [VA1 g] [VBy (CompressG1 B g)]).
Proof. exact (fun F B => conj (src_NewG1Affine_ok B) (conj (src_G1Affine_Copy_ok B) (conj (src_G1Affine_IsZero_ok B) (conj (src_G1Affine_NegAssign_ok B) (conj (src_G1Affine_ToProjective_ok B) (conj (src_G1Affine_IsOnCurve_ok B) (conj (src_GetG1PointFromX_ok B) (conj (src_G1Affine_IsInCorrectSubgroupAssumingOnCurve_ok B) (conj (src_G1Affine_ScaleByCofactor_ok B) (conj (src_G1Affine_Equals_ok B) (conj (src_DecompressG1_ok B) (conj (src_NewG1Projective_ok B) (conj (src_G1Projective_Copy_ok B) (conj (src_G1Projective_NegAssign_ok B) (conj (src_G1Projective_IsZero_ok B) (conj (src_G1Projective_Equal_ok B) (conj (src_G1Projective_ToAffine_ok B) (conj (src_G1Projective_Double_ok B) (conj (src_G1Projective_Add_ok B) (conj (src_G1Projective_AddAffine_ok B) (conj (src_G1Affine_Mul_ok B) (conj (src_G1Affine_MulFR_ok B) (conj (src_G1Projective_Mul_ok B) (conj (src_G1Projective_MulFR_ok B) (conj (src_G1Affine_SerializeBytes_ok B) (conj (src_G1Affine_SetRawBytes_ok B) (conj (src_DecompressG1Unchecked_ok B) (@src_CompressG1_ok F B)))))))))))))))))))))))))))). Qed.
Print Assumptions C81_g1_source.

(** g2.go: 30 functions *)
Theorem C81_g2_source : forall (F : Type) (B : BOps F),
  (forall n x y, runB B n src_NewG2Affine [V2 x; V2 y] = Done [] [VA2 (NewAffine x y)]) /\
  (forall n g, runB B n src_G2Affine_Copy [VA2 g] = Done [] [VA2 g]) /\
  (forall n g, runB B n src_G2Affine_IsZero [VA2 g] = Done [] [VB (Affine_IsZero g)]) /\
  (forall n g, runB B n src_G2Affine_NegAssign [VA2 g] = Done [VA2 (Affine_NegAssign (FQ2O B) g)] []) /\
  (forall n g, runB B n src_G2Affine_ToProjective [VA2 g] = Done [] [VP2 (Affine_ToProjective (FQ2O B) g)]) /\
  (forall n g, runB B n src_G2Affine_IsOnCurve [VA2 g] = Done [] [VB (G2_IsOnCurve B g)]) /\
  (forall n x greatest, runB B n src_GetG2PointFromX [V2 x; VB greatest] = Done [] (orerr VA2 (GetG2PointFromX B x greatest))) /\
  (forall n g, runB B n src_G2Affine_IsInCorrectSubgroupAssumingOnCurve [VA2 g] = Done [] [VB (G2_IsInCorrectSubgroupAssumingOnCurve B g)]) /\
  (forall n g, runB B n src_G2Affine_ScaleByCofactor [VA2 g] = Done [] [VP2 (G2_ScaleByCofactor B g)]) /\
  (forall n g h, runB B n src_G2Affine_Equals [VA2 g; VA2 h] = Done [VA2 h] [VB (G2Affine_Equals (FQ2O B) g h)]) /\
  (forall n b, runB B n src_DecompressG2 [VBy b] = Done [] (orerr VA2 (DecompressG2 B b))) /\
  (forall n x y z, runB B n src_NewG2Projective [V2 x; V2 y; V2 z] = Done [] [VP2 (mkProj x y z)]) /\
  (forall n g, runB B n src_G2Projective_Copy [VP2 g] = Done [] [VP2 g]) /\
  (forall n g, runB B n src_G2Projective_IsZero [VP2 g] = Done [] [VB (Proj_IsZero (FQ2O B) g)]) /\
  (forall n g h, runB B n src_G2Projective_Equals [VP2 g; VP2 h] = Done [VP2 h] [VB (Proj_Equal (FQ2O B) g h)]) /\
  (forall n g, runB B n src_G2Projective_ToAffine [VP2 g] = Done [] [VA2 (G2_ToAffine (FQ2O B) g)]) /\
  (forall n g, runB B n src_G2Projective_Double [VP2 g] = Done [] [VP2 (Double (FQ2O B) g)]) /\
  (forall n g h, runB B n src_G2Projective_Add [VP2 g; VP2 h] = Done [VP2 h] [VP2 (Add (FQ2O B) g h)]) /\
  (forall n g h, runB B n src_G2Projective_AddAffine [VP2 g; VA2 h] = Done [VA2 h] [VP2 (AddAffine (FQ2O B) g h)]) /\
  (forall n g b, wf6 b -> runB B (385 + n) src_G2Affine_Mul [VA2 g; VR b] = Done [] [VP2 (Affine_Mul (FQ2O B) g b)]) /\
  (forall n g b, wf4 b -> runB B (257 + n) src_G2Affine_MulFR [VA2 g; VRr b] = Done [VRr b] [VP2 (Affine_MulFR (FQ2O B) g b)]) /\
  (forall n g b, wf6 b -> runB B (385 + n) src_G2Projective_Mul [VP2 g; VR b] = Done [] [VP2 (Proj_Mul (FQ2O B) g b)]) /\
  (forall n g b, wf4 b -> runB B (257 + n) src_G2Projective_MulFR [VP2 g; VRr b] = Done [VRr b] [VP2 (Proj_MulFR (FQ2O B) g b)]) /\
  (forall n g b, runB B (Z.to_nat (big_BitLen b) + S n) src_G2Affine_MulBig [VA2 g; VBig b] = Done [] [VP2 (Affine_MulBig (FQ2O B) g b)]) /\
  (forall n g, runB B n src_G2Affine_SerializeBytes [VA2 g] = Done [VA2 g] [VBy (G2_SerializeBytes B g)]) /\
  (forall n g b, length b = 192%nat -> runB B n src_G2Affine_SetRawBytes [VA2 g; VBy b] = Done [VA2 (G2_SetRawBytes B g b)] [VN]) /\
  (forall n b, length b = 96%nat -> runB B (S n) src_DecompressG2Unchecked [VBy b] = Done [] (orerr VA2 (DecompressG2Unchecked B b))) /\
  (forall n g, runB B n src_CompressG2 [VA2 g] = Done [VA2 g] [VBy (CompressG2 B g)]) /\
  (forall n q, runB B n src_G2Prepared_IsZero [prepV q] = Done [] [VB (pinf q)]) /\
  (forall n q, runB B (65 + n) src_G2AffineToPrepared [VA2 q] = Done [VA2 q] [prepV (G2AffineToPrepared B q)]).
Proof. exact (fun F B => conj (src_NewG2Affine_ok B) (conj (src_G2Affine_Copy_ok B) (conj (src_G2Affine_IsZero_ok B) (conj (src_G2Affine_NegAssign_ok B) (conj (src_G2Affine_ToProjective_ok B) (conj (src_G2Affine_IsOnCurve_ok B) (conj (src_GetG2PointFromX_ok B) (conj (src_G2Affine_IsInCorrectSubgroupAssumingOnCurve_ok B) (conj (src_G2Affine_ScaleByCofactor_ok B) (conj (src_G2Affine_Equals_ok B) (conj (src_DecompressG2_ok B) (conj (src_NewG2Projective_ok B) (conj (src_G2Projective_Copy_ok B) (conj (src_G2Projective_IsZero_ok B) (conj (src_G2Projective_Equals_ok B) (conj (src_G2Projective_ToAffine_ok B) (conj (src_G2Projective_Double_ok B) (conj (src_G2Projective_Add_ok B) (conj (src_G2Projective_AddAffine_ok B) (conj (src_G2Affine_Mul_ok B) (conj (src_G2Affine_MulFR_ok B) (conj (src_G2Projective_Mul_ok B) (conj (src_G2Projective_MulFR_ok B) (conj (src_G2Affine_MulBig_ok B) (conj (src_G2Affine_SerializeBytes_ok B) (conj (src_G2Affine_SetRawBytes_ok B) (conj (src_DecompressG2Unchecked_ok B) (conj (src_CompressG2_ok B) (conj (src_G2Prepared_IsZero_ok B) (@src_G2AffineToPrepared_ok F B)))))))))))))))))))))))))))))). Qed.
Print Assumptions C81_g2_source.

(** pairing.go: 4 functions *)
Theorem C81_pairing_source : forall (F : Type) (B : BOps F),
  (forall n r, runB B n src_FinalExponentiation [V12 r] = Done [V12 r] [match FinalExponentiation B r with Some f => V12 f | None => VN end]) /\
  (forall n p q, runB B n src_Pairing [VP1 p; VP2 q] = match MillerLoop B [(G1_ToAffine (b_ops B) p, G2AffineToPrepared B (G2_ToAffine (FQ2O B) q))] with | Some f => Done [VP1 p; VP2 q] [match FinalExponentiation B f with Some e => V12 e | None => VN end] | None => Panic end) /\
  (forall n P1 Q1 P2 Q2, runB B n src_CompareTwoPairings [VP1 P1; VP2 Q1; VP1 P2; VP2 Q2] = match CompareTwoPairings B P1 Q1 P2 Q2 with | Some b => Done [VP1 P1; VP2 Q1; VP1 P2; VP2 Q2] [VB b] | None => Panic end) /\
  (forall n its, runB B (65 + n) src_MillerLoop [VMI its] = match MillerLoop B its with Some f => Done [VMI its] [V12 f] | None => Panic end).
Proof. exact (fun F B => conj (src_FinalExponentiation_ok B) (conj (src_Pairing_ok B) (conj (src_CompareTwoPairings_ok B) (@src_MillerLoop_ok F B)))). Qed.
Print Assumptions C81_pairing_source.

(** hash.go and the hashing functions of g1.go, g2.go, fq2.go and fr.go: 21 functions, for every hash function sha *)
Theorem C81_hash_source : forall (sha : list Z -> list Z) (F : Type) (B : BOps F),
  (forall n g, runT B (t_hash sha B) n src_psi [VA2 g] = Done [VA2 g] [VA2 (psi B g)]) /\
  (forall n p, runT B (t_hash sha B) n src_ClearH [VA1 p] = Done [VA1 p] [VA1 (ClearH B p)]) /\
  (forall n p, runT B (t_hash sha B) n src_clearH2 [VA2 p] = Done [VA2 p] [VA2 (clearH2 B p)]) /\
  (forall n f, runT B (t_hash sha B) n src_signFQ [VF f] = Done [] [VF (signFQ B f)]) /\
  (forall n f, runT B (t_hash sha B) n src_signFQ2 [V2 f] = Done [] [VI (signFQ2 B f)]) /\
  (forall n b, runT B (t_hash sha B) n src_hashFunc [VBy b] = Done [VBy b] [VBy (sha b)]) /\
  (forall n h, runT B (t_hash sha B) n src_HashFR [hashV h] = Done [] [VFR (HashFR (sha h))]) /\
  (forall n t, runT B (t_hash sha B) n src_optimizedSWUMapHelper [VF t] = orpan VA1 [] (optimizedSWUMapHelper B t)) /\
  (forall n t, runT B (t_hash sha B) n src_OptimizedSWU2MapHelper [V2 t] = orpan (nilor VA2) [] (OptimizedSWU2MapHelper B t)) /\
  (forall n t1 t2, runT B (t_hash sha B) n src_optimizedSWUMap [VF t1; nilor VF t2] = orpan VA1 [VF t1; nilor VF t2] (optimizedSWUMap B t1 t2)) /\
  (forall n t1 t2, runT B (t_hash sha B) n src_optimizedSWUMap2 [V2 t1; nilor V2 t2] = orpan VA2 [V2 t1; nilor V2 t2] (optimizedSWUMap2 B t1 t2)) /\
  (forall n m, runT B (t_hash sha B) n src_HashG1 [VBy m] = orpan VA1 [VBy m] (HashG1 sha B m)) /\
  (forall n m, runT B (t_hash sha B) n src_HashG2 [VBy m] = orpan VA2 [VBy m] (HashG2 sha B m)) /\
  (forall n t, runT B (t_hash sha B) n src_SWEncodeG2 [V2 t] = Done [] [nilor VA2 (SWEncodeG2 B t)]) /\
  (forall n h, runT B (t_hash sha B) n src_HashFQ2 [hashV h] = Done [] [V2 (FQ2_MulBits B (FQ2One B) (big_SetBytes (sha h)))]) /\
  (forall n m c, 0 <= c < 256 -> runT B (t_hash sha B) (S (S (S n))) src_hp [VBy m; VU 8 c] = Done [VBy m] [VF (hp sha B m c)]) /\
  (forall n m c, 0 <= c < 256 -> runT B (t_hash sha B) (S (S (S (S (S n))))) src_hp2 [VBy m; VU 8 c] = Done [VBy m] [V2 (hp2 sha B m c)]) /\
  (forall n b, runT B (t_hash sha B) (S (S (S n))) src_HashSecretKey [VBy b] = Done [] [nilor VFR (HashSecretKey sha b)]) /\
  (forall n p, runT B (t_hash sha B) (Nat.add 20 n) src_iso11 [VA1 p] = Done [VA1 p] [VA1 (iso11 B p)]) /\
  (forall n p, runT B (t_hash sha B) (Nat.add 20 n) src_iso3 [VA2 p] = Done [VA2 p] [VA2 (iso3 B p)]) /\
  (forall n m d p, HashG2WithDomain_fuel sha B n m d = Some p -> runT B (t_hash sha B) n src_HashG2WithDomain [VBy m; VBy d] = Done [] [VP2 p]).
Proof. exact (fun sha F B => conj (src_psi_ok sha B) (conj (src_ClearH_ok sha B) (conj (src_clearH2_ok sha B) (conj (src_signFQ_ok sha B) (conj (src_signFQ2_ok sha B) (conj (src_hashFunc_ok sha B) (conj (src_HashFR_ok sha B) (conj (src_optimizedSWUMapHelper_ok sha B) (conj (src_OptimizedSWU2MapHelper_ok sha B) (conj (src_optimizedSWUMap_ok sha B) (conj (src_optimizedSWUMap2_ok sha B) (conj (src_HashG1_ok sha B) (conj (src_HashG2_ok sha B) (conj (src_SWEncodeG2_ok sha B) (conj (src_HashFQ2_ok sha B) (conj (src_hp_ok sha B) (conj (src_hp2_ok sha B) (conj (src_HashSecretKey_ok sha B) (conj (src_iso11_ok sha B) (conj (src_iso3_ok sha B) (src_HashG2WithDomain_ok sha B))))))))))))))))))))). Qed.
Print Assumptions C81_hash_source.

(** g1pubs/bls.go: 37 functions, for every hash function sha and every bound fuel on the search of HashG2WithDomain *)
Theorem C81_g1pubs_bls_source : forall (sha : list Z -> list Z) (fuel : nat) (F : Type) (B : BOps F),
  (forall n s, runT B (t_g1pubs sha fuel B) n src_g1pubs_Signature_Serialize [sigV2 s] = Done [sigV2 s] [VBy (g1pubs_Signature_Serialize B s)]) /\
  (forall n s, runT B (t_g1pubs sha fuel B) n src_g1pubs_Signature_GetPoint [sigV2 s] = Done [sigV2 s] [VP2 s]) /\
  (forall n p, runT B (t_g1pubs sha fuel B) n src_g1pubs_NewSignatureFromG2 [VA2 p] = Done [VA2 p] [sigV2 (g1pubs_NewSignatureFromG2 B p)]) /\
  (forall n b, runT B (t_g1pubs sha fuel B) n src_g1pubs_DeserializeSignature [VBy b] = Done [] (orerr sigV2 (g1pubs_DeserializeSignature B b))) /\
  (forall n s, runT B (t_g1pubs sha fuel B) n src_g1pubs_Signature_Copy [sigV2 s] = Done [sigV2 s] [sigV2 s]) /\
  (forall n p, runT B (t_g1pubs sha fuel B) n src_g1pubs_PublicKey_GetPoint [pubV1 p] = Done [pubV1 p] [VP1 p]) /\
  (forall n p, runT B (t_g1pubs sha fuel B) n src_g1pubs_PublicKey_Serialize [pubV1 p] = Done [] [VBy (g1pubs_PublicKey_Serialize B p)]) /\
  (forall n p, runT B (t_g1pubs sha fuel B) n src_g1pubs_NewPublicKeyFromG1 [VA1 p] = Done [VA1 p] [pubV1 (g1pubs_NewPublicKeyFromG1 B p)]) /\
  (forall n p q, runT B (t_g1pubs sha fuel B) n src_g1pubs_PublicKey_Equals [pubV1 p; pubV1 q] = Done [] [VB (g1pubs_PublicKey_Equals B p q)]) /\
  (forall n b, runT B (t_g1pubs sha fuel B) n src_g1pubs_DeserializePublicKey [VBy b] = Done [] (orerr pubV1 (g1pubs_DeserializePublicKey B b))) /\
  (forall n k, runT B (t_g1pubs sha fuel B) n src_g1pubs_SecretKey_GetFRElement [keyV k] = Done [] [frV k]) /\
  (forall n k, runT B (t_g1pubs sha fuel B) n src_g1pubs_SecretKey_Serialize [keyV k] = match SecretKey_Serialize k with Some b => Done [] [VBy b] | None => Panic end) /\
  (forall n b, runT B (t_g1pubs sha fuel B) n src_g1pubs_DeserializeSecretKey [VBy b] = Done [] [keyV (DeserializeSecretKey b)]) /\
  (forall n b, runT B (t_g1pubs sha fuel B) n src_g1pubs_DeriveSecretKey [VBy b] = Done [] [keyV (DeriveSecretKey sha b)]) /\
  (forall n m k, runT B (t_g1pubs sha fuel B) n src_g1pubs_Sign [VBy m; keyV k] = match g1pubs_Sign sha B m k with Some s => Done [VBy m; keyV k] [sigV2 s] | None => Panic end) /\
  (forall n k, runT B (t_g1pubs sha fuel B) n src_g1pubs_PrivToPub [keyV k] = match g1pubs_PrivToPub B k with Some p => Done [keyV k] [pubV1 p] | None => Panic end) /\
  (forall n r, runT B (t_g1pubs sha fuel B) n src_g1pubs_RandKey [match r with Some z => VBig z | None => VErr end] = Done [] (match r with Some z => [keyV (RandKey z); VN] | None => [VN; VErr] end)) /\
  (forall n r, runT B (t_g1pubs sha fuel B) n src_g1pubs_KeyFromFQRepr [VRr r] = Done [VRr r] [keyV (KeyFromFQRepr r)]) /\
  (forall n m p s, runT B (t_g1pubs sha fuel B) n src_g1pubs_Verify [VBy m; pubV1 p; sigV2 s] = match g1pubs_Verify sha B m p s with Some b => Done [VBy m; pubV1 p; sigV2 s] [VB b] | None => Panic end) /\
  (forall n s t, runT B (t_g1pubs sha fuel B) n src_g1pubs_Signature_Aggregate [sigV2 s; sigV2 t] = Done [sigV2 (g1pubs_Signature_Aggregate B s t); sigV2 t] []) /\
  (forall n s t, runT B (t_g1pubs sha fuel B) n src_g1pubs_PublicKey_Aggregate [pubV1 s; pubV1 t] = Done [pubV1 (g1pubs_PublicKey_Aggregate B s t); pubV1 t] []) /\
  (forall n p, runT B (t_g1pubs sha fuel B) n src_g1pubs_PublicKey_Copy [pubV1 p] = Done [pubV1 p] [pubV1 p]) /\
  (forall n, runT B (t_g1pubs sha fuel B) n src_g1pubs_NewAggregateSignature [] = Done [] [sigV2 (g1pubs_NewAggregateSignature B)]) /\
  (forall n, runT B (t_g1pubs sha fuel B) n src_g1pubs_NewAggregatePubkey [] = Done [] [pubV1 (g1pubs_NewAggregatePubkey B)]) /\
  (forall n l, runT B (t_g1pubs sha fuel B) n src_g1pubs_sortableByteArray_Len [VLB l] = Done [VLB l] [VI (Z.of_nat (length l))]) /\
  (forall n l i j, runT B (t_g1pubs sha fuel B) n src_g1pubs_sortableByteArray_Less [VLB l; VI i; VI j] = if inr i l then if inr j l then Done [VLB l] [VB (bytes_Compare (nth (Z.to_nat i) l []) (nth (Z.to_nat j) l []) =? -1)%Z] else Panic else Panic) /\
  (forall n s l m, runT B (t_g1pubs sha fuel B) n src_g1pubs_Signature_VerifyAggregateCommon [sigV2 s; VLP1 "PublicKey" "p" l; VBy m] = match g1pubs_VerifyAggregateCommon sha B s l m with Some b => Done [sigV2 s; VLP1 "PublicKey" "p" l; VBy m] [VB b] | None => Panic end) /\
  (forall n m k d, runT B (t_g1pubs sha fuel B) n src_g1pubs_SignWithDomain [VBy m; keyV k; VBy d] = match g1pubs_SignWithDomain sha B fuel m k d with Some s => Done [keyV k] [sigV2 s] | None => Panic end) /\
  (forall n m p s d, runT B (t_g1pubs sha fuel B) n src_g1pubs_VerifyWithDomain [VBy m; pubV1 p; sigV2 s; VBy d] = match g1pubs_VerifyWithDomain sha B fuel m p s d with Some b => Done [pubV1 p; sigV2 s] [VB b] | None => Panic end) /\
  (forall n s l m d, runT B (t_g1pubs sha fuel B) n src_g1pubs_Signature_VerifyAggregateCommonWithDomain [sigV2 s; VLP1 "PublicKey" "p" l; VBy m; VBy d] = match g1pubs_VerifyAggregateCommonWithDomain sha B fuel s l m d with Some b => Done [sigV2 s; VLP1 "PublicKey" "p" l] [VB b] | None => Panic end) /\
  (forall n l i j, runT B (t_g1pubs sha fuel B) n src_g1pubs_sortableByteArray_Swap [VLB l; VI i; VI j] = if inr i l then if inr j l then Done [VLB (upd (upd l (Z.to_nat j) (nth (Z.to_nat i) l [])) (Z.to_nat i) (nth (Z.to_nat j) l []))] [] else Panic else Panic) /\
  (forall n l, runT B (t_g1pubs sha fuel B) n src_g1pubs_sortByteArrays [VLB l] = Done [VMoved] [VLB (sortByteArrays l)]) /\
  (forall n ls, runT B (t_g1pubs sha fuel B) (S n) src_g1pubs_concatAppend [VLB ls] = Done [VLB ls] [VBy (concat ls)]) /\
  (forall n ls, runT B (t_g1pubs sha fuel B) (S n) src_g1pubs_AggregateSignatures [VLP2 "Signature" "s" ls] = Done [VLP2 "Signature" "s" ls] [sigV2 (g1pubs_AggregateSignatures B ls)]) /\
  (forall n ls, runT B (t_g1pubs sha fuel B) (S n) src_g1pubs_AggregatePublicKeys [VLP1 "PublicKey" "p" ls] = Done [VLP1 "PublicKey" "p" ls] [pubV1 (g1pubs_AggregatePublicKeys B ls)]) /\
  (forall n s ks ms, runT B (t_g1pubs sha fuel B) (S n) src_g1pubs_Signature_VerifyAggregate [sigV2 s; VLP1 "PublicKey" "p" ks; VLB ms] = match g1pubs_VerifyAggregate sha B s ks ms with Some b => Done [sigV2 s; VLP1 "PublicKey" "p" ks; VLB ms] [VB b] | None => Panic end) /\
  (forall n s ks ms d, runT B (t_g1pubs sha fuel B) (S n) src_g1pubs_Signature_VerifyAggregateWithDomain [sigV2 s; VLP1 "PublicKey" "p" ks; VLB ms; VBy d] = match g1pubs_VerifyAggregateWithDomain sha B fuel s ks ms d with Some b => Done [sigV2 s; VLP1 "PublicKey" "p" ks; VLB ms] [VB b] | None => Panic end).
Proof. exact (fun sha fuel F B => conj (src_g1pubs_Signature_Serialize_ok sha fuel B) (conj (src_g1pubs_Signature_GetPoint_ok sha fuel B) (conj (src_g1pubs_NewSignatureFromG2_ok sha fuel B) (conj (src_g1pubs_DeserializeSignature_ok sha fuel B) (conj (src_g1pubs_Signature_Copy_ok sha fuel B) (conj (src_g1pubs_PublicKey_GetPoint_ok sha fuel B) (conj (src_g1pubs_PublicKey_Serialize_ok sha fuel B) (conj (src_g1pubs_NewPublicKeyFromG1_ok sha fuel B) (conj (src_g1pubs_PublicKey_Equals_ok sha fuel B) (conj (src_g1pubs_DeserializePublicKey_ok sha fuel B) (conj (src_g1pubs_SecretKey_GetFRElement_ok sha fuel B) (conj (src_g1pubs_SecretKey_Serialize_ok sha fuel B) (conj (src_g1pubs_DeserializeSecretKey_ok sha fuel B) (conj (src_g1pubs_DeriveSecretKey_ok sha fuel B) (conj (src_g1pubs_Sign_ok sha fuel B) (conj (src_g1pubs_PrivToPub_ok sha fuel B) (conj (src_g1pubs_RandKey_ok sha fuel B) (conj (src_g1pubs_KeyFromFQRepr_ok sha fuel B) (conj (src_g1pubs_Verify_ok sha fuel B) (conj (src_g1pubs_Signature_Aggregate_ok sha fuel B) (conj (src_g1pubs_PublicKey_Aggregate_ok sha fuel B) (conj (src_g1pubs_PublicKey_Copy_ok sha fuel B) (conj (src_g1pubs_NewAggregateSignature_ok sha fuel B) (conj (src_g1pubs_NewAggregatePubkey_ok sha fuel B) (conj (src_g1pubs_sortableByteArray_Len_ok sha fuel B) (conj (src_g1pubs_sortableByteArray_Less_ok sha fuel B) (conj (src_g1pubs_Signature_VerifyAggregateCommon_ok sha fuel B) (conj (src_g1pubs_SignWithDomain_ok sha fuel B) (conj (src_g1pubs_VerifyWithDomain_ok sha fuel B) (conj (src_g1pubs_Signature_VerifyAggregateCommonWithDomain_ok sha fuel B) (conj (src_g1pubs_sortableByteArray_Swap_ok sha fuel B) (conj (src_g1pubs_sortByteArrays_ok sha fuel B) (conj (src_g1pubs_concatAppend_ok sha fuel B) (conj (src_g1pubs_AggregateSignatures_ok sha fuel B) (conj (src_g1pubs_AggregatePublicKeys_ok sha fuel B) (conj (src_g1pubs_Signature_VerifyAggregate_ok sha fuel B) (src_g1pubs_Signature_VerifyAggregateWithDomain_ok sha fuel B))))))))))))))))))))))))))))))))))))). Qed.
Print Assumptions C81_g1pubs_bls_source.

(** g2pubs/bls.go: 33 functions, for every hash function sha and every bound fuel on the search of HashG2WithDomain *)
Theorem C81_g2pubs_bls_source : forall (sha : list Z -> list Z) (fuel : nat) (F : Type) (B : BOps F),
  (forall n s, runT B (t_g2pubs sha fuel B) n src_g2pubs_Signature_Serialize [sigV1 s] = Done [sigV1 s] [VBy (g2pubs_Signature_Serialize B s)]) /\
  (forall n s, runT B (t_g2pubs sha fuel B) n src_g2pubs_Signature_GetPoint [sigV1 s] = Done [sigV1 s] [VP1 s]) /\
  (forall n p, runT B (t_g2pubs sha fuel B) n src_g2pubs_NewSignatureFromG1 [VA1 p] = Done [VA1 p] [sigV1 (g2pubs_NewSignatureFromG1 B p)]) /\
  (forall n b, runT B (t_g2pubs sha fuel B) n src_g2pubs_DeserializeSignature [VBy b] = Done [] (orerr sigV1 (g2pubs_DeserializeSignature B b))) /\
  (forall n s, runT B (t_g2pubs sha fuel B) n src_g2pubs_Signature_Copy [sigV1 s] = Done [sigV1 s] [sigV1 s]) /\
  (forall n p, runT B (t_g2pubs sha fuel B) n src_g2pubs_PublicKey_GetPoint [pubV2 p] = Done [pubV2 p] [VP2 p]) /\
  (forall n p, runT B (t_g2pubs sha fuel B) n src_g2pubs_PublicKey_Serialize [pubV2 p] = Done [] [VBy (g2pubs_PublicKey_Serialize B p)]) /\
  (forall n p, runT B (t_g2pubs sha fuel B) n src_g2pubs_NewPublicKeyFromG2 [VA2 p] = Done [VA2 p] [pubV2 (g2pubs_NewPublicKeyFromG2 B p)]) /\
  (forall n p q, runT B (t_g2pubs sha fuel B) n src_g2pubs_PublicKey_Equals [pubV2 p; pubV2 q] = Done [] [VB (g2pubs_PublicKey_Equals B p q)]) /\
  (forall n b, runT B (t_g2pubs sha fuel B) n src_g2pubs_DeserializePublicKey [VBy b] = Done [] (orerr pubV2 (g2pubs_DeserializePublicKey B b))) /\
  (forall n k, runT B (t_g2pubs sha fuel B) n src_g2pubs_SecretKey_GetFRElement [keyV k] = Done [] [frV k]) /\
  (forall n k, runT B (t_g2pubs sha fuel B) n src_g2pubs_SecretKey_Serialize [keyV k] = match SecretKey_Serialize k with Some b => Done [] [VBy b] | None => Panic end) /\
  (forall n b, runT B (t_g2pubs sha fuel B) n src_g2pubs_DeserializeSecretKey [VBy b] = Done [] [keyV (DeserializeSecretKey b)]) /\
  (forall n b, runT B (t_g2pubs sha fuel B) n src_g2pubs_DeriveSecretKey [VBy b] = Done [] [keyV (DeriveSecretKey sha b)]) /\
  (forall n m k, runT B (t_g2pubs sha fuel B) n src_g2pubs_Sign [VBy m; keyV k] = match g2pubs_Sign sha B m k with Some s => Done [VBy m; keyV k] [sigV1 s] | None => Panic end) /\
  (forall n k, runT B (t_g2pubs sha fuel B) n src_g2pubs_PrivToPub [keyV k] = match g2pubs_PrivToPub B k with Some p => Done [keyV k] [pubV2 p] | None => Panic end) /\
  (forall n r, runT B (t_g2pubs sha fuel B) n src_g2pubs_RandKey [match r with Some z => VBig z | None => VErr end] = Done [] (match r with Some z => [keyV (RandKey z); VN] | None => [VN; VErr] end)) /\
  (forall n r, runT B (t_g2pubs sha fuel B) n src_g2pubs_KeyFromFQRepr [VRr r] = Done [VRr r] [keyV (KeyFromFQRepr r)]) /\
  (forall n m p s, runT B (t_g2pubs sha fuel B) n src_g2pubs_Verify [VBy m; pubV2 p; sigV1 s] = match g2pubs_Verify sha B m p s with Some b => Done [VBy m; pubV2 p; sigV1 s] [VB b] | None => Panic end) /\
  (forall n s t, runT B (t_g2pubs sha fuel B) n src_g2pubs_Signature_Aggregate [sigV1 s; sigV1 t] = Done [sigV1 (g2pubs_Signature_Aggregate B s t); sigV1 t] []) /\
  (forall n s t, runT B (t_g2pubs sha fuel B) n src_g2pubs_PublicKey_Aggregate [pubV2 s; pubV2 t] = Done [pubV2 (g2pubs_PublicKey_Aggregate B s t); pubV2 t] []) /\
  (forall n p, runT B (t_g2pubs sha fuel B) n src_g2pubs_PublicKey_Copy [pubV2 p] = Done [pubV2 p] [pubV2 p]) /\
  (forall n, runT B (t_g2pubs sha fuel B) n src_g2pubs_NewAggregateSignature [] = Done [] [sigV1 (g2pubs_NewAggregateSignature B)]) /\
  (forall n, runT B (t_g2pubs sha fuel B) n src_g2pubs_NewAggregatePubkey [] = Done [] [pubV2 (g2pubs_NewAggregatePubkey B)]) /\
  (forall n l, runT B (t_g2pubs sha fuel B) n src_g2pubs_sortableByteArray_Len [VLB l] = Done [VLB l] [VI (Z.of_nat (length l))]) /\
  (forall n l i j, runT B (t_g2pubs sha fuel B) n src_g2pubs_sortableByteArray_Less [VLB l; VI i; VI j] = if inr i l then if inr j l then Done [VLB l] [VB (bytes_Compare (nth (Z.to_nat i) l []) (nth (Z.to_nat j) l []) =? -1)%Z] else Panic else Panic) /\
  (forall n s l m, runT B (t_g2pubs sha fuel B) n src_g2pubs_Signature_VerifyAggregateCommon [sigV1 s; VLP2 "PublicKey" "p" l; VBy m] = match g2pubs_VerifyAggregateCommon sha B s l m with Some b => Done [sigV1 s; VLP2 "PublicKey" "p" l; VBy m] [VB b] | None => Panic end) /\
  (forall n l i j, runT B (t_g2pubs sha fuel B) n src_g2pubs_sortableByteArray_Swap [VLB l; VI i; VI j] = if inr i l then if inr j l then Done [VLB (upd (upd l (Z.to_nat j) (nth (Z.to_nat i) l [])) (Z.to_nat i) (nth (Z.to_nat j) l []))] [] else Panic else Panic) /\
  (forall n l, runT B (t_g2pubs sha fuel B) n src_g2pubs_sortByteArrays [VLB l] = Done [VMoved] [VLB (sortByteArrays l)]) /\
  (forall n ls, runT B (t_g2pubs sha fuel B) (S n) src_g2pubs_concatAppend [VLB ls] = Done [VLB ls] [VBy (concat ls)]) /\
  (forall n ls, runT B (t_g2pubs sha fuel B) (S n) src_g2pubs_AggregateSignatures [VLP1 "Signature" "s" ls] = Done [VLP1 "Signature" "s" ls] [sigV1 (g2pubs_AggregateSignatures B ls)]) /\
  (forall n ls, runT B (t_g2pubs sha fuel B) (S n) src_g2pubs_AggregatePublicKeys [VLP2 "PublicKey" "p" ls] = Done [VLP2 "PublicKey" "p" ls] [pubV2 (g2pubs_AggregatePublicKeys B ls)]) /\
  (forall n s ks ms, runT B (t_g2pubs sha fuel B) (S n) src_g2pubs_Signature_VerifyAggregate [sigV1 s; VLP2 "PublicKey" "p" ks; VLB ms] = match g2pubs_VerifyAggregate sha B s ks ms with Some b => Done [sigV1 s; VLP2 "PublicKey" "p" ks; VLB ms] [VB b] | None => Panic end).
Proof. exact (fun sha fuel F B => conj (src_g2pubs_Signature_Serialize_ok sha fuel B) (conj (src_g2pubs_Signature_GetPoint_ok sha fuel B) (conj (src_g2pubs_NewSignatureFromG1_ok sha fuel B) (conj (src_g2pubs_DeserializeSignature_ok sha fuel B) (conj (src_g2pubs_Signature_Copy_ok sha fuel B) (conj (src_g2pubs_PublicKey_GetPoint_ok sha fuel B) (conj (src_g2pubs_PublicKey_Serialize_ok sha fuel B) (conj (src_g2pubs_NewPublicKeyFromG2_ok sha fuel B) (conj (src_g2pubs_PublicKey_Equals_ok sha fuel B) (conj (src_g2pubs_DeserializePublicKey_ok sha fuel B) (conj (src_g2pubs_SecretKey_GetFRElement_ok sha fuel B) (conj (src_g2pubs_SecretKey_Serialize_ok sha fuel B) (conj (src_g2pubs_DeserializeSecretKey_ok sha fuel B) (conj (src_g2pubs_DeriveSecretKey_ok sha fuel B) (conj (src_g2pubs_Sign_ok sha fuel B) (conj (src_g2pubs_PrivToPub_ok sha fuel B) (conj (src_g2pubs_RandKey_ok sha fuel B) (conj (src_g2pubs_KeyFromFQRepr_ok sha fuel B) (conj (src_g2pubs_Verify_ok sha fuel B) (conj (src_g2pubs_Signature_Aggregate_ok sha fuel B) (conj (src_g2pubs_PublicKey_Aggregate_ok sha fuel B) (conj (src_g2pubs_PublicKey_Copy_ok sha fuel B) (conj (src_g2pubs_NewAggregateSignature_ok sha fuel B) (conj (src_g2pubs_NewAggregatePubkey_ok sha fuel B) (conj (src_g2pubs_sortableByteArray_Len_ok sha fuel B) (conj (src_g2pubs_sortableByteArray_Less_ok sha fuel B) (conj (src_g2pubs_Signature_VerifyAggregateCommon_ok sha fuel B) (conj (src_g2pubs_sortableByteArray_Swap_ok sha fuel B) (conj (src_g2pubs_sortByteArrays_ok sha fuel B) (conj (src_g2pubs_concatAppend_ok sha fuel B) (conj (src_g2pubs_AggregateSignatures_ok sha fuel B) (conj (src_g2pubs_AggregatePublicKeys_ok sha fuel B) (src_g2pubs_Signature_VerifyAggregate_ok sha fuel B))))))))))))))))))))))))))))))))). Qed.
Print Assumptions C81_g2pubs_bls_source.

(** stub_fallback.go: 7 functions, on limbs *)
Theorem C81_stub_fallback_source :
  (forall n a0 b0 c0, runL n src_AddWithCarry [VU 64 a0; VU 64 b0; VU 64 c0] = Done [] [VU 64 (fst (AddWithCarry a0 b0 c0)); VU 64 (snd (AddWithCarry a0 b0 c0))]) /\
  (forall n a0 b0 c0, runL n src_SubWithBorrow [VU 64 a0; VU 64 b0; VU 64 c0] = Done [] [VU 64 (fst (SubWithBorrow a0 b0 c0)); VU 64 (snd (SubWithBorrow a0 b0 c0))]) /\
  (forall n a0 b0 c0 d0, runL n src_MACWithCarry [VU 64 a0; VU 64 b0; VU 64 c0; VU 64 d0] = Done [] [VU 64 (fst (MACWithCarry a0 b0 c0 d0)); VU 64 (snd (MACWithCarry a0 b0 c0 d0))]) /\
  (forall n a b, runL (7 + n) src_AddNoCarry [VR a; VR b] = Done [] [VR (AddNoCarry a b)]) /\
  (forall n a b, runL (7 + n) src_SubNoBorrow [VR a; VR b] = Done [] [VR (SubNoBorrow a b)]) /\
  (forall n a b, runL n src_MultiplyFQRepr [VR a; VR b] = Done [] [VR (fst (MultiplyFQRepr a b)); VR (snd (MultiplyFQRepr a b))]) /\
  (forall n a b, runL n src_MontReduce [VR a; VR b] = Done [] [VR (MontReduce a b)]).
Proof. exact (conj src_AddWithCarry_ok (conj src_SubWithBorrow_ok (conj src_MACWithCarry_ok (conj src_AddNoCarry_ok (conj src_SubNoBorrow_ok (conj src_MultiplyFQRepr_ok (src_MontReduce_ok))))))). Qed.
Print Assumptions C81_stub_fallback_source.

(** fqrepr.go: 23 functions, on limbs *)
Theorem C81_fqrepr_source :
  (forall n a, runL n src_FQRepr_IsOdd [VR a] = Done [] [VB (FQRepr_IsOdd a)]) /\
  (forall n a, runL n src_FQRepr_IsEven [VR a] = Done [] [VB (FQRepr_IsEven a)]) /\
  (forall n a, runL (7 + n) src_FQRepr_IsZero [VR a] = Done [] [VB (FQRepr_IsZero a)]) /\
  (forall n z, runL n src_NewFQRepr [VU 64 z] = Done [] [VR (NewFQRepr z)]) /\
  (forall n a, runL (7 + n) src_FQRepr_Div2 [VR a] = Done [VR (FQRepr_Div2 a)] []) /\
  (forall n a, runL (7 + n) src_FQRepr_Mul2 [VR a] = Done [VR (FQRepr_Mul2 a)] []) /\
  (forall n a b, runL n src_FQRepr_AddNoCarry [VR a; VR b] = Done [VR (FQRepr_AddNoCarry a b)] []) /\
  (forall n a b, runL n src_FQRepr_SubNoBorrow [VR a; VR b] = Done [VR (FQRepr_SubNoBorrow a b)] []) /\
  (forall n a b, runL n src_FQRepr_Equals [VR a; VR b] = Done [VR a] [VB (FQRepr_Equals a b)]) /\
  (forall n a b, runL (7 + n) src_FQRepr_Cmp [VR a; VR b] = Done [VR a] [VI (FQRepr_Cmp a b)]) /\
  (forall n a, runL n src_FQRepr_Copy [VR a] = Done [VR a] [VR a]) /\
  (forall n a, runL n src_FQRepr_Bytes [VR a] = Done [] [VBy (FQRepr_Bytes a)]) /\
  (forall n a, runL (7 + n) src_FQRepr_ToBig [VR a] = Done [] [VBig (FQRepr_ToBig a)]) /\
  (forall n a x, isW x -> runL (15 + n) src_FQRepr_Rsh [VR a; VU 64 x] = Done [VR (FQRepr_Rsh a x)] []) /\
  (forall n a x, isW x -> runL (15 + n) src_FQRepr_Lsh [VR a; VU 64 x] = Done [VR (FQRepr_Lsh a x)] []) /\
  (forall n a, wf6 a -> runL (7 + n) src_FQRepr_BitLen [VR a] = Done [] [VU 64 (FQRepr_BitLen a)]) /\
  (forall n a x, isW x -> runL (1 + n) src_FQRepr_Bit [VR a; VU 64 x] = match FQRepr_Bit a x with Some b => Done [] [VB b] | None => Panic end) /\
  (forall n b, length b = 48%nat -> runL (7 + n) src_FQReprFromBytes [VBy b] = Done [] [VR (FQReprFromBytes b)]) /\
  (forall n z, runL (20 + n) src_fqReprFromBigIntUnchecked [VBig z] = match fqReprFromBigIntUnchecked z with Some r => Done [VBig z] [VR r] | None => Panic end) /\
  (forall n z, runL (20 + n) src_FQReprFromBigInt [VBig z] = match FQReprFromBigInt z with Some (Some r) => Done [VBig z] [VR r; VN] | Some None => Done [VBig z] [VR (mkFQRepr 0 0 0 0 0 0); VErr] | None => Panic end) /\
  (forall n s, runL n src_fqReprFromHexUnchecked [VStr s] = match fqReprFromHexUnchecked s with SOk r => Done [] [VR r] | SFail => Panic | SPanic => Panic | SBase0 => Stuck end) /\
  (forall n s b, runL n src_fqReprFromStringUnchecked [VStr s; VU 64 b] = match fqReprFromStringUnchecked s b with SOk r => Done [] [VR r] | SFail => Panic | SPanic => Panic | SBase0 => Stuck end) /\
  (forall n s b, runL n src_FQReprFromString [VStr s; VU 64 b] = match FQReprFromString s b with SOk r => Done [] [VR r; VN] | SFail => Done [] [VR (mkFQRepr 0 0 0 0 0 0); VErr] | SPanic => Panic | SBase0 => Stuck end).
Proof. exact (conj src_FQRepr_IsOdd_ok (conj src_FQRepr_IsEven_ok (conj src_FQRepr_IsZero_ok (conj src_NewFQRepr_ok (conj src_FQRepr_Div2_ok (conj src_FQRepr_Mul2_ok (conj src_FQRepr_AddNoCarry_ok (conj src_FQRepr_SubNoBorrow_ok (conj src_FQRepr_Equals_ok (conj src_FQRepr_Cmp_ok (conj src_FQRepr_Copy_ok (conj src_FQRepr_Bytes_ok (conj src_FQRepr_ToBig_ok (conj src_FQRepr_Rsh_ok (conj src_FQRepr_Lsh_ok (conj src_FQRepr_BitLen_ok (conj src_FQRepr_Bit_ok (conj src_FQReprFromBytes_ok (conj src_fqReprFromBigIntUnchecked_ok (conj src_FQReprFromBigInt_ok (conj src_fqReprFromHexUnchecked_ok (conj src_fqReprFromStringUnchecked_ok (src_FQReprFromString_ok))))))))))))))))))))))). Qed.
Print Assumptions C81_fqrepr_source.

(** frrepr.go: 21 functions, on limbs *)
Theorem C81_frrepr_source :
  (forall n a, runL n src_FRRepr_IsOdd [VRr a] = Done [] [VB (FRRepr_IsOdd a)]) /\
  (forall n a, runL n src_FRRepr_IsEven [VRr a] = Done [] [VB (FRRepr_IsEven a)]) /\
  (forall n a, runL (7 + n) src_FRRepr_IsZero [VRr a] = Done [] [VB (FRRepr_IsZero a)]) /\
  (forall n z, runL n src_NewFRRepr [VU 64 z] = Done [] [VRr (NewFRRepr z)]) /\
  (forall n a, runL (7 + n) src_FRRepr_Div2 [VRr a] = Done [VRr (FRRepr_Div2 a)] []) /\
  (forall n a, runL (7 + n) src_FRRepr_Mul2 [VRr a] = Done [VRr (FRRepr_Mul2 a)] []) /\
  (forall n a b, runL (7 + n) src_FRRepr_AddNoCarry [VRr a; VRr b] = Done [VRr (FRRepr_AddNoCarry a b); VRr b] []) /\
  (forall n a b, runL (7 + n) src_FRRepr_SubNoBorrow [VRr a; VRr b] = Done [VRr (FRRepr_SubNoBorrow a b); VRr b] []) /\
  (forall n a b, runL n src_FRRepr_Equals [VRr a; VRr b] = Done [VRr a; VRr b] [VB (FRRepr_Equals a b)]) /\
  (forall n a b, runL (7 + n) src_FRRepr_Cmp [VRr a; VRr b] = Done [VRr a; VRr b] [VI (FRRepr_Cmp a b)]) /\
  (forall n a, runL n src_FRRepr_Copy [VRr a] = Done [VRr a] [VRr a]) /\
  (forall n a, runL n src_FRRepr_Bytes [VRr a] = Done [] [VBy (FRRepr_Bytes a)]) /\
  (forall n a, runL (7 + n) src_FRRepr_ToBig [VRr a] = Done [] [VBig (FRRepr_ToBig a)]) /\
  (forall n a x, isW x -> runL (15 + n) src_FRRepr_Rsh [VRr a; VU 64 x] = Done [VRr (FRRepr_Rsh a x)] []) /\
  (forall n a x, isW x -> runL (15 + n) src_FRRepr_Lsh [VRr a; VU 64 x] = Done [VRr (FRRepr_Lsh a x)] []) /\
  (forall n a, wf4 a -> runL (7 + n) src_FRRepr_BitLen [VRr a] = Done [] [VU 64 (FRRepr_BitLen a)]) /\
  (forall n a x, isW x -> runL (1 + n) src_FRRepr_Bit [VRr a; VU 64 x] = match FRRepr_Bit a x with Some b => Done [] [VB b] | None => Panic end) /\
  (forall n b, length b = 32%nat -> runL (7 + n) src_FRReprFromBytes [VBy b] = Done [] [VRr (FRReprFromBytes b)]) /\
  (forall n z, runL (20 + n) src_FRReprFromBigInt [VBig z] = match FRReprFromBigInt z with Some (Some r) => Done [VBig z] [VRr r; VN] | Some None => Done [VBig z] [VN; VErr] | None => Panic end) /\
  (forall n s b, runL n src_FRReprFromString [VStr s; VU 64 b] = match FRReprFromString s b with SOk r => Done [] [VRr r; VN] | SFail => Done [] [VN; VErr] | SPanic => Panic | SBase0 => Stuck end) /\
  (forall n a, runL n src_FRRepr_ToFQ [VRr a] = Done [VRr a] [VR (FRRepr_ToFQ a)]).
Proof. exact (conj src_FRRepr_IsOdd_ok (conj src_FRRepr_IsEven_ok (conj src_FRRepr_IsZero_ok (conj src_NewFRRepr_ok (conj src_FRRepr_Div2_ok (conj src_FRRepr_Mul2_ok (conj src_FRRepr_AddNoCarry_ok (conj src_FRRepr_SubNoBorrow_ok (conj src_FRRepr_Equals_ok (conj src_FRRepr_Cmp_ok (conj src_FRRepr_Copy_ok (conj src_FRRepr_Bytes_ok (conj src_FRRepr_ToBig_ok (conj src_FRRepr_Rsh_ok (conj src_FRRepr_Lsh_ok (conj src_FRRepr_BitLen_ok (conj src_FRRepr_Bit_ok (conj src_FRReprFromBytes_ok (conj src_FRReprFromBigInt_ok (conj src_FRReprFromString_ok (src_FRRepr_ToFQ_ok))))))))))))))))))))). Qed.
Print Assumptions C81_frrepr_source.

(** bititerator.go: 2 functions, on limbs *)
Theorem C81_bititerator_source :
  (forall n l, 64 * Z.of_nat (length l) < 2 ^ 64 -> runL n src_NewBitIterator [VL (map (VU 64) l)] = Done [VL (map (VU 64) l)] [VBI (NewBitIterator l)]) /\
  (forall n bi, isW (bi_n bi) -> bi_n bi <= 64 * Z.of_nat (length (bi_arr bi)) -> runL n src_BitIterator_Next [VBI bi] = Done [VBI (snd (BitIterator_Next bi))] [VB (fst (fst (BitIterator_Next bi))); VB (snd (fst (BitIterator_Next bi)))]).
Proof. exact (conj src_NewBitIterator_ok (src_BitIterator_Next_ok)). Qed.
Print Assumptions C81_bititerator_source.

(** fq.go: 26 functions, on limbs *)
Theorem C81_fq_source :
  (forall n x, runL n src_FQ_Copy [VF x] = Done [] [VF x]) /\
  (forall n x, runL n src_FQ_IsValid [VF x] = Done [VF x] [VB (FQ_IsValid x)]) /\
  (forall n r, runL n src_FQReprToFQ [VR r] = Done [] [VF (FQReprToFQ r)]) /\
  (forall n r, runL n src_FQReprToFQRaw [VR r] = Done [] [VF (FQReprToFQRaw r)]) /\
  (forall n x y, runL n src_FQ_AddAssign [VF x; VF y] = Done [VF (FQ_AddAssign x y)] []) /\
  (forall n x r s, runL n src_FQ_montReduce [VF x; VR r; VR s] = Done [VF (FQ_montReduce r s)] []) /\
  (forall n x y, runL n src_FQ_MulAssign [VF x; VF y] = Done [VF (FQ_MulAssign x y)] []) /\
  (forall n x, runL n src_FQ_reduceAssign [VF x] = Done [VF (FQ_reduceAssign x)] []) /\
  (forall n x y, runL n src_FQ_DivAssign [VF x; VF y] = Done [VF (FQ_DivAssign x y)] []) /\
  (forall n x y, runL n src_FQ_Equals [VF x; VF y] = Done [] [VB (FQ_Equals x y)]) /\
  (forall n x, runL n src_FQ_NegAssign [VF x] = Done [VF (FQ_NegAssign x)] []) /\
  (forall n x y, runL n src_FQ_Cmp [VF x; VF y] = Done [] [VI (FQ_Cmp x y)]) /\
  (forall n x, runL n src_FQ_DoubleAssign [VF x] = Done [VF (FQ_DoubleAssign x)] []) /\
  (forall n x, runL n src_FQ_IsZero [VF x] = Done [] [VB (FQ_IsZero x)]) /\
  (forall n x, runL n src_FQ_Sqrt [VF x] = Done [] [VF (fst (FQ_Sqrt x)); VB (snd (FQ_Sqrt x))]) /\
  (forall n r, runL n src_isEven [VR r] = Done [] [VB (isEven r)]) /\
  (forall n x, runL n src_FQ_Parity [VF x] = Done [] [VB (FQ_Parity x)]) /\
  (forall n d, runL n src_HashFQ [VS "hash" [("sum"%string, VBy d)]] = Done [] [VF (HashFQ d)]) /\
  (forall n x, runL n src_FQ_Legendre [VF x] = Done [VF x] [leg (FQ_Legendre x)]) /\
  (forall n a b, runL n src_FQ_SubAssign [VF a; VF b] = Done [VF (FQ_SubAssign a b)] []) /\
  (forall n q, runL n src_FQ_SquareAssign [VF q] = Done [VF (FQ_SquareAssign q)] []) /\
  (forall n q, runL n src_FQ_ToRepr [VF q] = Done [VF q] [VR (FQ_ToRepr q)]) /\
  (forall n f e, runL (385 + n) src_FQ_Exp [VF f; VR e] = Done [] [VF (FQ_Exp f e)]) /\
  (forall n f b, wf6 b -> runL (385 + n) src_FQ_MulBits [VF f; VR b] = Done [VR b] [VF (FQ_MulBits f b)]) /\
  (forall n f b, 8 * Z.of_nat (length b) < 2 ^ 63 -> runL (S (8 * length b + n)) src_FQ_MulBytes [VF f; VBy b] = Done [VBy b] [VF (FQ_MulBytes f b)]) /\
  (forall n q f r, FQ_Inverse_fuel q f = Some r -> runL (S (q + (S q + n))) src_FQ_Inverse [VF f] = Done [] [VF (fst r); VB (snd r)]) /\
  (forall n f, canon f -> runL (1602 + n) src_FQ_Inverse [VF f] = Done [] [VF (fst (FQ_Inverse f)); VB (snd (FQ_Inverse f))]).
Proof. exact (conj src_FQ_Copy_ok (conj src_FQ_IsValid_ok (conj src_FQReprToFQ_ok (conj src_FQReprToFQRaw_ok (conj src_FQ_AddAssign_ok (conj src_FQ_montReduce_ok (conj src_FQ_MulAssign_ok (conj src_FQ_reduceAssign_ok (conj src_FQ_DivAssign_ok (conj src_FQ_Equals_ok (conj src_FQ_NegAssign_ok (conj src_FQ_Cmp_ok (conj src_FQ_DoubleAssign_ok (conj src_FQ_IsZero_ok (conj src_FQ_Sqrt_ok (conj src_isEven_ok (conj src_FQ_Parity_ok (conj src_HashFQ_ok (conj src_FQ_Legendre_ok (conj src_FQ_SubAssign_ok (conj src_FQ_SquareAssign_ok (conj src_FQ_ToRepr_ok (conj src_FQ_Exp_ok (conj src_FQ_MulBits_ok (conj src_FQ_MulBytes_ok (conj src_FQ_Inverse_fuel_ok (src_FQ_Inverse_ok))))))))))))))))))))))))))). Qed.
Print Assumptions C81_fq_source.

(** fr.go: 22 functions, on limbs *)
Theorem C81_fr_source :
  (forall n x, runL n src_FR_IsValid [VFR x] = Done [VFR x] [VB (FR_IsValid x)]) /\
  (forall n x, runL n src_FR_reduceAssign [VFR x] = Done [VFR (FR_reduceAssign x)] []) /\
  (forall n a, runL n src_FR_Copy [VFR a] = Done [VFR a] [VFR a]) /\
  (forall n x y, runL n src_FR_AddAssign [VFR x; VFR y] = Done [VFR (FR_AddAssign x y); VFR y] []) /\
  (forall n p r0 r1 r2 r3 r4 r5 r6 r7, runL n src_FR_montReduce [VFR p; VU 64 r0; VU 64 r1; VU 64 r2; VU 64 r3; VU 64 r4; VU 64 r5; VU 64 r6; VU 64 r7] = Done [VFR (FR_montReduce r0 r1 r2 r3 r4 r5 r6 r7)] []) /\
  (forall n p q, runL n src_FR_MulAssign [VFR p; VFR q] = Done [VFR (FR_MulAssign p q); VFR q] []) /\
  (forall n a b, runL n src_FR_SubAssign [VFR a; VFR b] = Done [VFR (FR_SubAssign a b); VFR b] []) /\
  (forall n x y, runL n src_FR_Equals [VFR x; VFR y] = Done [VFR x; VFR y] [VB (FR_Equals x y)]) /\
  (forall n x, runL n src_FR_NegAssign [VFR x] = Done [VFR (FR_NegAssign x)] []) /\
  (forall n x y, runL n src_FR_Cmp [VFR x; VFR y] = Done [VFR x; VFR y] [VI (FR_Cmp x y)]) /\
  (forall n x, runL n src_FR_DoubleAssign [VFR x] = Done [VFR (FR_DoubleAssign x)] []) /\
  (forall n x, runL n src_FR_IsZero [VFR x] = Done [VFR x] [VB (FR_IsZero x)]) /\
  (forall n q, runL n src_FR_SquareAssign [VFR q] = Done [VFR (FR_SquareAssign q)] []) /\
  (forall n a, runL n src_FR_Parity [VFR a] = Done [VFR a] [VB (FR_Parity a)]) /\
  (forall n x, runL n src_FR_Legendre [VFR x] = Done [VFR x] [leg (FR_Legendre x)]) /\
  (forall n q, runL n src_FR_ToRepr [VFR q] = Done [VFR q] [VRr (FR_ToRepr q)]) /\
  (forall n x, runL n src_FR_Bytes [VFR x] = Done [VFR x] [VBy (FR_Bytes x)]) /\
  (forall n f e, wf4 e -> runL (257 + n) src_FR_Exp [VFR f; VRr e] = Done [VFR f; VRr e] [VFR (FR_Exp f e)]) /\
  (forall n f b, wf4 b -> runL (257 + n) src_FR_MulBits [VFR f; VRr b] = Done [VFR f; VRr b] [VFR (FR_MulBits f b)]) /\
  (forall n f b, 8 * Z.of_nat (length b) < 2 ^ 63 -> runL (S (8 * length b + n)) src_FR_MulBytes [VFR f; VBy b] = Done [VFR f; VBy b] [VFR (FR_MulBytes f b)]) /\
  (forall n d, runL n src_HashFR [VS "hash" [("sum"%string, VBy d)]] = Done [] [VFR (HashFR d)]) /\
  (forall n q f r, FR_Inverse_fuel q f = Some r -> runL (S (q + (S q + n))) src_FR_Inverse [VFR f] = Done [VFR f] [match r with Some g => VFR g | None => VN end]) /\
  (forall n f, rcanon f -> runL (1202 + n) src_FR_Inverse [VFR f] = Done [VFR f] [match FR_Inverse f with Some g => VFR g | None => VN end]).
Proof. exact (conj src_FR_IsValid_ok (conj src_FR_reduceAssign_ok (conj src_FR_Copy_ok (conj src_FR_AddAssign_ok (conj src_FR_montReduce_ok (conj src_FR_MulAssign_ok (conj src_FR_SubAssign_ok (conj src_FR_Equals_ok (conj src_FR_NegAssign_ok (conj src_FR_Cmp_ok (conj src_FR_DoubleAssign_ok (conj src_FR_IsZero_ok (conj src_FR_SquareAssign_ok (conj src_FR_Parity_ok (conj src_FR_Legendre_ok (conj src_FR_ToRepr_ok (conj src_FR_Bytes_ok (conj src_FR_Exp_ok (conj src_FR_MulBits_ok (conj src_FR_MulBytes_ok (conj src_HashFR_limb_ok (conj src_FR_Inverse_fuel_ok (src_FR_Inverse_ok))))))))))))))))))))))). Qed.
Print Assumptions C81_fr_source.

(** The conditions of the lines above hold for values of use: exponents of full width, encodings of the right length; and a run can be
    carried out. *)
Example C81_conditions : wf6 QFieldModulus /\ wf4 RFieldModulus /\ length (CompressG1 FqB (AffineZero (b_ops FqB))) = 48%nat.
Proof. exact (conj QFieldModulus_wf (conj RFieldModulus_wf eq_refl)). Qed.
Example C81_run : runB FqB 1 src_CompressG1 [VA1 (AffineZero (b_ops FqB))] = Done [VA1 (AffineZero (b_ops FqB))] [VBy (192 :: repeat 0 47)].
Proof. reflexivity. Qed.
Example C81_run_stuck : runB FqB 1 src_FQ2_FrobeniusMapAssign [V2 (mkFQ2 FQZero FQZero); VB true] = Stuck.
Proof. reflexivity. Qed.
(** with a toy hash function: one byte, the length of the message *)
Example C81_hash_run : runT FqB (t_hash (fun l => [Z.of_nat (length l)]) FqB) 9 src_hp [VBy [7; 7]; VU 8 1] =
  Done [VBy [7; 7]] [VF (FQReprToFQ (NewFQRepr 1028))] /\ 0 <= 1 < 256.
Proof. split; [vm_compute; reflexivity|split; [discriminate|reflexivity]]. Qed.
(** and below the towers: conditions that hold, and runs on limbs *)
Example C81_limb_conditions : isW 127 /\ canon FQOne /\ rcanon bigOneFR.
Proof. split; [split; [discriminate|reflexivity]|]. split; [apply FQOne_canon|apply bigOneFR_canon]. Qed.
Example C81_limb_run : runL 15 src_FQRepr_Rsh [VR (mkFQRepr 0 0 5 0 0 0); VU 64 127] = Done [VR (mkFQRepr 10 0 0 0 0 0)] [].
Proof. vm_compute. reflexivity. Qed.
Example C81_limb_run_panic : runL 1 src_FQRepr_Bit [VR (mkFQRepr 0 0 5 0 0 0); VU 64 384] = Panic.
Proof. reflexivity. Qed.
Example C81_limb_run_text : runL 1 src_FQReprFromString [VStr "12"%string; VU 64 10] = Done [] [VR (mkFQRepr 12 0 0 0 0 0); VN].
Proof. vm_compute. reflexivity. Qed.
