(** The functions of fq2.go, fq6.go and fq12.go without loops, run from their source text, compute the model. *)
Require Import ZArith Bool String List Lia.
From Verif Require Import Words ModelRepr ModelFq ModelFr ModelOps ModelTower ModelCurve ModelPairing ModelHash ModelBls SrcAst SrcSem SrcCode SrcCall SrcTac.
Import ListNotations.
Open Scope Z_scope.

Section S.
Context {F : Type} (B : BOps F).
Lemma src_NewFQ2_ok n x y : runB B n src_NewFQ2 [VF x; VF y] = Done [] [V2 (mkFQ2 x y)].
Proof. intros. src. Qed.
Lemma src_FQ2_Cmp_ok n f g : runB B n src_FQ2_Cmp [V2 f; V2 g] = Done [] [VI (FQ2_Cmp B f g)].
Proof. intros. unfold FQ2_Cmp. src. Qed.
Lemma src_FQ2_MultiplyByNonresidueAssign_ok n f : runB B n src_FQ2_MultiplyByNonresidueAssign [V2 f] = Done [V2 (FQ2_MultiplyByNonresidueAssign B f)] [].
Proof. intros. unfold FQ2_MultiplyByNonresidueAssign. src. Qed.
Lemma src_FQ2_Norm_ok n f : runB B n src_FQ2_Norm [V2 f] = Done [V2 f] [VF (FQ2_Norm B f)].
Proof. intros. unfold FQ2_Norm. src. Qed.
Lemma src_FQ2_IsZero_ok n f : runB B n src_FQ2_IsZero [V2 f] = Done [] [VB (FQ2_IsZero B f)].
Proof. intros. unfold FQ2_IsZero. src. Qed.
Lemma src_FQ2_SquareAssign_ok n f : runB B n src_FQ2_SquareAssign [V2 f] = Done [V2 (FQ2_SquareAssign B f)] [].
Proof. intros. unfold FQ2_SquareAssign. src. Qed.
Lemma src_FQ2_DoubleAssign_ok n f : runB B n src_FQ2_DoubleAssign [V2 f] = Done [V2 (FQ2_DoubleAssign B f)] [].
Proof. intros. unfold FQ2_DoubleAssign. src. Qed.
Lemma src_FQ2_NegAssign_ok n f : runB B n src_FQ2_NegAssign [V2 f] = Done [V2 (FQ2_NegAssign B f)] [].
Proof. intros. unfold FQ2_NegAssign. src. Qed.
Lemma src_FQ2_AddAssign_ok n f g : runB B n src_FQ2_AddAssign [V2 f; V2 g] = Done [V2 (FQ2_AddAssign B f g)] [].
Proof. intros. unfold FQ2_AddAssign. src. Qed.
Lemma src_FQ2_SubAssign_ok n f g : runB B n src_FQ2_SubAssign [V2 f; V2 g] = Done [V2 (FQ2_SubAssign B f g)] [].
Proof. intros. unfold FQ2_SubAssign. src. Qed.
Lemma src_FQ2_MulAssign_ok n f g : runB B n src_FQ2_MulAssign [V2 f; V2 g] = Done [V2 (FQ2_MulAssign B f g)] [].
Proof. intros. unfold FQ2_MulAssign. src. Qed.
Lemma src_FQ2_InverseAssign_ok n f : runB B n src_FQ2_InverseAssign [V2 f] = Done [V2 (fst (FQ2_InverseAssign B f))] [VB (snd (FQ2_InverseAssign B f))].
Proof. intros. unfold FQ2_InverseAssign. src. Qed.
Lemma src_FQ2_Equals_ok n f g : runB B n src_FQ2_Equals [V2 f; V2 g] = Done [] [VB (FQ2_Equals B f g)].
Proof. intros. unfold FQ2_Equals. src. Qed.
Lemma src_FQ2_Sqrt_ok n f : runB B n src_FQ2_Sqrt [V2 f] = Done [] [V2 (fst (FQ2_Sqrt B f)); VB (snd (FQ2_Sqrt B f))].
Proof. intros. unfold FQ2_Sqrt, FQ2_empty. src. Qed.
Lemma src_FQ2_Copy_ok n f : runB B n src_FQ2_Copy [V2 f] = Done [V2 f] [V2 f].
Proof. intros. src. Qed.
Lemma src_FQ2_Parity_ok n f : runB B n src_FQ2_Parity [V2 f] = Done [] [VB (FQ2_Parity B f)].
Proof. intros. unfold FQ2_Parity. src. Qed.
Lemma src_FQ2_Legendre_ok n f : runB B n src_FQ2_Legendre [V2 f] = Done [] [leg (FQ2_Legendre B f)].
Proof. intros. unfold FQ2_Legendre. src. Qed.
Lemma src_FQ2_DivAssign_ok n f g : runB B n src_FQ2_DivAssign [V2 f; V2 g] = Done [V2 (FQ2_DivAssign B f g)] [].
Proof. intros. unfold FQ2_DivAssign. src. Qed.
Lemma src_NewFQ6_ok n x y z : runB B n src_NewFQ6 [V2 x; V2 y; V2 z] = Done [] [V6 (mkFQ6 x y z)].
Proof. intros. src. Qed.
Lemma src_FQ6_Copy_ok n f : runB B n src_FQ6_Copy [V6 f] = Done [] [V6 f].
Proof. intros. src. Qed.
Lemma src_FQ6_MulByNonresidueAssign_ok n f : runB B n src_FQ6_MulByNonresidueAssign [V6 f] = Done [V6 (FQ6_MulByNonresidueAssign B f)] [].
Proof. intros. unfold FQ6_MulByNonresidueAssign. src. Qed.
Lemma src_FQ6_MulBy1Assign_ok n f c1 : runB B n src_FQ6_MulBy1Assign [V6 f; V2 c1] = Done [V6 (FQ6_MulBy1Assign B f c1)] [].
Proof. intros. unfold FQ6_MulBy1Assign. src. Qed.
Lemma src_FQ6_MulBy01Assign_ok n f c0 c1 : runB B n src_FQ6_MulBy01Assign [V6 f; V2 c0; V2 c1] = Done [V6 (FQ6_MulBy01Assign B f c0 c1)] [].
Proof. intros. unfold FQ6_MulBy01Assign. src. Qed.
Lemma src_FQ6_Equals_ok n f g : runB B n src_FQ6_Equals [V6 f; V6 g] = Done [V6 g] [VB (FQ6_Equals B f g)].
Proof. intros. unfold FQ6_Equals. src. Qed.
Lemma src_FQ6_IsZero_ok n f : runB B n src_FQ6_IsZero [V6 f] = Done [] [VB (FQ6_IsZero B f)].
Proof. intros. unfold FQ6_IsZero. src. Qed.
Lemma src_FQ6_DoubleAssign_ok n f : runB B n src_FQ6_DoubleAssign [V6 f] = Done [V6 (FQ6_DoubleAssign B f)] [].
Proof. intros. unfold FQ6_DoubleAssign. src. Qed.
Lemma src_FQ6_NegAssign_ok n f : runB B n src_FQ6_NegAssign [V6 f] = Done [V6 (FQ6_NegAssign B f)] [].
Proof. intros. unfold FQ6_NegAssign. src. Qed.
Lemma src_FQ6_SquareAssign_ok n f : runB B n src_FQ6_SquareAssign [V6 f] = Done [V6 (FQ6_SquareAssign B f)] [].
Proof. intros. unfold FQ6_SquareAssign. src. Qed.
Lemma src_FQ6_AddAssign_ok n f g : runB B n src_FQ6_AddAssign [V6 f; V6 g] = Done [V6 (FQ6_AddAssign B f g); V6 g] [].
Proof. intros. unfold FQ6_AddAssign. src. Qed.
Lemma src_FQ6_SubAssign_ok n f g : runB B n src_FQ6_SubAssign [V6 f; V6 g] = Done [V6 (FQ6_SubAssign B f g); V6 g] [].
Proof. intros. unfold FQ6_SubAssign. src. Qed.
Lemma src_FQ6_MulAssign_ok n f g : runB B n src_FQ6_MulAssign [V6 f; V6 g] = Done [V6 (FQ6_MulAssign B f g); V6 g] [].
Proof. intros. unfold FQ6_MulAssign. src. Qed.
Lemma src_FQ6_InverseAssign_ok n f : runB B n src_FQ6_InverseAssign [V6 f] = Done [V6 (fst (FQ6_InverseAssign B f))] [VB (snd (FQ6_InverseAssign B f))].
Proof. intros. unfold FQ6_InverseAssign. src. Qed.
Lemma src_NewFQ12_ok n x y : runB B n src_NewFQ12 [V6 x; V6 y] = Done [VMoved; VMoved] [V12 (mkFQ12 x y)].
Proof. intros. src. Qed.
Lemma src_FQ12_Copy_ok n f : runB B n src_FQ12_Copy [V12 f] = Done [] [V12 f].
Proof. intros. src. Qed.
Lemma src_FQ12_ConjugateAssign_ok n f : runB B n src_FQ12_ConjugateAssign [V12 f] = Done [V12 (FQ12_ConjugateAssign B f)] [].
Proof. intros. unfold FQ12_ConjugateAssign. src. Qed.
Lemma src_FQ12_DoubleAssign_ok n f : runB B n src_FQ12_DoubleAssign [V12 f] = Done [V12 (FQ12_DoubleAssign B f)] [].
Proof. intros. unfold FQ12_DoubleAssign. src. Qed.
Lemma src_FQ12_NegAssign_ok n f : runB B n src_FQ12_NegAssign [V12 f] = Done [V12 (FQ12_NegAssign B f)] [].
Proof. intros. unfold FQ12_NegAssign. src. Qed.
Lemma src_FQ12_SquareAssign_ok n f : runB B n src_FQ12_SquareAssign [V12 f] = Done [V12 (FQ12_SquareAssign B f)] [].
Proof. intros. unfold FQ12_SquareAssign. src. Qed.
Lemma src_FQ12_MulBy014Assign_ok n f c0 c1 c4 : runB B n src_FQ12_MulBy014Assign [V12 f; V2 c0; V2 c1; V2 c4] = Done [V12 (FQ12_MulBy014Assign B f c0 c1 c4)] [].
Proof. intros. unfold FQ12_MulBy014Assign. src. Qed.
Lemma src_FQ12_AddAssign_ok n f g : runB B n src_FQ12_AddAssign [V12 f; V12 g] = Done [V12 (FQ12_AddAssign B f g); V12 g] [].
Proof. intros. unfold FQ12_AddAssign. src. Qed.
Lemma src_FQ12_SubAssign_ok n f g : runB B n src_FQ12_SubAssign [V12 f; V12 g] = Done [V12 (FQ12_SubAssign B f g); V12 g] [].
Proof. intros. unfold FQ12_SubAssign. src. Qed.
Lemma src_FQ12_MulAssign_ok n f g : runB B n src_FQ12_MulAssign [V12 f; V12 g] = Done [V12 (FQ12_MulAssign B f g); V12 g] [].
Proof. intros. unfold FQ12_MulAssign. src. Qed.
Lemma src_FQ12_Equals_ok n f g : runB B n src_FQ12_Equals [V12 f; V12 g] = Done [V12 g] [VB (FQ12_Equals B f g)].
Proof. intros. unfold FQ12_Equals. src. Qed.
Lemma src_FQ12_IsZero_ok n f : runB B n src_FQ12_IsZero [V12 f] = Done [V12 f] [VB (FQ12_IsZero B f)].
Proof. intros. unfold FQ12_IsZero. src. Qed.
Lemma src_FQ12_InverseAssign_ok n f : runB B n src_FQ12_InverseAssign [V12 f] = Done [V12 (fst (FQ12_InverseAssign B f))] [VB (snd (FQ12_InverseAssign B f))].
Proof. intros. unfold FQ12_InverseAssign. src. Qed.
End S.
