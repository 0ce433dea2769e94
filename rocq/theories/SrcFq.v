(** fq.go and fr.go, run from their source text. *)
Require Import ZArith Bool String Ascii List Lia.
From Verif Require Import Words ModelRepr ModelFq ModelFr ModelOps ModelTower ModelCurve ModelPairing ModelHash ModelBls ModelStr SrcAst SrcSem SrcCode SrcCall SrcTac SrcLimb.
Import ListNotations.
Open Scope Z_scope.
Local Open Scope string_scope.


Lemma src_FRRepr_ToFQ_ok n a : runL n src_FRRepr_ToFQ [VRr a] = Done [VRr a] [VR (FRRepr_ToFQ a)].
Proof. destruct a. limb_f FRRepr_ToFQ. Qed.
Lemma src_FQ_Copy_ok n x : runL n src_FQ_Copy [VF x] = Done [] [VF x].
Proof. limb_f zeroL. Qed.
Lemma src_FQ_IsValid_ok n x : runL n src_FQ_IsValid [VF x] = Done [VF x] [VB (FQ_IsValid x)].
Proof. limb_w FQ_IsValid. Qed.
Lemma src_FQReprToFQ_ok n r : runL n src_FQReprToFQ [VR r] = Done [] [VF (FQReprToFQ r)].
Proof. limb_w FQReprToFQ. Qed.
Lemma src_FQReprToFQRaw_ok n r : runL n src_FQReprToFQRaw [VR r] = Done [] [VF (FQReprToFQRaw r)].
Proof. limb_f FQReprToFQRaw. Qed.
Lemma src_FQ_AddAssign_ok n x y : runL n src_FQ_AddAssign [VF x; VF y] = Done [VF (FQ_AddAssign x y)] [].
Proof. limb_f FQ_AddAssign. Qed.
Lemma src_FQ_montReduce_ok n x r s : runL n src_FQ_montReduce [VF x; VR r; VR s] = Done [VF (FQ_montReduce r s)] [].
Proof. limb_f FQ_montReduce. Qed.
Lemma src_FQ_MulAssign_ok n x y : runL n src_FQ_MulAssign [VF x; VF y] = Done [VF (FQ_MulAssign x y)] [].
Proof. limb_f FQ_MulAssign. Qed.
Lemma src_FQ_reduceAssign_ok n x : runL n src_FQ_reduceAssign [VF x] = Done [VF (FQ_reduceAssign x)] [].
Proof. limb_f FQ_reduceAssign. Qed.
Lemma src_FQ_DivAssign_ok n x y : runL n src_FQ_DivAssign [VF x; VF y] = Done [VF (FQ_DivAssign x y)] [].
Proof. limb_f FQ_DivAssign. Qed.
Lemma src_FQ_Equals_ok n x y : runL n src_FQ_Equals [VF x; VF y] = Done [] [VB (FQ_Equals x y)].
Proof. limb_f FQ_Equals. Qed.
Lemma src_FQ_NegAssign_ok n x : runL n src_FQ_NegAssign [VF x] = Done [VF (FQ_NegAssign x)] [].
Proof. limb_f FQ_NegAssign. Qed.
Lemma src_FQ_Cmp_ok n x y : runL n src_FQ_Cmp [VF x; VF y] = Done [] [VI (FQ_Cmp x y)].
Proof. limb_f FQ_Cmp. Qed.
Lemma src_FQ_DoubleAssign_ok n x : runL n src_FQ_DoubleAssign [VF x] = Done [VF (FQ_DoubleAssign x)] [].
Proof. limb_f FQ_DoubleAssign. Qed.
Lemma src_FQ_IsZero_ok n x : runL n src_FQ_IsZero [VF x] = Done [] [VB (FQ_IsZero x)].
Proof. limb_f FQ_IsZero. Qed.
Lemma src_FQ_Sqrt_ok n x : runL n src_FQ_Sqrt [VF x] = Done [] [VF (fst (FQ_Sqrt x)); VB (snd (FQ_Sqrt x))].
Proof. limb_f FQ_Sqrt. Qed.
Lemma src_isEven_ok n r : runL n src_isEven [VR r] = Done [] [VB (isEven r)].
Proof. limb_f isEven. Qed.
Lemma src_FQ_Parity_ok n x : runL n src_FQ_Parity [VF x] = Done [] [VB (FQ_Parity x)].
Proof. limb_f FQ_Parity. Qed.
Lemma src_HashFQ_ok n d : runL n src_HashFQ [VS "hash" [("sum", VBy d)]] = Done [] [VF (HashFQ d)].
Proof. limb_f HashFQ. Qed.
Lemma src_FQ_Legendre_ok n x : runL n src_FQ_Legendre [VF x] = Done [VF x] [leg (FQ_Legendre x)].
Proof. limb_f FQ_Legendre. Qed.
Lemma src_FQ_SubAssign_ok n a b : runL n src_FQ_SubAssign [VF a; VF b] = Done [VF (FQ_SubAssign a b)] [].
Proof. destruct a, b. limb_c FQ_SubAssign. Qed.
Lemma src_FQ_SquareAssign_ok n q : runL n src_FQ_SquareAssign [VF q] = Done [VF (FQ_SquareAssign q)] [].
Proof. destruct q as [[? ? ? ? ? ?]]. limb_m FQ_SquareAssign. Qed.
Lemma src_FQ_ToRepr_ok n q : runL n src_FQ_ToRepr [VF q] = Done [VF q] [VR (FQ_ToRepr q)].
Proof. destruct q as [[? ? ? ? ? ?]]. limb_f FQ_ToRepr. Qed.
Lemma src_FR_IsValid_ok n x : runL n src_FR_IsValid [VFR x] = Done [VFR x] [VB (FR_IsValid x)].
Proof. limb_f FR_IsValid. Qed.
Lemma src_FR_reduceAssign_ok n x : runL n src_FR_reduceAssign [VFR x] = Done [VFR (FR_reduceAssign x)] [].
Proof. limb_f FR_reduceAssign. Qed.
Lemma src_FR_Copy_ok n a : runL n src_FR_Copy [VFR a] = Done [VFR a] [VFR a].
Proof. destruct a. limb_f zeroL. Qed.
Lemma src_FR_AddAssign_ok n x y : runL n src_FR_AddAssign [VFR x; VFR y] = Done [VFR (FR_AddAssign x y); VFR y] [].
Proof. limb_f FR_AddAssign. Qed.
Lemma src_FR_montReduce_ok n p r0 r1 r2 r3 r4 r5 r6 r7 : runL n src_FR_montReduce [VFR p; VU 64 r0; VU 64 r1; VU 64 r2; VU 64 r3; VU 64 r4; VU 64 r5; VU 64 r6; VU 64 r7] = Done [VFR (FR_montReduce r0 r1 r2 r3 r4 r5 r6 r7)] [].
Proof. destruct p as [[? ? ? ?]]. limb_m FR_montReduce. Qed.
Lemma src_FR_MulAssign_ok n p q : runL n src_FR_MulAssign [VFR p; VFR q] = Done [VFR (FR_MulAssign p q); VFR q] [].
Proof. destruct p as [[? ? ? ?]]. destruct q as [[? ? ? ?]]. limb_m FR_MulAssign. Qed.
Lemma src_FR_SubAssign_ok n a b : runL n src_FR_SubAssign [VFR a; VFR b] = Done [VFR (FR_SubAssign a b); VFR b] [].
Proof. destruct a, b. limb_c FR_SubAssign. Qed.
Lemma src_FR_Equals_ok n x y : runL n src_FR_Equals [VFR x; VFR y] = Done [VFR x; VFR y] [VB (FR_Equals x y)].
Proof. limb_f FR_Equals. Qed.
Lemma src_FR_NegAssign_ok n x : runL n src_FR_NegAssign [VFR x] = Done [VFR (FR_NegAssign x)] [].
Proof. limb_f FR_NegAssign. Qed.
Lemma src_FR_Cmp_ok n x y : runL n src_FR_Cmp [VFR x; VFR y] = Done [VFR x; VFR y] [VI (FR_Cmp x y)].
Proof. limb_f FR_Cmp. Qed.
Lemma src_FR_DoubleAssign_ok n x : runL n src_FR_DoubleAssign [VFR x] = Done [VFR (FR_DoubleAssign x)] [].
Proof. limb_f FR_DoubleAssign. Qed.
Lemma src_FR_IsZero_ok n x : runL n src_FR_IsZero [VFR x] = Done [VFR x] [VB (FR_IsZero x)].
Proof. limb_f FR_IsZero. Qed.
Lemma src_FR_SquareAssign_ok n q : runL n src_FR_SquareAssign [VFR q] = Done [VFR (FR_SquareAssign q)] [].
Proof. destruct q as [[? ? ? ?]]. limb_m FR_SquareAssign. Qed.
Lemma src_FR_Parity_ok n a : runL n src_FR_Parity [VFR a] = Done [VFR a] [VB (FR_Parity a)].
Proof. destruct a. limb_f FR_Parity. Qed.
Lemma src_FR_Legendre_ok n x : runL n src_FR_Legendre [VFR x] = Done [VFR x] [leg (FR_Legendre x)].
Proof. limb_f FR_Legendre. Qed.
Lemma src_FR_ToRepr_ok n q : runL n src_FR_ToRepr [VFR q] = Done [VFR q] [VRr (FR_ToRepr q)].
Proof. destruct q as [[? ? ? ?]]. limb_f FR_ToRepr. Qed.
Lemma src_FR_Bytes_ok n x : runL n src_FR_Bytes [VFR x] = Done [VFR x] [VBy (FR_Bytes x)].
Proof. limb_f FR_Bytes. Qed.
