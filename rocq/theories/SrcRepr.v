(** stub_fallback.go, bititerator.go, fqrepr.go and frrepr.go, run from their source text. *)
Require Import ZArith Bool String Ascii List Lia.
From Verif Require Import Words ModelRepr ModelFq ModelFr ModelOps ModelTower ModelCurve ModelPairing ModelHash ModelBls ModelStr SrcAst SrcSem SrcCode SrcCall SrcTac SrcLimb.
Import ListNotations.
Open Scope Z_scope.
Local Open Scope string_scope.


Lemma src_AddWithCarry_ok n a0 b0 c0 : runL n src_AddWithCarry [VU 64 a0; VU 64 b0; VU 64 c0] = Done [] [VU 64 (fst (AddWithCarry a0 b0 c0)); VU 64 (snd (AddWithCarry a0 b0 c0))].
Proof. limb_m AddWithCarry. Qed.
Lemma src_SubWithBorrow_ok n a0 b0 c0 : runL n src_SubWithBorrow [VU 64 a0; VU 64 b0; VU 64 c0] = Done [] [VU 64 (fst (SubWithBorrow a0 b0 c0)); VU 64 (snd (SubWithBorrow a0 b0 c0))].
Proof. limb_m SubWithBorrow. Qed.
Lemma src_MACWithCarry_ok n a0 b0 c0 d0 : runL n src_MACWithCarry [VU 64 a0; VU 64 b0; VU 64 c0; VU 64 d0] = Done [] [VU 64 (fst (MACWithCarry a0 b0 c0 d0)); VU 64 (snd (MACWithCarry a0 b0 c0 d0))].
Proof. limb_m MACWithCarry. Qed.
Lemma src_AddNoCarry_ok n a b : runL (7 + n) src_AddNoCarry [VR a; VR b] = Done [] [VR (AddNoCarry a b)].
Proof. destruct a, b. limb_m AddNoCarry. Qed.
Lemma src_SubNoBorrow_ok n a b : runL (7 + n) src_SubNoBorrow [VR a; VR b] = Done [] [VR (SubNoBorrow a b)].
Proof. destruct a, b. limb_m SubNoBorrow. Qed.
Lemma src_FQRepr_IsOdd_ok n a : runL n src_FQRepr_IsOdd [VR a] = Done [] [VB (FQRepr_IsOdd a)].
Proof. destruct a. limb_w FQRepr_IsOdd. Qed.
Lemma src_FQRepr_IsEven_ok n a : runL n src_FQRepr_IsEven [VR a] = Done [] [VB (FQRepr_IsEven a)].
Proof. destruct a. limb_w FQRepr_IsEven. Qed.
Lemma src_FQRepr_IsZero_ok n a : runL (7 + n) src_FQRepr_IsZero [VR a] = Done [] [VB (FQRepr_IsZero a)].
Proof. destruct a. limb_w FQRepr_IsZero. Qed.
Lemma src_NewFQRepr_ok n z : runL n src_NewFQRepr [VU 64 z] = Done [] [VR (NewFQRepr z)].
Proof. limb_w NewFQRepr. Qed.
Lemma src_FQRepr_Div2_ok n a : runL (7 + n) src_FQRepr_Div2 [VR a] = Done [VR (FQRepr_Div2 a)] [].
Proof. destruct a. limb_w FQRepr_Div2. Qed.
Lemma src_FQRepr_Mul2_ok n a : runL (7 + n) src_FQRepr_Mul2 [VR a] = Done [VR (FQRepr_Mul2 a)] [].
Proof. destruct a. limb_w FQRepr_Mul2. Qed.
Lemma src_FQRepr_AddNoCarry_ok n a b : runL n src_FQRepr_AddNoCarry [VR a; VR b] = Done [VR (FQRepr_AddNoCarry a b)] [].
Proof. destruct a, b. limb_w FQRepr_AddNoCarry. Qed.
Lemma src_FQRepr_SubNoBorrow_ok n a b : runL n src_FQRepr_SubNoBorrow [VR a; VR b] = Done [VR (FQRepr_SubNoBorrow a b)] [].
Proof. destruct a, b. limb_w FQRepr_SubNoBorrow. Qed.
Lemma src_FQRepr_Equals_ok n a b : runL n src_FQRepr_Equals [VR a; VR b] = Done [VR a] [VB (FQRepr_Equals a b)].
Proof. destruct a, b. limb_w FQRepr_Equals. Qed.
Lemma src_FQRepr_Cmp_ok n a b : runL (7 + n) src_FQRepr_Cmp [VR a; VR b] = Done [VR a] [VI (FQRepr_Cmp a b)].
Proof. destruct a, b. limb_w FQRepr_Cmp. Qed.
Lemma src_FQRepr_Copy_ok n a : runL n src_FQRepr_Copy [VR a] = Done [VR a] [VR a].
Proof. destruct a. limb_w zeroL. Qed.
Lemma src_FQRepr_Bytes_ok n a : runL n src_FQRepr_Bytes [VR a] = Done [] [VBy (FQRepr_Bytes a)].
Proof. destruct a. limb_w FQRepr_Bytes. Qed.
Lemma src_FQRepr_ToBig_ok n a : runL (7 + n) src_FQRepr_ToBig [VR a] = Done [] [VBig (FQRepr_ToBig a)].
Proof. destruct a. limb_w FQRepr_ToBig. Qed.
Lemma src_MultiplyFQRepr_ok n a b : runL n src_MultiplyFQRepr [VR a; VR b] = Done [] [VR (fst (MultiplyFQRepr a b)); VR (snd (MultiplyFQRepr a b))].
Proof. destruct a, b. limb_m MultiplyFQRepr. Qed.
Lemma src_MontReduce_ok n a b : runL n src_MontReduce [VR a; VR b] = Done [] [VR (MontReduce a b)].
Proof. destruct a, b. limb_m MontReduce. Qed.
Lemma src_FRRepr_IsOdd_ok n a : runL n src_FRRepr_IsOdd [VRr a] = Done [] [VB (FRRepr_IsOdd a)].
Proof. destruct a. limb_w FRRepr_IsOdd. Qed.
Lemma src_FRRepr_IsEven_ok n a : runL n src_FRRepr_IsEven [VRr a] = Done [] [VB (FRRepr_IsEven a)].
Proof. destruct a. limb_w FRRepr_IsEven. Qed.
Lemma src_FRRepr_IsZero_ok n a : runL (7 + n) src_FRRepr_IsZero [VRr a] = Done [] [VB (FRRepr_IsZero a)].
Proof. destruct a. limb_w FRRepr_IsZero. Qed.
Lemma src_NewFRRepr_ok n z : runL n src_NewFRRepr [VU 64 z] = Done [] [VRr (NewFRRepr z)].
Proof. limb_w NewFRRepr. Qed.
Lemma src_FRRepr_Div2_ok n a : runL (7 + n) src_FRRepr_Div2 [VRr a] = Done [VRr (FRRepr_Div2 a)] [].
Proof. destruct a. limb_w FRRepr_Div2. Qed.
Lemma src_FRRepr_Mul2_ok n a : runL (7 + n) src_FRRepr_Mul2 [VRr a] = Done [VRr (FRRepr_Mul2 a)] [].
Proof. destruct a. limb_w FRRepr_Mul2. Qed.
Lemma src_FRRepr_AddNoCarry_ok n a b : runL (7 + n) src_FRRepr_AddNoCarry [VRr a; VRr b] = Done [VRr (FRRepr_AddNoCarry a b); VRr b] [].
Proof. destruct a, b. limb_w FRRepr_AddNoCarry. Qed.
Lemma src_FRRepr_SubNoBorrow_ok n a b : runL (7 + n) src_FRRepr_SubNoBorrow [VRr a; VRr b] = Done [VRr (FRRepr_SubNoBorrow a b); VRr b] [].
Proof. destruct a, b. limb_w FRRepr_SubNoBorrow. Qed.
Lemma src_FRRepr_Equals_ok n a b : runL n src_FRRepr_Equals [VRr a; VRr b] = Done [VRr a; VRr b] [VB (FRRepr_Equals a b)].
Proof. destruct a, b. limb_w FRRepr_Equals. Qed.
Lemma src_FRRepr_Cmp_ok n a b : runL (7 + n) src_FRRepr_Cmp [VRr a; VRr b] = Done [VRr a; VRr b] [VI (FRRepr_Cmp a b)].
Proof. destruct a, b. limb_w FRRepr_Cmp. Qed.
Lemma src_FRRepr_Copy_ok n a : runL n src_FRRepr_Copy [VRr a] = Done [VRr a] [VRr a].
Proof. destruct a. limb_w zeroL. Qed.
Lemma src_FRRepr_Bytes_ok n a : runL n src_FRRepr_Bytes [VRr a] = Done [] [VBy (FRRepr_Bytes a)].
Proof. destruct a. limb_w FRRepr_Bytes. Qed.
Lemma src_FRRepr_ToBig_ok n a : runL (7 + n) src_FRRepr_ToBig [VRr a] = Done [] [VBig (FRRepr_ToBig a)].
Proof. destruct a. limb_w FRRepr_ToBig. Qed.
