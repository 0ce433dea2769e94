(** Tactics for running source text on values that are not known: every function of the model is an atom; after the normal form the
    two sides differ at most by the tests still to be decided. *)
Require Import ZArith Bool String List.
From Verif Require Import Words ModelRepr ModelFq ModelFr ModelOps ModelTower ModelCurve ModelPairing ModelHash ModelBls SrcAst SrcSem SrcCode SrcCall.
Import ListNotations.
Open Scope Z_scope.

Ltac src_split := repeat (reflexivity || match goal with |- context [match ?b with _ => _ end] =>
  lazymatch b with context [match _ with _ => _ end] => fail | _ => destruct b end end).
Ltac src_cbv := cbv -[
  ExpLoop bits_loop o_add o_sub o_mul o_sq o_dbl o_neg o_inv o_iszero o_equals o_cmp o_sqrt o_zero o_one b_ops b_raw b_of b_exp b_repr b_legendre snoc 
  upd wsub iadd isub wlo whi wadd wmul wshl wshr wor wand Add64 Sub64 Mul64 bitlen LeadingZeros64 Z.eqb Z.ltb Z.leb Z.land Z.lor Z.testbit Z.modulo 
  Z.div Nat.add lnth inr nth loopB rangeB mkbytes mkslices big_Mod byte_hi byte_lo loopT rangeT AddWithCarry SubWithBorrow MACWithCarry MultiplyFQRepr 
  montInvFQ AddNoCarry SubNoBorrow NewBitIterator BitIterator_Next for_bits FQRepr_slice FQRepr_IsOdd FQRepr_IsEven FQRepr_IsZero NewFQRepr 
  FQRepr_Rsh_words FQRepr_Rsh FQRepr_Div2 FQRepr_Mul2 FQRepr_Lsh_words FQRepr_Lsh FQRepr_AddNoCarry FQRepr_SubNoBorrow FQRepr_Equals cmp_limbs 
  FQRepr_Cmp bitlen_limbs FQRepr_BitLen be_uint64 be_put64 FQReprFromBytes FQRepr_Bytes FQRepr_Bit FQRepr_ToBig words_of_big big_BitLen 
  FQReprFromBigInt hexdigit hex016 FQRepr_String hexval hex_parse big_SetString16 FQReprFromString16 fqReprFromBigIntUnchecked FQRepr_const 
  FRRepr_slice FRRepr_IsOdd FRRepr_IsEven FRRepr_IsZero NewFRRepr FRRepr_Rsh_words FRRepr_Rsh FRRepr_Div2 FRRepr_Mul2 FRRepr_Lsh_words FRRepr_Lsh 
  FRRepr_AddNoCarry FRRepr_SubNoBorrow FRRepr_Equals cmp_limbs_fr FRRepr_Cmp FRRepr_String FRRepr_BitLen FRReprFromBytes FRRepr_Bytes FRRepr_Bit 
  FRRepr_ToBig FRReprFromBigInt FRReprFromString16 FRRepr_const FRRepr_ToFQ bigZero bigOne bigTwo QFieldModulus FQR2 MontReduce FQ_IsValid 
  FQ_reduceAssign FQ_montReduce FQ_MulAssign FQ_empty FQReprToFQ FQReprToFQRaw FQZero FQOne FQ_AddAssign FQ_SubAssign FQ_DoubleAssign FQ_IsZero 
  FQ_Equals FQ_NegAssign FQ_SquareAssign FQ_ToRepr FQ_Cmp FQ_String FQ_Exp negativeOne negativeOneFQ qMinus3Over4 qMinus1Over2 FQ_Sqrt isEven 
  FQ_inv_halve FQ_inv_loop FQ_Inverse_fuel FQ_Inverse FQ_DivAssign FQ_Parity FQ_MulBits FQ_MulBytes HashFQ FQ_Legendre RandFQ RFieldModulus FRR FRR2 
  montInvFR FR_IsValid FR_reduceAssign FR_montReduce FR_MulAssign FRReprToFR FR_AddAssign FR_SubAssign frOne frZero bigOneFR bigZeroFR FR_IsZero 
  FR_Equals FR_NegAssign FR_DoubleAssign FR_SquareAssign FR_ToRepr FR_Bytes FR_Cmp FR_Exp_loop FR_Exp_with FR_Exp fr_one FR_inv_halve FR_inv_loop 
  FR_Inverse_fuel FR_Inverse FR_Parity FR_MulBits FR_MulBytes HashFR rMinus1Over2 FR_Legendre RandFR FQ2_Cmp FQ2_MultiplyByNonresidueAssign FQ2_Norm 
  FQ2Zero FQ2One FQ2_IsZero FQ2_SquareAssign FQ2_DoubleAssign FQ2_NegAssign FQ2_AddAssign FQ2_SubAssign FQ2_MulAssign FQ2_InverseAssign 
  frobeniusCoeffFQ2c1 FQ2_FrobeniusMapAssign FQ2_Legendre FQ2_Exp FQ2_Equals negOneFQ FQ2_empty FQ2_Sqrt FQ2_Parity FQ2_MulBits FQ2_DivAssign 
  big_SetBytes HashFQ2 FQ2O FQ6_MulByNonresidueAssign FQ6_MulBy1Assign FQ6_MulBy01Assign FQ6Zero FQ6One FQ6_Equals FQ6_IsZero FQ6_DoubleAssign 
  FQ6_NegAssign FQ6_AddAssign FQ6_SubAssign fq2nqr frobeniusCoeffFQ6c1 frobeniusCoeffFQ6c2 FQ6_FrobeniusMapAssign FQ6_SquareAssign FQ6_MulAssign 
  FQ6_MulAssign_aliased FQ6_InverseAssign FQ6_Exp FQ12_ConjugateAssign FQ12_MulBy014Assign FQ12Zero FQ12One FQ12_Equals FQ12_DoubleAssign 
  FQ12_NegAssign FQ12_AddAssign FQ12_IsZero FQ12_SubAssign frobeniusCoeffFQ12c1 FQ12_FrobeniusMapAssign FQ12_SquareAssign FQ12_MulAssign 
  FQ12_InverseAssign FQ12_Exp MulLoop NewAffine AffineZero ProjectiveZero Affine_IsZero Affine_NegAssign Affine_ToProjective Proj_IsZero 
  Proj_NegAssign Proj_Equal ToAffine_div G1_ToAffine G2_ToAffine Double Add AddAffine Affine_Mul Affine_MulFR Affine_MulBig Proj_Mul Proj_MulFR 
  G1Affine_Equals G2Affine_Equals IsOnCurve GetPointFromX frChar g1Cofactor g2Cofactor g1GeneratorX g1GeneratorY g2GeneratorXC1 g2GeneratorXC0 
  g2GeneratorYC1 g2GeneratorYC0 upd0 byte0 BCoeff BCoeffFQ2 G1AffineOne G2AffineOne G1ProjectiveOne G2ProjectiveOne G1_IsOnCurve G2_IsOnCurve 
  GetG1PointFromX GetG2PointFromX G1_IsInCorrectSubgroupAssumingOnCurve G2_IsInCorrectSubgroupAssumingOnCurve G1_ScaleByCofactor G2_ScaleByCofactor 
  G1_SerializeBytes G1_SetRawBytes G2_SerializeBytes G2_SetRawBytes DecompressG1Unchecked DecompressG1 CompressG1 DecompressG2Unchecked DecompressG2 
  CompressG2 RandG1 RandG2 blsX blsIsNegative doublingStep additionStep blsXRsh1 blsX_loop G2AffineToPrepared ell ell_all MillerLoop ExpByX 
  FinalExponentiation Pairing CompareTwoPairings ellPARepr ellPBRepr swencSqrtNegThree swencSqrtNegThreeMinusOneDivTwo iwsc0_repr iwsc1_repr kQiX_repr 
  kQiY_repr xNum11_repr xDen11_repr yNum11_repr yDen11_repr xNum3_repr xDen3_repr yNum3_repr yDen3_repr q_big r_big HashSecretKey hp hp2 ellPA ellPB 
  signFQ DivAssign1 optimizedSWUMapHelper horner iso11 ClearH optimizedSWUMap cipherSuite HashG1 ell2pA ell2pB signFQ2 OptimizedSWU2MapHelper of_pair 
  iso3 iwsc kQiX kQiY psi clearH2 optimizedSWUMap2 HashG2 SWEncodeG2 HashG2WithDomain_loop HashG2WithDomain_start HashG2WithDomain_fuel bytes_Compare 
  bytes_Equal insert_bytes sortByteArrays has_duplicate SecretKey SecretKey_Serialize DeserializeSecretKey DeriveSecretKey KeyFromFQRepr RandKey 
  g1pubs_Signature_Serialize g1pubs_NewSignatureFromG2 g1pubs_DeserializeSignature g1pubs_PublicKey_Serialize g1pubs_NewPublicKeyFromG1 
  g1pubs_PublicKey_Equals g1pubs_DeserializePublicKey g1pubs_Sign g1pubs_SignWithDomain g1pubs_PrivToPub g1pubs_Verify g1pubs_VerifyWithDomain 
  g1pubs_Signature_Aggregate g1pubs_AggregateSignatures g1pubs_PublicKey_Aggregate g1pubs_AggregatePublicKeys g1pubs_NewAggregateSignature 
  g1pubs_NewAggregatePubkey g1pubs_pairing_product g1pubs_VerifyAggregate g1pubs_VerifyAggregateCommon g1pubs_VerifyAggregateCommonWithDomain 
  g1pubs_pairing_product_domain g1pubs_VerifyAggregateWithDomain g2pubs_Signature_Serialize g2pubs_NewSignatureFromG1 g2pubs_DeserializeSignature 
  g2pubs_PublicKey_Serialize g2pubs_NewPublicKeyFromG2 g2pubs_PublicKey_Equals g2pubs_DeserializePublicKey g2pubs_Sign g2pubs_PrivToPub g2pubs_Verify 
  g2pubs_Signature_Aggregate g2pubs_AggregateSignatures g2pubs_PublicKey_Aggregate g2pubs_AggregatePublicKeys g2pubs_NewAggregateSignature 
  g2pubs_NewAggregatePubkey g2pubs_pairing_product g2pubs_VerifyAggregate g2pubs_VerifyAggregateCommon].
(** with the bytes of numbers and the ranges over known lists in the open *)
Ltac src_cbvb := cbv -[
  ExpLoop bits_loop o_add o_sub o_mul o_sq o_dbl o_neg o_inv o_iszero o_equals o_cmp o_sqrt o_zero o_one b_ops b_raw b_of b_exp b_repr b_legendre snoc 
  upd wsub wlo whi wadd wmul wshl wshr wor wand Add64 Sub64 Mul64 bitlen LeadingZeros64 Z.eqb Z.ltb Z.leb Z.land Z.lor Z.testbit Z.modulo Z.div loopB 
  mkbytes mkslices big_Mod byte_hi byte_lo loopT rangeT AddWithCarry SubWithBorrow MACWithCarry MultiplyFQRepr montInvFQ AddNoCarry SubNoBorrow 
  NewBitIterator BitIterator_Next for_bits FQRepr_IsOdd FQRepr_IsEven FQRepr_IsZero NewFQRepr FQRepr_Rsh_words FQRepr_Rsh FQRepr_Div2 FQRepr_Mul2 
  FQRepr_Lsh_words FQRepr_Lsh FQRepr_AddNoCarry FQRepr_SubNoBorrow FQRepr_Equals cmp_limbs FQRepr_Cmp bitlen_limbs FQRepr_BitLen be_uint64 
  FQReprFromBytes FQRepr_Bit FQRepr_ToBig words_of_big big_BitLen FQReprFromBigInt hexdigit hex016 FQRepr_String hexval hex_parse big_SetString16 
  FQReprFromString16 fqReprFromBigIntUnchecked FQRepr_const FRRepr_IsOdd FRRepr_IsEven FRRepr_IsZero NewFRRepr FRRepr_Rsh_words FRRepr_Rsh FRRepr_Div2 
  FRRepr_Mul2 FRRepr_Lsh_words FRRepr_Lsh FRRepr_AddNoCarry FRRepr_SubNoBorrow FRRepr_Equals cmp_limbs_fr FRRepr_Cmp FRRepr_String FRRepr_BitLen 
  FRReprFromBytes FRRepr_Bit FRRepr_ToBig FRReprFromBigInt FRReprFromString16 FRRepr_const FRRepr_ToFQ bigZero bigOne bigTwo QFieldModulus FQR2 
  MontReduce FQ_IsValid FQ_reduceAssign FQ_montReduce FQ_MulAssign FQ_empty FQReprToFQ FQReprToFQRaw FQZero FQOne FQ_AddAssign FQ_SubAssign 
  FQ_DoubleAssign FQ_IsZero FQ_Equals FQ_NegAssign FQ_SquareAssign FQ_ToRepr FQ_Cmp FQ_String FQ_Exp negativeOne negativeOneFQ qMinus3Over4 
  qMinus1Over2 FQ_Sqrt isEven FQ_inv_halve FQ_inv_loop FQ_Inverse_fuel FQ_Inverse FQ_DivAssign FQ_Parity FQ_MulBits FQ_MulBytes HashFQ FQ_Legendre 
  RandFQ RFieldModulus FRR FRR2 montInvFR FR_IsValid FR_reduceAssign FR_montReduce FR_MulAssign FRReprToFR FR_AddAssign FR_SubAssign frOne frZero 
  bigOneFR bigZeroFR FR_IsZero FR_Equals FR_NegAssign FR_DoubleAssign FR_SquareAssign FR_ToRepr FR_Bytes FR_Cmp FR_Exp_loop FR_Exp_with FR_Exp fr_one 
  FR_inv_halve FR_inv_loop FR_Inverse_fuel FR_Inverse FR_Parity FR_MulBits FR_MulBytes HashFR rMinus1Over2 FR_Legendre RandFR FQ2_Cmp 
  FQ2_MultiplyByNonresidueAssign FQ2_Norm FQ2Zero FQ2One FQ2_IsZero FQ2_SquareAssign FQ2_DoubleAssign FQ2_NegAssign FQ2_AddAssign FQ2_SubAssign 
  FQ2_MulAssign FQ2_InverseAssign frobeniusCoeffFQ2c1 FQ2_FrobeniusMapAssign FQ2_Legendre FQ2_Exp FQ2_Equals negOneFQ FQ2_empty FQ2_Sqrt FQ2_Parity 
  FQ2_MulBits FQ2_DivAssign big_SetBytes HashFQ2 FQ2O FQ6_MulByNonresidueAssign FQ6_MulBy1Assign FQ6_MulBy01Assign FQ6Zero FQ6One FQ6_Equals 
  FQ6_IsZero FQ6_DoubleAssign FQ6_NegAssign FQ6_AddAssign FQ6_SubAssign fq2nqr frobeniusCoeffFQ6c1 frobeniusCoeffFQ6c2 FQ6_FrobeniusMapAssign 
  FQ6_SquareAssign FQ6_MulAssign FQ6_MulAssign_aliased FQ6_InverseAssign FQ6_Exp FQ12_ConjugateAssign FQ12_MulBy014Assign FQ12Zero FQ12One FQ12_Equals 
  FQ12_DoubleAssign FQ12_NegAssign FQ12_AddAssign FQ12_IsZero FQ12_SubAssign frobeniusCoeffFQ12c1 FQ12_FrobeniusMapAssign FQ12_SquareAssign 
  FQ12_MulAssign FQ12_InverseAssign FQ12_Exp MulLoop NewAffine AffineZero ProjectiveZero Affine_IsZero Affine_NegAssign Affine_ToProjective 
  Proj_IsZero Proj_NegAssign Proj_Equal ToAffine_div G1_ToAffine G2_ToAffine Double Add AddAffine Affine_Mul Affine_MulFR Affine_MulBig Proj_Mul 
  Proj_MulFR G1Affine_Equals G2Affine_Equals IsOnCurve GetPointFromX frChar g1Cofactor g2Cofactor g1GeneratorX g1GeneratorY g2GeneratorXC1 
  g2GeneratorXC0 g2GeneratorYC1 g2GeneratorYC0 BCoeff BCoeffFQ2 G1AffineOne G2AffineOne G1ProjectiveOne G2ProjectiveOne G1_IsOnCurve G2_IsOnCurve 
  GetG1PointFromX GetG2PointFromX G1_IsInCorrectSubgroupAssumingOnCurve G2_IsInCorrectSubgroupAssumingOnCurve G1_ScaleByCofactor G2_ScaleByCofactor 
  G1_SerializeBytes G1_SetRawBytes G2_SerializeBytes G2_SetRawBytes DecompressG1Unchecked DecompressG1 CompressG1 DecompressG2Unchecked DecompressG2 
  CompressG2 RandG1 RandG2 blsX blsIsNegative doublingStep additionStep blsXRsh1 blsX_loop G2AffineToPrepared ell ell_all MillerLoop ExpByX 
  FinalExponentiation Pairing CompareTwoPairings ellPARepr ellPBRepr swencSqrtNegThree swencSqrtNegThreeMinusOneDivTwo iwsc0_repr iwsc1_repr kQiX_repr 
  kQiY_repr xNum11_repr xDen11_repr yNum11_repr yDen11_repr xNum3_repr xDen3_repr yNum3_repr yDen3_repr q_big r_big HashSecretKey hp hp2 ellPA ellPB 
  signFQ DivAssign1 optimizedSWUMapHelper horner iso11 ClearH optimizedSWUMap cipherSuite HashG1 ell2pA ell2pB signFQ2 OptimizedSWU2MapHelper of_pair 
  iso3 iwsc kQiX kQiY psi clearH2 optimizedSWUMap2 HashG2 SWEncodeG2 HashG2WithDomain_loop HashG2WithDomain_start HashG2WithDomain_fuel bytes_Compare 
  bytes_Equal insert_bytes sortByteArrays has_duplicate SecretKey SecretKey_Serialize DeserializeSecretKey DeriveSecretKey KeyFromFQRepr RandKey 
  g1pubs_Signature_Serialize g1pubs_NewSignatureFromG2 g1pubs_DeserializeSignature g1pubs_PublicKey_Serialize g1pubs_NewPublicKeyFromG1 
  g1pubs_PublicKey_Equals g1pubs_DeserializePublicKey g1pubs_Sign g1pubs_SignWithDomain g1pubs_PrivToPub g1pubs_Verify g1pubs_VerifyWithDomain 
  g1pubs_Signature_Aggregate g1pubs_AggregateSignatures g1pubs_PublicKey_Aggregate g1pubs_AggregatePublicKeys g1pubs_NewAggregateSignature 
  g1pubs_NewAggregatePubkey g1pubs_pairing_product g1pubs_VerifyAggregate g1pubs_VerifyAggregateCommon g1pubs_VerifyAggregateCommonWithDomain 
  g1pubs_pairing_product_domain g1pubs_VerifyAggregateWithDomain g2pubs_Signature_Serialize g2pubs_NewSignatureFromG1 g2pubs_DeserializeSignature 
  g2pubs_PublicKey_Serialize g2pubs_NewPublicKeyFromG2 g2pubs_PublicKey_Equals g2pubs_DeserializePublicKey g2pubs_Sign g2pubs_PrivToPub g2pubs_Verify 
  g2pubs_Signature_Aggregate g2pubs_AggregateSignatures g2pubs_PublicKey_Aggregate g2pubs_AggregatePublicKeys g2pubs_NewAggregateSignature 
  g2pubs_NewAggregatePubkey g2pubs_pairing_product g2pubs_VerifyAggregate g2pubs_VerifyAggregateCommon].
(** with constant indices of small lists in the open *)
Ltac src_cbvl := cbv -[
  ExpLoop bits_loop o_add o_sub o_mul o_sq o_dbl o_neg o_inv o_iszero o_equals o_cmp o_sqrt o_zero o_one b_ops b_raw b_of b_exp b_repr b_legendre snoc 
  upd wsub iadd isub wlo whi wadd wmul wshl wshr wor wand Add64 Sub64 Mul64 bitlen LeadingZeros64 Z.eqb Z.ltb Z.leb Z.land Z.lor Z.testbit Z.modulo 
  Z.div inr nth loopB rangeB mkbytes mkslices big_Mod byte_hi byte_lo loopT rangeT AddWithCarry SubWithBorrow MACWithCarry MultiplyFQRepr montInvFQ 
  AddNoCarry SubNoBorrow NewBitIterator BitIterator_Next for_bits FQRepr_slice FQRepr_IsOdd FQRepr_IsEven FQRepr_IsZero NewFQRepr FQRepr_Rsh_words 
  FQRepr_Rsh FQRepr_Div2 FQRepr_Mul2 FQRepr_Lsh_words FQRepr_Lsh FQRepr_AddNoCarry FQRepr_SubNoBorrow FQRepr_Equals cmp_limbs FQRepr_Cmp bitlen_limbs 
  FQRepr_BitLen be_uint64 be_put64 FQReprFromBytes FQRepr_Bytes FQRepr_Bit FQRepr_ToBig words_of_big big_BitLen FQReprFromBigInt hexdigit hex016 
  FQRepr_String hexval hex_parse big_SetString16 FQReprFromString16 fqReprFromBigIntUnchecked FQRepr_const FRRepr_slice FRRepr_IsOdd FRRepr_IsEven 
  FRRepr_IsZero NewFRRepr FRRepr_Rsh_words FRRepr_Rsh FRRepr_Div2 FRRepr_Mul2 FRRepr_Lsh_words FRRepr_Lsh FRRepr_AddNoCarry FRRepr_SubNoBorrow 
  FRRepr_Equals cmp_limbs_fr FRRepr_Cmp FRRepr_String FRRepr_BitLen FRReprFromBytes FRRepr_Bytes FRRepr_Bit FRRepr_ToBig FRReprFromBigInt 
  FRReprFromString16 FRRepr_const FRRepr_ToFQ bigZero bigOne bigTwo QFieldModulus FQR2 MontReduce FQ_IsValid FQ_reduceAssign FQ_montReduce 
  FQ_MulAssign FQ_empty FQReprToFQ FQReprToFQRaw FQZero FQOne FQ_AddAssign FQ_SubAssign FQ_DoubleAssign FQ_IsZero FQ_Equals FQ_NegAssign 
  FQ_SquareAssign FQ_ToRepr FQ_Cmp FQ_String FQ_Exp negativeOne negativeOneFQ qMinus3Over4 qMinus1Over2 FQ_Sqrt isEven FQ_inv_halve FQ_inv_loop 
  FQ_Inverse_fuel FQ_Inverse FQ_DivAssign FQ_Parity FQ_MulBits FQ_MulBytes HashFQ FQ_Legendre RandFQ RFieldModulus FRR FRR2 montInvFR FR_IsValid 
  FR_reduceAssign FR_montReduce FR_MulAssign FRReprToFR FR_AddAssign FR_SubAssign frOne frZero bigOneFR bigZeroFR FR_IsZero FR_Equals FR_NegAssign 
  FR_DoubleAssign FR_SquareAssign FR_ToRepr FR_Bytes FR_Cmp FR_Exp_loop FR_Exp_with FR_Exp fr_one FR_inv_halve FR_inv_loop FR_Inverse_fuel FR_Inverse 
  FR_Parity FR_MulBits FR_MulBytes HashFR rMinus1Over2 FR_Legendre RandFR FQ2_Cmp FQ2_MultiplyByNonresidueAssign FQ2_Norm FQ2Zero FQ2One FQ2_IsZero 
  FQ2_SquareAssign FQ2_DoubleAssign FQ2_NegAssign FQ2_AddAssign FQ2_SubAssign FQ2_MulAssign FQ2_InverseAssign frobeniusCoeffFQ2c1 
  FQ2_FrobeniusMapAssign FQ2_Legendre FQ2_Exp FQ2_Equals negOneFQ FQ2_empty FQ2_Sqrt FQ2_Parity FQ2_MulBits FQ2_DivAssign big_SetBytes HashFQ2 FQ2O 
  FQ6_MulByNonresidueAssign FQ6_MulBy1Assign FQ6_MulBy01Assign FQ6Zero FQ6One FQ6_Equals FQ6_IsZero FQ6_DoubleAssign FQ6_NegAssign FQ6_AddAssign 
  FQ6_SubAssign fq2nqr frobeniusCoeffFQ6c1 frobeniusCoeffFQ6c2 FQ6_FrobeniusMapAssign FQ6_SquareAssign FQ6_MulAssign FQ6_MulAssign_aliased 
  FQ6_InverseAssign FQ6_Exp FQ12_ConjugateAssign FQ12_MulBy014Assign FQ12Zero FQ12One FQ12_Equals FQ12_DoubleAssign FQ12_NegAssign FQ12_AddAssign 
  FQ12_IsZero FQ12_SubAssign frobeniusCoeffFQ12c1 FQ12_FrobeniusMapAssign FQ12_SquareAssign FQ12_MulAssign FQ12_InverseAssign FQ12_Exp MulLoop 
  NewAffine AffineZero ProjectiveZero Affine_IsZero Affine_NegAssign Affine_ToProjective Proj_IsZero Proj_NegAssign Proj_Equal ToAffine_div 
  G1_ToAffine G2_ToAffine Double Add AddAffine Affine_Mul Affine_MulFR Affine_MulBig Proj_Mul Proj_MulFR G1Affine_Equals G2Affine_Equals IsOnCurve 
  GetPointFromX frChar g1Cofactor g2Cofactor g1GeneratorX g1GeneratorY g2GeneratorXC1 g2GeneratorXC0 g2GeneratorYC1 g2GeneratorYC0 upd0 byte0 BCoeff 
  BCoeffFQ2 G1AffineOne G2AffineOne G1ProjectiveOne G2ProjectiveOne G1_IsOnCurve G2_IsOnCurve GetG1PointFromX GetG2PointFromX 
  G1_IsInCorrectSubgroupAssumingOnCurve G2_IsInCorrectSubgroupAssumingOnCurve G1_ScaleByCofactor G2_ScaleByCofactor G1_SerializeBytes G1_SetRawBytes 
  G2_SerializeBytes G2_SetRawBytes DecompressG1Unchecked DecompressG1 CompressG1 DecompressG2Unchecked DecompressG2 CompressG2 RandG1 RandG2 blsX 
  blsIsNegative doublingStep additionStep blsXRsh1 blsX_loop G2AffineToPrepared ell ell_all MillerLoop ExpByX FinalExponentiation Pairing 
  CompareTwoPairings ellPARepr ellPBRepr swencSqrtNegThree swencSqrtNegThreeMinusOneDivTwo iwsc0_repr iwsc1_repr kQiX_repr kQiY_repr xNum11_repr 
  xDen11_repr yNum11_repr yDen11_repr xNum3_repr xDen3_repr yNum3_repr yDen3_repr q_big r_big HashSecretKey hp hp2 ellPA ellPB signFQ DivAssign1 
  optimizedSWUMapHelper horner iso11 ClearH optimizedSWUMap cipherSuite HashG1 ell2pA ell2pB signFQ2 OptimizedSWU2MapHelper of_pair iso3 iwsc kQiX 
  kQiY psi clearH2 optimizedSWUMap2 HashG2 SWEncodeG2 HashG2WithDomain_loop HashG2WithDomain_start HashG2WithDomain_fuel bytes_Compare bytes_Equal 
  insert_bytes sortByteArrays has_duplicate SecretKey SecretKey_Serialize DeserializeSecretKey DeriveSecretKey KeyFromFQRepr RandKey 
  g1pubs_Signature_Serialize g1pubs_NewSignatureFromG2 g1pubs_DeserializeSignature g1pubs_PublicKey_Serialize g1pubs_NewPublicKeyFromG1 
  g1pubs_PublicKey_Equals g1pubs_DeserializePublicKey g1pubs_Sign g1pubs_SignWithDomain g1pubs_PrivToPub g1pubs_Verify g1pubs_VerifyWithDomain 
  g1pubs_Signature_Aggregate g1pubs_AggregateSignatures g1pubs_PublicKey_Aggregate g1pubs_AggregatePublicKeys g1pubs_NewAggregateSignature 
  g1pubs_NewAggregatePubkey g1pubs_pairing_product g1pubs_VerifyAggregate g1pubs_VerifyAggregateCommon g1pubs_VerifyAggregateCommonWithDomain 
  g1pubs_pairing_product_domain g1pubs_VerifyAggregateWithDomain g2pubs_Signature_Serialize g2pubs_NewSignatureFromG1 g2pubs_DeserializeSignature 
  g2pubs_PublicKey_Serialize g2pubs_NewPublicKeyFromG2 g2pubs_PublicKey_Equals g2pubs_DeserializePublicKey g2pubs_Sign g2pubs_PrivToPub g2pubs_Verify 
  g2pubs_Signature_Aggregate g2pubs_AggregateSignatures g2pubs_PublicKey_Aggregate g2pubs_AggregatePublicKeys g2pubs_NewAggregateSignature 
  g2pubs_NewAggregatePubkey g2pubs_pairing_product g2pubs_VerifyAggregate g2pubs_VerifyAggregateCommon].
(** with the lengths of slices and copy as atoms *)
Ltac src_cbvs := cbv -[
  ExpLoop bits_loop o_add o_sub o_mul o_sq o_dbl o_neg o_inv o_iszero o_equals o_cmp o_sqrt o_zero o_one b_ops b_raw b_of b_exp b_repr b_legendre snoc 
  upd wsub iadd isub wlo whi wadd wmul wshl wshr wor wand Add64 Sub64 Mul64 bitlen LeadingZeros64 Z.eqb Z.ltb Z.leb Z.land Z.lor Z.testbit Z.modulo 
  Z.div Nat.add lnth inr nth loopB rangeB mkbytes mkslices big_Mod byte_hi byte_lo loopT rangeT AddWithCarry SubWithBorrow MACWithCarry MultiplyFQRepr 
  montInvFQ AddNoCarry SubNoBorrow NewBitIterator BitIterator_Next for_bits FQRepr_slice FQRepr_IsOdd FQRepr_IsEven FQRepr_IsZero NewFQRepr 
  FQRepr_Rsh_words FQRepr_Rsh FQRepr_Div2 FQRepr_Mul2 FQRepr_Lsh_words FQRepr_Lsh FQRepr_AddNoCarry FQRepr_SubNoBorrow FQRepr_Equals cmp_limbs 
  FQRepr_Cmp bitlen_limbs FQRepr_BitLen be_uint64 be_put64 FQReprFromBytes FQRepr_Bytes FQRepr_Bit FQRepr_ToBig words_of_big big_BitLen 
  FQReprFromBigInt hexdigit hex016 FQRepr_String hexval hex_parse big_SetString16 FQReprFromString16 fqReprFromBigIntUnchecked FQRepr_const 
  FRRepr_slice FRRepr_IsOdd FRRepr_IsEven FRRepr_IsZero NewFRRepr FRRepr_Rsh_words FRRepr_Rsh FRRepr_Div2 FRRepr_Mul2 FRRepr_Lsh_words FRRepr_Lsh 
  FRRepr_AddNoCarry FRRepr_SubNoBorrow FRRepr_Equals cmp_limbs_fr FRRepr_Cmp FRRepr_String FRRepr_BitLen FRReprFromBytes FRRepr_Bytes FRRepr_Bit 
  FRRepr_ToBig FRReprFromBigInt FRReprFromString16 FRRepr_const FRRepr_ToFQ bigZero bigOne bigTwo QFieldModulus FQR2 MontReduce FQ_IsValid 
  FQ_reduceAssign FQ_montReduce FQ_MulAssign FQ_empty FQReprToFQ FQReprToFQRaw FQZero FQOne FQ_AddAssign FQ_SubAssign FQ_DoubleAssign FQ_IsZero 
  FQ_Equals FQ_NegAssign FQ_SquareAssign FQ_ToRepr FQ_Cmp FQ_String FQ_Exp negativeOne negativeOneFQ qMinus3Over4 qMinus1Over2 FQ_Sqrt isEven 
  FQ_inv_halve FQ_inv_loop FQ_Inverse_fuel FQ_Inverse FQ_DivAssign FQ_Parity FQ_MulBits FQ_MulBytes HashFQ FQ_Legendre RandFQ RFieldModulus FRR FRR2 
  montInvFR FR_IsValid FR_reduceAssign FR_montReduce FR_MulAssign FRReprToFR FR_AddAssign FR_SubAssign frOne frZero bigOneFR bigZeroFR FR_IsZero 
  FR_Equals FR_NegAssign FR_DoubleAssign FR_SquareAssign FR_ToRepr FR_Bytes FR_Cmp FR_Exp_loop FR_Exp_with FR_Exp fr_one FR_inv_halve FR_inv_loop 
  FR_Inverse_fuel FR_Inverse FR_Parity FR_MulBits FR_MulBytes HashFR rMinus1Over2 FR_Legendre RandFR FQ2_Cmp FQ2_MultiplyByNonresidueAssign FQ2_Norm 
  FQ2Zero FQ2One FQ2_IsZero FQ2_SquareAssign FQ2_DoubleAssign FQ2_NegAssign FQ2_AddAssign FQ2_SubAssign FQ2_MulAssign FQ2_InverseAssign 
  frobeniusCoeffFQ2c1 FQ2_FrobeniusMapAssign FQ2_Legendre FQ2_Exp FQ2_Equals negOneFQ FQ2_empty FQ2_Sqrt FQ2_Parity FQ2_MulBits FQ2_DivAssign 
  big_SetBytes HashFQ2 FQ2O FQ6_MulByNonresidueAssign FQ6_MulBy1Assign FQ6_MulBy01Assign FQ6Zero FQ6One FQ6_Equals FQ6_IsZero FQ6_DoubleAssign 
  FQ6_NegAssign FQ6_AddAssign FQ6_SubAssign fq2nqr frobeniusCoeffFQ6c1 frobeniusCoeffFQ6c2 FQ6_FrobeniusMapAssign FQ6_SquareAssign FQ6_MulAssign 
  FQ6_MulAssign_aliased FQ6_InverseAssign FQ6_Exp FQ12_ConjugateAssign FQ12_MulBy014Assign FQ12Zero FQ12One FQ12_Equals FQ12_DoubleAssign 
  FQ12_NegAssign FQ12_AddAssign FQ12_IsZero FQ12_SubAssign frobeniusCoeffFQ12c1 FQ12_FrobeniusMapAssign FQ12_SquareAssign FQ12_MulAssign 
  FQ12_InverseAssign FQ12_Exp MulLoop NewAffine AffineZero ProjectiveZero Affine_IsZero Affine_NegAssign Affine_ToProjective Proj_IsZero 
  Proj_NegAssign Proj_Equal ToAffine_div G1_ToAffine G2_ToAffine Double Add AddAffine Affine_Mul Affine_MulFR Affine_MulBig Proj_Mul Proj_MulFR 
  G1Affine_Equals G2Affine_Equals IsOnCurve GetPointFromX frChar g1Cofactor g2Cofactor g1GeneratorX g1GeneratorY g2GeneratorXC1 g2GeneratorXC0 
  g2GeneratorYC1 g2GeneratorYC0 upd0 byte0 BCoeff BCoeffFQ2 G1AffineOne G2AffineOne G1ProjectiveOne G2ProjectiveOne G1_IsOnCurve G2_IsOnCurve 
  GetG1PointFromX GetG2PointFromX G1_IsInCorrectSubgroupAssumingOnCurve G2_IsInCorrectSubgroupAssumingOnCurve G1_ScaleByCofactor G2_ScaleByCofactor 
  G1_SerializeBytes G1_SetRawBytes G2_SerializeBytes G2_SetRawBytes DecompressG1Unchecked DecompressG1 CompressG1 DecompressG2Unchecked DecompressG2 
  CompressG2 RandG1 RandG2 blsX blsIsNegative doublingStep additionStep blsXRsh1 blsX_loop G2AffineToPrepared ell ell_all MillerLoop ExpByX 
  FinalExponentiation Pairing CompareTwoPairings ellPARepr ellPBRepr swencSqrtNegThree swencSqrtNegThreeMinusOneDivTwo iwsc0_repr iwsc1_repr kQiX_repr 
  kQiY_repr xNum11_repr xDen11_repr yNum11_repr yDen11_repr xNum3_repr xDen3_repr yNum3_repr yDen3_repr q_big r_big HashSecretKey hp hp2 ellPA ellPB 
  signFQ DivAssign1 optimizedSWUMapHelper horner iso11 ClearH optimizedSWUMap cipherSuite HashG1 ell2pA ell2pB signFQ2 OptimizedSWU2MapHelper of_pair 
  iso3 iwsc kQiX kQiY psi clearH2 optimizedSWUMap2 HashG2 SWEncodeG2 HashG2WithDomain_loop HashG2WithDomain_start HashG2WithDomain_fuel bytes_Compare 
  bytes_Equal insert_bytes sortByteArrays has_duplicate SecretKey SecretKey_Serialize DeserializeSecretKey DeriveSecretKey KeyFromFQRepr RandKey 
  g1pubs_Signature_Serialize g1pubs_NewSignatureFromG2 g1pubs_DeserializeSignature g1pubs_PublicKey_Serialize g1pubs_NewPublicKeyFromG1 
  g1pubs_PublicKey_Equals g1pubs_DeserializePublicKey g1pubs_Sign g1pubs_SignWithDomain g1pubs_PrivToPub g1pubs_Verify g1pubs_VerifyWithDomain 
  g1pubs_Signature_Aggregate g1pubs_AggregateSignatures g1pubs_PublicKey_Aggregate g1pubs_AggregatePublicKeys g1pubs_NewAggregateSignature 
  g1pubs_NewAggregatePubkey g1pubs_pairing_product g1pubs_VerifyAggregate g1pubs_VerifyAggregateCommon g1pubs_VerifyAggregateCommonWithDomain 
  g1pubs_pairing_product_domain g1pubs_VerifyAggregateWithDomain g2pubs_Signature_Serialize g2pubs_NewSignatureFromG1 g2pubs_DeserializeSignature 
  g2pubs_PublicKey_Serialize g2pubs_NewPublicKeyFromG2 g2pubs_PublicKey_Equals g2pubs_DeserializePublicKey g2pubs_Sign g2pubs_PrivToPub g2pubs_Verify 
  g2pubs_Signature_Aggregate g2pubs_AggregateSignatures g2pubs_PublicKey_Aggregate g2pubs_AggregatePublicKeys g2pubs_NewAggregateSignature 
  g2pubs_NewAggregatePubkey g2pubs_pairing_product g2pubs_VerifyAggregate g2pubs_VerifyAggregateCommon length go_copy Z.of_nat Z.to_nat less].
(** with the numbers of type int in the open; those of type uint64 are atoms *)
Ltac src_cbvw := cbv -[
  ExpLoop bits_loop o_add o_sub o_mul o_sq o_dbl o_neg o_inv o_iszero o_equals o_cmp o_sqrt o_zero o_one b_ops b_raw b_of b_exp b_repr b_legendre snoc 
  wsub wlo whi wadd wmul wshl wshr wor wand Add64 Sub64 Mul64 bitlen LeadingZeros64 Z.land Z.lor Z.testbit Z.modulo Z.div loopB rangeB mkbytes 
  mkslices big_Mod byte_hi byte_lo AddWithCarry SubWithBorrow MACWithCarry MultiplyFQRepr montInvFQ AddNoCarry SubNoBorrow NewBitIterator 
  BitIterator_Next for_bits FQRepr_slice FQRepr_IsOdd FQRepr_IsEven FQRepr_IsZero NewFQRepr FQRepr_Rsh_words FQRepr_Rsh FQRepr_Div2 FQRepr_Mul2 
  FQRepr_Lsh_words FQRepr_Lsh FQRepr_AddNoCarry FQRepr_SubNoBorrow FQRepr_Equals cmp_limbs FQRepr_Cmp bitlen_limbs FQRepr_BitLen be_uint64 be_put64 
  FQReprFromBytes FQRepr_Bytes FQRepr_Bit FQRepr_ToBig words_of_big big_BitLen FQReprFromBigInt hexdigit hex016 FQRepr_String hexval hex_parse 
  big_SetString16 FQReprFromString16 fqReprFromBigIntUnchecked FQRepr_const FRRepr_slice FRRepr_IsOdd FRRepr_IsEven FRRepr_IsZero NewFRRepr 
  FRRepr_Rsh_words FRRepr_Rsh FRRepr_Div2 FRRepr_Mul2 FRRepr_Lsh_words FRRepr_Lsh FRRepr_AddNoCarry FRRepr_SubNoBorrow FRRepr_Equals cmp_limbs_fr 
  FRRepr_Cmp FRRepr_String FRRepr_BitLen FRReprFromBytes FRRepr_Bytes FRRepr_Bit FRRepr_ToBig FRReprFromBigInt FRReprFromString16 FRRepr_const 
  FRRepr_ToFQ bigZero bigOne bigTwo QFieldModulus FQR2 MontReduce FQ_IsValid FQ_reduceAssign FQ_montReduce FQ_MulAssign FQ_empty FQReprToFQ 
  FQReprToFQRaw FQZero FQOne FQ_AddAssign FQ_SubAssign FQ_DoubleAssign FQ_IsZero FQ_Equals FQ_NegAssign FQ_SquareAssign FQ_ToRepr FQ_Cmp FQ_String 
  FQ_Exp negativeOne negativeOneFQ qMinus3Over4 qMinus1Over2 FQ_Sqrt isEven FQ_inv_halve FQ_inv_loop FQ_Inverse_fuel FQ_Inverse FQ_DivAssign FQ_Parity 
  FQ_MulBits FQ_MulBytes HashFQ FQ_Legendre RandFQ RFieldModulus FRR FRR2 montInvFR FR_IsValid FR_reduceAssign FR_montReduce FR_MulAssign FRReprToFR 
  FR_AddAssign FR_SubAssign frOne frZero bigOneFR bigZeroFR FR_IsZero FR_Equals FR_NegAssign FR_DoubleAssign FR_SquareAssign FR_ToRepr FR_Bytes FR_Cmp 
  FR_Exp_loop FR_Exp_with FR_Exp fr_one FR_inv_halve FR_inv_loop FR_Inverse_fuel FR_Inverse FR_Parity FR_MulBits FR_MulBytes HashFR rMinus1Over2 
  FR_Legendre RandFR FQ2_Cmp FQ2_MultiplyByNonresidueAssign FQ2_Norm FQ2Zero FQ2One FQ2_IsZero FQ2_SquareAssign FQ2_DoubleAssign FQ2_NegAssign 
  FQ2_AddAssign FQ2_SubAssign FQ2_MulAssign FQ2_InverseAssign frobeniusCoeffFQ2c1 FQ2_FrobeniusMapAssign FQ2_Legendre FQ2_Exp FQ2_Equals negOneFQ 
  FQ2_empty FQ2_Sqrt FQ2_Parity FQ2_MulBits FQ2_DivAssign big_SetBytes HashFQ2 FQ2O FQ6_MulByNonresidueAssign FQ6_MulBy1Assign FQ6_MulBy01Assign 
  FQ6Zero FQ6One FQ6_Equals FQ6_IsZero FQ6_DoubleAssign FQ6_NegAssign FQ6_AddAssign FQ6_SubAssign fq2nqr frobeniusCoeffFQ6c1 frobeniusCoeffFQ6c2 
  FQ6_FrobeniusMapAssign FQ6_SquareAssign FQ6_MulAssign FQ6_MulAssign_aliased FQ6_InverseAssign FQ6_Exp FQ12_ConjugateAssign FQ12_MulBy014Assign 
  FQ12Zero FQ12One FQ12_Equals FQ12_DoubleAssign FQ12_NegAssign FQ12_AddAssign FQ12_IsZero FQ12_SubAssign frobeniusCoeffFQ12c1 FQ12_FrobeniusMapAssign 
  FQ12_SquareAssign FQ12_MulAssign FQ12_InverseAssign FQ12_Exp MulLoop NewAffine AffineZero ProjectiveZero Affine_IsZero Affine_NegAssign 
  Affine_ToProjective Proj_IsZero Proj_NegAssign Proj_Equal ToAffine_div G1_ToAffine G2_ToAffine Double Add AddAffine Affine_Mul Affine_MulFR 
  Affine_MulBig Proj_Mul Proj_MulFR G1Affine_Equals G2Affine_Equals IsOnCurve GetPointFromX frChar g1Cofactor g2Cofactor g1GeneratorX g1GeneratorY 
  g2GeneratorXC1 g2GeneratorXC0 g2GeneratorYC1 g2GeneratorYC0 upd0 byte0 BCoeff BCoeffFQ2 G1AffineOne G2AffineOne G1ProjectiveOne G2ProjectiveOne 
  G1_IsOnCurve G2_IsOnCurve GetG1PointFromX GetG2PointFromX G1_IsInCorrectSubgroupAssumingOnCurve G2_IsInCorrectSubgroupAssumingOnCurve 
  G1_ScaleByCofactor G2_ScaleByCofactor G1_SerializeBytes G1_SetRawBytes G2_SerializeBytes G2_SetRawBytes DecompressG1Unchecked DecompressG1 
  CompressG1 DecompressG2Unchecked DecompressG2 CompressG2 RandG1 RandG2 blsX blsIsNegative doublingStep additionStep blsXRsh1 blsX_loop 
  G2AffineToPrepared ell ell_all MillerLoop ExpByX FinalExponentiation Pairing CompareTwoPairings ellPARepr ellPBRepr swencSqrtNegThree 
  swencSqrtNegThreeMinusOneDivTwo iwsc0_repr iwsc1_repr kQiX_repr kQiY_repr xNum11_repr xDen11_repr yNum11_repr yDen11_repr xNum3_repr xDen3_repr 
  yNum3_repr yDen3_repr q_big r_big HashSecretKey hp hp2 ellPA ellPB signFQ DivAssign1 optimizedSWUMapHelper horner iso11 ClearH optimizedSWUMap 
  cipherSuite HashG1 ell2pA ell2pB signFQ2 OptimizedSWU2MapHelper of_pair iso3 iwsc kQiX kQiY psi clearH2 optimizedSWUMap2 HashG2 SWEncodeG2 
  HashG2WithDomain_loop HashG2WithDomain_start HashG2WithDomain_fuel bytes_Compare bytes_Equal insert_bytes sortByteArrays has_duplicate SecretKey 
  SecretKey_Serialize DeserializeSecretKey DeriveSecretKey KeyFromFQRepr RandKey g1pubs_Signature_Serialize g1pubs_NewSignatureFromG2 
  g1pubs_DeserializeSignature g1pubs_PublicKey_Serialize g1pubs_NewPublicKeyFromG1 g1pubs_PublicKey_Equals g1pubs_DeserializePublicKey g1pubs_Sign 
  g1pubs_SignWithDomain g1pubs_PrivToPub g1pubs_Verify g1pubs_VerifyWithDomain g1pubs_Signature_Aggregate g1pubs_AggregateSignatures 
  g1pubs_PublicKey_Aggregate g1pubs_AggregatePublicKeys g1pubs_NewAggregateSignature g1pubs_NewAggregatePubkey g1pubs_pairing_product 
  g1pubs_VerifyAggregate g1pubs_VerifyAggregateCommon g1pubs_VerifyAggregateCommonWithDomain g1pubs_pairing_product_domain 
  g1pubs_VerifyAggregateWithDomain g2pubs_Signature_Serialize g2pubs_NewSignatureFromG1 g2pubs_DeserializeSignature g2pubs_PublicKey_Serialize 
  g2pubs_NewPublicKeyFromG2 g2pubs_PublicKey_Equals g2pubs_DeserializePublicKey g2pubs_Sign g2pubs_PrivToPub g2pubs_Verify g2pubs_Signature_Aggregate 
  g2pubs_AggregateSignatures g2pubs_PublicKey_Aggregate g2pubs_AggregatePublicKeys g2pubs_NewAggregateSignature g2pubs_NewAggregatePubkey 
  g2pubs_pairing_product g2pubs_VerifyAggregate g2pubs_VerifyAggregateCommon weqb wltb wleb].
(** with all numbers and known lists in the open, for runs on constants *)
Ltac src_cbvh := cbv -[
  ExpLoop bits_loop o_add o_sub o_mul o_sq o_dbl o_neg o_inv o_iszero o_equals o_cmp o_sqrt o_zero o_one b_ops b_raw b_of b_exp b_repr b_legendre snoc 
  wsub wlo whi wadd wmul wshl wshr wor wand Add64 Sub64 Mul64 bitlen LeadingZeros64 Z.land Z.lor Z.testbit Z.div loopB rangeB mkbytes mkslices big_Mod 
  byte_hi byte_lo AddWithCarry SubWithBorrow MACWithCarry MultiplyFQRepr montInvFQ AddNoCarry SubNoBorrow NewBitIterator BitIterator_Next for_bits 
  FQRepr_slice FQRepr_IsOdd FQRepr_IsEven FQRepr_IsZero NewFQRepr FQRepr_Rsh_words FQRepr_Rsh FQRepr_Div2 FQRepr_Mul2 FQRepr_Lsh_words FQRepr_Lsh 
  FQRepr_AddNoCarry FQRepr_SubNoBorrow FQRepr_Equals cmp_limbs FQRepr_Cmp bitlen_limbs FQRepr_BitLen be_uint64 be_put64 FQReprFromBytes FQRepr_Bytes 
  FQRepr_Bit FQRepr_ToBig words_of_big big_BitLen FQReprFromBigInt hexdigit hex016 FQRepr_String hexval hex_parse big_SetString16 FQReprFromString16 
  fqReprFromBigIntUnchecked FQRepr_const FRRepr_slice FRRepr_IsOdd FRRepr_IsEven FRRepr_IsZero NewFRRepr FRRepr_Rsh_words FRRepr_Rsh FRRepr_Div2 
  FRRepr_Mul2 FRRepr_Lsh_words FRRepr_Lsh FRRepr_AddNoCarry FRRepr_SubNoBorrow FRRepr_Equals cmp_limbs_fr FRRepr_Cmp FRRepr_String FRRepr_BitLen 
  FRReprFromBytes FRRepr_Bytes FRRepr_Bit FRRepr_ToBig FRReprFromBigInt FRReprFromString16 FRRepr_const FRRepr_ToFQ bigZero bigOne bigTwo 
  QFieldModulus FQR2 MontReduce FQ_IsValid FQ_reduceAssign FQ_montReduce FQ_MulAssign FQ_empty FQReprToFQ FQReprToFQRaw FQZero FQOne FQ_AddAssign 
  FQ_SubAssign FQ_DoubleAssign FQ_IsZero FQ_Equals FQ_NegAssign FQ_SquareAssign FQ_ToRepr FQ_Cmp FQ_String FQ_Exp negativeOne negativeOneFQ 
  qMinus3Over4 qMinus1Over2 FQ_Sqrt isEven FQ_inv_halve FQ_inv_loop FQ_Inverse_fuel FQ_Inverse FQ_DivAssign FQ_Parity FQ_MulBits FQ_MulBytes HashFQ 
  FQ_Legendre RandFQ RFieldModulus FRR FRR2 montInvFR FR_IsValid FR_reduceAssign FR_montReduce FR_MulAssign FRReprToFR FR_AddAssign FR_SubAssign frOne 
  frZero bigOneFR bigZeroFR FR_IsZero FR_Equals FR_NegAssign FR_DoubleAssign FR_SquareAssign FR_ToRepr FR_Bytes FR_Cmp FR_Exp_loop FR_Exp_with FR_Exp 
  fr_one FR_inv_halve FR_inv_loop FR_Inverse_fuel FR_Inverse FR_Parity FR_MulBits FR_MulBytes HashFR rMinus1Over2 FR_Legendre RandFR FQ2_Cmp 
  FQ2_MultiplyByNonresidueAssign FQ2_Norm FQ2Zero FQ2One FQ2_IsZero FQ2_SquareAssign FQ2_DoubleAssign FQ2_NegAssign FQ2_AddAssign FQ2_SubAssign 
  FQ2_MulAssign FQ2_InverseAssign frobeniusCoeffFQ2c1 FQ2_FrobeniusMapAssign FQ2_Legendre FQ2_Exp FQ2_Equals negOneFQ FQ2_empty FQ2_Sqrt FQ2_Parity 
  FQ2_MulBits FQ2_DivAssign big_SetBytes HashFQ2 FQ2O FQ6_MulByNonresidueAssign FQ6_MulBy1Assign FQ6_MulBy01Assign FQ6Zero FQ6One FQ6_Equals 
  FQ6_IsZero FQ6_DoubleAssign FQ6_NegAssign FQ6_AddAssign FQ6_SubAssign fq2nqr frobeniusCoeffFQ6c1 frobeniusCoeffFQ6c2 FQ6_FrobeniusMapAssign 
  FQ6_SquareAssign FQ6_MulAssign FQ6_MulAssign_aliased FQ6_InverseAssign FQ6_Exp FQ12_ConjugateAssign FQ12_MulBy014Assign FQ12Zero FQ12One FQ12_Equals 
  FQ12_DoubleAssign FQ12_NegAssign FQ12_AddAssign FQ12_IsZero FQ12_SubAssign frobeniusCoeffFQ12c1 FQ12_FrobeniusMapAssign FQ12_SquareAssign 
  FQ12_MulAssign FQ12_InverseAssign FQ12_Exp MulLoop NewAffine AffineZero ProjectiveZero Affine_IsZero Affine_NegAssign Affine_ToProjective 
  Proj_IsZero Proj_NegAssign Proj_Equal ToAffine_div G1_ToAffine G2_ToAffine Double Add AddAffine Affine_Mul Affine_MulFR Affine_MulBig Proj_Mul 
  Proj_MulFR G1Affine_Equals G2Affine_Equals IsOnCurve GetPointFromX frChar g1Cofactor g2Cofactor g1GeneratorX g1GeneratorY g2GeneratorXC1 
  g2GeneratorXC0 g2GeneratorYC1 g2GeneratorYC0 upd0 byte0 BCoeff BCoeffFQ2 G1AffineOne G2AffineOne G1ProjectiveOne G2ProjectiveOne G1_IsOnCurve 
  G2_IsOnCurve GetG1PointFromX GetG2PointFromX G1_IsInCorrectSubgroupAssumingOnCurve G2_IsInCorrectSubgroupAssumingOnCurve G1_ScaleByCofactor 
  G2_ScaleByCofactor G1_SerializeBytes G1_SetRawBytes G2_SerializeBytes G2_SetRawBytes DecompressG1Unchecked DecompressG1 CompressG1 
  DecompressG2Unchecked DecompressG2 CompressG2 RandG1 RandG2 blsX blsIsNegative doublingStep additionStep blsXRsh1 blsX_loop G2AffineToPrepared ell 
  ell_all MillerLoop ExpByX FinalExponentiation Pairing CompareTwoPairings ellPARepr ellPBRepr swencSqrtNegThree swencSqrtNegThreeMinusOneDivTwo 
  iwsc0_repr iwsc1_repr kQiX_repr kQiY_repr q_big r_big HashSecretKey hp hp2 ellPA ellPB signFQ DivAssign1 optimizedSWUMapHelper iso11 ClearH 
  optimizedSWUMap cipherSuite HashG1 ell2pA ell2pB signFQ2 OptimizedSWU2MapHelper iso3 iwsc kQiX kQiY psi clearH2 optimizedSWUMap2 HashG2 SWEncodeG2 
  HashG2WithDomain_loop HashG2WithDomain_start HashG2WithDomain_fuel bytes_Compare bytes_Equal insert_bytes sortByteArrays has_duplicate SecretKey 
  SecretKey_Serialize DeserializeSecretKey DeriveSecretKey KeyFromFQRepr RandKey g1pubs_Signature_Serialize g1pubs_NewSignatureFromG2 
  g1pubs_DeserializeSignature g1pubs_PublicKey_Serialize g1pubs_NewPublicKeyFromG1 g1pubs_PublicKey_Equals g1pubs_DeserializePublicKey g1pubs_Sign 
  g1pubs_SignWithDomain g1pubs_PrivToPub g1pubs_Verify g1pubs_VerifyWithDomain g1pubs_Signature_Aggregate g1pubs_AggregateSignatures 
  g1pubs_PublicKey_Aggregate g1pubs_AggregatePublicKeys g1pubs_NewAggregateSignature g1pubs_NewAggregatePubkey g1pubs_pairing_product 
  g1pubs_VerifyAggregate g1pubs_VerifyAggregateCommon g1pubs_VerifyAggregateCommonWithDomain g1pubs_pairing_product_domain 
  g1pubs_VerifyAggregateWithDomain g2pubs_Signature_Serialize g2pubs_NewSignatureFromG1 g2pubs_DeserializeSignature g2pubs_PublicKey_Serialize 
  g2pubs_NewPublicKeyFromG2 g2pubs_PublicKey_Equals g2pubs_DeserializePublicKey g2pubs_Sign g2pubs_PrivToPub g2pubs_Verify g2pubs_Signature_Aggregate 
  g2pubs_AggregateSignatures g2pubs_PublicKey_Aggregate g2pubs_AggregatePublicKeys g2pubs_NewAggregateSignature g2pubs_NewAggregatePubkey 
  g2pubs_pairing_product g2pubs_VerifyAggregate g2pubs_VerifyAggregateCommon].
Ltac src := src_cbv; src_split.
Ltac src_lhs := etransitivity; [src_cbv; reflexivity|].
(** the operations of FQ2 in code written for any field *)
Ltac src2 := cbn [o_add o_sub o_mul o_sq o_dbl o_neg o_inv o_iszero o_equals o_cmp o_sqrt o_zero o_one FQ2O]; src.

(** Cutting a run: the statements up to a place, and the rest as a continuation. The two sides are convertible; only the kernel checks it. *)
Lemma use_K {A} (P : A -> Prop) (k : A) : (forall K, K = k -> P K) -> P k.
Proof. intros H. exact (H k eq_refl). Qed.
Fixpoint pos_for (ss : list stmt) : nat := match ss with SFor _ _ _ _ :: _ => 0 | _ :: r => S (pos_for r) | [] => 0 end%nat.
Fixpoint pos_range (ss : list stmt) : nat := match ss with SRange _ _ _ _ :: _ => 0 | _ :: r => S (pos_range r) | [] => 0 end%nat.
Ltac to_exec := match goal with |- exec _ _ _ _ _ _ _ _ _ _ _ _ _ = _ => idtac
  | |- ?l = ?r => let l' := eval hnf in l in change (l' = r) end.
(** up to the first `for` (`range`), of which H says what it does *)
Ltac run_loop H := to_exec;
  match goal with |- exec ?li ?z ?g ?c ?L ?R ?d ?b ?e ?kn ?kr ?kb ?kc = ?rhs =>
    let j := eval cbv in (pos_for b) in let rest := eval cbv in (skipn (S j) b) in let d' := eval cbv in (d - S j)%nat in
    let h := constr:(H (fun en => exec li z g c L R d' rest (pop en) kn kr kb kc) kr) in
    match type of h with _ = ?m => refine (@eq_trans _ _ m rhs _ _); [exact_no_check h|] end end; cbv beta.
Ltac run_range H := to_exec;
  match goal with |- exec ?li ?z ?g ?c ?L ?R ?d ?b ?e ?kn ?kr ?kb ?kc = ?rhs =>
    let j := eval cbv in (pos_range b) in let rest := eval cbv in (skipn (S j) b) in let d' := eval cbv in (d - S j)%nat in
    let h := constr:(H (fun en => exec li z g c L R d' rest en kn kr kb kc) kr) in
    match type of h with _ = ?m => refine (@eq_trans _ _ m rhs _ _); [exact_no_check h|] end end; cbv beta.
(** the first statement alone; what follows is the variable K *)
Ltac step_open K HK := to_exec;
  match goal with |- exec ?li ?z ?g ?c ?L ?R ?d ?b ?e ?kn ?kr ?kb ?kc = ?rhs =>
    let b' := eval hnf in b in
    match b' with ?s :: ?ss => let n := eval cbv in (d - 1)%nat in
      refine (@eq_trans _ _ _ rhs (exec_cons li z g c L R n s ss e kn kr kb kc) _);
      refine (use_K (fun K => exec1 li z g c L R n s e K kr kb kc = rhs) (fun en => exec li z g c L R n ss en kn kr kb kc) _); intros K HK end end.
Ltac step_close K HK := rewrite HK; clear K HK; cbv beta.
(** a statement after which only K is left *)
Ltac step := let K := fresh "K" in let HK := fresh "HK" in step_open K HK; src_lhs; step_close K HK.
(** the loop of which H says what it does *)
Ltac step_loop H := let K := fresh "K" in let HK := fresh "HK" in step_open K HK;
  match goal with |- exec1 ?li ?z ?g ?c ?L ?R ?d ?b ?e ?kn ?kr ?kb ?kc = ?rhs =>
    let h := constr:(H (fun en => kn (pop en)) kr) in
    match type of h with _ = ?m => refine (@eq_trans _ _ m rhs _ _); [exact_no_check h|] end end; cbv beta; step_close K HK.
Ltac step_range H := let K := fresh "K" in let HK := fresh "HK" in step_open K HK;
  match goal with |- exec1 ?li ?z ?g ?c ?L ?R ?d ?b ?e ?kn ?kr ?kb ?kc = ?rhs =>
    let h := constr:(H kn kr) in
    match type of h with _ = ?m => refine (@eq_trans _ _ m rhs _ _); [exact_no_check h|] end end; cbv beta; step_close K HK.
(** the first j statements; the rest is K *)
Ltac cut_at j K HK := to_exec;
  match goal with |- exec ?li ?z ?g ?c ?L ?R ?d ?b ?e ?kn ?kr ?kb ?kc = ?rhs =>
    let pre := eval cbv in (firstn j b) in let rest := eval cbv in (skipn j b) in let d' := eval cbv in (d - j)%nat in
    refine (@eq_trans _ _ (exec li z g c L R d pre e (fun en => exec li z g c L R d' rest en kn kr kb kc) kr kb kc) rhs _ _);
    [match goal with |- _ = ?y => exact_no_check (eq_refl y) end|];
    refine (use_K (fun K => exec li z g c L R d pre e K kr kb kc = rhs) _ _); intros K HK end.
(** the branch of an `if` without initialisation that stands first *)
Ltac into_if br := to_exec;
  match goal with |- exec ?li ?z ?g ?c ?L ?R ?d (SIf [] ?co ?t ?el :: ?rest) ?e ?kn ?kr ?kb ?kc = ?rhs =>
    let s := (lazymatch br with true => t | false => el end) in let d' := eval cbv in (Nat.pred d) in
    refine (@eq_trans _ _ (exec li z g c L R d' s ([] :: [] :: e) (fun en => exec li z g c L R d' rest (pop (pop en)) kn kr kb kc) kr
       (fun en => kb (pop (pop en))) (fun en => kc (pop (pop en)))) rhs _ _);
    [match goal with |- _ = ?y => exact_no_check (eq_refl y) end|] end.

(** The first `for` of a function. *)
Definition for1 (f : func) : option expr * list stmt * list stmt :=
  match find (fun s => match s with SFor _ _ _ _ => true | _ => false end) (f_body f) with
  | Some (SFor _ c post body) => (c, post, body)
  | _ => (None, [], [])
  end.
Definition fcond f := fst (fst (for1 f)). Definition fpost f := snd (fst (for1 f)). Definition fbody f := snd (for1 f).

(** Renaming a variable, for a call whose argument is its receiver. *)
Fixpoint ren (a b : string) (x : expr) : expr :=
  match x with
  | EV y => EV (if String.eqb y a then b else y)
  | ESel e f => ESel (ren a b e) f
  | EIdx e i => EIdx (ren a b e) (ren a b i)
  | ESlice e lo hi => ESlice (ren a b e) (option_map (ren a b) lo) (option_map (ren a b) hi)
  | EBin op e f => EBin op (ren a b e) (ren a b f)
  | EUn op e => EUn op (ren a b e)
  | ECall f args => ECall f (map (ren a b) args)
  | ECallSpread f args => ECallSpread f (map (ren a b) args)
  | EMeth e m args => EMeth (ren a b e) m (map (ren a b) args)
  | EComp t fs => EComp t (map (fun kv => (fst kv, ren a b (snd kv))) fs)
  | _ => x
  end.
(** for bodies without nested blocks *)
Definition ren_stmt (a b : string) (s : stmt) : stmt :=
  match s with
  | SDef xs es => SDef xs (map (ren a b) es)
  | SAssign ls es => SAssign (map (ren a b) ls) (map (ren a b) es)
  | SOp op l e => SOp op (ren a b l) (ren a b e)
  | SExpr e => SExpr (ren a b e)
  | SRet es => SRet (map (ren a b) es)
  | _ => SBreak
  end.
Definition alias (a b : string) (f : func) : func :=
  mkFunc (filter (fun p => negb (String.eqb (fst p) a)) (f_params f)) (f_results f) (map (ren_stmt a b) (f_body f)).
