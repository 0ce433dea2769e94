(** The functions below the towers - stub_fallback.go, bititerator.go, fqrepr.go, frrepr.go, fq.go, fr.go - run from their source text:
    the meaning of the calls they make and the package variables they use. FQ is the record of limbs here. *)
Require Import ZArith Bool String Ascii List Lia.
From Verif Require Import Words ModelRepr ModelFq ModelFr ModelOps ModelTower ModelCurve ModelPairing ModelHash ModelBls ModelStr SrcAst SrcSem SrcCode SrcCall SrcTac.
Import ListNotations.
Open Scope Z_scope.
Local Open Scope string_scope.

Notation LV := (V FQ).
Notation lres := ((list (nat * LV) * list LV -> outcome FQ) -> outcome FQ).

Definition pAny (v : LV) : option LV := Some v.
Definition pStr (v : LV) := match v with VStr s => Some s | _ => None end.
Definition pVL (v : LV) := match v with VL l => Some l | _ => None end.
(** two words *)
Definition ret2 (p : Z * Z) : lres := fun k => let '(a, b) := p in k ([], [VU 64 a; VU 64 b]).
(** math/big Cmp *)
Definition big_Cmp (a b : Z) : Z := if (a <? b)%Z then -1 else if (a =? b)%Z then 0 else 1.
(** copy(dst, src) on slices of equal length *)
Definition copy_words (d s : list LV) : lres := fun k => if Nat.eqb (length d) (length s) then k ([(0%nat, VL s)], [VI (Z.of_nat (length s))]) else Stuck.
Definition fromBigQ (z : Z) : lres := fun k => match FQReprFromBigInt z with
  | Some (Some r) => k ([], [VR r; VN])
  | Some None => k ([], [VR (mkFQRepr 0 0 0 0 0 0); VErr])
  | None => Panic end.
Definition fromBigR (z : Z) : lres := fun k => match FRReprFromBigInt z with
  | Some (Some r) => k ([], [VRr r; VN])
  | Some None => k ([], [VN; VErr])
  | None => Panic end.
(** new(big.Int).SetString(s, base): a nil pointer and false when the text is no number; base 0 is not covered *)
Definition setString (s : string) (b : Z) : lres := fun k => match big_SetString s b with
  | SOk z => k ([(0%nat, VBig z)], [VBig z; VB true])
  | SFail => k ([], [VN; VB false])
  | SPanic => Panic
  | SBase0 => Stuck end.

(** math/bits, encoding/binary, math/big, builtins *)
Definition t_std : table (F := FQ) := [
  ("bits.Add64", f3 pU pU pU (fun a b c => ret2 (Add64 a b c)));
  ("bits.Sub64", f3 pU pU pU (fun a b c => ret2 (Sub64 a b c)));
  ("bits.Mul64", f2 pU pU (fun a b => ret2 (Mul64 a b)));
  ("bits.LeadingZeros64", f1 pU (fun a => ret (VI (LeadingZeros64 a))));
  ("binary.BigEndian.Uint64", f2 pStr pBy (fun _ l k => if less (Z.of_nat (length l)) 8 then Panic else k ([], [VU 64 (be_uint64 l)])));
  ("binary.BigEndian.PutUint64", f3 pStr pBy pU (fun _ l v k => if less (Z.of_nat (length l)) 8 then Panic else k ([(1%nat, VBy (be_put64 v ++ skipn 8 l)%list)], [])));
  ("copy", f2 pVL pVL copy_words);
  ("new", f1 pStr (fun t => if String.eqb t "big.Int" then ret (VBig 0) else stuck));
  ("big.NewInt", f1 pZ (fun z => ret (VBig z)));
  ("big.Int.SetUint64", f2 pBig pU (fun _ z => mutret (VBig z) [VBig z]));
  ("big.Int.Set", f2 pBig pBig (fun _ z => mutret (VBig z) [VBig z]));
  ("big.Int.Add=", f3 pBig pBig pBig (fun x _ y => mutret (VBig (x + y)) [VBig (x + y)]));
  ("big.Int.Lsh=", f3 pBig pBig pZ (fun x _ n => mutret (VBig (Z.shiftl x n)) [VBig (Z.shiftl x n)]));
  ("big.Int.Rsh=", f3 pBig pBig pZ (fun x _ n => mutret (VBig (Z.shiftr x n)) [VBig (Z.shiftr x n)]));
  ("big.Int.And", f3 pBig pBig pBig (fun _ x y => mutret (VBig (Z.land x y)) [VBig (Z.land x y)]));
  ("big.Int.Uint64", f1 pBig (fun z => ret (VU 64 (wlo z))));
  ("big.Int.Cmp", f2 pBig pBig (fun x y => ret (VI (big_Cmp x y))));
  ("big.Int.Sign", f1 pBig (fun z => ret (VI (Z.sgn z))));
  ("big.Int.BitLen", f1 pBig (fun z => ret (VI (big_BitLen z))));
  ("big.Int.SetString", f3 pBig pStr pZ (fun _ s b => setString s b))].

(** stub_fallback.go, bititerator.go, fqrepr.go, frrepr.go *)
Definition t_repr : table (F := FQ) := [
  ("AddWithCarry", f3 pU pU pU (fun a b c => ret2 (AddWithCarry a b c)));
  ("SubWithBorrow", f3 pU pU pU (fun a b c => ret2 (SubWithBorrow a b c)));
  ("MACWithCarry", f4 pU pU pU pU (fun a b c d => ret2 (MACWithCarry a b c d)));
  ("AddNoCarry", f2 pR pR (fun a b => ret (VR (AddNoCarry a b))));
  ("SubNoBorrow", f2 pR pR (fun a b => ret (VR (SubNoBorrow a b))));
  ("MultiplyFQRepr", f2 pR pR (fun a b k => let '(hi, lo) := MultiplyFQRepr a b in k ([], [VR hi; VR lo])));
  ("MontReduce", f2 pR pR (fun a b => ret (VR (MontReduce a b))));
  ("NewBitIterator", f1 pWs (fun l => ret (VBI (NewBitIterator l))));
  ("BitIterator.Next", f1 pBI (fun b => mutret (VBI (snd (BitIterator_Next b))) [VB (fst (fst (BitIterator_Next b))); VB (snd (fst (BitIterator_Next b)))]));
  ("NewFQRepr", f1 pU (fun z => ret (VR (NewFQRepr z))));
  ("FQRepr.IsOdd", f1 pR (fun r => ret (VB (FQRepr_IsOdd r))));
  ("FQRepr.IsEven", f1 pR (fun r => ret (VB (FQRepr_IsEven r))));
  ("FQRepr.IsZero", f1 pR (fun r => ret (VB (FQRepr_IsZero r))));
  ("FQRepr.Div2", f1 pR (fun r => mut (VR (FQRepr_Div2 r))));
  ("FQRepr.Mul2", f1 pR (fun r => mut (VR (FQRepr_Mul2 r))));
  ("FQRepr.AddNoCarry", f2 pR pR (fun r s => mut (VR (FQRepr_AddNoCarry r s))));
  ("FQRepr.SubNoBorrow", f2 pR pR (fun r s => mut (VR (FQRepr_SubNoBorrow r s))));
  ("FQRepr.Equals", f2 pR pR (fun r s => ret (VB (FQRepr_Equals r s))));
  ("FQRepr.Cmp", f2 pR pR (fun r s => ret (VI (FQRepr_Cmp r s))));
  ("FQRepr.BitLen", f1 pR (fun r => ret (VU 64 (FQRepr_BitLen r))));
  ("FQRepr.Bit", f2 pR pU (fun r n => orpanic VB (FQRepr_Bit r n)));
  ("FQReprFromBigInt", f1 pBig fromBigQ);
  ("fqReprFromBigIntUnchecked", fun vs => match vs with [VN] => fun _ => Panic | _ => f1 pBig (fun z => orpanic VR (fqReprFromBigIntUnchecked z)) vs end);
  ("isEven", f1 pR (fun r => ret (VB (isEven r))));
  ("NewFRRepr", f1 pU (fun z => ret (VRr (NewFRRepr z))));
  ("FRRepr.IsOdd", f1 pRr (fun r => ret (VB (FRRepr_IsOdd r))));
  ("FRRepr.IsEven", f1 pRr (fun r => ret (VB (FRRepr_IsEven r))));
  ("FRRepr.Rsh", f2 pRr pU (fun r n => mut (VRr (FRRepr_Rsh r n))));
  ("FRRepr.Div2", f1 pRr (fun r => mut (VRr (FRRepr_Div2 r))));
  ("FRRepr.Mul2", f1 pRr (fun r => mut (VRr (FRRepr_Mul2 r))));
  ("FRRepr.AddNoCarry", f2 pRr pRr (fun r s => mut (VRr (FRRepr_AddNoCarry r s))));
  ("FRRepr.SubNoBorrow", f2 pRr pRr (fun r s => mut (VRr (FRRepr_SubNoBorrow r s))));
  ("FRRepr.Equals", f2 pRr pRr (fun r s => ret (VB (FRRepr_Equals r s))));
  ("FRRepr.Cmp", f2 pRr pRr (fun r s => ret (VI (FRRepr_Cmp r s))));
  ("FRRepr.BitLen", f1 pRr (fun r => ret (VU 64 (FRRepr_BitLen r))));
  ("FRRepr.Bit", f2 pRr pU (fun r n => orpanic VB (FRRepr_Bit r n)));
  ("FRRepr.Bytes", f1 pRr (fun r => ret (VBy (FRRepr_Bytes r))));
  ("FRReprFromBigInt", f1 pBig fromBigR)].

(** fq.go, fr.go *)
Definition f9 (r : FR -> Z -> Z -> Z -> Z -> Z -> Z -> Z -> Z -> lres) (vs : list LV) : lres :=
  match vs with
  | [x; a; b; c; d; e; f; g; h] =>
      match pFR x, pU a, pU b, pU c, pU d, pU e, pU f, pU g, pU h with
      | Some x, Some a, Some b, Some c, Some d, Some e, Some f, Some g, Some h => r x a b c d e f g h
      | _, _, _, _, _, _, _, _, _ => stuck
      end
  | _ => stuck
  end.
Definition t_fld : table (F := FQ) := [
  ("FQ.IsValid", f1 pF (fun x => ret (VB (FQ_IsValid x))));
  ("FQ.reduceAssign", f1 pF (fun x => mut (VF (FQ_reduceAssign x))));
  ("FQ.montReduce", f3 pF pR pR (fun _ hi lo => mut (VF (FQ_montReduce hi lo))));
  ("FQ.AddAssign", f2 pF pF (fun x y => mut (VF (FQ_AddAssign x y))));
  ("FQ.SubAssign", f2 pF pF (fun x y => mut (VF (FQ_SubAssign x y))));
  ("FQ.MulAssign", f2 pF pF (fun x y => mut (VF (FQ_MulAssign x y))));
  ("FQ.SquareAssign", f1 pF (fun x => mut (VF (FQ_SquareAssign x))));
  ("FQ.DoubleAssign", f1 pF (fun x => mut (VF (FQ_DoubleAssign x))));
  ("FQ.NegAssign", f1 pF (fun x => mut (VF (FQ_NegAssign x))));
  ("FQ.Inverse", f1 pF (fun x => rets [VF (fst (FQ_Inverse x)); VB (snd (FQ_Inverse x))]));
  ("FQ.IsZero", f1 pF (fun x => ret (VB (FQ_IsZero x))));
  ("FQ.Equals", f2 pF pF (fun x y => ret (VB (FQ_Equals x y))));
  ("FQ.Cmp", f2 pF pF (fun x y => ret (VI (FQ_Cmp x y))));
  ("FQ.Exp", f2 pF pR (fun x n => ret (VF (FQ_Exp x n))));
  ("FQ.ToRepr", f1 pF (fun x => ret (VR (FQ_ToRepr x))));
  ("FQ.MulBytes", f2 pF pBy (fun x b => ret (VF (FQ_MulBytes x b))));
  ("FQReprToFQRaw", f1 pR (fun r => ret (VF (FQReprToFQRaw r))));
  ("FR.IsValid", f1 pFR (fun x => ret (VB (FR_IsValid x))));
  ("FR.reduceAssign", f1 pFR (fun x => mut (VFR (FR_reduceAssign x))));
  ("FR.montReduce", f9 (fun _ a b c d e f g h => mut (VFR (FR_montReduce a b c d e f g h))));
  ("FR.AddAssign", f2 pFR pFR (fun x y => mut (VFR (FR_AddAssign x y))));
  ("FR.SubAssign", f2 pFR pFR (fun x y => mut (VFR (FR_SubAssign x y))));
  ("FR.MulAssign", f2 pFR pFR (fun x y => mut (VFR (FR_MulAssign x y))));
  ("FR.SquareAssign", f1 pFR (fun x => mut (VFR (FR_SquareAssign x))));
  ("FR.DoubleAssign", f1 pFR (fun x => mut (VFR (FR_DoubleAssign x))));
  ("FR.NegAssign", f1 pFR (fun x => mut (VFR (FR_NegAssign x))));
  ("FR.IsZero", f1 pFR (fun x => ret (VB (FR_IsZero x))));
  ("FR.Equals", f2 pFR pFR (fun x y => ret (VB (FR_Equals x y))));
  ("FR.Cmp", f2 pFR pFR (fun x y => ret (VI (FR_Cmp x y))));
  ("FR.Exp", f2 pFR pRr (fun x n => ret (VFR (FR_Exp x n))));
  ("FR.ToRepr", f1 pFR (fun x => ret (VRr (FR_ToRepr x))));
  ("FR.MulBytes", f2 pFR pBy (fun x b => ret (VFR (FR_MulBytes x b))));
  ("hash.Sum", fun vs => match vs with [VS _ [(_, VBy l)]; VN] => ret (VBy l) | _ => stuck end)].

(** Package variables and constants. *)
Definition globsL : list (string * LV) := [
  ("QFieldModulus", VR QFieldModulus); ("FQR2", VR FQR2); ("montInvFQ", VU 64 montInvFQ); ("bigZero", VR bigZero); ("bigOne", VR bigOne);
  ("FQZero", VF FQZero); ("FQOne", VF FQOne); ("negativeOneFQ", VF negativeOneFQ); ("qMinus3Over4", VR qMinus3Over4); ("qMinus1Over2", VR qMinus1Over2);
  ("RFieldModulus", VRr RFieldModulus); ("FRR2", VRr FRR2); ("montInvFR", VU 64 montInvFR); ("frZero", VRr frZero); ("bigOneFR", VFR bigOneFR);
  ("bigZeroFR", VFR bigZeroFR); ("rMinus1Over2", VRr rMinus1Over2); ("bigIntZero", VBig 0); ("oneLsh64MinusOne", VBig WMASK);
  ("LegendreZero", VU 8 0); ("LegendreQuadraticResidue", VU 8 1); ("LegendreQuadraticNonResidue", VU 8 2);
  ("binary.BigEndian", VStr "binary.BigEndian")].
Definition globL (x : string) : option LV := assoc x globsL.
Definition limbsL : option (FQ -> FQRepr) * (FQRepr -> FQ) := (Some fq_n, mkFQ).
Definition zeroL : FQ := mkFQ (mkFQRepr 0 0 0 0 0 0).
Definition callL := calls (t_std ++ t_repr ++ t_fld)%list.
Definition loopL := loop (F := FQ) limbsL zeroL globL callL.
Definition rangeL := range (F := FQ) limbsL zeroL globL callL.
Definition execL n := exec (F := FQ) limbsL zeroL globL callL (loopL n) (rangeL n) depth.
Definition evalL n := eval1 (F := FQ) limbsL zeroL globL callL (loopL n) (rangeL n) depth.
Definition runL n := run_with (F := FQ) limbsL zeroL globL callL (loopL n) (rangeL n).
Lemma loopL_S n c post body e kn kr : loopL (S n) c post body e kn kr =
  (let more e := execL n post (pop e) (fun e => loopL n c post body e kn kr) kr (fun _ => Stuck) (fun _ => Stuck) in
   let go e := execL n body ([] :: e) more kr (fun e => kn (pop e)) more in
   match c with
   | None => go e
   | Some c => evalL n c e (fun v e => match v with VB b => if b then go e else kn e | _ => Stuck end)
   end).
Proof. exact (loop_S limbsL zeroL globL callL n c post body e kn kr). Qed.

(** Normal forms: numbers of type int in the open, words and functions of the model as atoms; loops with known bounds unrolled, or all
    loops as atoms. *)
Ltac limb_cbv := cbv -[
  ExpLoop bits_loop o_add o_sub o_mul o_sq o_dbl o_neg o_inv o_iszero o_equals o_cmp o_sqrt o_zero o_one b_ops b_raw b_of b_exp b_repr b_legendre
  snoc wsub wlo whi wadd wmul wshl wshr wor wand Add64 Sub64 Mul64 bitlen LeadingZeros64 Z.land Z.lor Z.testbit Z.modulo Z.div loopB rangeB mkbytes
  mkslices big_Mod byte_hi byte_lo AddWithCarry SubWithBorrow MACWithCarry MultiplyFQRepr montInvFQ AddNoCarry SubNoBorrow NewBitIterator
  BitIterator_Next for_bits FQRepr_IsOdd FQRepr_IsEven FQRepr_IsZero FQRepr_Rsh_words FQRepr_Rsh FQRepr_Div2 FQRepr_Mul2 FQRepr_Lsh_words FQRepr_Lsh
  FQRepr_AddNoCarry FQRepr_SubNoBorrow FQRepr_Equals cmp_limbs FQRepr_Cmp bitlen_limbs FQRepr_BitLen be_uint64 FQReprFromBytes FQRepr_Bytes
  FQRepr_Bit FQRepr_ToBig words_of_big big_BitLen FQReprFromBigInt hexdigit hex016 FQRepr_String hexval hex_parse big_SetString16 FQReprFromString16
  fqReprFromBigIntUnchecked FQRepr_const FRRepr_IsOdd FRRepr_IsEven FRRepr_IsZero FRRepr_Rsh_words FRRepr_Rsh FRRepr_Div2 FRRepr_Mul2
  FRRepr_Lsh_words FRRepr_Lsh FRRepr_AddNoCarry FRRepr_SubNoBorrow FRRepr_Equals cmp_limbs_fr FRRepr_Cmp FRRepr_String FRRepr_BitLen FRReprFromBytes
  FRRepr_Bytes FRRepr_Bit FRRepr_ToBig FRReprFromBigInt FRReprFromString16 FRRepr_const FRRepr_ToFQ bigZero bigOne bigTwo QFieldModulus FQR2
  MontReduce FQ_IsValid FQ_reduceAssign FQ_montReduce FQ_MulAssign FQ_empty FQReprToFQ FQReprToFQRaw FQZero FQOne FQ_AddAssign FQ_SubAssign
  FQ_DoubleAssign FQ_IsZero FQ_Equals FQ_NegAssign FQ_SquareAssign FQ_ToRepr FQ_Cmp FQ_String FQ_Exp negativeOne negativeOneFQ qMinus3Over4
  qMinus1Over2 FQ_Sqrt isEven FQ_inv_halve FQ_inv_loop FQ_Inverse_fuel FQ_Inverse FQ_DivAssign FQ_Parity FQ_MulBits FQ_MulBytes HashFQ FQ_Legendre
  RandFQ RFieldModulus FRR FRR2 montInvFR FR_IsValid FR_reduceAssign FR_montReduce FR_MulAssign FRReprToFR FR_AddAssign FR_SubAssign frOne frZero
  bigOneFR bigZeroFR FR_IsZero FR_Equals FR_NegAssign FR_DoubleAssign FR_SquareAssign FR_ToRepr FR_Bytes FR_Cmp FR_Exp_loop FR_Exp_with FR_Exp fr_one
  FR_inv_halve FR_inv_loop FR_Inverse_fuel FR_Inverse FR_Parity FR_MulBits FR_MulBytes HashFR rMinus1Over2 FR_Legendre RandFR FQ2_Cmp
  FQ2_MultiplyByNonresidueAssign FQ2_Norm FQ2Zero FQ2One FQ2_IsZero FQ2_SquareAssign FQ2_DoubleAssign FQ2_NegAssign FQ2_AddAssign FQ2_SubAssign
  FQ2_MulAssign FQ2_InverseAssign frobeniusCoeffFQ2c1 FQ2_FrobeniusMapAssign FQ2_Legendre FQ2_Exp FQ2_Equals negOneFQ FQ2_empty FQ2_Sqrt FQ2_Parity
  FQ2_MulBits FQ2_DivAssign big_SetBytes HashFQ2 FQ2O FQ6_MulByNonresidueAssign FQ6_MulBy1Assign FQ6_MulBy01Assign FQ6Zero FQ6One FQ6_Equals
  FQ6_IsZero FQ6_DoubleAssign FQ6_NegAssign FQ6_AddAssign FQ6_SubAssign fq2nqr frobeniusCoeffFQ6c1 frobeniusCoeffFQ6c2 FQ6_FrobeniusMapAssign
  FQ6_SquareAssign FQ6_MulAssign FQ6_MulAssign_aliased FQ6_InverseAssign FQ6_Exp FQ12_ConjugateAssign FQ12_MulBy014Assign FQ12Zero FQ12One
  FQ12_Equals FQ12_DoubleAssign FQ12_NegAssign FQ12_AddAssign FQ12_IsZero FQ12_SubAssign frobeniusCoeffFQ12c1 FQ12_FrobeniusMapAssign
  FQ12_SquareAssign FQ12_MulAssign FQ12_InverseAssign FQ12_Exp MulLoop NewAffine AffineZero ProjectiveZero Affine_IsZero Affine_NegAssign
  Affine_ToProjective Proj_IsZero Proj_NegAssign Proj_Equal ToAffine_div G1_ToAffine G2_ToAffine Double Add AddAffine Affine_Mul Affine_MulFR
  Affine_MulBig Proj_Mul Proj_MulFR G1Affine_Equals G2Affine_Equals IsOnCurve GetPointFromX frChar g1Cofactor g2Cofactor g1GeneratorX g1GeneratorY
  g2GeneratorXC1 g2GeneratorXC0 g2GeneratorYC1 g2GeneratorYC0 upd0 byte0 BCoeff BCoeffFQ2 G1AffineOne G2AffineOne G1ProjectiveOne G2ProjectiveOne
  G1_IsOnCurve G2_IsOnCurve GetG1PointFromX GetG2PointFromX G1_IsInCorrectSubgroupAssumingOnCurve G2_IsInCorrectSubgroupAssumingOnCurve
  G1_ScaleByCofactor G2_ScaleByCofactor G1_SerializeBytes G1_SetRawBytes G2_SerializeBytes G2_SetRawBytes DecompressG1Unchecked DecompressG1
  CompressG1 DecompressG2Unchecked DecompressG2 CompressG2 RandG1 RandG2 blsX blsIsNegative doublingStep additionStep blsXRsh1 blsX_loop
  G2AffineToPrepared ell ell_all MillerLoop ExpByX FinalExponentiation Pairing CompareTwoPairings ellPARepr ellPBRepr swencSqrtNegThree
  swencSqrtNegThreeMinusOneDivTwo iwsc0_repr iwsc1_repr kQiX_repr kQiY_repr xNum11_repr xDen11_repr yNum11_repr yDen11_repr xNum3_repr xDen3_repr
  yNum3_repr yDen3_repr q_big r_big HashSecretKey hp hp2 ellPA ellPB signFQ DivAssign1 optimizedSWUMapHelper horner iso11 ClearH optimizedSWUMap
  cipherSuite HashG1 ell2pA ell2pB signFQ2 OptimizedSWU2MapHelper of_pair iso3 iwsc kQiX kQiY psi clearH2 optimizedSWUMap2 HashG2 SWEncodeG2
  HashG2WithDomain_loop HashG2WithDomain_start HashG2WithDomain_fuel bytes_Compare bytes_Equal insert_bytes sortByteArrays has_duplicate SecretKey
  SecretKey_Serialize DeserializeSecretKey DeriveSecretKey KeyFromFQRepr RandKey g1pubs_Signature_Serialize g1pubs_NewSignatureFromG2
  g1pubs_DeserializeSignature g1pubs_PublicKey_Serialize g1pubs_NewPublicKeyFromG1 g1pubs_PublicKey_Equals g1pubs_DeserializePublicKey g1pubs_Sign
  g1pubs_SignWithDomain g1pubs_PrivToPub g1pubs_Verify g1pubs_VerifyWithDomain g1pubs_Signature_Aggregate g1pubs_AggregateSignatures
  g1pubs_PublicKey_Aggregate g1pubs_AggregatePublicKeys g1pubs_NewAggregateSignature g1pubs_NewAggregatePubkey g1pubs_pairing_product
  g1pubs_VerifyAggregate g1pubs_VerifyAggregateCommon g1pubs_VerifyAggregateCommonWithDomain g1pubs_pairing_product_domain
  g1pubs_VerifyAggregateWithDomain g2pubs_Signature_Serialize g2pubs_NewSignatureFromG1 g2pubs_DeserializeSignature g2pubs_PublicKey_Serialize
  g2pubs_NewPublicKeyFromG2 g2pubs_PublicKey_Equals g2pubs_DeserializePublicKey g2pubs_Sign g2pubs_PrivToPub g2pubs_Verify g2pubs_Signature_Aggregate
  g2pubs_AggregateSignatures g2pubs_PublicKey_Aggregate g2pubs_AggregatePublicKeys g2pubs_NewAggregateSignature g2pubs_NewAggregatePubkey
  g2pubs_pairing_product g2pubs_VerifyAggregate g2pubs_VerifyAggregateCommon weqb wltb wleb big_Cmp big_SetString Z.sgn Z.shiftl Z.shiftr].
Ltac limb_cbvn := cbv -[
  ExpLoop bits_loop o_add o_sub o_mul o_sq o_dbl o_neg o_inv o_iszero o_equals o_cmp o_sqrt o_zero o_one b_ops b_raw b_of b_exp b_repr b_legendre
  snoc wsub wlo whi wadd wmul wshl wshr wor wand Add64 Sub64 Mul64 bitlen LeadingZeros64 Z.land Z.lor Z.testbit Z.modulo Z.div loopB rangeB mkbytes
  mkslices big_Mod byte_hi byte_lo AddWithCarry SubWithBorrow MACWithCarry MultiplyFQRepr montInvFQ AddNoCarry SubNoBorrow NewBitIterator
  BitIterator_Next for_bits FQRepr_IsOdd FQRepr_IsEven FQRepr_IsZero FQRepr_Rsh_words FQRepr_Rsh FQRepr_Div2 FQRepr_Mul2 FQRepr_Lsh_words FQRepr_Lsh
  FQRepr_AddNoCarry FQRepr_SubNoBorrow FQRepr_Equals cmp_limbs FQRepr_Cmp bitlen_limbs FQRepr_BitLen be_uint64 FQReprFromBytes FQRepr_Bytes
  FQRepr_Bit FQRepr_ToBig words_of_big big_BitLen FQReprFromBigInt hexdigit hex016 FQRepr_String hexval hex_parse big_SetString16 FQReprFromString16
  fqReprFromBigIntUnchecked FQRepr_const FRRepr_IsOdd FRRepr_IsEven FRRepr_IsZero FRRepr_Rsh_words FRRepr_Rsh FRRepr_Div2 FRRepr_Mul2
  FRRepr_Lsh_words FRRepr_Lsh FRRepr_AddNoCarry FRRepr_SubNoBorrow FRRepr_Equals cmp_limbs_fr FRRepr_Cmp FRRepr_String FRRepr_BitLen FRReprFromBytes
  FRRepr_Bytes FRRepr_Bit FRRepr_ToBig FRReprFromBigInt FRReprFromString16 FRRepr_const FRRepr_ToFQ bigZero bigOne bigTwo QFieldModulus FQR2
  MontReduce FQ_IsValid FQ_reduceAssign FQ_montReduce FQ_MulAssign FQ_empty FQReprToFQ FQReprToFQRaw FQZero FQOne FQ_AddAssign FQ_SubAssign
  FQ_DoubleAssign FQ_IsZero FQ_Equals FQ_NegAssign FQ_SquareAssign FQ_ToRepr FQ_Cmp FQ_String FQ_Exp negativeOne negativeOneFQ qMinus3Over4
  qMinus1Over2 FQ_Sqrt isEven FQ_inv_halve FQ_inv_loop FQ_Inverse_fuel FQ_Inverse FQ_DivAssign FQ_Parity FQ_MulBits FQ_MulBytes HashFQ FQ_Legendre
  RandFQ RFieldModulus FRR FRR2 montInvFR FR_IsValid FR_reduceAssign FR_montReduce FR_MulAssign FRReprToFR FR_AddAssign FR_SubAssign frOne frZero
  bigOneFR bigZeroFR FR_IsZero FR_Equals FR_NegAssign FR_DoubleAssign FR_SquareAssign FR_ToRepr FR_Bytes FR_Cmp FR_Exp_loop FR_Exp_with FR_Exp fr_one
  FR_inv_halve FR_inv_loop FR_Inverse_fuel FR_Inverse FR_Parity FR_MulBits FR_MulBytes HashFR rMinus1Over2 FR_Legendre RandFR FQ2_Cmp
  FQ2_MultiplyByNonresidueAssign FQ2_Norm FQ2Zero FQ2One FQ2_IsZero FQ2_SquareAssign FQ2_DoubleAssign FQ2_NegAssign FQ2_AddAssign FQ2_SubAssign
  FQ2_MulAssign FQ2_InverseAssign frobeniusCoeffFQ2c1 FQ2_FrobeniusMapAssign FQ2_Legendre FQ2_Exp FQ2_Equals negOneFQ FQ2_empty FQ2_Sqrt FQ2_Parity
  FQ2_MulBits FQ2_DivAssign big_SetBytes HashFQ2 FQ2O FQ6_MulByNonresidueAssign FQ6_MulBy1Assign FQ6_MulBy01Assign FQ6Zero FQ6One FQ6_Equals
  FQ6_IsZero FQ6_DoubleAssign FQ6_NegAssign FQ6_AddAssign FQ6_SubAssign fq2nqr frobeniusCoeffFQ6c1 frobeniusCoeffFQ6c2 FQ6_FrobeniusMapAssign
  FQ6_SquareAssign FQ6_MulAssign FQ6_MulAssign_aliased FQ6_InverseAssign FQ6_Exp FQ12_ConjugateAssign FQ12_MulBy014Assign FQ12Zero FQ12One
  FQ12_Equals FQ12_DoubleAssign FQ12_NegAssign FQ12_AddAssign FQ12_IsZero FQ12_SubAssign frobeniusCoeffFQ12c1 FQ12_FrobeniusMapAssign
  FQ12_SquareAssign FQ12_MulAssign FQ12_InverseAssign FQ12_Exp MulLoop NewAffine AffineZero ProjectiveZero Affine_IsZero Affine_NegAssign
  Affine_ToProjective Proj_IsZero Proj_NegAssign Proj_Equal ToAffine_div G1_ToAffine G2_ToAffine Double Add AddAffine Affine_Mul Affine_MulFR
  Affine_MulBig Proj_Mul Proj_MulFR G1Affine_Equals G2Affine_Equals IsOnCurve GetPointFromX frChar g1Cofactor g2Cofactor g1GeneratorX g1GeneratorY
  g2GeneratorXC1 g2GeneratorXC0 g2GeneratorYC1 g2GeneratorYC0 upd0 byte0 BCoeff BCoeffFQ2 G1AffineOne G2AffineOne G1ProjectiveOne G2ProjectiveOne
  G1_IsOnCurve G2_IsOnCurve GetG1PointFromX GetG2PointFromX G1_IsInCorrectSubgroupAssumingOnCurve G2_IsInCorrectSubgroupAssumingOnCurve
  G1_ScaleByCofactor G2_ScaleByCofactor G1_SerializeBytes G1_SetRawBytes G2_SerializeBytes G2_SetRawBytes DecompressG1Unchecked DecompressG1
  CompressG1 DecompressG2Unchecked DecompressG2 CompressG2 RandG1 RandG2 blsX blsIsNegative doublingStep additionStep blsXRsh1 blsX_loop
  G2AffineToPrepared ell ell_all MillerLoop ExpByX FinalExponentiation Pairing CompareTwoPairings ellPARepr ellPBRepr swencSqrtNegThree
  swencSqrtNegThreeMinusOneDivTwo iwsc0_repr iwsc1_repr kQiX_repr kQiY_repr xNum11_repr xDen11_repr yNum11_repr yDen11_repr xNum3_repr xDen3_repr
  yNum3_repr yDen3_repr q_big r_big HashSecretKey hp hp2 ellPA ellPB signFQ DivAssign1 optimizedSWUMapHelper horner iso11 ClearH optimizedSWUMap
  cipherSuite HashG1 ell2pA ell2pB signFQ2 OptimizedSWU2MapHelper of_pair iso3 iwsc kQiX kQiY psi clearH2 optimizedSWUMap2 HashG2 SWEncodeG2
  HashG2WithDomain_loop HashG2WithDomain_start HashG2WithDomain_fuel bytes_Compare bytes_Equal insert_bytes sortByteArrays has_duplicate SecretKey
  SecretKey_Serialize DeserializeSecretKey DeriveSecretKey KeyFromFQRepr RandKey g1pubs_Signature_Serialize g1pubs_NewSignatureFromG2
  g1pubs_DeserializeSignature g1pubs_PublicKey_Serialize g1pubs_NewPublicKeyFromG1 g1pubs_PublicKey_Equals g1pubs_DeserializePublicKey g1pubs_Sign
  g1pubs_SignWithDomain g1pubs_PrivToPub g1pubs_Verify g1pubs_VerifyWithDomain g1pubs_Signature_Aggregate g1pubs_AggregateSignatures
  g1pubs_PublicKey_Aggregate g1pubs_AggregatePublicKeys g1pubs_NewAggregateSignature g1pubs_NewAggregatePubkey g1pubs_pairing_product
  g1pubs_VerifyAggregate g1pubs_VerifyAggregateCommon g1pubs_VerifyAggregateCommonWithDomain g1pubs_pairing_product_domain
  g1pubs_VerifyAggregateWithDomain g2pubs_Signature_Serialize g2pubs_NewSignatureFromG1 g2pubs_DeserializeSignature g2pubs_PublicKey_Serialize
  g2pubs_NewPublicKeyFromG2 g2pubs_PublicKey_Equals g2pubs_DeserializePublicKey g2pubs_Sign g2pubs_PrivToPub g2pubs_Verify g2pubs_Signature_Aggregate
  g2pubs_AggregateSignatures g2pubs_PublicKey_Aggregate g2pubs_AggregatePublicKeys g2pubs_NewAggregateSignature g2pubs_NewAggregatePubkey
  g2pubs_pairing_product g2pubs_VerifyAggregate g2pubs_VerifyAggregateCommon weqb wltb wleb big_Cmp big_SetString Z.sgn Z.shiftl Z.shiftr loopL
  rangeL].
(** the same, with indices, lengths and comparisons of numbers of type int as atoms too *)
Ltac limb_cbvo := cbv -[
  ExpLoop bits_loop o_add o_sub o_mul o_sq o_dbl o_neg o_inv o_iszero o_equals o_cmp o_sqrt o_zero o_one b_ops b_raw b_of b_exp b_repr b_legendre
  snoc wsub wlo whi wadd wmul wshl wshr wor wand Add64 Sub64 Mul64 bitlen LeadingZeros64 Z.land Z.lor Z.testbit Z.modulo Z.div loopB rangeB mkbytes
  mkslices big_Mod byte_hi byte_lo AddWithCarry SubWithBorrow MACWithCarry MultiplyFQRepr montInvFQ AddNoCarry SubNoBorrow NewBitIterator
  BitIterator_Next for_bits FQRepr_IsOdd FQRepr_IsEven FQRepr_IsZero FQRepr_Rsh_words FQRepr_Rsh FQRepr_Div2 FQRepr_Mul2 FQRepr_Lsh_words FQRepr_Lsh
  FQRepr_AddNoCarry FQRepr_SubNoBorrow FQRepr_Equals cmp_limbs FQRepr_Cmp bitlen_limbs FQRepr_BitLen be_uint64 FQReprFromBytes FQRepr_Bytes
  FQRepr_Bit FQRepr_ToBig words_of_big big_BitLen FQReprFromBigInt hexdigit hex016 FQRepr_String hexval hex_parse big_SetString16 FQReprFromString16
  fqReprFromBigIntUnchecked FQRepr_const FRRepr_IsOdd FRRepr_IsEven FRRepr_IsZero FRRepr_Rsh_words FRRepr_Rsh FRRepr_Div2 FRRepr_Mul2
  FRRepr_Lsh_words FRRepr_Lsh FRRepr_AddNoCarry FRRepr_SubNoBorrow FRRepr_Equals cmp_limbs_fr FRRepr_Cmp FRRepr_String FRRepr_BitLen FRReprFromBytes
  FRRepr_Bytes FRRepr_Bit FRRepr_ToBig FRReprFromBigInt FRReprFromString16 FRRepr_const FRRepr_ToFQ bigZero bigOne bigTwo QFieldModulus FQR2
  MontReduce FQ_IsValid FQ_reduceAssign FQ_montReduce FQ_MulAssign FQ_empty FQReprToFQ FQReprToFQRaw FQZero FQOne FQ_AddAssign FQ_SubAssign
  FQ_DoubleAssign FQ_IsZero FQ_Equals FQ_NegAssign FQ_SquareAssign FQ_ToRepr FQ_Cmp FQ_String FQ_Exp negativeOne negativeOneFQ qMinus3Over4
  qMinus1Over2 FQ_Sqrt isEven FQ_inv_halve FQ_inv_loop FQ_Inverse_fuel FQ_Inverse FQ_DivAssign FQ_Parity FQ_MulBits FQ_MulBytes HashFQ FQ_Legendre
  RandFQ RFieldModulus FRR FRR2 montInvFR FR_IsValid FR_reduceAssign FR_montReduce FR_MulAssign FRReprToFR FR_AddAssign FR_SubAssign frOne frZero
  bigOneFR bigZeroFR FR_IsZero FR_Equals FR_NegAssign FR_DoubleAssign FR_SquareAssign FR_ToRepr FR_Bytes FR_Cmp FR_Exp_loop FR_Exp_with FR_Exp fr_one
  FR_inv_halve FR_inv_loop FR_Inverse_fuel FR_Inverse FR_Parity FR_MulBits FR_MulBytes HashFR rMinus1Over2 FR_Legendre RandFR FQ2_Cmp
  FQ2_MultiplyByNonresidueAssign FQ2_Norm FQ2Zero FQ2One FQ2_IsZero FQ2_SquareAssign FQ2_DoubleAssign FQ2_NegAssign FQ2_AddAssign FQ2_SubAssign
  FQ2_MulAssign FQ2_InverseAssign frobeniusCoeffFQ2c1 FQ2_FrobeniusMapAssign FQ2_Legendre FQ2_Exp FQ2_Equals negOneFQ FQ2_empty FQ2_Sqrt FQ2_Parity
  FQ2_MulBits FQ2_DivAssign big_SetBytes HashFQ2 FQ2O FQ6_MulByNonresidueAssign FQ6_MulBy1Assign FQ6_MulBy01Assign FQ6Zero FQ6One FQ6_Equals
  FQ6_IsZero FQ6_DoubleAssign FQ6_NegAssign FQ6_AddAssign FQ6_SubAssign fq2nqr frobeniusCoeffFQ6c1 frobeniusCoeffFQ6c2 FQ6_FrobeniusMapAssign
  FQ6_SquareAssign FQ6_MulAssign FQ6_MulAssign_aliased FQ6_InverseAssign FQ6_Exp FQ12_ConjugateAssign FQ12_MulBy014Assign FQ12Zero FQ12One
  FQ12_Equals FQ12_DoubleAssign FQ12_NegAssign FQ12_AddAssign FQ12_IsZero FQ12_SubAssign frobeniusCoeffFQ12c1 FQ12_FrobeniusMapAssign
  FQ12_SquareAssign FQ12_MulAssign FQ12_InverseAssign FQ12_Exp MulLoop NewAffine AffineZero ProjectiveZero Affine_IsZero Affine_NegAssign
  Affine_ToProjective Proj_IsZero Proj_NegAssign Proj_Equal ToAffine_div G1_ToAffine G2_ToAffine Double Add AddAffine Affine_Mul Affine_MulFR
  Affine_MulBig Proj_Mul Proj_MulFR G1Affine_Equals G2Affine_Equals IsOnCurve GetPointFromX frChar g1Cofactor g2Cofactor g1GeneratorX g1GeneratorY
  g2GeneratorXC1 g2GeneratorXC0 g2GeneratorYC1 g2GeneratorYC0 upd0 byte0 BCoeff BCoeffFQ2 G1AffineOne G2AffineOne G1ProjectiveOne G2ProjectiveOne
  G1_IsOnCurve G2_IsOnCurve GetG1PointFromX GetG2PointFromX G1_IsInCorrectSubgroupAssumingOnCurve G2_IsInCorrectSubgroupAssumingOnCurve
  G1_ScaleByCofactor G2_ScaleByCofactor G1_SerializeBytes G1_SetRawBytes G2_SerializeBytes G2_SetRawBytes DecompressG1Unchecked DecompressG1
  CompressG1 DecompressG2Unchecked DecompressG2 CompressG2 RandG1 RandG2 blsX blsIsNegative doublingStep additionStep blsXRsh1 blsX_loop
  G2AffineToPrepared ell ell_all MillerLoop ExpByX FinalExponentiation Pairing CompareTwoPairings ellPARepr ellPBRepr swencSqrtNegThree
  swencSqrtNegThreeMinusOneDivTwo iwsc0_repr iwsc1_repr kQiX_repr kQiY_repr xNum11_repr xDen11_repr yNum11_repr yDen11_repr xNum3_repr xDen3_repr
  yNum3_repr yDen3_repr q_big r_big HashSecretKey hp hp2 ellPA ellPB signFQ DivAssign1 optimizedSWUMapHelper horner iso11 ClearH optimizedSWUMap
  cipherSuite HashG1 ell2pA ell2pB signFQ2 OptimizedSWU2MapHelper of_pair iso3 iwsc kQiX kQiY psi clearH2 optimizedSWUMap2 HashG2 SWEncodeG2
  HashG2WithDomain_loop HashG2WithDomain_start HashG2WithDomain_fuel bytes_Compare bytes_Equal insert_bytes sortByteArrays has_duplicate SecretKey
  SecretKey_Serialize DeserializeSecretKey DeriveSecretKey KeyFromFQRepr RandKey g1pubs_Signature_Serialize g1pubs_NewSignatureFromG2
  g1pubs_DeserializeSignature g1pubs_PublicKey_Serialize g1pubs_NewPublicKeyFromG1 g1pubs_PublicKey_Equals g1pubs_DeserializePublicKey g1pubs_Sign
  g1pubs_SignWithDomain g1pubs_PrivToPub g1pubs_Verify g1pubs_VerifyWithDomain g1pubs_Signature_Aggregate g1pubs_AggregateSignatures
  g1pubs_PublicKey_Aggregate g1pubs_AggregatePublicKeys g1pubs_NewAggregateSignature g1pubs_NewAggregatePubkey g1pubs_pairing_product
  g1pubs_VerifyAggregate g1pubs_VerifyAggregateCommon g1pubs_VerifyAggregateCommonWithDomain g1pubs_pairing_product_domain
  g1pubs_VerifyAggregateWithDomain g2pubs_Signature_Serialize g2pubs_NewSignatureFromG1 g2pubs_DeserializeSignature g2pubs_PublicKey_Serialize
  g2pubs_NewPublicKeyFromG2 g2pubs_PublicKey_Equals g2pubs_DeserializePublicKey g2pubs_Sign g2pubs_PrivToPub g2pubs_Verify g2pubs_Signature_Aggregate
  g2pubs_AggregateSignatures g2pubs_PublicKey_Aggregate g2pubs_AggregatePublicKeys g2pubs_NewAggregateSignature g2pubs_NewAggregatePubkey
  g2pubs_pairing_product g2pubs_VerifyAggregate g2pubs_VerifyAggregateCommon weqb wltb wleb big_Cmp big_SetString Z.sgn Z.shiftl Z.shiftr less words
  inr lnth nth Z.of_nat Z.sub Z.mul Z.pow].
Ltac limb_proj := cbv beta iota zeta delta [ModelRepr.v0 ModelRepr.v1 ModelRepr.v2 ModelRepr.v3 ModelRepr.w0 ModelRepr.w1 ModelRepr.w2 ModelRepr.w3 ModelRepr.w4 ModelRepr.w5 fr_n fq_n].
Ltac limb_ifs := repeat match goal with |- context [if ?b then _ else _] => match b with context [if _ then _ else _] => fail 1 | _ => destruct b; cbv beta iota end end.
(** the pairs of words that calls return, one after the other *)
Ltac limb_const := repeat match goal with |- context [wlo ?z] => match z with Z0 => idtac | Zpos _ => idtac end; let r := eval vm_compute in (wlo z) in change (wlo z) with r end.
Ltac limb_pairs := repeat match goal with |- match ?p with (_, _) => _ end = _ => destruct p as [? ?]; cbv beta iota end.

(** Straight-line code on words; code with tests of words; code with tests of model values. *)
Ltac limb_start f := limb_cbv; try unfold f; try destruct QFieldModulus; try destruct RFieldModulus; limb_proj; limb_const; limb_pairs.
Ltac limb_m f := limb_start f; reflexivity.
Ltac limb_w f := limb_start f; unfold weqb, wltb, wleb; cbn -[iadd isub Z.add Z.sub Z.mul Z.shiftl Z.leb Z.eqb Z.ltb wlo wsub]; first [reflexivity | limb_ifs; reflexivity].
Ltac limb_c f := limb_cbv; unfold f, Z.ltb, Z.leb, Z.compare; limb_proj; repeat match goal with |- context [match ?x with Z0 => _ | Zpos _ => _ | Zneg _ => _ end] => destruct x; cbv beta iota end; reflexivity.
Ltac limb_f f := limb_cbv; unfold f, negb, less; limb_proj; limb_const; limb_pairs; first [reflexivity | limb_ifs; reflexivity].
Ltac limb_lhso := etransitivity; [limb_cbvo; reflexivity|].
Ltac limb_lhs := etransitivity; [limb_cbv; reflexivity|].
(** one statement after which only the rest K is left, or which ends with a test *)
Ltac limb_step := let K := fresh "K" in let HK := fresh "HK" in step_open K HK; limb_lhs; step_close K HK.
(** one turn of a loop; what follows is the variable K *)
Lemma loopL_turn n c post body e kn kr r :
  (forall K, K = (fun e => loopL n c post body e kn kr) ->
    (let more e := execL n post (pop e) K kr (fun _ => Stuck) (fun _ => Stuck) in
     let go e := execL n body ([] :: e) more kr (fun e => kn (pop e)) more in
     match c with
     | None => go e
     | Some c => evalL n c e (fun v e => match v with VB b => if b then go e else kn e | _ => Stuck end)
     end) = r) -> loopL (S n) c post body e kn kr = r.
Proof. intros H. rewrite loopL_S. exact (H _ eq_refl). Qed.
Ltac limb_turno K HK := apply loopL_turn; intros K HK; limb_lhso.
Ltac limb_turn K HK := apply loopL_turn; intros K HK; limb_lhs.

