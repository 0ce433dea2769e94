(** What a call does, for [SrcSem]: every function of the package that other functions call, by name, with the model as its meaning.
    A function is checked against its own source in SrcProofs*.v; here it is used by its callers. *)
Require Import ZArith Bool String Ascii List.
From Verif Require Import Words ModelRepr ModelFq ModelFr ModelOps ModelTower ModelCurve ModelPairing ModelHash SrcAst SrcSem.
Import ListNotations.
Open Scope Z_scope.
Local Open Scope string_scope.

Section Calls.
Context {F : Type} (B : BOps F).
Notation V := (V F).
Notation res := ((list (nat * V) * list V -> outcome F) -> outcome F).
Let Bo := b_ops B.

Definition pF (v : V) := match v with VF x => Some x | _ => None end.
Definition p2 (v : V) := match v with V2 x => Some x | _ => None end.
Definition p6 (v : V) := match v with V6 x => Some x | _ => None end.
Definition p12 (v : V) := match v with V12 x => Some x | _ => None end.
Definition pA1 (v : V) := match v with VA1 x => Some x | _ => None end.
Definition pP1 (v : V) := match v with VP1 x => Some x | _ => None end.
Definition pA2 (v : V) := match v with VA2 x => Some x | _ => None end.
Definition pP2 (v : V) := match v with VP2 x => Some x | _ => None end.
Definition pR (v : V) := match v with VR x => Some x | _ => None end.
Definition pRr (v : V) := match v with VRr x => Some x | _ => None end.
Definition pFR (v : V) := match v with VFR x => Some x | _ => None end.
Definition pU (v : V) := match v with VU 64 x => Some x | VI x => Some x | _ => None end.
Definition pZ (v : V) := match v with VU _ x => Some x | VI x => Some x | _ => None end.
Definition pB (v : V) := match v with VB x => Some x | _ => None end.
Definition pBI (v : V) := match v with VBI x => Some x | _ => None end.
Definition pWs (v : V) := match v with VL l => words l | _ => None end.
Definition pBy (v : V) := match v with VBy x => Some x | _ => None end.
Definition pBig (v : V) := match v with VBig x => Some x | _ => None end.

(** a function of one, two, ... arguments; [r] says what it returns and which arguments it changes *)
Definition stuck : res := fun _ => Stuck.
Definition f0 (r : res) (vs : list V) : res := match vs with [] => r | _ => stuck end.
Definition f1 {A} (pa : V -> option A) (r : A -> res) (vs : list V) : res :=
  match vs with [a] => match pa a with Some a => r a | None => stuck end | _ => stuck end.
Definition f2 {A C} (pa : V -> option A) (pc : V -> option C) (r : A -> C -> res) (vs : list V) : res :=
  match vs with [a; c] => match pa a, pc c with Some a, Some c => r a c | _, _ => stuck end | _ => stuck end.
Definition f3 {A C D} (pa : V -> option A) (pc : V -> option C) (pd : V -> option D) (r : A -> C -> D -> res) (vs : list V) : res :=
  match vs with [a; c; d] => match pa a, pc c, pd d with Some a, Some c, Some d => r a c d | _, _, _ => stuck end | _ => stuck end.
Definition f4 {A C D E} (pa : V -> option A) (pc : V -> option C) (pd : V -> option D) (pe : V -> option E) (r : A -> C -> D -> E -> res) (vs : list V) : res :=
  match vs with [a; c; d; e] => match pa a, pc c, pd d, pe e with Some a, Some c, Some d, Some e => r a c d e | _, _, _, _ => stuck end | _ => stuck end.
Definition rets (vs : list V) : res := fun k => k ([], vs).
Definition ret (v : V) : res := rets [v].
Definition mutret (v : V) (vs : list V) : res := fun k => k ([(0%nat, v)], vs).
Definition mut (v : V) : res := mutret v [].
(** a panic for None *)
Definition orpanic {A} (inj : A -> V) (o : option A) : res := fun k => match o with Some a => ret (inj a) k | None => Panic end.
(** the value and nil, or nil and an error *)
Definition orerr {A} (inj : A -> V) (o : option A) : list V := match o with Some a => [inj a; VN] | None => [VN; VErr] end.
Definition ret_orerr {A} (inj : A -> V) (o : option A) : res := fun k => match o with Some a => rets [inj a; VN] k | None => rets [VN; VErr] k end.

Definition table := list (string * (list V -> res)).
(** A call x.M(x) needs an entry of its own, "T.M=", unless M changes none of its arguments. *)
Fixpoint chop (s : string) : option string :=
  match s with
  | EmptyString => None
  | String "="%char EmptyString => Some EmptyString
  | String a r => option_map (String a) (chop r)
  end.
Definition calls (t : table) (f : string) (vs : list V) : res :=
  match assoc f t with
  | Some g => g vs
  | None => match chop f with
            | Some f' => match assoc f' t with
                         | Some g => fun k => g vs (fun r => match fst r with [] => k r | _ => Stuck end)
                         | None => stuck
                         end
            | None => stuck
            end
  end.

Definition leg (l : LegendreSymbol) : V := VU 8 (match l with LegendreZero => 0 | LegendreQuadraticResidue => 1 | LegendreQuadraticNonResidue => 2 end).

(** fq.go *)
Definition t_fq : table := [
  ("FQ.AddAssign", f2 pF pF (fun x y => mut (VF (o_add Bo x y))));
  ("FQ.SubAssign", f2 pF pF (fun x y => mut (VF (o_sub Bo x y))));
  ("FQ.MulAssign", f2 pF pF (fun x y => mut (VF (o_mul Bo x y))));
  ("FQ.SquareAssign", f1 pF (fun x => mut (VF (o_sq Bo x))));
  ("FQ.DoubleAssign", f1 pF (fun x => mut (VF (o_dbl Bo x))));
  ("FQ.NegAssign", f1 pF (fun x => mut (VF (o_neg Bo x))));
  ("FQ.DivAssign", f2 pF pF (fun x y => mut (VF (o_mul Bo x (fst (o_inv Bo y))))));
  ("FQ.Inverse", f1 pF (fun x => rets [VF (fst (o_inv Bo x)); VB (snd (o_inv Bo x))]));
  ("FQ.Sqrt", f1 pF (fun x => rets [VF (fst (o_sqrt Bo x)); VB (snd (o_sqrt Bo x))]));
  ("FQ.IsZero", f1 pF (fun x => ret (VB (o_iszero Bo x))));
  ("FQ.Equals", f2 pF pF (fun x y => ret (VB (o_equals Bo x y))));
  ("FQ.Cmp", f2 pF pF (fun x y => ret (VI (o_cmp Bo x y))));
  ("FQ.Exp", f2 pF pR (fun x n => ret (VF (b_exp B x n))));
  ("FQ.Legendre", f1 pF (fun x => ret (leg (b_legendre B x))));
  ("FQ.ToRepr", f1 pF (fun x => ret (VR (b_repr B x))));
  ("FQReprToFQ", f1 pR (fun r => ret (VF (b_of B r))));
  ("FQReprToFQRaw", f1 pR (fun r => ret (VF (b_raw B r))))].

(** fq2.go *)
Definition t_fq2 : table := [
  ("NewFQ2", f2 pF pF (fun x y => ret (V2 (mkFQ2 x y))));
  ("FQ2.AddAssign", f2 p2 p2 (fun x y => mut (V2 (FQ2_AddAssign B x y))));
  ("FQ2.SubAssign", f2 p2 p2 (fun x y => mut (V2 (FQ2_SubAssign B x y))));
  ("FQ2.MulAssign", f2 p2 p2 (fun x y => mut (V2 (FQ2_MulAssign B x y))));
  ("FQ2.DivAssign", f2 p2 p2 (fun x y => mut (V2 (FQ2_DivAssign B x y))));
  ("FQ2.SquareAssign", f1 p2 (fun x => mut (V2 (FQ2_SquareAssign B x))));
  ("FQ2.DoubleAssign", f1 p2 (fun x => mut (V2 (FQ2_DoubleAssign B x))));
  ("FQ2.NegAssign", f1 p2 (fun x => mut (V2 (FQ2_NegAssign B x))));
  ("FQ2.MultiplyByNonresidueAssign", f1 p2 (fun x => mut (V2 (FQ2_MultiplyByNonresidueAssign B x))));
  ("FQ2.FrobeniusMapAssign", f2 p2 pZ (fun x n => mut (V2 (FQ2_FrobeniusMapAssign B x n))));
  ("FQ2.InverseAssign", f1 p2 (fun x => mutret (V2 (fst (FQ2_InverseAssign B x))) [VB (snd (FQ2_InverseAssign B x))]));
  ("FQ2.Norm", f1 p2 (fun x => ret (VF (FQ2_Norm B x))));
  ("FQ2.Cmp", f2 p2 p2 (fun x y => ret (VI (FQ2_Cmp B x y))));
  ("FQ2.Equals", f2 p2 p2 (fun x y => ret (VB (FQ2_Equals B x y))));
  ("FQ2.IsZero", f1 p2 (fun x => ret (VB (FQ2_IsZero B x))));
  ("FQ2.Exp", f2 p2 pR (fun x n => ret (V2 (FQ2_Exp B x n))));
  ("FQ2.Parity", f1 p2 (fun x => ret (VB (FQ2_Parity B x))));
  ("FQ2.Sqrt", f1 p2 (fun x => rets [V2 (fst (FQ2_Sqrt B x)); VB (snd (FQ2_Sqrt B x))]))].

(** fq6.go *)
Definition t_fq6 : table := [
  ("NewFQ6", f3 p2 p2 p2 (fun x y z => ret (V6 (mkFQ6 x y z))));
  ("FQ6.AddAssign", f2 p6 p6 (fun x y => mut (V6 (FQ6_AddAssign B x y))));
  ("FQ6.SubAssign", f2 p6 p6 (fun x y => mut (V6 (FQ6_SubAssign B x y))));
  ("FQ6.MulAssign", f2 p6 p6 (fun x y => mut (V6 (FQ6_MulAssign B x y))));
  ("FQ6.MulAssign=", f2 p6 p6 (fun x _ => mut (V6 (FQ6_MulAssign_aliased B x))));
  ("FQ6.SquareAssign", f1 p6 (fun x => mut (V6 (FQ6_SquareAssign B x))));
  ("FQ6.DoubleAssign", f1 p6 (fun x => mut (V6 (FQ6_DoubleAssign B x))));
  ("FQ6.NegAssign", f1 p6 (fun x => mut (V6 (FQ6_NegAssign B x))));
  ("FQ6.MulByNonresidueAssign", f1 p6 (fun x => mut (V6 (FQ6_MulByNonresidueAssign B x))));
  ("FQ6.MulBy1Assign", f2 p6 p2 (fun x y => mut (V6 (FQ6_MulBy1Assign B x y))));
  ("FQ6.MulBy01Assign", f3 p6 p2 p2 (fun x y z => mut (V6 (FQ6_MulBy01Assign B x y z))));
  ("FQ6.FrobeniusMapAssign", f2 p6 pZ (fun x n => mut (V6 (FQ6_FrobeniusMapAssign B x n))));
  ("FQ6.InverseAssign", f1 p6 (fun x => mutret (V6 (fst (FQ6_InverseAssign B x))) [VB (snd (FQ6_InverseAssign B x))]));
  ("FQ6.Equals", f2 p6 p6 (fun x y => ret (VB (FQ6_Equals B x y))));
  ("FQ6.IsZero", f1 p6 (fun x => ret (VB (FQ6_IsZero B x))))].

(** fq12.go *)
Definition t_fq12 : table := [
  ("NewFQ12", f2 p6 p6 (fun x y => ret (V12 (mkFQ12 x y))));
  ("FQ12.MulAssign", f2 p12 p12 (fun x y => mut (V12 (FQ12_MulAssign B x y))));
  ("FQ12.MulAssign=", f2 p12 p12 (fun x _ => mut (V12 (FQ12_MulAssign B x x))));
  ("FQ12.SquareAssign", f1 p12 (fun x => mut (V12 (FQ12_SquareAssign B x))));
  ("FQ12.ConjugateAssign", f1 p12 (fun x => mut (V12 (FQ12_ConjugateAssign B x))));
  ("FQ12.FrobeniusMapAssign", f2 p12 pZ (fun x n => mut (V12 (FQ12_FrobeniusMapAssign B x n))));
  ("FQ12.MulBy014Assign", f4 p12 p2 p2 p2 (fun x a b c => mut (V12 (FQ12_MulBy014Assign B x a b c))));
  ("FQ12.InverseAssign", f1 p12 (fun x => mutret (V12 (fst (FQ12_InverseAssign B x))) [VB (snd (FQ12_InverseAssign B x))]));
  ("FQ12.Exp", f2 p12 pR (fun x n => ret (V12 (FQ12_Exp B x n))));
  ("FQ12.Equals", f2 p12 p12 (fun x y => ret (VB (FQ12_Equals B x y))))].

(** fqrepr.go, as far as the higher layers use it *)
Definition t_fqrepr : table := [
  ("NewFQRepr", f1 pU (fun z => ret (VR (NewFQRepr z))));
  ("FQRepr.Rsh", f2 pR pU (fun r n => mut (VR (FQRepr_Rsh r n))));
  ("FQRepr.Lsh", f2 pR pU (fun r n => mut (VR (FQRepr_Lsh r n))));
  ("FQRepr.BitLen", f1 pR (fun r => ret (VU 64 (FQRepr_BitLen r))));
  ("FQRepr.Bit", f2 pR pU (fun r n => orpanic VB (FQRepr_Bit r n)));
  ("FQRepr.Cmp", f2 pR pR (fun r s => ret (VI (FQRepr_Cmp r s))));
  ("FQRepr.IsEven", f1 pR (fun r => ret (VB (FQRepr_IsEven r))));
  ("FQRepr.Bytes", f1 pR (fun r => ret (VBy (FQRepr_Bytes r))));
  ("FQReprFromBytes", f1 pBy (fun l => ret (VR (FQReprFromBytes l))));
  ("NewBitIterator", f1 pWs (fun l => ret (VBI (NewBitIterator l))));
  ("BitIterator.Next", f1 pBI (fun b => mutret (VBI (snd (BitIterator_Next b))) [VB (fst (fst (BitIterator_Next b))); VB (snd (fst (BitIterator_Next b)))]));
  ("isEven", f1 pR (fun r => ret (VB (isEven r))))].

(** frrepr.go and math/big, as far as the curves use them *)
Definition t_frrepr : table := [
  ("FRRepr.BitLen", f1 pRr (fun r => ret (VU 64 (FRRepr_BitLen r))));
  ("FRRepr.Bit", f2 pRr pU (fun r n => orpanic VB (FRRepr_Bit r n)));
  ("big.Int.BitLen", f1 pBig (fun z => ret (VI (big_BitLen z))));
  ("big.Int.Bit", f2 pBig pZ (fun z n => ret (VU 64 (if Z.testbit z n then 1 else 0))))].
(** copy(dst, src): the first bytes of dst are replaced *)
Definition go_copy (d s : list Z) : list Z := let m := Nat.min (length d) (length s) in (firstn m s ++ skipn m d)%list.
(** x.Mod(x, m); the two bytes that binary.BigEndian.PutUint16 writes *)
Definition big_Mod (x m : Z) : Z := x mod m.
Definition byte_hi (v : Z) : Z := v / 256.
Definition byte_lo (v : Z) : Z := v mod 256.
Definition t_go : table := [
  ("copy", f2 pBy pBy (fun d s => mutret (VBy (go_copy d s)) [VI (Z.of_nat (Nat.min (length d) (length s)))]))].

(** g1.go, g2.go *)
Let O2 := FQ2O B.
Definition t_g1 : table := [
  ("NewG1Affine", f2 pF pF (fun x y => ret (VA1 (NewAffine x y))));
  ("NewG1Projective", f3 pF pF pF (fun x y z => ret (VP1 (mkProj x y z))));
  ("G1Affine.IsZero", f1 pA1 (fun p => ret (VB (Affine_IsZero p))));
  ("G1Affine.NegAssign", f1 pA1 (fun p => mut (VA1 (Affine_NegAssign Bo p))));
  ("G1Affine.ToProjective", f1 pA1 (fun p => ret (VP1 (Affine_ToProjective Bo p))));
  ("G1Affine.Mul", f2 pA1 pR (fun p r => ret (VP1 (Affine_Mul Bo p r))));
  ("G1Affine.MulFR", f2 pA1 pRr (fun p r => ret (VP1 (Affine_MulFR Bo p r))));
  ("G1Affine.IsInCorrectSubgroupAssumingOnCurve", f1 pA1 (fun p => ret (VB (G1_IsInCorrectSubgroupAssumingOnCurve B p))));
  ("G1Affine.ScaleByCofactor", f1 pA1 (fun p => ret (VP1 (G1_ScaleByCofactor B p))));
  ("GetG1PointFromX", f2 pF pB (fun x g => ret_orerr VA1 (GetG1PointFromX B x g)));
  ("DecompressG1Unchecked", f1 pBy (fun l => ret_orerr VA1 (DecompressG1Unchecked B l)));
  ("DecompressG1", f1 pBy (fun l => ret_orerr VA1 (DecompressG1 B l)));
  ("CompressG1", f1 pA1 (fun p => ret (VBy (CompressG1 B p))));
  ("G1Projective.IsZero", f1 pP1 (fun p => ret (VB (Proj_IsZero Bo p))));
  ("G1Projective.NegAssign", f1 pP1 (fun p => mut (VP1 (Proj_NegAssign Bo p))));
  ("G1Projective.Equal", f2 pP1 pP1 (fun p q => ret (VB (Proj_Equal Bo p q))));
  ("G1Projective.ToAffine", f1 pP1 (fun p => ret (VA1 (G1_ToAffine Bo p))));
  ("G1Projective.Double", f1 pP1 (fun p => ret (VP1 (Double Bo p))));
  ("G1Projective.Add", f2 pP1 pP1 (fun p q => ret (VP1 (Add Bo p q))));
  ("G1Projective.AddAffine", f2 pP1 pA1 (fun p q => ret (VP1 (AddAffine Bo p q))));
  ("G1Projective.MulFR", f2 pP1 pRr (fun p r => ret (VP1 (Proj_MulFR Bo p r))))].
Definition t_g2 : table := [
  ("NewG2Affine", f2 p2 p2 (fun x y => ret (VA2 (NewAffine x y))));
  ("NewG2Projective", f3 p2 p2 p2 (fun x y z => ret (VP2 (mkProj x y z))));
  ("G2Affine.IsZero", f1 pA2 (fun p => ret (VB (Affine_IsZero p))));
  ("G2Affine.NegAssign", f1 pA2 (fun p => mut (VA2 (Affine_NegAssign O2 p))));
  ("G2Affine.ToProjective", f1 pA2 (fun p => ret (VP2 (Affine_ToProjective O2 p))));
  ("G2Affine.Mul", f2 pA2 pR (fun p r => ret (VP2 (Affine_Mul O2 p r))));
  ("G2Affine.MulFR", f2 pA2 pRr (fun p r => ret (VP2 (Affine_MulFR O2 p r))));
  ("G2Affine.MulBig", f2 pA2 pBig (fun p r => ret (VP2 (Affine_MulBig O2 p r))));
  ("G2Affine.IsInCorrectSubgroupAssumingOnCurve", f1 pA2 (fun p => ret (VB (G2_IsInCorrectSubgroupAssumingOnCurve B p))));
  ("G2Affine.ScaleByCofactor", f1 pA2 (fun p => ret (VP2 (G2_ScaleByCofactor B p))));
  ("GetG2PointFromX", f2 p2 pB (fun x g => ret_orerr VA2 (GetG2PointFromX B x g)));
  ("DecompressG2Unchecked", f1 pBy (fun l => ret_orerr VA2 (DecompressG2Unchecked B l)));
  ("DecompressG2", f1 pBy (fun l => ret_orerr VA2 (DecompressG2 B l)));
  ("CompressG2", f1 pA2 (fun p => ret (VBy (CompressG2 B p))));
  ("G2Projective.IsZero", f1 pP2 (fun p => ret (VB (Proj_IsZero O2 p))));
  ("G2Projective.Equals", f2 pP2 pP2 (fun p q => ret (VB (Proj_Equal O2 p q))));
  ("G2Projective.ToAffine", f1 pP2 (fun p => ret (VA2 (G2_ToAffine O2 p))));
  ("G2Projective.Double", f1 pP2 (fun p => ret (VP2 (Double O2 p))));
  ("G2Projective.Add", f2 pP2 pP2 (fun p q => ret (VP2 (Add O2 p q))));
  ("G2Projective.AddAffine", f2 pP2 pA2 (fun p q => ret (VP2 (AddAffine O2 p q))));
  ("G2Projective.Mul", f2 pP2 pR (fun p r => ret (VP2 (Proj_Mul O2 p r))));
  ("G2Projective.MulFR", f2 pP2 pRr (fun p r => ret (VP2 (Proj_MulFR O2 p r))))].

(** pairing.go *)
Definition pPI (v : V) := vprep v.
Definition pMI (v : V) := match v with VMI l => Some l | _ => None end.
Definition ret_ornil {A} (inj : A -> V) (o : option A) : res := fun k => match o with Some a => ret (inj a) k | None => ret VN k end.
Definition t_pair : table := [
  ("G2Prepared.IsZero", f1 pPI (fun q => ret (VB (pinf q))));
  ("G2AffineToPrepared", f1 pA2 (fun q => ret (prepV (G2AffineToPrepared B q))));
  ("MillerLoop", f1 pMI (fun l => orpanic V12 (MillerLoop B l)));
  ("FinalExponentiation", f1 p12 (fun f => ret_ornil V12 (FinalExponentiation B f)))].

(** Package variables. *)
Definition globs : list (string * V) := [
  ("FQZero", VF (o_zero Bo)); ("FQOne", VF (o_one Bo)); ("negativeOneFQ", VF (negOneFQ B));
  ("qMinus3Over4", VR qMinus3Over4); ("qMinus1Over2", VR qMinus1Over2); ("bigZero", VR bigZero); ("bigOne", VR bigOne);
  ("QFieldModulus", VR QFieldModulus);
  ("FQ2Zero", V2 (FQ2Zero B)); ("FQ2One", V2 (FQ2One B)); ("fq2nqr", V2 (fq2nqr B));
  ("FQ6Zero", V6 (FQ6Zero B)); ("FQ6One", V6 (FQ6One B)); ("FQ12Zero", V12 (FQ12Zero B)); ("FQ12One", V12 (FQ12One B));
  ("frobeniusCoeffFQ2c1", VLF (frobeniusCoeffFQ2c1 B));
  ("frobeniusCoeffFQ6c1", VL2 (frobeniusCoeffFQ6c1 B));
  ("frobeniusCoeffFQ6c2", VL2 (frobeniusCoeffFQ6c2 B));
  ("frobeniusCoeffFQ12c1", VL2 (frobeniusCoeffFQ12c1 B));
  ("BCoeff", VF (BCoeff B)); ("BCoeffFQ2", V2 (BCoeffFQ2 B));
  ("G1AffineZero", VA1 (AffineZero Bo)); ("G1AffineOne", VA1 (G1AffineOne B));
  ("G1ProjectiveZero", VP1 (ProjectiveZero Bo)); ("G1ProjectiveOne", VP1 (G1ProjectiveOne B));
  ("G2AffineZero", VA2 (AffineZero O2)); ("G2AffineOne", VA2 (G2AffineOne B));
  ("G2ProjectiveZero", VP2 (ProjectiveZero O2)); ("G2ProjectiveOne", VP2 (G2ProjectiveOne B));
  ("frChar", VRr frChar); ("g1Cofactor", VR g1Cofactor); ("g2Cofactor", VBig g2Cofactor);
  ("blsX", VR blsX); ("blsIsNegative", VB blsIsNegative);
  ("RFieldModulus", VRr RFieldModulus); ("bigOneFR", VFR bigOneFR); ("binary.BigEndian", VStr "binary.BigEndian");
  ("cipherSuite", VU 8 cipherSuite); ("ellPA", VF (ellPA B)); ("ellPB", VF (ellPB B)); ("ell2pA", V2 (ell2pA B)); ("ell2pB", V2 (ell2pB B));
  ("iwsc", V2 (iwsc B)); ("kQiX", VF (kQiX B)); ("kQiY", VF (kQiY B));
  ("mapCoeffs11", VL [VLF (map (b_of B) xNum11_repr); VLF (map (b_of B) xDen11_repr); VLF (map (b_of B) yNum11_repr); VLF (map (b_of B) yDen11_repr)]);
  ("mapCoeffs3", VL [VL2 (map (of_pair B) xNum3_repr); VL2 (map (of_pair B) xDen3_repr); VL2 (map (of_pair B) yNum3_repr); VL2 (map (of_pair B) yDen3_repr)]);
  ("swencSqrtNegThreeFQ2", V2 (mkFQ2 (b_of B swencSqrtNegThree) (o_zero Bo)));
  ("swencSqrtNegThreeMinusOneDivTwoFQ2", V2 (mkFQ2 (b_of B swencSqrtNegThreeMinusOneDivTwo) (o_zero Bo)))].
Definition glob (x : string) : option V := assoc x globs.

(** Everything together, for the functions above the base field. *)
Definition limbsB : option (F -> FQRepr) * (FQRepr -> F) := (None, b_raw B).
Definition zeroF : F := b_raw B (mkFQRepr 0 0 0 0 0 0).
Definition tableB : table := (t_fq2 ++ t_fq6 ++ t_fq12 ++ t_fqrepr ++ t_fq ++ t_frrepr ++ t_go ++ t_g1 ++ t_g2 ++ t_pair)%list.
Definition callB := calls tableB.
Definition loopB := loop (F:=F) limbsB zeroF glob callB.
Definition rangeB := range (F:=F) limbsB zeroF glob callB.
Definition execB n := exec (F:=F) limbsB zeroF glob callB (loopB n) (rangeB n) depth.
Definition evalB n := eval1 (F:=F) limbsB zeroF glob callB (loopB n) (rangeB n) depth.
Definition runB_with := run_with (F:=F) limbsB zeroF glob callB.
Definition runB n := runB_with (loopB n) (rangeB n).
Lemma loopB_S n c post body e kn kr : loopB (S n) c post body e kn kr =
  (let more e := execB n post (pop e) (fun e => loopB n c post body e kn kr) kr (fun _ => Stuck) (fun _ => Stuck) in
   let go e := execB n body ([] :: e) more kr (fun e => kn (pop e)) more in
   match c with
   | None => go e
   | Some c => evalB n c e (fun v e => match v with VB b => if b then go e else kn e | _ => Stuck end)
   end).
Proof. exact (loop_S limbsB zeroF glob callB n c post body e kn kr). Qed.
Lemma rangeB_nil n kx vx i body e kn kr : rangeB (S n) kx vx i [] body e kn kr = kn e.
Proof. exact (range_nil limbsB zeroF glob callB n kx vx i body e kn kr). Qed.
Lemma rangeB_cons n kx vx i v l body e kn kr : rangeB (S n) kx vx i (v :: l) body e kn kr =
  execB n body ([] :: (declare kx (VI i) (declare vx v ([] :: e))))
    (fun e => rangeB (S n) kx vx (i + 1) l body (pop (pop e)) kn kr) kr
    (fun e => kn (pop (pop e))) (fun e => rangeB (S n) kx vx (i + 1) l body (pop (pop e)) kn kr).
Proof. exact (range_cons limbsB zeroF glob callB n kx vx i v l body e kn kr). Qed.

(** With further functions, for the packages above. *)
Section Tables.
Context (t : table).
Definition callT := calls (t ++ tableB)%list.
Definition loopT := loop (F:=F) limbsB zeroF glob callT.
Definition rangeT := range (F:=F) limbsB zeroF glob callT.
Definition execT n := exec (F:=F) limbsB zeroF glob callT (loopT n) (rangeT n) depth.
Definition evalT n := eval1 (F:=F) limbsB zeroF glob callT (loopT n) (rangeT n) depth.
Definition runT n := run_with (F:=F) limbsB zeroF glob callT (loopT n) (rangeT n).
Lemma loopT_S n c post body e kn kr : loopT (S n) c post body e kn kr =
  (let more e := execT n post (pop e) (fun e => loopT n c post body e kn kr) kr (fun _ => Stuck) (fun _ => Stuck) in
   let go e := execT n body ([] :: e) more kr (fun e => kn (pop e)) more in
   match c with
   | None => go e
   | Some c => evalT n c e (fun v e => match v with VB b => if b then go e else kn e | _ => Stuck end)
   end).
Proof. exact (loop_S limbsB zeroF glob callT n c post body e kn kr). Qed.
Lemma rangeT_nil n kx vx i body e kn kr : rangeT (S n) kx vx i [] body e kn kr = kn e.
Proof. exact (range_nil limbsB zeroF glob callT n kx vx i body e kn kr). Qed.
Lemma rangeT_cons n kx vx i v l body e kn kr : rangeT (S n) kx vx i (v :: l) body e kn kr =
  execT n body ([] :: (declare kx (VI i) (declare vx v ([] :: e))))
    (fun e => rangeT (S n) kx vx (i + 1) l body (pop (pop e)) kn kr) kr
    (fun e => kn (pop (pop e))) (fun e => rangeT (S n) kx vx (i + 1) l body (pop (pop e)) kn kr).
Proof. exact (range_cons limbsB zeroF glob callT n kx vx i v l body e kn kr). Qed.
End Tables.
End Calls.
