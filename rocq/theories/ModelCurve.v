(** Model of g1.go and g2.go (without the preparation for pairings and the maps to the curve).
    Code that is textually the same for G1 and G2, up to FQ versus FQ2, is transcribed once over
    an operations record [O]; the places where the two files differ are transcribed separately. *)
Require Import ZArith Bool List.
From Verif Require Import Words ModelRepr ModelFq ModelOps ModelTower.
Import ListNotations.
Open Scope Z_scope.

(** g1.go:10-14 G1Affine, g2.go:12-16 G2Affine *)
Record Affine (F : Type) := mkAff { ax : F; ay : F; ainf : bool }.
Arguments mkAff {F}. Arguments ax {F}. Arguments ay {F}. Arguments ainf {F}.
(** g1.go:252-256 G1Projective, g2.go:298-302 G2Projective (Jacobian coordinates) *)
Record Proj (F : Type) := mkProj { px : F; py : F; pz : F }.
Arguments mkProj {F}. Arguments px {F}. Arguments py {F}. Arguments pz {F}.

(** The loop `for i := 0; i < b.BitLen(); i++ { o := b.Bit(b.BitLen()-i-1); res = double(res); if o {...} }`
    of every scalar multiplication; Bit never goes out of range here. *)
Definition MulLoop {P} (bitlen : Z) (bit : Z -> option bool) (double : P -> P) (addg : P -> P) (zero : P) : P :=
  fold_left (fun res i =>
      let o := bit (bitlen - Z.of_nat i - 1) in
      let res := double res in
      match o with Some true => addg res | _ => res end)
    (seq 0 (Z.to_nat bitlen)) zero.

Section Curve.
Context {F : Type} (O : Ops F).
Notation zero := (o_zero O). Notation one := (o_one O).
Notation add := (o_add O). Notation sub := (o_sub O). Notation mul := (o_mul O). Notation sq := (o_sq O).
Notation dbl := (o_dbl O). Notation neg := (o_neg O). Notation equals := (o_equals O).

(** g1.go:17-19 NewG1Affine, g2.go:19-21 NewG2Affine *)
Definition NewAffine (x y : F) : Affine F := mkAff x y false.
(** g1.go:22 G1AffineZero, g2.go:24 G2AffineZero *)
Definition AffineZero : Affine F := mkAff zero one true.
(** g1.go:269 G1ProjectiveZero, g2.go:310 G2ProjectiveZero *)
Definition ProjectiveZero : Proj F := mkProj zero one zero.
(** g1.go:47-49, g2.go:58-60 IsZero *)
Definition Affine_IsZero (g : Affine F) : bool := ainf g.
(** g1.go:52-56, g2.go:63-67 NegAssign *)
Definition Affine_NegAssign (g : Affine F) : Affine F :=
  if negb (Affine_IsZero g) then mkAff (ax g) (neg (ay g)) (ainf g) else g.
(** g1.go:59-64, g2.go:70-76 ToProjective *)
Definition Affine_ToProjective (g : Affine F) : Proj F :=
  if Affine_IsZero g then ProjectiveZero else mkProj (ax g) (ay g) one.

(** g1.go:287-289, g2.go:328-330 IsZero *)
Definition Proj_IsZero (g : Proj F) : bool := o_iszero O (pz g).
(** g1.go:259-261 NegAssign (there is no G2 version) *)
Definition Proj_NegAssign (g : Proj F) : Proj F := mkProj (px g) (neg (py g)) (pz g).

(** g1.go:292-319 Equal, g2.go:333-362 Equals *)
Definition Proj_Equal (g other : Proj F) : bool :=
  if Proj_IsZero g then Proj_IsZero other
  else if Proj_IsZero other then false
  else
    let z1 := sq (pz g) in
    let z2 := sq (pz other) in
    let tmp1 := mul (px g) z2 in
    let tmp2 := mul (px other) z1 in
    if negb (equals tmp1 tmp2) then false
    else
      let z1 := mul z1 (pz g) in
      let z1 := mul z1 (py other) in
      let z2 := mul z2 (pz other) in
      let z2 := mul z2 (py g) in
      equals z1 z2.

(** The common part of g1.go:329-339 and g2.go:372-385 *)
Definition ToAffine_div (g : Proj F) : Affine F :=
  let zInv := fst (o_inv O (pz g)) in
  let zInvSquared := sq zInv in
  let x := mul (px g) zInvSquared in
  let y := mul (py g) zInvSquared in
  let y := mul y zInv in
  NewAffine x y.

(** g1.go:322-340 ToAffine; the second branch repeats the test of the first *)
Definition G1_ToAffine (g : Proj F) : Affine F :=
  if Proj_IsZero g then AffineZero
  else if o_iszero O (pz g) then NewAffine (px g) (py g)
  else ToAffine_div g.

(** g2.go:365-386 ToAffine (returns the shared G2AffineZero pointer for infinity) *)
Definition G2_ToAffine (g : Proj F) : Affine F :=
  if Proj_IsZero g then AffineZero
  else if equals (pz g) one then NewAffine (px g) (py g)
  else ToAffine_div g.

(** g1.go:343-397, g2.go:389-443 Double *)
Definition Double (g : Proj F) : Proj F :=
  if Proj_IsZero g then g
  else
    let a := sq (px g) in
    let b := sq (py g) in
    let c := sq b in
    let d := add (px g) b in
    let d := sq d in
    let d := sub d a in
    let d := sub d c in
    let d := dbl d in
    let e := dbl a in
    let e := add e a in
    let f := sq e in
    let newZ := mul (pz g) (py g) in
    let newZ := dbl newZ in
    let newX := sub f d in
    let newX := sub newX d in
    let c := dbl c in
    let c := dbl c in
    let c := dbl c in
    let newY := sub d newX in
    let newY := mul newY e in
    let newY := sub newY c in
    mkProj newX newY newZ.

(** g1.go:400-482, g2.go:446-529 Add *)
Definition Add (g other : Proj F) : Proj F :=
  if Proj_IsZero g then other
  else if Proj_IsZero other then g
  else
    let z1z1 := sq (pz g) in
    let z2z2 := sq (pz other) in
    let u1 := mul (px g) z2z2 in
    let u2 := mul (px other) z1z1 in
    let s1 := mul (py g) (pz other) in
    let s1 := mul s1 z2z2 in
    let s2 := mul (py other) (pz g) in
    let s2 := mul s2 z1z1 in
    if equals u1 u2 && equals s1 s2 then Double g
    else
      let h := sub u2 u1 in
      let i := dbl h in
      let i := sq i in
      let j := mul h i in
      let s2 := sub s2 s1 in
      let s2 := dbl s2 in
      let u1 := mul u1 i in
      let newX := sq s2 in
      let newX := sub newX j in
      let newX := sub newX u1 in
      let newX := sub newX u1 in
      let u1 := sub u1 newX in
      let u1 := mul u1 s2 in
      let s1 := mul s1 j in
      let s1 := dbl s1 in
      let u1 := sub u1 s1 in
      let newZ := add (pz g) (pz other) in
      let newZ := sq newZ in
      let newZ := sub newZ z1z1 in
      let newZ := sub newZ z2z2 in
      let newZ := mul newZ h in
      mkProj newX u1 newZ.

(** g1.go:485-559, g2.go:532-606 AddAffine *)
Definition AddAffine (g : Proj F) (other : Affine F) : Proj F :=
  if Proj_IsZero g then Affine_ToProjective other
  else if Affine_IsZero other then g
  else
    let z1z1 := sq (pz g) in
    let u2 := mul (ax other) z1z1 in
    let s2 := mul (ay other) (pz g) in
    let s2 := mul s2 z1z1 in
    if equals (px g) u2 && equals (py g) s2 then Double g
    else
      let u2 := sub u2 (px g) in
      let hh := sq u2 in
      let i := dbl hh in
      let i := dbl i in
      let j := mul u2 i in
      let s2 := sub s2 (py g) in
      let s2 := dbl s2 in
      let v := mul (px g) i in
      let newX := sq s2 in
      let newX := sub newX j in
      let newX := sub newX v in
      let newX := sub newX v in
      let newY := sub v newX in
      let newY := mul newY s2 in
      let i0 := mul (py g) j in
      let i0 := dbl i0 in
      let newY := sub newY i0 in
      let newZ := add (pz g) u2 in
      let newZ := sq newZ in
      let newZ := sub newZ z1z1 in
      let newZ := sub newZ hh in
      mkProj newX newY newZ.

(** g1.go:67-77, g2.go:79-89 Mul of an affine point *)
Definition Affine_Mul (g : Affine F) (b : FQRepr) : Proj F :=
  MulLoop (FQRepr_BitLen b) (FQRepr_Bit b) Double (fun res => AddAffine res g) ProjectiveZero.
(** g1.go:80-90, g2.go:92-102 MulFR of an affine point *)
Definition Affine_MulFR (g : Affine F) (b : FRRepr) : Proj F :=
  MulLoop (FRRepr_BitLen b) (FRRepr_Bit b) Double (fun res => AddAffine res g) ProjectiveZero.
(** g2.go:105-115 MulBig; b is not negative *)
Definition Affine_MulBig (g : Affine F) (b : Z) : Proj F :=
  MulLoop (big_BitLen b) (fun n => Some (Z.testbit b n)) Double (fun res => AddAffine res g) ProjectiveZero.
(** g1.go:562-572, g2.go:609-619 Mul of a projective point *)
Definition Proj_Mul (g : Proj F) (b : FQRepr) : Proj F :=
  MulLoop (FQRepr_BitLen b) (FQRepr_Bit b) Double (fun res => Add res g) ProjectiveZero.
(** g1.go:575-585, g2.go:622-632 MulFR of a projective point *)
Definition Proj_MulFR (g : Proj F) (b : FRRepr) : Proj F :=
  MulLoop (FRRepr_BitLen b) (FRRepr_Bit b) Double (fun res => Add res g) ProjectiveZero.

(** g1.go:152-154 G1Affine.Equals *)
Definition G1Affine_Equals (g other : Affine F) : bool :=
  (eqb (ainf g) (ainf other) && eqb (ainf g) true) || (equals (ax g) (ax other) && equals (ay g) (ay other)).
(** g2.go:141-143 G2Affine.Equals *)
Definition G2Affine_Equals (g other : Affine F) : bool :=
  eqb (ainf g) (ainf other) || (equals (ax g) (ax other) && equals (ay g) (ay other)).

(** Functions that use the curve coefficient b (BCoeff for G1, BCoeffFQ2 for G2). *)
Context (bcoeff : F).

(** g1.go:93-105, g2.go:118-130 IsOnCurve *)
Definition IsOnCurve (g : Affine F) : bool :=
  if ainf g then true
  else
    let y2 := sq (ay g) in
    let x3b := sq (ax g) in
    let x3b := mul x3b (ax g) in
    let x3b := add x3b bcoeff in
    equals y2 x3b.

(** g1.go:111-131 GetG1PointFromX, g2.go:149-169 GetG2PointFromX; an error is None *)
Definition GetPointFromX (x : F) (greatest : bool) : option (Affine F) :=
  let x3b := sq x in
  let x3b := mul x3b x in
  let x3b := add x3b bcoeff in
  let '(y, success) := o_sqrt O x3b in
  if negb success then None
  else
    let negY := neg y in
    let yVal := if negb (eqb (o_cmp O y negY <? 0) greatest) then y else negY in
    Some (NewAffine x yVal).
End Curve.

(** g1.go:133 frChar *)
Definition frChar : FRRepr := Eval vm_compute in
  FRRepr_const 52435875175126190479447740508185965837690552500527637822603658699938581184513.
(** g1.go:144 g1Cofactor *)
Definition g1Cofactor : FQRepr := Eval vm_compute in FQRepr_const 76329603384216526031706109802092473003.
(** g2.go:133 g2Cofactor *)
Definition g2Cofactor : Z := 0x5d543a95414e7f1091d50792876a202cd91de4547085abaa68a205b2e5a7ddfa628f1cb4d9e82ef21537e293a6691ae1616ec6e786f0c70cf1c38e31c7238e5.
(** g1.go:25-26 *)
Definition g1GeneratorX : FQRepr := Eval vm_compute in FQRepr_const 3685416753713387016781088315183077757961620795782546409894578378688607592378376318836054947676345821548104185464507.
Definition g1GeneratorY : FQRepr := Eval vm_compute in FQRepr_const 1339506544944476473020471379941921221584933875938349620426543736416511423956333506472724655353366534992391756441569.
(** g2.go:26-29 *)
Definition g2GeneratorXC1 : FQRepr := Eval vm_compute in FQRepr_const 0x13e02b6052719f607dacd3a088274f65596bd0d09920b61ab5da61bbdc7f5049334cf11213945d57e5ac7d055d042b7e.
Definition g2GeneratorXC0 : FQRepr := Eval vm_compute in FQRepr_const 0x24aa2b2f08f0a91260805272dc51051c6e47ad4fa403b02b4510b647ae3d1770bac0326a805bbefd48056c8c121bdb8.
Definition g2GeneratorYC1 : FQRepr := Eval vm_compute in FQRepr_const 0x606c4a02ea734cc32acd2b02bc28b99cb3e287e85a763af267492ab572e99ab3f370d275cec1da1aaa9075ff05f79be.
Definition g2GeneratorYC0 : FQRepr := Eval vm_compute in FQRepr_const 0xce5d527727d6e118cc9cdc6da2e351aadfd9baa8cbdd3a76d429a695160d12c923ac9cc3baca289e193548608b82801.

(** arr[0] op= ... on a byte array *)
Definition upd0 (h : Z -> Z) (l : list Z) : list Z := match l with [] => [] | b :: t => h b :: t end.
Definition byte0 (l : list Z) : Z := match l with [] => 0 | b :: _ => b end.

Section Points.
Context {F : Type} (B : BOps F).
Let O1 := b_ops B.
Let O2 := FQ2O B.

(** g1.go:29 BCoeff, g2.go:32 BCoeffFQ2 *)
Definition BCoeff : F := b_raw B
  (mkFQRepr 0xaa270000000cfff3 0x53cc0032fc34000a 0x478fe97a6b0a807f 0xb1d37ebee6ba24d7 0x8ec9733bbf78ab2f 0x9d645513d83de7e).
Definition BCoeffFQ2 : FQ2 F := mkFQ2 BCoeff BCoeff.

(** g1.go:32 G1AffineOne, g2.go:35-43 G2AffineOne *)
Definition G1AffineOne : Affine F := mkAff (b_of B g1GeneratorX) (b_of B g1GeneratorY) false.
Definition G2AffineOne : Affine (FQ2 F) :=
  mkAff (mkFQ2 (b_of B g2GeneratorXC0) (b_of B g2GeneratorXC1)) (mkFQ2 (b_of B g2GeneratorYC0) (b_of B g2GeneratorYC1)) false.
(** g1.go:272, g2.go:313 *)
Definition G1ProjectiveOne : Proj F := Affine_ToProjective O1 G1AffineOne.
Definition G2ProjectiveOne : Proj (FQ2 F) := Affine_ToProjective O2 G2AffineOne.

Definition G1_IsOnCurve := IsOnCurve O1 BCoeff.
Definition G2_IsOnCurve := IsOnCurve O2 BCoeffFQ2.
Definition GetG1PointFromX := GetPointFromX O1 BCoeff.
Definition GetG2PointFromX := GetPointFromX O2 BCoeffFQ2.

(** g1.go:137-141 (the first, unused, multiplication has no effect), g2.go:293-295 *)
Definition G1_IsInCorrectSubgroupAssumingOnCurve (g : Affine F) : bool := Proj_IsZero O1 (Affine_MulFR O1 g frChar).
Definition G2_IsInCorrectSubgroupAssumingOnCurve (g : Affine (FQ2 F)) : bool := Proj_IsZero O2 (Affine_MulFR O2 g frChar).
(** g1.go:147-149, g2.go:136-138 ScaleByCofactor *)
Definition G1_ScaleByCofactor (g : Affine F) : Proj F := Affine_Mul O1 g g1Cofactor.
Definition G2_ScaleByCofactor (g : Affine (FQ2 F)) : Proj (FQ2 F) := Affine_MulBig O2 g g2Cofactor.

(** g1.go:157-167 SerializeBytes *)
Definition G1_SerializeBytes (g : Affine F) : list Z :=
  FQRepr_Bytes (b_repr B (ax g)) ++ FQRepr_Bytes (b_repr B (ay g)).
(** g1.go:170-182 SetRawBytes: the new receiver (the flag infinity is kept) *)
Definition G1_SetRawBytes (g : Affine F) (uncompressed : list Z) : Affine F :=
  let xBytes := firstn 48 uncompressed in
  let yBytes := firstn 48 (skipn 48 uncompressed) in
  mkAff (b_raw B (FQReprFromBytes xBytes)) (b_raw B (FQReprFromBytes yBytes)) (ainf g).
(** g2.go:172-186 SerializeBytes *)
Definition G2_SerializeBytes (g : Affine (FQ2 F)) : list Z :=
  FQRepr_Bytes (b_repr B (c0 (ax g))) ++ FQRepr_Bytes (b_repr B (c1 (ax g))) ++
  FQRepr_Bytes (b_repr B (c0 (ay g))) ++ FQRepr_Bytes (b_repr B (c1 (ay g))).
(** g2.go:189-215 SetRawBytes *)
Definition G2_SetRawBytes (g : Affine (FQ2 F)) (uncompressed : list Z) : Affine (FQ2 F) :=
  let xC0Bytes := firstn 48 uncompressed in
  let xC1Bytes := firstn 48 (skipn 48 uncompressed) in
  let yC0Bytes := firstn 48 (skipn 96 uncompressed) in
  let yC1Bytes := firstn 48 (skipn 144 uncompressed) in
  mkAff (mkFQ2 (b_of B (FQReprFromBytes xC0Bytes)) (b_of B (FQReprFromBytes xC1Bytes)))
        (mkFQ2 (b_of B (FQReprFromBytes yC0Bytes)) (b_of B (FQReprFromBytes yC1Bytes))) (ainf g).

(** g1.go:199-227 DecompressG1Unchecked; every error is None *)
Definition DecompressG1Unchecked (b : list Z) : option (Affine F) :=
  if wand (byte0 b) 128 =? 0 then None
  else if negb (wand (byte0 b) 64 =? 0) then
    let copyBytes := upd0 (fun x => wand x 0x3f) b in
    if forallb (fun x => x =? 0) copyBytes then Some (AffineZero O1) else None
  else
    let greatest := negb (wand (byte0 b) 32 =? 0) in
    let copyBytes := upd0 (fun x => wand x 0x1f) b in
    let xFQ := b_of B (FQReprFromBytes copyBytes) in
    GetG1PointFromX xFQ greatest.
(** g1.go:185-195 DecompressG1 *)
Definition DecompressG1 (b : list Z) : option (Affine F) :=
  match DecompressG1Unchecked b with
  | None => None
  | Some affine => if negb (G1_IsInCorrectSubgroupAssumingOnCurve affine) then None else Some affine
  end.
(** g1.go:230-249 CompressG1 *)
Definition CompressG1 (affine : Affine F) : list Z :=
  let res := repeat 0 48 in
  let res :=
    if Affine_IsZero affine then upd0 (fun x => wor x 64) res
    else
      let res := FQRepr_Bytes (b_repr B (ax affine)) in
      let negY := o_neg O1 (ay affine) in
      if 0 <? o_cmp O1 (ay affine) negY then upd0 (fun x => wor x 32) res else res in
  upd0 (fun x => wor x 128) res.

(** g2.go:232-265 DecompressG2Unchecked *)
Definition DecompressG2Unchecked (c : list Z) : option (Affine (FQ2 F)) :=
  if wand (byte0 c) 128 =? 0 then None
  else if negb (wand (byte0 c) 64 =? 0) then
    let c := upd0 (fun x => wand x 0x3f) c in
    if forallb (fun x => x =? 0) c then Some (AffineZero O2) else None
  else
    let greatest := negb (wand (byte0 c) 32 =? 0) in
    let c := upd0 (fun x => wand x 0x1f) c in
    let xC1Bytes := firstn 48 c in
    let xC0Bytes := skipn 48 c in
    let xC0FQ := b_of B (FQReprFromBytes xC0Bytes) in
    let xC1FQ := b_of B (FQReprFromBytes xC1Bytes) in
    GetG2PointFromX (mkFQ2 xC0FQ xC1FQ) greatest.
(** g2.go:219-229 DecompressG2 *)
Definition DecompressG2 (c : list Z) : option (Affine (FQ2 F)) :=
  match DecompressG2Unchecked c with
  | None => None
  | Some affine => if negb (G2_IsInCorrectSubgroupAssumingOnCurve affine) then None else Some affine
  end.
(** g2.go:268-289 CompressG2 *)
Definition CompressG2 (affine : Affine (FQ2 F)) : list Z :=
  let res := repeat 0 96 in
  let res :=
    if Affine_IsZero affine then upd0 (fun x => wor x 64) res
    else
      let res := FQRepr_Bytes (b_repr B (c1 (ax affine))) ++ FQRepr_Bytes (b_repr B (c0 (ax affine))) in
      let negY := FQ2_NegAssign B (ay affine) in
      if 0 <? FQ2_Cmp B (ay affine) negY then upd0 (fun x => wor x 32) res else res in
  upd0 (fun x => wor x 128) res.

(** g1.go:588-612 RandG1 on a list of draws (the byte read, the integer in [0,q) returned by rand.Int);
    None: the reader ran out *)
Fixpoint RandG1 (draws : list (Z * Z)) : option (Proj F) :=
  match draws with
  | [] => None
  | (byte, r) :: rest =>
      let greatest := byte mod 2 =? 0 in
      let f := b_of B (FQRepr_const r) in
      match GetG1PointFromX f greatest with
      | None => RandG1 rest
      | Some p =>
          let p1 := G1_ScaleByCofactor p in
          if negb (Affine_IsZero p) then Some p1 else RandG1 rest
      end
  end.
(** g2.go:804-828 RandG2 *)
Fixpoint RandG2 (draws : list (Z * (Z * Z))) : option (Proj (FQ2 F)) :=
  match draws with
  | [] => None
  | (byte, (r0, r1)) :: rest =>
      let greatest := byte mod 2 =? 0 in
      let f := mkFQ2 (b_of B (FQRepr_const r0)) (b_of B (FQRepr_const r1)) in
      match GetG2PointFromX f greatest with
      | None => RandG2 rest
      | Some p =>
          let p1 := G2_ScaleByCofactor p in
          if negb (Affine_IsZero p) then Some p1 else RandG2 rest
      end
  end.
End Points.
