(** Model of hash.go and of the maps to the curves in g1.go:614-715 and g2.go:830-1090. SHA-256 is an
    arbitrary function [sha] from byte lists to byte lists. *)
Require Import ZArith Bool List.
From Verif Require Import Words ModelRepr ModelFq ModelFr ModelOps ModelTower ModelCurve.
Import ListNotations.
Open Scope Z_scope.

(** g1.go:614-615 *)
Definition ellPARepr : FQRepr := Eval vm_compute in FQRepr_const 0x144698a3b8e9433d693a02c96d4982b0ea985383ee66a8d8e8981aefd881ac98936f8da0e0f97f5cf428082d584c1d.
Definition ellPBRepr : FQRepr := Eval vm_compute in FQRepr_const 0x12e2908d11688030018b12e8753eee3b2016c1f0f24f4070a0b9c14fcef35ef55a23215a316ceaa5d1cc48e98e172be0.
(** g2.go:830-831 *)
Definition swencSqrtNegThree : FQRepr := Eval vm_compute in FQRepr_const 1586958781458431025242759403266842894121773480562120986020912974854563298150952611241517463240701.
Definition swencSqrtNegThreeMinusOneDivTwo : FQRepr := Eval vm_compute in FQRepr_const 793479390729215512621379701633421447060886740281060493010456487427281649075476305620758731620350.
(** hash.go:333-339 *)
Definition iwsc0_repr : FQRepr := Eval vm_compute in FQRepr_const 0xd0088f51cbff34d258dd3db21a5d66bb23ba5c279c2895fb39869507b587b120f55ffff58a9ffffdcff7fffffffd556.
Definition iwsc1_repr : FQRepr := Eval vm_compute in FQRepr_const 0xd0088f51cbff34d258dd3db21a5d66bb23ba5c279c2895fb39869507b587b120f55ffff58a9ffffdcff7fffffffd555.
Definition kQiX_repr : FQRepr := Eval vm_compute in FQRepr_const 0x1a0111ea397fe699ec02408663d4de85aa0d857d89759ad4897d29650fb85f9b409427eb4f49fffd8bfd00000000aaad.
Definition kQiY_repr : FQRepr := Eval vm_compute in FQRepr_const 0x6af0e0437ff400b6831e36d6bd17ffe48395dabc2d3435e77f76e17009241c5ee67992f72ec05f4c81084fbede3cc09.
(** hash.go:116-129 xNum11 *)
Definition xNum11_repr : list FQRepr := Eval vm_compute in map FQRepr_const
  [ 0x11a05f2b1e833340b809101dd99815856b303e88a2d7005ff2627b56cdb4e2c85610c2d5f2e62d6eaeac1662734649b7;
    0x17294ed3e943ab2f0588bab22147a81c7c17e75b2f6a8417f565e33c70d1e86b4838f2a6f318c356e834eef1b3cb83bb;
    0xd54005db97678ec1d1048c5d10a9a1bce032473295983e56878e501ec68e25c958c3e3d2a09729fe0179f9dac9edcb0;
    0x1778e7166fcc6db74e0609d307e55412d7f5e4656a8dbf25f1b33289f1b330835336e25ce3107193c5b388641d9b6861;
    0xe99726a3199f4436642b4b3e4118e5499db995a1257fb3f086eeb65982fac18985a286f301e77c451154ce9ac8895d9;
    0x1630c3250d7313ff01d1201bf7a74ab5db3cb17dd952799b9ed3ab9097e68f90a0870d2dcae73d19cd13c1c66f652983;
    0xd6ed6553fe44d296a3726c38ae652bfb11586264f0f8ce19008e218f9c86b2a8da25128c1052ecaddd7f225a139ed84;
    0x17b81e7701abdbe2e8743884d1117e53356de5ab275b4db1a682c62ef0f2753339b7c8f8c8f475af9ccb5618e3f0c88e;
    0x80d3cf1f9a78fc47b90b33563be990dc43b756ce79f5574a2c596c928c5d1de4fa295f296b74e956d71986a8497e317;
    0x169b1f8e1bcfa7c42e0c37515d138f22dd2ecb803a0c5c99676314baf4bb1b7fa3190b2edc0327797f241067be390c9e;
    0x10321da079ce07e272d8ec09d2565b0dfa7dccdde6787f96d50af36003b14866f69b771f8c285decca67df3f1605fb7b;
    0x6e08c248e260e70bd1e962381edee3d31d79d7e22c837bc23c0bf1bc24c6b68c24b1b80b64d391fa9c8ba2e8ba2d229 ].
(** hash.go:131-143 xDen11 *)
Definition xDen11_repr : list FQRepr := Eval vm_compute in map FQRepr_const
  [ 0x8ca8d548cff19ae18b2e62f4bd3fa6f01d5ef4ba35b48ba9c9588617fc8ac62b558d681be343df8993cf9fa40d21b1c;
    0x12561a5deb559c4348b4711298e536367041e8ca0cf0800c0126c2588c48bf5713daa8846cb026e9e5c8276ec82b3bff;
    0xb2962fe57a3225e8137e629bff2991f6f89416f5a718cd1fca64e00b11aceacd6a3d0967c94fedcfcc239ba5cb83e19;
    0x3425581a58ae2fec83aafef7c40eb545b08243f16b1655154cca8abc28d6fd04976d5243eecf5c4130de8938dc62cd8;
    0x13a8e162022914a80a6f1d5f43e7a07dffdfc759a12062bb8d6b44e833b306da9bd29ba81f35781d539d395b3532a21e;
    0xe7355f8e4e667b955390f7f0506c6e9395735e9ce9cad4d0a43bcef24b8982f7400d24bc4228f11c02df9a29f6304a5;
    0x772caacf16936190f3e0c63e0596721570f5799af53a1894e2e073062aede9cea73b3538f0de06cec2574496ee84a3a;
    0x14a7ac2a9d64a8b230b3f5b074cf01996e7f63c21bca68a81996e1cdf9822c580fa5b9489d11e2d311f7d99bbdcc5a5e;
    0xa10ecf6ada54f825e920b3dafc7a3cce07f8d1d7161366b74100da67f39883503826692abba43704776ec3a79a1d641;
    0x95fc13ab9e92ad4476d6e3eb3a56680f682b4ee96f7d03776df533978f31c1593174e4b4b7865002d6384d168ecdd0a;
    0x1 ].
(** hash.go:145-162 yNum11 *)
Definition yNum11_repr : list FQRepr := Eval vm_compute in map FQRepr_const
  [ 0x90d97c81ba24ee0259d1f094980dcfa11ad138e48a869522b52af6c956543d3cd0c7aee9b3ba3c2be9845719707bb33;
    0x134996a104ee5811d51036d776fb46831223e96c254f383d0f906343eb67ad34d6c56711962fa8bfe097e75a2e41c696;
    0xcc786baa966e66f4a384c86a3b49942552e2d658a31ce2c344be4b91400da7d26d521628b00523b8dfe240c72de1f6;
    0x1f86376e8981c217898751ad8746757d42aa7b90eeb791c09e4a3ec03251cf9de405aba9ec61deca6355c77b0e5f4cb;
    0x8cc03fdefe0ff135caf4fe2a21529c4195536fbe3ce50b879833fd221351adc2ee7f8dc099040a841b6daecf2e8fedb;
    0x16603fca40634b6a2211e11db8f0a6a074a7d0d4afadb7bd76505c3d3ad5544e203f6326c95a807299b23ab13633a5f0;
    0x4ab0b9bcfac1bbcb2c977d027796b3ce75bb8ca2be184cb5231413c4d634f3747a87ac2460f415ec961f8855fe9d6f2;
    0x987c8d5333ab86fde9926bd2ca6c674170a05bfe3bdd81ffd038da6c26c842642f64550fedfe935a15e4ca31870fb29;
    0x9fc4018bd96684be88c9e221e4da1bb8f3abd16679dc26c1e8b6e6a1f20cabe69d65201c78607a360370e577bdba587;
    0xe1bba7a1186bdb5223abde7ada14a23c42a0ca7915af6fe06985e7ed1e4d43b9b3f7055dd4eba6f2bafaaebca731c30;
    0x19713e47937cd1be0dfd0b8f1d43fb93cd2fcbcb6caf493fd1183e416389e61031bf3a5cce3fbafce813711ad011c132;
    0x18b46a908f36f6deb918c143fed2edcc523559b8aaf0c2462e6bfe7f911f643249d9cdf41b44d606ce07c8a4d0074d8e;
    0xb182cac101b9399d155096004f53f447aa7b12a3426b08ec02710e807b4633f06c851c1919211f20d4c04f00b971ef8;
    0x245a394ad1eca9b72fc00ae7be315dc757b3b080d4c158013e6632d3c40659cc6cf90ad1c232a6442d9d3f5db980133;
    0x5c129645e44cf1102a159f748c4a3fc5e673d81d7e86568d9ab0f5d396a7ce46ba1049b6579afb7866b1e715475224b;
    0x15e6be4e990f03ce4ea50b3b42df2eb5cb181d8f84965a3957add4fa95af01b2b665027efec01c7704b456be69c8b604 ].
(** hash.go:164-181 yDen11 *)
Definition yDen11_repr : list FQRepr := Eval vm_compute in map FQRepr_const
  [ 0x16112c4c3a9c98b252181140fad0eae9601a6de578980be6eec3232b5be72e7a07f3688ef60c206d01479253b03663c1;
    0x1962d75c2381201e1a0cbd6c43c348b885c84ff731c4d59ca4a10356f453e01f78a4260763529e3532f6102c2e49a03d;
    0x58df3306640da276faaae7d6e8eb15778c4855551ae7f310c35a5dd279cd2eca6757cd636f96f891e2538b53dbf67f2;
    0x16b7d288798e5395f20d23bf89edb4d1d115c5dbddbcd30e123da489e726af41727364f2c28297ada8d26d98445f5416;
    0xbe0e079545f43e4b00cc912f8228ddcc6d19c9f0f69bbb0542eda0fc9dec916a20b15dc0fd2ededda39142311a5001d;
    0x8d9e5297186db2d9fb266eaac783182b70152c65550d881c5ecd87b6f0f5a6449f38db9dfa9cce202c6477faaf9b7ac;
    0x166007c08a99db2fc3ba8734ace9824b5eecfdfa8d0cf8ef5dd365bc400a0051d5fa9c01a58b1fb93d1a1399126a775c;
    0x16a3ef08be3ea7ea03bcddfabba6ff6ee5a4375efa1f4fd7feb34fd206357132b920f5b00801dee460ee415a15812ed9;
    0x1866c8ed336c61231a1be54fd1d74cc4f9fb0ce4c6af5920abc5750c4bf39b4852cfe2f7bb9248836b233d9d55535d4a;
    0x167a55cda70a6e1cea820597d94a84903216f763e13d87bb5308592e7ea7d4fbc7385ea3d529b35e346ef48bb8913f55;
    0x4d2f259eea405bd48f010a01ad2911d9c6dd039bb61a6290e591b36e636a5c871a5c29f4f83060400f8b49cba8f6aa8;
    0xaccbb67481d033ff5852c1e48c50c477f94ff8aefce42d28c0f9a88cea7913516f968986f7ebbea9684b529e2561092;
    0xad6b9514c767fe3c3613144b45f1496543346d98adf02267d5ceef9a00d9b8693000763e3b90ac11e99b138573345cc;
    0x2660400eb2e4f3b628bdd0d53cd76f2bf565b94e72927c1cb748df27942480e420517bd8714cc80d1fadc1326ed06f7;
    0xe0fa1d816ddc03e6b24255e0d7819c171c40f65e273b853324efcd6356caa205ca2f570f13497804415473a1d634b8f;
    0x1 ].
(** hash.go:208-225 xNum3 *)
Definition xNum3_repr : list (FQRepr * FQRepr) := Eval vm_compute in map (fun p => (FQRepr_const (fst p), FQRepr_const (snd p)))
  [ (0x5c759507e8e333ebb5b7a9a47d7ed8532c52d39fd3a042a88b58423c50ae15d5c2638e343d9c71c6238aaaaaaaa97d6, 0x5c759507e8e333ebb5b7a9a47d7ed8532c52d39fd3a042a88b58423c50ae15d5c2638e343d9c71c6238aaaaaaaa97d6);
    (0x0, 0x11560bf17baa99bc32126fced787c88f984f87adf7ae0c7f9a208c6b4f20a4181472aaa9cb8d555526a9ffffffffc71a);
    (0x11560bf17baa99bc32126fced787c88f984f87adf7ae0c7f9a208c6b4f20a4181472aaa9cb8d555526a9ffffffffc71e, 0x8ab05f8bdd54cde190937e76bc3e447cc27c3d6fbd7063fcd104635a790520c0a395554e5c6aaaa9354ffffffffe38d);
    (0x171d6541fa38ccfaed6dea691f5fb614cb14b4e7f4e810aa22d6108f142b85757098e38d0f671c7188e2aaaaaaaa5ed1, 0x0) ].
(** hash.go:227-240 xDen3 *)
Definition xDen3_repr : list (FQRepr * FQRepr) := Eval vm_compute in map (fun p => (FQRepr_const (fst p), FQRepr_const (snd p)))
  [ (0x0, 0x1a0111ea397fe69a4b1ba7b6434bacd764774b84f38512bf6730d2a0f6b0f6241eabfffeb153ffffb9feffffffffaa63);
    (0xc, 0x1a0111ea397fe69a4b1ba7b6434bacd764774b84f38512bf6730d2a0f6b0f6241eabfffeb153ffffb9feffffffffaa9f);
    (0x1, 0x0) ].
(** hash.go:242-259 yNum3 *)
Definition yNum3_repr : list (FQRepr * FQRepr) := Eval vm_compute in map (fun p => (FQRepr_const (fst p), FQRepr_const (snd p)))
  [ (0x1530477c7ab4113b59a4c18b076d11930f7da5d4a07f649bf54439d87d27e500fc8c25ebf8c92f6812cfc71c71c6d706, 0x1530477c7ab4113b59a4c18b076d11930f7da5d4a07f649bf54439d87d27e500fc8c25ebf8c92f6812cfc71c71c6d706);
    (0x0, 0x5c759507e8e333ebb5b7a9a47d7ed8532c52d39fd3a042a88b58423c50ae15d5c2638e343d9c71c6238aaaaaaaa97be);
    (0x11560bf17baa99bc32126fced787c88f984f87adf7ae0c7f9a208c6b4f20a4181472aaa9cb8d555526a9ffffffffc71c, 0x8ab05f8bdd54cde190937e76bc3e447cc27c3d6fbd7063fcd104635a790520c0a395554e5c6aaaa9354ffffffffe38f);
    (0x124c9ad43b6cf79bfbf7043de3811ad0761b0f37a1e26286b0e977c69aa274524e79097a56dc4bd9e1b371c71c718b10, 0x0) ].
(** hash.go:261-278 yDen3 *)
Definition yDen3_repr : list (FQRepr * FQRepr) := Eval vm_compute in map (fun p => (FQRepr_const (fst p), FQRepr_const (snd p)))
  [ (0x1a0111ea397fe69a4b1ba7b6434bacd764774b84f38512bf6730d2a0f6b0f6241eabfffeb153ffffb9feffffffffa8fb, 0x1a0111ea397fe69a4b1ba7b6434bacd764774b84f38512bf6730d2a0f6b0f6241eabfffeb153ffffb9feffffffffa8fb);
    (0x0, 0x1a0111ea397fe69a4b1ba7b6434bacd764774b84f38512bf6730d2a0f6b0f6241eabfffeb153ffffb9feffffffffa9d3);
    (0x12, 0x1a0111ea397fe69a4b1ba7b6434bacd764774b84f38512bf6730d2a0f6b0f6241eabfffeb153ffffb9feffffffffaa99);
    (0x1, 0x0) ].

(** q and r as integers, for tBig.Mod(tBig, QFieldModulus.ToBig()) *)
Definition q_big : Z := Eval vm_compute in FQRepr_ToBig QFieldModulus.
Definition r_big : Z := Eval vm_compute in FRRepr_ToBig RFieldModulus.

Section Hash.
Context (sha : list Z -> list Z).

(** hash.go:17-36 HashSecretKey up to the reduction: t is the concatenation for j = 1, 2 of
    H(H(b) || 0x00 || 0x01 || j) *)
Definition HashSecretKey (b : list Z) : option FR :=
  let msgHash := sha b in
  let msgPrime := msgHash ++ [0] in
  let t := sha (msgPrime ++ [1] ++ [1]) ++ sha (msgPrime ++ [1] ++ [2]) in
  let tBig := big_SetBytes t in
  let tBig := tBig mod r_big in
  FRReprToFR (FRRepr_const tBig).

Context {F : Type} (B : BOps F).
Let O1 := b_ops B.
Let O2 := FQ2O B.

(** hash.go:41-71 hp *)
Definition hp (msg : list Z) (ctr : Z) : F :=
  let msgHash := sha msg in
  let msgPrime := msgHash ++ [ctr] in
  let t := sha (msgPrime ++ [1] ++ [1]) ++ sha (msgPrime ++ [1] ++ [2]) in
  let tBig := big_SetBytes t in
  let tBig := tBig mod q_big in
  b_of B (FQRepr_const tBig).

(** hash.go:74-113 hp2 *)
Definition hp2 (msg : list Z) (ctr : Z) : FQ2 F :=
  let msgHash := sha msg in
  let msgPrime := msgHash ++ [ctr] in
  let fq i :=
    let t := sha (msgPrime ++ [i] ++ [1]) ++ sha (msgPrime ++ [i] ++ [2]) in
    let tBig := big_SetBytes t in
    let tBig := tBig mod q_big in
    b_of B (FQRepr_const tBig) in
  mkFQ2 (fq 1) (fq 2).

(** g1.go:617-618 *)
Definition ellPA : F := b_of B ellPARepr.
Definition ellPB : F := b_of B ellPBRepr.

(** g1.go:621-626 signFQ *)
Definition signFQ (f : F) : F :=
  if 0 <? o_cmp O1 f (b_of B qMinus1Over2) then negOneFQ B else o_one O1.

(** fq.go:90-93 FQ.DivAssign *)
Definition DivAssign1 (f other : F) : F := o_mul O1 f (fst (o_inv O1 other)).

Notation add := (o_add O1). Notation sub := (o_sub O1). Notation mul := (o_mul O1). Notation sq := (o_sq O1). Notation neg := (o_neg O1).

(** g1.go:628-715 optimizedSWUMapHelper; None: panic *)
Definition optimizedSWUMapHelper (t : F) : option (Affine F) :=
  let numDenCommon := sq (negOneFQ B) in
  let tSquared := sq t in
  let t2 := sq tSquared in
  let numDenCommon := mul numDenCommon t2 in
  let negOneTimesTSquared := mul (negOneFQ B) tSquared in
  let numDenCommon := add numDenCommon negOneTimesTSquared in
  let x0 :=
    if o_equals O1 numDenCommon (o_zero O1) then
      let xiA := mul (negOneFQ B) ellPA in
      DivAssign1 ellPB xiA
    else
      let ellPATimesCommon := mul ellPA numDenCommon in
      let numDenCommon := add numDenCommon (o_one O1) in
      let negEllPB := neg ellPB in
      let x0 := mul negEllPB numDenCommon in
      DivAssign1 x0 ellPATimesCommon in
  let x0Cubed := sq x0 in
  let x0Cubed := mul x0Cubed x0 in
  let ellPAX0 := mul ellPA x0 in
  let gx0 := add x0Cubed ellPAX0 in
  let gx0 := add gx0 ellPB in
  let '(sqrtGX0, found) := o_sqrt O1 gx0 in
  let xy :=
    if found : bool then Some (x0, sqrtGX0)
    else
      let x1 := mul (negOneFQ B) tSquared in
      let x1 := mul x1 x0 in
      let ellPAX1 := mul ellPA x1 in
      let gx1 := sq x1 in
      let gx1 := mul gx1 x1 in
      let gx1 := add gx1 ellPAX1 in
      let gx1 := add gx1 ellPB in
      let '(sqrtGX1, found) := o_sqrt O1 gx1 in
      if negb found then None else Some (x1, sqrtGX1) in
  match xy with
  | None => None
  | Some (x, y) =>
      let signT := signFQ t in
      let signYT := signFQ y in
      let signYT := mul signYT signT in
      let y := mul y signYT in
      Some (NewAffine x y)
  end.

(** hash.go:190-196: evaluation of one coefficient list at x (Horner, from the last coefficient) *)
Definition horner {A} (o : Ops A) (cs : list A) (x : A) : A :=
  match rev cs with
  | [] => o_zero o
  | top :: rest => fold_left (fun v k => o_add o (o_mul o v x) k) rest top
  end.

(** hash.go:185-206 iso11 *)
Definition iso11 (p : Affine F) : Affine F :=
  let x := ax p in
  let y := ay p in
  let m0 := horner O1 (map (b_of B) xNum11_repr) x in
  let m1 := horner O1 (map (b_of B) xDen11_repr) x in
  let m2 := horner O1 (map (b_of B) yNum11_repr) x in
  let m3 := horner O1 (map (b_of B) yDen11_repr) x in
  let newX := DivAssign1 m0 m1 in
  let newY := mul y m2 in
  let newY := DivAssign1 newY m3 in
  NewAffine newX newY.

(** hash.go:306-309 ClearH *)
Definition ClearH (p : Affine F) : Affine F :=
  let xP := Affine_Mul O1 p (NewFQRepr 0xd201000000010000) in
  G1_ToAffine O1 (AddAffine O1 xP p).

(** hash.go:311-321 optimizedSWUMap; t2 is nil when absent *)
Definition optimizedSWUMap (t1 : F) (t2 : option F) : option (Affine F) :=
  match optimizedSWUMapHelper t1 with
  | None => None
  | Some Pp =>
      let Pp :=
        match t2 with
        | None => Some Pp
        | Some t2 =>
            match optimizedSWUMapHelper t2 with
            | None => None
            | Some Pp2 => Some (G1_ToAffine O1 (AddAffine O1 (Affine_ToProjective O1 Pp) Pp2))
            end
        end in
      match Pp with
      | None => None
      | Some Pp => Some (ClearH (iso11 Pp))
      end
  end.

(** hash.go:323 cipherSuite, 326-331 HashG1 *)
Definition cipherSuite : Z := 1.
Definition HashG1 (msg : list Z) : option (Affine F) :=
  let cipherSuiteAndMessage := cipherSuite :: msg in
  let t1 := hp cipherSuiteAndMessage 0 in
  let t2 := hp cipherSuiteAndMessage 1 in
  optimizedSWUMap t1 (Some t2).

(** ** G2 *)
Notation add2 := (FQ2_AddAssign B). Notation sub2 := (FQ2_SubAssign B). Notation mul2 := (FQ2_MulAssign B). Notation sq2 := (FQ2_SquareAssign B).
Notation neg2 := (FQ2_NegAssign B).

(** g2.go:883-891 *)
Definition ell2pA : FQ2 F := mkFQ2 (b_of B (NewFQRepr 0)) (b_of B (NewFQRepr 240)).
Definition ell2pB : FQ2 F := mkFQ2 (b_of B (NewFQRepr 1012)) (b_of B (NewFQRepr 1012)).

(** g2.go:916-931 signFQ2 *)
Definition signFQ2 (f : FQ2 F) : Z :=
  let thresh := b_of B qMinus1Over2 in
  if 0 <? o_cmp O1 (c1 f) thresh then -1
  else if 0 <? o_cmp O1 (c1 f) (o_zero O1) then 1
  else if 0 <? o_cmp O1 (c0 f) thresh then -1
  else if 0 <? o_cmp O1 (c0 f) (o_zero O1) then 1
  else 1.

(** g2.go:933-1031 OptimizedSWU2MapHelper: None = panic, Some None = nil *)
Definition OptimizedSWU2MapHelper (t : FQ2 F) : option (option (Affine (FQ2 F))) :=
  let nqr := fq2nqr B in
  let numDenCommon := sq2 nqr in
  let tSquared := sq2 t in
  let t4 := sq2 tSquared in
  let numDenCommon := mul2 numDenCommon t4 in
  let negOneTimesTSquared := mul2 nqr tSquared in
  let numDenCommon := add2 numDenCommon negOneTimesTSquared in
  let x0 :=
    if FQ2_Equals B numDenCommon (FQ2Zero B) then
      let xiA := mul2 nqr ell2pA in
      FQ2_DivAssign B ell2pB xiA
    else
      let ell2paTimesCommon := mul2 ell2pA numDenCommon in
      let negEll2pb := neg2 ell2pB in
      let numDenCommon := add2 numDenCommon (FQ2One B) in
      let negEll2pb := mul2 negEll2pb numDenCommon in
      FQ2_DivAssign B negEll2pb ell2paTimesCommon in
  let x0Cubed := sq2 x0 in
  let x0Cubed := mul2 x0Cubed x0 in
  let ellPAX0 := mul2 ell2pA x0 in
  let gx0 := add2 x0Cubed ellPAX0 in
  let gx0 := add2 gx0 ell2pB in
  let '(sqrtGX0, found) := FQ2_Sqrt B gx0 in
  if found && FQ2_Equals B (sq2 sqrtGX0) gx0 then
    let signT := signFQ2 t in
    let signYT := signFQ2 sqrtGX0 in
    let sqrtGX0 := if negb (signT =? signYT) then neg2 sqrtGX0 else sqrtGX0 in
    Some (Some (NewAffine x0 sqrtGX0))
  else
    let tCubed := mul2 tSquared t in
    let t6 := sq2 tCubed in
    let x1 := mul2 nqr tSquared in
    let x1 := mul2 x1 x0 in
    let gx1 := sq2 nqr in
    let gx1 := mul2 gx1 nqr in
    let gx1 := mul2 gx1 t6 in
    let gx1 := mul2 gx1 gx0 in
    let '(y1, found) := FQ2_Sqrt B gx1 in
    if negb found then None
    else
      let y12 := sq2 y1 in
      if FQ2_Equals B y12 gx1 then
        let signT := signFQ2 t in
        let signYT := signFQ2 y1 in
        let y1 := if negb (signT =? signYT) then neg2 y1 else y1 in
        Some (Some (NewAffine x1 y1))
      else Some None.

Definition of_pair (p : FQRepr * FQRepr) : FQ2 F := mkFQ2 (b_of B (fst p)) (b_of B (snd p)).

(** hash.go:282-303 iso3 *)
Definition iso3 (p : Affine (FQ2 F)) : Affine (FQ2 F) :=
  let x := ax p in
  let y := ay p in
  let m0 := horner O2 (map of_pair xNum3_repr) x in
  let m1 := horner O2 (map of_pair xDen3_repr) x in
  let m2 := horner O2 (map of_pair yNum3_repr) x in
  let m3 := horner O2 (map of_pair yDen3_repr) x in
  let newX := FQ2_DivAssign B m0 m1 in
  let newY := mul2 y m2 in
  let newY := FQ2_DivAssign B newY m3 in
  NewAffine newX newY.

(** hash.go:333-339 *)
Definition iwsc : FQ2 F := mkFQ2 (b_of B iwsc0_repr) (b_of B iwsc1_repr).
Definition kQiX : F := b_of B kQiX_repr.
Definition kQiY : F := b_of B kQiY_repr.

(** hash.go:341-366 psi *)
Definition psi (g : Affine (FQ2 F)) : Affine (FQ2 F) :=
  let qiX := mul2 iwsc (ax g) in
  let qiX := mkFQ2 (mul (c0 qiX) kQiX) (mul (c1 qiX) kQiX) in
  let qiX := mkFQ2 (c0 qiX) (neg (c1 qiX)) in
  let newX := mul2 (fq2nqr B) qiX in
  let qiY := mul2 iwsc (ay g) in
  let y0y1 := add (c0 qiY) (c1 qiY) in
  let y0y1 := mul y0y1 kQiY in
  let y0SubY1 := sub (c0 qiY) (c1 qiY) in
  let y0SubY1 := mul y0SubY1 kQiY in
  let qiY := mkFQ2 y0y1 y0SubY1 in
  let newY := mul2 (fq2nqr B) qiY in
  NewAffine newX newY.

(** hash.go:368-389 clearH2 *)
Definition clearH2 (p : Affine (FQ2 F)) : Affine (FQ2 F) :=
  let work := Affine_Mul O2 p (NewFQRepr 0xd201000000010000) in
  let work := AddAffine O2 work p in
  let minusPsiP := psi p in
  let minusPsiP := Affine_NegAssign O2 minusPsiP in
  let work := AddAffine O2 work minusPsiP in
  let work := Proj_Mul O2 work (NewFQRepr 0xd201000000010000) in
  let work := AddAffine O2 work minusPsiP in
  let negP := Affine_NegAssign O2 p in
  let work := AddAffine O2 work negP in
  let p2 := G2_ToAffine O2 (Double O2 (Affine_ToProjective O2 p)) in
  let psiPsi2P := psi (psi p2) in
  let work := AddAffine O2 work psiPsi2P in
  G2_ToAffine O2 work.

(** hash.go:391-403 optimizedSWUMap2; None: panic (a nil point panics in ToProjective, AddAffine or iso3) *)
Definition optimizedSWUMap2 (t1 : FQ2 F) (t2 : option (FQ2 F)) : option (Affine (FQ2 F)) :=
  match OptimizedSWU2MapHelper t1 with
  | None => None
  | Some Pp =>
      match t2 with
      | None => match Pp with None => None | Some Pp => Some (clearH2 (iso3 Pp)) end
      | Some t2 =>
          match OptimizedSWU2MapHelper t2 with
          | None => None
          | Some Pp2 =>
              match Pp, Pp2 with
              | Some Pp, Some Pp2 =>
                  let Pp := G2_ToAffine O2 (AddAffine O2 (Affine_ToProjective O2 Pp) Pp2) in
                  Some (clearH2 (iso3 Pp))
              | _, _ => None
              end
          end
      end
  end.

(** hash.go:405-411 HashG2 *)
Definition HashG2 (msg : list Z) : option (Affine (FQ2 F)) :=
  let cipherSuiteAndMessage := cipherSuite :: msg in
  let t1 := hp2 cipherSuiteAndMessage 0 in
  let t2 := hp2 cipherSuiteAndMessage 1 in
  optimizedSWUMap2 t1 (Some t2).

(** g2.go:836-881 SWEncodeG2. The last GetG2PointFromX may fail; the result is then nil (None). *)
Definition SWEncodeG2 (t : FQ2 F) : option (Affine (FQ2 F)) :=
  if FQ2_IsZero B t then Some (AffineZero O2)
  else
    let parity := FQ2_Parity B t in
    let w := sq2 t in
    let w := add2 w (BCoeffFQ2 B) in
    let w := add2 w (FQ2One B) in
    if FQ2_IsZero B w then
      let ret := G2AffineOne B in
      Some (if parity then Affine_NegAssign O2 ret else ret)
    else
      let w := fst (FQ2_InverseAssign B w) in
      let w := mul2 w (mkFQ2 (b_of B swencSqrtNegThree) (o_zero O1)) in
      let w := mul2 w t in
      let x1 := mul2 w t in
      let x1 := neg2 x1 in
      let x1 := add2 x1 (mkFQ2 (b_of B swencSqrtNegThreeMinusOneDivTwo) (o_zero O1)) in
      match GetG2PointFromX B x1 parity with
      | Some p => Some p
      | None =>
          let x2 := neg2 x1 in
          let x2 := sub2 x2 (FQ2One B) in
          match GetG2PointFromX B x2 parity with
          | Some p => Some p
          | None =>
              let x3 := sq2 w in
              let x3 := fst (FQ2_InverseAssign B x3) in
              let x3 := add2 x3 (FQ2One B) in
              GetG2PointFromX B x3 parity
          end
      end.

(** g2.go:1067-1088: the try-and-increment loop with an iteration budget; None: out of budget *)
Fixpoint HashG2WithDomain_loop (fuel : nat) (x0 : FQ2 F) : option (Proj (FQ2 F)) :=
  match fuel with
  | O => None
  | S k =>
      let gx0 := sq2 x0 in
      let gx0 := mul2 gx0 x0 in
      let gx0 := add2 gx0 (BCoeffFQ2 B) in
      let '(y0, found) := FQ2_Sqrt B gx0 in
      if found : bool then
        let y0 := if negb (FQ2_Parity B y0) then neg2 y0 else y0 in
        Some (G2_ScaleByCofactor B (NewAffine x0 y0))
      else HashG2WithDomain_loop k (add2 x0 (FQ2One B))
  end.
(** g2.go:1041-1089 HashG2WithDomain *)
Definition HashG2WithDomain_start (messageHash domain : list Z) : FQ2 F :=
  let xReBytes := messageHash ++ domain ++ [1] in
  let xImBytes := messageHash ++ domain ++ [2] in
  let xRe := big_SetBytes (sha xReBytes) in
  let xIm := big_SetBytes (sha xImBytes) in
  mkFQ2 (b_of B (FQRepr_const xRe)) (b_of B (FQRepr_const xIm)).
Definition HashG2WithDomain_fuel (fuel : nat) (messageHash domain : list Z) : option (Proj (FQ2 F)) :=
  HashG2WithDomain_loop fuel (HashG2WithDomain_start messageHash domain).
End Hash.
