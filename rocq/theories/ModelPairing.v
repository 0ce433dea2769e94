(** Model of the preparation of G2 points (g2.go:634-801) and of pairing.go. *)
Require Import ZArith Bool List.
From Verif Require Import Words ModelRepr ModelFq ModelOps ModelTower ModelCurve.
Import ListNotations.
Open Scope Z_scope.

(** g2.go:634 blsX, 636 blsIsNegative *)
Definition blsX : FQRepr := Eval vm_compute in FQRepr_const 0xd201000000010000.
Definition blsIsNegative : bool := true.

(** g2.go:639-642 G2Prepared *)
Record G2Prepared (F : Type) := mkPrep { coeffs : list (FQ2 F * FQ2 F * FQ2 F); pinf : bool }.
Arguments mkPrep {F}. Arguments coeffs {F}. Arguments pinf {F}.

Section Pairing.
Context {F : Type} (B : BOps F).
Let O1 := b_ops B.
Let O2 := FQ2O B.
Notation add := (FQ2_AddAssign B). Notation sub := (FQ2_SubAssign B). Notation mul := (FQ2_MulAssign B).
Notation sq := (FQ2_SquareAssign B). Notation dbl := (FQ2_DoubleAssign B). Notation neg := (FQ2_NegAssign B).

(** g2.go:655-701 doublingStep: the coefficients and the new r *)
Definition doublingStep (r : Proj (FQ2 F)) : (FQ2 F * FQ2 F * FQ2 F) * Proj (FQ2 F) :=
  let tmp0 := sq (px r) in
  let tmp1 := sq (py r) in
  let tmp2 := sq tmp1 in
  let tmp3 := add tmp1 (px r) in
  let tmp3 := sq tmp3 in
  let tmp3 := sub tmp3 tmp0 in
  let tmp3 := sub tmp3 tmp2 in
  let tmp3 := dbl tmp3 in
  let tmp4 := dbl tmp0 in
  let tmp4 := add tmp4 tmp0 in
  let tmp6 := add (px r) tmp4 in
  let tmp5 := sq tmp4 in
  let zSquared := sq (pz r) in
  let rx := sub tmp5 tmp3 in
  let rx := sub rx tmp3 in
  let rz := add (pz r) (py r) in
  let rz := sq rz in
  let rz := sub rz tmp1 in
  let rz := sub rz zSquared in
  let ry := sub tmp3 rx in
  let ry := mul ry tmp4 in
  let tmp2 := dbl tmp2 in
  let tmp2 := dbl tmp2 in
  let tmp2 := dbl tmp2 in
  let ry := sub ry tmp2 in
  let tmp3 := mul tmp4 zSquared in
  let tmp3 := dbl tmp3 in
  let tmp3 := neg tmp3 in
  let tmp6 := sq tmp6 in
  let tmp6 := sub tmp6 tmp0 in
  let tmp6 := sub tmp6 tmp5 in
  let tmp1 := dbl tmp1 in
  let tmp1 := dbl tmp1 in
  let tmp6 := sub tmp6 tmp1 in
  let tmp0 := mul rz zSquared in
  let tmp0 := dbl tmp0 in
  ((tmp0, tmp3, tmp6), mkProj rx ry rz).

(** g2.go:703-763 additionStep *)
Definition additionStep (r : Proj (FQ2 F)) (q : Affine (FQ2 F)) : (FQ2 F * FQ2 F * FQ2 F) * Proj (FQ2 F) :=
  let zSquared := sq (pz r) in
  let ySquared := sq (ay q) in
  let t0 := mul zSquared (ax q) in
  let t1 := add (ay q) (pz r) in
  let t1 := sq t1 in
  let t1 := sub t1 ySquared in
  let t1 := sub t1 zSquared in
  let t1 := mul t1 zSquared in
  let t2 := sub t0 (px r) in
  let t3 := sq t2 in
  let t4 := dbl t3 in
  let t4 := dbl t4 in
  let t5 := mul t4 t2 in
  let t6 := sub t1 (py r) in
  let t6 := sub t6 (py r) in
  let t9 := mul t6 (ax q) in
  let t7 := mul t4 (px r) in
  let rx := sq t6 in
  let rx := sub rx t5 in
  let rx := sub rx t7 in
  let rx := sub rx t7 in
  let rz := add (pz r) t2 in
  let rz := sq rz in
  let rz := sub rz zSquared in
  let rz := sub rz t3 in
  let t10 := add (ay q) rz in
  let t8 := sub t7 rx in
  let t8 := mul t8 t6 in
  let t0 := mul (py r) t5 in
  let t0 := dbl t0 in
  let ry := sub t8 t0 in
  let t10 := sq t10 in
  let t10 := sub t10 ySquared in
  let zSquared := sq rz in
  let t10 := sub t10 zSquared in
  let t9 := dbl t9 in
  let t9 := sub t9 t10 in
  let t10 := dbl rz in
  let t6 := neg t6 in
  let t6 := dbl t6 in
  ((t10, t6, t9), mkProj rx ry rz).

Definition blsXRsh1 : FQRepr := FQRepr_Rsh blsX 1.

(** The loop header shared by g2.go:771-776 and pairing.go:46-51:
    for i := 0; i <= BitLen; i++ { set := Bit(BitLen-i); if !foundOne { foundOne = set; continue }; body(set) }.
    Bit(BitLen) is in range: blsX>>1 has 63 bits. *)
Definition blsX_loop {S : Type} (body : bool -> S -> S) (s : S) : S :=
  snd (fold_left (fun st i =>
      let '(foundOne, s) := st : bool * S in
      let set := match FQRepr_Bit blsXRsh1 (FQRepr_BitLen blsXRsh1 - Z.of_nat i) with Some true => true | _ => false end in
      if negb foundOne then (set, s) else (foundOne, body set s))
    (seq 0 (Datatypes.S (Z.to_nat (FQRepr_BitLen blsXRsh1)))) (false, s)).

(** g2.go:650-801 G2AffineToPrepared; the coefficients are collected in order *)
Definition G2AffineToPrepared (q : Affine (FQ2 F)) : G2Prepared F :=
  if Affine_IsZero q then mkPrep [] true
  else
    let r := Affine_ToProjective O2 q in
    let '(r, cs) := blsX_loop (fun set st =>
        let '(r, cs) := st : Proj (FQ2 F) * list (FQ2 F * FQ2 F * FQ2 F) in
        let '(o, r) := doublingStep r in
        let cs := cs ++ [o] in
        if set then
          let '(o, r) := additionStep r q in
          (r, cs ++ [o])
        else (r, cs)) (r, []) in
    let '(o, r) := doublingStep r in
    mkPrep (cs ++ [o]) false.

(** pairing.go:9-13 pairingItem. The p of a skipped item is nil in Go; its q is then empty, so that
    reading pair.q[0] panics before p is used: the model keeps some p there. *)
Record pairingItem := mkPI { pi_p : Affine F; pi_q : list (FQ2 F * FQ2 F * FQ2 F); pi_i : nat }.

(** pairing.go:28-39 ell *)
Definition ell (f : FQ12 F) (cs : FQ2 F * FQ2 F * FQ2 F) (p : Affine F) : FQ12 F :=
  let '(k0, k1, k2) := cs in
  let k0 := mkFQ2 (o_mul O1 (c0 k0) (ay p)) (o_mul O1 (c1 k0) (ay p)) in
  let k1 := mkFQ2 (o_mul O1 (c0 k1) (ax p)) (o_mul O1 (c1 k1) (ax p)) in
  FQ12_MulBy014Assign B f k2 k1 k0.

(** pairing.go:53-56, 58-61, 66-69: `for i, pair := range pairs { ell(f, pair.q[pair.qIndex], pair.p); pairs[i].qIndex++ }`;
    None is the index-out-of-range panic *)
Fixpoint ell_all (f : FQ12 F) (pairs : list pairingItem) : option (FQ12 F * list pairingItem) :=
  match pairs with
  | [] => Some (f, [])
  | pr :: rest =>
      match nth_error (pi_q pr) (pi_i pr) with
      | None => None
      | Some cs =>
          let f := ell f cs (pi_p pr) in
          match ell_all f rest with
          | None => None
          | Some (f, rest) => Some (f, mkPI (pi_p pr) (pi_q pr) (S (pi_i pr)) :: rest)
          end
      end
  end.

(** pairing.go:16-75 MillerLoop; None: panic *)
Definition MillerLoop (items : list (Affine F * G2Prepared F)) : option (FQ12 F) :=
  let pairs := map (fun item : Affine F * G2Prepared F =>
      let '(P, Q) := item in
      if negb (Affine_IsZero P) && negb (pinf Q) then mkPI P (coeffs Q) 0 else mkPI (AffineZero O1) [] 0) items in
  let st := blsX_loop (fun set st =>
      match st with
      | None => None
      | Some (f, pairs) =>
          match ell_all f pairs with
          | None => None
          | Some (f, pairs) =>
              match (if set : bool then ell_all f pairs else Some (f, pairs)) with
              | None => None
              | Some (f, pairs) => Some (FQ12_SquareAssign B f, pairs)
              end
          end
      end) (Some (FQ12One B, pairs)) in
  match st with
  | None => None
  | Some (f, pairs) =>
      match ell_all f pairs with
      | None => None
      | Some (f, pairs) => Some (if blsIsNegative then FQ12_ConjugateAssign B f else f)
      end
  end.

(** pairing.go:94-100 ExpByX *)
Definition ExpByX (f : FQ12 F) (x : FQRepr) : FQ12 F :=
  let newf := FQ12_Exp B f x in
  if blsIsNegative then FQ12_ConjugateAssign B newf else newf.

(** pairing.go:79-129 FinalExponentiation; nil is None *)
Definition FinalExponentiation (r : FQ12 F) : option (FQ12 F) :=
  let f1 := FQ12_ConjugateAssign B r in
  let '(f2, success) := FQ12_InverseAssign B r in
  if negb success then None
  else
    let r := FQ12_MulAssign B f1 f2 in
    let f2 := r in
    let r := FQ12_FrobeniusMapAssign B r 2 in
    let r := FQ12_MulAssign B r f2 in
    let x := blsX in
    let y0 := FQ12_SquareAssign B r in
    let y1 := ExpByX y0 x in
    let x := FQRepr_Rsh x 1 in
    let y2 := ExpByX y1 x in
    let x := FQRepr_Lsh x 1 in
    let y3 := FQ12_ConjugateAssign B r in
    let y1 := FQ12_MulAssign B y1 y3 in
    let y1 := FQ12_ConjugateAssign B y1 in
    let y1 := FQ12_MulAssign B y1 y2 in
    let y2 := ExpByX y1 x in
    let y3 := ExpByX y2 x in
    let y1 := FQ12_ConjugateAssign B y1 in
    let y3 := FQ12_MulAssign B y3 y1 in
    let y1 := FQ12_ConjugateAssign B y1 in
    let y1 := FQ12_FrobeniusMapAssign B y1 3 in
    let y2 := FQ12_FrobeniusMapAssign B y2 2 in
    let y1 := FQ12_MulAssign B y1 y2 in
    let y2 := ExpByX y3 x in
    let y2 := FQ12_MulAssign B y2 y0 in
    let y2 := FQ12_MulAssign B y2 r in
    let y1 := FQ12_MulAssign B y1 y2 in
    let y3 := FQ12_FrobeniusMapAssign B y3 1 in
    let y1 := FQ12_MulAssign B y1 y3 in
    Some y1.

(** pairing.go:132-136 Pairing. None: MillerLoop panics or the result is nil. *)
Definition Pairing (p : Proj F) (q : Proj (FQ2 F)) : option (FQ12 F) :=
  match MillerLoop [(G1_ToAffine O1 p, G2AffineToPrepared (G2_ToAffine O2 q))] with
  | None => None
  | Some f => FinalExponentiation f
  end.

(** pairing.go:140-147 CompareTwoPairings. None: panic (in MillerLoop, or Equals on a nil result). *)
Definition CompareTwoPairings (P1 : Proj F) (Q1 : Proj (FQ2 F)) (P2 : Proj F) (Q2 : Proj (FQ2 F)) : option bool :=
  let negP2 := Proj_NegAssign O1 P2 in
  match MillerLoop [(G1_ToAffine O1 P1, G2AffineToPrepared (G2_ToAffine O2 Q1));
                    (G1_ToAffine O1 negP2, G2AffineToPrepared (G2_ToAffine O2 Q2))] with
  | None => None
  | Some f =>
      match FinalExponentiation f with
      | None => None
      | Some e => Some (FQ12_Equals B e (FQ12One B))
      end
  end.
End Pairing.
Arguments mkPI {F}. Arguments pi_p {F}. Arguments pi_q {F}. Arguments pi_i {F}.
