(** Value-level model of fr.go. FR holds a pointer to an FRRepr in Go; this file models the
    values, ModelFrHeap.v models the pointers. *)
Require Import String Ascii ZArith Bool List.
From Verif Require Import Words ModelRepr ModelFq.
Import ListNotations.
Open Scope Z_scope.

(** fr.go:11-13 FR (value of *n) *)
Record FR := mkFR { fr_n : FRRepr }.

(** fr.go:16 RFieldModulus, 35 FRR, 38 FRR2 *)
Definition RFieldModulus : FRRepr := Eval vm_compute in
  FRRepr_const 52435875175126190479447740508185965837690552500527637822603658699938581184513.
Definition FRR : FRRepr := Eval vm_compute in
  FRRepr_const 10920338887063814464675503992315976177888879664585288394250266608035967270910.
Definition FRR2 : FRRepr := Eval vm_compute in
  FRRepr_const 3294906474794265442129797520630710739278575682199800681788903916070560242797.

(** fr.go:57 *)
Definition montInvFR : Z := 0xfffffffeffffffff.

(** fr.go:19-21 IsValid *)
Definition FR_IsValid (f : FR) : bool := FRRepr_Cmp (fr_n f) RFieldModulus <? 0.

(** fr.go:23-27 reduceAssign *)
Definition FR_reduceAssign (f : FR) : FR :=
  if negb (FR_IsValid f) then mkFR (FRRepr_SubNoBorrow (fr_n f) RFieldModulus) else f.

(** fr.go:59-92 montReduce, line by line *)
Definition FR_montReduce (r0 r1 r2 r3 r4 r5 r6 r7 : Z) : FR :=
  let '(mkFRRepr m0 m1 m2 m3) := RFieldModulus in
  let k := wmul r0 montInvFR in
  let '(_, carry) := MACWithCarry r0 k m0 0 in
  let '(r1, carry) := MACWithCarry r1 k m1 carry in
  let '(r2, carry) := MACWithCarry r2 k m2 carry in
  let '(r3, carry) := MACWithCarry r3 k m3 carry in
  let '(r4, carry) := AddWithCarry r4 0 carry in
  let carry2 := carry in
  let k := wmul r1 montInvFR in
  let '(_, carry) := MACWithCarry r1 k m0 0 in
  let '(r2, carry) := MACWithCarry r2 k m1 carry in
  let '(r3, carry) := MACWithCarry r3 k m2 carry in
  let '(r4, carry) := MACWithCarry r4 k m3 carry in
  let '(r5, carry) := AddWithCarry r5 carry2 carry in
  let carry2 := carry in
  let k := wmul r2 montInvFR in
  let '(_, carry) := MACWithCarry r2 k m0 0 in
  let '(r3, carry) := MACWithCarry r3 k m1 carry in
  let '(r4, carry) := MACWithCarry r4 k m2 carry in
  let '(r5, carry) := MACWithCarry r5 k m3 carry in
  let '(r6, carry) := AddWithCarry r6 carry2 carry in
  let carry2 := carry in
  let k := wmul r3 montInvFR in
  let '(_, carry) := MACWithCarry r3 k m0 0 in
  let '(r4, carry) := MACWithCarry r4 k m1 carry in
  let '(r5, carry) := MACWithCarry r5 k m2 carry in
  let '(r6, carry) := MACWithCarry r6 k m3 carry in
  let '(r7, _) := AddWithCarry r7 carry2 carry in
  FR_reduceAssign (mkFR (mkFRRepr r4 r5 r6 r7)).

(** fr.go:95-117 MulAssign, line by line *)
Definition FR_MulAssign (f other : FR) : FR :=
  let '(mkFRRepr a0 a1 a2 a3) := fr_n f in
  let '(mkFRRepr b0 b1 b2 b3) := fr_n other in
  let '(r0, carry) := MACWithCarry 0 a0 b0 0 in
  let '(r1, carry) := MACWithCarry 0 a0 b1 carry in
  let '(r2, carry) := MACWithCarry 0 a0 b2 carry in
  let '(r3, carry) := MACWithCarry 0 a0 b3 carry in
  let r4 := carry in
  let '(r1, carry) := MACWithCarry r1 a1 b0 0 in
  let '(r2, carry) := MACWithCarry r2 a1 b1 carry in
  let '(r3, carry) := MACWithCarry r3 a1 b2 carry in
  let '(r4, carry) := MACWithCarry r4 a1 b3 carry in
  let r5 := carry in
  let '(r2, carry) := MACWithCarry r2 a2 b0 0 in
  let '(r3, carry) := MACWithCarry r3 a2 b1 carry in
  let '(r4, carry) := MACWithCarry r4 a2 b2 carry in
  let '(r5, carry) := MACWithCarry r5 a2 b3 carry in
  let r6 := carry in
  let '(r3, carry) := MACWithCarry r3 a3 b0 0 in
  let '(r4, carry) := MACWithCarry r4 a3 b1 carry in
  let '(r5, carry) := MACWithCarry r5 a3 b2 carry in
  let '(r6, carry) := MACWithCarry r6 a3 b3 carry in
  let r7 := carry in
  FR_montReduce r0 r1 r2 r3 r4 r5 r6 r7.

(** fr.go:42-49 FRReprToFR: nil is None. (The mutation of the argument is modelled in ModelFrHeap.v.) *)
Definition FRReprToFR (o : FRRepr) : option FR :=
  if FR_IsValid (mkFR o) then Some (FR_MulAssign (mkFR o) (mkFR FRR2)) else None.

(** fr.go:52-55 AddAssign *)
Definition FR_AddAssign (f other : FR) : FR :=
  FR_reduceAssign (mkFR (FRRepr_AddNoCarry (fr_n f) (fr_n other))).

(** fr.go:120-125 SubAssign *)
Definition FR_SubAssign (f other : FR) : FR :=
  let n := if 0 <? FRRepr_Cmp (fr_n other) (fr_n f) then FRRepr_AddNoCarry (fr_n f) RFieldModulus else fr_n f in
  mkFR (FRRepr_SubNoBorrow n (fr_n other)).

(** fr.go:127-130 (the literals; at run time the initialisation of bigOneFR overwrites *frOne, see ModelFrHeap.v) *)
Definition frOne : FRRepr := NewFRRepr 1.
Definition frZero : FRRepr := NewFRRepr 0.
Definition bigOneFR : FR := Eval vm_compute in match FRReprToFR frOne with Some f => f | None => mkFR frZero end.
Definition bigZeroFR : FR := Eval vm_compute in match FRReprToFR frZero with Some f => f | None => mkFR frZero end.

(** fr.go:177-179 IsZero *)
Definition FR_IsZero (f : FR) : bool := FRRepr_Cmp (fr_n f) frZero =? 0.
(** fr.go:148-150 Equals *)
Definition FR_Equals (f other : FR) : bool := FRRepr_Equals (fr_n f) (fr_n other).
(** fr.go:153-159 NegAssign *)
Definition FR_NegAssign (f : FR) : FR :=
  if negb (FR_IsZero f) then mkFR (FRRepr_SubNoBorrow RFieldModulus (fr_n f)) else f.
(** fr.go:171-174 DoubleAssign *)
Definition FR_DoubleAssign (f : FR) : FR := FR_reduceAssign (mkFR (FRRepr_Mul2 (fr_n f))).

(** fr.go:182-210 SquareAssign, line by line *)
Definition FR_SquareAssign (f : FR) : FR :=
  let '(mkFRRepr n0 n1 n2 n3) := fr_n f in
  let '(r1, carry) := MACWithCarry 0 n0 n1 0 in
  let '(r2, carry) := MACWithCarry 0 n0 n2 carry in
  let '(r3, carry) := MACWithCarry 0 n0 n3 carry in
  let r4 := carry in
  let '(r3, carry) := MACWithCarry r3 n1 n2 0 in
  let '(r4, carry) := MACWithCarry r4 n1 n3 carry in
  let r5 := carry in
  let '(r5, carry) := MACWithCarry r5 n2 n3 0 in
  let r6 := carry in
  let r7 := wshr r6 63 in
  let r6 := wor (wshl r6 1) (wshr r5 63) in
  let r5 := wor (wshl r5 1) (wshr r4 63) in
  let r4 := wor (wshl r4 1) (wshr r3 63) in
  let r3 := wor (wshl r3 1) (wshr r2 63) in
  let r2 := wor (wshl r2 1) (wshr r1 63) in
  let r1 := wshl r1 1 in
  let '(r0, carry) := MACWithCarry 0 n0 n0 0 in
  let '(r1, carry) := AddWithCarry r1 0 carry in
  let '(r2, carry) := MACWithCarry r2 n1 n1 carry in
  let '(r3, carry) := AddWithCarry r3 0 carry in
  let '(r4, carry) := MACWithCarry r4 n2 n2 carry in
  let '(r5, carry) := AddWithCarry r5 0 carry in
  let '(r6, carry) := MACWithCarry r6 n3 n3 carry in
  let '(r7, carry) := AddWithCarry r7 0 carry in
  FR_montReduce r0 r1 r2 r3 r4 r5 r6 r7.

(** fr.go:316-329 ToRepr *)
Definition FR_ToRepr (f : FR) : FRRepr :=
  let '(mkFRRepr n0 n1 n2 n3) := fr_n f in fr_n (FR_montReduce n0 n1 n2 n3 0 0 0 0).

(** fr.go:332-334 Bytes *)
Definition FR_Bytes (f : FR) : list Z := FRRepr_Bytes (FR_ToRepr f).

(** fr.go:166-168 Cmp *)
Definition FR_Cmp (f other : FR) : Z := FRRepr_Cmp (FR_ToRepr f) (FR_ToRepr other).

(** fr.go:133-146 Exp: `for nCopy != 0 { if odd { fNew *= fi }; fi^2; nCopy >>= 1 }`;
    the one used is whatever the package variable bigOneFR currently holds. At most 256 iterations
    are possible because nCopy is shifted right each time. *)
Fixpoint FR_Exp_loop (fuel : nat) (nCopy : FRRepr) (fi fNew : FR) : FR :=
  match fuel with
  | O => fNew
  | S k =>
      if FRRepr_Cmp nCopy frZero =? 0 then fNew
      else
        let fNew := if FRRepr_IsOdd nCopy then FR_MulAssign fNew fi else fNew in
        FR_Exp_loop k (FRRepr_Rsh nCopy 1) (FR_SquareAssign fi) fNew
  end.
Definition FR_Exp_with (one : FR) (f : FR) (n : FRRepr) : FR := FR_Exp_loop 257 n f one.
Definition FR_Exp (f : FR) (n : FRRepr) : FR := FR_Exp_with bigOneFR f n.

(** fr.go:227 the local `one` *)
Definition fr_one : FRRepr := mkFRRepr 1 0 0 0.

(** fr.go:229-237, 239-247 *)
Fixpoint FR_inv_halve (fuel : nat) (u : FRRepr) (b : FR) : option (FRRepr * FR) :=
  if FRRepr_IsEven u then
    match fuel with
    | O => None
    | S k => FR_inv_halve k (FRRepr_Div2 u)
               (if FRRepr_IsEven (fr_n b) then mkFR (FRRepr_Div2 (fr_n b))
                else mkFR (FRRepr_Div2 (FRRepr_AddNoCarry (fr_n b) RFieldModulus)))
    end
  else Some (u, b).

(** fr.go:228-256 *)
Fixpoint FR_inv_loop (fuel0 fuel : nat) (u : FRRepr) (b : FR) (v : FRRepr) (c : FR) : option (FRRepr * FR * FR) :=
  if negb (FRRepr_Cmp u fr_one =? 0) && negb (FRRepr_Cmp v fr_one =? 0) then
    match fuel with
    | O => None
    | S k =>
        match FR_inv_halve fuel0 u b with
        | None => None
        | Some (u, b) =>
            match FR_inv_halve fuel0 v c with
            | None => None
            | Some (v, c) =>
                if 0 <=? FRRepr_Cmp u v
                then FR_inv_loop fuel0 k (FRRepr_SubNoBorrow u v) (FR_SubAssign b c) v c
                else FR_inv_loop fuel0 k u b (FRRepr_SubNoBorrow v u) (FR_SubAssign c b)
            end
        end
    end
  else Some (u, b, c).

(** fr.go:219-262 Inverse with budget: None = out of budget, Some None = nil *)
Definition FR_Inverse_fuel (fuel : nat) (f : FR) : option (option FR) :=
  if FR_IsZero f then Some None
  else
    let u := fr_n f in
    let v := RFieldModulus in
    let b := mkFR FRR2 in
    let c := bigZeroFR in
    match FR_inv_loop fuel fuel u b v c with
    | None => None
    | Some (u, b, c) => if FRRepr_Equals u fr_one then Some (Some b) else Some (Some c)
    end.
Definition FR_Inverse (f : FR) : option FR :=
  match FR_Inverse_fuel 600 f with Some r => r | None => None end.

(** fr.go:265-269 Parity *)
Definition FR_Parity (f : FR) : bool := 0 <? FR_Cmp f (FR_NegAssign f).

(** fr.go:272-281 MulBits *)
Definition FR_MulBits (f : FR) (b : FRRepr) : FR :=
  fold_left (fun res i =>
      let res := FR_DoubleAssign res in
      match FRRepr_Bit b (Z.of_nat i) with Some true => FR_AddAssign res f | _ => res end)
    (seq 0 (Z.to_nat (FRRepr_BitLen b))) bigZeroFR.

(** fr.go:284-293 MulBytes *)
Definition FR_MulBytes (f : FR) (b : list Z) : FR :=
  fold_left (fun res i =>
      let res := FR_DoubleAssign res in
      if negb (wand (nth (i / 8) b 0) (wshl 1 (Z.of_nat (i mod 8))) =? 0) then FR_AddAssign res f else res)
    (seq 0 (length b * 8)) bigZeroFR.

(** fr.go:296-299 HashFR, given the digest *)
Definition HashFR (digest : list Z) : FR := FR_MulBytes bigOneFR digest.

(** fr.go:301 rMinus1Over2 *)
Definition rMinus1Over2 : FRRepr := Eval vm_compute in
  FRRepr_const 26217937587563095239723870254092982918845276250263818911301829349969290592256.

(** fr.go:304-313 Legendre *)
Definition FR_Legendre (f : FR) : LegendreSymbol :=
  let o := FR_Exp f rMinus1Over2 in
  if FR_IsZero o then LegendreZero
  else if FR_Equals o bigOneFR then LegendreQuadraticResidue
  else LegendreQuadraticNonResidue.

(** fr.go:337-344 RandFR, given the integer 0 <= r < RFieldModulus that rand.Int returned *)
Definition RandFR (r : Z) : option FR := FRReprToFR (FRRepr_const r).
