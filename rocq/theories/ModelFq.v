(** Model of fq.go and of MontReduce (stub_fallback.go). *)
Require Import String Ascii ZArith Bool List.
From Verif Require Import Words ModelRepr.
Import ListNotations.
Open Scope Z_scope.

(** fq.go:11-13 FQ *)
Record FQ := mkFQ { fq_n : FQRepr }.

(** fq.go:15-17 *)
Definition bigZero : FQRepr := NewFQRepr 0.
Definition bigOne : FQRepr := NewFQRepr 1.
Definition bigTwo : FQRepr := NewFQRepr 2.

(** fq.go:26 QFieldModulus *)
Definition QFieldModulus : FQRepr := Eval vm_compute in
  FQRepr_const 4002409555221667393417789825735904156556882819939007885332058136124031650490837864442687629129015664037894272559787.

(** fq.go:29 FQR2 *)
Definition FQR2 : FQRepr := Eval vm_compute in
  FQRepr_const 2708263910654730174793787626328176511836455197166317677006154293982164122222515399004018013397331347120527951271750.

(** stub_fallback.go:61-116 MontReduce, line by line. The index [mi] below is QFieldModulus[i]. *)
Definition MontReduce (hi lo : FQRepr) : FQRepr :=
  let '(mkFQRepr hi0 hi1 hi2 hi3 hi4 hi5) := hi in
  let '(mkFQRepr lo0 lo1 lo2 lo3 lo4 lo5) := lo in
  let '(mkFQRepr m0 m1 m2 m3 m4 m5) := QFieldModulus in
  let k := wmul lo0 montInvFQ in
  let '(_, carry) := MACWithCarry lo0 k m0 0 in
  let '(lo1, carry) := MACWithCarry lo1 k m1 carry in
  let '(lo2, carry) := MACWithCarry lo2 k m2 carry in
  let '(lo3, carry) := MACWithCarry lo3 k m3 carry in
  let '(lo4, carry) := MACWithCarry lo4 k m4 carry in
  let '(lo5, carry) := MACWithCarry lo5 k m5 carry in
  let '(hi0, carry) := AddWithCarry hi0 0 carry in
  let carry2 := carry in
  let k := wmul lo1 montInvFQ in
  let '(_, carry) := MACWithCarry lo1 k m0 0 in
  let '(lo2, carry) := MACWithCarry lo2 k m1 carry in
  let '(lo3, carry) := MACWithCarry lo3 k m2 carry in
  let '(lo4, carry) := MACWithCarry lo4 k m3 carry in
  let '(lo5, carry) := MACWithCarry lo5 k m4 carry in
  let '(hi0, carry) := MACWithCarry hi0 k m5 carry in
  let '(hi1, carry) := AddWithCarry hi1 carry2 carry in
  let carry2 := carry in
  let k := wmul lo2 montInvFQ in
  let '(_, carry) := MACWithCarry lo2 k m0 0 in
  let '(lo3, carry) := MACWithCarry lo3 k m1 carry in
  let '(lo4, carry) := MACWithCarry lo4 k m2 carry in
  let '(lo5, carry) := MACWithCarry lo5 k m3 carry in
  let '(hi0, carry) := MACWithCarry hi0 k m4 carry in
  let '(hi1, carry) := MACWithCarry hi1 k m5 carry in
  let '(hi2, carry) := AddWithCarry hi2 carry2 carry in
  let carry2 := carry in
  let k := wmul lo3 montInvFQ in
  let '(_, carry) := MACWithCarry lo3 k m0 0 in
  let '(lo4, carry) := MACWithCarry lo4 k m1 carry in
  let '(lo5, carry) := MACWithCarry lo5 k m2 carry in
  let '(hi0, carry) := MACWithCarry hi0 k m3 carry in
  let '(hi1, carry) := MACWithCarry hi1 k m4 carry in
  let '(hi2, carry) := MACWithCarry hi2 k m5 carry in
  let '(hi3, carry) := AddWithCarry hi3 carry2 carry in
  let carry2 := carry in
  let k := wmul lo4 montInvFQ in
  let '(_, carry) := MACWithCarry lo4 k m0 0 in
  let '(lo5, carry) := MACWithCarry lo5 k m1 carry in
  let '(hi0, carry) := MACWithCarry hi0 k m2 carry in
  let '(hi1, carry) := MACWithCarry hi1 k m3 carry in
  let '(hi2, carry) := MACWithCarry hi2 k m4 carry in
  let '(hi3, carry) := MACWithCarry hi3 k m5 carry in
  let '(hi4, carry) := AddWithCarry hi4 carry2 carry in
  let carry2 := carry in
  let k := wmul lo5 montInvFQ in
  let '(_, carry) := MACWithCarry lo5 k m0 0 in
  let '(hi0, carry) := MACWithCarry hi0 k m1 carry in
  let '(hi1, carry) := MACWithCarry hi1 k m2 carry in
  let '(hi2, carry) := MACWithCarry hi2 k m3 carry in
  let '(hi3, carry) := MACWithCarry hi3 k m4 carry in
  let '(hi4, carry) := MACWithCarry hi4 k m5 carry in
  let '(hi5, carry) := AddWithCarry hi5 carry2 carry in
  mkFQRepr hi0 hi1 hi2 hi3 hi4 hi5.

(** fq.go:37-39 IsValid *)
Definition FQ_IsValid (f : FQ) : bool :=
  (wand (w5 (fq_n f)) 0xf000000000000000 =? 0) || (FQRepr_Cmp (fq_n f) QFieldModulus <? 0).

(** fq.go:41-45 reduceAssign *)
Definition FQ_reduceAssign (f : FQ) : FQ :=
  if negb (FQ_IsValid f) then mkFQ (FQRepr_SubNoBorrow (fq_n f) QFieldModulus) else f.

(** fq.go:70-73 montReduce (the receiver's old value is overwritten) *)
Definition FQ_montReduce (hi lo : FQRepr) : FQ := FQ_reduceAssign (mkFQ (MontReduce hi lo)).

(** fq.go:76-79 MulAssign *)
Definition FQ_MulAssign (f other : FQ) : FQ :=
  let '(hi, lo) := MultiplyFQRepr (fq_n f) (fq_n other) in FQ_montReduce hi lo.

(** FQ{} *)
Definition FQ_empty : FQ := mkFQ (mkFQRepr 0 0 0 0 0 0).

(** fq.go:49-56 FQReprToFQ *)
Definition FQReprToFQ (o : FQRepr) : FQ :=
  let r := mkFQ o in if FQ_IsValid r then FQ_MulAssign r (mkFQ FQR2) else FQ_empty.

(** fq.go:60-62 FQReprToFQRaw *)
Definition FQReprToFQRaw (o : FQRepr) : FQ := mkFQ o.

(** fq.go:20, 23 *)
Definition FQZero : FQ := FQReprToFQRaw bigZero.
Definition FQOne : FQ := Eval vm_compute in FQReprToFQ bigOne.

(** fq.go:65-68 AddAssign *)
Definition FQ_AddAssign (f other : FQ) : FQ :=
  FQ_reduceAssign (mkFQ (FQRepr_AddNoCarry (fq_n f) (fq_n other))).

(** fq.go:82-87 SubAssign *)
Definition FQ_SubAssign (f other : FQ) : FQ :=
  let n := if 0 <? FQRepr_Cmp (fq_n other) (fq_n f) then FQRepr_AddNoCarry (fq_n f) QFieldModulus else fq_n f in
  mkFQ (FQRepr_SubNoBorrow n (fq_n other)).

(** fq.go:140-143 DoubleAssign *)
Definition FQ_DoubleAssign (f : FQ) : FQ := FQ_reduceAssign (mkFQ (FQRepr_Mul2 (fq_n f))).

(** fq.go:146-148 IsZero *)
Definition FQ_IsZero (f : FQ) : bool := FQRepr_Equals (fq_n f) bigZero.

(** fq.go:116-118 Equals *)
Definition FQ_Equals (f other : FQ) : bool := FQRepr_Equals (fq_n f) (fq_n other).

(** fq.go:121-127 NegAssign *)
Definition FQ_NegAssign (f : FQ) : FQ :=
  if negb (FQ_IsZero f) then mkFQ (FQRepr_SubNoBorrow QFieldModulus (fq_n f)) else f.

(** fq.go:151-198 SquareAssign, line by line *)
Definition FQ_SquareAssign (f : FQ) : FQ :=
  let '(mkFQRepr n0 n1 n2 n3 n4 n5) := fq_n f in
  let '(r1, carry) := MACWithCarry 0 n0 n1 0 in
  let '(r2, carry) := MACWithCarry 0 n0 n2 carry in
  let '(r3, carry) := MACWithCarry 0 n0 n3 carry in
  let '(r4, carry) := MACWithCarry 0 n0 n4 carry in
  let '(r5, carry) := MACWithCarry 0 n0 n5 carry in
  let r6 := carry in
  let '(r3, carry) := MACWithCarry r3 n1 n2 0 in
  let '(r4, carry) := MACWithCarry r4 n1 n3 carry in
  let '(r5, carry) := MACWithCarry r5 n1 n4 carry in
  let '(r6, carry) := MACWithCarry r6 n1 n5 carry in
  let r7 := carry in
  let '(r5, carry) := MACWithCarry r5 n2 n3 0 in
  let '(r6, carry) := MACWithCarry r6 n2 n4 carry in
  let '(r7, carry) := MACWithCarry r7 n2 n5 carry in
  let r8 := carry in
  let '(r7, carry) := MACWithCarry r7 n3 n4 0 in
  let '(r8, carry) := MACWithCarry r8 n3 n5 carry in
  let r9 := carry in
  let '(r9, carry) := MACWithCarry r9 n4 n5 0 in
  let r10 := carry in
  let r11 := wshr r10 63 in
  let r10 := wor (wshl r10 1) (wshr r9 63) in
  let r9 := wor (wshl r9 1) (wshr r8 63) in
  let r8 := wor (wshl r8 1) (wshr r7 63) in
  let r7 := wor (wshl r7 1) (wshr r6 63) in
  let r6 := wor (wshl r6 1) (wshr r5 63) in
  let r5 := wor (wshl r5 1) (wshr r4 63) in
  let r4 := wor (wshl r4 1) (wshr r3 63) in
  let r3 := wor (wshl r3 1) (wshr r2 63) in
  let r2 := wor (wshl r2 1) (wshr r1 63) in
  let r1 := wshl r1 1 in
  let '(r0, carry) := MACWithCarry 0 n0 n0 0 in
  let '(r1, carry) := AddWithCarry r1 0 carry in
  let '(r2, carry) := MACWithCarry r2 n1 n1 carry in
  let '(r3, carry) := AddWithCarry r3 0 carry in
  let '(r4, carry) := MACWithCarry r4 n2 n2 carry in
  let '(r5, carry) := AddWithCarry r5 0 carry in
  let '(r6, carry) := MACWithCarry r6 n3 n3 carry in
  let '(r7, carry) := AddWithCarry r7 0 carry in
  let '(r8, carry) := MACWithCarry r8 n4 n4 carry in
  let '(r9, carry) := AddWithCarry r9 0 carry in
  let '(r10, carry) := MACWithCarry r10 n5 n5 carry in
  let '(r11, carry) := AddWithCarry r11 0 carry in
  FQ_montReduce (mkFQRepr r6 r7 r8 r9 r10 r11) (mkFQRepr r0 r1 r2 r3 r4 r5).

(** fq.go:334-338 ToRepr *)
Definition FQ_ToRepr (f : FQ) : FQRepr := fq_n (FQ_montReduce (mkFQRepr 0 0 0 0 0 0) (fq_n f)).

(** fq.go:134-137 Cmp *)
Definition FQ_Cmp (f other : FQ) : Z := FQRepr_Cmp (FQ_ToRepr f) (FQ_ToRepr other).

(** fq.go:130-132 String (the "Fq(0x" ... ")" wrapper included) *)
Definition FQ_String (f : FQ) : string := ("Fq(0x" ++ FQRepr_String (FQ_ToRepr f) ++ ")")%string.

(** fq.go:96-113 Exp: the loop state is (foundOne, res) *)
Definition FQ_Exp (f : FQ) (n : FQRepr) : FQ :=
  snd (for_bits (FQRepr_slice n)
    (fun next st =>
       let '(foundOne, res) := st : bool * FQ in
       let '(foundOne, res) := if foundOne then (foundOne, FQ_SquareAssign res) else (next, res) in
       (foundOne, if next then FQ_MulAssign res f else res))
    (false, FQOne)).

(** fq2.go:190 negativeOne, fq.go:200 negativeOneFQ, fq2.go:167 qMinus3Over4, fq.go:305 qMinus1Over2 *)
Definition negativeOne : FQRepr := Eval vm_compute in
  FQRepr_const 4002409555221667393417789825735904156556882819939007885332058136124031650490837864442687629129015664037894272559786.
Definition negativeOneFQ : FQ := Eval vm_compute in FQReprToFQ negativeOne.
Definition qMinus3Over4 : FQRepr := Eval vm_compute in
  FQRepr_const 0x680447a8e5ff9a692c6e9ed90d2eb35d91dd2e13ce144afd9cc34a83dac3d8907aaffffac54ffffee7fbfffffffeaaa.
Definition qMinus1Over2 : FQRepr := mkFQRepr 0xdcff7fffffffd555 0xf55ffff58a9ffff 0xb39869507b587b12 0xb23ba5c279c2895f 0x258dd3db21a5d66b 0xd0088f51cbff34d.

(** fq.go:203-217 Sqrt *)
Definition FQ_Sqrt (f : FQ) : FQ * bool :=
  let a1 := FQ_Exp f qMinus3Over4 in
  let a0 := FQ_SquareAssign a1 in
  let a0 := FQ_MulAssign a0 f in
  if FQ_Equals a0 negativeOneFQ then (FQ_empty, false)
  else (FQ_MulAssign a1 f, true).

(** fq.go:219-221 isEven *)
Definition isEven (b : FQRepr) : bool := FQRepr_IsEven b.

(** fq.go:234-242 and 244-252: `for isEven(u) { u.Div2(); halve b modulo q }`.
    None: out of fuel. *)
Fixpoint FQ_inv_halve (fuel : nat) (u : FQRepr) (b : FQ) : option (FQRepr * FQ) :=
  if isEven u then
    match fuel with
    | O => None
    | S k => FQ_inv_halve k (FQRepr_Div2 u)
               (if isEven (fq_n b) then mkFQ (FQRepr_Div2 (fq_n b))
                else mkFQ (FQRepr_Div2 (FQRepr_AddNoCarry (fq_n b) QFieldModulus)))
    end
  else Some (u, b).

(** fq.go:233-261: the main loop on (u, b, v, c); result (u, b, c) at exit. *)
Fixpoint FQ_inv_loop (fuel0 fuel : nat) (u : FQRepr) (b : FQ) (v : FQRepr) (c : FQ) : option (FQRepr * FQ * FQ) :=
  if negb (FQRepr_Cmp u bigOne =? 0) && negb (FQRepr_Cmp v bigOne =? 0) then
    match fuel with
    | O => None
    | S k =>
        match FQ_inv_halve fuel0 u b with
        | None => None
        | Some (u, b) =>
            match FQ_inv_halve fuel0 v c with
            | None => None
            | Some (v, c) =>
                if 0 <=? FQRepr_Cmp u v
                then FQ_inv_loop fuel0 k (FQRepr_SubNoBorrow u v) (FQ_SubAssign b c) v c
                else FQ_inv_loop fuel0 k u b (FQRepr_SubNoBorrow v u) (FQ_SubAssign c b)
            end
        end
    end
  else Some (u, b, c).

(** fq.go:224-266 Inverse with an iteration budget; None means the budget ran out. *)
Definition FQ_Inverse_fuel (fuel : nat) (f : FQ) : option (FQ * bool) :=
  if FQ_IsZero f then Some (FQ_empty, false)
  else
    let u := fq_n f in
    let v := QFieldModulus in
    let b := FQReprToFQRaw FQR2 in
    let c := FQZero in
    match FQ_inv_loop fuel fuel u b v c with
    | None => None
    | Some (u, b, c) => if FQRepr_Cmp u bigOne =? 0 then Some (b, true) else Some (c, true)
    end.

(** fq.go:224-266 Inverse. 800 iterations always suffice on canonical input (proved in
    FqInverse.v); the default result of the None branch is then never used. *)
Definition FQ_Inverse (f : FQ) : FQ * bool :=
  match FQ_Inverse_fuel 800 f with Some r => r | None => (FQ_empty, false) end.

(** fq.go:90-93 DivAssign *)
Definition FQ_DivAssign (f other : FQ) : FQ := FQ_MulAssign f (fst (FQ_Inverse other)).

(** fq.go:269-273 Parity *)
Definition FQ_Parity (f : FQ) : bool := 0 <? FQ_Cmp f (FQ_NegAssign f).

(** fq.go:276-285 MulBits; Bit(i) is in range because i < BitLen() <= 384 *)
Definition FQ_MulBits (f : FQ) (b : FQRepr) : FQ :=
  fold_left (fun res i =>
      let res := FQ_DoubleAssign res in
      match FQRepr_Bit b (Z.of_nat i) with Some true => FQ_AddAssign res f | _ => res end)
    (seq 0 (Z.to_nat (FQRepr_BitLen b))) FQZero.

(** fq.go:288-297 MulBytes *)
Definition FQ_MulBytes (f : FQ) (b : list Z) : FQ :=
  fold_left (fun res i =>
      let res := FQ_DoubleAssign res in
      if negb (wand (nth (i / 8) b 0) (wshl 1 (Z.of_nat (i mod 8))) =? 0) then FQ_AddAssign res f else res)
    (seq 0 (length b * 8)) FQZero.

(** fq.go:300-303 HashFQ, given the digest *)
Definition HashFQ (digest : list Z) : FQ := FQ_MulBytes FQOne digest.

(** fq.go:308-319 LegendreSymbol *)
Inductive LegendreSymbol := LegendreZero | LegendreQuadraticResidue | LegendreQuadraticNonResidue.

(** fq.go:322-331 Legendre *)
Definition FQ_Legendre (f : FQ) : LegendreSymbol :=
  let o := FQ_Exp f qMinus1Over2 in
  if FQ_IsZero o then LegendreZero
  else if FQ_Equals o FQOne then LegendreQuadraticResidue
  else LegendreQuadraticNonResidue.

(** fq.go:341-349 RandFQ, given the integer 0 <= r < q that rand.Int returned *)
Definition RandFQ (r : Z) : FQ := FQReprToFQ (FQRepr_const r).
