(** Model of fq2.go, fq6.go and fq12.go over an arbitrary base-field implementation. *)
Require Import ZArith Bool List.
From Verif Require Import Words ModelRepr ModelFq ModelOps.
Import ListNotations.
Open Scope Z_scope.

(** fq2.go:13-16 FQ2 *)
Record FQ2 (F : Type) := mkFQ2 { c0 : F; c1 : F }.
Arguments mkFQ2 {F}. Arguments c0 {F}. Arguments c1 {F}.
(** fq6.go:9-13 FQ6 *)
Record FQ6 (F : Type) := mkFQ6 { d0 : FQ2 F; d1 : FQ2 F; d2 : FQ2 F }.
Arguments mkFQ6 {F}. Arguments d0 {F}. Arguments d1 {F}. Arguments d2 {F}.
(** fq12.go:9-12 FQ12. The two FQ6 are pointers in Go; every constructor used by the library
    makes fresh copies except FQ12Zero/FQ12One, which are only ever copied. *)
Record FQ12 (F : Type) := mkFQ12 { e0 : FQ6 F; e1 : FQ6 F }.
Arguments mkFQ12 {F}. Arguments e0 {F}. Arguments e1 {F}.

Section Tower.
Context {F : Type} (B : BOps F).
Let Bo := b_ops B.
Notation zero := (o_zero Bo). Notation one := (o_one Bo).
Notation add := (o_add Bo). Notation sub := (o_sub Bo). Notation mul := (o_mul Bo). Notation sq := (o_sq Bo).
Notation dbl := (o_dbl Bo). Notation neg := (o_neg Bo). Notation raw := (b_raw B).

(** ** fq2.go *)

(** fq2.go:31-37 Cmp *)
Definition FQ2_Cmp (f other : FQ2 F) : Z :=
  let cOut := o_cmp Bo (c1 f) (c1 other) in
  if negb (cOut =? 0) then cOut else o_cmp Bo (c0 f) (c0 other).

(** fq2.go:41-45 MultiplyByNonresidueAssign *)
Definition FQ2_MultiplyByNonresidueAssign (f : FQ2 F) : FQ2 F :=
  let oldC0 := c0 f in
  let fc0 := sub (c0 f) (c1 f) in
  let fc1 := add (c1 f) oldC0 in
  mkFQ2 fc0 fc1.

(** fq2.go:48-55 Norm *)
Definition FQ2_Norm (f : FQ2 F) : F :=
  let t0 := sq (c0 f) in
  let t1 := sq (c1 f) in
  add t1 t0.

(** fq2.go:58-67 *)
Definition FQ2Zero : FQ2 F := mkFQ2 zero zero.
Definition FQ2One : FQ2 F := mkFQ2 one zero.

(** fq2.go:70-72 IsZero *)
Definition FQ2_IsZero (f : FQ2 F) : bool := o_iszero Bo (c0 f) && o_iszero Bo (c1 f).

(** fq2.go:75-89 SquareAssign *)
Definition FQ2_SquareAssign (f : FQ2 F) : FQ2 F :=
  let ab := mul (c0 f) (c1 f) in
  let c0c1 := add (c0 f) (c1 f) in
  let nc0 := neg (c1 f) in
  let nc0 := add nc0 (c0 f) in
  let nc0 := mul nc0 c0c1 in
  let nc0 := sub nc0 ab in
  let nc0 := add nc0 ab in
  let ab := add ab ab in
  mkFQ2 nc0 ab.

(** fq2.go:92-95, 98-101, 104-107, 110-113 *)
Definition FQ2_DoubleAssign (f : FQ2 F) : FQ2 F := mkFQ2 (dbl (c0 f)) (dbl (c1 f)).
Definition FQ2_NegAssign (f : FQ2 F) : FQ2 F := mkFQ2 (neg (c0 f)) (neg (c1 f)).
Definition FQ2_AddAssign (f other : FQ2 F) : FQ2 F := mkFQ2 (add (c0 f) (c0 other)) (add (c1 f) (c1 other)).
Definition FQ2_SubAssign (f other : FQ2 F) : FQ2 F := mkFQ2 (sub (c0 f) (c0 other)) (sub (c1 f) (c1 other)).

(** fq2.go:116-130 MulAssign (other is passed by value) *)
Definition FQ2_MulAssign (f other : FQ2 F) : FQ2 F :=
  let aa := mul (c0 f) (c0 other) in
  let bb := mul (c1 f) (c1 other) in
  let o := add (c0 other) (c1 other) in
  let fc1 := add (c1 f) (c0 f) in
  let fc1 := mul fc1 o in
  let fc1 := sub fc1 aa in
  let fc1 := sub fc1 bb in
  let fc0 := aa in
  let fc0 := sub fc0 bb in
  mkFQ2 fc0 fc1.

(** fq2.go:133-147 InverseAssign: (new receiver, success) *)
Definition FQ2_InverseAssign (f : FQ2 F) : FQ2 F * bool :=
  let t1 := sq (c1 f) in
  let t0 := sq (c0 f) in
  let t0 := add t0 t1 in
  let '(t, success) := o_inv Bo t0 in
  if negb success then (f, false)
  else
    let fc0 := mul (c0 f) t in
    let fc1 := mul (c1 f) t in
    let fc1 := neg fc1 in
    (mkFQ2 fc0 fc1, true).

(** fq2.go:149-152 frobeniusCoeffFQ2c1 *)
Definition frobeniusCoeffFQ2c1 : list F :=
  [ one;
    raw (mkFQRepr 0x43f5fffffffcaaae 0x32b7fff2ed47fffd 0x7e83a49a2e99d69 0xeca8f3318332bb7a 0xef148d1ea0f4c069 0x40ab3263eff0206) ].

(** fq2.go:156-158 FrobeniusMapAssign; power is a uint8, the index power%2 is in range *)
Definition FQ2_FrobeniusMapAssign (f : FQ2 F) (power : Z) : FQ2 F :=
  mkFQ2 (c0 f) (mul (c1 f) (nth (Z.to_nat (power mod 2)) frobeniusCoeffFQ2c1 zero)).

(** fq2.go:161-165 Legendre *)
Definition FQ2_Legendre (f : FQ2 F) : LegendreSymbol := b_legendre B (FQ2_Norm f).

(** fq2.go:170-187 Exp *)
Definition FQ2_Exp (f : FQ2 F) (n : FQRepr) : FQ2 F := ExpBits FQ2One FQ2_SquareAssign FQ2_MulAssign f n.

(** fq2.go:193-195 Equals *)
Definition FQ2_Equals (f other : FQ2 F) : bool := FQ2_Cmp f other =? 0.

(** fq.go:200 negativeOneFQ *)
Definition negOneFQ : F := b_of B negativeOne.

(** FQ2{}: both coordinates the zero limbs *)
Definition FQ2_empty : FQ2 F := mkFQ2 (raw (mkFQRepr 0 0 0 0 0 0)) (raw (mkFQRepr 0 0 0 0 0 0)).

(** fq2.go:198-233 Sqrt *)
Definition FQ2_Sqrt (f : FQ2 F) : FQ2 F * bool :=
  if FQ2_IsZero f then (FQ2Zero, true)
  else
    let a1 := FQ2_Exp f qMinus3Over4 in
    let alpha := FQ2_SquareAssign a1 in
    let alpha := FQ2_MulAssign alpha f in
    let a0 := FQ2_FrobeniusMapAssign alpha 1 in
    let a0 := FQ2_MulAssign a0 alpha in
    let neg1 := mkFQ2 negOneFQ zero in
    if FQ2_Equals a0 neg1 then (FQ2_empty, false)
    else
      let a1 := FQ2_MulAssign a1 f in
      if FQ2_Equals alpha neg1 then (FQ2_MulAssign a1 (mkFQ2 zero one), true)
      else
        let alpha := FQ2_AddAssign alpha FQ2One in
        let alpha := FQ2_Exp alpha qMinus1Over2 in
        let alpha := FQ2_MulAssign alpha a1 in
        (alpha, true).

(** fq2.go:256-260 Parity *)
Definition FQ2_Parity (f : FQ2 F) : bool := 0 <? FQ2_Cmp f (FQ2_NegAssign f).

(** fq2.go:263-272 MulBits; the loop index i runs from 0 to BitLen-1 *)
Definition FQ2_MulBits (f : FQ2 F) (b : Z) : FQ2 F :=
  fold_left (fun res i =>
      let res := FQ2_DoubleAssign res in
      if Z.testbit b (big_BitLen b - 1 - Z.of_nat i) then FQ2_AddAssign res f else res)
    (seq 0 (Z.to_nat (big_BitLen b))) FQ2Zero.

(** fq2.go:275-278 DivAssign *)
Definition FQ2_DivAssign (f other : FQ2 F) : FQ2 F := FQ2_MulAssign f (fst (FQ2_InverseAssign other)).

(** math/big SetBytes: big-endian *)
Definition big_SetBytes (l : list Z) : Z := fold_left (fun a b => a * 256 + b) l 0.

(** fq2.go:281-285 HashFQ2, given the digest *)
Definition HashFQ2 (digest : list Z) : FQ2 F := FQ2_MulBits FQ2One (big_SetBytes digest).

(** The FQ2 methods as an operations record for the curve code. *)
Definition FQ2O : Ops (FQ2 F) := {|
  o_zero := FQ2Zero; o_one := FQ2One; o_add := FQ2_AddAssign; o_sub := FQ2_SubAssign; o_mul := FQ2_MulAssign;
  o_sq := FQ2_SquareAssign; o_dbl := FQ2_DoubleAssign; o_neg := FQ2_NegAssign; o_inv := FQ2_InverseAssign;
  o_iszero := FQ2_IsZero; o_equals := FQ2_Equals; o_cmp := FQ2_Cmp; o_sqrt := FQ2_Sqrt |}.

(** ** fq6.go *)
Notation add2 := FQ2_AddAssign. Notation sub2 := FQ2_SubAssign. Notation mul2 := FQ2_MulAssign.
Notation sq2 := FQ2_SquareAssign. Notation dbl2 := FQ2_DoubleAssign. Notation neg2 := FQ2_NegAssign.
Notation nr2 := FQ2_MultiplyByNonresidueAssign.

(** fq6.go:34-37 MulByNonresidueAssign *)
Definition FQ6_MulByNonresidueAssign (f : FQ6 F) : FQ6 F := mkFQ6 (nr2 (d2 f)) (d0 f) (d1 f).

(** fq6.go:40-57 MulBy1Assign *)
Definition FQ6_MulBy1Assign (f : FQ6 F) (c1 : FQ2 F) : FQ6 F :=
  let b := mul2 (d1 f) c1 in
  let tmp := add2 (d1 f) (d2 f) in
  let t1 := mul2 c1 tmp in
  let t1 := sub2 t1 b in
  let t1 := nr2 t1 in
  let tmp := add2 (d0 f) (d1 f) in
  let t2 := mul2 c1 tmp in
  let t2 := sub2 t2 b in
  mkFQ6 t1 t2 b.

(** fq6.go:60-91 MulBy01Assign *)
Definition FQ6_MulBy01Assign (f : FQ6 F) (c0 c1 : FQ2 F) : FQ6 F :=
  let a := mul2 (d0 f) c0 in
  let b := mul2 (d1 f) c1 in
  let tmp := add2 (d1 f) (d2 f) in
  let t1 := mul2 c1 tmp in
  let t1 := sub2 t1 b in
  let t1 := nr2 t1 in
  let t1 := add2 t1 a in
  let tmp := add2 (d0 f) (d2 f) in
  let t3 := mul2 c0 tmp in
  let t3 := sub2 t3 a in
  let t3 := add2 t3 b in
  let tmp := add2 (d0 f) (d1 f) in
  let t2 := add2 c0 c1 in
  let t2 := mul2 t2 tmp in
  let t2 := sub2 t2 a in
  let t2 := sub2 t2 b in
  mkFQ6 t1 t2 t3.

(** fq6.go:93, 96 *)
Definition FQ6Zero : FQ6 F := mkFQ6 FQ2Zero FQ2Zero FQ2Zero.
Definition FQ6One : FQ6 F := mkFQ6 FQ2One FQ2Zero FQ2Zero.

(** fq6.go:99-101 Equals, 104-106 IsZero *)
Definition FQ6_Equals (f other : FQ6 F) : bool :=
  FQ2_Equals (d0 f) (d0 other) && FQ2_Equals (d1 f) (d1 other) && FQ2_Equals (d2 f) (d2 other).
Definition FQ6_IsZero (f : FQ6 F) : bool := FQ6_Equals f FQ6Zero.

(** fq6.go:109-113, 116-120, 123-127, 130-134 *)
Definition FQ6_DoubleAssign (f : FQ6 F) : FQ6 F := mkFQ6 (dbl2 (d0 f)) (dbl2 (d1 f)) (dbl2 (d2 f)).
Definition FQ6_NegAssign (f : FQ6 F) : FQ6 F := mkFQ6 (neg2 (d0 f)) (neg2 (d1 f)) (neg2 (d2 f)).
Definition FQ6_AddAssign (f other : FQ6 F) : FQ6 F :=
  mkFQ6 (add2 (d0 f) (d0 other)) (add2 (d1 f) (d1 other)) (add2 (d2 f) (d2 other)).
Definition FQ6_SubAssign (f other : FQ6 F) : FQ6 F :=
  mkFQ6 (sub2 (d0 f) (d0 other)) (sub2 (d1 f) (d1 other)) (sub2 (d2 f) (d2 other)).

(** fq6.go:139-142 fq2nqr *)
Definition fq2nqr : FQ2 F := mkFQ2 one one.

(** Limbs that occur several times in the Frobenius tables (fq6.go, fq12.go); the first two are
    FQRepr{0,...} and the Montgomery one. *)
Definition rw0 := mkFQRepr 0 0 0 0 0 0.
Definition rw1 := mkFQRepr 0x760900000002fffd 0xebf4000bc40c0002 0x5f48985753c758ba 0x77ce585370525745 0x5c071a97a256ec6d 0x15f65ec3fa80e493.
Definition rwA := mkFQRepr 0xcd03c9e48671f071 0x5dab22461fcda5d2 0x587042afd3851b95 0x8eb60ebe01bacb9e 0x3f97d6e83d050d2 0x18f0206554638741.
Definition rwB := mkFQRepr 0x30f1361b798a64e8 0xf3b8ddab7ece5a2a 0x16a8ca3ac61577f7 0xc26a2ff874fd029b 0x3636b76660701c6e 0x51ba4ab241b6160.
Definition rwC := mkFQRepr 0x890dc9e4867545c3 0x2af322533285a5d5 0x50880866309b7e2c 0xa20d1b8c7e881024 0x14e4f04fe2db9068 0x14e56d3f1564853a.
Definition rwD := mkFQRepr 0x43f5fffffffcaaae 0x32b7fff2ed47fffd 0x7e83a49a2e99d69 0xeca8f3318332bb7a 0xef148d1ea0f4c069 0x40ab3263eff0206.
Definition rwE := mkFQRepr 0xecfb361b798dba3a 0xc100ddb891865a2c 0xec08ff1232bda8e 0xd5c13cc6f1ca4721 0x47222a47bf7b5c04 0x110f184e51c5f59.

(** fq6.go:144-175 frobeniusCoeffFQ6c1 *)
Definition frobeniusCoeffFQ6c1 : list (FQ2 F) :=
  [ mkFQ2 (raw rw1) (raw rw0);
    mkFQ2 (raw rw0) (raw rwA);
    mkFQ2 (raw rwB) (raw rw0);
    mkFQ2 (raw rw0) (raw rw1);
    mkFQ2 (raw rwA) (raw rw0);
    mkFQ2 (raw rw0) (raw rwB) ].

(** fq6.go:177-208 frobeniusCoeffFQ6c2 *)
Definition frobeniusCoeffFQ6c2 : list (FQ2 F) :=
  [ mkFQ2 (raw rw1) (raw rw0);
    mkFQ2 (raw rwC) (raw rw0);
    mkFQ2 (raw rwA) (raw rw0);
    mkFQ2 (raw rwD) (raw rw0);
    mkFQ2 (raw rwB) (raw rw0);
    mkFQ2 (raw rwE) (raw rw0) ].

(** fq6.go:211-218 FrobeniusMapAssign *)
Definition FQ6_FrobeniusMapAssign (f : FQ6 F) (power : Z) : FQ6 F :=
  mkFQ6 (FQ2_FrobeniusMapAssign (d0 f) power)
        (mul2 (FQ2_FrobeniusMapAssign (d1 f) power) (nth (Z.to_nat (power mod 6)) frobeniusCoeffFQ6c1 FQ2Zero))
        (mul2 (FQ2_FrobeniusMapAssign (d2 f) power) (nth (Z.to_nat (power mod 6)) frobeniusCoeffFQ6c2 FQ2Zero)).

(** fq6.go:221-252 SquareAssign *)
Definition FQ6_SquareAssign (f : FQ6 F) : FQ6 F :=
  let s0 := sq2 (d0 f) in
  let ab := mul2 (d0 f) (d1 f) in
  let s1 := dbl2 ab in
  let s2 := sub2 (d0 f) (d1 f) in
  let s2 := add2 s2 (d2 f) in
  let s2 := sq2 s2 in
  let bc := mul2 (d1 f) (d2 f) in
  let s3 := dbl2 bc in
  let s4 := sq2 (d2 f) in
  let fc0 := nr2 s3 in
  let fc0 := add2 fc0 s0 in
  let fc1 := nr2 s4 in
  let fc1 := add2 fc1 s1 in
  let fc2 := add2 s1 s2 in
  let fc2 := add2 fc2 s3 in
  let fc2 := sub2 fc2 s0 in
  let fc2 := sub2 fc2 s4 in
  mkFQ6 fc0 fc1 fc2.

(** fq6.go:255-292 MulAssign, the argument being a different object than the receiver *)
Definition FQ6_MulAssign (f other : FQ6 F) : FQ6 F :=
  let aa := mul2 (d0 f) (d0 other) in
  let bb := mul2 (d1 f) (d1 other) in
  let cc := mul2 (d2 f) (d2 other) in
  let tmp := add2 (d1 f) (d2 f) in
  let t1 := add2 (d1 other) (d2 other) in
  let t1 := mul2 t1 tmp in
  let t1 := sub2 t1 bb in
  let t1 := sub2 t1 cc in
  let t1 := nr2 t1 in
  let t1 := add2 t1 aa in
  let tmp := add2 (d0 f) (d2 f) in
  let fc2 := add2 (d0 other) (d2 other) in
  let fc2 := mul2 fc2 tmp in
  let fc2 := sub2 fc2 aa in
  let fc2 := add2 fc2 bb in
  let fc2 := sub2 fc2 cc in
  let tmp := add2 (d0 f) (d1 f) in
  let fc1 := add2 (d0 other) (d1 other) in
  let fc1 := mul2 fc1 tmp in
  let fc1 := sub2 fc1 aa in
  let fc1 := sub2 fc1 bb in
  let cc := nr2 cc in
  let fc1 := add2 fc1 cc in
  mkFQ6 t1 fc1 fc2.

(** fq6.go:255-292 MulAssign with other == f (the same object): line 275 stores
    other.c0 into f.c2, so that `other.c2` of line 276 already is other.c0;
    line 283 stores other.c0 into f.c1, so that `other.c1` of line 284 already is other.c0. *)
Definition FQ6_MulAssign_aliased (f : FQ6 F) : FQ6 F :=
  let aa := mul2 (d0 f) (d0 f) in
  let bb := mul2 (d1 f) (d1 f) in
  let cc := mul2 (d2 f) (d2 f) in
  let tmp := add2 (d1 f) (d2 f) in
  let t1 := add2 (d1 f) (d2 f) in
  let t1 := mul2 t1 tmp in
  let t1 := sub2 t1 bb in
  let t1 := sub2 t1 cc in
  let t1 := nr2 t1 in
  let t1 := add2 t1 aa in
  let tmp := add2 (d0 f) (d2 f) in
  let fc2 := d0 f in
  let fc2 := add2 fc2 fc2 in
  let fc2 := mul2 fc2 tmp in
  let fc2 := sub2 fc2 aa in
  let fc2 := add2 fc2 bb in
  let fc2 := sub2 fc2 cc in
  let tmp := add2 (d0 f) (d1 f) in
  let fc1 := d0 f in
  let fc1 := add2 fc1 fc1 in
  let fc1 := mul2 fc1 tmp in
  let fc1 := sub2 fc1 aa in
  let fc1 := sub2 fc1 bb in
  let cc := nr2 cc in
  let fc1 := add2 fc1 cc in
  mkFQ6 t1 fc1 fc2.

(** fq6.go:295-336 InverseAssign: (new receiver, success) *)
Definition FQ6_InverseAssign (f : FQ6 F) : FQ6 F * bool :=
  let k0 := nr2 (d2 f) in
  let k0 := mul2 k0 (d1 f) in
  let k0 := neg2 k0 in
  let c0s := sq2 (d0 f) in
  let k0 := add2 k0 c0s in
  let k1 := sq2 (d2 f) in
  let k1 := nr2 k1 in
  let c0c1 := mul2 (d0 f) (d1 f) in
  let c0c2 := mul2 (d0 f) (d2 f) in
  let k1 := sub2 k1 c0c1 in
  let k2 := sq2 (d1 f) in
  let k2 := sub2 k2 c0c2 in
  let tmp1 := mul2 (d2 f) k1 in
  let tmp2 := mul2 (d1 f) k2 in
  let tmp1 := add2 tmp1 tmp2 in
  let tmp1 := nr2 tmp1 in
  let tmp2 := mul2 (d0 f) k0 in
  let tmp1 := add2 tmp1 tmp2 in
  let '(tmp1, success) := FQ2_InverseAssign tmp1 in
  if negb success then (f, false)
  else (mkFQ6 (mul2 tmp1 k0) (mul2 tmp1 k1) (mul2 tmp1 k2), true).

(** The square-and-multiply loop of FQ6.Exp and FQ12.Exp: `for nCopy != 0`; nCopy has at most 384
    bits, so 385 iterations are enough. *)
Fixpoint ExpLoop {A} (mul : A -> A -> A) (sqr : A -> A) (fuel : nat) (nCopy : FQRepr) (fi res : A) : A :=
  match fuel with
  | O => res
  | S k =>
      if negb (FQRepr_Cmp nCopy bigZero =? 0) then
        let res := if negb (isEven nCopy) then mul res fi else res in
        let fi := sqr fi in
        ExpLoop mul sqr k (FQRepr_Rsh nCopy 1) fi res
      else res
  end.

(** fq6.go:339-351 Exp; `fi.MulAssign(fi)` is the aliased call *)
Definition FQ6_Exp (f : FQ6 F) (n : FQRepr) : FQ6 F :=
  ExpLoop FQ6_MulAssign FQ6_MulAssign_aliased 385 n f FQ6One.

(** ** fq12.go *)
Notation add6 := FQ6_AddAssign. Notation sub6 := FQ6_SubAssign. Notation mul6 := FQ6_MulAssign. Notation nr6 := FQ6_MulByNonresidueAssign.

(** fq12.go:27-29 ConjugateAssign *)
Definition FQ12_ConjugateAssign (f : FQ12 F) : FQ12 F := mkFQ12 (e0 f) (FQ6_NegAssign (e1 f)).

(** fq12.go:32-47 MulBy014Assign *)
Definition FQ12_MulBy014Assign (f : FQ12 F) (c0 c1 c4 : FQ2 F) : FQ12 F :=
  let aa := FQ6_MulBy01Assign (e0 f) c0 c1 in
  let bb := FQ6_MulBy1Assign (e1 f) c4 in
  let c1 := add2 c1 c4 in
  let fc1 := add6 (e1 f) (e0 f) in
  let fc1 := FQ6_MulBy01Assign fc1 c0 c1 in
  let fc1 := sub6 fc1 aa in
  let fc1 := sub6 fc1 bb in
  let fc0 := nr6 bb in
  let fc0 := add6 fc0 aa in
  mkFQ12 fc0 fc1.

(** fq12.go:50, 53 *)
Definition FQ12Zero : FQ12 F := mkFQ12 FQ6Zero FQ6Zero.
Definition FQ12One : FQ12 F := mkFQ12 FQ6One FQ6Zero.

(** fq12.go:56-58 Equals, 61-64, 67-70, 73-76, 79-81 IsZero, 84-87 *)
Definition FQ12_Equals (f other : FQ12 F) : bool := FQ6_Equals (e0 f) (e0 other) && FQ6_Equals (e1 f) (e1 other).
Definition FQ12_DoubleAssign (f : FQ12 F) : FQ12 F := mkFQ12 (FQ6_DoubleAssign (e0 f)) (FQ6_DoubleAssign (e1 f)).
Definition FQ12_NegAssign (f : FQ12 F) : FQ12 F := mkFQ12 (FQ6_NegAssign (e0 f)) (FQ6_NegAssign (e1 f)).
Definition FQ12_AddAssign (f other : FQ12 F) : FQ12 F := mkFQ12 (add6 (e0 f) (e0 other)) (add6 (e1 f) (e1 other)).
Definition FQ12_IsZero (f : FQ12 F) : bool := FQ6_IsZero (e0 f) && FQ6_IsZero (e1 f).
Definition FQ12_SubAssign (f other : FQ12 F) : FQ12 F := mkFQ12 (sub6 (e0 f) (e0 other)) (sub6 (e1 f) (e1 other)).

(** fq12.go:122-168 frobeniusCoeffFQ12c1 *)
Definition rwF := mkFQRepr 0x7089552b319d465 0xc6695f92b50a8313 0x97e83cccd117228f 0xa35baecab2dc29ee 0x1ce393ea5daace4d 0x8f2220fb0fb66eb.
Definition rwG := mkFQRepr 0xb2f66aad4ce5d646 0x5842a06bfc497cec 0xcf4895d42599d394 0xc11b9cba40a8e8d0 0x2e3813cbe5a0de89 0x110eefda88847faf.
Definition rwH := mkFQRepr 0x3e2f585da55c9ad1 0x4294213d86c18183 0x382844c88b623732 0x92ad2afd19103e18 0x1d794e4fac7cf0b9 0xbd592fc7d825ec8.
Definition rwI := mkFQRepr 0x7bcfa7a25aa30fda 0xdc17dec12a927e7c 0x2f088dd86b4ebef1 0xd1ca2087da74d4a7 0x2da2596696cebc1d 0xe2b7eedbbfd87d2.
Definition rwJ := mkFQRepr 0x3726c30af242c66c 0x7c2ac1aad1b6fe70 0xa04007fbba4b14a2 0xef517c3266341429 0x95ba654ed2226b 0x2e370eccc86f7dd.
Definition rwK := mkFQRepr 0x82d83cf50dbce43f 0xa2813e53df9d018f 0xc6f0caa53c65e181 0x7525cf528d50fe95 0x4a85ed50f4798a6b 0x171da0fd6cf8eebd.
Definition frobeniusCoeffFQ12c1 : list (FQ2 F) :=
  [ FQ2One;
    mkFQ2 (raw rwF) (raw rwG);
    mkFQ2 (raw rwE) (raw rw0);
    mkFQ2 (raw rwH) (raw rwI);
    mkFQ2 (raw rwB) (raw rw0);
    mkFQ2 (raw rwJ) (raw rwK);
    mkFQ2 (raw rwD) (raw rw0);
    mkFQ2 (raw rwG) (raw rwF);
    mkFQ2 (raw rwA) (raw rw0);
    mkFQ2 (raw rwI) (raw rwH);
    mkFQ2 (raw rwC) (raw rw0);
    mkFQ2 (raw rwK) (raw rwJ) ].

(** fq12.go:171-177 FrobeniusMapAssign *)
Definition FQ12_FrobeniusMapAssign (f : FQ12 F) (power : Z) : FQ12 F :=
  let g0 := FQ6_FrobeniusMapAssign (e0 f) power in
  let g1 := FQ6_FrobeniusMapAssign (e1 f) power in
  let k := nth (Z.to_nat (power mod 12)) frobeniusCoeffFQ12c1 FQ2Zero in
  mkFQ12 g0 (mkFQ6 (mul2 (d0 g1) k) (mul2 (d1 g1) k) (mul2 (d2 g1) k)).

(** fq12.go:180-195 SquareAssign *)
Definition FQ12_SquareAssign (f : FQ12 F) : FQ12 F :=
  let ab := mul6 (e0 f) (e1 f) in
  let c0c1 := add6 (e0 f) (e1 f) in
  let k0 := nr6 (e1 f) in
  let k0 := add6 k0 (e0 f) in
  let k0 := mul6 k0 c0c1 in
  let k0 := sub6 k0 ab in
  let fc1 := add6 ab ab in
  let ab := nr6 ab in
  let k0 := sub6 k0 ab in
  mkFQ12 k0 fc1.

(** fq12.go:198-213 MulAssign. With other == f the result is the same: aa, bb and o are
    computed from copies before the receiver is written. *)
Definition FQ12_MulAssign (f other : FQ12 F) : FQ12 F :=
  let aa := mul6 (e0 f) (e0 other) in
  let bb := mul6 (e1 f) (e1 other) in
  let o := add6 (e0 other) (e1 other) in
  let fc1 := add6 (e1 f) (e0 f) in
  let fc1 := mul6 fc1 o in
  let fc1 := sub6 fc1 aa in
  let fc1 := sub6 fc1 bb in
  let fc0 := nr6 bb in
  let fc0 := add6 fc0 aa in
  mkFQ12 fc0 fc1.

(** fq12.go:216-237 InverseAssign: (new receiver, success) *)
Definition FQ12_InverseAssign (f : FQ12 F) : FQ12 F * bool :=
  let c0s := FQ6_SquareAssign (e0 f) in
  let c1s := FQ6_SquareAssign (e1 f) in
  let c1s := nr6 c1s in
  let c0s := sub6 c0s c1s in
  let '(c0s, success) := FQ6_InverseAssign c0s in
  if negb success then (f, false)
  else
    let t0 := mul6 c0s (e0 f) in
    let t1 := mul6 c0s (e1 f) in
    let t1 := FQ6_NegAssign t1 in
    (mkFQ12 t0 t1, true).

(** fq12.go:108-120 Exp *)
Definition FQ12_Exp (f : FQ12 F) (n : FQRepr) : FQ12 F :=
  ExpLoop FQ12_MulAssign (fun fi => FQ12_MulAssign fi fi) 385 n f FQ12One.

End Tower.
