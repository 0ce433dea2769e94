(** Pointer-level model of fr.go. FR is `struct { n *FRRepr }`, so methods write through a pointer that may be
    shared. Two object stores: FRRepr objects (four words) and FR objects (holding the address of an FRRepr).
    Package variables live at fixed addresses. Simplification: temporaries that a method allocates and never lets
    escape are computed at value level with the functions of ModelFr.v; everything that reads a package variable
    reads the current contents of its object. *)
Require Import ZArith Bool List Arith.
From Verif Require Import Words ModelRepr ModelFq ModelFr.
Import ListNotations.
Open Scope Z_scope.

Record heap := mkHeap {
  reprs : nat -> FRRepr;  (* FRRepr objects *)
  frn : nat -> nat;       (* FR objects: field n *)
  nreprs : nat;           (* next free FRRepr address *)
  nfrs : nat }.           (* next free FR address *)

(** Addresses of package variables: RFieldModulus (fr.go:16), FRR2 (38), frOne (127), frZero (128), rMinus1Over2 (301). *)
Definition aRFieldModulus : nat := 0.
Definition aFRR2 : nat := 1.
Definition aFrOne : nat := 2.
Definition aFrZero : nat := 3.
Definition aRMinus1Over2 : nat := 4.
(** FR objects bigOneFR (fr.go:129) and bigZeroFR (130). *)
Definition oBigOneFR : nat := 0.
Definition oBigZeroFR : nat := 1.

Definition upd {A} (m : nat -> A) (a : nat) (v : A) : nat -> A := fun b => if Nat.eqb b a then v else m b.
Definition wr (h : heap) (a : nat) (v : FRRepr) : heap := mkHeap (upd (reprs h) a v) (frn h) (nreprs h) (nfrs h).
Definition newRepr (h : heap) (v : FRRepr) : heap * nat :=
  (mkHeap (upd (reprs h) (nreprs h) v) (frn h) (S (nreprs h)) (nfrs h), nreprs h).
Definition newFR (h : heap) (n : nat) : heap * nat :=
  (mkHeap (reprs h) (upd (frn h) (nfrs h) n) (nreprs h) (S (nfrs h)), nfrs h).
(** the four words behind an FR object *)
Definition rd (h : heap) (f : nat) : FR := mkFR (reprs h (frn h f)).
(** a fresh FR object holding a fresh FRRepr *)
Definition fresh (h : heap) (v : FR) : heap * nat := let '(h, a) := newRepr h (fr_n v) in newFR h a.

(** fr.go:42-49 FRReprToFR: the FR points to the caller's FRRepr, and MulAssign writes through it. *)
Definition hFRReprToFR (h : heap) (o : nat) : heap * option nat :=
  if FRRepr_Cmp (reprs h o) (reprs h aRFieldModulus) <? 0 then
    let h := wr h o (fr_n (FR_MulAssign (mkFR (reprs h o)) (mkFR (reprs h aFRR2)))) in
    let '(h, f) := newFR h o in (h, Some f)
  else (h, None).

(** Package initialisation: the literals, then bigOneFR = FRReprToFR(frOne), bigZeroFR = FRReprToFR(frZero). *)
Definition heap0 : heap :=
  let h := mkHeap (fun _ => NewFRRepr 0) (fun _ => O) O O in
  let h := fst (newRepr h RFieldModulus) in
  let h := fst (newRepr h FRR2) in
  let h := fst (newRepr h frOne) in
  let h := fst (newRepr h frZero) in
  let h := fst (newRepr h rMinus1Over2) in
  let h := fst (hFRReprToFR h aFrOne) in
  fst (hFRReprToFR h aFrZero).

Inductive call :=
| CNew (v : FRRepr)            (* FRReprFromBytes, FRReprFromBigInt, NewFRRepr ...: a new FRRepr *)
| CFRReprToFR (o : nat)        (* fr.go:42, and KeyFromFQRepr of g1pubs/bls.go:160 and g2pubs/bls.go:154 *)
| CCopy (f : nat) | CAdd (f g : nat) | CMul (f g : nat) | CSub (f g : nat) | CNeg (f : nat)
| CDouble (f : nat) | CSquare (f : nat) | CExp (f n : nat) | CInverse (f : nat) | CSqrt (f : nat)
| CMulBits (f n : nat) | CMulBytes (f : nat) (b : list Z) | CHashFR (digest : list Z)
| CLegendre (f : nat) | CToRepr (f : nat) | CEquals (f g : nat) | CIsZero (f : nat) | CCmp (f g : nat).

Inductive result := RNone | RFR (f : nat) | RRepr (o : nat) | RBool (b : bool) | RInt (z : Z) | RLeg (l : LegendreSymbol).

(** fr.go:272-281, 284-293 with the current bigZeroFR as the start value *)
Definition hMulBits (zero f : FR) (b : FRRepr) : FR :=
  fold_left (fun res i =>
      let res := FR_DoubleAssign res in
      match FRRepr_Bit b (Z.of_nat i) with Some true => FR_AddAssign res f | _ => res end)
    (seq 0 (Z.to_nat (FRRepr_BitLen b))) zero.
Definition hMulBytes (zero f : FR) (b : list Z) : FR :=
  fold_left (fun res i =>
      let res := FR_DoubleAssign res in
      if negb (wand (nth (i / 8) b 0) (wshl 1 (Z.of_nat (i mod 8))) =? 0) then FR_AddAssign res f else res)
    (seq 0 (length b * 8)) zero.

Definition hIsZero (h : heap) (v : FR) : bool := FRRepr_Cmp (fr_n v) (reprs h aFrZero) =? 0.
Definition withFR (p : heap * nat) : heap * result := let '(h, f) := p in (h, RFR f).

Definition step (h : heap) (c : call) : heap * result :=
  match c with
  | CNew v => let '(h, a) := newRepr h v in (h, RRepr a)
  | CFRReprToFR o => let '(h, r) := hFRReprToFR h o in (h, match r with Some f => RFR f | None => RNone end)
  | CCopy f => withFR (fresh h (rd h f))
  | CAdd f g => (wr h (frn h f) (fr_n (FR_AddAssign (rd h f) (rd h g))), RNone)
  | CMul f g => (wr h (frn h f) (fr_n (FR_MulAssign (rd h f) (rd h g))), RNone)
  | CSub f g => (wr h (frn h f) (fr_n (FR_SubAssign (rd h f) (rd h g))), RNone)
  | CNeg f => (* fr.go:153-159: f.n becomes a new FRRepr *)
      if negb (hIsZero h (rd h f)) then
        let '(h1, a) := newRepr h (FRRepr_SubNoBorrow (reprs h aRFieldModulus) (fr_n (rd h f))) in
        (mkHeap (reprs h1) (upd (frn h1) f a) (nreprs h1) (nfrs h1), RNone)
      else (h, RNone)
  | CDouble f => (wr h (frn h f) (fr_n (FR_DoubleAssign (rd h f))), RNone)
  | CSquare f => (wr h (frn h f) (fr_n (FR_SquareAssign (rd h f))), RNone)
  | CExp f n => withFR (fresh h (FR_Exp_with (rd h oBigOneFR) (rd h f) (reprs h n)))
  | CInverse f =>
      if hIsZero h (rd h f) then (h, RNone)
      else match FR_Inverse (rd h f) with Some v => withFR (fresh h v) | None => (h, RNone) end
  | CSqrt f => (* fr.go:213-216: return FRReprToFR(frOne) *)
      let '(h, r) := hFRReprToFR h aFrOne in (h, match r with Some f => RFR f | None => RNone end)
  | CMulBits f n => withFR (fresh h (hMulBits (rd h oBigZeroFR) (rd h f) (reprs h n)))
  | CMulBytes f b => withFR (fresh h (hMulBytes (rd h oBigZeroFR) (rd h f) b))
  | CHashFR d => withFR (fresh h (hMulBytes (rd h oBigZeroFR) (rd h oBigOneFR) d))
  | CLegendre f =>
      let o := FR_Exp_with (rd h oBigOneFR) (rd h f) (reprs h aRMinus1Over2) in
      (h, RLeg (if hIsZero h o then LegendreZero
                else if FR_Equals o (rd h oBigOneFR) then LegendreQuadraticResidue
                else LegendreQuadraticNonResidue))
  | CToRepr f => let '(h, a) := newRepr h (FR_ToRepr (rd h f)) in (h, RRepr a)
  | CEquals f g => (h, RBool (FR_Equals (rd h f) (rd h g)))
  | CIsZero f => (h, RBool (hIsZero h (rd h f)))
  | CCmp f g => (h, RInt (FR_Cmp (rd h f) (rd h g)))
  end.

Fixpoint run (h : heap) (cs : list call) : heap :=
  match cs with [] => h | c :: cs => run (fst (step h c)) cs end.

(** Package state: the contents of every package variable of fr.go. *)
Definition globals (h : heap) : list FRRepr * list nat :=
  (map (reprs h) [aRFieldModulus; aFRR2; aFrOne; aFrZero; aRMinus1Over2], map (frn h) [oBigOneFR; oBigZeroFR]).

(** Objects a caller can hold: allocated after package initialisation. *)
Definition user_repr (h : heap) (a : nat) : Prop := (5 <= a < nreprs h)%nat.
Definition user_fr (h : heap) (f : nat) : Prop := (2 <= f < nfrs h)%nat.
Definition call_ok (h : heap) (c : call) : Prop :=
  match c with
  | CNew _ | CHashFR _ => True
  | CFRReprToFR o => user_repr h o
  | CCopy f | CNeg f | CDouble f | CSquare f | CInverse f | CSqrt f | CLegendre f | CToRepr f | CIsZero f | CMulBytes f _ => user_fr h f
  | CAdd f g | CMul f g | CSub f g | CEquals f g | CCmp f g => user_fr h f /\ user_fr h g
  | CExp f n | CMulBits f n => user_fr h f /\ user_repr h n
  end.
Definition is_sqrt (c : call) : bool := match c with CSqrt _ => true | _ => false end.
Fixpoint calls_ok (h : heap) (cs : list call) : Prop :=
  match cs with [] => True | c :: cs => call_ok h c /\ calls_ok (fst (step h c)) cs end.
