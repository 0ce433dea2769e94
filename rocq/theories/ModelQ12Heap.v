(** fq6.go and fq12.go as programs on memory: an FQ12 is a struct of two pointers to FQ6 (fq12.go:9-12), and its methods write
    through them.  Objects are numbered in the order of allocation; [c6] holds the FQ6 structs, [c12] the FQ12 structs.
    FQ6 methods without pointer arguments are functions of the struct; the others are transcribed assignment by assignment. *)
Require Import ZArith Bool List Arith.
From Verif Require Import Words ModelRepr ModelFq ModelOps ModelTower ModelCurve ModelPairing.
Import ListNotations.
Local Open Scope nat_scope.

Record Mem (F : Type) := mkMem { c6 : nat -> FQ6 F; n6 : nat; c12 : nat -> nat * nat; n12 : nat }.
Arguments mkMem {F}. Arguments c6 {F}. Arguments n6 {F}. Arguments c12 {F}. Arguments n12 {F}.

Section H.
Context {F : Type} (B : BOps F).
Notation mem := (Mem F).
Notation add2 := (FQ2_AddAssign B). Notation sub2 := (FQ2_SubAssign B). Notation mul2 := (FQ2_MulAssign B). Notation nr2 := (FQ2_MultiplyByNonresidueAssign B).

Definition put {A} (f : nat -> A) (p : nat) (v : A) : nat -> A := fun k => if k =? p then v else f k.
Definition set6 (m : mem) (p : nat) (v : FQ6 F) : mem := mkMem (put (c6 m) p v) (n6 m) (c12 m) (n12 m).
Definition new6 (m : mem) (v : FQ6 F) : mem * nat := (mkMem (put (c6 m) (n6 m) v) (S (n6 m)) (c12 m) (n12 m), n6 m).
Definition set12 (m : mem) (x : nat) (v : nat * nat) : mem := mkMem (c6 m) (n6 m) (put (c12 m) x v) (n12 m).
(** fq12.go:15-20 NewFQ12 *)
Definition new12 (m : mem) (a b : nat) : mem * nat := (mkMem (c6 m) (n6 m) (put (c12 m) (n12 m) (a, b)) (S (n12 m)), n12 m).
(** f.c0, f.c1 and the assignments f.c0 = p, f.c1 = p for f *FQ12 *)
Definition fc0 (m : mem) (x : nat) : nat := fst (c12 m x).
Definition fc1 (m : mem) (x : nat) : nat := snd (c12 m x).
Definition set_fc0 (m : mem) (x p : nat) : mem := set12 m x (p, fc1 m x).
Definition set_fc1 (m : mem) (x p : nat) : mem := set12 m x (fc0 m x, p).

(** ** FQ6 *)
(** assignments to one coordinate of the struct at p *)
Definition set_d0 (m : mem) (p : nat) (v : FQ2 F) : mem := set6 m p (mkFQ6 v (d1 (c6 m p)) (d2 (c6 m p))).
Definition set_d1 (m : mem) (p : nat) (v : FQ2 F) : mem := set6 m p (mkFQ6 (d0 (c6 m p)) v (d2 (c6 m p))).
Definition set_d2 (m : mem) (p : nat) (v : FQ2 F) : mem := set6 m p (mkFQ6 (d0 (c6 m p)) (d1 (c6 m p)) v).
(** a method whose arguments are values *)
Definition m6_do (f : FQ6 F -> FQ6 F) (m : mem) (p : nat) : mem := set6 m p (f (c6 m p)).
(** fq6.go:29-31 Copy *)
Definition m6_Copy (m : mem) (p : nat) : mem * nat := new6 m (c6 m p).
(** fq6.go:123-127 AddAssign, 130-134 SubAssign *)
Definition m6_AddAssign (m : mem) (f other : nat) : mem :=
  let m := set_d0 m f (add2 (d0 (c6 m f)) (d0 (c6 m other))) in
  let m := set_d1 m f (add2 (d1 (c6 m f)) (d1 (c6 m other))) in
  set_d2 m f (add2 (d2 (c6 m f)) (d2 (c6 m other))).
Definition m6_SubAssign (m : mem) (f other : nat) : mem :=
  let m := set_d0 m f (sub2 (d0 (c6 m f)) (d0 (c6 m other))) in
  let m := set_d1 m f (sub2 (d1 (c6 m f)) (d1 (c6 m other))) in
  set_d2 m f (sub2 (d2 (c6 m f)) (d2 (c6 m other))).
(** fq6.go:255-292 MulAssign *)
Definition m6_MulAssign (m : mem) (f other : nat) : mem :=
  let aa := mul2 (d0 (c6 m f)) (d0 (c6 m other)) in
  let bb := mul2 (d1 (c6 m f)) (d1 (c6 m other)) in
  let cc := mul2 (d2 (c6 m f)) (d2 (c6 m other)) in
  let tmp := add2 (d1 (c6 m f)) (d2 (c6 m f)) in
  let t1 := add2 (d1 (c6 m other)) (d2 (c6 m other)) in
  let t1 := mul2 t1 tmp in
  let t1 := sub2 t1 bb in
  let t1 := sub2 t1 cc in
  let t1 := nr2 t1 in
  let t1 := add2 t1 aa in
  let tmp := add2 (d0 (c6 m f)) (d2 (c6 m f)) in
  let m := set_d2 m f (d0 (c6 m other)) in
  let m := set_d2 m f (add2 (d2 (c6 m f)) (d2 (c6 m other))) in
  let m := set_d2 m f (mul2 (d2 (c6 m f)) tmp) in
  let m := set_d2 m f (sub2 (d2 (c6 m f)) aa) in
  let m := set_d2 m f (add2 (d2 (c6 m f)) bb) in
  let m := set_d2 m f (sub2 (d2 (c6 m f)) cc) in
  let tmp := add2 (d0 (c6 m f)) (d1 (c6 m f)) in
  let m := set_d1 m f (d0 (c6 m other)) in
  let m := set_d1 m f (add2 (d1 (c6 m f)) (d1 (c6 m other))) in
  let m := set_d1 m f (mul2 (d1 (c6 m f)) tmp) in
  let m := set_d1 m f (sub2 (d1 (c6 m f)) aa) in
  let m := set_d1 m f (sub2 (d1 (c6 m f)) bb) in
  let cc := nr2 cc in
  let m := set_d1 m f (add2 (d1 (c6 m f)) cc) in
  set_d0 m f t1.
(** fq6.go:99-101 Equals *)
Definition m6_Equals (m : mem) (f other : nat) : bool := FQ6_Equals B (c6 m f) (c6 m other).

(** Package initialisation: FQ6Zero and FQ6One (fq6.go:93, 96) are FQ6 objects 0 and 1, FQ12Zero and FQ12One (fq12.go:50, 53)
    are FQ12 objects 0 and 1. *)
Definition pFQ6Zero := 0. Definition pFQ6One := 1. Definition pFQ12Zero := 0. Definition pFQ12One := 1.
Definition mem0 : mem :=
  let m := mkMem (fun _ => FQ6Zero B) 0 (fun _ => (0, 0)) 0 in
  let '(m, zero) := new6 m (FQ6Zero B) in
  let '(m, one) := new6 m (FQ6One B) in
  let '(m, _) := new12 m zero zero in
  fst (new12 m one zero).

(** fq6.go:104-106 IsZero compares with the package variable *)
Definition m6_IsZero (m : mem) (f : nat) : bool := m6_Equals m f pFQ6Zero.

(** ** FQ12 *)
(** fq12.go:27-29 ConjugateAssign *)
Definition m12_ConjugateAssign (m : mem) (f : nat) : mem := m6_do (FQ6_NegAssign B) m (fc1 m f).
(** fq12.go:32-47 MulBy014Assign *)
Definition m12_MulBy014Assign (m : mem) (f : nat) (k0 k1 k4 : FQ2 F) : mem :=
  let '(m, aa) := m6_Copy m (fc0 m f) in
  let m := m6_do (fun a => FQ6_MulBy01Assign B a k0 k1) m aa in
  let '(m, bb) := m6_Copy m (fc1 m f) in
  let m := m6_do (fun b => FQ6_MulBy1Assign B b k4) m bb in
  let k1 := add2 k1 k4 in
  let m := m6_AddAssign m (fc1 m f) (fc0 m f) in
  let m := m6_do (fun a => FQ6_MulBy01Assign B a k0 k1) m (fc1 m f) in
  let m := m6_SubAssign m (fc1 m f) aa in
  let m := m6_SubAssign m (fc1 m f) bb in
  let '(m, n) := m6_Copy m bb in
  let m := set_fc0 m f n in
  let m := m6_do (FQ6_MulByNonresidueAssign B) m (fc0 m f) in
  m6_AddAssign m (fc0 m f) aa.
(** fq12.go:56-58 Equals, 79-81 IsZero *)
Definition m12_Equals (m : mem) (f other : nat) : bool := m6_Equals m (fc0 m f) (fc0 m other) && m6_Equals m (fc1 m f) (fc1 m other).
Definition m12_IsZero (m : mem) (f : nat) : bool := m6_IsZero m (fc0 m f) && m6_IsZero m (fc1 m f).
(** fq12.go:61-64 DoubleAssign, 67-70 NegAssign *)
Definition m12_DoubleAssign (m : mem) (f : nat) : mem :=
  let m := m6_do (FQ6_DoubleAssign B) m (fc0 m f) in
  m6_do (FQ6_DoubleAssign B) m (fc1 m f).
Definition m12_NegAssign (m : mem) (f : nat) : mem :=
  let m := m6_do (FQ6_NegAssign B) m (fc1 m f) in
  m6_do (FQ6_NegAssign B) m (fc0 m f).
(** fq12.go:73-76 AddAssign, 84-87 SubAssign *)
Definition m12_AddAssign (m : mem) (f other : nat) : mem :=
  let m := m6_AddAssign m (fc0 m f) (fc0 m other) in
  m6_AddAssign m (fc1 m f) (fc1 m other).
Definition m12_SubAssign (m : mem) (f other : nat) : mem :=
  let m := m6_SubAssign m (fc0 m f) (fc0 m other) in
  m6_SubAssign m (fc1 m f) (fc1 m other).
(** fq12.go:103-105 Copy *)
Definition m12_Copy (m : mem) (f : nat) : mem * nat :=
  let '(m, a) := m6_Copy m (fc0 m f) in
  let '(m, b) := m6_Copy m (fc1 m f) in
  new12 m a b.
(** fq12.go:90-100 RandFQ12: NewFQ12 of two new FQ6 objects *)
Definition m12_New (m : mem) (v : FQ12 F) : mem * nat :=
  let '(m, a) := new6 m (e0 v) in
  let '(m, b) := new6 m (e1 v) in
  new12 m a b.
(** fq12.go:171-177 FrobeniusMapAssign *)
Definition m12_FrobeniusMapAssign (m : mem) (f : nat) (power : Z) : mem :=
  let k := nth (Z.to_nat (power mod 12)) (frobeniusCoeffFQ12c1 B) (FQ2Zero B) in
  let m := m6_do (fun a => FQ6_FrobeniusMapAssign B a power) m (fc0 m f) in
  let m := m6_do (fun a => FQ6_FrobeniusMapAssign B a power) m (fc1 m f) in
  let m := set_d0 m (fc1 m f) (mul2 (d0 (c6 m (fc1 m f))) k) in
  let m := set_d1 m (fc1 m f) (mul2 (d1 (c6 m (fc1 m f))) k) in
  set_d2 m (fc1 m f) (mul2 (d2 (c6 m (fc1 m f))) k).
(** fq12.go:180-195 SquareAssign *)
Definition m12_SquareAssign (m : mem) (f : nat) : mem :=
  let '(m, ab) := m6_Copy m (fc0 m f) in
  let m := m6_MulAssign m ab (fc1 m f) in
  let '(m, c0c1) := m6_Copy m (fc0 m f) in
  let m := m6_AddAssign m c0c1 (fc1 m f) in
  let '(m, k0) := m6_Copy m (fc1 m f) in
  let m := m6_do (FQ6_MulByNonresidueAssign B) m k0 in
  let m := m6_AddAssign m k0 (fc0 m f) in
  let m := m6_MulAssign m k0 c0c1 in
  let m := m6_SubAssign m k0 ab in
  let '(m, n) := m6_Copy m ab in
  let m := set_fc1 m f n in
  let m := m6_AddAssign m (fc1 m f) ab in
  let m := m6_do (FQ6_MulByNonresidueAssign B) m ab in
  let m := m6_SubAssign m k0 ab in
  set_fc0 m f k0.
(** fq12.go:198-213 MulAssign *)
Definition m12_MulAssign (m : mem) (f other : nat) : mem :=
  let '(m, aa) := m6_Copy m (fc0 m f) in
  let m := m6_MulAssign m aa (fc0 m other) in
  let '(m, bb) := m6_Copy m (fc1 m f) in
  let m := m6_MulAssign m bb (fc1 m other) in
  let '(m, o) := m6_Copy m (fc0 m other) in
  let m := m6_AddAssign m o (fc1 m other) in
  let m := m6_AddAssign m (fc1 m f) (fc0 m f) in
  let m := m6_MulAssign m (fc1 m f) o in
  let m := m6_SubAssign m (fc1 m f) aa in
  let m := m6_SubAssign m (fc1 m f) bb in
  let '(m, n) := m6_Copy m bb in
  let m := set_fc0 m f n in
  let m := m6_do (FQ6_MulByNonresidueAssign B) m (fc0 m f) in
  m6_AddAssign m (fc0 m f) aa.
(** fq12.go:216-237 InverseAssign; tmp, which no one else can reach, is its two fields *)
Definition m12_InverseAssign (m : mem) (f : nat) : mem * bool :=
  let '(m, c0s) := m6_Copy m (fc0 m f) in
  let m := m6_do (FQ6_SquareAssign B) m c0s in
  let '(m, c1s) := m6_Copy m (fc1 m f) in
  let m := m6_do (FQ6_SquareAssign B) m c1s in
  let m := m6_do (FQ6_MulByNonresidueAssign B) m c1s in
  let m := m6_SubAssign m c0s c1s in
  let success := snd (FQ6_InverseAssign B (c6 m c0s)) in
  let m := m6_do (fun a => fst (FQ6_InverseAssign B a)) m c0s in
  if negb success then (m, false)
  else
    let '(m, tmp_c0) := m6_Copy m c0s in
    let '(m, tmp_c1) := m6_Copy m c0s in
    let m := m6_MulAssign m tmp_c0 (fc0 m f) in
    let m := m6_MulAssign m tmp_c1 (fc1 m f) in
    let m := m6_do (FQ6_NegAssign B) m tmp_c1 in
    let m := set_fc0 m f tmp_c0 in
    let m := set_fc1 m f tmp_c1 in
    (m, true).
(** the loop of Exp: fq6.go:343-349, fq12.go:112-118 *)
Fixpoint m_ExpLoop (mul : mem -> nat -> nat -> mem) (fuel : nat) (m : mem) (nCopy : FQRepr) (fi res : nat) : mem :=
  match fuel with
  | O => m
  | S k =>
      if negb (FQRepr_Cmp nCopy bigZero =? 0)%Z then
        let m := if negb (isEven nCopy) then mul m res fi else m in
        let m := mul m fi fi in
        m_ExpLoop mul k m (FQRepr_Rsh nCopy 1) fi res
      else m
  end.
(** fq6.go:339-351 and fq12.go:108-120 Exp *)
Definition m6_Exp (m : mem) (f : nat) (n : FQRepr) : mem * nat :=
  let '(m, res) := m6_Copy m pFQ6One in
  let '(m, fi) := m6_Copy m f in
  (m_ExpLoop m6_MulAssign 385 m n fi res, res).
Definition m12_Exp (m : mem) (f : nat) (n : FQRepr) : mem * nat :=
  let '(m, res) := m12_Copy m pFQ12One in
  let '(m, fi) := m12_Copy m f in
  (m_ExpLoop m12_MulAssign 385 m n fi res, res).

(** ** pairing.go *)
(** pairing.go:28-39 ell *)
Definition m_ell (m : mem) (f : nat) (cs : FQ2 F * FQ2 F * FQ2 F) (p : Affine F) : mem :=
  let '(k0, k1, k2) := cs in
  let k0 := mkFQ2 (o_mul (b_ops B) (c0 k0) (ay p)) (o_mul (b_ops B) (c1 k0) (ay p)) in
  let k1 := mkFQ2 (o_mul (b_ops B) (c0 k1) (ax p)) (o_mul (b_ops B) (c1 k1) (ax p)) in
  m12_MulBy014Assign m f k2 k1 k0.
Fixpoint m_ell_all (m : mem) (f : nat) (pairs : list (pairingItem (F := F))) : option (mem * list (pairingItem (F := F))) :=
  match pairs with
  | [] => Some (m, [])
  | pr :: rest =>
      match nth_error (pi_q pr) (pi_i pr) with
      | None => None
      | Some cs =>
          let m := m_ell m f cs (pi_p pr) in
          match m_ell_all m f rest with
          | None => None
          | Some (m, rest) => Some (m, mkPI (pi_p pr) (pi_q pr) (S (pi_i pr)) :: rest)
          end
      end
  end.
(** pairing.go:16-75 MillerLoop; None: panic *)
Definition m_MillerLoop (m : mem) (items : list (Affine F * G2Prepared F)) : option (mem * nat) :=
  let pairs := map (fun item : Affine F * G2Prepared F =>
      let '(P, Q) := item in
      if negb (Affine_IsZero P) && negb (pinf Q) then mkPI P (coeffs Q) 0 else mkPI (AffineZero (b_ops B)) [] 0) items in
  let '(m, f) := m12_Copy m pFQ12One in
  let st := blsX_loop (fun set st =>
      match st with
      | None => None
      | Some (m, pairs) =>
          match m_ell_all m f pairs with
          | None => None
          | Some (m, pairs) =>
              match (if set : bool then m_ell_all m f pairs else Some (m, pairs)) with
              | None => None
              | Some (m, pairs) => Some (m12_SquareAssign m f, pairs)
              end
          end
      end) (Some (m, pairs)) in
  match st with
  | None => None
  | Some (m, pairs) =>
      match m_ell_all m f pairs with
      | None => None
      | Some (m, pairs) => Some (if blsIsNegative then m12_ConjugateAssign m f else m, f)
      end
  end.
(** pairing.go:94-100 ExpByX *)
Definition m_ExpByX (m : mem) (f : nat) (x : FQRepr) : mem * nat :=
  let '(m, newf) := m12_Exp m f x in
  (if blsIsNegative then m12_ConjugateAssign m newf else m, newf).
(** pairing.go:79-129 FinalExponentiation; nil is None *)
Definition m_FinalExponentiation (m : mem) (r : nat) : mem * option nat :=
  let '(m, f1) := m12_Copy m r in
  let m := m12_ConjugateAssign m f1 in
  let '(m, f2) := m12_Copy m r in
  let '(m, success) := m12_InverseAssign m f2 in
  if negb success then (m, None)
  else
    let '(m, r) := m12_Copy m f1 in
    let m := m12_MulAssign m r f2 in
    let '(m, f2) := m12_Copy m r in
    let m := m12_FrobeniusMapAssign m r 2 in
    let m := m12_MulAssign m r f2 in
    let x := blsX in
    let '(m, y0) := m12_Copy m r in
    let m := m12_SquareAssign m y0 in
    let '(m, y1) := m_ExpByX m y0 x in
    let x := FQRepr_Rsh x 1 in
    let '(m, y2) := m_ExpByX m y1 x in
    let x := FQRepr_Lsh x 1 in
    let '(m, y3) := m12_Copy m r in
    let m := m12_ConjugateAssign m y3 in
    let '(m, y1) := m12_Copy m y1 in
    let m := m12_MulAssign m y1 y3 in
    let m := m12_ConjugateAssign m y1 in
    let m := m12_MulAssign m y1 y2 in
    let '(m, y2) := m_ExpByX m y1 x in
    let '(m, y3) := m_ExpByX m y2 x in
    let m := m12_ConjugateAssign m y1 in
    let m := m12_MulAssign m y3 y1 in
    let m := m12_ConjugateAssign m y1 in
    let m := m12_FrobeniusMapAssign m y1 3 in
    let m := m12_FrobeniusMapAssign m y2 2 in
    let m := m12_MulAssign m y1 y2 in
    let '(m, y2) := m_ExpByX m y3 x in
    let m := m12_MulAssign m y2 y0 in
    let m := m12_MulAssign m y2 r in
    let m := m12_MulAssign m y1 y2 in
    let m := m12_FrobeniusMapAssign m y3 1 in
    let m := m12_MulAssign m y1 y3 in
    (m, Some y1).
(** pairing.go:132-136 Pairing, 140-147 CompareTwoPairings. None: panic. *)
Definition m_Pairing (m : mem) (p : Proj F) (q : Proj (FQ2 F)) : option (mem * option nat) :=
  match m_MillerLoop m [(G1_ToAffine (b_ops B) p, G2AffineToPrepared B (G2_ToAffine (FQ2O B) q))] with
  | None => None
  | Some (m, f) => Some (m_FinalExponentiation m f)
  end.
Definition m_CompareTwoPairings (m : mem) (P1 : Proj F) (Q1 : Proj (FQ2 F)) (P2 : Proj F) (Q2 : Proj (FQ2 F)) : option (mem * bool) :=
  let negP2 := Proj_NegAssign (b_ops B) P2 in
  match m_MillerLoop m [(G1_ToAffine (b_ops B) P1, G2AffineToPrepared B (G2_ToAffine (FQ2O B) Q1));
                        (G1_ToAffine (b_ops B) negP2, G2AffineToPrepared B (G2_ToAffine (FQ2O B) Q2))] with
  | None => None
  | Some (m, f) =>
      let '(m, e) := m_FinalExponentiation m f in
      match e with
      | None => None
      | Some e => Some (m, m12_Equals m e pFQ12One)
      end
  end.

(** what an observer sees of an FQ12 object *)
Definition val12 (m : mem) (x : nat) : FQ12 F := mkFQ12 (c6 m (fc0 m x)) (c6 m (fc1 m x)).

(** ** Histories of calls.  Callers use the package variables (objects 0 and 1) and the FQ12 objects that calls returned. *)
Inductive q12call :=
| QNew (v : FQ12 F) | QCopy (x : nat) | QExp (x : nat) (n : FQRepr)
| QConjugate (x : nat) | QDouble (x : nat) | QNeg (x : nat) | QSquare (x : nat) | QInverse (x : nat)
| QFrobenius (x : nat) (power : Z) | QMulBy014 (x : nat) (k0 k1 k4 : FQ2 F)
| QAdd (x y : nat) | QSub (x y : nat) | QMul (x y : nat)
| QMiller (items : list (Affine F * G2Prepared F)) | QFinal (x : nat) | QPairing (p : Proj F) (q : Proj (FQ2 F))
| QCompare (P1 : Proj F) (Q1 : Proj (FQ2 F)) (P2 : Proj F) (Q2 : Proj (FQ2 F)).
(** memory after the call; the memory at a panic is not looked at *)
Definition qstep (m : mem) (c : q12call) : mem :=
  match c with
  | QNew v => fst (m12_New m v) | QCopy x => fst (m12_Copy m x) | QExp x n => fst (m12_Exp m x n)
  | QConjugate x => m12_ConjugateAssign m x | QDouble x => m12_DoubleAssign m x | QNeg x => m12_NegAssign m x
  | QSquare x => m12_SquareAssign m x | QInverse x => fst (m12_InverseAssign m x)
  | QFrobenius x p => m12_FrobeniusMapAssign m x p | QMulBy014 x k0 k1 k4 => m12_MulBy014Assign m x k0 k1 k4
  | QAdd x y => m12_AddAssign m x y | QSub x y => m12_SubAssign m x y | QMul x y => m12_MulAssign m x y
  | QMiller items => match m_MillerLoop m items with Some (m', _) => m' | None => m end
  | QFinal x => fst (m_FinalExponentiation m x)
  | QPairing p q => match m_Pairing m p q with Some (m', _) => m' | None => m end
  | QCompare P1 Q1 P2 Q2 => match m_CompareTwoPairings m P1 Q1 P2 Q2 with Some (m', _) => m' | None => m end
  end.
(** the object a call writes to *)
Definition qreceiver (c : q12call) : option nat :=
  match c with
  | QConjugate x | QDouble x | QNeg x | QSquare x | QInverse x | QFrobenius x _ | QMulBy014 x _ _ _ | QAdd x _ | QSub x _ | QMul x _ => Some x
  | _ => None
  end.
(** the objects a call mentions *)
Definition qobjects (c : q12call) : list nat :=
  match c with
  | QNew _ | QMiller _ | QPairing _ _ | QCompare _ _ _ _ => []
  | QCopy x | QExp x _ | QConjugate x | QDouble x | QNeg x | QSquare x | QInverse x | QFrobenius x _ | QMulBy014 x _ _ _ | QFinal x => [x]
  | QAdd x y | QSub x y | QMul x y => [x; y]
  end.
Definition qexist (m : mem) (c : q12call) : Prop := Forall (fun x => x < n12 m) (qobjects c).
(** ... and do not call writing methods on the package variables *)
Definition qok (m : mem) (c : q12call) : Prop := qexist m c /\ qreceiver c <> Some pFQ12Zero /\ qreceiver c <> Some pFQ12One.
Fixpoint qrun (m : mem) (l : list q12call) : mem := match l with [] => m | c :: l => qrun (qstep m c) l end.
Fixpoint qok_all (m : mem) (l : list q12call) : Prop := match l with [] => True | c :: l => qok m c /\ qok_all (qstep m c) l end.
End H.
