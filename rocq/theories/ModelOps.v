(** The operations of the base field FQ used by the higher layers, as a record, so that the
    tower, curve, pairing and hashing code is transcribed once. The model of the Go code is the
    transcription applied to [FqB] (limb-level FQ of ModelFq.v). *)
Require Import ZArith Bool List.
From Verif Require Import Words ModelRepr ModelFq.
Import ListNotations.
Open Scope Z_scope.

(** Methods shared by FQ and FQ2. A method with pointer receiver returns the new receiver. *)
Record Ops (F : Type) := mkOps {
  o_zero : F;                   (* FQZero, FQ2Zero *)
  o_one : F;                    (* FQOne, FQ2One *)
  o_add : F -> F -> F;          (* AddAssign *)
  o_sub : F -> F -> F;          (* SubAssign *)
  o_mul : F -> F -> F;          (* MulAssign *)
  o_sq : F -> F;                (* SquareAssign *)
  o_dbl : F -> F;               (* DoubleAssign *)
  o_neg : F -> F;               (* NegAssign *)
  o_inv : F -> F * bool;        (* FQ.Inverse; FQ2.InverseAssign with the new receiver *)
  o_iszero : F -> bool;         (* IsZero *)
  o_equals : F -> F -> bool;    (* Equals *)
  o_cmp : F -> F -> Z;          (* Cmp *)
  o_sqrt : F -> F * bool        (* Sqrt *)
}.
Arguments mkOps {F}. Arguments o_zero {F}. Arguments o_one {F}. Arguments o_add {F}. Arguments o_sub {F}.
Arguments o_mul {F}. Arguments o_sq {F}. Arguments o_dbl {F}. Arguments o_neg {F}. Arguments o_inv {F}.
Arguments o_iszero {F}. Arguments o_equals {F}. Arguments o_cmp {F}. Arguments o_sqrt {F}.

(** Additional methods of FQ. *)
Record BOps (F : Type) := mkBOps {
  b_ops : Ops F;
  b_raw : FQRepr -> F;          (* FQReprToFQRaw *)
  b_of : FQRepr -> F;           (* FQReprToFQ *)
  b_repr : F -> FQRepr;         (* ToRepr *)
  b_exp : F -> FQRepr -> F;     (* Exp *)
  b_legendre : F -> LegendreSymbol (* Legendre *)
}.
Arguments mkBOps {F}. Arguments b_ops {F}. Arguments b_raw {F}. Arguments b_of {F}. Arguments b_repr {F}.
Arguments b_exp {F}. Arguments b_legendre {F}.

(** fq.go *)
Definition FqO : Ops FQ := {|
  o_zero := FQZero; o_one := FQOne; o_add := FQ_AddAssign; o_sub := FQ_SubAssign; o_mul := FQ_MulAssign;
  o_sq := FQ_SquareAssign; o_dbl := FQ_DoubleAssign; o_neg := FQ_NegAssign; o_inv := FQ_Inverse;
  o_iszero := FQ_IsZero; o_equals := FQ_Equals; o_cmp := FQ_Cmp; o_sqrt := FQ_Sqrt |}.
Definition FqB : BOps FQ := {|
  b_ops := FqO; b_raw := FQReprToFQRaw; b_of := FQReprToFQ; b_repr := FQ_ToRepr; b_exp := FQ_Exp; b_legendre := FQ_Legendre |}.

(** The loop of FQ.Exp (fq.go:96-113) and FQ2.Exp (fq2.go:170-187): state (foundOne, res). *)
Definition ExpBits {A} (one : A) (sq : A -> A) (mul : A -> A -> A) (f : A) (n : FQRepr) : A :=
  snd (for_bits (FQRepr_slice n)
    (fun next st =>
       let '(foundOne, res) := st : bool * A in
       let '(foundOne, res) := if foundOne then (foundOne, sq res) else (next, res) in
       (foundOne, if next then mul res f else res))
    (false, one)).

Lemma FQ_Exp_ExpBits : FQ_Exp = ExpBits FQOne FQ_SquareAssign FQ_MulAssign.
Proof. reflexivity. Qed.
