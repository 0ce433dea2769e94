(** The objects of g1pubs/bls.go and g2pubs/bls.go as memory: a PublicKey or Signature is a struct with a pointer to a projective
    point (bls.go:12-15, 51-54).  Objects and points are numbered in the order of allocation.
    [exposed] are the points callers hold pointers to: results of GetPoint, and any point they allocated themselves. *)
Require Import ZArith Lia Bool List.
From Verif Require Import ModelOps ModelCurve.
Import ListNotations.

Inductive ocall (F : Type) :=
| ONew (P : Proj F)                      (* NewSignatureFromG2, Deserialize*, Sign, PrivToPub, NewAggregate*: an object with a new point *)
| OCopy (o : nat)                        (* bls.go:48-50, 200-202 Copy *)
| OAggregate (o o' : nat)                (* bls.go:178-181, 194-197 Aggregate: o.p = o.p.Add(o'.p) *)
| OAggregateAll (os : list nat)          (* bls.go:169-175, 185-191 AggregateSignatures, AggregatePublicKeys *)
| OGetPoint (o : nat)                    (* bls.go:27-29, 61-63 GetPoint *)
| OPointNeg (p : nat).                   (* g1.go:259-261, g2.go NegAssign of a projective point through a pointer the caller holds *)
Arguments ONew {F}. Arguments OCopy {F}. Arguments OAggregate {F}. Arguments OAggregateAll {F}. Arguments OGetPoint {F}. Arguments OPointNeg {F}.

Section H.
  Context {F : Type} (O : Ops F).
  (** whether GetPoint copies (as in the code) or returns the pointer in the object *)
  Context (copies : bool).
  Record OState := mkOState { points : list (Proj F); objects : list nat; exposed : list nat }.
  Definition point (s : OState) (p : nat) : Proj F := nth p (points s) (ProjectiveZero O).
  (** what Serialize, Verify, Equals, ... see of an object *)
  Definition value (s : OState) (o : nat) : Proj F := point s (nth o (objects s) 0%nat).
  Fixpoint set_nth {A} (l : list A) (k : nat) (a : A) : list A :=
    match l, k with [], _ => [] | _ :: l, 0%nat => a :: l | x :: l, S k => x :: set_nth l k a end.
  Definition new_object (s : OState) (P : Proj F) : OState := mkOState (points s ++ [P]) (objects s ++ [length (points s)]) (exposed s).
  (** o.p = <new point>: bls.go:179-180 *)
  Definition assign (s : OState) (o : nat) (P : Proj F) : OState := mkOState (points s ++ [P]) (set_nth (objects s) o (length (points s))) (exposed s).
  Definition ostep (s : OState) (c : ocall F) : OState :=
    match c with
    | ONew P => new_object s P
    | OCopy o => new_object s (value s o)
    | OAggregate o o' => assign s o (Add O (value s o) (value s o'))
    | OAggregateAll os => (* newPub = {Zero.Copy()}; for each: newPub.Aggregate(pub) *)
        let new := length (objects s) in
        fold_left (fun s o' => assign s new (Add O (value s new) (value s o'))) os (new_object s (ProjectiveZero O))
    | OGetPoint o => if copies then mkOState (points s ++ [value s o]) (objects s) (length (points s) :: exposed s)
                     else mkOState (points s) (objects s) (nth o (objects s) 0%nat :: exposed s)
    | OPointNeg p => mkOState (set_nth (points s) p (Proj_NegAssign O (point s p))) (objects s) (exposed s)
    end.
  (** callers use objects that exist and point pointers they hold *)
  Definition ook (s : OState) (c : ocall F) : Prop :=
    match c with
    | ONew _ => True
    | OCopy o | OGetPoint o => (o < length (objects s))%nat
    | OAggregate o o' => (o < length (objects s))%nat /\ (o' < length (objects s))%nat
    | OAggregateAll os => Forall (fun o => (o < length (objects s))%nat) os
    | OPointNeg p => In p (exposed s)
    end.
  Fixpoint orun (s : OState) (l : list (ocall F)) : OState := match l with [] => s | c :: l => orun (ostep s c) l end.
  Fixpoint ook_all (s : OState) (l : list (ocall F)) : Prop := match l with [] => True | c :: l => ook s c /\ ook_all (ostep s c) l end.
  Definition oinit : OState := mkOState [] [] [].
  Definition receiver (c : ocall F) : option nat := match c with OAggregate o _ => Some o | _ => None end.
End H.
