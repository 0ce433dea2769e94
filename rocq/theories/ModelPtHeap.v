(** Pointers to affine points.  Cell 0 of the heap is the package variable G1AffineZero (g1.go:22) or G2AffineZero (g2.go:24);
    the other cells are the points handed to callers.  A history is a list of calls; callers use only pointers they were given. *)
Require Import ZArith Lia Bool List.
From Verif Require Import Words ModelRepr ModelFq ModelFr ModelOps ModelTower ModelCurve.
Import ListNotations.
Open Scope Z_scope.

Inductive pcall (F : Type) :=
| PToAffine (P : Proj F)                 (* g1.go:322-345, g2.go:365-387 ToAffine: a pointer *)
| PCopy (p : nat)                        (* g1.go:42-44, g2.go:53-55 Copy: a new pointer *)
| PNeg (p : nat)                         (* g1.go:52-56, g2.go:63-67 NegAssign *)
| PSetRaw (p : nat) (b : list Z).        (* g1.go:170-181, g2.go:189-215 SetRawBytes *)
Arguments PToAffine {F}. Arguments PCopy {F}. Arguments PNeg {F}. Arguments PSetRaw {F}.

Section H.
  Context {F : Type} (O : Ops F) (toAffine : Proj F -> Affine F) (setRaw : Affine F -> list Z -> Affine F).
  (** whether ToAffine of the identity returns the package variable itself (g2.go:367) or a copy of it (g1.go:324) *)
  Context (share : bool).
  Record PState := mkPState { cells : list (Affine F); held : list nat }.
  Definition cell (s : PState) (p : nat) : Affine F := nth p (cells s) (AffineZero O).
  Fixpoint set_cell (l : list (Affine F)) (p : nat) (a : Affine F) : list (Affine F) :=
    match l, p with [], _ => [] | _ :: l, 0%nat => a :: l | x :: l, S p => x :: set_cell l p a end.
  Definition give (s : PState) (a : Affine F) : PState := mkPState (cells s ++ [a]) (length (cells s) :: held s).
  Definition pstep (s : PState) (c : pcall F) : PState :=
    match c with
    | PToAffine P =>
        if Proj_IsZero O P then (if share then mkPState (cells s) (0%nat :: held s) else give s (cell s 0))
        else give s (toAffine P)
    | PCopy p => give s (cell s p)
    | PNeg p => mkPState (set_cell (cells s) p (Affine_NegAssign O (cell s p))) (held s)
    | PSetRaw p b => mkPState (set_cell (cells s) p (setRaw (cell s p) b)) (held s)
    end.
  Definition pok (s : PState) (c : pcall F) : Prop :=
    match c with PToAffine _ => True | PCopy p | PNeg p | PSetRaw p _ => In p (held s) end.
  Fixpoint prun (s : PState) (l : list (pcall F)) : PState := match l with [] => s | c :: l => prun (pstep s c) l end.
  Fixpoint pok_all (s : PState) (l : list (pcall F)) : Prop := match l with [] => True | c :: l => pok s c /\ pok_all (pstep s c) l end.
  (** at package initialisation *)
  Definition pinit : PState := mkPState [AffineZero O] [].
End H.
