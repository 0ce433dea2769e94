(** Fields with decidable equality, bundled. *)
Require Import ZArith Lia Bool List Ring Field Setoid Morphisms.
From Verif Require Import Fp.

Record Fld := mkFld {
  fT :> Type; fO : fT; fI : fT; fA : fT -> fT -> fT; fM : fT -> fT -> fT; fS : fT -> fT -> fT;
  fN : fT -> fT; fD : fT -> fT -> fT; fV : fT -> fT;
  fTh : field_theory fO fI fA fM fS fN fD fV (@eq fT);
  fDec : forall x y : fT, {x = y} + {x <> y} }.
Arguments fO {_}. Arguments fI {_}. Arguments fA {_}. Arguments fM {_}. Arguments fS {_}. Arguments fN {_}. Arguments fD {_}. Arguments fV {_}.
Arguments fDec {_}.
Declare Scope fld_scope.
Delimit Scope fld_scope with F.
Notation "0" := fO : fld_scope. Notation "1" := fI : fld_scope.
Infix "+" := fA : fld_scope. Infix "*" := fM : fld_scope. Infix "-" := fS : fld_scope. Notation "- x" := (fN x) : fld_scope. Infix "/" := fD : fld_scope.
Definition fRing (K : Fld) := F_R (fTh K).

Section FldFacts.
Context (K : Fld).
Add Field KF0 : (fTh K).
Open Scope fld_scope.
Implicit Types x y z : K.
Lemma fld_integral x y : x * y = 0 -> x = 0 \/ y = 0. Proof. apply (f_integral _ _ _ _ _ _ _ _ (fTh K) fDec). Qed.
Lemma fld_mul_ne x y : x <> 0 -> y <> 0 -> x * y <> 0. Proof. apply (f_mul_ne _ _ _ _ _ _ _ _ (fTh K) fDec). Qed.
Lemma fld_sub_0 x y : x - y = 0 <-> x = y. Proof. apply (f_sub_0 _ _ _ _ _ _ _ _ (fTh K)). Qed.
Lemma fld_cancel a x y : a <> 0 -> a * x = a * y -> x = y. Proof. apply (f_cancel_l _ _ _ _ _ _ _ _ (fTh K)). Qed.
Lemma fld_sq_eq x y : x * x = y * y -> x = y \/ x = - y. Proof. apply (f_sq_eq _ _ _ _ _ _ _ _ (fTh K) fDec). Qed.
Lemma fld_inv_l x : x <> 0 -> fV x * x = 1. Proof. apply (Finv_l (fTh K)). Qed.
Lemma fld_inv_ne x : x <> 0 -> fV x <> 0.
Proof. intros H E. apply (F_1_neq_0 (fTh K)). rewrite <- (fld_inv_l x H), E. ring. Qed.
Lemma fld_1_ne_0 : (1 : K) <> 0. Proof. apply (F_1_neq_0 (fTh K)). Qed.
Lemma fld_opp_ne x : x <> 0 -> - x <> 0. Proof. intros H E. apply H. transitivity (- - x); [ring|rewrite E; ring]. Qed.
Lemma fld_sub_ne x y : x <> y -> x - y <> 0. Proof. intros H E. apply H, fld_sub_0, E. Qed.
Lemma fld_sq_0 x : x * x = 0 -> x = 0. Proof. intros E. destruct (fld_integral _ _ E); assumption. Qed.
End FldFacts.
