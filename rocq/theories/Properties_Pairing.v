(** Properties C36-C39, C55, C56: the Miller loop, the final exponentiation and the exported pairing functions.
    Everything is about the limb-level code ([FqB]); [None] is a Go panic or (for FinalExponentiation) the nil result.
    - [canon12], [canonP1], ...: canonical coordinates; [val12 f]: the element of GF(q^12) an FQ12 stands for;
      [k12_mul], [pw12], [k12_0], [k12_1]: the arithmetic of GF(q^12) = GF(q)[u,v,w].
    - [pr1 (P, Q)] is the MillerLoop item made of P and of G2AffineToPrepared(Q); [fin_item (P, Q)]: both points are
      finite and have canonical coordinates. *)
Require Import ZArith Lia Bool List Permutation.
From Verif Require Import BlsProofs CasesEx.
From Verif Require Import Words ModelRepr ModelFq ModelOps ModelTower ModelCurve ModelPairing NumTheory Primality Fp FpOps FqProofs FqRel OpsRel OpsRel2 FqTransfer Ext TowerProofs TowerLimb EcGroup EcJac Curves CurveLimb CurveMisc Miller PairBasic PairLimb.
Import ListNotations.
Open Scope Z_scope.

(** The items need not be on the curves. *)
Theorem C36_MillerLoop_product items : (forall it, In it items -> fin_item it) ->
  exists f fs, MillerLoop FqB (map pr1 items) = Some f /\ canon12 f /\
    Forall2 (fun it g => MillerLoop FqB [pr1 it] = Some g /\ canon12 g) items fs /\
    val12 f = fold_right k12_mul k12_1 (map val12 fs).
Proof. exact (ML_product items). Qed.
Theorem C36_MillerLoop_order items items' : (forall it, In it items -> fin_item it) -> Permutation items items' ->
  MillerLoop FqB (map pr1 items) = MillerLoop FqB (map pr1 items').
Proof. exact (ML_perm items items'). Qed.
Theorem C36_MillerLoop_empty : MillerLoop FqB [] = Some (FQ12One FqB).
Proof. exact ML_empty. Qed.
Example C36_nonvacuous : forall it, In it [(G1AffineOne FqB, G2AffineOne FqB); (Affine_NegAssign FqO (G1AffineOne FqB), G2AffineOne FqB)] -> fin_item it.
Proof.
  assert (canonA1 (Affine_NegAssign FqO (G1AffineOne FqB))) as C by apply (G1_aneg _ G1one_canon).
  intros it [<-|[<-|[]]]; (split; [|split; [exact G2one_canon|split; reflexivity]]); [exact G1one_canon|exact C].
Qed.
Print Assumptions C36_MillerLoop_product.
Print Assumptions C36_MillerLoop_order.
Print Assumptions C36_MillerLoop_empty.

(** C37 as stated is false: an item with a component at infinity makes the loop panic, whatever the other items are. *)
Theorem C37_infinity_panics items P Q : In (P, Q) items -> ainf P = true \/ pinf Q = true -> MillerLoop FqB items = None.
Proof. exact (MillerLoop_infinity FqB items P Q). Qed.
Theorem C37_Pairing_panics P Q : canonP1 P -> canonP2 Q -> jac1 P = Inf \/ jac2 Q = Inf -> Pairing FqB P Q = None.
Proof. exact (Pairing_inf_limb P Q). Qed.
Theorem C37_Compare_panics P1 Q1 P2 Q2 : canonP1 P1 -> canonP2 Q1 -> canonP1 P2 -> canonP2 Q2 ->
  jac1 P1 = Inf \/ jac2 Q1 = Inf \/ jac1 P2 = Inf \/ jac2 Q2 = Inf -> CompareTwoPairings FqB P1 Q1 P2 Q2 = None.
Proof. exact (Compare_inf_limb P1 Q1 P2 Q2). Qed.
Example C37_nonvacuous : ainf (AffineZero FqO) = true /\ canonP1 (ProjectiveZero FqO) /\ jac1 (ProjectiveZero FqO) = Inf /\ canonP2 (ProjectiveZero FqO2) /\ jac2 (ProjectiveZero FqO2) = Inf.
Proof. split; [reflexivity|]. exact (conj (proj1 G1_zero) (conj (proj2 G1_zero) G2_zero)). Qed.
Theorem C37_MillerLoop_infinity_refuted : exists P Q, canonA1 P /\ canonA2 Q /\ ainf Q = false /\ aff1 P = Inf /\ MillerLoop FqB [pr1 (P, Q)] = None.
Proof.
  exists (AffineZero FqO), (G2AffineOne FqB). destruct G1_azero as [C A]. split; [exact C|]. split; [exact G2one_canon|]. split; [reflexivity|]. split; [exact A|].
  apply (MillerLoop_infinity FqB _ (AffineZero FqO) (G2AffineToPrepared FqB (G2AffineOne FqB))); [left|left]; reflexivity.
Qed.
Print Assumptions C37_infinity_panics.
Print Assumptions C37_Pairing_panics.
Print Assumptions C37_Compare_panics.
Print Assumptions C37_MillerLoop_infinity_refuted.

Theorem C38_FinalExponentiation_power f : canon12 f ->
  (val12 f = k12_0 -> FinalExponentiation FqB f = None) /\
  (val12 f <> k12_0 -> exists e, FinalExponentiation FqB f = Some e /\ canon12 e /\
     val12 e = pw12 (val12 f) (3 * ((q ^ 12 - 1) / r)) /\ pw12 (val12 e) r = k12_1).
Proof. exact (FE_limb f). Qed.
Theorem C38_FinalExponentiation_multiplicative f g e1 e2 : canon12 f -> canon12 g ->
  FinalExponentiation FqB f = Some e1 -> FinalExponentiation FqB g = Some e2 ->
  FinalExponentiation FqB (FQ12_MulAssign FqB f g) = Some (FQ12_MulAssign FqB e1 e2).
Proof. exact (FE_mult f g e1 e2). Qed.
Example C38_exponent : 3 * ((q ^ 12 - 1) / r) * r = 3 * (q ^ 12 - 1).
Proof. rewrite <- FinExp.finE_div. exact FinExp.finE_r. Qed.
Print Assumptions C38_FinalExponentiation_power.
Print Assumptions C38_FinalExponentiation_multiplicative.

Theorem C39_CompareTwoPairings P1 Q1 P2 Q2 e1 e2 : canonP1 P1 -> canonP2 Q1 -> canonP1 P2 -> canonP2 Q2 ->
  Pairing FqB P1 Q1 = Some e1 -> Pairing FqB P2 Q2 = Some e2 ->
  exists b, CompareTwoPairings FqB P1 Q1 P2 Q2 = Some b /\ (b = true <-> e1 = e2).
Proof. exact (Compare_limb P1 Q1 P2 Q2 e1 e2). Qed.
(** e(G1, G2) <> e(2 G1, G2) = e(G1, 2 G2): both outcomes of the comparison occur *)
Example C39_C56_nonvacuous : let P := G1ProjectiveOne FqB in let Q := G2ProjectiveOne FqB in canonP1 P /\ canonP2 Q /\
  exists e1 e2 e3, Pairing FqB P Q = Some e1 /\ Pairing FqB (Double FqO P) Q = Some e2 /\ Pairing FqB P (Double FqO2 Q) = Some e3 /\ e1 <> e2 /\ e2 = e3.
Proof. destruct points1 as ([C _] & _), points2 as ([D _] & _). exact (conj C (conj D pairing_values)). Qed.
Print Assumptions C39_CompareTwoPairings.

(** The number of coefficients is the one the loop of MillerLoop consumes: 62 doublings, 5 additions, 1 doubling. *)
Theorem C55_prepared_fits Q : ainf Q = false ->
  pinf (G2AffineToPrepared FqB Q) = false /\ length (coeffs (G2AffineToPrepared FqB Q)) = 68%nat.
Proof. exact (prepared_length FqB Q). Qed.
Theorem C55_no_panic P Q : fin_item (P, Q) -> exists f, MillerLoop FqB [(P, G2AffineToPrepared FqB Q)] = Some f.
Proof. intros H. destruct (ML_product [(P, Q)]) as (f & _ & Hf & _); [intros it [<-|[]]; exact H|]. exists f. exact Hf. Qed.
Theorem C55_none_left P cs : ainf P = false -> (length cs < 68)%nat -> MillerLoop FqB [(P, mkPrep cs false)] = None.
Proof. exact (MillerLoop_short FqB P cs). Qed.
Example C55_nonvacuous : fin_item (G1AffineOne FqB, G2AffineOne FqB).
Proof. split; [exact G1one_canon|]. split; [exact G2one_canon|]. split; reflexivity. Qed.
Print Assumptions C55_prepared_fits.
Print Assumptions C55_no_panic.
Print Assumptions C55_none_left.

Theorem C56_negation_inverts P Q e : canonP1 P -> canonP2 Q -> Pairing FqB P Q = Some e ->
  exists e', Pairing FqB (Proj_NegAssign FqO P) Q = Some e' /\ FQ12_MulAssign FqB e' e = FQ12One FqB.
Proof. exact (Pairing_neg_limb P Q e). Qed.
Print Assumptions C56_negation_inverts.
