(** The relation lemmas for the tower, the pairing, the maps to the curves and the signature layer. *)
Require Import ZArith Lia Bool List.
From Verif Require Import Words ModelRepr ReprProofs ReprProofs2 ModelFq ModelFr ModelOps ModelTower ModelCurve ModelPairing ModelHash ModelBls Primality FqProofs OpsRel.
Import ListNotations.
Open Scope Z_scope.

Lemma for_bits_rel {A A'} (RR : A -> A' -> Prop) l f f' s s' :
  (forall b x x', RR x x' -> RR (f b x) (f' b x')) -> RR s s' -> RR (for_bits l f s) (for_bits l f' s').
Proof.
  intros Hf. unfold for_bits. generalize (64 * length l + 1)%nat (NewBitIterator l). intros n. revert s s'.
  induction n as [|n IH]; intros s s' b Hs; cbn [bits_loop]; [assumption|].
  destruct (BitIterator_Next b) as [[next done] b']. destruct done; auto.
Qed.
Lemma ExpBits_rr {A A'} (RR : A -> A' -> Prop) one one' sq sq' mul mul' f f' n :
  RR one one' -> (forall x x', RR x x' -> RR (sq x) (sq' x')) -> (forall x x' y y', RR x x' -> RR y y' -> RR (mul x y) (mul' x' y')) ->
  RR f f' -> RR (ExpBits one sq mul f n) (ExpBits one' sq' mul' f' n).
Proof.
  intros H1 H2 H3 Hf. unfold ExpBits. apply (prodR_snd eq). apply for_bits_rel; [|split; [reflexivity|assumption]].
  intros b [x1 x2] [y1 y2] [Hb Hx]. cbn [fst snd] in *. subst y1. destruct x1, b; split; cbn; auto.
Qed.
Lemma ExpLoop_rr {A A'} (RR : A -> A' -> Prop) sq sq' mul mul' n :
  (forall x x', RR x x' -> RR (sq x) (sq' x')) -> (forall x x' y y', RR x x' -> RR y y' -> RR (mul x y) (mul' x' y')) ->
  forall m f f' r r', RR f f' -> RR r r' -> RR (ExpLoop mul sq n m f r) (ExpLoop mul' sq' n m f' r').
Proof.
  intros H2 H3. induction n as [|n IH]; intros m f f' r r' Hf Hr; cbn [ExpLoop]; [assumption|].
  destruct (negb _); [|assumption]. apply IH; [auto|]. destruct (negb _); auto.
Qed.
Definition RPrep {F F'} (R : F -> F' -> Prop) (a : G2Prepared F) (a' : G2Prepared F') : Prop :=
  Forall2 (prodR (prodR (R2 R) (R2 R)) (R2 R)) (coeffs a) (coeffs a') /\ pinf a = pinf a'.
Definition RPI {F F'} (R : F -> F' -> Prop) (a : pairingItem) (a' : pairingItem) : Prop :=
  RA R (pi_p a) (pi_p a') /\ Forall2 (prodR (prodR (R2 R) (R2 R)) (R2 R)) (pi_q a) (pi_q a') /\ pi_i a = pi_i a'.

Lemma Forall_firstn {A} (P : A -> Prop) n l : Forall P l -> Forall P (firstn n l).
Proof. intros H. revert n. induction H; intros [|n]; cbn; constructor; auto. Qed.
Lemma Forall_skipn {A} (P : A -> Prop) n l : Forall P l -> Forall P (skipn n l).
Proof. intros H. revert n. induction H; intros [|n]; cbn; auto. Qed.
Lemma FQReprFromBytes_wf l : Forall isByte l -> length l = 48%nat -> wf6 (FQReprFromBytes l).
Proof. intros H1 H2. apply FQReprFromBytes_spec; assumption. Qed.
Lemma wand_byte a b : 0 <= b < 256 -> 0 <= wand a b < 256.
Proof.
  unfold wand. intros H. assert (0 <= Z.land a b) by (apply Z.land_nonneg; lia). split; [assumption|].
  assert (Z.land a b = Z.land (Z.land a b) (Z.ones 8)) as ->.
  { rewrite <- Z.land_assoc. rewrite (Z.land_ones b 8) by lia. change (2 ^ 8) with 256. rewrite (Z.mod_small b) by lia. reflexivity. }
  rewrite Z.land_ones by lia. change (2 ^ 8) with 256. apply Z.mod_pos_bound. lia.
Qed.
Lemma upd0_byte n l : 0 <= n < 256 -> Forall isByte l -> Forall isByte (upd0 (fun x => wand x n) l).
Proof. intros Hn H. destruct H; cbn; constructor; auto. apply wand_byte. assumption. Qed.
Lemma upd0_length h l : length (upd0 h l) = length l.
Proof. destruct l; reflexivity. Qed.

#[local] Hint Constants Opaque : typeclass_instances.
Section BRel.
Context {F F' : Type} (B : BOps F) (B' : BOps F') (R : F -> F' -> Prop) {HB : RelB B B' R}.

(** ** fq2.go *)
Lemma rel_FQ2_Cmp : forall a a' b b', (R2 R) a a' -> (R2 R) b b' -> eq (FQ2_Cmp B a b) (FQ2_Cmp B' a' b').
Proof. intros. unf FQ2_Cmp. rel. Qed.
#[local] Instance li_FQ2_Cmp : RelLem (FQ2_Cmp B) _ := rel_FQ2_Cmp.
Lemma rel_FQ2_MultiplyByNonresidueAssign : forall a a', (R2 R) a a' -> (R2 R) (FQ2_MultiplyByNonresidueAssign B a) (FQ2_MultiplyByNonresidueAssign B' a').
Proof. intros. unf FQ2_MultiplyByNonresidueAssign. rel. Qed.
#[local] Instance li_FQ2_MultiplyByNonresidueAssign : RelLem (FQ2_MultiplyByNonresidueAssign B) _ := rel_FQ2_MultiplyByNonresidueAssign.
Lemma rel_FQ2_Norm : forall a a', (R2 R) a a' -> R (FQ2_Norm B a) (FQ2_Norm B' a').
Proof. intros. unf FQ2_Norm. rel. Qed.
#[local] Instance li_FQ2_Norm : RelLem (FQ2_Norm B) _ := rel_FQ2_Norm.
Lemma rel_FQ2Zero : (R2 R) (FQ2Zero B) (FQ2Zero B').
Proof. intros. unf FQ2Zero. rel. Qed.
#[local] Instance li_FQ2Zero : RelLem (FQ2Zero B) _ := rel_FQ2Zero.
Lemma rel_FQ2One : (R2 R) (FQ2One B) (FQ2One B').
Proof. intros. unf FQ2One. rel. Qed.
#[local] Instance li_FQ2One : RelLem (FQ2One B) _ := rel_FQ2One.
Lemma rel_FQ2_IsZero : forall a a', (R2 R) a a' -> eq (FQ2_IsZero B a) (FQ2_IsZero B' a').
Proof. intros. unf FQ2_IsZero. rel. Qed.
#[local] Instance li_FQ2_IsZero : RelLem (FQ2_IsZero B) _ := rel_FQ2_IsZero.
Lemma rel_FQ2_SquareAssign : forall a a', (R2 R) a a' -> (R2 R) (FQ2_SquareAssign B a) (FQ2_SquareAssign B' a').
Proof. intros. unf FQ2_SquareAssign. rel. Qed.
#[local] Instance li_FQ2_SquareAssign : RelLem (FQ2_SquareAssign B) _ := rel_FQ2_SquareAssign.
Lemma rel_FQ2_DoubleAssign : forall a a', (R2 R) a a' -> (R2 R) (FQ2_DoubleAssign B a) (FQ2_DoubleAssign B' a').
Proof. intros. unf FQ2_DoubleAssign. rel. Qed.
#[local] Instance li_FQ2_DoubleAssign : RelLem (FQ2_DoubleAssign B) _ := rel_FQ2_DoubleAssign.
Lemma rel_FQ2_NegAssign : forall a a', (R2 R) a a' -> (R2 R) (FQ2_NegAssign B a) (FQ2_NegAssign B' a').
Proof. intros. unf FQ2_NegAssign. rel. Qed.
#[local] Instance li_FQ2_NegAssign : RelLem (FQ2_NegAssign B) _ := rel_FQ2_NegAssign.
Lemma rel_FQ2_AddAssign : forall a a' b b', (R2 R) a a' -> (R2 R) b b' -> (R2 R) (FQ2_AddAssign B a b) (FQ2_AddAssign B' a' b').
Proof. intros. unf FQ2_AddAssign. rel. Qed.
#[local] Instance li_FQ2_AddAssign : RelLem (FQ2_AddAssign B) _ := rel_FQ2_AddAssign.
Lemma rel_FQ2_SubAssign : forall a a' b b', (R2 R) a a' -> (R2 R) b b' -> (R2 R) (FQ2_SubAssign B a b) (FQ2_SubAssign B' a' b').
Proof. intros. unf FQ2_SubAssign. rel. Qed.
#[local] Instance li_FQ2_SubAssign : RelLem (FQ2_SubAssign B) _ := rel_FQ2_SubAssign.
Lemma rel_FQ2_MulAssign : forall a a' b b', (R2 R) a a' -> (R2 R) b b' -> (R2 R) (FQ2_MulAssign B a b) (FQ2_MulAssign B' a' b').
Proof. intros. unf FQ2_MulAssign. rel. Qed.
#[local] Instance li_FQ2_MulAssign : RelLem (FQ2_MulAssign B) _ := rel_FQ2_MulAssign.
Lemma rel_FQ2_InverseAssign : forall a a', (R2 R) a a' -> (prodR (R2 R) eq) (FQ2_InverseAssign B a) (FQ2_InverseAssign B' a').
Proof. intros. unf FQ2_InverseAssign. rel. Qed.
#[local] Instance li_FQ2_InverseAssign : RelLem (FQ2_InverseAssign B) _ := rel_FQ2_InverseAssign.
Lemma rel_frobeniusCoeffFQ2c1 : (Forall2 R) (frobeniusCoeffFQ2c1 B) (frobeniusCoeffFQ2c1 B').
Proof. intros. unf frobeniusCoeffFQ2c1. rel. Qed.
#[local] Instance li_frobeniusCoeffFQ2c1 : RelLem (frobeniusCoeffFQ2c1 B) _ := rel_frobeniusCoeffFQ2c1.
Lemma rel_FQ2_FrobeniusMapAssign : forall a a' b, (R2 R) a a' -> (R2 R) (FQ2_FrobeniusMapAssign B a b) (FQ2_FrobeniusMapAssign B' a' b).
Proof. intros. unf FQ2_FrobeniusMapAssign. rel. Qed.
#[local] Instance li_FQ2_FrobeniusMapAssign : RelLem (FQ2_FrobeniusMapAssign B) _ := rel_FQ2_FrobeniusMapAssign.
Lemma rel_FQ2_Legendre : forall a a', (R2 R) a a' -> eq (FQ2_Legendre B a) (FQ2_Legendre B' a').
Proof. intros. unf FQ2_Legendre. rel. Qed.
#[local] Instance li_FQ2_Legendre : RelLem (FQ2_Legendre B) _ := rel_FQ2_Legendre.
Lemma rel_FQ2_Exp : forall a a' b, (R2 R) a a' -> (R2 R) (FQ2_Exp B a b) (FQ2_Exp B' a' b).
Proof. intros. unf FQ2_Exp. apply ExpBits_rr; intros; rel. Qed.
#[local] Instance li_FQ2_Exp : RelLem (FQ2_Exp B) _ := rel_FQ2_Exp.
Lemma rel_FQ2_Equals : forall a a' b b', (R2 R) a a' -> (R2 R) b b' -> eq (FQ2_Equals B a b) (FQ2_Equals B' a' b').
Proof. intros. unf FQ2_Equals. rel. Qed.
#[local] Instance li_FQ2_Equals : RelLem (FQ2_Equals B) _ := rel_FQ2_Equals.
Lemma rel_negOneFQ : R (negOneFQ B) (negOneFQ B').
Proof. intros. unf negOneFQ. rel. Qed.
#[local] Instance li_negOneFQ : RelLem (negOneFQ B) _ := rel_negOneFQ.
Lemma rel_FQ2_empty : (R2 R) (FQ2_empty B) (FQ2_empty B').
Proof. intros. unf FQ2_empty. rel. Qed.
#[local] Instance li_FQ2_empty : RelLem (FQ2_empty B) _ := rel_FQ2_empty.
Lemma rel_FQ2_Sqrt : forall a a', (R2 R) a a' -> (prodR (R2 R) eq) (FQ2_Sqrt B a) (FQ2_Sqrt B' a').
Proof. intros. unf FQ2_Sqrt. rel. Qed.
#[local] Instance li_FQ2_Sqrt : RelLem (FQ2_Sqrt B) _ := rel_FQ2_Sqrt.
Lemma rel_FQ2_Parity : forall a a', (R2 R) a a' -> eq (FQ2_Parity B a) (FQ2_Parity B' a').
Proof. intros. unf FQ2_Parity. rel. Qed.
#[local] Instance li_FQ2_Parity : RelLem (FQ2_Parity B) _ := rel_FQ2_Parity.
Lemma rel_FQ2_MulBits : forall a a' b, (R2 R) a a' -> (R2 R) (FQ2_MulBits B a b) (FQ2_MulBits B' a' b).
Proof. intros. unf FQ2_MulBits. apply fold_left_rel1; intros; rel. Qed.
#[local] Instance li_FQ2_MulBits : RelLem (FQ2_MulBits B) _ := rel_FQ2_MulBits.
Lemma rel_FQ2_DivAssign : forall a a' b b', (R2 R) a a' -> (R2 R) b b' -> (R2 R) (FQ2_DivAssign B a b) (FQ2_DivAssign B' a' b').
Proof. intros. unf FQ2_DivAssign. rel. Qed.
#[local] Instance li_FQ2_DivAssign : RelLem (FQ2_DivAssign B) _ := rel_FQ2_DivAssign.
Lemma rel_HashFQ2 : forall a, (R2 R) (HashFQ2 B a) (HashFQ2 B' a).
Proof. intros. unf HashFQ2. rel. Qed.
#[local] Instance li_HashFQ2 : RelLem (HashFQ2 B) _ := rel_HashFQ2.
Lemma rel_FQ2O : RelO (FQ2O B) (FQ2O B') (R2 R).
Proof. constructor; cbn [FQ2O o_zero o_one o_add o_sub o_mul o_sq o_dbl o_neg o_inv o_iszero o_equals o_cmp o_sqrt]; intros; rel. Qed.
#[local] Existing Instance rel_FQ2O.

(** ** fq6.go, fq12.go *)
Lemma rel_FQ6_MulByNonresidueAssign : forall a a', (R6 R) a a' -> (R6 R) (FQ6_MulByNonresidueAssign B a) (FQ6_MulByNonresidueAssign B' a').
Proof. intros. unf FQ6_MulByNonresidueAssign. rel. Qed.
#[local] Instance li_FQ6_MulByNonresidueAssign : RelLem (FQ6_MulByNonresidueAssign B) _ := rel_FQ6_MulByNonresidueAssign.
Lemma rel_FQ6_MulBy1Assign : forall a a' b b', (R6 R) a a' -> (R2 R) b b' -> (R6 R) (FQ6_MulBy1Assign B a b) (FQ6_MulBy1Assign B' a' b').
Proof. intros. unf FQ6_MulBy1Assign. rel. Qed.
#[local] Instance li_FQ6_MulBy1Assign : RelLem (FQ6_MulBy1Assign B) _ := rel_FQ6_MulBy1Assign.
Lemma rel_FQ6_MulBy01Assign : forall a a' b b' c c', (R6 R) a a' -> (R2 R) b b' -> (R2 R) c c' -> (R6 R) (FQ6_MulBy01Assign B a b c) (FQ6_MulBy01Assign B' a' b' c').
Proof. intros. unf FQ6_MulBy01Assign. rel. Qed.
#[local] Instance li_FQ6_MulBy01Assign : RelLem (FQ6_MulBy01Assign B) _ := rel_FQ6_MulBy01Assign.
Lemma rel_FQ6Zero : (R6 R) (FQ6Zero B) (FQ6Zero B').
Proof. intros. unf FQ6Zero. rel. Qed.
#[local] Instance li_FQ6Zero : RelLem (FQ6Zero B) _ := rel_FQ6Zero.
Lemma rel_FQ6One : (R6 R) (FQ6One B) (FQ6One B').
Proof. intros. unf FQ6One. rel. Qed.
#[local] Instance li_FQ6One : RelLem (FQ6One B) _ := rel_FQ6One.
Lemma rel_FQ6_Equals : forall a a' b b', (R6 R) a a' -> (R6 R) b b' -> eq (FQ6_Equals B a b) (FQ6_Equals B' a' b').
Proof. intros. unf FQ6_Equals. rel. Qed.
#[local] Instance li_FQ6_Equals : RelLem (FQ6_Equals B) _ := rel_FQ6_Equals.
Lemma rel_FQ6_IsZero : forall a a', (R6 R) a a' -> eq (FQ6_IsZero B a) (FQ6_IsZero B' a').
Proof. intros. unf FQ6_IsZero. rel. Qed.
#[local] Instance li_FQ6_IsZero : RelLem (FQ6_IsZero B) _ := rel_FQ6_IsZero.
Lemma rel_FQ6_DoubleAssign : forall a a', (R6 R) a a' -> (R6 R) (FQ6_DoubleAssign B a) (FQ6_DoubleAssign B' a').
Proof. intros. unf FQ6_DoubleAssign. rel. Qed.
#[local] Instance li_FQ6_DoubleAssign : RelLem (FQ6_DoubleAssign B) _ := rel_FQ6_DoubleAssign.
Lemma rel_FQ6_NegAssign : forall a a', (R6 R) a a' -> (R6 R) (FQ6_NegAssign B a) (FQ6_NegAssign B' a').
Proof. intros. unf FQ6_NegAssign. rel. Qed.
#[local] Instance li_FQ6_NegAssign : RelLem (FQ6_NegAssign B) _ := rel_FQ6_NegAssign.
Lemma rel_FQ6_AddAssign : forall a a' b b', (R6 R) a a' -> (R6 R) b b' -> (R6 R) (FQ6_AddAssign B a b) (FQ6_AddAssign B' a' b').
Proof. intros. unf FQ6_AddAssign. rel. Qed.
#[local] Instance li_FQ6_AddAssign : RelLem (FQ6_AddAssign B) _ := rel_FQ6_AddAssign.
Lemma rel_FQ6_SubAssign : forall a a' b b', (R6 R) a a' -> (R6 R) b b' -> (R6 R) (FQ6_SubAssign B a b) (FQ6_SubAssign B' a' b').
Proof. intros. unf FQ6_SubAssign. rel. Qed.
#[local] Instance li_FQ6_SubAssign : RelLem (FQ6_SubAssign B) _ := rel_FQ6_SubAssign.
Lemma rel_fq2nqr : (R2 R) (fq2nqr B) (fq2nqr B').
Proof. intros. unf fq2nqr. rel. Qed.
#[local] Instance li_fq2nqr : RelLem (fq2nqr B) _ := rel_fq2nqr.
Lemma rel_frobeniusCoeffFQ6c1 : (Forall2 (R2 R)) (frobeniusCoeffFQ6c1 B) (frobeniusCoeffFQ6c1 B').
Proof. intros. unf frobeniusCoeffFQ6c1. rel. Qed.
#[local] Instance li_frobeniusCoeffFQ6c1 : RelLem (frobeniusCoeffFQ6c1 B) _ := rel_frobeniusCoeffFQ6c1.
Lemma rel_frobeniusCoeffFQ6c2 : (Forall2 (R2 R)) (frobeniusCoeffFQ6c2 B) (frobeniusCoeffFQ6c2 B').
Proof. intros. unf frobeniusCoeffFQ6c2. rel. Qed.
#[local] Instance li_frobeniusCoeffFQ6c2 : RelLem (frobeniusCoeffFQ6c2 B) _ := rel_frobeniusCoeffFQ6c2.
Lemma rel_FQ6_FrobeniusMapAssign : forall a a' b, (R6 R) a a' -> (R6 R) (FQ6_FrobeniusMapAssign B a b) (FQ6_FrobeniusMapAssign B' a' b).
Proof. intros. unf FQ6_FrobeniusMapAssign. rel. Qed.
#[local] Instance li_FQ6_FrobeniusMapAssign : RelLem (FQ6_FrobeniusMapAssign B) _ := rel_FQ6_FrobeniusMapAssign.
Lemma rel_FQ6_SquareAssign : forall a a', (R6 R) a a' -> (R6 R) (FQ6_SquareAssign B a) (FQ6_SquareAssign B' a').
Proof. intros. unf FQ6_SquareAssign. rel. Qed.
#[local] Instance li_FQ6_SquareAssign : RelLem (FQ6_SquareAssign B) _ := rel_FQ6_SquareAssign.
Lemma rel_FQ6_MulAssign : forall a a' b b', (R6 R) a a' -> (R6 R) b b' -> (R6 R) (FQ6_MulAssign B a b) (FQ6_MulAssign B' a' b').
Proof. intros. unf FQ6_MulAssign. rel. Qed.
#[local] Instance li_FQ6_MulAssign : RelLem (FQ6_MulAssign B) _ := rel_FQ6_MulAssign.
Lemma rel_FQ6_MulAssign_aliased : forall a a', (R6 R) a a' -> (R6 R) (FQ6_MulAssign_aliased B a) (FQ6_MulAssign_aliased B' a').
Proof. intros. unf FQ6_MulAssign_aliased. rel. Qed.
#[local] Instance li_FQ6_MulAssign_aliased : RelLem (FQ6_MulAssign_aliased B) _ := rel_FQ6_MulAssign_aliased.
Lemma rel_FQ6_InverseAssign : forall a a', (R6 R) a a' -> (prodR (R6 R) eq) (FQ6_InverseAssign B a) (FQ6_InverseAssign B' a').
Proof. intros. unf FQ6_InverseAssign. rel. Qed.
#[local] Instance li_FQ6_InverseAssign : RelLem (FQ6_InverseAssign B) _ := rel_FQ6_InverseAssign.
Lemma rel_FQ6_Exp : forall a a' b, (R6 R) a a' -> (R6 R) (FQ6_Exp B a b) (FQ6_Exp B' a' b).
Proof. intros. unf FQ6_Exp. apply ExpLoop_rr; intros; rel. Qed.
#[local] Instance li_FQ6_Exp : RelLem (FQ6_Exp B) _ := rel_FQ6_Exp.
Lemma rel_FQ12_ConjugateAssign : forall a a', (R12 R) a a' -> (R12 R) (FQ12_ConjugateAssign B a) (FQ12_ConjugateAssign B' a').
Proof. intros. unf FQ12_ConjugateAssign. rel. Qed.
#[local] Instance li_FQ12_ConjugateAssign : RelLem (FQ12_ConjugateAssign B) _ := rel_FQ12_ConjugateAssign.
Lemma rel_FQ12_MulBy014Assign : forall a a' b b' c c' d d', (R12 R) a a' -> (R2 R) b b' -> (R2 R) c c' -> (R2 R) d d' -> (R12 R) (FQ12_MulBy014Assign B a b c d) (FQ12_MulBy014Assign B' a' b' c' d').
Proof. intros. unf FQ12_MulBy014Assign. rel. Qed.
#[local] Instance li_FQ12_MulBy014Assign : RelLem (FQ12_MulBy014Assign B) _ := rel_FQ12_MulBy014Assign.
Lemma rel_FQ12Zero : (R12 R) (FQ12Zero B) (FQ12Zero B').
Proof. intros. unf FQ12Zero. rel. Qed.
#[local] Instance li_FQ12Zero : RelLem (FQ12Zero B) _ := rel_FQ12Zero.
Lemma rel_FQ12One : (R12 R) (FQ12One B) (FQ12One B').
Proof. intros. unf FQ12One. rel. Qed.
#[local] Instance li_FQ12One : RelLem (FQ12One B) _ := rel_FQ12One.
Lemma rel_FQ12_Equals : forall a a' b b', (R12 R) a a' -> (R12 R) b b' -> eq (FQ12_Equals B a b) (FQ12_Equals B' a' b').
Proof. intros. unf FQ12_Equals. rel. Qed.
#[local] Instance li_FQ12_Equals : RelLem (FQ12_Equals B) _ := rel_FQ12_Equals.
Lemma rel_FQ12_DoubleAssign : forall a a', (R12 R) a a' -> (R12 R) (FQ12_DoubleAssign B a) (FQ12_DoubleAssign B' a').
Proof. intros. unf FQ12_DoubleAssign. rel. Qed.
#[local] Instance li_FQ12_DoubleAssign : RelLem (FQ12_DoubleAssign B) _ := rel_FQ12_DoubleAssign.
Lemma rel_FQ12_NegAssign : forall a a', (R12 R) a a' -> (R12 R) (FQ12_NegAssign B a) (FQ12_NegAssign B' a').
Proof. intros. unf FQ12_NegAssign. rel. Qed.
#[local] Instance li_FQ12_NegAssign : RelLem (FQ12_NegAssign B) _ := rel_FQ12_NegAssign.
Lemma rel_FQ12_AddAssign : forall a a' b b', (R12 R) a a' -> (R12 R) b b' -> (R12 R) (FQ12_AddAssign B a b) (FQ12_AddAssign B' a' b').
Proof. intros. unf FQ12_AddAssign. rel. Qed.
#[local] Instance li_FQ12_AddAssign : RelLem (FQ12_AddAssign B) _ := rel_FQ12_AddAssign.
Lemma rel_FQ12_IsZero : forall a a', (R12 R) a a' -> eq (FQ12_IsZero B a) (FQ12_IsZero B' a').
Proof. intros. unf FQ12_IsZero. rel. Qed.
#[local] Instance li_FQ12_IsZero : RelLem (FQ12_IsZero B) _ := rel_FQ12_IsZero.
Lemma rel_FQ12_SubAssign : forall a a' b b', (R12 R) a a' -> (R12 R) b b' -> (R12 R) (FQ12_SubAssign B a b) (FQ12_SubAssign B' a' b').
Proof. intros. unf FQ12_SubAssign. rel. Qed.
#[local] Instance li_FQ12_SubAssign : RelLem (FQ12_SubAssign B) _ := rel_FQ12_SubAssign.
Lemma rel_frobeniusCoeffFQ12c1 : (Forall2 (R2 R)) (frobeniusCoeffFQ12c1 B) (frobeniusCoeffFQ12c1 B').
Proof. intros. unf frobeniusCoeffFQ12c1. rel. Qed.
#[local] Instance li_frobeniusCoeffFQ12c1 : RelLem (frobeniusCoeffFQ12c1 B) _ := rel_frobeniusCoeffFQ12c1.
Lemma rel_FQ12_FrobeniusMapAssign : forall a a' b, (R12 R) a a' -> (R12 R) (FQ12_FrobeniusMapAssign B a b) (FQ12_FrobeniusMapAssign B' a' b).
Proof. intros. unf FQ12_FrobeniusMapAssign. rel. Qed.
#[local] Instance li_FQ12_FrobeniusMapAssign : RelLem (FQ12_FrobeniusMapAssign B) _ := rel_FQ12_FrobeniusMapAssign.
Lemma rel_FQ12_SquareAssign : forall a a', (R12 R) a a' -> (R12 R) (FQ12_SquareAssign B a) (FQ12_SquareAssign B' a').
Proof. intros. unf FQ12_SquareAssign. rel. Qed.
#[local] Instance li_FQ12_SquareAssign : RelLem (FQ12_SquareAssign B) _ := rel_FQ12_SquareAssign.
Lemma rel_FQ12_MulAssign : forall a a' b b', (R12 R) a a' -> (R12 R) b b' -> (R12 R) (FQ12_MulAssign B a b) (FQ12_MulAssign B' a' b').
Proof. intros. unf FQ12_MulAssign. rel. Qed.
#[local] Instance li_FQ12_MulAssign : RelLem (FQ12_MulAssign B) _ := rel_FQ12_MulAssign.
Lemma rel_FQ12_InverseAssign : forall a a', (R12 R) a a' -> (prodR (R12 R) eq) (FQ12_InverseAssign B a) (FQ12_InverseAssign B' a').
Proof. intros. unf FQ12_InverseAssign. rel. Qed.
#[local] Instance li_FQ12_InverseAssign : RelLem (FQ12_InverseAssign B) _ := rel_FQ12_InverseAssign.
Lemma rel_FQ12_Exp : forall a a' b, (R12 R) a a' -> (R12 R) (FQ12_Exp B a b) (FQ12_Exp B' a' b).
Proof. intros. unf FQ12_Exp. apply ExpLoop_rr; intros; rel. Qed.
#[local] Instance li_FQ12_Exp : RelLem (FQ12_Exp B) _ := rel_FQ12_Exp.

(** ** g1.go, g2.go *)
Lemma rel_BCoeff : R (BCoeff B) (BCoeff B').
Proof. intros. unf BCoeff. rel. Qed.
#[local] Instance li_BCoeff : RelLem (BCoeff B) _ := rel_BCoeff.
Lemma rel_BCoeffFQ2 : (R2 R) (BCoeffFQ2 B) (BCoeffFQ2 B').
Proof. intros. unf BCoeffFQ2. rel. Qed.
#[local] Instance li_BCoeffFQ2 : RelLem (BCoeffFQ2 B) _ := rel_BCoeffFQ2.
Lemma rel_G1AffineOne : (RA R) (G1AffineOne B) (G1AffineOne B').
Proof. intros. unf G1AffineOne. rel. Qed.
#[local] Instance li_G1AffineOne : RelLem (G1AffineOne B) _ := rel_G1AffineOne.
Lemma rel_G2AffineOne : (RA (R2 R)) (G2AffineOne B) (G2AffineOne B').
Proof. intros. unf G2AffineOne. rel. Qed.
#[local] Instance li_G2AffineOne : RelLem (G2AffineOne B) _ := rel_G2AffineOne.
Lemma rel_G1ProjectiveOne : (RP R) (G1ProjectiveOne B) (G1ProjectiveOne B').
Proof. intros. unf G1ProjectiveOne. rel. Qed.
#[local] Instance li_G1ProjectiveOne : RelLem (G1ProjectiveOne B) _ := rel_G1ProjectiveOne.
Lemma rel_G2ProjectiveOne : (RP (R2 R)) (G2ProjectiveOne B) (G2ProjectiveOne B').
Proof. intros. unf G2ProjectiveOne. rel. Qed.
#[local] Instance li_G2ProjectiveOne : RelLem (G2ProjectiveOne B) _ := rel_G2ProjectiveOne.
Lemma rel_G1_IsOnCurve : forall a a', (RA R) a a' -> eq (G1_IsOnCurve B a) (G1_IsOnCurve B' a').
Proof. intros. unf G1_IsOnCurve. rel. Qed.
#[local] Instance li_G1_IsOnCurve : RelLem (G1_IsOnCurve B) _ := rel_G1_IsOnCurve.
Lemma rel_G2_IsOnCurve : forall a a', (RA (R2 R)) a a' -> eq (G2_IsOnCurve B a) (G2_IsOnCurve B' a').
Proof. intros. unf G2_IsOnCurve. rel. Qed.
#[local] Instance li_G2_IsOnCurve : RelLem (G2_IsOnCurve B) _ := rel_G2_IsOnCurve.
Lemma rel_GetG1PointFromX : forall a a' b, R a a' -> (optR (RA R)) (GetG1PointFromX B a b) (GetG1PointFromX B' a' b).
Proof. intros. unf GetG1PointFromX. rel. Qed.
#[local] Instance li_GetG1PointFromX : RelLem (GetG1PointFromX B) _ := rel_GetG1PointFromX.
Lemma rel_GetG2PointFromX : forall a a' b, (R2 R) a a' -> (optR (RA (R2 R))) (GetG2PointFromX B a b) (GetG2PointFromX B' a' b).
Proof. intros. unf GetG2PointFromX. rel. Qed.
#[local] Instance li_GetG2PointFromX : RelLem (GetG2PointFromX B) _ := rel_GetG2PointFromX.
Lemma rel_G1_IsInCorrectSubgroupAssumingOnCurve : forall a a', (RA R) a a' -> eq (G1_IsInCorrectSubgroupAssumingOnCurve B a) (G1_IsInCorrectSubgroupAssumingOnCurve B' a').
Proof. intros. unf G1_IsInCorrectSubgroupAssumingOnCurve. rel. Qed.
#[local] Instance li_G1_IsInCorrectSubgroupAssumingOnCurve : RelLem (G1_IsInCorrectSubgroupAssumingOnCurve B) _ := rel_G1_IsInCorrectSubgroupAssumingOnCurve.
Lemma rel_G2_IsInCorrectSubgroupAssumingOnCurve : forall a a', (RA (R2 R)) a a' -> eq (G2_IsInCorrectSubgroupAssumingOnCurve B a) (G2_IsInCorrectSubgroupAssumingOnCurve B' a').
Proof. intros. unf G2_IsInCorrectSubgroupAssumingOnCurve. rel. Qed.
#[local] Instance li_G2_IsInCorrectSubgroupAssumingOnCurve : RelLem (G2_IsInCorrectSubgroupAssumingOnCurve B) _ := rel_G2_IsInCorrectSubgroupAssumingOnCurve.
Lemma rel_G1_ScaleByCofactor : forall a a', (RA R) a a' -> (RP R) (G1_ScaleByCofactor B a) (G1_ScaleByCofactor B' a').
Proof. intros. unf G1_ScaleByCofactor. rel. Qed.
#[local] Instance li_G1_ScaleByCofactor : RelLem (G1_ScaleByCofactor B) _ := rel_G1_ScaleByCofactor.
Lemma rel_G2_ScaleByCofactor : forall a a', (RA (R2 R)) a a' -> (RP (R2 R)) (G2_ScaleByCofactor B a) (G2_ScaleByCofactor B' a').
Proof. intros. unf G2_ScaleByCofactor. rel. Qed.
#[local] Instance li_G2_ScaleByCofactor : RelLem (G2_ScaleByCofactor B) _ := rel_G2_ScaleByCofactor.
Lemma rel_G1_SerializeBytes : forall a a', (RA R) a a' -> eq (G1_SerializeBytes B a) (G1_SerializeBytes B' a').
Proof. intros. unf G1_SerializeBytes. rel. Qed.
#[local] Instance li_G1_SerializeBytes : RelLem (G1_SerializeBytes B) _ := rel_G1_SerializeBytes.
Lemma rel_G2_SerializeBytes : forall a a', (RA (R2 R)) a a' -> eq (G2_SerializeBytes B a) (G2_SerializeBytes B' a').
Proof. intros. unf G2_SerializeBytes. rel. Qed.
#[local] Instance li_G2_SerializeBytes : RelLem (G2_SerializeBytes B) _ := rel_G2_SerializeBytes.
Lemma rel_G2_SetRawBytes : forall a a' b, Forall isByte b -> length b = 192%nat -> (RA (R2 R)) a a' -> (RA (R2 R)) (G2_SetRawBytes B a b) (G2_SetRawBytes B' a' b).
Proof.
  intros. unf G2_SetRawBytes. cbv zeta.
  assert (forall n l, Forall isByte l -> Forall isByte (firstn n l)) by (intros; apply Forall_firstn; assumption).
  assert (forall n l, Forall isByte l -> Forall isByte (skipn n l)) by (intros; apply Forall_skipn; assumption).
  repeat first [apply RA_mk | apply R2_mk | apply rb_of; [assumption|]]; try (apply RA_inf with (R := R2 R); assumption);
    apply FQReprFromBytes_wf; auto; rewrite ?firstn_length, ?skipn_length; lia.
Qed.
#[local] Instance li_G2_SetRawBytes : RelLem (G2_SetRawBytes B) _ := rel_G2_SetRawBytes.
Lemma rel_DecompressG1Unchecked : forall a, Forall isByte a -> length a = 48%nat -> (optR (RA R)) (DecompressG1Unchecked B a) (DecompressG1Unchecked B' a).
Proof.
  intros. unf DecompressG1Unchecked. cbv zeta. assert (wf6 (FQReprFromBytes (upd0 (fun x => wand x 31) a))) by (apply FQReprFromBytes_wf; [apply upd0_byte; [lia|assumption]|rewrite upd0_length; assumption]). rel.
Qed.
#[local] Instance li_DecompressG1Unchecked : RelLem (DecompressG1Unchecked B) _ := rel_DecompressG1Unchecked.
Lemma rel_DecompressG1 : forall a, Forall isByte a -> length a = 48%nat -> (optR (RA R)) (DecompressG1 B a) (DecompressG1 B' a).
Proof. intros. unf DecompressG1. rel. Qed.
#[local] Instance li_DecompressG1 : RelLem (DecompressG1 B) _ := rel_DecompressG1.
Lemma rel_CompressG1 : forall a a', (RA R) a a' -> eq (CompressG1 B a) (CompressG1 B' a').
Proof. intros. unf CompressG1. rel. Qed.
#[local] Instance li_CompressG1 : RelLem (CompressG1 B) _ := rel_CompressG1.
Lemma rel_DecompressG2Unchecked : forall a, Forall isByte a -> length a = 96%nat -> (optR (RA (R2 R))) (DecompressG2Unchecked B a) (DecompressG2Unchecked B' a).
Proof.
  intros. unf DecompressG2Unchecked.
  assert (Forall isByte (upd0 (fun x => wand x 31) a)) by (apply upd0_byte; [lia|assumption]).
  assert (length (upd0 (fun x => wand x 31) a) = 96%nat) by (rewrite upd0_length; assumption).
  assert (wf6 (FQReprFromBytes (firstn 48 (upd0 (fun x => wand x 31) a)))) by (apply FQReprFromBytes_wf; [apply Forall_firstn; assumption|rewrite firstn_length; lia]).
  assert (wf6 (FQReprFromBytes (skipn 48 (upd0 (fun x => wand x 31) a)))) by (apply FQReprFromBytes_wf; [apply Forall_skipn; assumption|rewrite skipn_length; lia]).
  cbv zeta. rel.
Qed.
#[local] Instance li_DecompressG2Unchecked : RelLem (DecompressG2Unchecked B) _ := rel_DecompressG2Unchecked.
Lemma rel_DecompressG2 : forall a, Forall isByte a -> length a = 96%nat -> (optR (RA (R2 R))) (DecompressG2 B a) (DecompressG2 B' a).
Proof. intros. unf DecompressG2. rel. Qed.
#[local] Instance li_DecompressG2 : RelLem (DecompressG2 B) _ := rel_DecompressG2.
Lemma rel_CompressG2 : forall a a', (RA (R2 R)) a a' -> eq (CompressG2 B a) (CompressG2 B' a').
Proof. intros. unf CompressG2. rel. Qed.
#[local] Instance li_CompressG2 : RelLem (CompressG2 B) _ := rel_CompressG2.
Lemma rel_RandG1 draws : Forall (fun d => 0 <= snd d < 2 ^ 384) draws -> optR (RP R) (RandG1 B draws) (RandG1 B' draws).
Proof.
  induction draws as [|[byte r] rest IH]; intros Hd; cbn [RandG1]; [exact I|]. inversion Hd; subst. cbn [snd] in *.
  specialize (IH ltac:(assumption)). pose proof (proj1 (FQRepr_const_spec r ltac:(assumption))). unfold Affine_IsZero. rel.
Qed.
Lemma rel_RandG2 draws : Forall (fun d => 0 <= fst (snd d) < 2 ^ 384 /\ 0 <= snd (snd d) < 2 ^ 384) draws -> optR (RP (R2 R)) (RandG2 B draws) (RandG2 B' draws).
Proof.
  induction draws as [|[byte [r0 r1]] rest IH]; intros Hd; cbn [RandG2]; [exact I|]. inversion Hd as [|? ? [Ha Hb] Hr]; subst. cbn [fst snd] in *.
  specialize (IH Hr). pose proof (proj1 (FQRepr_const_spec r0 Ha)). pose proof (proj1 (FQRepr_const_spec r1 Hb)). unfold Affine_IsZero. rel.
Qed.

(** ** pairing.go *)
Lemma rel_doublingStep : forall a a', (RP (R2 R)) a a' -> (prodR (prodR (prodR (R2 R) (R2 R)) (R2 R)) (RP (R2 R))) (doublingStep B a) (doublingStep B' a').
Proof. intros. unf doublingStep. rel. Qed.
#[local] Instance li_doublingStep : RelLem (doublingStep B) _ := rel_doublingStep.
Lemma rel_additionStep : forall a a' b b', (RP (R2 R)) a a' -> (RA (R2 R)) b b' -> (prodR (prodR (prodR (R2 R) (R2 R)) (R2 R)) (RP (R2 R))) (additionStep B a b) (additionStep B' a' b').
Proof. intros. unf additionStep. rel. Qed.
#[local] Instance li_additionStep : RelLem (additionStep B) _ := rel_additionStep.
Lemma blsX_loop_rr {A A'} (RR : A -> A' -> Prop) body body' s s' :
  (forall b x x', RR x x' -> RR (body b x) (body' b x')) -> RR s s' -> RR (blsX_loop body s) (blsX_loop body' s').
Proof.
  intros Hb Hs. unfold blsX_loop. apply (prodR_snd eq). apply fold_left_rel1; [|split; [reflexivity|assumption]].
  intros [f x] [f' x'] i [Ef Hx]. cbn [fst snd] in *. subst f'. destruct (negb f); split; cbn [fst snd]; auto.
Qed.
Lemma rel_G2AffineToPrepared : forall a a', (RA (R2 R)) a a' -> (RPrep R) (G2AffineToPrepared B a) (G2AffineToPrepared B' a').
Proof.
  intros a a' Ha. unf G2AffineToPrepared. unfold Affine_IsZero. rewrite <- (RA_inf _ _ _ Ha). destruct (ainf a); [split; [constructor|reflexivity]|].
  apply (rel_let (RP (R2 R))); [rel|]. intros x x' Hx. cbv beta.
  match goal with |- RPrep R (let '(r, cs) := ?e in _) (let '(r, cs) := ?e' in _) =>
    assert (prodR (RP (R2 R)) (Forall2 (prodR (prodR (R2 R) (R2 R)) (R2 R))) e e') as [H1 H2] end.
  - apply blsX_loop_rr; [|split; [assumption|constructor]]. intros b [r cs] [r' cs'] [Hr Hc]. cbn [fst snd] in *.
    destruct (rel_doublingStep _ _ Hr) as [Ho Hd]. destruct (doublingStep B r) as [o r1], (doublingStep B' r') as [o' r1']. cbn [fst snd] in *.
    destruct b.
    + destruct (rel_additionStep _ _ _ _ Hd Ha) as [Ho2 Hd2]. destruct (additionStep B r1 a) as [o2 r2], (additionStep B' r1' a') as [o2' r2']. cbn [fst snd] in *.
      split; [assumption|]. cbn [snd]. auto 8 using F2_app, F2_cons, F2_nil.
    + split; [assumption|]. cbn [snd]. auto 8 using F2_app, F2_cons, F2_nil.
  - destruct (blsX_loop _ _) as [r cs], (blsX_loop _ _) as [r' cs']. cbn [fst snd] in *.
    destruct (rel_doublingStep _ _ H1) as [Ho Hd]. destruct (doublingStep B r) as [o r1], (doublingStep B' r') as [o' r1']. cbn [fst snd] in *.
    split; [|reflexivity]. cbn [coeffs]. auto 8 using F2_app, F2_cons, F2_nil.
Qed.
#[local] Instance li_G2AffineToPrepared : RelLem (G2AffineToPrepared B) _ := rel_G2AffineToPrepared.
Lemma rel_ell : forall a a' b b' c c', (R12 R) a a' -> (prodR (prodR (R2 R) (R2 R)) (R2 R)) b b' -> (RA R) c c' -> (R12 R) (ell B a b c) (ell B' a' b' c').
Proof. intros. unf ell. rel. Qed.
#[local] Instance li_ell : RelLem (ell B) _ := rel_ell.
Lemma rel_ell_all f f' l l' : R12 R f f' -> Forall2 (RPI R) l l' -> optR (prodR (R12 R) (Forall2 (RPI R))) (ell_all B f l) (ell_all B' f' l').
Proof.
  intros Hf H. revert f f' Hf. induction H as [|x x' l l' Hx Hl IH]; intros f f' Hf; cbn [ell_all]; [split; [assumption|constructor]|].
  destruct Hx as (Hp & Hq & Hi). rewrite <- Hi. pose proof (F2_nth_error _ _ _ (pi_i x) Hq) as Hn.
  destruct (nth_error (pi_q x) _) as [cs|], (nth_error (pi_q x') _) as [cs'|]; cbn [optR] in Hn; try contradiction; [|exact I].
  cbv zeta. specialize (IH _ _ (rel_ell _ _ _ _ _ _ Hf Hn Hp)).
  destruct (ell_all B _ l) as [[g m]|], (ell_all B' _ l') as [[g' m']|]; cbn [optR] in IH; try contradiction; [|exact I].
  destruct IH as [Hg Hm]. split; [exact Hg|]. cbn [snd] in *. constructor; [|assumption]. repeat split; cbn; try apply Hp; try apply Hq; congruence.
Qed.
Lemma rel_MillerLoop : forall a a', (Forall2 (prodR (RA R) (RPrep R))) a a' -> (optR (R12 R)) (MillerLoop B a) (MillerLoop B' a').
Proof.
  intros a a' H. unf MillerLoop. cbv zeta.
  match goal with |- optR _ (match ?e with _ => _ end) (match ?e' with _ => _ end) =>
    assert (optR (prodR (R12 R) (Forall2 (RPI R))) e e') as Hl end.
  - apply blsX_loop_rr.
    + intros b [[f m]|] [[f' m']|] Hx; cbn [optR] in Hx |- *; try contradiction; [|exact I]. destruct Hx as [Hf Hm]. cbn [fst snd] in *.
      pose proof (rel_ell_all _ _ _ _ Hf Hm) as H1.
      destruct (ell_all B f m) as [[f1 m1]|], (ell_all B' f' m') as [[f1' m1']|]; cbn [optR] in H1; try contradiction; [|exact I].
      destruct H1 as [Hf1 Hm1]. cbn [fst snd] in *. destruct b.
      * pose proof (rel_ell_all _ _ _ _ Hf1 Hm1) as H2.
        destruct (ell_all B f1 m1) as [[f2 m2]|], (ell_all B' f1' m1') as [[f2' m2']|]; cbn [optR] in H2; try contradiction; [|exact I].
        destruct H2 as [Hf2 Hm2]. cbn [fst snd] in *. split; [|assumption]. apply rel_FQ12_SquareAssign. assumption.
      * split; [|assumption]. apply rel_FQ12_SquareAssign. assumption.
    + split; [apply rel_FQ12One|]. cbn [snd].
      induction H as [|[p Q] [p' Q'] l l' [Hp [HQ Hi]] Hl IH]; cbn [map]; [constructor|]. cbn [fst snd] in *. constructor; [|assumption].
      unfold Affine_IsZero. rewrite <- (RA_inf _ _ _ Hp), <- Hi. destruct (negb (ainf p) && negb (pinf Q)); (split; [|split]); cbn [pi_p pi_q pi_i]; try assumption; try reflexivity.
      * rel.
      * constructor.
  - destruct (blsX_loop _ _) as [[f m]|], (blsX_loop _ _) as [[f' m']|]; cbn [optR] in Hl |- *; try contradiction; [|exact I].
    destruct Hl as [Hf Hm]. cbn [fst snd] in *. pose proof (rel_ell_all _ _ _ _ Hf Hm) as H1.
    destruct (ell_all B f m) as [[f1 m1]|], (ell_all B' f' m') as [[f1' m1']|]; cbn [optR] in H1; try contradiction; [|exact I].
    destruct H1 as [Hf1 Hm1]. cbn [fst snd] in *. cbn [blsIsNegative optR]. apply rel_FQ12_ConjugateAssign. assumption.
Qed.
#[local] Instance li_MillerLoop : RelLem (MillerLoop B) _ := rel_MillerLoop.
Lemma rel_ExpByX : forall a a' b, (R12 R) a a' -> (R12 R) (ExpByX B a b) (ExpByX B' a' b).
Proof. intros. unf ExpByX. rel. Qed.
#[local] Instance li_ExpByX : RelLem (ExpByX B) _ := rel_ExpByX.
Lemma rel_FinalExponentiation : forall a a', (R12 R) a a' -> (optR (R12 R)) (FinalExponentiation B a) (FinalExponentiation B' a').
Proof. intros. unf FinalExponentiation. rel. Qed.
#[local] Instance li_FinalExponentiation : RelLem (FinalExponentiation B) _ := rel_FinalExponentiation.
Lemma rel_Pairing : forall a a' b b', (RP R) a a' -> (RP (R2 R)) b b' -> (optR (R12 R)) (Pairing B a b) (Pairing B' a' b').
Proof.
  intros. unf Pairing.
  assert (optR (R12 R) (MillerLoop B [(G1_ToAffine (b_ops B) a, G2AffineToPrepared B (G2_ToAffine (FQ2O B) b))])
    (MillerLoop B' [(G1_ToAffine (b_ops B') a', G2AffineToPrepared B' (G2_ToAffine (FQ2O B') b'))])) by (apply rel_MillerLoop; rel).
  rel.
Qed.
#[local] Instance li_Pairing : RelLem (Pairing B) _ := rel_Pairing.
Lemma rel_CompareTwoPairings : forall a a' b b' c c' d d', (RP R) a a' -> (RP (R2 R)) b b' -> (RP R) c c' -> (RP (R2 R)) d d' -> (optR eq) (CompareTwoPairings B a b c d) (CompareTwoPairings B' a' b' c' d').
Proof.
  intros. unf CompareTwoPairings. rel_step; [rel|].
  match goal with |- optR _ (match ?e with _ => _ end) (match ?e' with _ => _ end) => assert (optR (R12 R) e e') by (apply rel_MillerLoop; rel) end.
  rel.
Qed.
#[local] Instance li_CompareTwoPairings : RelLem (CompareTwoPairings B) _ := rel_CompareTwoPairings.

(** ** The maps to the curves *)
Lemma rel_horner {A A'} (O : Ops A) (O' : Ops A') (RR : A -> A' -> Prop) {HO : RelO O O' RR} cs cs' x x' :
  Forall2 RR cs cs' -> RR x x' -> RR (horner O cs x) (horner O' cs' x').
Proof.
  intros Hc Hx. unfold horner. apply F2_rev in Hc. destruct Hc as [|t t' l l' Ht Hl]; [apply ro_zero; assumption|].
  revert t t' Ht. induction Hl; intros; cbn [fold_left]; [assumption|]. apply IHHl. apply ro_add; [assumption|apply ro_mul; assumption|assumption].
Qed.
#[local] Instance li_horner {A A'} (O : Ops A) (O' : Ops A') (RR : A -> A' -> Prop) {HO : RelO O O' RR} : RelLem (horner O) _ := rel_horner O O' RR.
Lemma rel_of_list l : forallb wfb l = true -> Forall2 R (map (b_of B) l) (map (b_of B') l).
Proof.
  induction l; cbn [forallb map]; intros H; constructor; apply andb_true_iff in H; [|apply IHl, H]. apply rb_of; [assumption|apply wfb_spec, H].
Qed.
Lemma rel_of_pairs l : forallb (fun p => wfb (fst p) && wfb (snd p)) l = true -> Forall2 (R2 R) (map (of_pair B) l) (map (of_pair B') l).
Proof.
  induction l as [|p l IHl]; cbn [forallb map]; intros H; constructor; apply andb_true_iff in H; [|apply IHl, H]. destruct H as [H _]. apply andb_true_iff in H.
  apply R2_mk; (apply rb_of; [assumption|apply wfb_spec, H]).
Qed.
Lemma q_big_q : q_big = q. Proof. vm_compute. reflexivity. Qed.
Lemma wf_of_mod z : wf6 (FQRepr_const (z mod q_big)).
Proof.
  apply FQRepr_const_spec. rewrite q_big_q. pose proof (Z.mod_pos_bound z q ltac:(apply q_pos)). pose proof q_lt_RQ as L. rewrite RQ_pow in L. lia.
Qed.
Context (sha : list Z -> list Z).

Lemma rel_hp : forall a b, R (hp sha B a b) (hp sha B' a b).
Proof. intros. unf hp. cbv zeta. apply rb_of; [assumption|apply wf_of_mod]. Qed.
#[local] Instance li_hp : RelLem (hp sha B) _ := rel_hp.
Lemma rel_hp2 : forall a b, (R2 R) (hp2 sha B a b) (hp2 sha B' a b).
Proof. intros. unf hp2. cbv zeta. apply R2_mk; (apply rb_of; [assumption|apply wf_of_mod]). Qed.
#[local] Instance li_hp2 : RelLem (hp2 sha B) _ := rel_hp2.
Lemma rel_ellPA : R (ellPA B) (ellPA B').
Proof. intros. unf ellPA. rel. Qed.
#[local] Instance li_ellPA : RelLem (ellPA B) _ := rel_ellPA.
Lemma rel_ellPB : R (ellPB B) (ellPB B').
Proof. intros. unf ellPB. rel. Qed.
#[local] Instance li_ellPB : RelLem (ellPB B) _ := rel_ellPB.
Lemma rel_signFQ : forall a a', R a a' -> R (signFQ B a) (signFQ B' a').
Proof. intros. unf signFQ. rel. Qed.
#[local] Instance li_signFQ : RelLem (signFQ B) _ := rel_signFQ.
Lemma rel_DivAssign1 : forall a a' b b', R a a' -> R b b' -> R (DivAssign1 B a b) (DivAssign1 B' a' b').
Proof. intros. unf DivAssign1. rel. Qed.
#[local] Instance li_DivAssign1 : RelLem (DivAssign1 B) _ := rel_DivAssign1.
Lemma rel_optimizedSWUMapHelper : forall a a', R a a' -> (optR (RA R)) (optimizedSWUMapHelper B a) (optimizedSWUMapHelper B' a').
Proof. intros. cbv beta delta [NewAffine]. unf optimizedSWUMapHelper. rel. Qed.
#[local] Instance li_optimizedSWUMapHelper : RelLem (optimizedSWUMapHelper B) _ := rel_optimizedSWUMapHelper.
Lemma rel_iso11 : forall a a', (RA R) a a' -> (RA R) (iso11 B a) (iso11 B' a').
Proof.
  intros. unf iso11. cbv beta delta [NewAffine].
  assert (Forall2 R (map (b_of B) xNum11_repr) (map (b_of B') xNum11_repr)) by (apply rel_of_list; vm_compute; reflexivity).
  assert (Forall2 R (map (b_of B) xDen11_repr) (map (b_of B') xDen11_repr)) by (apply rel_of_list; vm_compute; reflexivity).
  assert (Forall2 R (map (b_of B) yNum11_repr) (map (b_of B') yNum11_repr)) by (apply rel_of_list; vm_compute; reflexivity).
  assert (Forall2 R (map (b_of B) yDen11_repr) (map (b_of B') yDen11_repr)) by (apply rel_of_list; vm_compute; reflexivity).
  rel.
Qed.
#[local] Instance li_iso11 : RelLem (iso11 B) _ := rel_iso11.
Lemma rel_ClearH : forall a a', (RA R) a a' -> (RA R) (ClearH B a) (ClearH B' a').
Proof. intros. unf ClearH. rel. Qed.
#[local] Instance li_ClearH : RelLem (ClearH B) _ := rel_ClearH.
Lemma rel_optimizedSWUMap : forall a a' b b', R a a' -> (optR R) b b' -> (optR (RA R)) (optimizedSWUMap B a b) (optimizedSWUMap B' a' b').
Proof. intros. unf optimizedSWUMap. rel. Qed.
#[local] Instance li_optimizedSWUMap : RelLem (optimizedSWUMap B) _ := rel_optimizedSWUMap.
Lemma rel_HashG1 : forall a, (optR (RA R)) (HashG1 sha B a) (HashG1 sha B' a).
Proof. intros. unf HashG1. rel. Qed.
#[local] Instance li_HashG1 : RelLem (HashG1 sha B) _ := rel_HashG1.
Lemma rel_ell2pA : (R2 R) (ell2pA B) (ell2pA B').
Proof. intros. unf ell2pA. rel. Qed.
#[local] Instance li_ell2pA : RelLem (ell2pA B) _ := rel_ell2pA.
Lemma rel_ell2pB : (R2 R) (ell2pB B) (ell2pB B').
Proof. intros. unf ell2pB. rel. Qed.
#[local] Instance li_ell2pB : RelLem (ell2pB B) _ := rel_ell2pB.
Lemma rel_signFQ2 : forall a a', (R2 R) a a' -> eq (signFQ2 B a) (signFQ2 B' a').
Proof. intros. unf signFQ2. rel. Qed.
#[local] Instance li_signFQ2 : RelLem (signFQ2 B) _ := rel_signFQ2.
Lemma rel_OptimizedSWU2MapHelper : forall a a', (R2 R) a a' -> (optR (optR (RA (R2 R)))) (OptimizedSWU2MapHelper B a) (OptimizedSWU2MapHelper B' a').
Proof. intros. cbv beta delta [NewAffine]. unf OptimizedSWU2MapHelper. rel. Qed.
#[local] Instance li_OptimizedSWU2MapHelper : RelLem (OptimizedSWU2MapHelper B) _ := rel_OptimizedSWU2MapHelper.
Lemma rel_iso3 : forall a a', (RA (R2 R)) a a' -> (RA (R2 R)) (iso3 B a) (iso3 B' a').
Proof.
  intros. unf iso3. cbv beta delta [NewAffine].
  assert (Forall2 (R2 R) (map (of_pair B) xNum3_repr) (map (of_pair B') xNum3_repr)) by (apply rel_of_pairs; vm_compute; reflexivity).
  assert (Forall2 (R2 R) (map (of_pair B) xDen3_repr) (map (of_pair B') xDen3_repr)) by (apply rel_of_pairs; vm_compute; reflexivity).
  assert (Forall2 (R2 R) (map (of_pair B) yNum3_repr) (map (of_pair B') yNum3_repr)) by (apply rel_of_pairs; vm_compute; reflexivity).
  assert (Forall2 (R2 R) (map (of_pair B) yDen3_repr) (map (of_pair B') yDen3_repr)) by (apply rel_of_pairs; vm_compute; reflexivity).
  rel.
Qed.
#[local] Instance li_iso3 : RelLem (iso3 B) _ := rel_iso3.
Lemma rel_iwsc : (R2 R) (iwsc B) (iwsc B').
Proof. intros. unf iwsc. rel. Qed.
#[local] Instance li_iwsc : RelLem (iwsc B) _ := rel_iwsc.
Lemma rel_kQiX : R (kQiX B) (kQiX B').
Proof. intros. unf kQiX. rel. Qed.
#[local] Instance li_kQiX : RelLem (kQiX B) _ := rel_kQiX.
Lemma rel_kQiY : R (kQiY B) (kQiY B').
Proof. intros. unf kQiY. rel. Qed.
#[local] Instance li_kQiY : RelLem (kQiY B) _ := rel_kQiY.
Lemma rel_psi : forall a a', (RA (R2 R)) a a' -> (RA (R2 R)) (psi B a) (psi B' a').
Proof. intros. cbv beta delta [NewAffine]. unf psi. rel. Qed.
#[local] Instance li_psi : RelLem (psi B) _ := rel_psi.
Lemma rel_clearH2 : forall a a', (RA (R2 R)) a a' -> (RA (R2 R)) (clearH2 B a) (clearH2 B' a').
Proof. intros. unf clearH2. rel. Qed.
#[local] Instance li_clearH2 : RelLem (clearH2 B) _ := rel_clearH2.
Lemma rel_optimizedSWUMap2 : forall a a' b b', (R2 R) a a' -> (optR (R2 R)) b b' -> (optR (RA (R2 R))) (optimizedSWUMap2 B a b) (optimizedSWUMap2 B' a' b').
Proof. intros. unf optimizedSWUMap2. rel. Qed.
#[local] Instance li_optimizedSWUMap2 : RelLem (optimizedSWUMap2 B) _ := rel_optimizedSWUMap2.
Lemma rel_HashG2 : forall a, (optR (RA (R2 R))) (HashG2 sha B a) (HashG2 sha B' a).
Proof. intros. unf HashG2. rel. Qed.
#[local] Instance li_HashG2 : RelLem (HashG2 sha B) _ := rel_HashG2.
Lemma rel_SWEncodeG2 : forall a a', (R2 R) a a' -> (optR (RA (R2 R))) (SWEncodeG2 B a) (SWEncodeG2 B' a').
Proof. intros. unf SWEncodeG2. rel. Qed.
#[local] Instance li_SWEncodeG2 : RelLem (SWEncodeG2 B) _ := rel_SWEncodeG2.
Lemma rel_HashG2WithDomain_loop fuel x x' : R2 R x x' -> optR (RP (R2 R)) (HashG2WithDomain_loop B fuel x) (HashG2WithDomain_loop B' fuel x').
Proof.
  revert x x'. induction fuel; intros x x' Hx; cbn [HashG2WithDomain_loop]; [exact I|]. cbv beta delta [NewAffine].
  assert (optR (RP (R2 R)) (HashG2WithDomain_loop B fuel (FQ2_AddAssign B x (FQ2One B))) (HashG2WithDomain_loop B' fuel (FQ2_AddAssign B' x' (FQ2One B')))) by (apply IHfuel; rel).
  rel.
Qed.
(** SHA-256 returns 32 bytes. *)
Definition sha_ok := forall l, Forall isByte (sha l) /\ length (sha l) = 32%nat.
Lemma big_SetBytes_bound l : Forall isByte l -> 0 <= big_SetBytes l < 256 ^ Z.of_nat (length l).
Proof.
  unfold big_SetBytes. intros H. assert (forall a, 0 <= a -> a * 256 ^ Z.of_nat (length l) <= fold_left (fun a b => a * 256 + b) l a < (a + 1) * 256 ^ Z.of_nat (length l)) as G.
  { induction H as [|x l Hx Hl IH]; intros a Ha; cbn [fold_left length]; [rewrite Z.pow_0_r; lia|].
    rewrite Nat2Z.inj_succ, Z.pow_succ_r by lia. unfold isByte in Hx. specialize (IH (a * 256 + x) ltac:(lia)).
    assert (0 < 256 ^ Z.of_nat (length l)) by (apply Z.pow_pos_nonneg; lia). nia. }
  specialize (G 0 ltac:(lia)). lia.
Qed.
Lemma wf_of_sha l : sha_ok -> wf6 (FQRepr_const (big_SetBytes (sha l))).
Proof.
  intros Hs. destruct (Hs l) as [Hb Hl]. apply FQRepr_const_spec. pose proof (big_SetBytes_bound _ Hb) as H. rewrite Hl in H.
  change (256 ^ Z.of_nat 32) with (2 ^ 256) in H. assert (2 ^ 256 < 2 ^ 384) by (apply Z.pow_lt_mono_r; lia). lia.
Qed.
Lemma rel_HashG2WithDomain_start h d : sha_ok -> R2 R (HashG2WithDomain_start sha B h d) (HashG2WithDomain_start sha B' h d).
Proof. intros. unfold HashG2WithDomain_start. apply R2_mk; (apply rb_of; [assumption|apply wf_of_sha; assumption]). Qed.
Lemma rel_HashG2WithDomain_fuel fuel h d : sha_ok -> optR (RP (R2 R)) (HashG2WithDomain_fuel sha B fuel h d) (HashG2WithDomain_fuel sha B' fuel h d).
Proof. intros. unfold HashG2WithDomain_fuel. apply rel_HashG2WithDomain_loop, rel_HashG2WithDomain_start. assumption. Qed.
#[local] Instance li_HashG2WithDomain_fuel : RelLem (HashG2WithDomain_fuel sha B) _ := rel_HashG2WithDomain_fuel.

(** ** The signature layer *)
Lemma rel_g1pubs_Signature_Serialize : forall a a', (RP (R2 R)) a a' -> eq (g1pubs_Signature_Serialize B a) (g1pubs_Signature_Serialize B' a').
Proof. intros. unf g1pubs_Signature_Serialize. rel. Qed.
#[local] Instance li_g1pubs_Signature_Serialize : RelLem (g1pubs_Signature_Serialize B) _ := rel_g1pubs_Signature_Serialize.
Lemma rel_g1pubs_PublicKey_Serialize : forall a a', (RP R) a a' -> eq (g1pubs_PublicKey_Serialize B a) (g1pubs_PublicKey_Serialize B' a').
Proof. intros. unf g1pubs_PublicKey_Serialize. rel. Qed.
#[local] Instance li_g1pubs_PublicKey_Serialize : RelLem (g1pubs_PublicKey_Serialize B) _ := rel_g1pubs_PublicKey_Serialize.
Lemma rel_g1pubs_PublicKey_Equals : forall a a' b b', (RP R) a a' -> (RP R) b b' -> eq (g1pubs_PublicKey_Equals B a b) (g1pubs_PublicKey_Equals B' a' b').
Proof. intros. unf g1pubs_PublicKey_Equals. rel. Qed.
#[local] Instance li_g1pubs_PublicKey_Equals : RelLem (g1pubs_PublicKey_Equals B) _ := rel_g1pubs_PublicKey_Equals.
Lemma rel_g1pubs_Sign : forall a b, (optR (RP (R2 R))) (g1pubs_Sign sha B a b) (g1pubs_Sign sha B' a b).
Proof. intros. unf g1pubs_Sign. rel. Qed.
#[local] Instance li_g1pubs_Sign : RelLem (g1pubs_Sign sha B) _ := rel_g1pubs_Sign.
Lemma rel_g1pubs_SignWithDomain : forall a b c d, sha_ok -> (optR (RP (R2 R))) (g1pubs_SignWithDomain sha B a b c d) (g1pubs_SignWithDomain sha B' a b c d).
Proof. intros. unf g1pubs_SignWithDomain. rel. Qed.
#[local] Instance li_g1pubs_SignWithDomain : RelLem (g1pubs_SignWithDomain sha B) _ := rel_g1pubs_SignWithDomain.
Lemma rel_g1pubs_PrivToPub : forall a, (optR (RP R)) (g1pubs_PrivToPub B a) (g1pubs_PrivToPub B' a).
Proof. intros. unf g1pubs_PrivToPub. rel. Qed.
#[local] Instance li_g1pubs_PrivToPub : RelLem (g1pubs_PrivToPub B) _ := rel_g1pubs_PrivToPub.
Lemma rel_g1pubs_Verify : forall a b b' c c', (RP R) b b' -> (RP (R2 R)) c c' -> (optR eq) (g1pubs_Verify sha B a b c) (g1pubs_Verify sha B' a b' c').
Proof. intros. unf g1pubs_Verify. rel. Qed.
#[local] Instance li_g1pubs_Verify : RelLem (g1pubs_Verify sha B) _ := rel_g1pubs_Verify.
Lemma rel_g1pubs_VerifyWithDomain : forall a b c c' d d' e, sha_ok -> (RP R) c c' -> (RP (R2 R)) d d' -> (optR eq) (g1pubs_VerifyWithDomain sha B a b c d e) (g1pubs_VerifyWithDomain sha B' a b c' d' e).
Proof. intros. unf g1pubs_VerifyWithDomain. rel. Qed.
#[local] Instance li_g1pubs_VerifyWithDomain : RelLem (g1pubs_VerifyWithDomain sha B) _ := rel_g1pubs_VerifyWithDomain.
Lemma rel_g1pubs_DeserializeSignature : forall a, Forall isByte a -> length a = 96%nat -> (optR (RP (R2 R))) (g1pubs_DeserializeSignature B a) (g1pubs_DeserializeSignature B' a).
Proof.
  intros a Ha Hl. unf g1pubs_DeserializeSignature. pose proof (rel_DecompressG2 a Ha Hl) as H. destruct (DecompressG2 B a), (DecompressG2 B' a); cbn [optR option_map] in H |- *; try contradiction; [|exact I]. rel.
Qed.
#[local] Instance li_g1pubs_DeserializeSignature : RelLem (g1pubs_DeserializeSignature B) _ := rel_g1pubs_DeserializeSignature.
Lemma rel_g1pubs_DeserializePublicKey : forall a, Forall isByte a -> length a = 48%nat -> (optR (RP R)) (g1pubs_DeserializePublicKey B a) (g1pubs_DeserializePublicKey B' a).
Proof.
  intros a Ha Hl. unf g1pubs_DeserializePublicKey. pose proof (rel_DecompressG1 a Ha Hl) as H. destruct (DecompressG1 B a), (DecompressG1 B' a); cbn [optR option_map] in H |- *; try contradiction; [|exact I]. rel.
Qed.
#[local] Instance li_g1pubs_DeserializePublicKey : RelLem (g1pubs_DeserializePublicKey B) _ := rel_g1pubs_DeserializePublicKey.
Lemma rel_g1pubs_Signature_Aggregate : forall a a' b b', (RP (R2 R)) a a' -> (RP (R2 R)) b b' -> (RP (R2 R)) (g1pubs_Signature_Aggregate B a b) (g1pubs_Signature_Aggregate B' a' b').
Proof. intros. unf g1pubs_Signature_Aggregate. rel. Qed.
#[local] Instance li_g1pubs_Signature_Aggregate : RelLem (g1pubs_Signature_Aggregate B) _ := rel_g1pubs_Signature_Aggregate.
Lemma rel_g1pubs_PublicKey_Aggregate : forall a a' b b', (RP R) a a' -> (RP R) b b' -> (RP R) (g1pubs_PublicKey_Aggregate B a b) (g1pubs_PublicKey_Aggregate B' a' b').
Proof. intros. unf g1pubs_PublicKey_Aggregate. rel. Qed.
#[local] Instance li_g1pubs_PublicKey_Aggregate : RelLem (g1pubs_PublicKey_Aggregate B) _ := rel_g1pubs_PublicKey_Aggregate.
Lemma rel_g1pubs_AggregateSignatures : forall a a', (Forall2 (RP (R2 R))) a a' -> (RP (R2 R)) (g1pubs_AggregateSignatures B a) (g1pubs_AggregateSignatures B' a').
Proof. intros. unf g1pubs_AggregateSignatures. apply (fold_left_rel _ (RP (R2 R))); [intros; rel|assumption|rel]. Qed.
#[local] Instance li_g1pubs_AggregateSignatures : RelLem (g1pubs_AggregateSignatures B) _ := rel_g1pubs_AggregateSignatures.
Lemma rel_g1pubs_AggregatePublicKeys : forall a a', (Forall2 (RP R)) a a' -> (RP R) (g1pubs_AggregatePublicKeys B a) (g1pubs_AggregatePublicKeys B' a').
Proof. intros. unf g1pubs_AggregatePublicKeys. apply (fold_left_rel _ (RP R)); [intros; rel|assumption|rel]. Qed.
#[local] Instance li_g1pubs_AggregatePublicKeys : RelLem (g1pubs_AggregatePublicKeys B) _ := rel_g1pubs_AggregatePublicKeys.
Lemma rel_g1pubs_pairing_product : forall l l' r r', Forall2 (prodR (RP R) eq) l l' -> R12 R r r' -> optR (R12 R) (g1pubs_pairing_product sha B r l) (g1pubs_pairing_product sha B' r' l').
Proof.
  intros l l' r r' H. revert r r'. induction H as [|[p m] [p' m'] l l' [Hp Hm] Hl IH]; intros r r' Hr; cbn [g1pubs_pairing_product]; [assumption|].
  cbn [fst snd] in Hp, Hm. subst m'.
  assert (forall x x', R12 R x x' -> optR (R12 R) (g1pubs_pairing_product sha B x l) (g1pubs_pairing_product sha B' x' l')) as IH' by (intros; apply IH; assumption). clear IH.
  repeat (rel_step; try exact I). apply IH'. rel.
Qed.
Context (fuel : nat) (dom : list Z).
Lemma rel_g1pubs_pairing_product_domain : forall l l' r r', sha_ok -> Forall2 (prodR (RP R) eq) l l' -> R12 R r r' -> optR (R12 R) (g1pubs_pairing_product_domain sha B fuel dom r l) (g1pubs_pairing_product_domain sha B' fuel dom r' l').
Proof.
  intros l l' r r' Hsha H. revert r r'. induction H as [|[p m] [p' m'] l l' [Hp Hm] Hl IH]; intros r r' Hr; cbn [g1pubs_pairing_product_domain]; [assumption|].
  cbn [fst snd] in Hp, Hm. subst m'.
  assert (forall x x', R12 R x x' -> optR (R12 R) (g1pubs_pairing_product_domain sha B fuel dom x l) (g1pubs_pairing_product_domain sha B' fuel dom x' l')) as IH' by (intros; apply IH; assumption). clear IH.
  repeat (rel_step; try exact I). apply IH'. rel.
Qed.
Lemma combine_eq_rel {A A' C} (RR : A -> A' -> Prop) l l' (m : list C) : Forall2 RR l l' -> Forall2 (prodR RR eq) (combine l m) (combine l' m).
Proof. intros H. apply F2_combine; [assumption|apply F2_eq]. Qed.
Lemma rel_g1pubs_VerifyAggregate s s' pks pks' msgs : (RP (R2 R)) s s' -> (Forall2 (RP R)) pks pks' -> optR eq (g1pubs_VerifyAggregate sha B s pks msgs) (g1pubs_VerifyAggregate sha B' s' pks' msgs).
Proof.
  intros Hs Hp. unf g1pubs_VerifyAggregate. rewrite <- (F2_length _ _ _ Hp). destruct (negb _); [reflexivity|]. destruct (has_duplicate _ _); [reflexivity|].
  pose proof (rel_g1pubs_pairing_product _ _ _ _ (combine_eq_rel _ _ _ msgs Hp) rel_FQ12One). rel.
Qed.
Lemma rel_g1pubs_VerifyAggregateCommon : forall a a' b b' c, (RP (R2 R)) a a' -> (Forall2 (RP R)) b b' -> (optR eq) (g1pubs_VerifyAggregateCommon sha B a b c) (g1pubs_VerifyAggregateCommon sha B' a' b' c).
Proof. intros. unf g1pubs_VerifyAggregateCommon. rel. Qed.
#[local] Instance li_g1pubs_VerifyAggregateCommon : RelLem (g1pubs_VerifyAggregateCommon sha B) _ := rel_g1pubs_VerifyAggregateCommon.
Lemma rel_g1pubs_VerifyAggregateCommonWithDomain : forall a b b' c c' d e, sha_ok -> (RP (R2 R)) b b' -> (Forall2 (RP R)) c c' -> (optR eq) (g1pubs_VerifyAggregateCommonWithDomain sha B a b c d e) (g1pubs_VerifyAggregateCommonWithDomain sha B' a b' c' d e).
Proof. intros. unf g1pubs_VerifyAggregateCommonWithDomain. rel. Qed.
#[local] Instance li_g1pubs_VerifyAggregateCommonWithDomain : RelLem (g1pubs_VerifyAggregateCommonWithDomain sha B) _ := rel_g1pubs_VerifyAggregateCommonWithDomain.
Lemma rel_g1pubs_VerifyAggregateWithDomain s s' pks pks' msgs : sha_ok -> (RP (R2 R)) s s' -> (Forall2 (RP R)) pks pks' -> optR eq (g1pubs_VerifyAggregateWithDomain sha B fuel s pks msgs dom) (g1pubs_VerifyAggregateWithDomain sha B' fuel s' pks' msgs dom).
Proof.
  intros Hsha Hs Hp. unf g1pubs_VerifyAggregateWithDomain. rewrite <- (F2_length _ _ _ Hp). destruct (negb _); [reflexivity|]. 
  pose proof (rel_g1pubs_pairing_product_domain _ _ _ _ Hsha (combine_eq_rel _ _ _ msgs Hp) rel_FQ12One). rel.
Qed.
Lemma rel_g2pubs_Signature_Serialize : forall a a', (RP R) a a' -> eq (g2pubs_Signature_Serialize B a) (g2pubs_Signature_Serialize B' a').
Proof. intros. unf g2pubs_Signature_Serialize. rel. Qed.
#[local] Instance li_g2pubs_Signature_Serialize : RelLem (g2pubs_Signature_Serialize B) _ := rel_g2pubs_Signature_Serialize.
Lemma rel_g2pubs_PublicKey_Serialize : forall a a', (RP (R2 R)) a a' -> eq (g2pubs_PublicKey_Serialize B a) (g2pubs_PublicKey_Serialize B' a').
Proof. intros. unf g2pubs_PublicKey_Serialize. rel. Qed.
#[local] Instance li_g2pubs_PublicKey_Serialize : RelLem (g2pubs_PublicKey_Serialize B) _ := rel_g2pubs_PublicKey_Serialize.
Lemma rel_g2pubs_PublicKey_Equals : forall a a' b b', (RP (R2 R)) a a' -> (RP (R2 R)) b b' -> eq (g2pubs_PublicKey_Equals B a b) (g2pubs_PublicKey_Equals B' a' b').
Proof. intros. unf g2pubs_PublicKey_Equals. rel. Qed.
#[local] Instance li_g2pubs_PublicKey_Equals : RelLem (g2pubs_PublicKey_Equals B) _ := rel_g2pubs_PublicKey_Equals.
Lemma rel_g2pubs_Sign : forall a b, (optR (RP R)) (g2pubs_Sign sha B a b) (g2pubs_Sign sha B' a b).
Proof. intros. unf g2pubs_Sign. rel. Qed.
#[local] Instance li_g2pubs_Sign : RelLem (g2pubs_Sign sha B) _ := rel_g2pubs_Sign.
Lemma rel_g2pubs_PrivToPub : forall a, (optR (RP (R2 R))) (g2pubs_PrivToPub B a) (g2pubs_PrivToPub B' a).
Proof. intros. unf g2pubs_PrivToPub. rel. Qed.
#[local] Instance li_g2pubs_PrivToPub : RelLem (g2pubs_PrivToPub B) _ := rel_g2pubs_PrivToPub.
Lemma rel_g2pubs_Verify : forall a b b' c c', (RP (R2 R)) b b' -> (RP R) c c' -> (optR eq) (g2pubs_Verify sha B a b c) (g2pubs_Verify sha B' a b' c').
Proof. intros. unf g2pubs_Verify. rel. Qed.
#[local] Instance li_g2pubs_Verify : RelLem (g2pubs_Verify sha B) _ := rel_g2pubs_Verify.
Lemma rel_g2pubs_DeserializeSignature : forall a, Forall isByte a -> length a = 48%nat -> (optR (RP R)) (g2pubs_DeserializeSignature B a) (g2pubs_DeserializeSignature B' a).
Proof.
  intros a Ha Hl. unf g2pubs_DeserializeSignature. pose proof (rel_DecompressG1 a Ha Hl) as H. destruct (DecompressG1 B a), (DecompressG1 B' a); cbn [optR option_map] in H |- *; try contradiction; [|exact I]. rel.
Qed.
#[local] Instance li_g2pubs_DeserializeSignature : RelLem (g2pubs_DeserializeSignature B) _ := rel_g2pubs_DeserializeSignature.
Lemma rel_g2pubs_DeserializePublicKey : forall a, Forall isByte a -> length a = 96%nat -> (optR (RP (R2 R))) (g2pubs_DeserializePublicKey B a) (g2pubs_DeserializePublicKey B' a).
Proof.
  intros a Ha Hl. unf g2pubs_DeserializePublicKey. pose proof (rel_DecompressG2 a Ha Hl) as H. destruct (DecompressG2 B a), (DecompressG2 B' a); cbn [optR option_map] in H |- *; try contradiction; [|exact I]. rel.
Qed.
#[local] Instance li_g2pubs_DeserializePublicKey : RelLem (g2pubs_DeserializePublicKey B) _ := rel_g2pubs_DeserializePublicKey.
Lemma rel_g2pubs_Signature_Aggregate : forall a a' b b', (RP R) a a' -> (RP R) b b' -> (RP R) (g2pubs_Signature_Aggregate B a b) (g2pubs_Signature_Aggregate B' a' b').
Proof. intros. unf g2pubs_Signature_Aggregate. rel. Qed.
#[local] Instance li_g2pubs_Signature_Aggregate : RelLem (g2pubs_Signature_Aggregate B) _ := rel_g2pubs_Signature_Aggregate.
Lemma rel_g2pubs_PublicKey_Aggregate : forall a a' b b', (RP (R2 R)) a a' -> (RP (R2 R)) b b' -> (RP (R2 R)) (g2pubs_PublicKey_Aggregate B a b) (g2pubs_PublicKey_Aggregate B' a' b').
Proof. intros. unf g2pubs_PublicKey_Aggregate. rel. Qed.
#[local] Instance li_g2pubs_PublicKey_Aggregate : RelLem (g2pubs_PublicKey_Aggregate B) _ := rel_g2pubs_PublicKey_Aggregate.
Lemma rel_g2pubs_AggregateSignatures : forall a a', (Forall2 (RP R)) a a' -> (RP R) (g2pubs_AggregateSignatures B a) (g2pubs_AggregateSignatures B' a').
Proof. intros. unf g2pubs_AggregateSignatures. apply (fold_left_rel _ (RP R)); [intros; rel|assumption|rel]. Qed.
#[local] Instance li_g2pubs_AggregateSignatures : RelLem (g2pubs_AggregateSignatures B) _ := rel_g2pubs_AggregateSignatures.
Lemma rel_g2pubs_AggregatePublicKeys : forall a a', (Forall2 (RP (R2 R))) a a' -> (RP (R2 R)) (g2pubs_AggregatePublicKeys B a) (g2pubs_AggregatePublicKeys B' a').
Proof. intros. unf g2pubs_AggregatePublicKeys. apply (fold_left_rel _ (RP (R2 R))); [intros; rel|assumption|rel]. Qed.
#[local] Instance li_g2pubs_AggregatePublicKeys : RelLem (g2pubs_AggregatePublicKeys B) _ := rel_g2pubs_AggregatePublicKeys.
Lemma rel_g2pubs_pairing_product : forall l l' r r', Forall2 (prodR (RP (R2 R)) eq) l l' -> R12 R r r' -> optR (R12 R) (g2pubs_pairing_product sha B r l) (g2pubs_pairing_product sha B' r' l').
Proof.
  intros l l' r r' H. revert r r'. induction H as [|[p m] [p' m'] l l' [Hp Hm] Hl IH]; intros r r' Hr; cbn [g2pubs_pairing_product]; [assumption|].
  cbn [fst snd] in Hp, Hm. subst m'.
  assert (forall x x', R12 R x x' -> optR (R12 R) (g2pubs_pairing_product sha B x l) (g2pubs_pairing_product sha B' x' l')) as IH' by (intros; apply IH; assumption). clear IH.
  repeat (rel_step; try exact I). apply IH'. rel.
Qed.
Lemma rel_g2pubs_VerifyAggregate s s' pks pks' msgs : (RP R) s s' -> (Forall2 (RP (R2 R))) pks pks' -> optR eq (g2pubs_VerifyAggregate sha B s pks msgs) (g2pubs_VerifyAggregate sha B' s' pks' msgs).
Proof.
  intros Hs Hp. unf g2pubs_VerifyAggregate. rewrite <- (F2_length _ _ _ Hp). destruct (negb _); [reflexivity|]. destruct (has_duplicate _ _); [reflexivity|].
  pose proof (rel_g2pubs_pairing_product _ _ _ _ (combine_eq_rel _ _ _ msgs Hp) rel_FQ12One). rel.
Qed.
Lemma rel_g2pubs_VerifyAggregateCommon : forall a a' b b' c, (RP R) a a' -> (Forall2 (RP (R2 R))) b b' -> (optR eq) (g2pubs_VerifyAggregateCommon sha B a b c) (g2pubs_VerifyAggregateCommon sha B' a' b' c).
Proof. intros. unf g2pubs_VerifyAggregateCommon. rel. Qed.
#[local] Instance li_g2pubs_VerifyAggregateCommon : RelLem (g2pubs_VerifyAggregateCommon sha B) _ := rel_g2pubs_VerifyAggregateCommon.
End BRel.
#[global] Existing Instance rel_FQ2O.
