(** The tower results of TowerProofs.v carried over to the limb-level code (operations record [FqB]). *)
Require Import ZArith Lia Bool List Znumtheory Ring Field.
From Verif Require Import Words ModelRepr ReprProofs ReprProofs2 ModelFq ModelOps ModelTower NumTheory Primality Fp FpOps FqProofs FqProofs2 FqRel OpsRel OpsRel2 FqTransfer TwoPow Ext ExtFrob TowerProofs.
Import ListNotations.
Open Scope Z_scope.

Lemma R2v a : canon2 a -> R2 RFq a (val2 a). Proof. intros. apply R2_val. auto. Qed.
Lemma R6v a : canon6 a -> R6 RFq a (val6 a). Proof. intros. apply R6_val. auto. Qed.
Lemma R12v a : canon12 a -> R12 RFq a (val12 a). Proof. intros. apply R12_val. auto. Qed.
Lemma out2 a x y : R2 RFq a x -> x = y -> canon2 a /\ val2 a = y.
Proof. intros H <-. apply R2_val in H. destruct H as [H ->]. auto. Qed.
Lemma out6 a x y : R6 RFq a x -> x = y -> canon6 a /\ val6 a = y.
Proof. intros H <-. apply R6_val in H. destruct H as [H ->]. auto. Qed.
Lemma out12 a x y : R12 RFq a x -> x = y -> canon12 a /\ val12 a = y.
Proof. intros H <-. apply R12_val in H. destruct H as [H ->]. auto. Qed.
Lemma val2_inj a b : canon2 a -> canon2 b -> val2 a = val2 b -> a = b.
Proof.
  intros [A0 A1] [B0 B1] E. destruct a as [a0 a1], b as [b0 b1]. cbn [c0 c1] in *.
  pose proof (f_equal c0 E) as E0. pose proof (f_equal c1 E) as E1. unfold val2 in E0, E1. cbn [c0 c1] in E0, E1.
  assert (forall x y, canon x -> canon y -> fqval x = fqval y -> x = y) as I.
  { intros x y Cx Cy X. apply fval_inj; try assumption. apply (f_equal zof) in X. unfold fqval, z2q in X. rewrite !zof_zp in X.
    rewrite !Z.mod_small in X by apply fval_bound. exact X. }
  f_equal; apply I; assumption.
Qed.
Lemma val6_inj a b : canon6 a -> canon6 b -> val6 a = val6 b -> a = b.
Proof.
  intros (A0 & A1 & A2) (B0 & B1 & B2) E. destruct a as [x0 x1 x2], b as [y0 y1 y2]. cbn [d0 d1 d2] in *.
  pose proof (f_equal d0 E) as E0. pose proof (f_equal d1 E) as E1. pose proof (f_equal d2 E) as E2. unfold val6 in E0, E1, E2. cbn [d0 d1 d2] in E0, E1, E2.
  f_equal; apply val2_inj; assumption.
Qed.
Lemma val12_inj a b : canon12 a -> canon12 b -> val12 a = val12 b -> a = b.
Proof.
  intros (A0 & A1) (B0 & B1) E. destruct a as [x0 x1], b as [y0 y1]. cbn [e0 e1] in *. 
  pose proof (f_equal e0 E) as E0. pose proof (f_equal e1 E) as E1. unfold val12 in E0, E1. cbn [e0 e1] in E0, E1.
  f_equal; apply val6_inj; assumption.
Qed.

Ltac t2 := eapply out2; [|apply m2_mul || apply m2_sq || apply m2_nr || apply m2_add || apply m2_sub || apply m2_neg || apply m2_dbl || reflexivity].
Lemma L2_add a b : canon2 a -> canon2 b -> canon2 (FQ2_AddAssign FqB a b) /\ val2 (FQ2_AddAssign FqB a b) = k2_add (val2 a) (val2 b).
Proof. intros A B. exact (out2 _ _ _ (rel_FQ2_AddAssign FqB FpB RFq _ _ _ _ (R2v a A) (R2v b B)) (m2_add _ _)). Qed.
Lemma L2_sub a b : canon2 a -> canon2 b -> canon2 (FQ2_SubAssign FqB a b) /\ val2 (FQ2_SubAssign FqB a b) = k2_sub (val2 a) (val2 b).
Proof. intros A B. exact (out2 _ _ _ (rel_FQ2_SubAssign FqB FpB RFq _ _ _ _ (R2v a A) (R2v b B)) (m2_sub _ _)). Qed.
Lemma L2_mul a b : canon2 a -> canon2 b -> canon2 (FQ2_MulAssign FqB a b) /\ val2 (FQ2_MulAssign FqB a b) = k2_mul (val2 a) (val2 b).
Proof. intros A B. exact (out2 _ _ _ (rel_FQ2_MulAssign FqB FpB RFq _ _ _ _ (R2v a A) (R2v b B)) (m2_mul _ _)). Qed.
Lemma L2_sq a : canon2 a -> canon2 (FQ2_SquareAssign FqB a) /\ val2 (FQ2_SquareAssign FqB a) = k2_mul (val2 a) (val2 a).
Proof. intros A. exact (out2 _ _ _ (rel_FQ2_SquareAssign FqB FpB RFq _ _ (R2v a A)) (m2_sq _)). Qed.
Lemma L2_neg a : canon2 a -> canon2 (FQ2_NegAssign FqB a) /\ val2 (FQ2_NegAssign FqB a) = k2_opp (val2 a).
Proof. intros A. exact (out2 _ _ _ (rel_FQ2_NegAssign FqB FpB RFq _ _ (R2v a A)) (m2_neg _)). Qed.
Lemma L2_dbl a : canon2 a -> canon2 (FQ2_DoubleAssign FqB a) /\ val2 (FQ2_DoubleAssign FqB a) = k2_add (val2 a) (val2 a).
Proof. intros A. exact (out2 _ _ _ (rel_FQ2_DoubleAssign FqB FpB RFq _ _ (R2v a A)) (m2_dbl _)). Qed.
Lemma L2_nr a : canon2 a -> canon2 (FQ2_MultiplyByNonresidueAssign FqB a) /\ val2 (FQ2_MultiplyByNonresidueAssign FqB a) = k2_mul k2_xi (val2 a).
Proof. intros A. exact (out2 _ _ _ (rel_FQ2_MultiplyByNonresidueAssign FqB FpB RFq _ _ (R2v a A)) (m2_nr _)). Qed.
Lemma L2_norm a : canon2 a -> canon (FQ2_Norm FqB a) /\ fqval (FQ2_Norm FqB a) = k2_norm (val2 a).
Proof.
  intros A. pose proof (rel_FQ2_Norm FqB FpB RFq _ _ (R2v a A)) as H. rewrite m2_norm in H. apply RFq_iff in H. destruct H as [C E]. auto.
Qed.
Lemma L2_inv a : canon2 a ->
  (val2 a = k2_0 -> FQ2_InverseAssign FqB a = (a, false)) /\
  (val2 a <> k2_0 -> exists b, FQ2_InverseAssign FqB a = (b, true) /\ canon2 b /\ k2_mul (val2 b) (val2 a) = k2_1).
Proof.
  intros A. pose proof (rel_FQ2_InverseAssign FqB FpB RFq _ _ (R2v a A)) as H. rewrite m2_inv in H.
  destruct (FQ2_InverseAssign FqB a) as [b ok]. destruct (k2_dec (val2 a) k2_0) as [E|N]; destruct H as [H1 H2]; cbn [fst snd] in H1, H2; subst ok; apply R2_val in H1; destruct H1 as [C V].
  - split; [intros _|intros; contradiction]. f_equal. apply val2_inj; auto.
  - split; [intros; contradiction|intros _]. exists b. rewrite <- V. split; [reflexivity|]. split; [exact C|]. apply (Finv_l k2_field), N.
Qed.
Lemma L2_div a b : canon2 a -> canon2 b -> val2 b <> k2_0 -> canon2 (FQ2_DivAssign FqB a b) /\ k2_mul (val2 (FQ2_DivAssign FqB a b)) (val2 b) = val2 a.
Proof.
  intros A B N. pose proof (rel_FQ2_DivAssign FqB FpB RFq _ _ _ _ (R2v a A) (R2v b B)) as H. rewrite m2_div in H.
  destruct (k2_dec (val2 b) k2_0) as [E|_]; [contradiction|]. apply R2_val in H. destruct H as [C V]. split; [exact C|]. rewrite <- V. field. exact N.
Qed.
Lemma L2_iszero a : canon2 a -> (FQ2_IsZero FqB a = true <-> val2 a = k2_0).
Proof. intros A. rewrite (rel_FQ2_IsZero FqB FpB RFq _ _ (R2v a A)). apply m2_iszero. Qed.
Lemma L2_equals a b : canon2 a -> canon2 b -> (FQ2_Equals FqB a b = true <-> a = b).
Proof.
  intros A B. rewrite (rel_FQ2_Equals FqB FpB RFq _ _ _ _ (R2v a A) (R2v b B)), m2_equals.
  split; [apply val2_inj; assumption|intros ->; reflexivity].
Qed.
Lemma L2_cmp a b : canon2 a -> canon2 b ->
  FQ2_Cmp FqB a b = -1 /\ k2_lt (val2 a) (val2 b) \/ FQ2_Cmp FqB a b = 0 /\ a = b \/ FQ2_Cmp FqB a b = 1 /\ k2_lt (val2 b) (val2 a).
Proof.
  intros A B. rewrite (rel_FQ2_Cmp FqB FpB RFq _ _ _ _ (R2v a A) (R2v b B)).
  destruct (m2_cmp (val2 a) (val2 b)) as [H|[[H E]|H]]; auto. right. left. split; [exact H|]. apply val2_inj; assumption.
Qed.
Lemma L2_parity a : canon2 a ->
  (FQ2_Parity FqB a = true <-> k2_lt (k2_opp (val2 a)) (val2 a)) /\
  (val2 a <> k2_0 -> FQ2_Parity FqB (FQ2_NegAssign FqB a) = negb (FQ2_Parity FqB a)).
Proof.
  intros A. pose proof (rel_FQ2_Parity FqB FpB RFq _ _ (R2v a A)) as H. destruct (L2_neg a A) as [CN VN].
  split; [rewrite H; apply m2_parity_true|]. intros N.
  rewrite (rel_FQ2_Parity FqB FpB RFq _ _ (R2v _ CN)), H, VN. apply m2_parity_opp, N.
Qed.
Lemma L2_exp a n : canon2 a -> wf6 n -> canon2 (FQ2_Exp FqB a n) /\ val2 (FQ2_Exp FqB a n) = pw2 (val2 a) (eval6 n).
Proof. intros A Hn. exact (out2 _ _ _ (rel_FQ2_Exp FqB FpB RFq _ _ n (R2v a A)) (m2_exp _ _ Hn)). Qed.
Lemma L2_frob a p : canon2 a -> 0 <= p -> canon2 (FQ2_FrobeniusMapAssign FqB a p) /\ val2 (FQ2_FrobeniusMapAssign FqB a p) = pw2 (val2 a) (q ^ p).
Proof. intros A Hp. exact (out2 _ _ _ (rel_FQ2_FrobeniusMapAssign FqB FpB RFq _ _ p (R2v a A)) (m2_frob _ _ Hp)). Qed.
Lemma L2_mulbits a b : canon2 a -> 0 <= b -> canon2 (FQ2_MulBits FqB a b) /\ val2 (FQ2_MulBits FqB a b) = k2_mul (k2_emb (z2q b)) (val2 a).
Proof. intros A Hb. exact (out2 _ _ _ (rel_FQ2_MulBits FqB FpB RFq _ _ b (R2v a A)) (m2_mulbits _ _ Hb)). Qed.
Lemma L2_legendre a : canon2 a ->
  (val2 a = k2_0 -> FQ2_Legendre FqB a = LegendreZero) /\
  (val2 a <> k2_0 -> (exists y, k2_mul y y = val2 a) -> FQ2_Legendre FqB a = LegendreQuadraticResidue) /\
  (~ (exists y, k2_mul y y = val2 a) -> FQ2_Legendre FqB a = LegendreQuadraticNonResidue).
Proof. intros A. rewrite (rel_FQ2_Legendre FqB FpB RFq _ _ (R2v a A)). apply m2_legendre. Qed.
Lemma L2_sqrt a : canon2 a ->
  ((exists y, k2_mul y y = val2 a) -> exists s, FQ2_Sqrt FqB a = (s, true) /\ canon2 s /\ k2_mul (val2 s) (val2 s) = val2 a) /\
  (~ (exists y, k2_mul y y = val2 a) -> exists s, FQ2_Sqrt FqB a = (s, false)).
Proof.
  intros A. pose proof (rel_FQ2_Sqrt FqB FpB RFq _ _ (R2v a A)) as H. rewrite m2_sqrt in H.
  destruct (FQ2_Sqrt FqB a) as [s ok]. destruct (k2_sqrt_spec (val2 a)) as [S1 S2]. destruct H as [H1 H2]. cbn [fst snd] in H1, H2. split; intros Q.
  - destruct (S1 Q) as (s' & E & Es). rewrite E in H1, H2. cbn [fst snd] in H1, H2. subst ok. apply R2_val in H1. destruct H1 as [C V]. subst s'.
    exists s. auto.
  - rewrite (S2 Q) in H2. cbn in H2. subst ok. exists s. reflexivity.
Qed.

Lemma L6_add a b : canon6 a -> canon6 b -> canon6 (FQ6_AddAssign FqB a b) /\ val6 (FQ6_AddAssign FqB a b) = k6_add (val6 a) (val6 b).
Proof. intros A B. exact (out6 _ _ _ (rel_FQ6_AddAssign FqB FpB RFq _ _ _ _ (R6v a A) (R6v b B)) (m6_add _ _)). Qed.
Lemma L6_sub a b : canon6 a -> canon6 b -> canon6 (FQ6_SubAssign FqB a b) /\ val6 (FQ6_SubAssign FqB a b) = k6_sub (val6 a) (val6 b).
Proof. intros A B. exact (out6 _ _ _ (rel_FQ6_SubAssign FqB FpB RFq _ _ _ _ (R6v a A) (R6v b B)) (m6_sub _ _)). Qed.
Lemma L6_mul a b : canon6 a -> canon6 b -> canon6 (FQ6_MulAssign FqB a b) /\ val6 (FQ6_MulAssign FqB a b) = k6_mul (val6 a) (val6 b).
Proof. intros A B. exact (out6 _ _ _ (rel_FQ6_MulAssign FqB FpB RFq _ _ _ _ (R6v a A) (R6v b B)) (m6_mul _ _)). Qed.
Lemma L6_sq a : canon6 a -> canon6 (FQ6_SquareAssign FqB a) /\ val6 (FQ6_SquareAssign FqB a) = k6_mul (val6 a) (val6 a).
Proof. intros A. exact (out6 _ _ _ (rel_FQ6_SquareAssign FqB FpB RFq _ _ (R6v a A)) (m6_sq _)). Qed.
Lemma L6_neg a : canon6 a -> canon6 (FQ6_NegAssign FqB a) /\ val6 (FQ6_NegAssign FqB a) = k6_opp (val6 a).
Proof. intros A. exact (out6 _ _ _ (rel_FQ6_NegAssign FqB FpB RFq _ _ (R6v a A)) (m6_neg _)). Qed.
Lemma L6_dbl a : canon6 a -> canon6 (FQ6_DoubleAssign FqB a) /\ val6 (FQ6_DoubleAssign FqB a) = k6_add (val6 a) (val6 a).
Proof. intros A. exact (out6 _ _ _ (rel_FQ6_DoubleAssign FqB FpB RFq _ _ (R6v a A)) (m6_dbl _)). Qed.
Lemma L6_nr a : canon6 a -> canon6 (FQ6_MulByNonresidueAssign FqB a) /\ val6 (FQ6_MulByNonresidueAssign FqB a) = k6_mul k6_v (val6 a).
Proof. intros A. exact (out6 _ _ _ (rel_FQ6_MulByNonresidueAssign FqB FpB RFq _ _ (R6v a A)) (m6_nr _)). Qed.
Lemma L6_mulby1 a c : canon6 a -> canon2 c -> canon6 (FQ6_MulBy1Assign FqB a c) /\ val6 (FQ6_MulBy1Assign FqB a c) = k6_mul (val6 a) (mkFQ6 k2_0 (val2 c) k2_0).
Proof. intros A C. exact (out6 _ _ _ (rel_FQ6_MulBy1Assign FqB FpB RFq _ _ _ _ (R6v a A) (R2v c C)) (m6_mulby1 _ _)). Qed.
Lemma L6_mulby01 a b c : canon6 a -> canon2 b -> canon2 c ->
  canon6 (FQ6_MulBy01Assign FqB a b c) /\ val6 (FQ6_MulBy01Assign FqB a b c) = k6_mul (val6 a) (mkFQ6 (val2 b) (val2 c) k2_0).
Proof. intros A B C. exact (out6 _ _ _ (rel_FQ6_MulBy01Assign FqB FpB RFq _ _ _ _ _ _ (R6v a A) (R2v b B) (R2v c C)) (m6_mulby01 _ _ _)). Qed.
Lemma L6_equals a b : canon6 a -> canon6 b -> (FQ6_Equals FqB a b = true <-> a = b).
Proof.
  intros A B. rewrite (rel_FQ6_Equals FqB FpB RFq _ _ _ _ (R6v a A) (R6v b B)), m6_equals.
  split; [apply val6_inj; assumption|intros ->; reflexivity].
Qed.
Lemma L6_iszero a : canon6 a -> (FQ6_IsZero FqB a = true <-> val6 a = k6_0).
Proof. intros A. rewrite (rel_FQ6_IsZero FqB FpB RFq _ _ (R6v a A)). apply m6_iszero. Qed.
Lemma L6_inv a : canon6 a ->
  (val6 a = k6_0 -> FQ6_InverseAssign FqB a = (a, false)) /\
  (val6 a <> k6_0 -> exists b, FQ6_InverseAssign FqB a = (b, true) /\ canon6 b /\ k6_mul (val6 b) (val6 a) = k6_1).
Proof.
  intros A. pose proof (rel_FQ6_InverseAssign FqB FpB RFq _ _ (R6v a A)) as H. rewrite m6_inv in H.
  destruct (FQ6_InverseAssign FqB a) as [b ok]. destruct (k6_dec (val6 a) k6_0) as [E|N]; destruct H as [H1 H2]; cbn [fst snd] in H1, H2; subst ok; apply R6_val in H1; destruct H1 as [C V].
  - split; [intros _|intros; contradiction]. f_equal. apply val6_inj; auto.
  - split; [intros; contradiction|intros _]. exists b. rewrite <- V. split; [reflexivity|]. split; [exact C|]. apply (Finv_l k6_field), N.
Qed.
Lemma L6_frob a p : canon6 a -> 0 <= p -> canon6 (FQ6_FrobeniusMapAssign FqB a p) /\ val6 (FQ6_FrobeniusMapAssign FqB a p) = pw6 (val6 a) (q ^ p).
Proof. intros A Hp. exact (out6 _ _ _ (rel_FQ6_FrobeniusMapAssign FqB FpB RFq _ _ p (R6v a A)) (m6_frob _ _ Hp)). Qed.
(** The aliased product: what the code really computes *)
Lemma m6_aliased a : FQ6_MulAssign_aliased FpB a = k6_add (k6_mul a a)
  (mkFQ6 k2_0 (k2_sub (k2_mul (d0 a) (d0 a)) (k2_mul (d1 a) (d1 a))) (k2_sub (k2_mul (d0 a) (d0 a)) (k2_mul (d2 a) (d2 a)))).
Proof. m6 (@FQ6_MulAssign_aliased). Qed.
Lemma L6_aliased a : canon6 a -> canon6 (FQ6_MulAssign_aliased FqB a) /\
  val6 (FQ6_MulAssign_aliased FqB a) = k6_add (k6_mul (val6 a) (val6 a))
    (mkFQ6 k2_0 (k2_sub (k2_mul (d0 (val6 a)) (d0 (val6 a))) (k2_mul (d1 (val6 a)) (d1 (val6 a))))
                (k2_sub (k2_mul (d0 (val6 a)) (d0 (val6 a))) (k2_mul (d2 (val6 a)) (d2 (val6 a))))).
Proof. intros A. exact (out6 _ _ _ (rel_FQ6_MulAssign_aliased FqB FpB RFq _ _ (R6v a A)) (m6_aliased _)). Qed.
Lemma L6_aliased_iff a : canon6 a -> let x := val6 a in
  (val6 (FQ6_MulAssign_aliased FqB a) = k6_mul x x <-> k2_mul (d1 x) (d1 x) = k2_mul (d0 x) (d0 x) /\ k2_mul (d2 x) (d2 x) = k2_mul (d0 x) (d0 x)).
Proof.
  intros A x. rewrite (proj2 (L6_aliased a A)). fold x. generalize x. clear. intros x. split.
  - intros E. pose proof (f_equal d1 E) as E1. pose proof (f_equal d2 E) as E2. unfold k6_add in E1, E2. cbn [d1 d2] in E1, E2. split.
    + transitivity (k2_sub (k2_mul (d0 x) (d0 x)) (k2_sub (k2_add (d1 (k6_mul x x)) (k2_sub (k2_mul (d0 x) (d0 x)) (k2_mul (d1 x) (d1 x)))) (d1 (k6_mul x x)))); [ring|rewrite E1; ring].
    + transitivity (k2_sub (k2_mul (d0 x) (d0 x)) (k2_sub (k2_add (d2 (k6_mul x x)) (k2_sub (k2_mul (d0 x) (d0 x)) (k2_mul (d2 x) (d2 x)))) (d2 (k6_mul x x)))); [ring|rewrite E2; ring].
  - intros [E1 E2]. rewrite E1, E2. generalize (k6_mul x x). intros y. apply k6_eq; unfold k6_add; cbn [d0 d1 d2]; ring.
Qed.

Lemma L6_exp_canon a n : canon6 a -> canon6 (FQ6_Exp FqB a n).
Proof. intros A. exact (proj1 (proj1 (R6_val _ _) (rel_FQ6_Exp FqB FpB RFq _ _ n (R6v a A)))). Qed.

Lemma L12_add a b : canon12 a -> canon12 b -> canon12 (FQ12_AddAssign FqB a b) /\ val12 (FQ12_AddAssign FqB a b) = k12_add (val12 a) (val12 b).
Proof. intros A B. exact (out12 _ _ _ (rel_FQ12_AddAssign FqB FpB RFq _ _ _ _ (R12v a A) (R12v b B)) (m12_add _ _)). Qed.
Lemma L12_sub a b : canon12 a -> canon12 b -> canon12 (FQ12_SubAssign FqB a b) /\ val12 (FQ12_SubAssign FqB a b) = k12_sub (val12 a) (val12 b).
Proof. intros A B. exact (out12 _ _ _ (rel_FQ12_SubAssign FqB FpB RFq _ _ _ _ (R12v a A) (R12v b B)) (m12_sub _ _)). Qed.
Lemma L12_mul a b : canon12 a -> canon12 b -> canon12 (FQ12_MulAssign FqB a b) /\ val12 (FQ12_MulAssign FqB a b) = k12_mul (val12 a) (val12 b).
Proof. intros A B. exact (out12 _ _ _ (rel_FQ12_MulAssign FqB FpB RFq _ _ _ _ (R12v a A) (R12v b B)) (m12_mul _ _)). Qed.
Lemma L12_sq a : canon12 a -> canon12 (FQ12_SquareAssign FqB a) /\ val12 (FQ12_SquareAssign FqB a) = k12_mul (val12 a) (val12 a).
Proof. intros A. exact (out12 _ _ _ (rel_FQ12_SquareAssign FqB FpB RFq _ _ (R12v a A)) (m12_sq _)). Qed.
Lemma L12_neg a : canon12 a -> canon12 (FQ12_NegAssign FqB a) /\ val12 (FQ12_NegAssign FqB a) = k12_opp (val12 a).
Proof. intros A. exact (out12 _ _ _ (rel_FQ12_NegAssign FqB FpB RFq _ _ (R12v a A)) (m12_neg _)). Qed.
Lemma L12_dbl a : canon12 a -> canon12 (FQ12_DoubleAssign FqB a) /\ val12 (FQ12_DoubleAssign FqB a) = k12_add (val12 a) (val12 a).
Proof. intros A. exact (out12 _ _ _ (rel_FQ12_DoubleAssign FqB FpB RFq _ _ (R12v a A)) (m12_dbl _)). Qed.
Lemma L12_conj a : canon12 a -> canon12 (FQ12_ConjugateAssign FqB a) /\ val12 (FQ12_ConjugateAssign FqB a) = k12_conj (val12 a).
Proof. intros A. exact (out12 _ _ _ (rel_FQ12_ConjugateAssign FqB FpB RFq _ _ (R12v a A)) (m12_conj _)). Qed.
Lemma L12_mulby014 f a b c : canon12 f -> canon2 a -> canon2 b -> canon2 c ->
  canon12 (FQ12_MulBy014Assign FqB f a b c) /\
  val12 (FQ12_MulBy014Assign FqB f a b c) = k12_mul (val12 f) (mkFQ12 (mkFQ6 (val2 a) (val2 b) k2_0) (mkFQ6 k2_0 (val2 c) k2_0)).
Proof. intros F A B C. exact (out12 _ _ _ (rel_FQ12_MulBy014Assign FqB FpB RFq _ _ _ _ _ _ _ _ (R12v f F) (R2v a A) (R2v b B) (R2v c C)) (m12_mulby014 _ _ _ _)). Qed.
Lemma L12_equals a b : canon12 a -> canon12 b -> (FQ12_Equals FqB a b = true <-> a = b).
Proof.
  intros A B. rewrite (rel_FQ12_Equals FqB FpB RFq _ _ _ _ (R12v a A) (R12v b B)), m12_equals.
  split; [apply val12_inj; assumption|intros ->; reflexivity].
Qed.
Lemma L12_iszero a : canon12 a -> (FQ12_IsZero FqB a = true <-> val12 a = k12_0).
Proof. intros A. rewrite (rel_FQ12_IsZero FqB FpB RFq _ _ (R12v a A)). apply m12_iszero. Qed.
Lemma L12_inv a : canon12 a ->
  (val12 a = k12_0 -> FQ12_InverseAssign FqB a = (a, false)) /\
  (val12 a <> k12_0 -> exists b, FQ12_InverseAssign FqB a = (b, true) /\ canon12 b /\ k12_mul (val12 b) (val12 a) = k12_1).
Proof.
  intros A. pose proof (rel_FQ12_InverseAssign FqB FpB RFq _ _ (R12v a A)) as H. rewrite m12_inv in H.
  destruct (FQ12_InverseAssign FqB a) as [b ok]. destruct (k12_dec (val12 a) k12_0) as [E|N]; destruct H as [H1 H2]; cbn [fst snd] in H1, H2; subst ok; apply R12_val in H1; destruct H1 as [C V].
  - split; [intros _|intros; contradiction]. f_equal. apply val12_inj; auto.
  - split; [intros; contradiction|intros _]. exists b. rewrite <- V. split; [reflexivity|]. split; [exact C|]. apply (Finv_l k12_field), N.
Qed.
Lemma L12_exp a n : canon12 a -> wf6 n -> canon12 (FQ12_Exp FqB a n) /\ val12 (FQ12_Exp FqB a n) = pw12 (val12 a) (eval6 n).
Proof. intros A Hn. exact (out12 _ _ _ (rel_FQ12_Exp FqB FpB RFq _ _ n (R12v a A)) (m12_exp _ _ Hn)). Qed.
Lemma L12_frob a p : canon12 a -> 0 <= p -> canon12 (FQ12_FrobeniusMapAssign FqB a p) /\ val12 (FQ12_FrobeniusMapAssign FqB a p) = pw12 (val12 a) (q ^ p).
Proof. intros A Hp. exact (out12 _ _ _ (rel_FQ12_FrobeniusMapAssign FqB FpB RFq _ _ p (R12v a A)) (m12_frob _ _ Hp)). Qed.
