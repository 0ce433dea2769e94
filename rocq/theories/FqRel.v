(** The limb code of fq.go computes the operations of GF(q): one lemma per method. *)
Require Import ZArith Lia Bool List Znumtheory Ring Field.
From Verif Require Import Words ModelRepr ReprProofs ReprProofs2 ModelFq ModelOps ModelTower NumTheory Primality FqProofs FqProofs2 FqInverse Fp FpOps Loops.
Import ListNotations.
Open Scope Z_scope.

(** f is a canonical limb vector and x the residue it represents. *)
Definition RFq (f : FQ) (x : Fq) : Prop := canon f /\ zof x = fval f.

Definition fqval (f : FQ) : Fq := z2q (fval f).
Lemma RFq_iff f x : RFq f x <-> canon f /\ x = fqval f.
Proof.
  unfold RFq, fqval, z2q. split; intros [C E]; (split; [exact C|]).
  - apply Fp_eq. rewrite zof_zp, E. symmetry. apply Z.mod_small, fval_bound.
  - subst. rewrite zof_zp. apply Z.mod_small, fval_bound.
Qed.
Lemma RFq_fqval f : canon f -> RFq f (fqval f).
Proof. intros C. apply RFq_iff. auto. Qed.
Lemma RFq_fun f x y : RFq f x -> RFq f y -> x = y.
Proof. intros [_ E] [_ E2]. apply Fp_eq. congruence. Qed.
Lemma RFq_inj f g x : RFq f x -> RFq g x -> f = g.
Proof. intros [C E] [C2 E2]. apply fval_inj; congruence. Qed.
Lemma RFq_eq_iff f g x y : RFq f x -> RFq g y -> (f = g <-> x = y).
Proof. intros H1 H2. split; intros <-; [eapply RFq_fun|eapply RFq_inj]; eassumption. Qed.

(** Every residue has its canonical limb vector. *)
Definition fq_of (x : Fq) : FQ := FQReprToFQ (FQRepr_const (zof x)).
Lemma RFq_fq_of x : RFq (fq_of x) x.
Proof.
  pose proof (zof_bound q prime_q x) as B. pose proof q_lt_RQ as L. rewrite RQ_pow in L.
  destruct (FQRepr_const_spec (zof x) ltac:(lia)) as [H1 H2].
  unfold fq_of. destruct (FQReprToFQ_valid (FQRepr_const (zof x)) H1 ltac:(lia)) as [C V]. split; [exact C|congruence].
Qed.

Lemma RFq_zero : RFq FQZero (f0 q).
Proof. split; [apply FQZero_canon|]. rewrite (zof_0 q prime_q), FQZero_fval. reflexivity. Qed.
Lemma RFq_empty : RFq FQ_empty (f0 q).
Proof. split; [apply FQ_empty_canon|]. rewrite (zof_0 q prime_q), FQ_empty_fval. reflexivity. Qed.
Lemma RFq_one : RFq FQOne (f1 q).
Proof. split; [apply FQOne_canon|]. rewrite (zof_1 q prime_q), FQOne_fval. reflexivity. Qed.
Lemma RFq_add f g x y : RFq f x -> RFq g y -> RFq (FQ_AddAssign f g) (fadd x y).
Proof. intros [C E] [C2 E2]. destruct (FQ_AddAssign_spec f g C C2) as [C3 V]. split; [exact C3|]. unfold fadd. rewrite zof_zp. congruence. Qed.
Lemma RFq_sub f g x y : RFq f x -> RFq g y -> RFq (FQ_SubAssign f g) (fsub x y).
Proof. intros [C E] [C2 E2]. destruct (FQ_SubAssign_spec f g C C2) as [C3 V]. split; [exact C3|]. unfold fsub. rewrite zof_zp. congruence. Qed.
Lemma RFq_mul f g x y : RFq f x -> RFq g y -> RFq (FQ_MulAssign f g) (fmul x y).
Proof. intros [C E] [C2 E2]. destruct (FQ_MulAssign_spec f g C C2) as [C3 V]. split; [exact C3|]. unfold fmul. rewrite zof_zp. congruence. Qed.
Lemma RFq_sq f x : RFq f x -> RFq (FQ_SquareAssign f) (fmul x x).
Proof. intros [C E]. destruct (FQ_SquareAssign_spec f C) as [C3 V]. split; [exact C3|]. unfold fmul. rewrite zof_zp. congruence. Qed.
Lemma RFq_dbl f x : RFq f x -> RFq (FQ_DoubleAssign f) (fadd x x).
Proof. intros [C E]. destruct (FQ_DoubleAssign_spec f C) as [C3 V]. split; [exact C3|]. unfold fadd. rewrite zof_zp, V, E. f_equal. lia. Qed.
Lemma RFq_neg f x : RFq f x -> RFq (FQ_NegAssign f) (fopp x).
Proof. intros [C E]. destruct (FQ_NegAssign_spec f C) as [C3 V]. split; [exact C3|]. unfold fopp. rewrite zof_zp. congruence. Qed.
Lemma zof_0_iff (x : Fq) : zof x = 0 <-> x = f0 q.
Proof. rewrite <- (zof_0 q prime_q). apply zof_inj. Qed.
Lemma RFq_iszero f x : RFq f x -> FQ_IsZero f = feqb x (f0 q).
Proof.
  intros [C E]. apply eq_true_iff_eq. rewrite (FQ_IsZero_spec f C), feqb_spec, <- zof_0_iff, E. reflexivity.
Qed.
Lemma RFq_equals f g x y : RFq f x -> RFq g y -> FQ_Equals f g = feqb x y.
Proof.
  intros [C E] [C2 E2]. apply eq_true_iff_eq. rewrite (FQ_Equals_spec f g C C2), feqb_spec, <- zof_inj, E, E2. reflexivity.
Qed.
Lemma RFq_cmp f g x y : RFq f x -> RFq g y -> FQ_Cmp f g = zcmp (zof x) (zof y).
Proof. intros [C E] [C2 E2]. rewrite (FQ_Cmp_spec f g C C2). congruence. Qed.
Lemma RFq_inv f x : RFq f x ->
  (x = f0 q /\ FQ_Inverse f = (FQ_empty, false)) \/ (x <> f0 q /\ exists g, FQ_Inverse f = (g, true) /\ RFq g (finv x)).
Proof.
  intros [C E]. destruct (FQ_Inverse_spec f C) as [H0 H1]. destruct (Fp_dec x (f0 q)) as [->|Hx].
  - left. split; [reflexivity|]. apply H0. rewrite <- E. apply (zof_0 q prime_q).
  - right. split; [exact Hx|]. destruct H1 as (g & Eg & Cg & V). { rewrite <- E. intros Z. apply Hx. apply zof_0_iff. exact Z. }
    exists g. split; [exact Eg|]. apply RFq_iff. split; [exact Cg|]. symmetry.
    apply (inv_unique _ _ _ _ _ _ _ _ Fq_field). unfold fqval, z2q. apply Fp_eq. unfold fmul.
    rewrite !zof_zp, (zof_1 q prime_q), E, mod_mul_r, Z.mul_comm. exact V.
Qed.
Lemma RFq_raw n : wf6 n -> eval6 n < q -> RFq (FQReprToFQRaw n) (z2q (eval6 n * RQinv)).
Proof. intros H1 H2. apply RFq_iff. split; [split; assumption|]. unfold fqval, z2q. apply Fp_eq. rewrite !zof_zp. unfold fval. cbn [fq_n FQReprToFQRaw]. rewrite Z.mod_mod by apply q_ne. reflexivity. Qed.
Lemma RFq_of n : wf6 n -> RFq (FQReprToFQ n) (if eval6 n <? q then z2q (eval6 n) else f0 q).
Proof.
  intros H. destruct (Z.ltb_spec (eval6 n) q).
  - destruct (FQReprToFQ_valid n H) as [C V]; [assumption|]. split; [exact C|]. unfold z2q. rewrite zof_zp, V.
    apply Z.mod_small. apply eval6_bound in H. lia.
  - rewrite FQReprToFQ_invalid by assumption. apply RFq_empty.
Qed.
Lemma RFq_repr f x : RFq f x -> FQ_ToRepr f = FQRepr_const (zof x).
Proof.
  intros [C E]. destruct (FQ_ToRepr_spec f ltac:(apply C)) as [H1 H2]. pose proof (zof_bound q prime_q x) as B.
  pose proof q_lt_RQ as L. rewrite RQ_pow in L. destruct (FQRepr_const_spec (zof x) ltac:(lia)).
  apply eval6_inj; [assumption|assumption|congruence].
Qed.

(** Exp is exponentiation (C12, FQ). *)
Lemma RFq_exp f x n : RFq f x -> wf6 n -> RFq (FQ_Exp f n) (pwq x (eval6 n)).
Proof.
  rewrite FQ_Exp_ExpBits. apply (ExpBits_rel _ _ _ _ _ _ Fq_ring).
  - apply RFq_one.
  - apply RFq_sq.
  - intros. apply RFq_mul; assumption.
Qed.
Theorem FQ_Exp_spec f n : canon f -> wf6 n -> canon (FQ_Exp f n) /\ fval (FQ_Exp f n) = fval f ^ eval6 n mod q.
Proof.
  intros C Hn. destruct (RFq_exp f _ n (RFq_fqval f C) Hn) as [C2 E]. split; [exact C2|]. rewrite <- E.
  rewrite zpow_zof by (apply eval6_bound in Hn; lia). f_equal. f_equal. apply RFq_fqval. exact C.
Qed.

Lemma RFq_negone : RFq negativeOneFQ (fopp (f1 q)).
Proof.
  split; [apply negativeOneFQ_canon|]. rewrite negativeOneFQ_fval. unfold fopp. rewrite zof_zp, (zof_1 q prime_q).
  vm_compute. reflexivity.
Qed.

(** Sqrt and Legendre (C13, C14). *)
Lemma RFq_sqrt f x : RFq f x ->
  RFq (fst (FQ_Sqrt f)) (fst (fq_sqrt x)) /\ snd (FQ_Sqrt f) = snd (fq_sqrt x).
Proof.
  intros H. unfold FQ_Sqrt, fq_sqrt. cbv zeta.
  pose proof (RFq_exp f x _ H qMinus3Over4_wf) as H1. rewrite qMinus3Over4_eval in H1.
  rewrite (RFq_equals _ _ _ _ (RFq_mul _ _ _ _ (RFq_sq _ _ H1) H) RFq_negone).
  destruct (feqb _ _); (split; [|reflexivity]); [apply RFq_empty|apply RFq_mul; assumption].
Qed.
Lemma RFq_legendre f x : RFq f x -> FQ_Legendre f = fq_legendre x.
Proof.
  intros H. unfold FQ_Legendre, fq_legendre. cbv zeta.
  pose proof (RFq_exp f x _ H qMinus1Over2_wf) as H1. rewrite qMinus1Over2_eval in H1.
  rewrite (RFq_iszero _ _ H1), (RFq_equals _ _ _ _ H1 RFq_one). reflexivity.
Qed.
