(** The two curves of BLS12-381: y^2 = x^3 + 4 over GF(q) and y^2 = x^3 + 4(1+u) over GF(q^2). *)
Require Import ZArith Lia Bool List Znumtheory Ring Field.
From Verif Require Import Words ModelRepr ReprProofs ReprProofs2 ModelFq ModelOps ModelTower ModelCurve NumTheory Primality Fp FpOps FqProofs FqProofs2 FqInverse FqRel FqMisc Loops OpsRel OpsRel2 ZInst TwoPow Ext ExtFrob TowerProofs Fld AbGrp EcGroup EcJac EcMul.
Import ListNotations.
Open Scope Z_scope.

Definition FldQ : Fld := mkFld Fq (f0 q) (f1 q) fadd fmul fsub fopp fdiv finv Fq_field (@Fp_dec q).
Definition FldQ2 : Fld := mkFld K2 k2_0 k2_1 k2_add k2_mul k2_sub k2_opp k2_div k2_inv k2_field k2_dec.
Definition FldQ12 : Fld := mkFld K12 k12_0 k12_1 k12_add k12_mul k12_sub k12_opp k12_div k12_inv k12_field k12_dec.

Lemma fdecQ (x y : Fq) : feqb x y = if @Fp_dec q x y then true else false.
Proof. destruct (Fp_dec x y) as [->|N]; [apply feqb_refl|apply feqb_ne, N]. Qed.
Lemma FpO_ok : OpsFld FldQ FpO.
Proof.
  constructor; try reflexivity.
  - intros x N. cbn [FpO o_inv]. rewrite feqb_ne by exact N. reflexivity.
  - intros x. apply fdecQ.
  - intros x y. apply fdecQ.
Qed.
Lemma FpO2_ok : OpsFld FldQ2 (FQ2O FpB).
Proof.
  constructor; try reflexivity.
  - exact m2_mul.
  - exact m2_sq.
  - intros x N. cbn [FQ2O o_inv]. rewrite m2_inv. change (@fO FldQ2) with k2_0 in N. destruct (k2_dec x k2_0); [contradiction|reflexivity].
  - exact m2_iszero_dec.
  - exact m2_equals_dec.
Qed.
Definition fq_lt (x y : Fq) : Prop := zof x < zof y.
Lemma Fq_square_dec (x : Fq) : is_square fmul x \/ ~ is_square fmul x.
Proof. destruct (Fp_dec x (f0 q)) as [->|N]; [left; apply Fq_is_square_0|]. destruct (Fq_euler_cases x N) as [[H _]|[H _]]; auto. Qed.
Lemma FpO_ord : OpsOrd FldQ FpO fq_lt.
Proof.
  constructor; unfold fq_lt.
  - intros x y H. lia.
  - intros x y. cbn [FpO o_cmp]. unfold zcmp. destruct (Z.compare_spec (zof x) (zof y)) as [E|E|E]; [right; left; split; [reflexivity|apply zof_inj, E]|auto|auto].
  - intros x s H. destruct (fq_sqrt_spec x) as [X _]. apply X. exists s. exact H.
  - intros x H. destruct (fq_sqrt_spec x) as [_ X]. cbn [FpO o_sqrt]. rewrite X; [reflexivity|]. intros [s E]. exact (H s E).
  - intros x. destruct (Fq_square_dec x) as [[s E]|N]; [left; exists s; exact E|right; intros s E; apply N; exists s; exact E].
Qed.
Lemma FpO2_ord : OpsOrd FldQ2 (FQ2O FpB) k2_lt.
Proof.
  constructor.
  - unfold k2_lt. intros x y H. lia.
  - exact m2_cmp.
  - intros x s H. destruct (k2_sqrt_spec x) as [X _]. cbn [FQ2O o_sqrt]. rewrite m2_sqrt. apply X. exists s. exact H.
  - intros x H. destruct (k2_sqrt_spec x) as [_ X]. cbn [FQ2O o_sqrt]. rewrite m2_sqrt. rewrite X; [reflexivity|]. intros [s E]. exact (H s E).
  - intros x. destruct (k2_square_dec x) as [[s E]|N]; [left; exists s; exact E|right; intros s E; apply N; exists s; exact E].
Qed.
(** curve coefficients *)
Definition b1 : Fq := z2q 4.
Definition b2 : K2 := mkFQ2 (z2q 4) (z2q 4).
Lemma z2q_ne_0 z : z mod q <> 0 -> z2q z <> f0 q.
Proof. intros H E. apply H. apply (f_equal zof) in E. unfold z2q in E. rewrite zof_zp in E. rewrite E. reflexivity. Qed.
Lemma BCoeff_val : BCoeff FpB = b1.
Proof. unfold BCoeff. cbn [FpB b_raw]. apply zof_inj. unfold b1, z2q. rewrite !zof_zp. vm_compute. reflexivity. Qed.
Lemma BCoeffFQ2_val : BCoeffFQ2 FpB = b2.
Proof. unfold BCoeffFQ2. rewrite BCoeff_val. reflexivity. Qed.
Lemma two_Q : two FldQ = z2q 2. Proof. change (fadd (f1 q) (f1 q) = z2q 2). apply zof_inj. unfold fadd, z2q, f1. rewrite !zof_zp. vm_compute. reflexivity. Qed.
Lemma three_Q : three FldQ = z2q 3. Proof. change (fadd (fadd (f1 q) (f1 q)) (f1 q) = z2q 3). apply zof_inj. unfold fadd, z2q, f1. rewrite !zof_zp. vm_compute. reflexivity. Qed.
Lemma two_Q_ne : two FldQ <> @fO FldQ. Proof. rewrite two_Q. apply z2q_ne_0. vm_compute. discriminate. Qed.
Lemma three_Q_ne : three FldQ <> @fO FldQ. Proof. rewrite three_Q. apply z2q_ne_0. vm_compute. discriminate. Qed.
Lemma b1_ne : b1 <> @fO FldQ. Proof. apply z2q_ne_0. vm_compute. discriminate. Qed.
Lemma two_Q2_ne : two FldQ2 <> @fO FldQ2. Proof. intros E. apply two_Q_ne. exact (f_equal c0 E). Qed.
Lemma three_Q2_ne : three FldQ2 <> @fO FldQ2. Proof. intros E. apply three_Q_ne. exact (f_equal c0 E). Qed.
Lemma b2_ne : b2 <> @fO FldQ2. Proof. intros E. apply b1_ne. exact (f_equal c0 E). Qed.
Definition E1 : Curve := mkCurve FldQ b1 two_Q_ne three_Q_ne b1_ne.
Definition E2 : Curve := mkCurve FldQ2 b2 two_Q2_ne three_Q2_ne b2_ne.
