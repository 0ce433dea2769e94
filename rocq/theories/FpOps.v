(** The base field GF(q) as mathematics (residues modulo q, no limbs) offering the operations the
    higher layers use. FqRel.v shows that the limb code of fq.go computes exactly these. *)
Require Import ZArith Lia Bool List Znumtheory Ring Field.
From Verif Require Import Words ModelRepr ReprProofs ReprProofs2 ModelFq ModelOps NumTheory Primality FqProofs FqProofs2 FqInverse Fp.
Import ListNotations.
Open Scope Z_scope.

Notation Fq := (Fp q).
Notation pwq := (zpow (f1 q) (@fmul q)).
Definition z2q (z : Z) : Fq := zp q z.

Definition Fq_field := Fp_field q prime_q.
Definition Fq_ring := Fp_ring q.
Add Field FqField : Fq_field.

Lemma Fq_integral (x y : Fq) : fmul x y = f0 q -> x = f0 q \/ y = f0 q.
Proof. apply (f_integral _ _ _ _ _ _ _ _ Fq_field Fp_dec). Qed.
Lemma Fq_mul_ne (x y : Fq) : x <> f0 q -> y <> f0 q -> fmul x y <> f0 q.
Proof. apply (f_mul_ne _ _ _ _ _ _ _ _ Fq_field Fp_dec). Qed.
Lemma Fq_sub_0 (x y : Fq) : fsub x y = f0 q <-> x = y.
Proof. apply (f_sub_0 _ _ _ _ _ _ _ _ Fq_field). Qed.
Lemma Fq_1_ne_0 : f1 q <> f0 q.
Proof. apply (F_1_neq_0 Fq_field). Qed.

(** Squareness in a field. *)
Definition is_square {K} (mul : K -> K -> K) (x : K) : Prop := exists y, mul y y = x.

(** ** Constants *)
Lemma q_mod4 : q mod 4 = 3. Proof. reflexivity. Qed.
Lemma qMinus3Over4_wf : wf6 qMinus3Over4. Proof. apply wf6_intro; unfold isW; lia. Qed.
Lemma qMinus3Over4_eval : eval6 qMinus3Over4 = (q - 3) / 4. Proof. vm_compute. reflexivity. Qed.
Lemma qMinus1Over2_wf : wf6 qMinus1Over2. Proof. apply wf6_intro; unfold isW; lia. Qed.
Lemma qMinus1Over2_eval : eval6 qMinus1Over2 = (q - 1) / 2. Proof. vm_compute. reflexivity. Qed.
Lemma negativeOne_wf : wf6 negativeOne. Proof. apply wf6_intro; unfold isW; lia. Qed.
Lemma negativeOne_eval : eval6 negativeOne = q - 1. Proof. vm_compute. reflexivity. Qed.

Lemma q34_eq : q - 3 = 4 * ((q - 3) / 4).
Proof. vm_compute. reflexivity. Qed.
Lemma q12_eq : q - 1 = 2 * ((q - 1) / 2).
Proof. vm_compute. reflexivity. Qed.
Lemma q34_pos : 0 <= (q - 3) / 4. Proof. vm_compute. discriminate. Qed.
Lemma q12_pos : 0 <= (q - 1) / 2. Proof. vm_compute. discriminate. Qed.
Lemma q_gt_2 : 2 < q. Proof. reflexivity. Qed.

(** ** Square roots: x^((q-3)/4+1) is a root of x unless x^((q-1)/2) = -1. *)
Definition fq_sqrt (x : Fq) : Fq * bool :=
  let a1 := pwq x ((q - 3) / 4) in
  if feqb (fmul (fmul a1 a1) x) (fopp (f1 q)) then (f0 q, false) else (fmul a1 x, true).
Definition fq_legendre (x : Fq) : LegendreSymbol :=
  let o := pwq x ((q - 1) / 2) in
  if feqb o (f0 q) then LegendreZero else if feqb o (f1 q) then LegendreQuadraticResidue else LegendreQuadraticNonResidue.

Lemma euler_form (x : Fq) : fmul (fmul (pwq x ((q - 3) / 4)) (pwq x ((q - 3) / 4))) x = pwq x ((q - 1) / 2).
Proof.
  replace ((q - 1) / 2) with (2 * ((q - 3) / 4) + 1) by (pose proof q34_eq; pose proof q12_eq; lia).
  rewrite (zpow_double1 _ _ _ _ _ _ Fq_ring) by apply q34_pos. reflexivity.
Qed.

Lemma Fq_nonsquare_euler (x : Fq) : pwq x ((q - 1) / 2) = fopp (f1 q) -> ~ is_square fmul x.
Proof.
  intros E [y Hy]. destruct (Fp_dec y (f0 q)) as [->|Hn].
  - replace x with (f0 q) in E by (rewrite <- Hy; ring).
    rewrite (zpow_0_l _ _ _ _ _ _ Fq_ring) in E by (pose proof q12_eq; pose proof q_gt_2; lia).
    apply Fq_1_ne_0. transitivity (fopp (fopp (f1 q))); [ring|]. rewrite <- E. ring.
  - rewrite <- Hy, (euler_square q prime_q q_odd) in E by assumption. apply (neg1_ne_1 q prime_q q_odd). auto.
Qed.
Lemma Fq_square_euler (x : Fq) : x <> f0 q -> (is_square fmul x <-> pwq x ((q - 1) / 2) = f1 q).
Proof.
  intros Hx. split.
  - intros [y <-]. apply (euler_square q prime_q q_odd). intros ->. apply Hx. ring.
  - intros E. exists (fmul (pwq x ((q - 3) / 4)) x).
    transitivity (fmul x (fmul (fmul (pwq x ((q - 3) / 4)) (pwq x ((q - 3) / 4))) x)); [ring|].
    rewrite euler_form, E. ring.
Qed.
Lemma Fq_euler_cases (x : Fq) : x <> f0 q ->
  (is_square fmul x /\ pwq x ((q - 1) / 2) = f1 q) \/ (~ is_square fmul x /\ pwq x ((q - 1) / 2) = fopp (f1 q)).
Proof.
  intros Hx. destruct (euler_pm1 q prime_q q_odd x Hx) as [E|E].
  - left. split; [apply Fq_square_euler; assumption|assumption].
  - right. split; [apply Fq_nonsquare_euler; assumption|assumption].
Qed.
Lemma Fq_is_square_0 : is_square fmul (f0 q). Proof. exists (f0 q). ring. Qed.

Theorem fq_sqrt_spec (x : Fq) :
  (is_square fmul x -> exists s, fq_sqrt x = (s, true) /\ fmul s s = x) /\
  (~ is_square fmul x -> fq_sqrt x = (f0 q, false)).
Proof.
  unfold fq_sqrt. rewrite euler_form. cbv zeta.
  destruct (Fp_dec x (f0 q)) as [->|Hx].
  - split; [|intros N; destruct (N Fq_is_square_0)]. intros _.
    rewrite !(zpow_0_l _ _ _ _ _ _ Fq_ring) by (pose proof q12_eq; pose proof q34_eq; pose proof q_gt_2; lia).
    destruct (feqb (f0 q) (fopp (f1 q))) eqn:E.
    + apply feqb_spec in E. exfalso. apply Fq_1_ne_0. transitivity (fopp (fopp (f1 q))); [ring|]. rewrite <- E. ring.
    + eexists. split; [reflexivity|]. ring.
  - destruct (Fq_euler_cases x Hx) as [[S E]|[S E]]; rewrite E; split; intros H; try contradiction.
    + destruct (feqb (f1 q) (fopp (f1 q))) eqn:E1.
      * apply feqb_spec in E1. destruct (neg1_ne_1 q prime_q q_odd). auto.
      * eexists. split; [reflexivity|].
        transitivity (fmul x (fmul (fmul (pwq x ((q - 3) / 4)) (pwq x ((q - 3) / 4))) x)); [ring|]. rewrite euler_form, E. ring.
    + destruct (feqb (fopp (f1 q)) (fopp (f1 q))) eqn:E1; [reflexivity|]. exfalso.
      assert (feqb (fopp (f1 q)) (fopp (f1 q)) = true) by (apply feqb_spec; reflexivity). congruence.
Qed.

Theorem fq_legendre_spec (x : Fq) :
  (x = f0 q -> fq_legendre x = LegendreZero) /\
  (x <> f0 q -> is_square fmul x -> fq_legendre x = LegendreQuadraticResidue) /\
  (~ is_square fmul x -> fq_legendre x = LegendreQuadraticNonResidue).
Proof.
  unfold fq_legendre. cbv zeta. assert (forall y : Fq, feqb y y = true) as Fr by (intros; apply feqb_spec; reflexivity).
  assert (forall a b : Fq, a <> b -> feqb a b = false) as Fn.
  { intros a b H. destruct (feqb a b) eqn:E; [apply feqb_spec in E; contradiction|reflexivity]. }
  split; [|split].
  - intros ->. rewrite (zpow_0_l _ _ _ _ _ _ Fq_ring), Fr by (pose proof q12_eq; pose proof q_gt_2; lia). reflexivity.
  - intros Hx S. apply Fq_square_euler in S; [|assumption]. rewrite S, (Fn (f1 q)), Fr by apply Fq_1_ne_0. reflexivity.
  - intros N. assert (x <> f0 q) as Hx by (intros ->; apply N, Fq_is_square_0).
    destruct (Fq_euler_cases x Hx) as [[S E]|[S E]]; [contradiction|]. rewrite E, !Fn.
    + reflexivity.
    + apply (neg1_ne_1 q prime_q q_odd).
    + intros E0. apply Fq_1_ne_0. transitivity (fopp (fopp (f1 q))); [ring|]. rewrite E0. ring.
Qed.

(** ** The operations record over residues *)
Definition FpO : Ops Fq := {|
  o_zero := f0 q; o_one := f1 q; o_add := fadd; o_sub := fsub; o_mul := fmul;
  o_sq := fun x => fmul x x; o_dbl := fun x => fadd x x; o_neg := fopp;
  o_inv := fun x => if feqb x (f0 q) then (f0 q, false) else (finv x, true);
  o_iszero := fun x => feqb x (f0 q); o_equals := feqb;
  o_cmp := fun x y => zcmp (zof x) (zof y);
  o_sqrt := fq_sqrt |}.
Definition FpB : BOps Fq := {|
  b_ops := FpO;
  b_raw := fun n => z2q (eval6 n * RQinv);
  b_of := fun n => if eval6 n <? q then z2q (eval6 n) else f0 q;
  b_repr := fun x => FQRepr_const (zof x);
  b_exp := fun x n => pwq x (eval6 n);
  b_legendre := fq_legendre |}.
