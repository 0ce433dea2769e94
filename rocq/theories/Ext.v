(** The extension fields GF(q^2) = GF(q)[u]/(u^2+1), GF(q^6) = GF(q^2)[v]/(v^3-(1+u)), GF(q^12) = GF(q^6)[w]/(w^2-v), written
    with the schoolbook multiplication on the records of ModelTower, with proofs that they are fields. *)
Require Import ZArith Lia Bool List Znumtheory Ring Field.
From Verif Require Import Words ModelRepr ModelFq ModelOps ModelTower NumTheory Primality Fp FpOps FqProofs FqProofs2 FqRel FrProofs FrProofs2 FqMisc TwoPow.
Import ListNotations.
Open Scope Z_scope.

Notation K2 := (FQ2 Fq). Notation K6 := (FQ6 Fq). Notation K12 := (FQ12 Fq).
Notation q0 := (f0 q). Notation q1 := (f1 q).

(** ** GF(q^2) *)
Definition k2_0 : K2 := mkFQ2 q0 q0.
Definition k2_1 : K2 := mkFQ2 q1 q0.
Definition k2_u : K2 := mkFQ2 q0 q1.
Definition k2_xi : K2 := mkFQ2 q1 q1.
Definition k2_emb (x : Fq) : K2 := mkFQ2 x q0.
Definition k2_add (a b : K2) : K2 := mkFQ2 (fadd (c0 a) (c0 b)) (fadd (c1 a) (c1 b)).
Definition k2_sub (a b : K2) : K2 := mkFQ2 (fsub (c0 a) (c0 b)) (fsub (c1 a) (c1 b)).
Definition k2_opp (a : K2) : K2 := mkFQ2 (fopp (c0 a)) (fopp (c1 a)).
Definition k2_mul (a b : K2) : K2 :=
  mkFQ2 (fsub (fmul (c0 a) (c0 b)) (fmul (c1 a) (c1 b))) (fadd (fmul (c0 a) (c1 b)) (fmul (c1 a) (c0 b))).
Definition k2_conj (a : K2) : K2 := mkFQ2 (c0 a) (fopp (c1 a)).
Definition k2_norm (a : K2) : Fq := fadd (fmul (c0 a) (c0 a)) (fmul (c1 a) (c1 a)).
Definition k2_inv (a : K2) : K2 := mkFQ2 (fmul (c0 a) (finv (k2_norm a))) (fopp (fmul (c1 a) (finv (k2_norm a)))).
Definition k2_div (a b : K2) : K2 := k2_mul a (k2_inv b).

Lemma k2_eq (a b : K2) : c0 a = c0 b -> c1 a = c1 b -> a = b.
Proof. destruct a as [x y], b as [x' y']; cbn [c0 c1]; intros -> ->; reflexivity. Qed.
Definition k2_dec (a b : K2) : {a = b} + {a <> b}.
Proof.
  destruct (Fp_dec (c0 a) (c0 b)) as [E|N]; [|right; intros ->; apply N; reflexivity].
  destruct (Fp_dec (c1 a) (c1 b)) as [E'|N]; [left; apply k2_eq; assumption|right; intros ->; apply N; reflexivity].
Defined.
Ltac k2 := intros; apply k2_eq; cbv [k2_add k2_sub k2_opp k2_mul k2_conj k2_0 k2_1 k2_u k2_xi k2_emb]; cbn [c0 c1]; ring.
Lemma k2_ring : ring_theory k2_0 k2_1 k2_add k2_mul k2_sub k2_opp (@eq K2).
Proof. constructor; k2. Qed.
Lemma k2_conj_mul a b : k2_conj (k2_mul a b) = k2_mul (k2_conj a) (k2_conj b). Proof. k2. Qed.
Lemma k2_conj_add a b : k2_conj (k2_add a b) = k2_add (k2_conj a) (k2_conj b). Proof. k2. Qed.
Lemma k2_conj_conj a : k2_conj (k2_conj a) = a. Proof. k2. Qed.
Lemma k2_norm_conj a : k2_mul a (k2_conj a) = k2_emb (k2_norm a). Proof. unfold k2_norm. k2. Qed.
Lemma k2_norm_mul a b : k2_norm (k2_mul a b) = fmul (k2_norm a) (k2_norm b).
Proof. unfold k2_norm, k2_mul; cbn [c0 c1]; ring. Qed.
Lemma k2_norm_ne a : a <> k2_0 -> k2_norm a <> q0.
Proof.
  intros Ha E. unfold k2_norm in E. destruct (Fp_dec (c1 a) q0) as [E1|N].
  - rewrite E1 in E. assert (fmul (c0 a) (c0 a) = q0) as E0 by (rewrite <- E; ring).
    apply Fq_integral in E0. apply Ha, k2_eq; cbn [c0 c1 k2_0]; tauto.
  - apply neg1_nonsquare. exists (fmul (c0 a) (finv (c1 a))).
    transitivity (fmul (fmul (c0 a) (c0 a)) (fmul (finv (c1 a)) (finv (c1 a)))); [ring|].
    assert (fmul (c0 a) (c0 a) = fopp (fmul (c1 a) (c1 a))) as -> by (transitivity (fsub (fadd (fmul (c0 a) (c0 a)) (fmul (c1 a) (c1 a))) (fmul (c1 a) (c1 a))); [ring|rewrite E; ring]).
    field. exact N.
Qed.
Lemma k2_1_ne_0 : k2_1 <> k2_0.
Proof. intros E. apply Fq_1_ne_0. exact (f_equal c0 E). Qed.
Lemma k2_inv_l a : a <> k2_0 -> k2_mul (k2_inv a) a = k2_1.
Proof.
  intros Ha. pose proof (k2_norm_ne a Ha) as N. apply k2_eq; cbv [k2_mul k2_inv k2_1]; cbn [c0 c1].
  - transitivity (fmul (k2_norm a) (finv (k2_norm a))); [unfold k2_norm; ring|field; exact N].
  - ring.
Qed.
Lemma k2_field : field_theory k2_0 k2_1 k2_add k2_mul k2_sub k2_opp k2_div k2_inv (@eq K2).
Proof.
  constructor; [exact k2_ring|exact k2_1_ne_0|reflexivity|exact k2_inv_l].
Qed.
Add Field K2Field : k2_field.
Lemma k2_emb_add x y : k2_emb (fadd x y) = k2_add (k2_emb x) (k2_emb y). Proof. k2. Qed.
Lemma k2_emb_mul x y : k2_emb (fmul x y) = k2_mul (k2_emb x) (k2_emb y). Proof. k2. Qed.
Lemma k2_emb_inj x y : k2_emb x = k2_emb y -> x = y. Proof. intros E. exact (f_equal c0 E). Qed.
Lemma k2_split a : a = k2_add (k2_emb (c0 a)) (k2_mul (k2_emb (c1 a)) k2_u). Proof. k2. Qed.
Lemma k2_integral a b : k2_mul a b = k2_0 -> a = k2_0 \/ b = k2_0.
Proof. apply (f_integral _ _ _ _ _ _ _ _ k2_field k2_dec). Qed.
Lemma k2_mul_ne a b : a <> k2_0 -> b <> k2_0 -> k2_mul a b <> k2_0.
Proof. apply (f_mul_ne _ _ _ _ _ _ _ _ k2_field k2_dec). Qed.
Lemma k2_sq0 a : k2_mul a a = k2_0 -> a = k2_0.
Proof. intros E. apply k2_integral in E. tauto. Qed.
Notation pw2 := (zpow k2_1 k2_mul).
Lemma k2_emb_pow x n : 0 <= n -> k2_emb (pwq x n) = pw2 (k2_emb x) n.
Proof.
  intros Hn. unfold zpow. generalize (Z.to_nat n). clear. intros k. induction k; cbn [rpow]; [reflexivity|]. rewrite k2_emb_mul, IHk. reflexivity.
Qed.
Lemma k2_norm_pow a n : k2_norm (pw2 a n) = pwq (k2_norm a) n.
Proof.
  unfold zpow. generalize (Z.to_nat n). intros k. induction k; cbn [rpow]; [unfold k2_norm; cbn; ring|]. rewrite k2_norm_mul, IHk. reflexivity.
Qed.

(** 2 is neither a cube nor a square modulo q. *)
Definition two : Fq := fadd q1 q1.
Definition tq : Fq := z2q t2.
Lemma two_zof : two = z2q 2. Proof. apply Fp_eq. vm_compute. reflexivity. Qed.
Lemma two_kq : pwq two kq = tq.
Proof.
  apply Fp_eq. rewrite two_zof, zpow_zof by (vm_compute; discriminate). unfold tq, z2q. rewrite !zof_zp.
  assert (2 mod q = 2) as -> by reflexivity. rewrite t2_ok. vm_compute. reflexivity.
Qed.
Lemma kq_nonneg : 0 <= kq. Proof. vm_compute. discriminate. Qed.
Lemma two_not_cube : forall y, fmul (fmul y y) y <> two.
Proof.
  intros y E.
  assert (y <> q0) as Hy. { intros ->. assert (q0 = two) as X by (rewrite <- E; ring). apply (f_equal zof) in X. vm_compute in X. discriminate. }
  assert (pwq two (2 * (2 * kq + 1)) = q1) as X.
  { rewrite <- E. rewrite !(zpow_mul_l _ _ _ _ _ _ Fq_ring). pose proof kq_nonneg.
    rewrite <- !(zpow_add _ _ _ _ _ _ Fq_ring) by lia.
    etransitivity; [|apply (Fp_fermat q prime_q y Hy)]. apply (f_equal (pwq y)). pose proof kq_eq. lia. }
  pose proof kq_nonneg.
  rewrite (zpow_double _ _ _ _ _ _ Fq_ring), (zpow_double1 _ _ _ _ _ _ Fq_ring), two_kq in X by lia.
  apply (f_equal zof) in X. vm_compute in X. discriminate.
Qed.
Lemma two_not_square : ~ is_square fmul two.
Proof.
  apply Fq_nonsquare_euler. pose proof kq_nonneg. pose proof kq_eq.
  assert ((q - 1) / 2 = 3 * (2 * kq + 1)) as -> by (pose proof q12_eq; lia).
  replace (3 * (2 * kq + 1)) with (2 * kq + 1 + (2 * kq + 1) + (2 * kq + 1)) by ring.
  rewrite !(zpow_add _ _ _ _ _ _ Fq_ring two _ (2 * kq + 1)), !(zpow_double1 _ _ _ _ _ _ Fq_ring), two_kq by lia.
  apply Fp_eq. vm_compute. reflexivity.
Qed.
Lemma k2_norm_xi : k2_norm k2_xi = two. Proof. unfold k2_norm, k2_xi, two; cbn [c0 c1]; ring. Qed.
Lemma xi_not_cube y : k2_mul (k2_mul y y) y <> k2_xi.
Proof. intros E. apply (f_equal k2_norm) in E. rewrite !k2_norm_mul, k2_norm_xi in E. exact (two_not_cube _ E). Qed.
Lemma xi_not_square y : k2_mul y y <> k2_xi.
Proof. intros E. apply (f_equal k2_norm) in E. rewrite !k2_norm_mul, k2_norm_xi in E. apply two_not_square. exists (k2_norm y). exact E. Qed.
Lemma k2_xi_ne : k2_xi <> k2_0. Proof. intros E. apply Fq_1_ne_0. exact (f_equal c0 E). Qed.

(** ** GF(q^6) *)
Definition k6_0 : K6 := mkFQ6 k2_0 k2_0 k2_0.
Definition k6_1 : K6 := mkFQ6 k2_1 k2_0 k2_0.
Definition k6_v : K6 := mkFQ6 k2_0 k2_1 k2_0.
Definition k6_emb (x : K2) : K6 := mkFQ6 x k2_0 k2_0.
Definition k6_add (a b : K6) : K6 := mkFQ6 (k2_add (d0 a) (d0 b)) (k2_add (d1 a) (d1 b)) (k2_add (d2 a) (d2 b)).
Definition k6_sub (a b : K6) : K6 := mkFQ6 (k2_sub (d0 a) (d0 b)) (k2_sub (d1 a) (d1 b)) (k2_sub (d2 a) (d2 b)).
Definition k6_opp (a : K6) : K6 := mkFQ6 (k2_opp (d0 a)) (k2_opp (d1 a)) (k2_opp (d2 a)).
Definition k6_mul (a b : K6) : K6 :=
  mkFQ6 (k2_add (k2_mul (d0 a) (d0 b)) (k2_mul k2_xi (k2_add (k2_mul (d1 a) (d2 b)) (k2_mul (d2 a) (d1 b)))))
        (k2_add (k2_add (k2_mul (d0 a) (d1 b)) (k2_mul (d1 a) (d0 b))) (k2_mul k2_xi (k2_mul (d2 a) (d2 b))))
        (k2_add (k2_add (k2_mul (d0 a) (d2 b)) (k2_mul (d1 a) (d1 b))) (k2_mul (d2 a) (d0 b))).
Definition k6_scale (s : K2) (a : K6) : K6 := mkFQ6 (k2_mul s (d0 a)) (k2_mul s (d1 a)) (k2_mul s (d2 a)).
Definition k6_adj (a : K6) : K6 :=
  mkFQ6 (k2_sub (k2_mul (d0 a) (d0 a)) (k2_mul k2_xi (k2_mul (d1 a) (d2 a))))
        (k2_sub (k2_mul k2_xi (k2_mul (d2 a) (d2 a))) (k2_mul (d0 a) (d1 a)))
        (k2_sub (k2_mul (d1 a) (d1 a)) (k2_mul (d0 a) (d2 a))).
Definition k6_norm (a : K6) : K2 :=
  k2_add (k2_mul k2_xi (k2_add (k2_mul (d2 a) (d1 (k6_adj a))) (k2_mul (d1 a) (d2 (k6_adj a))))) (k2_mul (d0 a) (d0 (k6_adj a))).
Definition k6_inv (a : K6) : K6 := k6_scale (k2_inv (k6_norm a)) (k6_adj a).
Definition k6_div (a b : K6) : K6 := k6_mul a (k6_inv b).

Lemma k6_eq (a b : K6) : d0 a = d0 b -> d1 a = d1 b -> d2 a = d2 b -> a = b.
Proof. destruct a as [x y z], b as [x' y' z']; cbn [d0 d1 d2]; intros -> -> ->; reflexivity. Qed.
Definition k6_dec (a b : K6) : {a = b} + {a <> b}.
Proof.
  destruct (k2_dec (d0 a) (d0 b)) as [E|N]; [|right; intros ->; apply N; reflexivity].
  destruct (k2_dec (d1 a) (d1 b)) as [E'|N]; [|right; intros ->; apply N; reflexivity].
  destruct (k2_dec (d2 a) (d2 b)) as [E''|N]; [left; apply k6_eq; assumption|right; intros ->; apply N; reflexivity].
Defined.
Ltac k6 := intros; apply k6_eq; cbv [k6_add k6_sub k6_opp k6_mul k6_scale k6_0 k6_1 k6_v k6_emb k6_adj k6_norm]; cbn [d0 d1 d2]; ring.
Lemma k6_ring : ring_theory k6_0 k6_1 k6_add k6_mul k6_sub k6_opp (@eq K6).
Proof. constructor; k6. Qed.
Lemma k6_adj_mul a : k6_mul a (k6_adj a) = k6_emb (k6_norm a). Proof. k6. Qed.
Lemma k6_adj_adj a : k6_adj (k6_adj a) = k6_scale (k6_norm a) a. Proof. k6. Qed.
Lemma k6_norm_mul a b : k6_norm (k6_mul a b) = k2_mul (k6_norm a) (k6_norm b).
Proof. unfold k6_norm, k6_adj, k6_mul; cbn [d0 d1 d2]; ring. Qed.
Lemma k6_scale_mul s a b : k6_mul (k6_scale s a) b = k6_scale s (k6_mul a b). Proof. k6. Qed.
Lemma k6_emb_scale s a : k6_mul (k6_emb s) a = k6_scale s a. Proof. k6. Qed.
Lemma k6_emb_mul x y : k6_emb (k2_mul x y) = k6_mul (k6_emb x) (k6_emb y). Proof. k6. Qed.
Lemma k6_emb_add x y : k6_emb (k2_add x y) = k6_add (k6_emb x) (k6_emb y). Proof. k6. Qed.
Lemma k6_adj_0 b : k6_adj b = k6_0 -> b = k6_0.
Proof.
  intros E. pose proof (f_equal d0 E) as E0. pose proof (f_equal d1 E) as E1. pose proof (f_equal d2 E) as E2.
  cbv [k6_adj k6_0] in E0, E1, E2. cbn [d0 d1 d2] in E0, E1, E2.
  destruct (k2_dec (d2 b) k2_0) as [Z2|N].
  - rewrite Z2 in *.
    assert (d1 b = k2_0) as Z1 by (apply k2_sq0; transitivity (k2_sub (k2_mul (d1 b) (d1 b)) (k2_mul (d0 b) k2_0)); [ring|exact E2]).
    assert (d0 b = k2_0) as Z0 by (apply k2_sq0; transitivity (k2_sub (k2_mul (d0 b) (d0 b)) (k2_mul k2_xi (k2_mul (d1 b) k2_0))); [ring|exact E0]).
    apply k6_eq; assumption.
  - exfalso. pose (y := k2_mul (d1 b) (k2_inv (d2 b))). apply (xi_not_cube y). unfold y.
    assert (k2_mul (d1 b) (d1 b) = k2_mul (d0 b) (d2 b)) as S2 by (apply (f_sub_0 _ _ _ _ _ _ _ _ k2_field); exact E2).
    assert (k2_mul k2_xi (k2_mul (d2 b) (d2 b)) = k2_mul (d0 b) (d1 b)) as S1 by (apply (f_sub_0 _ _ _ _ _ _ _ _ k2_field); exact E1).
    transitivity (k2_mul (k2_mul (k2_mul (d1 b) (d1 b)) (d1 b)) (k2_inv (k2_mul (k2_mul (d2 b) (d2 b)) (d2 b)))); [field; exact N|].
    rewrite S2. transitivity (k2_mul (k2_mul (k2_mul (d0 b) (d1 b)) (d2 b)) (k2_inv (k2_mul (k2_mul (d2 b) (d2 b)) (d2 b)))); [field; exact N|].
    rewrite <- S1. field. exact N.
Qed.
Lemma k6_norm_ne a : a <> k6_0 -> k6_norm a <> k2_0.
Proof.
  intros Ha E. apply Ha, k6_adj_0, k6_adj_0. rewrite k6_adj_adj, E. k6.
Qed.
Lemma k6_1_ne_0 : k6_1 <> k6_0.
Proof. intros E. apply k2_1_ne_0. exact (f_equal d0 E). Qed.
Lemma k6_inv_l a : a <> k6_0 -> k6_mul (k6_inv a) a = k6_1.
Proof.
  intros Ha. pose proof (k6_norm_ne a Ha) as N. unfold k6_inv. rewrite k6_scale_mul, (Rmul_comm k6_ring), k6_adj_mul.
  apply k6_eq; cbv [k6_scale k6_emb k6_1]; cbn [d0 d1 d2]; [field; exact N|ring|ring].
Qed.
Lemma k6_field : field_theory k6_0 k6_1 k6_add k6_mul k6_sub k6_opp k6_div k6_inv (@eq K6).
Proof. constructor; [exact k6_ring|exact k6_1_ne_0|reflexivity|exact k6_inv_l]. Qed.
Add Field K6Field : k6_field.
Lemma k6_emb_inj x y : k6_emb x = k6_emb y -> x = y. Proof. intros E. exact (f_equal d0 E). Qed.
Lemma k6_integral a b : k6_mul a b = k6_0 -> a = k6_0 \/ b = k6_0.
Proof. apply (f_integral _ _ _ _ _ _ _ _ k6_field k6_dec). Qed.
Lemma k6_norm_v : k6_norm k6_v = k2_xi. Proof. unfold k6_norm, k6_adj, k6_v; cbn [d0 d1 d2]; ring. Qed.
Lemma v_not_square y : k6_mul y y <> k6_v.
Proof. intros E. apply (f_equal k6_norm) in E. rewrite k6_norm_mul, k6_norm_v in E. exact (xi_not_square _ E). Qed.
Lemma k6_v3 : k6_mul k6_v (k6_mul k6_v k6_v) = k6_emb k2_xi. Proof. k6. Qed.
Lemma k6_split a : a = k6_add (k6_emb (d0 a)) (k6_add (k6_mul (k6_emb (d1 a)) k6_v) (k6_mul (k6_emb (d2 a)) (k6_mul k6_v k6_v))).
Proof. k6. Qed.

(** ** GF(q^12) *)
Definition k12_0 : K12 := mkFQ12 k6_0 k6_0.
Definition k12_1 : K12 := mkFQ12 k6_1 k6_0.
Definition k12_w : K12 := mkFQ12 k6_0 k6_1.
Definition k12_emb (x : K6) : K12 := mkFQ12 x k6_0.
Definition k12_add (a b : K12) : K12 := mkFQ12 (k6_add (e0 a) (e0 b)) (k6_add (e1 a) (e1 b)).
Definition k12_sub (a b : K12) : K12 := mkFQ12 (k6_sub (e0 a) (e0 b)) (k6_sub (e1 a) (e1 b)).
Definition k12_opp (a : K12) : K12 := mkFQ12 (k6_opp (e0 a)) (k6_opp (e1 a)).
Definition k12_mul (a b : K12) : K12 :=
  mkFQ12 (k6_add (k6_mul (e0 a) (e0 b)) (k6_mul k6_v (k6_mul (e1 a) (e1 b)))) (k6_add (k6_mul (e0 a) (e1 b)) (k6_mul (e1 a) (e0 b))).
Definition k12_conj (a : K12) : K12 := mkFQ12 (e0 a) (k6_opp (e1 a)).
Definition k12_norm (a : K12) : K6 := k6_sub (k6_mul (e0 a) (e0 a)) (k6_mul k6_v (k6_mul (e1 a) (e1 a))).
Definition k12_inv (a : K12) : K12 := mkFQ12 (k6_mul (k6_inv (k12_norm a)) (e0 a)) (k6_opp (k6_mul (k6_inv (k12_norm a)) (e1 a))).
Definition k12_div (a b : K12) : K12 := k12_mul a (k12_inv b).
Lemma k12_eq (a b : K12) : e0 a = e0 b -> e1 a = e1 b -> a = b.
Proof. destruct a as [x y], b as [x' y']; cbn [e0 e1]; intros -> ->; reflexivity. Qed.
Definition k12_dec (a b : K12) : {a = b} + {a <> b}.
Proof.
  destruct (k6_dec (e0 a) (e0 b)) as [E|N]; [|right; intros ->; apply N; reflexivity].
  destruct (k6_dec (e1 a) (e1 b)) as [E'|N]; [left; apply k12_eq; assumption|right; intros ->; apply N; reflexivity].
Defined.
Ltac k12 := intros; apply k12_eq; cbv [k12_add k12_sub k12_opp k12_mul k12_conj k12_0 k12_1 k12_w k12_emb k12_norm]; cbn [e0 e1]; ring.
Lemma k12_ring : ring_theory k12_0 k12_1 k12_add k12_mul k12_sub k12_opp (@eq K12).
Proof. constructor; k12. Qed.
Lemma k12_conj_mul a b : k12_conj (k12_mul a b) = k12_mul (k12_conj a) (k12_conj b). Proof. k12. Qed.
Lemma k12_conj_conj a : k12_conj (k12_conj a) = a. Proof. k12. Qed.
Lemma k12_norm_conj a : k12_mul a (k12_conj a) = k12_emb (k12_norm a). Proof. k12. Qed.
Lemma k12_norm_ne a : a <> k12_0 -> k12_norm a <> k6_0.
Proof.
  intros Ha E. unfold k12_norm in E. destruct (k6_dec (e1 a) k6_0) as [E1|N].
  - rewrite E1 in E. assert (k6_mul (e0 a) (e0 a) = k6_0) as E0 by (rewrite <- E; ring).
    apply k6_integral in E0. apply Ha, k12_eq; cbn [e0 e1 k12_0]; tauto.
  - apply (v_not_square (k6_mul (e0 a) (k6_inv (e1 a)))).
    transitivity (k6_mul (k6_mul (e0 a) (e0 a)) (k6_mul (k6_inv (e1 a)) (k6_inv (e1 a)))); [ring|].
    assert (k6_mul (e0 a) (e0 a) = k6_mul k6_v (k6_mul (e1 a) (e1 a))) as -> by (apply (f_sub_0 _ _ _ _ _ _ _ _ k6_field); exact E).
    field. exact N.
Qed.
Lemma k12_1_ne_0 : k12_1 <> k12_0.
Proof. intros E. apply k6_1_ne_0. exact (f_equal e0 E). Qed.
Lemma k12_inv_l a : a <> k12_0 -> k12_mul (k12_inv a) a = k12_1.
Proof.
  intros Ha. pose proof (k12_norm_ne a Ha) as N. apply k12_eq; cbv [k12_mul k12_inv k12_1]; cbn [e0 e1].
  - transitivity (k6_mul (k12_norm a) (k6_inv (k12_norm a))); [unfold k12_norm; ring|field; exact N].
  - ring.
Qed.
Lemma k12_field : field_theory k12_0 k12_1 k12_add k12_mul k12_sub k12_opp k12_div k12_inv (@eq K12).
Proof. constructor; [exact k12_ring|exact k12_1_ne_0|reflexivity|exact k12_inv_l]. Qed.
Add Field K12Field : k12_field.
Lemma k12_emb_mul x y : k12_emb (k6_mul x y) = k12_mul (k12_emb x) (k12_emb y). Proof. k12. Qed.
Lemma k12_emb_add x y : k12_emb (k6_add x y) = k12_add (k12_emb x) (k12_emb y). Proof. k12. Qed.
Lemma k12_emb_inj x y : k12_emb x = k12_emb y -> x = y. Proof. intros E. exact (f_equal e0 E). Qed.
Lemma k12_w2 : k12_mul k12_w k12_w = k12_emb k6_v. Proof. k12. Qed.
Lemma k12_split a : a = k12_add (k12_emb (e0 a)) (k12_mul (k12_emb (e1 a)) k12_w). Proof. k12. Qed.
Lemma k12_integral a b : k12_mul a b = k12_0 -> a = k12_0 \/ b = k12_0.
Proof. apply (f_integral _ _ _ _ _ _ _ _ k12_field k12_dec). Qed.
Lemma k12_mul_ne a b : a <> k12_0 -> b <> k12_0 -> k12_mul a b <> k12_0.
Proof. apply (f_mul_ne _ _ _ _ _ _ _ _ k12_field k12_dec). Qed.
Notation pw6 := (zpow k6_1 k6_mul). Notation pw12 := (zpow k12_1 k12_mul).
