(** The q-th power maps of GF(q^2), GF(q^6), GF(q^12), with the constants expressed through 2^k mod q (TwoPow). *)
Require Import ZArith Lia Bool List Znumtheory Ring Field.
From Verif Require Import NumTheory Primality Fp FpOps FqMisc ModelTower TwoPow Ext.
Open Scope Z_scope.

Lemma nmul_char {R} (rO rI : R) radd rmul rsub ropp (Rth : ring_theory rO rI radd rmul rsub ropp (@eq R)) n :
  nmul rO radd n rI = rO -> forall z, nmul rO radd n z = rO.
Proof.
  intros H z. rewrite <- (Rmul_1_l Rth z), <- (nmul_rmul _ _ _ _ _ _ Rth), H, (Rmul_comm Rth), <- (Rmul_comm Rth).
  revert n H. intros n _. 
  assert (forall x, rmul rO x = rO) as A. { intros x. apply (ARmul_0_l (Rth_ARth (Eqsth R) (Eq_ext radd rmul ropp) Rth)). }
  apply A.
Qed.
Lemma nmul_zof n (x : Fq) : nmul q0 fadd n x = z2q (Z.of_nat n * zof x).
Proof.
  induction n; [reflexivity|]. cbn [nmul]. rewrite IHn. apply Fp_eq. unfold fadd, z2q. rewrite !zof_zp, Zplus_mod_idemp_r.
  f_equal. lia.
Qed.
Lemma q_char (z : Fq) : nmul q0 fadd (Z.to_nat q) z = q0.
Proof.
  rewrite nmul_zof, Z2Nat.id by (vm_compute; discriminate). apply Fp_eq. unfold z2q. rewrite zof_zp, Z.mul_comm, Z_mod_mult. vm_compute. reflexivity.
Qed.
Lemma k2_char (z : K2) : nmul k2_0 k2_add (Z.to_nat q) z = k2_0.
Proof.
  assert (forall n, nmul k2_0 k2_add n z = mkFQ2 (nmul q0 fadd n (c0 z)) (nmul q0 fadd n (c1 z))) as A.
  { induction n; [reflexivity|]. cbn [nmul]. rewrite IHn. reflexivity. }
  rewrite A, !q_char. reflexivity.
Qed.
Lemma k6_char (z : K6) : nmul k6_0 k6_add (Z.to_nat q) z = k6_0.
Proof.
  assert (forall n, nmul k6_0 k6_add n z = mkFQ6 (nmul k2_0 k2_add n (d0 z)) (nmul k2_0 k2_add n (d1 z)) (nmul k2_0 k2_add n (d2 z))) as A.
  { induction n; [reflexivity|]. cbn [nmul]. rewrite IHn. reflexivity. }
  rewrite A, !k2_char. reflexivity.
Qed.
Lemma k12_char (z : K12) : nmul k12_0 k12_add (Z.to_nat q) z = k12_0.
Proof.
  assert (forall n, nmul k12_0 k12_add n z = mkFQ12 (nmul k6_0 k6_add n (e0 z)) (nmul k6_0 k6_add n (e1 z))) as A.
  { induction n; [reflexivity|]. cbn [nmul]. rewrite IHn. reflexivity. }
  rewrite A, !k6_char. reflexivity.
Qed.
Lemma k2_frob_add a b : pw2 (k2_add a b) q = k2_add (pw2 a q) (pw2 b q).
Proof. apply (frobenius_add _ _ _ _ _ _ k2_ring q a b prime_q k2_char). Qed.
Lemma k6_frob_add a b : pw6 (k6_add a b) q = k6_add (pw6 a q) (pw6 b q).
Proof. apply (frobenius_add _ _ _ _ _ _ k6_ring q a b prime_q k6_char). Qed.
Lemma k12_frob_add a b : pw12 (k12_add a b) q = k12_add (pw12 a q) (pw12 b q).
Proof. apply (frobenius_add _ _ _ _ _ _ k12_ring q a b prime_q k12_char). Qed.

Lemma k6_emb_pow x n : k6_emb (pw2 x n) = pw6 (k6_emb x) n.
Proof. unfold zpow. generalize (Z.to_nat n). intros k. induction k; cbn [rpow]; [reflexivity|]. rewrite k6_emb_mul, IHk. reflexivity. Qed.
Lemma k12_emb_pow x n : k12_emb (pw6 x n) = pw12 (k12_emb x) n.
Proof. unfold zpow. generalize (Z.to_nat n). intros k. induction k; cbn [rpow]; [reflexivity|]. rewrite k12_emb_mul, IHk. reflexivity. Qed.

(** ** GF(q^2): conjugation *)
Lemma u_pow4 n : 0 <= n -> forall i, 0 <= i -> pw2 k2_u (4 * n + i) = pw2 k2_u i.
Proof.
  intros Hn i Hi. rewrite (zpow_add _ _ _ _ _ _ k2_ring) by lia. rewrite (zpow_mul _ _ _ _ _ _ k2_ring) by lia.
  assert (pw2 k2_u 4 = k2_1) as ->.
  { change 4 with (2 * 2). rewrite (zpow_double _ _ _ _ _ _ k2_ring), (zpow_2 _ _ _ _ _ _ k2_ring) by lia. k2. }
  rewrite (zpow_1_l _ _ _ _ _ _ k2_ring). apply (Rmul_1_l k2_ring).
Qed.
Lemma q_4m3 : q = 4 * ((q - 3) / 4) + 3. Proof. vm_compute. reflexivity. Qed.
Lemma u_q : pw2 k2_u q = k2_opp k2_u.
Proof.
  transitivity (pw2 k2_u (4 * ((q - 3) / 4) + 3)); [apply (f_equal (pw2 k2_u)), q_4m3|].
  rewrite u_pow4 by (lia || apply q34_pos). change 3 with (2 * 1 + 1). rewrite (zpow_double1 _ _ _ _ _ _ k2_ring), (zpow_1 _ _ _ _ _ _ k2_ring) by lia. k2.
Qed.
Theorem k2_frob a : pw2 a q = k2_conj a.
Proof.
  rewrite (k2_split a) at 1. rewrite k2_frob_add, (zpow_mul_l _ _ _ _ _ _ k2_ring), u_q, <- !k2_emb_pow by (vm_compute; discriminate).
  rewrite !(Fp_fermat' q prime_q). k2.
Qed.
Lemma k2_pow_conj a n : k2_conj (pw2 a n) = pw2 (k2_conj a) n.
Proof. unfold zpow. generalize (Z.to_nat n). intros k. induction k; cbn [rpow]; [apply k2_eq; cbn; ring|]. rewrite k2_conj_mul, IHk. reflexivity. Qed.

(** ** the constant xi^((q-1)/6) *)
Definition gam : K2 := pw2 k2_xi (2 * kq + 1).
Lemma gam_def : pw2 k2_xi (2 * kq + 1) = gam. Proof. unfold gam. reflexivity. Qed.
Lemma kq_mod4 : kq = 4 * (kq / 4) + 3. Proof. vm_compute. reflexivity. Qed.
Lemma gam_val : gam = mkFQ2 tq (fopp tq).
Proof.
  unfold gam. pose proof kq_nonneg.
  rewrite (zpow_succ _ _ _ _ _ _ k2_ring), <- (zpow_sq _ _ _ _ _ _ k2_ring) by lia.
  assert (k2_mul k2_xi k2_xi = k2_mul (k2_emb two) k2_u) as -> by (unfold two; k2).
  rewrite (zpow_mul_l _ _ _ _ _ _ k2_ring), <- k2_emb_pow, two_kq by lia.
  assert (pw2 k2_u kq = k2_opp k2_u) as ->.
  { transitivity (pw2 k2_u (4 * (kq / 4) + 3)); [apply (f_equal (pw2 k2_u)), kq_mod4|].
    rewrite u_pow4 by (lia || (vm_compute; discriminate)).
    change 3 with (2 * 1 + 1). rewrite (zpow_double1 _ _ _ _ _ _ k2_ring), (zpow_1 _ _ _ _ _ _ k2_ring) by lia. k2. }
  k2.
Qed.

#[global] Opaque gam kq.
(** ** GF(q^6), GF(q^12) *)
Definition k6_frob1 (a : K6) : K6 := mkFQ6 (k2_conj (d0 a)) (k2_mul (k2_conj (d1 a)) (k2_mul gam gam)) (k2_mul (k2_conj (d2 a)) (k2_mul (k2_mul gam gam) (k2_mul gam gam))).
Definition k12_frob1 (a : K12) : K12 := mkFQ12 (k6_frob1 (e0 a)) (k6_scale gam (k6_frob1 (e1 a))).
Lemma v_q : pw6 k6_v q = k6_mul (k6_emb (k2_mul gam gam)) k6_v.
Proof.
  pose proof kq_nonneg. assert (q = 1 + 3 * (2 * (2 * kq + 1))) as E by (pose proof kq_eq; lia).
  transitivity (pw6 k6_v (1 + 3 * (2 * (2 * kq + 1)))); [apply (f_equal (pw6 k6_v)), E|].
  rewrite (zpow_add _ _ _ _ _ _ k6_ring), (zpow_mul _ _ _ _ _ _ k6_ring k6_v 3), (zpow_1 _ _ _ _ _ _ k6_ring) by lia.
  assert (pw6 k6_v 3 = k6_emb k2_xi) as ->.
  { change 3 with (2 * 1 + 1). rewrite (zpow_double1 _ _ _ _ _ _ k6_ring), (zpow_1 _ _ _ _ _ _ k6_ring) by lia. k6. }
  rewrite <- k6_emb_pow, (zpow_double _ _ _ _ _ _ k2_ring) by lia. rewrite gam_def. apply (Rmul_comm k6_ring).
Qed.
Theorem k6_frob a : pw6 a q = k6_frob1 a.
Proof.
  rewrite (k6_split a) at 1. rewrite !k6_frob_add, !(zpow_mul_l _ _ _ _ _ _ k6_ring), v_q, <- !k6_emb_pow, !k2_frob.
  unfold k6_frob1. k6.
Qed.
Lemma w_q : pw12 k12_w q = k12_mul (k12_emb (k6_emb gam)) k12_w.
Proof.
  pose proof kq_nonneg. assert (q = 1 + 2 * (3 * (2 * kq + 1))) as E by (pose proof kq_eq; lia).
  transitivity (pw12 k12_w (1 + 2 * (3 * (2 * kq + 1)))); [apply (f_equal (pw12 k12_w)), E|].
  rewrite (zpow_add _ _ _ _ _ _ k12_ring), (zpow_1 _ _ _ _ _ _ k12_ring), (zpow_mul _ _ _ _ _ _ k12_ring k12_w 2) by lia.
  rewrite (zpow_2 _ _ _ _ _ _ k12_ring), k12_w2, <- k12_emb_pow, (zpow_mul _ _ _ _ _ _ k6_ring k6_v 3) by lia.
  assert (pw6 k6_v 3 = k6_emb k2_xi) as ->.
  { change 3 with (2 * 1 + 1). rewrite (zpow_double1 _ _ _ _ _ _ k6_ring), (zpow_1 _ _ _ _ _ _ k6_ring) by lia. k6. }
  rewrite <- k6_emb_pow. rewrite gam_def. apply (Rmul_comm k12_ring).
Qed.
Theorem k12_frob a : pw12 a q = k12_frob1 a.
Proof.
  rewrite (k12_split a) at 1. rewrite !k12_frob_add, !(zpow_mul_l _ _ _ _ _ _ k12_ring), w_q, <- !k12_emb_pow, !k6_frob.
  unfold k12_frob1. rewrite <- k6_emb_scale. k12.
Qed.
(** w^(q^6) = -w, hence x^(q^6) is the conjugate *)
Lemma pw_iter {R} (rO rI : R) radd rmul rsub ropp (Rth : ring_theory rO rI radd rmul rsub ropp (@eq R)) (phi : R -> R) :
  (forall a, zpow rI rmul a q = phi a) -> forall n a, zpow rI rmul a (q ^ Z.of_nat n) = Nat.iter n phi a.
Proof.
  intros H n a. induction n.
  - cbn. apply (zpow_1 _ _ _ _ _ _ Rth).
  - rewrite Nat2Z.inj_succ, Z.pow_succ_r, Z.mul_comm by lia. rewrite (zpow_mul _ _ _ _ _ _ Rth) by (try (apply Z.pow_nonneg); vm_compute; discriminate).
    rewrite IHn, H. reflexivity.
Qed.
Lemma k2_frob_n n a : pw2 a (q ^ Z.of_nat n) = Nat.iter n k2_conj a.
Proof. apply (pw_iter _ _ _ _ _ _ k2_ring), k2_frob. Qed.
Lemma k6_frob_n n a : pw6 a (q ^ Z.of_nat n) = Nat.iter n k6_frob1 a.
Proof. apply (pw_iter _ _ _ _ _ _ k6_ring), k6_frob. Qed.
Lemma k12_frob_n n a : pw12 a (q ^ Z.of_nat n) = Nat.iter n k12_frob1 a.
Proof. apply (pw_iter _ _ _ _ _ _ k12_ring), k12_frob. Qed.
