(** The tower functions of the model, run over GF(q), are the field operations of GF(q^2), GF(q^6), GF(q^12). *)
Require Import ZArith Lia Bool List Znumtheory Ring Field.
From Verif Require Import Words ModelRepr ReprProofs ReprProofs2 ModelFq ModelOps ModelTower NumTheory Primality Fp FpOps FqProofs FqProofs2 FqInverse FqRel FqMisc Loops OpsRel OpsRel2 ZInst TwoPow Ext ExtFrob.
Import ListNotations.
Open Scope Z_scope.

Ltac fpb := cbv [FpB FpO b_ops b_raw b_of b_repr b_exp b_legendre o_zero o_one o_add o_sub o_mul o_sq o_dbl o_neg o_inv o_iszero o_equals o_cmp o_sqrt].
Ltac m2 f := intros; unfold f; fpb; cbv zeta; cbn [c0 c1]; k2.

(** ** FQ2 *)
Lemma m2_zero : FQ2Zero FpB = k2_0. Proof. reflexivity. Qed.
Lemma m2_one : FQ2One FpB = k2_1. Proof. reflexivity. Qed.
Lemma m2_add a b : FQ2_AddAssign FpB a b = k2_add a b. Proof. reflexivity. Qed.
Lemma m2_sub a b : FQ2_SubAssign FpB a b = k2_sub a b. Proof. reflexivity. Qed.
Lemma m2_neg a : FQ2_NegAssign FpB a = k2_opp a. Proof. reflexivity. Qed.
Lemma m2_dbl a : FQ2_DoubleAssign FpB a = k2_add a a. Proof. reflexivity. Qed.
Lemma m2_mul a b : FQ2_MulAssign FpB a b = k2_mul a b. Proof. m2 (@FQ2_MulAssign). Qed.
Lemma m2_sq a : FQ2_SquareAssign FpB a = k2_mul a a. Proof. m2 (@FQ2_SquareAssign). Qed.
Lemma m2_nr a : FQ2_MultiplyByNonresidueAssign FpB a = k2_mul k2_xi a. Proof. m2 (@FQ2_MultiplyByNonresidueAssign). Qed.
Lemma m2_norm a : FQ2_Norm FpB a = k2_norm a.
Proof. unfold FQ2_Norm, k2_norm. fpb. cbv zeta. ring. Qed.
Lemma feqb_refl (x : Fq) : feqb x x = true. Proof. apply feqb_spec. reflexivity. Qed.
Lemma feqb_ne (x y : Fq) : x <> y -> feqb x y = false.
Proof. intros H. destruct (feqb x y) eqn:E; [apply feqb_spec in E; contradiction|reflexivity]. Qed.
Lemma k2_norm_0 : k2_norm k2_0 = q0. Proof. unfold k2_norm, k2_0; cbn [c0 c1]; ring. Qed.
Lemma m2_inv a : FQ2_InverseAssign FpB a = if k2_dec a k2_0 then (a, false) else (k2_inv a, true).
Proof.
  assert (fadd (fmul (c0 a) (c0 a)) (fmul (c1 a) (c1 a)) = k2_norm a) as E by reflexivity.
  unfold FQ2_InverseAssign. fpb. cbv zeta. rewrite E.
  destruct (k2_dec a k2_0) as [->|N].
  - rewrite k2_norm_0, feqb_refl. reflexivity.
  - rewrite feqb_ne by (apply k2_norm_ne, N). reflexivity.
Qed.
Lemma m2_iszero a : FQ2_IsZero FpB a = true <-> a = k2_0.
Proof.
  unfold FQ2_IsZero. fpb. rewrite andb_true_iff, !feqb_spec. split; [intros [? ?]; apply k2_eq; assumption|intros ->; split; reflexivity].
Qed.
Lemma zcmp_zof (x y : Fq) : zcmp (zof x) (zof y) = 0 <-> x = y.
Proof. rewrite zcmp_0. split; [apply Fp_eq|intros ->; reflexivity]. Qed.
Lemma m2_equals a b : FQ2_Equals FpB a b = true <-> a = b.
Proof.
  unfold FQ2_Equals, FQ2_Cmp. fpb. cbv zeta. rewrite Z.eqb_eq.
  destruct (Z.eqb_spec (zcmp (zof (c1 a)) (zof (c1 b))) 0) as [E|E]; cbn [negb].
  - rewrite zcmp_zof. apply zcmp_zof in E. split; [intros E0; apply k2_eq; assumption|intros ->; reflexivity].
  - split; [intros; contradiction|]. intros ->. destruct E. apply zcmp_zof. reflexivity.
Qed.
Lemma m2_equals_dec a b : FQ2_Equals FpB a b = if k2_dec a b then true else false.
Proof.
  destruct (k2_dec a b) as [E|N]; [apply m2_equals; exact E|].
  destruct (FQ2_Equals FpB a b) eqn:X; [apply m2_equals in X; contradiction|reflexivity].
Qed.
Lemma m2_iszero_dec a : FQ2_IsZero FpB a = if k2_dec a k2_0 then true else false.
Proof.
  destruct (k2_dec a k2_0) as [E|N]; [apply m2_iszero; exact E|].
  destruct (FQ2_IsZero FpB a) eqn:X; [apply m2_iszero in X; contradiction|reflexivity].
Qed.
Lemma m2_exp a n : wf6 n -> FQ2_Exp FpB a n = pw2 a (eval6 n).
Proof.
  intros Hn. unfold FQ2_Exp. apply (ExpBits_rel _ _ _ _ _ _ k2_ring (fun x y => x = y)); try assumption; try reflexivity.
  - intros ? ? ->. apply m2_sq.
  - intros ? ? ? ? -> ->. apply m2_mul.
Qed.
Lemma frobeniusCoeffFQ2c1_val : frobeniusCoeffFQ2c1 FpB = [q1; fopp q1].
Proof. unfold frobeniusCoeffFQ2c1. fpb. f_equal. f_equal. apply Fp_eq. vm_compute. reflexivity. Qed.
Lemma m2_frob_mod a p : FQ2_FrobeniusMapAssign FpB a p = if Z.even p then a else k2_conj a.
Proof.
  unfold FQ2_FrobeniusMapAssign. rewrite frobeniusCoeffFQ2c1_val. fpb. rewrite Zmod_even. destruct (Z.even p); [change (Z.to_nat 0) with 0%nat|change (Z.to_nat 1) with 1%nat]; cbn [nth]; k2.
Qed.
Lemma iter_conj n a : Nat.iter n k2_conj a = if Nat.even n then a else k2_conj a.
Proof.
  induction n as [|n IH]; [reflexivity|]. rewrite Nat.even_succ, <- Nat.negb_even. change (Nat.iter (S n) k2_conj a) with (k2_conj (Nat.iter n k2_conj a)). rewrite IH.
  destruct (Nat.even n); cbn [negb]; [reflexivity|apply k2_conj_conj].
Qed.
Theorem m2_frob a p : 0 <= p -> FQ2_FrobeniusMapAssign FpB a p = pw2 a (q ^ p).
Proof.
  intros Hp. rewrite m2_frob_mod. rewrite <- (Z2Nat.id p) at 2 by assumption. rewrite k2_frob_n, iter_conj.
  rewrite <- (Z2Nat.id p) at 1 by assumption.
  assert (forall n, Z.even (Z.of_nat n) = Nat.even n) as E.
  { intros n. induction n; [reflexivity|]. rewrite Nat2Z.inj_succ, Z.even_succ, Nat.even_succ, <- Z.negb_even, <- Nat.negb_even, IHn. reflexivity. }
  rewrite E. reflexivity.
Qed.

(** Squares in GF(q^2) *)
Lemma k2_fermat a : a <> k2_0 -> pw2 a (q * q - 1) = k2_1.
Proof.
  intros Ha. apply (f_cancel_l _ _ _ _ _ _ _ _ k2_field a); [assumption|].
  rewrite <- (zpow_succ _ _ _ _ _ _ k2_ring) by (vm_compute; discriminate).
  replace (q * q - 1 + 1) with (q * q) by ring.
  rewrite (zpow_mul _ _ _ _ _ _ k2_ring) by (vm_compute; discriminate).
  rewrite !k2_frob, k2_conj_conj. ring.
Qed.
Lemma k2_half a : k2_mul (pw2 a ((q - 1) / 2)) (k2_conj (pw2 a ((q - 1) / 2))) = pw2 a ((q * q - 1) / 2).
Proof.
  rewrite <- k2_frob, <- (zpow_mul _ _ _ _ _ _ k2_ring) by (vm_compute; discriminate).
  rewrite <- (zpow_add _ _ _ _ _ _ k2_ring) by (vm_compute; discriminate).
  apply (f_equal (pw2 a)). vm_compute. reflexivity.
Qed.
Lemma k2_pm1 a : a <> k2_0 -> pw2 a ((q * q - 1) / 2) = k2_1 \/ pw2 a ((q * q - 1) / 2) = k2_opp k2_1.
Proof.
  intros Ha. apply (f_sq_1 _ _ _ _ _ _ _ _ k2_field k2_dec). rewrite <- (zpow_double _ _ _ _ _ _ k2_ring) by (vm_compute; discriminate).
  transitivity (pw2 a (q * q - 1)); [apply (f_equal (pw2 a)); vm_compute; reflexivity|apply k2_fermat, Ha].
Qed.
Lemma k2_m1_ne_1 : k2_opp k2_1 <> k2_1.
Proof. intros E. apply (neg1_ne_1 q prime_q q_odd). exact (f_equal c0 E). Qed.
Lemma k2_square_half a y : a <> k2_0 -> k2_mul y y = a -> pw2 a ((q * q - 1) / 2) = k2_1.
Proof.
  intros Ha <-. assert (y <> k2_0) as Hy by (intros ->; apply Ha; ring).
  rewrite (zpow_sq _ _ _ _ _ _ k2_ring) by (vm_compute; discriminate). transitivity (pw2 y (q * q - 1)); [apply (f_equal (pw2 y)); vm_compute; reflexivity|apply k2_fermat, Hy].
Qed.
Definition k2_alpha (a : K2) : K2 := pw2 a ((q - 1) / 2).
Definition k2_x0 (a : K2) : K2 := k2_mul (pw2 a ((q - 3) / 4)) a.
Lemma k2_alpha_form a : k2_mul (k2_mul (pw2 a ((q - 3) / 4)) (pw2 a ((q - 3) / 4))) a = k2_alpha a.
Proof.
  unfold k2_alpha. replace ((q - 1) / 2) with (2 * ((q - 3) / 4) + 1) by (pose proof q34_eq; pose proof q12_eq; lia).
  rewrite (zpow_double1 _ _ _ _ _ _ k2_ring) by apply q34_pos. reflexivity.
Qed.
Lemma k2_x0_sq a : k2_mul (k2_x0 a) (k2_x0 a) = k2_mul (k2_alpha a) a.
Proof. rewrite <- k2_alpha_form. unfold k2_x0. ring. Qed.
Lemma k2_root_case1 a : k2_alpha a = k2_opp k2_1 -> let s := k2_mul (k2_x0 a) k2_u in k2_mul s s = a.
Proof.
  intros E s. unfold s. transitivity (k2_mul (k2_mul (k2_x0 a) (k2_x0 a)) (k2_mul k2_u k2_u)); [ring|].
  rewrite k2_x0_sq, E. assert (k2_mul k2_u k2_u = k2_opp k2_1) as -> by k2. ring.
Qed.
Lemma k2_root_case2 a : a <> k2_0 -> k2_mul (k2_alpha a) (k2_conj (k2_alpha a)) = k2_1 -> k2_alpha a <> k2_opp k2_1 ->
  let s := k2_mul (pw2 (k2_add (k2_alpha a) k2_1) ((q - 1) / 2)) (k2_x0 a) in k2_mul s s = a.
Proof.
  intros Ha Hn Hne s. unfold s. pose proof (k2_x0_sq a) as HX. set (al := k2_alpha a) in *. set (x0 := k2_x0 a) in *. clearbody al x0. clear s. set (b := k2_add al k2_1).
  assert (b <> k2_0) as Hb. { intros E. apply Hne. transitivity (k2_sub b k2_1); [unfold b; ring|rewrite E; ring]. }
  transitivity (k2_mul (k2_mul (pw2 b ((q - 1) / 2)) (pw2 b ((q - 1) / 2))) (k2_mul x0 x0)); [ring|].
  rewrite HX. rewrite <- (zpow_double _ _ _ _ _ _ k2_ring) by apply q12_pos. rewrite <- q12_eq.
  assert (k2_mul b (pw2 b (q - 1)) = k2_conj b) as E.
  { rewrite <- (zpow_succ _ _ _ _ _ _ k2_ring) by (vm_compute; discriminate).
    transitivity (pw2 b q); [apply (f_equal (pw2 b)); vm_compute; reflexivity|apply k2_frob]. }
  apply (f_cancel_l _ _ _ _ _ _ _ _ k2_field b); [assumption|].
  transitivity (k2_mul (k2_mul (k2_mul b (pw2 b (q - 1))) al) a); [ring|]. rewrite E.
  assert (k2_conj b = k2_add (k2_conj al) k2_1) as -> by (unfold b; k2).
  transitivity (k2_mul (k2_add (k2_mul al (k2_conj al)) al) a); [ring|]. rewrite Hn. unfold b. ring.
Qed.
Definition k2_sqrt (a : K2) : K2 * bool :=
  if k2_dec a k2_0 then (k2_0, true)
  else if k2_dec (k2_mul (k2_conj (k2_alpha a)) (k2_alpha a)) (k2_opp k2_1) then (k2_0, false)
  else if k2_dec (k2_alpha a) (k2_opp k2_1) then (k2_mul (k2_x0 a) k2_u, true)
  else (k2_mul (pw2 (k2_add (k2_alpha a) k2_1) ((q - 1) / 2)) (k2_x0 a), true).
Lemma negOne_val : negOneFQ FpB = fopp q1.
Proof. unfold negOneFQ. fpb. apply Fp_eq. vm_compute. reflexivity. Qed.
Lemma m2_empty : FQ2_empty FpB = k2_0.
Proof. unfold FQ2_empty. fpb. apply k2_eq; apply Fp_eq; vm_compute; reflexivity. Qed.
Lemma m2_sqrt a : FQ2_Sqrt FpB a = k2_sqrt a.
Proof.
  unfold FQ2_Sqrt, k2_sqrt. rewrite m2_iszero_dec. destruct (k2_dec a k2_0) as [->|Ha]; [reflexivity|]. cbv zeta.
  rewrite !m2_exp by (apply qMinus3Over4_wf || apply qMinus1Over2_wf). rewrite qMinus3Over4_eval, qMinus1Over2_eval.
  rewrite !m2_sq, !m2_mul, m2_frob_mod, k2_alpha_form, !m2_equals_dec, negOne_val, m2_empty, m2_add. cbn [Z.even].
  change (mkFQ2 (fopp q1) (o_zero (b_ops FpB))) with (mkFQ2 (fopp q1) q0).
  assert (mkFQ2 (fopp q1) q0 = k2_opp k2_1) as -> by k2.
  change (mkFQ2 (o_zero (b_ops FpB)) (o_one (b_ops FpB))) with k2_u. rewrite m2_one. unfold k2_x0.
  destruct (k2_dec (k2_mul (k2_conj (k2_alpha a)) (k2_alpha a)) (k2_opp k2_1)); [reflexivity|].
  destruct (k2_dec (k2_alpha a) (k2_opp k2_1)); reflexivity.
Qed.
Theorem k2_sqrt_spec a :
  (is_square k2_mul a -> exists s, k2_sqrt a = (s, true) /\ k2_mul s s = a) /\
  (~ is_square k2_mul a -> k2_sqrt a = (k2_0, false)).
Proof.
  unfold k2_sqrt. destruct (k2_dec a k2_0) as [->|Ha].
  - split; [intros _; exists k2_0; split; [reflexivity|ring]|]. intros N. destruct N. exists k2_0. ring.
  - assert (k2_mul (k2_conj (k2_alpha a)) (k2_alpha a) = pw2 a ((q * q - 1) / 2)) as E0 by (rewrite (Rmul_comm k2_ring); apply k2_half).
    rewrite E0. destruct (k2_dec (pw2 a ((q * q - 1) / 2)) (k2_opp k2_1)) as [E|N].
    + split; [|reflexivity]. intros [y Hy]. rewrite (k2_square_half a y Ha Hy) in E. destruct k2_m1_ne_1. auto.
    + assert (pw2 a ((q * q - 1) / 2) = k2_1) as E1 by (destruct (k2_pm1 a Ha); [assumption|contradiction]).
      destruct (k2_dec (k2_alpha a) (k2_opp k2_1)) as [E|N'].
      * pose proof (k2_root_case1 a E) as S. cbv zeta in S. split; [intros _; eexists; split; [reflexivity|exact S]|].
        intros X. destruct X. eexists; exact S.
      * assert (k2_mul (k2_alpha a) (k2_conj (k2_alpha a)) = k2_1) as E2 by (rewrite (Rmul_comm k2_ring), E0; exact E1).
        pose proof (k2_root_case2 a Ha E2 N') as S. cbv zeta in S. split; [intros _; eexists; split; [reflexivity|exact S]|].
        intros X. destruct X. eexists; exact S.
Qed.
Lemma k2_square_dec a : is_square k2_mul a \/ ~ is_square k2_mul a.
Proof.
  destruct (k2_dec a k2_0) as [->|Ha]; [left; exists k2_0; ring|].
  destruct (k2_pm1 a Ha) as [E|E].
  - left. unfold k2_sqrt. destruct (k2_dec (k2_alpha a) (k2_opp k2_1)) as [E'|N].
    + eexists. exact (k2_root_case1 a E').
    + eexists. refine (k2_root_case2 a Ha _ N). rewrite <- E. apply k2_half.
  - right. intros [y Hy]. rewrite (k2_square_half a y Ha Hy) in E. destruct k2_m1_ne_1. auto.
Qed.

(** The norm to GF(q) decides squareness *)
Lemma k2_norm_square a : is_square k2_mul a <-> is_square fmul (k2_norm a).
Proof.
  split; [intros [y <-]; exists (k2_norm y); symmetry; apply k2_norm_mul|].
  intros S. destruct (k2_dec a k2_0) as [->|Ha]; [exists k2_0; ring|].
  destruct (k2_square_dec a) as [Y|N]; [exact Y|exfalso].
  apply Fq_square_euler in S; [|apply k2_norm_ne, Ha].
  assert (pw2 a ((q * q - 1) / 2) = k2_1) as E.
  { rewrite <- k2_half, k2_pow_conj, <- (zpow_mul_l _ _ _ _ _ _ k2_ring), k2_norm_conj, <- k2_emb_pow, S by apply q12_pos. reflexivity. }
  apply N. destruct (k2_dec (k2_alpha a) (k2_opp k2_1)) as [E'|N'].
  + eexists. exact (k2_root_case1 a E').
  + eexists. refine (k2_root_case2 a Ha _ N'). rewrite <- E. apply k2_half.
Qed.
Lemma k2_norm_0_iff a : k2_norm a = q0 <-> a = k2_0.
Proof.
  split; [|intros ->; apply k2_norm_0]. intros E. destruct (k2_dec a k2_0) as [|N]; [assumption|]. destruct (k2_norm_ne a N E).
Qed.
Theorem m2_legendre a :
  (a = k2_0 -> FQ2_Legendre FpB a = LegendreZero) /\
  (a <> k2_0 -> is_square k2_mul a -> FQ2_Legendre FpB a = LegendreQuadraticResidue) /\
  (~ is_square k2_mul a -> FQ2_Legendre FpB a = LegendreQuadraticNonResidue).
Proof.
  unfold FQ2_Legendre. rewrite m2_norm, k2_norm_square. fpb. destruct (fq_legendre_spec (k2_norm a)) as (A & B & C).
  split; [|split].
  - intros ->. apply A, k2_norm_0.
  - intros Ha. apply B, k2_norm_ne, Ha.
  - exact C.
Qed.

(** MulBits: left-to-right double-and-add *)
Fixpoint k2_nmul (n : nat) (a : K2) : K2 := match n with O => k2_0 | S k => k2_add a (k2_nmul k a) end.
Definition k2_zmul (b : Z) (a : K2) : K2 := k2_mul (k2_emb (z2q b)) a.
Lemma z2q_add x y : z2q (x + y) = fadd (z2q x) (z2q y). Proof. apply zp_add. Qed.
Lemma z2q_mul x y : z2q (x * y) = fmul (z2q x) (z2q y). Proof. apply zp_mul. Qed.
Lemma z2q_1 : z2q 1 = q1. Proof. apply Fp_eq. vm_compute. reflexivity. Qed.
Lemma z2q_0 : z2q 0 = q0. Proof. apply Fp_eq. vm_compute. reflexivity. Qed.
Lemma k2_zmul_1 a : k2_zmul 1 a = a. Proof. unfold k2_zmul. rewrite z2q_1. k2. Qed.
Lemma k2_zmul_0 a : k2_zmul 0 a = k2_0. Proof. unfold k2_zmul. rewrite z2q_0. k2. Qed.
Lemma k2_zmul_add x y a : k2_zmul (x + y) a = k2_add (k2_zmul x a) (k2_zmul y a).
Proof. unfold k2_zmul. rewrite z2q_add. k2. Qed.

(** ** FQ6 *)
Ltac r2 := repeat match goal with
  | |- context [FQ2_AddAssign FpB ?a ?b] => change (FQ2_AddAssign FpB a b) with (k2_add a b)
  | |- context [FQ2_SubAssign FpB ?a ?b] => change (FQ2_SubAssign FpB a b) with (k2_sub a b)
  | |- context [FQ2_NegAssign FpB ?a] => change (FQ2_NegAssign FpB a) with (k2_opp a)
  | |- context [FQ2_DoubleAssign FpB ?a] => change (FQ2_DoubleAssign FpB a) with (k2_add a a)
  | |- context [FQ2_MulAssign FpB ?a ?b] => rewrite (m2_mul a b)
  | |- context [FQ2_SquareAssign FpB ?a] => rewrite (m2_sq a)
  | |- context [FQ2_MultiplyByNonresidueAssign FpB ?a] => rewrite (m2_nr a)
  end.
Ltac m6 f := intros; unfold f; cbv zeta; r2; k6.
Lemma m6_zero : FQ6Zero FpB = k6_0. Proof. reflexivity. Qed.
Lemma m6_one : FQ6One FpB = k6_1. Proof. reflexivity. Qed.
Lemma m6_add a b : FQ6_AddAssign FpB a b = k6_add a b. Proof. reflexivity. Qed.
Lemma m6_sub a b : FQ6_SubAssign FpB a b = k6_sub a b. Proof. reflexivity. Qed.
Lemma m6_neg a : FQ6_NegAssign FpB a = k6_opp a. Proof. reflexivity. Qed.
Lemma m6_dbl a : FQ6_DoubleAssign FpB a = k6_add a a. Proof. reflexivity. Qed.
Lemma m6_mul a b : FQ6_MulAssign FpB a b = k6_mul a b. Proof. m6 (@FQ6_MulAssign). Qed.
Lemma m6_sq a : FQ6_SquareAssign FpB a = k6_mul a a. Proof. m6 (@FQ6_SquareAssign). Qed.
Lemma m6_nr a : FQ6_MulByNonresidueAssign FpB a = k6_mul k6_v a. Proof. m6 (@FQ6_MulByNonresidueAssign). Qed.
Lemma m6_mulby1 a c : FQ6_MulBy1Assign FpB a c = k6_mul a (mkFQ6 k2_0 c k2_0). Proof. m6 (@FQ6_MulBy1Assign). Qed.
Lemma m6_mulby01 a b c : FQ6_MulBy01Assign FpB a b c = k6_mul a (mkFQ6 b c k2_0). Proof. m6 (@FQ6_MulBy01Assign). Qed.
Lemma m6_equals a b : FQ6_Equals FpB a b = true <-> a = b.
Proof.
  unfold FQ6_Equals. rewrite !andb_true_iff, !m2_equals. split; [intros [[? ?] ?]; apply k6_eq; assumption|intros ->; repeat split; reflexivity].
Qed.
Lemma m6_iszero a : FQ6_IsZero FpB a = true <-> a = k6_0.
Proof. unfold FQ6_IsZero. apply m6_equals. Qed.
Lemma k6_norm_0 : k6_norm k6_0 = k2_0. Proof. unfold k6_norm, k6_adj, k6_0; cbn [d0 d1 d2]; ring. Qed.
Lemma m6_inv a : FQ6_InverseAssign FpB a = if k6_dec a k6_0 then (a, false) else (k6_inv a, true).
Proof.
  unfold FQ6_InverseAssign. cbv zeta. r2. rewrite m2_inv.
  set (k0 := k2_add (k2_opp (k2_mul (k2_mul k2_xi (d2 a)) (d1 a))) (k2_mul (d0 a) (d0 a))).
  set (k1 := k2_sub (k2_mul k2_xi (k2_mul (d2 a) (d2 a))) (k2_mul (d0 a) (d1 a))).
  set (k2' := k2_sub (k2_mul (d1 a) (d1 a)) (k2_mul (d0 a) (d2 a))).
  assert (k0 = d0 (k6_adj a)) as E0 by (unfold k0, k6_adj; cbn [d0 d1 d2]; ring).
  assert (k1 = d1 (k6_adj a)) as E1 by reflexivity. assert (k2' = d2 (k6_adj a)) as E2 by reflexivity.
  rewrite E0, E1, E2. clear k0 k1 k2' E0 E1 E2. 
  assert (k2_add (k2_mul k2_xi (k2_add (k2_mul (d2 a) (d1 (k6_adj a))) (k2_mul (d1 a) (d2 (k6_adj a))))) (k2_mul (d0 a) (d0 (k6_adj a))) = k6_norm a) as -> by reflexivity.
  destruct (k6_dec a k6_0) as [->|N].
  - rewrite k6_norm_0. destruct (k2_dec k2_0 k2_0) as [_|X]; [reflexivity|destruct X; reflexivity].
  - destruct (k2_dec (k6_norm a) k2_0) as [X|_]; [destruct (k6_norm_ne a N X)|]. cbn [negb]. r2. reflexivity.
Qed.

(** ** FQ12 *)
Ltac r6 := repeat match goal with
  | |- context [FQ6_AddAssign FpB ?a ?b] => change (FQ6_AddAssign FpB a b) with (k6_add a b)
  | |- context [FQ6_SubAssign FpB ?a ?b] => change (FQ6_SubAssign FpB a b) with (k6_sub a b)
  | |- context [FQ6_NegAssign FpB ?a] => change (FQ6_NegAssign FpB a) with (k6_opp a)
  | |- context [FQ6_DoubleAssign FpB ?a] => change (FQ6_DoubleAssign FpB a) with (k6_add a a)
  | |- context [FQ6_MulAssign FpB ?a ?b] => rewrite (m6_mul a b)
  | |- context [FQ6_SquareAssign FpB ?a] => rewrite (m6_sq a)
  | |- context [FQ6_MulByNonresidueAssign FpB ?a] => rewrite (m6_nr a)
  end.
Ltac m12 f := intros; unfold f; cbv zeta; r6; k12.
Lemma m12_zero : FQ12Zero FpB = k12_0. Proof. reflexivity. Qed.
Lemma m12_one : FQ12One FpB = k12_1. Proof. reflexivity. Qed.
Lemma m12_add a b : FQ12_AddAssign FpB a b = k12_add a b. Proof. reflexivity. Qed.
Lemma m12_sub a b : FQ12_SubAssign FpB a b = k12_sub a b. Proof. reflexivity. Qed.
Lemma m12_neg a : FQ12_NegAssign FpB a = k12_opp a. Proof. reflexivity. Qed.
Lemma m12_dbl a : FQ12_DoubleAssign FpB a = k12_add a a. Proof. reflexivity. Qed.
Lemma m12_conj a : FQ12_ConjugateAssign FpB a = k12_conj a. Proof. m12 (@FQ12_ConjugateAssign). Qed.
Lemma m12_mul a b : FQ12_MulAssign FpB a b = k12_mul a b. Proof. m12 (@FQ12_MulAssign). Qed.
Lemma m12_sq a : FQ12_SquareAssign FpB a = k12_mul a a. Proof. m12 (@FQ12_SquareAssign). Qed.
Definition k12_014 (a b c : K2) : K12 := mkFQ12 (mkFQ6 a b k2_0) (mkFQ6 k2_0 c k2_0).
Lemma m12_mulby014 f a b c : FQ12_MulBy014Assign FpB f a b c = k12_mul f (k12_014 a b c).
Proof.
  unfold FQ12_MulBy014Assign. cbv zeta. rewrite m6_mulby1, !m6_mulby01. r6. r2.
  assert (mkFQ6 a (k2_add b c) k2_0 = k6_add (mkFQ6 a b k2_0) (mkFQ6 k2_0 c k2_0)) as -> by k6.
  unfold k12_014. generalize (mkFQ6 a b k2_0) (mkFQ6 k2_0 c k2_0). intros x y. k12.
Qed.
Lemma m12_equals a b : FQ12_Equals FpB a b = true <-> a = b.
Proof.
  unfold FQ12_Equals. rewrite !andb_true_iff, !m6_equals. split; [intros [? ?]; apply k12_eq; assumption|intros ->; split; reflexivity].
Qed.
Lemma m12_iszero a : FQ12_IsZero FpB a = true <-> a = k12_0.
Proof.
  unfold FQ12_IsZero. rewrite andb_true_iff, !m6_iszero. split; [intros [? ?]; apply k12_eq; assumption|intros ->; split; reflexivity].
Qed.
Lemma k12_norm_0 : k12_norm k12_0 = k6_0. Proof. unfold k12_norm, k12_0; cbn [e0 e1]; ring. Qed.
Lemma m12_inv a : FQ12_InverseAssign FpB a = if k12_dec a k12_0 then (a, false) else (k12_inv a, true).
Proof.
  unfold FQ12_InverseAssign. cbv zeta. r6. rewrite m6_inv.
  change (k6_sub (k6_mul (e0 a) (e0 a)) (k6_mul k6_v (k6_mul (e1 a) (e1 a)))) with (k12_norm a).
  destruct (k12_dec a k12_0) as [->|N].
  - rewrite k12_norm_0. destruct (k6_dec k6_0 k6_0) as [_|X]; [reflexivity|destruct X; reflexivity].
  - destruct (k6_dec (k12_norm a) k6_0) as [X|_]; [destruct (k12_norm_ne a N X)|]. cbn [negb]. rewrite !m6_mul, m6_neg. reflexivity.
Qed.
Lemma m12_exp a n : wf6 n -> FQ12_Exp FpB a n = pw12 a (eval6 n).
Proof.
  intros Hn. unfold FQ12_Exp. rewrite m12_one. apply (ExpLoop_rel0 _ _ _ _ _ _ k12_ring (fun x y => x = y)); try assumption; try reflexivity.
  - intros ? ? ->. apply m12_mul.
  - intros ? ? ? ? -> ->. apply m12_mul.
Qed.

(** ** Frobenius maps *)
Definition zconj (a : FQ2 Z) : FQ2 Z := mkFQ2 (c0 a) ((- c1 a) mod q).
Definition zmul2 (a b : FQ2 Z) : FQ2 Z := mkFQ2 ((c0 a * c0 b - c1 a * c1 b) mod q) ((c0 a * c1 b + c1 a * c0 b) mod q).
Lemma zconj_rel a x : R2 RZ a x -> R2 RZ (zconj a) (k2_conj x).
Proof. unfold RZ. intros [A B]. split; cbn [zconj k2_conj c0 c1]; [exact A|rewrite B; reflexivity]. Qed.
Lemma zmul2_rel a x b y : R2 RZ a x -> R2 RZ b y -> R2 RZ (zmul2 a b) (k2_mul x y).
Proof.
  unfold R2, RZ. intros [A B] [C D]. split; cbn [zmul2 k2_mul c0 c1]; rewrite A, B, C, D.
  - unfold fsub, fmul. rewrite !zof_zp, <- Zminus_mod. reflexivity.
  - unfold fadd, fmul. rewrite !zof_zp, <- Zplus_mod. reflexivity.
Qed.
Definition closed_table (n : nat) (T : list (FQ2 Z)) (g : FQ2 Z) : bool :=
  forallb (fun i => z2e (nth ((i + 1) mod n) T (mkFQ2 0 0)) (zmul2 (zconj (nth i T (mkFQ2 0 0))) g)) (seq 0 n).
Lemma Forall2_nth_rel {A B} (R : A -> B -> Prop) l l' d d' i : Forall2 R l l' -> R d d' -> R (nth i l d) (nth i l' d').
Proof. intros H Hd. revert i. induction H; intros [|i]; cbn; auto. Qed.
Lemma closed_table_step n T T' g g' p : (n <> 0)%nat -> Forall2 (R2 RZ) T T' -> R2 RZ g g' -> closed_table n T g = true -> 0 <= p ->
  nth (Z.to_nat ((p + 1) mod Z.of_nat n)) T' k2_0 = k2_mul (k2_conj (nth (Z.to_nat (p mod Z.of_nat n)) T' k2_0)) g'.
Proof.
  intros Hn HT Hg H Hp. unfold closed_table in H. rewrite forallb_forall in H.
  pose proof (Z.mod_pos_bound p (Z.of_nat n) ltac:(lia)) as B.
  specialize (H (Z.to_nat (p mod Z.of_nat n)) ltac:(apply in_seq; lia)).
  assert (R2 RZ (mkFQ2 0 0) k2_0) as H0 by (split; reflexivity).
  replace (Z.to_nat ((p + 1) mod Z.of_nat n)) with ((Z.to_nat (p mod Z.of_nat n) + 1) mod n)%nat.
  - refine (R2Z_eq _ _ _ _ _ _ H); [apply Forall2_nth_rel; assumption|].
    apply zmul2_rel; [apply zconj_rel, Forall2_nth_rel; assumption|assumption].
  - apply Nat2Z.inj. rewrite Nat2Z.inj_mod, Nat2Z.inj_add, !Z2Nat.id by (try apply Z.mod_pos_bound; lia).
    change (Z.of_nat 1) with 1. rewrite Zplus_mod_idemp_l. reflexivity.
Qed.
Definition zgam : FQ2 Z := mkFQ2 t2 ((- t2) mod q).
Definition zgam2 : FQ2 Z := zmul2 zgam zgam.
Lemma zgam_rel : R2 RZ zgam gam.
Proof. rewrite gam_val. split; reflexivity. Qed.
Lemma zgam2_rel : R2 RZ zgam2 (k2_mul gam gam). Proof. apply zmul2_rel; apply zgam_rel. Qed.
Lemma table6c1 p : 0 <= p -> nth (Z.to_nat ((p + 1) mod Z.of_nat 6)) (frobeniusCoeffFQ6c1 FpB) k2_0 =
  k2_mul (k2_conj (nth (Z.to_nat (p mod Z.of_nat 6)) (frobeniusCoeffFQ6c1 FpB) k2_0)) (k2_mul gam gam).
Proof. refine (closed_table_step 6 _ _ _ _ p _ (rel_frobeniusCoeffFQ6c1 ZB FpB RZ) zgam2_rel _); [discriminate|vm_compute; reflexivity]. Qed.
Lemma table6c2 p : 0 <= p -> nth (Z.to_nat ((p + 1) mod Z.of_nat 6)) (frobeniusCoeffFQ6c2 FpB) k2_0 =
  k2_mul (k2_conj (nth (Z.to_nat (p mod Z.of_nat 6)) (frobeniusCoeffFQ6c2 FpB) k2_0)) (k2_mul (k2_mul gam gam) (k2_mul gam gam)).
Proof. refine (closed_table_step 6 _ _ _ _ p _ (rel_frobeniusCoeffFQ6c2 ZB FpB RZ) (zmul2_rel _ _ _ _ zgam2_rel zgam2_rel) _); [discriminate|vm_compute; reflexivity]. Qed.
Lemma table12c1 p : 0 <= p -> nth (Z.to_nat ((p + 1) mod Z.of_nat 12)) (frobeniusCoeffFQ12c1 FpB) k2_0 =
  k2_mul (k2_conj (nth (Z.to_nat (p mod Z.of_nat 12)) (frobeniusCoeffFQ12c1 FpB) k2_0)) gam.
Proof. refine (closed_table_step 12 _ _ _ _ p _ (rel_frobeniusCoeffFQ12c1 ZB FpB RZ) zgam_rel _); [discriminate|vm_compute; reflexivity]. Qed.
Lemma m2_frob_succ a p : 0 <= p -> FQ2_FrobeniusMapAssign FpB a (p + 1) = k2_conj (FQ2_FrobeniusMapAssign FpB a p).
Proof.
  intros Hp. rewrite !m2_frob_mod. change (p + 1) with (Z.succ p). rewrite Z.even_succ, <- Z.negb_even.
  destruct (Z.even p); cbn [negb]; [reflexivity|symmetry; apply k2_conj_conj].
Qed.
Lemma k2_conj_mul a b : k2_conj (k2_mul a b) = k2_mul (k2_conj a) (k2_conj b). Proof. k2. Qed.
Lemma m6_frob_0 a : FQ6_FrobeniusMapAssign FpB a 0 = a.
Proof.
  unfold FQ6_FrobeniusMapAssign. rewrite !m2_frob_mod. cbn [Z.even]. change (Z.to_nat (0 mod 6)) with 0%nat. cbn [nth frobeniusCoeffFQ6c1 frobeniusCoeffFQ6c2].
  assert (mkFQ2 (b_raw FpB rw1) (b_raw FpB rw0) = k2_1) as -> by (refine (R2Z_eq _ _ _ _ (rel_raw2 ZB FpB RZ rw1 rw0 _ _) (R2Z_of 1 0 _ _) _); vm_compute; try split; reflexivity || discriminate). r2. apply k6_eq; cbn [d0 d1 d2]; ring.
Qed.
Lemma m6_frob_succ a p : 0 <= p -> FQ6_FrobeniusMapAssign FpB a (p + 1) = k6_frob1 (FQ6_FrobeniusMapAssign FpB a p).
Proof.
  intros Hp. unfold FQ6_FrobeniusMapAssign, k6_frob1. change 6 with (Z.of_nat 6). cbn [d0 d1 d2].
  rewrite !m2_frob_succ, m2_zero by assumption.
  rewrite (table6c1 p), (table6c2 p) by assumption.
  generalize (nth (Z.to_nat (p mod Z.of_nat 6)) (frobeniusCoeffFQ6c1 FpB) k2_0) (nth (Z.to_nat (p mod Z.of_nat 6)) (frobeniusCoeffFQ6c2 FpB) k2_0) gam.
  generalize (FQ2_FrobeniusMapAssign FpB (d0 a) p) (FQ2_FrobeniusMapAssign FpB (d1 a) p) (FQ2_FrobeniusMapAssign FpB (d2 a) p).
  intros x y z s t g. r2. rewrite !k2_conj_mul. apply k6_eq; cbn [d0 d1 d2]; ring.
Qed.
Lemma iter_rep {A} (F : A -> Z -> A) (phi : A -> A) : (forall a, F a 0 = a) -> (forall a p, 0 <= p -> F a (p + 1) = phi (F a p)) ->
  forall p a, 0 <= p -> F a p = Nat.iter (Z.to_nat p) phi a.
Proof.
  intros H0 HS p a Hp. rewrite <- (Z2Nat.id p Hp) at 1. induction (Z.to_nat p) as [|n IH]; [apply H0|].
  rewrite Nat2Z.inj_succ. change (Nat.iter (S n) phi a) with (phi (Nat.iter n phi a)). rewrite <- IH. apply HS. lia.
Qed.
Theorem m6_frob a p : 0 <= p -> FQ6_FrobeniusMapAssign FpB a p = pw6 a (q ^ p).
Proof.
  intros Hp. rewrite (iter_rep _ _ m6_frob_0 m6_frob_succ) by assumption. rewrite <- k6_frob_n, Z2Nat.id by assumption. reflexivity.
Qed.
Lemma m12_frob_0 a : FQ12_FrobeniusMapAssign FpB a 0 = a.
Proof.
  unfold FQ12_FrobeniusMapAssign. rewrite !m6_frob_0. change (Z.to_nat (0 mod 12)) with 0%nat. cbn [nth frobeniusCoeffFQ12c1].
  rewrite m2_one. r2. apply k12_eq; cbn [e0 e1]; [reflexivity|]. apply k6_eq; cbn [d0 d1 d2]; ring.
Qed.
Lemma m12_frob_succ a p : 0 <= p -> FQ12_FrobeniusMapAssign FpB a (p + 1) = k12_frob1 (FQ12_FrobeniusMapAssign FpB a p).
Proof.
  intros Hp. unfold FQ12_FrobeniusMapAssign, k12_frob1. change 12 with (Z.of_nat 12). cbv zeta. cbn [e0 e1].
  rewrite !m6_frob_succ, m2_zero by assumption.
  rewrite (table12c1 p) by assumption.
  unfold k6_frob1, k6_scale. cbn [d0 d1 d2].
  generalize (nth (Z.to_nat (p mod Z.of_nat 12)) (frobeniusCoeffFQ12c1 FpB) k2_0) gam (FQ6_FrobeniusMapAssign FpB (e1 a) p). intros s g y. r2. apply k12_eq; cbn [e0 e1]; [reflexivity|].
  rewrite !k2_conj_mul. apply k6_eq; cbn [d0 d1 d2]; ring.
Qed.
Theorem m12_frob a p : 0 <= p -> FQ12_FrobeniusMapAssign FpB a p = pw12 a (q ^ p).
Proof.
  intros Hp. rewrite (iter_rep _ _ m12_frob_0 m12_frob_succ) by assumption. rewrite <- k12_frob_n, Z2Nat.id by assumption. reflexivity.
Qed.

(** ** FQ2.MulBits, DivAssign, ordering *)
Lemma big_BitLen_nonneg b : 0 <= big_BitLen b.
Proof.
  unfold big_BitLen. destruct (Z.eq_dec (Z.abs b) 0) as [->|N]; [discriminate|]. pose proof (bitlen_pos (Z.abs b) ltac:(lia)). lia.
Qed.
Lemma big_BitLen_bound b : 0 <= b -> b < 2 ^ big_BitLen b.
Proof. intros H. apply (bitlen_le b); [exact (big_BitLen_nonneg b)|assumption|unfold big_BitLen; rewrite Z.abs_eq by assumption; apply Z.le_refl]. Qed.
Theorem m2_mulbits f b : 0 <= b -> FQ2_MulBits FpB f b = k2_zmul b f.
Proof.
  intros Hb. unfold FQ2_MulBits. set (L := big_BitLen b). pose proof (big_BitLen_nonneg b) as HL. fold L in HL.
  pose proof (big_BitLen_bound b Hb) as HB. fold L in HB.
  assert (forall n, (n <= Z.to_nat L)%nat ->
    fold_left (fun res i => let res0 := FQ2_DoubleAssign FpB res in if Z.testbit b (L - 1 - Z.of_nat i) then FQ2_AddAssign FpB res0 f else res0) (seq 0 n) (FQ2Zero FpB)
    = k2_zmul (b / 2 ^ (L - Z.of_nat n)) f) as Q.
  { induction n as [|n IH]; intros Hn.
    - cbn [seq fold_left]. rewrite Z.sub_0_r, Z.div_small by lia. rewrite k2_zmul_0. apply m2_zero.
    - rewrite seq_S, fold_left_app, IH by lia. cbn [fold_left]. rewrite Nat.add_0_l.
      set (e := L - Z.of_nat (S n)). assert (L - Z.of_nat n = Z.succ e) as -> by (unfold e; lia).
      assert (L - 1 - Z.of_nat n = e) as -> by (unfold e; lia).
      assert (0 <= e) as He by (unfold e; lia).
      assert (b / 2 ^ e = 2 * (b / 2 ^ Z.succ e) + Z.b2z (Z.testbit b e)) as ->.
      { rewrite Z.testbit_spec', Z.pow_succ_r, (Z.mul_comm 2 (2 ^ e)), <- Z.div_div by lia. apply Z.div_mod. lia. }
      r2. destruct (Z.testbit b e); cbn [Z.b2z]; rewrite k2_zmul_add, ?k2_zmul_1, ?k2_zmul_0; set (m := b / 2 ^ Z.succ e);
        (assert (2 * m = m + m) as -> by ring); rewrite k2_zmul_add; ring. }
  specialize (Q (Z.to_nat L) (Nat.le_refl _)). rewrite Z2Nat.id, Z.sub_diag, Z.div_1_r in Q by assumption. exact Q.
Qed.
Lemma m2_div a b : FQ2_DivAssign FpB a b = if k2_dec b k2_0 then k2_0 else k2_mul a (k2_inv b).
Proof.
  unfold FQ2_DivAssign. rewrite m2_inv, m2_mul. destruct (k2_dec b k2_0) as [->|N]; cbn [fst]; [ring|reflexivity].
Qed.
(** lexicographic order by (c1, c0) *)
Definition k2_lt (a b : K2) : Prop := zof (c1 a) < zof (c1 b) \/ (zof (c1 a) = zof (c1 b) /\ zof (c0 a) < zof (c0 b)).
Theorem m2_cmp a b : FQ2_Cmp FpB a b = -1 /\ k2_lt a b \/ FQ2_Cmp FpB a b = 0 /\ a = b \/ FQ2_Cmp FpB a b = 1 /\ k2_lt b a.
Proof.
  unfold FQ2_Cmp, k2_lt. fpb. cbv zeta. unfold zcmp.
  destruct (Z.compare_spec (zof (c1 a)) (zof (c1 b))) as [E|E|E]; cbn [Z.eqb negb].
  - destruct (Z.compare_spec (zof (c0 a)) (zof (c0 b))) as [E'|E'|E'].
    + right. left. split; [reflexivity|]. apply k2_eq; apply Fp_eq; assumption.
    + left. split; [reflexivity|]. right. lia.
    + right. right. split; [reflexivity|]. right. lia.
  - left. split; [reflexivity|]. left. lia.
  - right. right. split; [reflexivity|]. left. lia.
Qed.
Lemma k2_lt_irrefl a : ~ k2_lt a a. Proof. unfold k2_lt. lia. Qed.
Lemma k2_lt_asym a b : k2_lt a b -> ~ k2_lt b a. Proof. unfold k2_lt. lia. Qed.
Lemma m2_parity_true a : FQ2_Parity FpB a = true <-> k2_lt (k2_opp a) a.
Proof.
  unfold FQ2_Parity. rewrite m2_neg. destruct (m2_cmp a (k2_opp a)) as [[-> H]|[[-> H]|[-> H]]]; cbn.
  - split; [discriminate|]. intros H'. destruct (k2_lt_asym _ _ H H').
  - rewrite <- H. split; [discriminate|]. intros X. destruct (k2_lt_irrefl _ X).
  - split; [intros; exact H|reflexivity].
Qed.
Lemma k2_opp_ne a : a <> k2_0 -> k2_opp a <> a.
Proof.
  intros Ha E. apply Ha. apply k2_eq.
  - destruct (Fp_dec (c0 a) q0) as [|N]; [assumption|]. destruct (fopp_ne q prime_q q_odd _ N). exact (f_equal c0 E).
  - destruct (Fp_dec (c1 a) q0) as [|N]; [assumption|]. destruct (fopp_ne q prime_q q_odd _ N). exact (f_equal c1 E).
Qed.
Theorem m2_parity_opp a : a <> k2_0 -> FQ2_Parity FpB (k2_opp a) = negb (FQ2_Parity FpB a).
Proof.
  intros Ha. assert (k2_opp (k2_opp a) = a) as E by ring.
  destruct (FQ2_Parity FpB a) eqn:P; cbn [negb].
  - destruct (FQ2_Parity FpB (k2_opp a)) eqn:P'; [|reflexivity]. rewrite m2_parity_true in P, P'. rewrite E in P'. destruct (k2_lt_asym _ _ P P').
  - apply m2_parity_true. rewrite E.
    destruct (m2_cmp a (k2_opp a)) as [[_ H]|[[_ H]|[_ H]]]; [exact H|destruct (k2_opp_ne a Ha); auto|].
    apply m2_parity_true in H. congruence.
Qed.
Lemma m2_parity_0 : FQ2_Parity FpB k2_0 = false.
Proof.
  destruct (FQ2_Parity FpB k2_0) eqn:P; [|reflexivity]. apply m2_parity_true in P.
  assert (k2_opp k2_0 = k2_0) as E by ring. rewrite E in P. destruct (k2_lt_irrefl _ P).
Qed.
