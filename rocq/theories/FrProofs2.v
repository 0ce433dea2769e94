(** fr.go: exponentiation, Legendre symbol and residues modulo r as a field. *)
Require Import ZArith Lia Bool List Znumtheory Ring Field.
From Verif Require Import Words ModelRepr ReprProofs ReprProofs2 ModelFq ModelFr NumTheory Primality FqProofs FqProofs2 FrProofs Fp FpOps.
Import ListNotations.
Open Scope Z_scope.

Notation Fr := (Fp r).
Notation pwr := (zpow (f1 r) (@fmul r)).
Definition z2r (z : Z) : Fr := zp r z.
Definition Fr_field := Fp_field r prime_r.
Definition Fr_ring := Fp_ring r.
Add Field FrField : Fr_field.

Definition RFr (f : FR) (x : Fr) : Prop := rcanon f /\ zof x = rval f.
Definition frval (f : FR) : Fr := z2r (rval f).
Lemma RFr_iff f x : RFr f x <-> rcanon f /\ x = frval f.
Proof.
  unfold RFr, frval, z2r. split; intros [C E]; (split; [exact C|]).
  - apply Fp_eq. rewrite zof_zp, E. symmetry. apply Z.mod_small, rval_bound.
  - subst. rewrite zof_zp. apply Z.mod_small, rval_bound.
Qed.
Lemma RFr_frval f : rcanon f -> RFr f (frval f).
Proof. intros C. apply RFr_iff. auto. Qed.
Lemma RFr_one : RFr bigOneFR (f1 r).
Proof. split; [apply bigOneFR_canon|]. rewrite (zof_1 r prime_r), bigOneFR_rval. reflexivity. Qed.
Lemma RFr_zero : RFr bigZeroFR (f0 r).
Proof. split; [apply bigZeroFR_canon|]. rewrite (zof_0 r prime_r), bigZeroFR_rval. reflexivity. Qed.
Lemma RFr_mul f g x y : RFr f x -> RFr g y -> RFr (FR_MulAssign f g) (fmul x y).
Proof. intros [C E] [C2 E2]. destruct (FR_MulAssign_spec f g C C2) as [C3 V]. split; [exact C3|]. unfold fmul. rewrite zof_zp. congruence. Qed.
Lemma RFr_sq f x : RFr f x -> RFr (FR_SquareAssign f) (fmul x x).
Proof. intros [C E]. destruct (FR_SquareAssign_spec f C) as [C3 V]. split; [exact C3|]. unfold fmul. rewrite zof_zp. congruence. Qed.

Lemma FR_Exp_loop_rel fuel : forall n fi res x y, wf4 n -> eval4 n < 2 ^ (Z.of_nat fuel) -> RFr fi x -> RFr res y ->
  RFr (FR_Exp_loop fuel n fi res) (fmul y (pwr x (eval4 n))).
Proof.
  induction fuel as [|k IH]; intros n fi res x y Hn Hb Hf Hr; cbn [FR_Exp_loop].
  - pose proof (eval4_bound n Hn). change (2 ^ Z.of_nat 0) with 1 in Hb. replace (eval4 n) with 0 by lia. rewrite zpow_0.
    replace (fmul y (f1 r)) with y by ring. exact Hr.
  - rewrite FRRepr_Cmp_eval by (assumption || apply frZero_wf). change (eval4 frZero) with 0. pose proof (eval4_bound n Hn) as B.
    destruct (Z.eqb_spec (zcmp (eval4 n) 0) 0) as [E|E]; cbn [negb].
    + apply (proj1 (zcmp_0 (eval4 n) 0)) in E. rewrite E, zpow_0. replace (fmul y (f1 r)) with y by ring. exact Hr.
    + destruct (FRRepr_Rsh_spec n 1 Hn ltac:(lia)) as [Hw Ev]. change (2 ^ 1) with 2 in Ev.
      assert (eval4 (FRRepr_Rsh n 1) < 2 ^ Z.of_nat k) as Hb2.
      { rewrite Ev. rewrite Nat2Z.inj_succ, Z.pow_succ_r in Hb by lia. apply Z.div_lt_upper_bound; lia. }
      assert (0 <= eval4 n / 2) as Hd by (apply Z.div_pos; lia).
      cbv zeta.
      replace (fmul y (pwr x (eval4 n))) with (fmul (if FRRepr_IsOdd n then fmul y x else y) (pwr (fmul x x) (eval4 (FRRepr_Rsh n 1)))).
      * apply IH; [assumption|assumption|apply RFr_sq; assumption|]. destruct (FRRepr_IsOdd n); [apply RFr_mul; assumption|assumption].
      * rewrite Ev, (zpow_sq _ _ _ _ _ _ Fr_ring) by lia. rewrite FRRepr_IsOdd_eval, <- Z.negb_even.
        pose proof (Z_div_mod_eq_full (eval4 n) 2) as D. rewrite Zmod_even in D.
        destruct (Z.even (eval4 n)); cbn [negb].
        -- rewrite Z.add_0_r in D. rewrite <- D. reflexivity.
        -- rewrite D at 2. rewrite (zpow_succ _ _ _ _ _ _ Fr_ring) by lia. ring.
Qed.

Theorem FR_Exp_spec f n : rcanon f -> wf4 n -> rcanon (FR_Exp f n) /\ rval (FR_Exp f n) = rval f ^ eval4 n mod r.
Proof.
  intros C Hn. pose proof (eval4_bound n Hn) as B.
  destruct (FR_Exp_loop_rel 257 n f bigOneFR (frval f) (f1 r) Hn ltac:(change (Z.of_nat 257) with 257; lia) (RFr_frval f C) RFr_one) as [C2 E].
  unfold FR_Exp, FR_Exp_with. split; [exact C2|]. rewrite <- E.
  replace (fmul (f1 r) (pwr (frval f) (eval4 n))) with (pwr (frval f) (eval4 n)) by ring.
  rewrite zpow_zof by lia. f_equal. f_equal. apply RFr_frval. exact C.
Qed.

(** Legendre symbol (fr.go:304-313), while bigOneFR still is one. *)
Lemma rMinus1Over2_wf : wf4 rMinus1Over2. Proof. apply wf4_intro; unfold isW; lia. Qed.
Lemma rMinus1Over2_eval : eval4 rMinus1Over2 = (r - 1) / 2. Proof. vm_compute. reflexivity. Qed.
Lemma r12_eq : r - 1 = 2 * ((r - 1) / 2).
Proof. vm_compute. reflexivity. Qed.

Lemma zof_0_iff_r (x : Fr) : zof x = 0 <-> x = f0 r.
Proof. rewrite <- (zof_0 r prime_r). apply zof_inj. Qed.

(** Euler's criterion modulo r. r - 1 = 2^32 * t with t odd; rootz has order 2^32. *)
Definition r_t : Z := (r - 1) / 2 ^ 32.
Lemma r_t_eq : r - 1 = 2 ^ 32 * r_t. Proof. vm_compute. reflexivity. Qed.
Lemma r_t_pos : 0 < r_t. Proof. vm_compute. reflexivity. Qed.
Lemma r_t_odd : exists h, 0 <= h /\ r_t = 2 * h + 1.
Proof. exists ((r_t - 1) / 2). split; [vm_compute; discriminate|vm_compute; reflexivity]. Qed.
Definition rootz : Z := 10238227357739495823651030575849232062558860180284477541189508159991286009131.
Fixpoint sqn (k : nat) (x : Z) : Z := match k with O => x | S k => sqn k (x * x mod r) end.
Lemma sqn_zpow k : forall x : Fr, zof (pwr x (2 ^ Z.of_nat k)) = sqn k (zof x).
Proof.
  induction k as [|k IH]; intros x.
  - change (2 ^ Z.of_nat 0) with 1. rewrite (zpow_1 _ _ _ _ _ _ Fr_ring). reflexivity.
  - rewrite Nat2Z.inj_succ, Z.pow_succ_r by lia. rewrite <- (zpow_sq _ _ _ _ _ _ Fr_ring) by (apply Z.pow_nonneg; lia). rewrite IH. reflexivity.
Qed.
Lemma rootz_order : pwr (z2r rootz) (2 ^ 31) = fopp (f1 r).
Proof. apply Fp_eq. change 31 with (Z.of_nat 31). rewrite sqn_zpow. vm_compute. reflexivity. Qed.
Lemma pwr_pow x a b : 0 <= a -> 0 <= b -> pwr (pwr x a) b = pwr x (a * b).
Proof. intros. symmetry. apply (zpow_mul _ _ _ _ _ _ Fr_ring); assumption. Qed.
Lemma pwr_add x a b : 0 <= a -> 0 <= b -> pwr x (a + b) = fmul (pwr x a) (pwr x b).
Proof. intros. apply (zpow_add _ _ _ _ _ _ Fr_ring); assumption. Qed.

(** Every 2^k-th root of one is a power of rootz^(2^(32-k)), up to inversion. *)
Lemma roots_of_unity k : (k <= 32)%nat -> forall y : Fr, pwr y (2 ^ Z.of_nat k) = f1 r ->
  exists m, 0 <= m /\ fmul y (pwr (z2r rootz) (2 ^ (32 - Z.of_nat k) * m)) = f1 r.
Proof.
  induction k as [|k IH]; intros Hk y Hy.
  - exists 0. split; [lia|]. rewrite Z.mul_0_r, zpow_0. change (2 ^ Z.of_nat 0) with 1 in Hy. rewrite (zpow_1 _ _ _ _ _ _ Fr_ring) in Hy. rewrite Hy. ring.
  - rewrite Nat2Z.inj_succ in Hy. rewrite Z.pow_succ_r in Hy by lia.
    assert (0 <= 2 ^ Z.of_nat k) as Hp by (apply Z.pow_nonneg; lia).
    rewrite (zpow_double _ _ _ _ _ _ Fr_ring) in Hy by assumption.
    assert (2 ^ (32 - Z.of_nat k) = 2 * 2 ^ (31 - Z.of_nat k)) as E32 by (replace (32 - Z.of_nat k) with (Z.succ (31 - Z.of_nat k)) by lia; apply Z.pow_succ_r; lia).
    assert (2 ^ (32 - Z.of_nat (S k)) = 2 ^ (31 - Z.of_nat k)) as E31 by (f_equal; lia).
    assert (0 <= 2 ^ (31 - Z.of_nat k)) as Hp2 by (apply Z.pow_nonneg; lia).
    rewrite E31. destruct (f_sq_1 _ _ _ _ _ _ _ _ Fr_field Fp_dec _ Hy) as [E|E].
    + destruct (IH ltac:(lia) y E) as (m & Hm & Em). exists (2 * m). split; [lia|]. rewrite E32 in Em. 
      replace (2 ^ (31 - Z.of_nat k) * (2 * m)) with (2 * 2 ^ (31 - Z.of_nat k) * m) by ring. exact Em.
    + destruct (IH ltac:(lia) (fmul y (pwr (z2r rootz) (2 ^ (31 - Z.of_nat k))))) as (m & Hm & Em).
      { rewrite (zpow_mul_l _ _ _ _ _ _ Fr_ring), E, pwr_pow by assumption. rewrite <- Z.pow_add_r by lia.
        replace (31 - Z.of_nat k + Z.of_nat k) with 31 by lia. rewrite rootz_order. ring. }
      exists (2 * m + 1). split; [lia|]. rewrite E32 in Em. etransitivity; [|exact Em].
      replace (2 ^ (31 - Z.of_nat k) * (2 * m + 1)) with (2 ^ (31 - Z.of_nat k) + 2 * 2 ^ (31 - Z.of_nat k) * m) by ring.
      rewrite pwr_add by lia. ring.
Qed.

Lemma Fr_square_euler (x : Fr) : x <> f0 r -> (is_square fmul x <-> pwr x ((r - 1) / 2) = f1 r).
Proof.
  intros Hx. split.
  - intros [y <-]. apply (euler_square r prime_r r_odd). intros ->. apply Hx. ring.
  - intros E. destruct r_t_odd as (h & Hh & Et). pose proof r_t_pos as Htp.
    destruct (roots_of_unity 31 ltac:(lia) (pwr x r_t)) as (m & Hm & Em).
    { rewrite pwr_pow by lia. etransitivity; [|exact E]. apply (f_equal (pwr x)). pose proof r_t_eq. pose proof r12_eq.
      change (2 ^ Z.of_nat 31) with (2 ^ 31). change (2 ^ 32) with (2 * 2 ^ 31) in *. lia. }
    change (2 ^ (32 - Z.of_nat 31)) with 2 in Em.
    exists (fmul (pwr x (h + 1)) (pwr (z2r rootz) m)).
    rewrite (zpow_double _ _ _ _ _ _ Fr_ring) in Em by assumption.
    transitivity (fmul x (fmul (pwr x r_t) (fmul (pwr (z2r rootz) m) (pwr (z2r rootz) m)))); [|rewrite Em; ring].
    rewrite Et. rewrite (zpow_double1 _ _ _ _ _ _ Fr_ring), (zpow_succ _ _ _ _ _ _ Fr_ring) by assumption. ring.
Qed.

Lemma Fr_1_ne_0 : f1 r <> f0 r. Proof. apply (F_1_neq_0 Fr_field). Qed.
Theorem FR_Legendre_spec f : rcanon f ->
  (rval f = 0 -> FR_Legendre f = LegendreZero) /\
  (rval f <> 0 -> is_square fmul (frval f) -> FR_Legendre f = LegendreQuadraticResidue) /\
  (~ is_square fmul (frval f) -> FR_Legendre f = LegendreQuadraticNonResidue).
Proof.
  intros C. destruct (FR_Exp_spec f rMinus1Over2 C rMinus1Over2_wf) as [Ce Ee]. rewrite rMinus1Over2_eval in Ee.
  destruct (RFr_frval f C) as [_ Ef].
  assert (rval (FR_Exp f rMinus1Over2) = zof (pwr (frval f) ((r - 1) / 2))) as Eo.
  { rewrite zpow_zof, Ef by (vm_compute; discriminate). exact Ee. }
  unfold FR_Legendre. cbv zeta.
  assert (FR_IsZero (FR_Exp f rMinus1Over2) = feqb (pwr (frval f) ((r - 1) / 2)) (f0 r)) as E0.
  { apply eq_true_iff_eq. rewrite (FR_IsZero_spec _ Ce), feqb_spec, Eo. apply zof_0_iff_r. }
  assert (FR_Equals (FR_Exp f rMinus1Over2) bigOneFR = feqb (pwr (frval f) ((r - 1) / 2)) (f1 r)) as E1.
  { apply eq_true_iff_eq. rewrite (FR_Equals_spec _ _ Ce bigOneFR_canon), feqb_spec, Eo, bigOneFR_rval, <- (zof_1 r prime_r). apply zof_inj. }
  rewrite E0, E1. clear E0 E1 Eo.
  assert (forall y : Fr, feqb y y = true) as Fre by (intros; apply feqb_spec; reflexivity).
  assert (forall a b : Fr, a <> b -> feqb a b = false) as Fn.
  { intros a b H. destruct (feqb a b) eqn:E; [apply feqb_spec in E; contradiction|reflexivity]. }
  assert (rval f = 0 <-> frval f = f0 r) as Ez by (rewrite <- Ef; apply zof_0_iff_r).
  split; [|split].
  - intros E. rewrite Ez in E. rewrite E. rewrite (zpow_0_l _ _ _ _ _ _ Fr_ring), Fre by (vm_compute; reflexivity). reflexivity.
  - intros Hx S. rewrite Ez in Hx. apply Fr_square_euler in S; [|assumption]. rewrite S, (Fn (f1 r)), Fre by apply Fr_1_ne_0. reflexivity.
  - intros N. assert (frval f <> f0 r) as Hx by (intros X; apply N; rewrite X; exists (f0 r); ring).
    rewrite (Fn _ (f0 r)) by (apply (zpow_ne _ _ _ _ _ _ _ _ Fr_field Fp_dec); exact Hx).
    rewrite Fn; [reflexivity|]. intros E. apply N, Fr_square_euler; assumption.
Qed.
