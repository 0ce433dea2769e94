(** The prime field Z/m as a type with decidable Leibniz equality, its field laws, powers and squares.
    Specification-level mathematics; nothing here is about the Go code. *)
Require Import ZArith Lia Bool List Znumtheory Zpow_facts Ring Field Eqdep_dec.
From Verif Require Import NumTheory.
Import ListNotations.
Open Scope Z_scope.

Definition Fp (m : Z) : Type := { z : Z | (z mod m =? z) = true }.
Definition zof {m} (x : Fp m) : Z := proj1_sig x.

Lemma Fp_eq {m} (x y : Fp m) : zof x = zof y -> x = y.
Proof.
  destruct x as [a Ha], y as [b Hb]. cbn. intros ->. f_equal. apply UIP_dec. apply bool_dec.
Qed.
Lemma zof_inj {m} (x y : Fp m) : zof x = zof y <-> x = y.
Proof. split; [apply Fp_eq|congruence]. Qed.
Lemma zof_mod {m} (x : Fp m) : zof x mod m = zof x.
Proof. destruct x as [a Ha]. cbn. apply Z.eqb_eq in Ha. exact Ha. Qed.

Definition zp (m z : Z) : Fp m := exist _ (z mod m) (proj2 (Z.eqb_eq _ _) (Zmod_mod z m)).
Lemma zof_zp m z : zof (zp m z) = z mod m. Proof. reflexivity. Qed.
Lemma zp_zof {m} (x : Fp m) : zp m (zof x) = x.
Proof. apply Fp_eq. apply zof_mod. Qed.
Lemma zp_eq m a b : a mod m = b mod m -> zp m a = zp m b.
Proof. intros H. apply Fp_eq. exact H. Qed.

Definition f0 (m : Z) : Fp m := zp m 0.
Definition f1 (m : Z) : Fp m := zp m 1.
Definition fadd {m} (x y : Fp m) : Fp m := zp m (zof x + zof y).
Definition fsub {m} (x y : Fp m) : Fp m := zp m (zof x - zof y).
Definition fmul {m} (x y : Fp m) : Fp m := zp m (zof x * zof y).
Definition fopp {m} (x : Fp m) : Fp m := zp m (- zof x).
Definition finv {m} (x : Fp m) : Fp m := zp m (Zpow_mod (zof x) (m - 2) m).
Definition fdiv {m} (x y : Fp m) : Fp m := fmul x (finv y).
Definition feqb {m} (x y : Fp m) : bool := zof x =? zof y.

Lemma feqb_spec {m} (x y : Fp m) : feqb x y = true <-> x = y.
Proof. unfold feqb. rewrite Z.eqb_eq. apply zof_inj. Qed.

Lemma zp_add m a b : zp m (a + b) = fadd (zp m a) (zp m b).
Proof. apply Fp_eq. cbn. apply Zplus_mod. Qed.
Lemma zp_sub m a b : zp m (a - b) = fsub (zp m a) (zp m b).
Proof. apply Fp_eq. cbn. apply Zminus_mod. Qed.
Lemma zp_mul m a b : zp m (a * b) = fmul (zp m a) (zp m b).
Proof. apply Fp_eq. cbn. apply Zmult_mod. Qed.
Lemma zp_opp m a : zp m (- a) = fopp (zp m a).
Proof. apply Fp_eq. unfold fopp. rewrite !zof_zp. rewrite <- (Z.sub_0_l (a mod m)), Zminus_mod_idemp_r. reflexivity. Qed.
Lemma zp_m m : zp m m = f0 m.
Proof. apply Fp_eq. unfold f0. rewrite !zof_zp. rewrite Z_mod_same_full, Zmod_0_l. reflexivity. Qed.

(** Every element is zp of something: rewrite ring goals to Z. *)
Ltac to_zp := 
  repeat match goal with x : Fp ?m |- _ => rewrite <- (zp_zof x); generalize (zof x); clear x; intro x end;
  unfold f0, f1; repeat (rewrite <- zp_add || rewrite <- zp_sub || rewrite <- zp_mul || rewrite <- zp_opp).

Lemma Fp_ring m : ring_theory (f0 m) (f1 m) fadd fmul fsub fopp eq.
Proof.
  constructor; intros; to_zp; f_equal; ring.
Qed.

Section Field.
  Context (m : Z) (Hm : prime m).
  Let Hm2 : 2 <= m := prime_ge_2 m Hm.

  Lemma zof_bound (x : Fp m) : 0 <= zof x < m.
  Proof. rewrite <- (zof_mod x). apply Z.mod_pos_bound. lia. Qed.

  Lemma zof_0 : zof (f0 m) = 0. Proof. unfold f0. rewrite zof_zp. apply Z.mod_small. lia. Qed.
  Lemma zof_1 : zof (f1 m) = 1. Proof. unfold f1. rewrite zof_zp. apply Z.mod_small. lia. Qed.

  Lemma finv_l (x : Fp m) : x <> f0 m -> fmul (finv x) x = f1 m.
  Proof.
    intros Hx. apply Fp_eq. rewrite zof_1. unfold finv, fmul. rewrite !zof_zp, Zpow_mod_correct by lia.
    rewrite Z.mod_mod, Z.mul_mod_idemp_l by lia.
    rewrite Z.mul_comm, <- Z.pow_succ_r by lia. replace (Z.succ (m - 2)) with (m - 1) by lia.
    apply fermat; [assumption|]. intros D. apply Hx. apply Fp_eq. rewrite zof_0.
    apply Z.mod_divide in D; [|lia]. rewrite zof_mod in D. exact D.
  Qed.

  Lemma Fp_field : field_theory (f0 m) (f1 m) fadd fmul fsub fopp fdiv finv eq.
  Proof.
    constructor.
    - apply Fp_ring.
    - intros E. apply (f_equal zof) in E. rewrite zof_0, zof_1 in E. discriminate.
    - reflexivity.
    - apply finv_l.
  Qed.

  Lemma finv_0 : 2 < m -> finv (f0 m) = f0 m.
  Proof.
    intros H. apply Fp_eq. unfold finv. rewrite zof_zp, zof_0, Zpow_mod_correct by lia.
    rewrite Z.pow_0_l by lia. rewrite !Z.mod_0_l by lia. reflexivity.
  Qed.
End Field.

(** ** Powers with integer exponents in a commutative ring *)
Section ZPow.
  Context {R : Type} (rO rI : R) (radd rmul rsub : R -> R -> R) (ropp : R -> R).
  Hypothesis Rth : ring_theory rO rI radd rmul rsub ropp (@eq R).
  Add Ring RRing2 : Rth.

  Definition zpow (x : R) (n : Z) : R := rpow rI rmul x (Z.to_nat n).

  Lemma zpow_0 x : zpow x 0 = rI. Proof. reflexivity. Qed.
  Lemma zpow_1 x : zpow x 1 = x. Proof. unfold zpow. change (Z.to_nat 1) with 1%nat. cbn [rpow]. ring. Qed.
  Lemma zpow_2 x : zpow x 2 = rmul x x. Proof. unfold zpow. change (Z.to_nat 2) with 2%nat. cbn [rpow]. ring. Qed.
  Lemma zpow_add x a b : 0 <= a -> 0 <= b -> zpow x (a + b) = rmul (zpow x a) (zpow x b).
  Proof. intros. unfold zpow. rewrite Z2Nat.inj_add by lia. eapply rpow_add; eassumption. Qed.
  Lemma zpow_succ x a : 0 <= a -> zpow x (a + 1) = rmul x (zpow x a).
  Proof. intros. rewrite zpow_add, zpow_1 by lia. ring. Qed.
  Lemma zpow_mul x a b : 0 <= a -> 0 <= b -> zpow x (a * b) = zpow (zpow x a) b.
  Proof. intros. unfold zpow. rewrite Z2Nat.inj_mul by lia. eapply rpow_mul; eassumption. Qed.
  Lemma zpow_mul_l x y n : zpow (rmul x y) n = rmul (zpow x n) (zpow y n).
  Proof. unfold zpow. eapply rpow_mul_l; eassumption. Qed.
  Lemma zpow_1_l n : zpow rI n = rI.
  Proof. unfold zpow. eapply rpow_1_l; eassumption. Qed.
  Lemma zpow_0_l n : 0 < n -> zpow rO n = rO.
  Proof. intros. unfold zpow. eapply rpow_0_l; [eassumption|lia]. Qed.
  Lemma zpow_double x a : 0 <= a -> zpow x (2 * a) = rmul (zpow x a) (zpow x a).
  Proof. intros. replace (2 * a) with (a + a) by lia. apply zpow_add; lia. Qed.
  Lemma zpow_double1 x a : 0 <= a -> zpow x (2 * a + 1) = rmul (rmul (zpow x a) (zpow x a)) x.
  Proof. intros. rewrite zpow_succ, zpow_double by lia. ring. Qed.
  Lemma zpow_sq x a : 0 <= a -> zpow (rmul x x) a = zpow x (2 * a).
  Proof. intros. rewrite zpow_mul_l, zpow_double by lia. reflexivity. Qed.
End ZPow.

Arguments zpow {R} rI rmul x n.

(** zpow in Fp is Z.pow modulo m. *)
Lemma zpow_zof m (x : Fp m) n : 0 <= n -> zof (zpow (f1 m) fmul x n) = zof x ^ n mod m.
Proof.
  intros Hn. rewrite <- (zp_zof x) at 1. revert n Hn. apply natlike_ind.
  - reflexivity.
  - intros n Hn IH. change (Z.succ n) with (n + 1).
    rewrite (zpow_succ _ _ _ _ _ _ (Fp_ring m)) by lia. rewrite Z.pow_add_r, Z.pow_1_r by lia.
    unfold fmul at 1. rewrite zof_zp, IH, zof_zp. rewrite Zmult_mod_idemp_r, Zmult_mod_idemp_l. f_equal. ring.
Qed.

(** ** Integral domains and square roots of one *)
Section FieldFacts.
  Context {F : Type} (O I : F) (add mul sub : F -> F -> F) (opp : F -> F) (div : F -> F -> F) (inv : F -> F).
  Hypothesis Fth : field_theory O I add mul sub opp div inv (@eq F).
  Hypothesis Fdec : forall x y : F, {x = y} + {x <> y}.
  Add Field FFacts : Fth.

  Lemma f_integral x y : mul x y = O -> x = O \/ y = O.
  Proof.
    intros H. destruct (Fdec x O) as [->|Hx]; [left; reflexivity|right].
    transitivity (mul (inv x) (mul x y)); [field; exact Hx|]. rewrite H. ring.
  Qed.
  Lemma f_mul_ne x y : x <> O -> y <> O -> mul x y <> O.
  Proof. intros Hx Hy E. destruct (f_integral x y E); contradiction. Qed.
  Lemma f_sub_0 x y : sub x y = O <-> x = y.
  Proof. split; intros H; [transitivity (add (sub x y) y); [ring|rewrite H; ring]|subst; ring]. Qed.
  Lemma f_sq_eq x y : mul x x = mul y y -> x = y \/ x = opp y.
  Proof.
    intros H. destruct (f_integral (sub x y) (add x y)) as [E|E].
    - transitivity (sub (mul x x) (mul y y)); [ring|rewrite H; ring].
    - left. apply f_sub_0. exact E.
    - right. transitivity (sub (add x y) y); [ring|rewrite E; ring].
  Qed.
  Lemma f_sq_1 x : mul x x = I -> x = I \/ x = opp I.
  Proof. intros H. apply f_sq_eq. rewrite H. ring. Qed.
  Lemma f_cancel_l a x y : a <> O -> mul a x = mul a y -> x = y.
  Proof.
    intros Ha H. transitivity (mul (inv a) (mul a x)); [field; exact Ha|]. rewrite H. field. exact Ha.
  Qed.
  Lemma f_inv_ne x : x <> O -> inv x <> O.
  Proof.
    intros Hx E. apply (F_1_neq_0 Fth). transitivity (mul (inv x) x); [field; exact Hx|]. rewrite E. ring.
  Qed.
  Lemma zpow_ne x n : x <> O -> zpow I mul x n <> O.
  Proof.
    intros Hx. unfold zpow. generalize (Z.to_nat n). intros k. induction k; cbn.
    - apply (F_1_neq_0 Fth).
    - apply f_mul_ne; assumption.
  Qed.
  Lemma inv_unique x y : mul x y = I -> y = inv x.
  Proof.
    intros H. assert (x <> O) as Hx. { intros ->. apply (F_1_neq_0 Fth). rewrite <- H. ring. }
    apply (f_cancel_l x); [exact Hx|]. rewrite H. field. exact Hx.
  Qed.
End FieldFacts.

Definition Fp_dec {m} (x y : Fp m) : {x = y} + {x <> y}.
Proof.
  destruct (feqb x y) eqn:E; [left; apply feqb_spec; exact E|right].
  intros H. apply feqb_spec in H. congruence.
Defined.

(** ** Fermat, Euler and square roots in Z/m *)
Section Squares.
  Context (m : Z) (Hm : prime m).
  Let Hm2 : 2 <= m := prime_ge_2 m Hm.
  Notation pw := (zpow (f1 m) fmul).
  Add Field FpF : (Fp_field m Hm).

  Lemma Fp_fermat (x : Fp m) : x <> f0 m -> pw x (m - 1) = f1 m.
  Proof.
    intros Hx. apply Fp_eq. rewrite zpow_zof, (zof_1 m Hm) by lia. apply fermat; [assumption|].
    intros D. apply Hx. apply Fp_eq. rewrite (zof_0 m Hm). apply Z.mod_divide in D; [|lia]. rewrite zof_mod in D. exact D.
  Qed.
  Lemma Fp_fermat' (x : Fp m) : pw x m = x.
  Proof.
    destruct (Fp_dec x (f0 m)) as [->|Hx].
    - apply (zpow_0_l _ _ _ _ _ _ (Fp_ring m)). lia.
    - transitivity (pw x (m - 1 + 1)); [f_equal; lia|]. rewrite (zpow_succ _ _ _ _ _ _ (Fp_ring m)), Fp_fermat by (assumption || lia). ring.
  Qed.

  Hypothesis Hodd : Z.odd m = true.
  Lemma half_odd : m - 1 = 2 * ((m - 1) / 2).
  Proof.
    apply Z.div_exact; [lia|]. rewrite Zmod_even. 
    replace (m - 1) with (Z.pred m) by lia. rewrite Z.even_pred, Hodd. reflexivity.
  Qed.

  Lemma euler_pm1 (x : Fp m) : x <> f0 m -> pw x ((m-1)/2) = f1 m \/ pw x ((m-1)/2) = fopp (f1 m).
  Proof.
    intros Hx. pose proof half_odd as E.
    apply (f_sq_1 _ _ _ _ _ _ _ _ (Fp_field m Hm) Fp_dec).
    rewrite <- (zpow_double _ _ _ _ _ _ (Fp_ring m)), <- E by (apply Z.div_pos; lia). apply Fp_fermat. assumption.
  Qed.
  Lemma euler_square (y : Fp m) : y <> f0 m -> pw (fmul y y) ((m-1)/2) = f1 m.
  Proof.
    intros Hy. pose proof half_odd as E.
    rewrite (zpow_sq _ _ _ _ _ _ (Fp_ring m)), <- E by (apply Z.div_pos; lia). apply Fp_fermat. assumption.
  Qed.
  Lemma neg1_ne_1 : fopp (f1 m) <> f1 m.
  Proof.
    intros E. apply (f_equal zof) in E. unfold fopp in E. rewrite zof_zp, (zof_1 m Hm) in E.
    assert (m <> 2) by (intros ->; discriminate).
    rewrite Z.mod_opp_l_nz, Z.mod_small in E by (try rewrite Z.mod_small; lia). lia.
  Qed.
  Lemma fopp_ne (x : Fp m) : x <> f0 m -> fopp x <> x.
  Proof.
    intros Hx E. apply neg1_ne_1. apply (f_cancel_l _ _ _ _ _ _ _ _ (Fp_field m Hm) x); [assumption|].
    transitivity (fopp x); [ring|]. rewrite E. ring.
  Qed.
End Squares.
