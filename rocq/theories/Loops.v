(** The square-and-multiply loops of the Go code compute powers, whatever the element type. *)
Require Import ZArith Lia Bool List Ring.
From Verif Require Import Words ModelRepr ReprProofs ReprProofs2 ModelFq ModelOps ModelTower NumTheory Fp.
Import ListNotations.
Open Scope Z_scope.

Lemma mod_pow2_succ X n : X mod 2 ^ Z.of_nat (S n) = 2 ^ Z.of_nat n * (if Z.testbit X (Z.of_nat n) then 1 else 0) + X mod 2 ^ Z.of_nat n.
Proof.
  rewrite Nat2Z.inj_succ, Z.pow_succ_r by lia. rewrite (Z.mul_comm 2).
  assert (0 < 2 ^ Z.of_nat n) by (apply Z.pow_pos_nonneg; lia).
  rewrite Z.rem_mul_r by lia. rewrite Z.add_comm. f_equal. f_equal.
  pose proof (Z.testbit_spec' X (Z.of_nat n) ltac:(lia)) as E. rewrite <- E. destruct (Z.testbit X _); reflexivity.
Qed.

Section Exp.
  Context {A K : Type} (rO rI : K) (radd rmul rsub : K -> K -> K) (ropp : K -> K).
  Hypothesis Rth : ring_theory rO rI radd rmul rsub ropp (@eq K).
  Add Ring KRing : Rth.
  Context (R : A -> K -> Prop) (one : A) (sq : A -> A) (mul : A -> A -> A).
  Hypothesis Hone : R one rI.
  Hypothesis Hsq : forall a x, R a x -> R (sq a) (rmul x x).
  Hypothesis Hmul : forall a x b y, R a x -> R b y -> R (mul a b) (rmul x y).
  Notation pw := (zpow rI rmul).

  Lemma ExpBits_fold f x X : R f x -> forall n a found res, 0 <= a -> (found = false -> a = 0) -> R res (pw x a) ->
    R (snd (fold_left (fun st next => 
         let '(foundOne, res) := st : bool * A in
         let '(foundOne, res) := if foundOne then (foundOne, sq res) else (next, res) in
         (foundOne, if next then mul res f else res)) (msb_bits n X) (found, res)))
      (pw x (a * 2 ^ Z.of_nat n + X mod 2 ^ Z.of_nat n)).
  Proof.
    intros Hf. induction n as [|n IH]; intros a found res Ha Hz HR; cbn [msb_bits fold_left].
    - rewrite Z.mod_1_r, Z.mul_1_r, Z.add_0_r. exact HR.
    - rewrite mod_pow2_succ.
      set (b := Z.testbit X (Z.of_nat n)).
      replace (a * 2 ^ Z.of_nat (S n) + (2 ^ Z.of_nat n * (if b then 1 else 0) + X mod 2 ^ Z.of_nat n)) with
        ((2 * a + (if b then 1 else 0)) * 2 ^ Z.of_nat n + X mod 2 ^ Z.of_nat n)
        by (rewrite (Nat2Z.inj_succ n), Z.pow_succ_r by lia; ring).
      destruct found; [|specialize (Hz eq_refl); subst a]; destruct b.
      + apply IH; [lia|discriminate|]. rewrite (zpow_double1 _ _ _ _ _ _ Rth) by lia. auto.
      + apply IH; [lia|discriminate|]. rewrite Z.add_0_r, (zpow_double _ _ _ _ _ _ Rth) by lia. auto.
      + apply IH; [lia|discriminate|]. change (2 * 0 + 1) with 1. rewrite (zpow_1 _ _ _ _ _ _ Rth).
        replace x with (rmul (pw x 0) x) by (rewrite zpow_0; ring). auto.
      + apply IH; [lia|reflexivity|]. exact HR.
  Qed.

  Lemma ExpBits_rel f x n : R f x -> wf6 n -> R (ExpBits one sq mul f n) (pw x (eval6 n)).
  Proof.
    intros Hf Hn. unfold ExpBits. rewrite for_bits_spec by exact Hn.
    pose proof (ExpBits_fold f x (eval6 n) Hf 384 0 false one) as H.
    rewrite Z.mul_0_l, Z.add_0_l in H. pose proof (eval6_bound n Hn). change (2 ^ Z.of_nat 384) with (2 ^ 384) in H.
    rewrite Z.mod_small in H by assumption. apply H; [lia|reflexivity|]. exact Hone.
  Qed.

  Lemma ExpLoop_rel fuel : forall n fi res x y, wf6 n -> eval6 n < 2 ^ (Z.of_nat fuel) -> R fi x -> R res y ->
    R (ExpLoop mul sq fuel n fi res) (rmul y (pw x (eval6 n))).
  Proof.
    induction fuel as [|k IH]; intros n fi res x y Hn Hb Hf Hr; cbn [ExpLoop].
    - pose proof (eval6_bound n Hn). change (2 ^ Z.of_nat 0) with 1 in Hb. replace (eval6 n) with 0 by lia. rewrite zpow_0.
      replace (rmul y rI) with y by ring. exact Hr.
    - assert (wf6 bigZero) as Hz by apply wf6_0.
      rewrite FQRepr_Cmp_eval by assumption. change (eval6 bigZero) with 0. pose proof (eval6_bound n Hn) as B.
      destruct (Z.eqb_spec (zcmp (eval6 n) 0) 0) as [E|E]; cbn [negb].
      + apply (proj1 (zcmp_0 (eval6 n) 0)) in E. rewrite E, zpow_0. replace (rmul y rI) with y by ring. exact Hr.
      + destruct (FQRepr_Rsh_spec n 1 Hn ltac:(lia)) as [Hw Ev]. change (2 ^ 1) with 2 in Ev.
        assert (eval6 (FQRepr_Rsh n 1) < 2 ^ Z.of_nat k) as Hb2.
        { rewrite Ev. rewrite Nat2Z.inj_succ, Z.pow_succ_r in Hb by lia. apply Z.div_lt_upper_bound; lia. }
        assert (0 <= eval6 n / 2) as Hd by (apply Z.div_pos; lia).
        replace (rmul y (pw x (eval6 n))) with (rmul (if isEven n then y else rmul y x) (pw (rmul x x) (eval6 (FQRepr_Rsh n 1)))).
        * apply IH; [assumption|assumption|auto|]. destruct (isEven n); cbn [negb]; auto.
        * rewrite Ev, (zpow_sq _ _ _ _ _ _ Rth) by lia. unfold isEven. rewrite FQRepr_IsEven_eval.
          pose proof (Z_div_mod_eq_full (eval6 n) 2) as D. rewrite Zmod_even in D.
          destruct (Z.even (eval6 n)).
          -- rewrite Z.add_0_r in D. rewrite <- D. reflexivity.
          -- rewrite D at 2. rewrite (zpow_succ _ _ _ _ _ _ Rth) by lia. ring.
  Qed.

  Lemma ExpLoop_rel0 n fi x : wf6 n -> R fi x -> R (ExpLoop mul sq 385 n fi one) (pw x (eval6 n)).
  Proof.
    intros Hn Hf. replace (pw x (eval6 n)) with (rmul rI (pw x (eval6 n))) by ring.
    apply ExpLoop_rel; auto. pose proof (eval6_bound n Hn). change (Z.of_nat 385) with 385. lia.
  Qed.
End Exp.
