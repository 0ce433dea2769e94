(** The base-field operations on plain integers in [0, q): the same functions as [FpB], but without
    the proof component, so that closed terms can be evaluated. *)
Require Import ZArith Lia Bool List Znumtheory Zpow_facts.
From Verif Require Import Words ModelRepr ReprProofs ReprProofs2 ModelFq ModelOps ModelTower NumTheory Primality Fp FpOps FqProofs FqProofs2 OpsRel OpsRel2.
Import ListNotations.
Open Scope Z_scope.

Definition RZ (z : Z) (x : Fq) : Prop := z = zof x.
Definition ZO : Ops Z := {|
  o_zero := 0; o_one := 1;
  o_add := fun a b => (a + b) mod q; o_sub := fun a b => (a - b) mod q; o_mul := fun a b => (a * b) mod q;
  o_sq := fun a => (a * a) mod q; o_dbl := fun a => (a + a) mod q; o_neg := fun a => (- a) mod q;
  o_inv := fun a => if a =? 0 then (0, false) else (Zpow_mod a (q - 2) q mod q, true);
  o_iszero := fun a => a =? 0; o_equals := Z.eqb; o_cmp := zcmp;
  o_sqrt := fun a => let '(s, ok) := fq_sqrt (z2q a) in (zof s, ok) |}.
Definition ZB : BOps Z := {|
  b_ops := ZO;
  b_raw := fun n => (eval6 n * RQinv) mod q;
  b_of := fun n => if eval6 n <? q then eval6 n mod q else 0;
  b_repr := FQRepr_const;
  b_exp := fun a n => zof (pwq (z2q a) (eval6 n));
  b_legendre := fun a => fq_legendre (z2q a) |}.
Lemma z2q_zof x : z2q (zof x) = x. Proof. apply zp_zof. Qed.
Lemma RZ_refl x : RZ (zof x) x. Proof. reflexivity. Qed.
#[global] Instance RelO_Z : RelO ZO FpO RZ.
Proof.
  constructor; cbn [ZO FpO o_zero o_one o_add o_sub o_mul o_sq o_dbl o_neg o_inv o_iszero o_equals o_cmp o_sqrt]; unfold RZ; intros; subst; try reflexivity.
  - unfold feqb. rewrite (zof_0 q prime_q). destruct (zof a' =? 0); split; reflexivity.
  - rewrite z2q_zof. destruct (fq_sqrt a') as [s ok]. split; reflexivity.
Qed.
#[global] Instance RelB_Z : RelB ZB FpB RZ.
Proof.
  constructor; cbn [ZB FpB b_ops b_raw b_of b_repr b_exp b_legendre]; unfold RZ; intros; subst; rewrite ?z2q_zof; try reflexivity.
  - exact RelO_Z.
  - destruct (eval6 n <? q); [reflexivity|symmetry; apply (zof_0 q prime_q)].
Qed.
Lemma RZ_inj z x y : RZ z x -> RZ z y -> x = y.
Proof. unfold RZ. intros -> E. apply Fp_eq. exact E. Qed.
Lemma R2Z_inj z x y : R2 RZ z x -> R2 RZ z y -> x = y.
Proof.
  intros [A B] [C D]. destruct x as [x0 x1], y as [y0 y1]. cbn [c0 c1] in *. f_equal; eapply RZ_inj; eassumption.
Qed.
Lemma RZ_of z : 0 <= z < q -> RZ z (z2q z).
Proof. intros H. unfold RZ, z2q. rewrite zof_zp, Z.mod_small by assumption. reflexivity. Qed.
Lemma R2Z_of a b : 0 <= a < q -> 0 <= b < q -> R2 RZ (mkFQ2 a b) (mkFQ2 (z2q a) (z2q b)).
Proof. intros. split; cbn [c0 c1]; apply RZ_of; assumption. Qed.
(** Equality and inequality of related values are decided on the integers. *)
Lemma RZ_eqb a b x y : RZ a x -> RZ b y -> (a =? b) = feqb x y.
Proof. unfold RZ. intros -> ->. reflexivity. Qed.
Definition z2e (a b : FQ2 Z) : bool := (c0 a =? c0 b) && (c1 a =? c1 b).
Lemma R2Z_eq a b x y : R2 RZ a x -> R2 RZ b y -> z2e a b = true -> x = y.
Proof.
  intros H1 [A B] E. unfold z2e in E. apply andb_true_iff in E. destruct E as [E0 E1]. apply Z.eqb_eq in E0, E1.
  apply (R2Z_inj a); [assumption|]. split; [rewrite E0|rewrite E1]; assumption.
Qed.
Lemma rel_raw2 {F F'} (B : BOps F) (B' : BOps F') R {HB : RelB B B' R} n m : validb n = true -> validb m = true ->
  R2 R (mkFQ2 (b_raw B n) (b_raw B m)) (mkFQ2 (b_raw B' n) (b_raw B' m)).
Proof. intros. split; cbn [c0 c1]; apply (rb_raw _ _ _ HB); assumption. Qed.
