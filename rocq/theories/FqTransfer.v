(** The limb implementation and GF(q) are related operation by operation, hence so is every function
    of the tower, curve, pairing, hashing and signature layers. *)
Require Import ZArith Lia Bool List.
From Verif Require Import Words ModelRepr ReprProofs ReprProofs2 ModelFq ModelOps ModelTower ModelCurve NumTheory Primality FqProofs FqProofs2 FqInverse Fp FpOps FqRel OpsRel OpsRel2.
Import ListNotations.
Open Scope Z_scope.

Lemma RelO_Fq : RelO FqO FpO RFq.
Proof.
  constructor; cbn [FqO FpO o_zero o_one o_add o_sub o_mul o_sq o_dbl o_neg o_inv o_iszero o_equals o_cmp o_sqrt].
  - apply RFq_zero.
  - apply RFq_one.
  - intros. apply RFq_add; assumption.
  - intros. apply RFq_sub; assumption.
  - intros. apply RFq_mul; assumption.
  - apply RFq_sq.
  - apply RFq_dbl.
  - apply RFq_neg.
  - intros a a' H. destruct (RFq_inv a a' H) as [[-> E]|[Hn (g & E & Hg)]]; rewrite E.
    + rewrite (proj2 (feqb_spec (f0 q) (f0 q)) eq_refl). split; [apply RFq_empty|reflexivity].
    + destruct (feqb a' (f0 q)) eqn:E0; [apply feqb_spec in E0; contradiction|]. split; [exact Hg|reflexivity].
  - apply RFq_iszero.
  - intros. apply RFq_equals; assumption.
  - intros. apply RFq_cmp; assumption.
  - apply RFq_sqrt.
Qed.
#[global] Instance RelB_Fq : RelB FqB FpB RFq.
Proof.
  constructor; cbn [FqB FpB b_ops b_raw b_of b_repr b_exp b_legendre].
  - apply RelO_Fq.
  - intros n H. apply validb_spec in H. apply RFq_raw; apply H.
  - apply RFq_of.
  - apply RFq_repr.
  - apply RFq_exp.
  - apply RFq_legendre.
Qed.
(** Canonical values of every level, i.e. the values the code works with. *)
Definition canon2 (a : FQ2 FQ) : Prop := canon (c0 a) /\ canon (c1 a).
Definition canon6 (a : FQ6 FQ) : Prop := canon2 (d0 a) /\ canon2 (d1 a) /\ canon2 (d2 a).
Definition canon12 (a : FQ12 FQ) : Prop := canon6 (e0 a) /\ canon6 (e1 a).
Definition canonA1 (a : Affine FQ) : Prop := canon (ax a) /\ canon (ay a).
Definition canonA2 (a : Affine (FQ2 FQ)) : Prop := canon2 (ax a) /\ canon2 (ay a).
Definition canonP1 (a : Proj FQ) : Prop := canon (px a) /\ canon (py a) /\ canon (pz a).
Definition canonP2 (a : Proj (FQ2 FQ)) : Prop := canon2 (px a) /\ canon2 (py a) /\ canon2 (pz a).

(** Their mathematical values. *)
Definition val2 (a : FQ2 FQ) : FQ2 Fq := mkFQ2 (fqval (c0 a)) (fqval (c1 a)).
Definition val6 (a : FQ6 FQ) : FQ6 Fq := mkFQ6 (val2 (d0 a)) (val2 (d1 a)) (val2 (d2 a)).
Definition val12 (a : FQ12 FQ) : FQ12 Fq := mkFQ12 (val6 (e0 a)) (val6 (e1 a)).
Definition valA1 (a : Affine FQ) : Affine Fq := mkAff (fqval (ax a)) (fqval (ay a)) (ainf a).
Definition valA2 (a : Affine (FQ2 FQ)) : Affine (FQ2 Fq) := mkAff (val2 (ax a)) (val2 (ay a)) (ainf a).
Definition valP1 (a : Proj FQ) : Proj Fq := mkProj (fqval (px a)) (fqval (py a)) (fqval (pz a)).
Definition valP2 (a : Proj (FQ2 FQ)) : Proj (FQ2 Fq) := mkProj (val2 (px a)) (val2 (py a)) (val2 (pz a)).

Lemma R2_val a x : R2 RFq a x <-> canon2 a /\ x = val2 a.
Proof.
  unfold R2, canon2, val2. rewrite !RFq_iff. destruct x as [?x ?x]; cbn [c0 c1]. split.
  - intros [[? ->] [? ->]]. auto.
  - intros [[? ?] E]. injection E as -> ->. auto.
Qed.
Lemma R6_val a x : R6 RFq a x <-> canon6 a /\ x = val6 a.
Proof.
  unfold R6, canon6, val6. rewrite !R2_val. destruct x as [?x ?x ?x]; cbn [d0 d1 d2]. split.
  - intros [[? ->] [[? ->] [? ->]]]. auto.
  - intros [[? [? ?]] E]. injection E as -> -> ->. auto.
Qed.
Lemma R12_val a x : R12 RFq a x <-> canon12 a /\ x = val12 a.
Proof.
  unfold R12, canon12, val12. rewrite !R6_val. destruct x as [?x ?x]; cbn [e0 e1]. split.
  - intros [[? ->] [? ->]]. auto.
  - intros [[? ?] E]. injection E as -> ->. auto.
Qed.
Lemma RA1_val a x : RA RFq a x <-> canonA1 a /\ x = valA1 a.
Proof.
  unfold RA, canonA1, valA1. rewrite !RFq_iff. destruct x as [?x ?x ?x]; cbn [ax ay ainf]. split.
  - intros [[? ->] [[? ->] ->]]. auto.
  - intros [[? ?] E]. injection E as -> -> ->. auto.
Qed.
Lemma RA2_val a x : RA (R2 RFq) a x <-> canonA2 a /\ x = valA2 a.
Proof.
  unfold RA, canonA2, valA2. rewrite !R2_val. destruct x as [?x ?x ?x]; cbn [ax ay ainf]. split.
  - intros [[? ->] [[? ->] ->]]. auto.
  - intros [[? ?] E]. injection E as -> -> ->. auto.
Qed.
Lemma RP1_val a x : RP RFq a x <-> canonP1 a /\ x = valP1 a.
Proof.
  unfold RP, canonP1, valP1. rewrite !RFq_iff. destruct x as [?x ?x ?x]; cbn [px py pz]. split.
  - intros [[? ->] [[? ->] [? ->]]]. auto.
  - intros [[? [? ?]] E]. injection E as -> -> ->. auto.
Qed.
Lemma RP2_val a x : RP (R2 RFq) a x <-> canonP2 a /\ x = valP2 a.
Proof.
  unfold RP, canonP2, valP2. rewrite !R2_val. destruct x as [?x ?x ?x]; cbn [px py pz]. split.
  - intros [[? ->] [[? ->] [? ->]]]. auto.
  - intros [[? [? ?]] E]. injection E as -> -> ->. auto.
Qed.
