(** Rogue keys: what the aggregate verification functions do not bind. *)
Require Import ZArith Lia Bool List Znumtheory.
From Verif Require Import Words ModelRepr ReprProofs ModelFq ModelFr ModelOps ModelTower ModelCurve ModelPairing ModelHash ModelBls NumTheory Primality Fp FpOps FqProofs FqProofs2 FqRel FrProofs OpsRel OpsRel2 FqTransfer Ext TowerProofs TowerLimb Fld AbGrp EcGroup EcJac EcMul Curves CurveLimb CurveMisc Codec BlsProofs BlsProofs2 BlsProofs3 BlsProofs4 PairTor VerifyProofs WireProofs.
Import CurveLimb ListNotations.
Open Scope Z_scope.

(** * g1pubs *)
(** the key the attacker publishes: own key minus the victim's, made from public data only *)
Definition rogue1 (X P : Proj FQ) : Proj FQ := g1pubs_AggregatePublicKeys FqB [X; Proj_NegAssign FqO P].
Lemma rogue_key1 P X x : tor1 P -> key_of1 X x -> jac1 P <> jac1 X -> exists k, key_of1 P k /\ key_of1 (rogue1 X P) (x - k).
Proof.
  intros TP [TX EX] N. destruct (key_exists1 P TP) as (k & _ & KP & _). exists k. split; [exact KP|]. destruct KP as [_ EP].
  destruct (G1_neg P (proj1 TP)) as [CN EN]. assert (valid1 (Proj_NegAssign FqO P)) as VN by (split; [exact CN|rewrite EN; apply G1_on_neg; exact (proj1 (proj2 TP))]).
  assert (valid1 X) as VX by exact (Logic.conj (proj1 TX) (proj1 (proj2 TX))).
  destruct (agg1 [X; Proj_NegAssign FqO P] (Forall_cons _ VX (Forall_cons _ VN (Forall_nil _)))) as [[C _] J]. cbn [map sum1 fold_right] in J. rewrite plus1_0_r, EN, EP, EX in J.
  assert (neg1 (mul1 k gp1) = mul1 (- k) gp1) as NE by (symmetry; exact (pk_opp E1 k gp1 G1one_on)). rewrite NE, <- mul1_add in J by exact G1one_on.
  apply key_mult1; [exact C|exact J|]. intros D. apply N. rewrite EP, EX. assert (mul1 (x + - k) gp1 = Inf) as Z. { apply (proj2 (one1_mul (x + - k))). exact D. }
  replace x with (k + (x + - k)) by lia. rewrite mul1_add, Z, plus1_0_r by exact G1one_on. reflexivity.
Qed.
(** The attacker signs alone with x, publishes the rogue key beside the victim's, and the pair verifies. *)
Theorem rogue_Common1 sha m h P x X S : HashG2 sha FqB m = Some h -> hok2 h -> tor1 P -> rcanon x -> rval x <> 0 -> g1pubs_PrivToPub FqB (Some x) = Some X -> jac1 P <> jac1 X ->
  g1pubs_Sign sha FqB m (Some x) = Some S -> tor1 (rogue1 X P) /\ g1pubs_VerifyAggregateCommon sha FqB S [P; rogue1 X P] m = Some true.
Proof.
  intros E Hh TP Cx Nx HX N HS. pose proof (honest_key1 x X Cx Nx HX) as KX. destruct (honest_sig1 sha m h x S E Hh Cx HS) as (_ & JS & TS).
  destruct (rogue_key1 P X (rval x) TP KX N) as (k & KP & KR). split; [exact (proj1 KR)|].
  assert (fold_right Z.add 0 [k; rval x - k] = rval x) as Q by (cbn [fold_right]; lia).
  destruct (VerifyCommon_iff1 sha m h [P; rogue1 X P] [k; rval x - k] S E Hh (Forall2_cons _ _ KP (Forall2_cons _ _ KR (Forall2_nil _))) ltac:(rewrite Q; exact (rkey_ndiv x Cx Nx)) (TS Nx)) as (b & -> & [_ Ib]).
  rewrite Q in Ib. rewrite (Ib JS). reflexivity.
Qed.
(** The same attack on VerifyAggregate needs one message twice, which the duplicate screening answers with false. *)
Theorem rogue_Aggregate1 sha m P R S : g1pubs_VerifyAggregate sha FqB S [P; R] [m; m] = Some false.
Proof. apply VerifyAggregate_screen1. right. left. intros H. inversion_clear H as [|? ? H' _]. apply H'. left. reflexivity. Qed.

(** * g2pubs *)
(** the key the attacker publishes: own key minus the victim's, made from public data only *)
Definition rogue2 (X P : Proj (FQ2 FQ)) : Proj (FQ2 FQ) := g2pubs_AggregatePublicKeys FqB [X; Proj_NegAssign FqO2 P].
Lemma rogue_key2 P X x : tor2 P -> key_of2 X x -> jac2 P <> jac2 X -> exists k, key_of2 P k /\ key_of2 (rogue2 X P) (x - k).
Proof.
  intros TP [TX EX] N. destruct (key_exists2 P TP) as (k & _ & KP & _). exists k. split; [exact KP|]. destruct KP as [_ EP].
  destruct (G2_neg P (proj1 TP)) as [CN EN]. assert (valid2 (Proj_NegAssign FqO2 P)) as VN by (split; [exact CN|rewrite EN; apply G2_on_neg; exact (proj1 (proj2 TP))]).
  assert (valid2 X) as VX by exact (Logic.conj (proj1 TX) (proj1 (proj2 TX))).
  destruct (agg2 [X; Proj_NegAssign FqO2 P] (Forall_cons _ VX (Forall_cons _ VN (Forall_nil _)))) as [[C _] J]. cbn [map sum2 fold_right] in J. rewrite plus2_0_r, EN, EP, EX in J.
  assert (neg2 (mul2 k gp2) = mul2 (- k) gp2) as NE by (symmetry; exact (pk_opp E2 k gp2 G2one_on)). rewrite NE, <- mul2_add in J by exact G2one_on.
  apply key_mult2; [exact C|exact J|]. intros D. apply N. rewrite EP, EX. assert (mul2 (x + - k) gp2 = Inf) as Z. { apply (proj2 (one2_mul (x + - k))). exact D. }
  replace x with (k + (x + - k)) by lia. rewrite mul2_add, Z, plus2_0_r by exact G2one_on. reflexivity.
Qed.
(** The attacker signs alone with x, publishes the rogue key beside the victim's, and the pair verifies. *)
Theorem rogue_Common2 sha m h P x X S : HashG1 sha FqB m = Some h -> hok1 h -> tor2 P -> rcanon x -> rval x <> 0 -> g2pubs_PrivToPub FqB (Some x) = Some X -> jac2 P <> jac2 X ->
  g2pubs_Sign sha FqB m (Some x) = Some S -> tor2 (rogue2 X P) /\ g2pubs_VerifyAggregateCommon sha FqB S [P; rogue2 X P] m = Some true.
Proof.
  intros E Hh TP Cx Nx HX N HS. pose proof (honest_key2 x X Cx Nx HX) as KX. destruct (honest_sig2 sha m h x S E Hh Cx HS) as (_ & JS & TS).
  destruct (rogue_key2 P X (rval x) TP KX N) as (k & KP & KR). split; [exact (proj1 KR)|].
  assert (fold_right Z.add 0 [k; rval x - k] = rval x) as Q by (cbn [fold_right]; lia).
  destruct (VerifyCommon_iff2 sha m h [P; rogue2 X P] [k; rval x - k] S E Hh (Forall2_cons _ _ KP (Forall2_cons _ _ KR (Forall2_nil _))) ltac:(rewrite Q; exact (rkey_ndiv x Cx Nx)) (TS Nx)) as (b & -> & [_ Ib]).
  rewrite Q in Ib. rewrite (Ib JS). reflexivity.
Qed.
(** The same attack on VerifyAggregate needs one message twice, which the duplicate screening answers with false. *)
Theorem rogue_Aggregate2 sha m P R S : g2pubs_VerifyAggregate sha FqB S [P; R] [m; m] = Some false.
Proof. apply VerifyAggregate_screen2. right. left. intros H. inversion_clear H as [|? ? H' _]. apply H'. left. reflexivity. Qed.

(** * g1pubs with a domain: no screening for duplicate messages *)
Theorem rogue_Aggregated sha (Sh : sha_ok sha) fuel dom m h P x X S : HashG2WithDomain_fuel sha FqB fuel m dom = Some h -> tor2 h -> tor1 P -> rcanon x -> rval x <> 0 -> g1pubs_PrivToPub FqB (Some x) = Some X -> jac1 P <> jac1 X ->
  g1pubs_SignWithDomain sha FqB fuel m (Some x) dom = Some S -> g1pubs_VerifyAggregateWithDomain sha FqB fuel S [P; rogue1 X P] [m; m] dom = Some true.
Proof.
  intros E Hh TP Cx Nx HX N HS. pose proof (honest_key1 x X Cx Nx HX) as KX. destruct (honest_sigd sha fuel dom m h x S E Hh Cx HS) as (_ & JS & TS).
  destruct (rogue_key1 P X (rval x) TP KX N) as (k & KP & KR). destruct (hfd_ok sha fuel dom m h E Hh) as (Eh & Th & Jh). set (h' := Affine_ToProjective FqO2 (G2_ToAffine FqO2 h)) in *.
  pose (l := [mkSigner1 P k m h'; mkSigner1 (rogue1 X P) (rval x - k) m h']).
  assert (Forall (signer_ok1 (hfd sha fuel dom)) l) as F by (constructor; [exact (Logic.conj KP (Logic.conj Eh Th))|constructor; [exact (Logic.conj KR (Logic.conj Eh Th))|constructor]]).
  destruct (VerifyAggregated_iff sha Sh fuel dom l S F (TS Nx)) as (b & Hb & [_ Ib]). cbn [map l s_pub1 s_msg1] in Hb. rewrite Hb. f_equal. apply Ib. rewrite JS. subst l. unfold expected1. cbn [sum2 fold_right map s_key1 s_hash1]. rewrite Jh.
  destruct Hh as (_ & Oh & _ & _). rewrite plus2_0_r, <- mul2_add by exact Oh. f_equal. lia.
Qed.
