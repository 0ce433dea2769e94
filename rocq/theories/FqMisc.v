(** Consequences of the FQ layer phrased on residues: reachable values, square roots, Legendre symbol, parity,
    and what MulBits / MulBytes really compute. *)
Require Import ZArith Lia Bool List Znumtheory Ring Field.
From Verif Require Import Words ModelRepr ReprProofs ReprProofs2 ModelFq ModelFr ModelOps NumTheory Primality FqProofs FqProofs2 FqInverse Fp FpOps FqRel FrProofs FrProofs2.
Import ListNotations.
Open Scope Z_scope.

(** z is a square modulo m *)
Definition square_mod (m z : Z) : Prop := exists s, (s * s) mod m = z mod m.

Lemma is_square_zof {m} (x : Fp m) : is_square fmul x <-> square_mod m (zof x).
Proof.
  split.
  - intros [y Hy]. exists (zof y). rewrite <- Hy. unfold fmul. rewrite zof_zp. rewrite Zmod_mod. reflexivity.
  - intros [s Hs]. exists (zp m s). apply Fp_eq. unfold fmul. rewrite !zof_zp, <- Zmult_mod, Hs. apply zof_mod.
Qed.
Lemma fqval_zof f : canon f -> zof (fqval f) = fval f.
Proof. intros C. apply (RFq_fqval f C). Qed.
Lemma frval_zof f : rcanon f -> zof (frval f) = rval f.
Proof. intros C. apply (RFr_frval f C). Qed.

Theorem FQ_Sqrt_spec f : canon f ->
  (square_mod q (fval f) -> exists s, FQ_Sqrt f = (s, true) /\ canon s /\ (fval s * fval s) mod q = fval f) /\
  (~ square_mod q (fval f) -> exists s, FQ_Sqrt f = (s, false)).
Proof.
  intros C. pose proof (RFq_fqval f C) as H. destruct (RFq_sqrt f _ H) as [H1 H2].
  rewrite <- (fqval_zof f C), <- is_square_zof.
  destruct (fq_sqrt_spec (fqval f)) as [S1 S2].
  destruct (FQ_Sqrt f) as [s b]. cbn [fst snd] in *. split; intros Sq.
  - destruct (S1 Sq) as (t & Et & Ht). rewrite Et in *. cbn [fst snd] in *. subst b.
    exists s. split; [reflexivity|]. destruct H1 as [Cs Es]. split; [exact Cs|].
    rewrite <- Es, <- Ht. unfold fmul. rewrite zof_zp. reflexivity.
  - rewrite (S2 Sq) in H2. cbn [snd] in H2. exists s. subst b. reflexivity.
Qed.

Theorem FQ_Legendre_spec f : canon f ->
  (fval f = 0 -> FQ_Legendre f = LegendreZero) /\
  (fval f <> 0 -> square_mod q (fval f) -> FQ_Legendre f = LegendreQuadraticResidue) /\
  (~ square_mod q (fval f) -> FQ_Legendre f = LegendreQuadraticNonResidue).
Proof.
  intros C. pose proof (RFq_fqval f C) as H. rewrite (RFq_legendre f _ H).
  rewrite <- (fqval_zof f C), <- is_square_zof, zof_0_iff. apply fq_legendre_spec.
Qed.
Theorem FR_Legendre_spec' f : rcanon f ->
  (rval f = 0 -> FR_Legendre f = LegendreZero) /\
  (rval f <> 0 -> square_mod r (rval f) -> FR_Legendre f = LegendreQuadraticResidue) /\
  (~ square_mod r (rval f) -> FR_Legendre f = LegendreQuadraticNonResidue).
Proof.
  intros C. pose proof (FR_Legendre_spec f C) as H. rewrite <- (frval_zof f C) at 3 4. rewrite <- is_square_zof. exact H.
Qed.

(** ** Every value obtainable through the FQ API is canonical *)
Inductive reachFQ : FQ -> Prop :=
| rqFrom n : wf6 n -> reachFQ (FQReprToFQ n)
| rqZero : reachFQ FQZero
| rqOne : reachFQ FQOne
| rqAdd f g : reachFQ f -> reachFQ g -> reachFQ (FQ_AddAssign f g)
| rqSub f g : reachFQ f -> reachFQ g -> reachFQ (FQ_SubAssign f g)
| rqMul f g : reachFQ f -> reachFQ g -> reachFQ (FQ_MulAssign f g)
| rqSquare f : reachFQ f -> reachFQ (FQ_SquareAssign f)
| rqDouble f : reachFQ f -> reachFQ (FQ_DoubleAssign f)
| rqNeg f : reachFQ f -> reachFQ (FQ_NegAssign f)
| rqExp f n : reachFQ f -> wf6 n -> reachFQ (FQ_Exp f n)
| rqInverse f : reachFQ f -> reachFQ (fst (FQ_Inverse f))
| rqSqrt f : reachFQ f -> reachFQ (fst (FQ_Sqrt f))
| rqDiv f g : reachFQ f -> reachFQ g -> reachFQ (FQ_DivAssign f g)
| rqMulBits f b : reachFQ f -> wf6 b -> reachFQ (FQ_MulBits f b)
| rqMulBytes f b : reachFQ f -> reachFQ (FQ_MulBytes f b)
| rqRand z : 0 <= z < q -> reachFQ (RandFQ z).

Lemma FQ_Inverse_canon f : canon f -> canon (fst (FQ_Inverse f)).
Proof.
  intros C. destruct (FQ_Inverse_spec f C) as [H0 H1]. destruct (Z.eq_dec (fval f) 0) as [E|E].
  - rewrite (H0 E). apply FQ_empty_canon.
  - destruct (H1 E) as (g & -> & Cg & _). exact Cg.
Qed.
Lemma FQ_DivAssign_spec f g : canon f -> canon g -> fval g <> 0 ->
  canon (FQ_DivAssign f g) /\ (fval (FQ_DivAssign f g) * fval g) mod q = fval f.
Proof.
  intros Cf Cg Hg. unfold FQ_DivAssign. destruct (FQ_Inverse_spec g Cg) as [_ H1]. destruct (H1 Hg) as (i & -> & Ci & Ei). cbn [fst].
  destruct (FQ_MulAssign_spec f i Cf Ci) as [C V]. split; [exact C|]. rewrite V, mod_mul_l, <- Z.mul_assoc, <- mod_mul_r, Ei, Z.mul_1_r.
  apply Z.mod_small, fval_bound.
Qed.

Definition rev_step (b : bool) (acc : Z) : Z := 2 * acc + (if b then 1 else 0).
(** bits 0, 1, ..., n-1 read most significant first *)
Definition rev_bits (bit : nat -> bool) (n : nat) : Z := fold_left (fun acc i => rev_step (bit i) acc) (seq 0 n) 0.

Lemma FQ_fold_bits f (bit : nat -> bool) l : canon f -> forall res acc, canon res -> fval res = (acc * fval f) mod q ->
  let x := fold_left (fun res i => let res := FQ_DoubleAssign res in if bit i then FQ_AddAssign res f else res) l res in
  canon x /\ fval x = (fold_left (fun acc i => rev_step (bit i) acc) l acc * fval f) mod q.
Proof.
  intros Cf. induction l as [|i l IH]; intros res acc Cr Er; cbn [fold_left]; [split; assumption|].
  destruct (FQ_DoubleAssign_spec res Cr) as [Cd Ed].
  apply IH.
  - destruct (bit i); [apply FQ_AddAssign_spec; assumption|assumption].
  - unfold rev_step. destruct (bit i).
    + destruct (FQ_AddAssign_spec (FQ_DoubleAssign res) f Cd Cf) as [_ ->]. rewrite Ed, Er.
      rewrite mod_mul_r. rewrite Z.add_mod_idemp_l by apply q_ne. f_equal. ring.
    + rewrite Ed, Er, mod_mul_r. f_equal. ring.
Qed.
Lemma fold_left_ext_in {A B} (f g : A -> B -> A) l : (forall a x, In x l -> f a x = g a x) -> forall a, fold_left f l a = fold_left g l a.
Proof.
  induction l as [|x l IH]; intros H a; cbn; [reflexivity|]. rewrite H by (left; reflexivity). apply IH. intros. apply H. right. assumption.
Qed.
Lemma FQRepr_BitLen_le b : wf6 b -> FQRepr_BitLen b <= 384.
Proof. intros H. rewrite FQRepr_BitLen_spec by assumption. pose proof (eval6_bound b H). apply bitlen_le; lia. Qed.

Lemma FQ_MulBits_value f b : canon f -> wf6 b ->
  canon (FQ_MulBits f b) /\
  fval (FQ_MulBits f b) = (rev_bits (fun i => Z.testbit (eval6 b) (Z.of_nat i)) (Z.to_nat (bitlen (eval6 b))) * fval f) mod q.
Proof.
  intros Cf Hb. unfold FQ_MulBits. pose proof (FQRepr_BitLen_le b Hb) as HL. rewrite (FQRepr_BitLen_spec b Hb) in *.
  rewrite (fold_left_ext_in _ (fun res i => let res := FQ_DoubleAssign res in if Z.testbit (eval6 b) (Z.of_nat i) then FQ_AddAssign res f else res)).
  - apply (FQ_fold_bits f (fun i => Z.testbit (eval6 b) (Z.of_nat i)) _ Cf FQZero 0); [apply FQZero_canon|].
    rewrite FQZero_fval. reflexivity.
  - intros a i Hi. apply in_seq in Hi. cbv zeta. rewrite (FQRepr_Bit_spec b _ Hb) by lia.
    assert (Z.of_nat i <? 384 = true) as -> by (apply Z.ltb_lt; lia). destruct (Z.testbit _ _); reflexivity.
Qed.
Lemma FQ_MulBytes_value f b : canon f ->
  canon (FQ_MulBytes f b) /\
  fval (FQ_MulBytes f b) = (rev_bits (fun i => negb (wand (nth (i / 8) b 0) (wshl 1 (Z.of_nat (i mod 8))) =? 0)) (length b * 8) * fval f) mod q.
Proof.
  intros Cf. unfold FQ_MulBytes.
  apply (FQ_fold_bits f (fun i => negb (wand (nth (i / 8) b 0) (wshl 1 (Z.of_nat (i mod 8))) =? 0)) _ Cf FQZero 0); [apply FQZero_canon|].
  rewrite FQZero_fval. reflexivity.
Qed.

Theorem reachFQ_canon f : reachFQ f -> canon f.
Proof.
  induction 1.
  - apply FQReprToFQ_canon; assumption.
  - apply FQZero_canon.
  - apply FQOne_canon.
  - apply FQ_AddAssign_spec; assumption.
  - apply FQ_SubAssign_spec; assumption.
  - apply FQ_MulAssign_spec; assumption.
  - apply FQ_SquareAssign_spec; assumption.
  - apply FQ_DoubleAssign_spec; assumption.
  - apply FQ_NegAssign_spec; assumption.
  - apply FQ_Exp_spec; assumption.
  - apply FQ_Inverse_canon; assumption.
  - apply (RFq_sqrt f _ (RFq_fqval f IHreachFQ)).
  - apply FQ_MulAssign_spec; [assumption|]. apply FQ_Inverse_canon; assumption.
  - apply FQ_MulBits_value; assumption.
  - apply FQ_MulBytes_value; assumption.
  - unfold RandFQ. pose proof q_bounds as Qb. apply FQReprToFQ_canon. apply FQRepr_const_spec. lia.
Qed.

(** Exactly one of f, -f has parity, unless f = 0. *)
Theorem FQ_Parity_neg f : canon f -> fval f <> 0 -> FQ_Parity (FQ_NegAssign f) = negb (FQ_Parity f).
Proof.
  intros C Hf. destruct (FQ_NegAssign_spec f C) as [Cn En]. pose proof (fval_bound f) as B.
  pose proof (FQ_Parity_spec f C) as P1. pose proof (FQ_Parity_spec _ Cn) as P2. rewrite En in P2.
  rewrite Z.mod_opp_l_nz, Z.mod_small in P2 by (try rewrite Z.mod_small; lia).
  assert (q mod 2 = 1) as Ho by (rewrite Zmod_odd, q_odd; reflexivity).
  assert (q <> 2 * fval f) as Hne by (intros X; rewrite X, Z.mul_comm, Z_mod_mult in Ho; discriminate).
  destruct (FQ_Parity f), (FQ_Parity (FQ_NegAssign f)); cbn; try reflexivity; exfalso.
  - assert (q < 2 * fval f) by (apply P1; reflexivity). assert (q < 2 * (q - fval f)) by (apply P2; reflexivity). lia.
  - assert (~ q < 2 * fval f) as A by (intros X; apply P1 in X; discriminate).
    assert (~ q < 2 * (q - fval f)) as A2 by (intros X; apply P2 in X; discriminate). lia.
Qed.

(** -1 is not a square modulo q (q = 3 mod 4). *)
Lemma neg1_nonsquare : ~ is_square fmul (fopp (f1 q)).
Proof.
  apply Fq_nonsquare_euler. assert ((q - 1) / 2 = 2 * ((q - 3) / 4) + 1) as E by (vm_compute; reflexivity).
  assert (0 <= (q - 3) / 4) as P by (vm_compute; discriminate). revert E P. generalize ((q - 3) / 4). intros k -> P.
  rewrite (zpow_double1 _ _ _ _ _ _ (Fp_ring q)) by lia.
  rewrite <- (zpow_mul_l _ _ _ _ _ _ (Fp_ring q)).
  transitivity (fmul (pwq (f1 q) k) (fopp (f1 q))).
  - apply (f_equal (fun z => fmul (pwq z k) (fopp (f1 q)))). ring.
  - rewrite (zpow_1_l _ _ _ _ _ _ (Fp_ring q)). ring.
Qed.
Lemma neg1_nonsquare_mod : ~ square_mod q (q - 1).
Proof.
  intros H. apply neg1_nonsquare, is_square_zof. assert (zof (fopp (f1 q)) = q - 1) as -> by (vm_compute; reflexivity). exact H.
Qed.
