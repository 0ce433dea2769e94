(** The protocol layer: aggregation, keys, screening, order independence. *)
Require Import ZArith Lia Bool List Permutation Znumtheory.
From Verif Require Import Words ModelRepr ReprProofs ReprProofs2 ModelFq ModelFr ModelOps ModelTower ModelCurve ModelPairing ModelHash ModelBls NumTheory Primality Fp FpOps FqProofs FqProofs2 FqRel FrProofs OpsRel OpsRel2 FqTransfer Ext TowerProofs TowerLimb Fld AbGrp EcGroup EcJac EcMul Curves CurveLimb CurveMisc Codec Miller PairBasic PairLimb GenFacts.
Import ListNotations.
Open Scope Z_scope.

(** * Sums of points *)

(** ** G1 *)
Definition valid1 (P : Proj FQ) : Prop := canonP1 P /\ on1 (jac1 P).
Definition sum1 (l : list (pt Fq)) : pt Fq := fold_right plus1 Inf l.
Lemma sum1_on l : Forall on1 l -> on1 (sum1 l).
Proof. induction 1 as [|x l Hx _ IH]; [exact I|]. apply G1_on_plus; assumption. Qed.
Lemma plus1_0_l P : plus1 Inf P = P. Proof. reflexivity. Qed.
Lemma plus1_0_r P : plus1 P Inf = P. Proof. destruct P; reflexivity. Qed.
Lemma sum1_app l l' : Forall on1 l -> Forall on1 l' -> sum1 (l ++ l') = plus1 (sum1 l) (sum1 l').
Proof.
  intros H H'. induction H as [|x l Hx Hl IH]; [reflexivity|]. cbn [app]. change (plus1 x (sum1 (l ++ l')) = plus1 (plus1 x (sum1 l)) (sum1 l')).
  rewrite IH. apply G1_assoc; auto using sum1_on.
Qed.
Lemma sum1_perm l l' : Forall on1 l -> Permutation l l' -> sum1 l = sum1 l'.
Proof.
  intros H P. induction P as [|x l l' P IH|x y l|l l1 l2 P1 IH1 P2 IH2].
  - reflexivity.
  - inversion H; subst. change (plus1 x (sum1 l) = plus1 x (sum1 l')). rewrite IH by assumption. reflexivity.
  - inversion H as [|? ? Hy H1]; subst. inversion H1 as [|? ? Hx H2]; subst. change (plus1 y (plus1 x (sum1 l)) = plus1 x (plus1 y (sum1 l))).
    pose proof (sum1_on l H2) as S. rewrite !G1_assoc, (G1_comm y x) by assumption. reflexivity.
  - rewrite IH1 by assumption. apply IH2. apply Forall_forall. intros z Hz. rewrite Forall_forall in H. apply H. eapply Permutation_in; [symmetry; exact P1|exact Hz].
Qed.
Lemma Forall_on1 l : Forall valid1 l -> Forall on1 (map jac1 l).
Proof. induction 1 as [|x l [_ Hx] _ IH]; [constructor|]. constructor; assumption. Qed.
Lemma agg1_acc l : forall a, valid1 a -> Forall valid1 l -> valid1 (fold_left (Add FqO) l a) /\ jac1 (fold_left (Add FqO) l a) = plus1 (jac1 a) (sum1 (map jac1 l)).
Proof.
  induction l as [|x l IH]; intros a Ha Hl; cbn [fold_left map]; [split; [exact Ha|symmetry; apply plus1_0_r]|].
  inversion Hl as [|? ? Hx Hl']; subst. destruct (G1_add a x (proj1 Ha) (proj1 Hx)) as [C E].
  assert (valid1 (Add FqO a x)) as V by (split; [exact C|rewrite E; apply G1_on_plus; [apply Ha|apply Hx]]).
  destruct (IH _ V Hl') as [V' E']. split; [exact V'|]. rewrite E', E. symmetry. apply G1_assoc; [apply Ha|apply Hx|apply sum1_on, Forall_on1, Hl'].
Qed.
Lemma zero1_valid : valid1 (ProjectiveZero FqO).
Proof. destruct G1_zero as [C E]. split; [exact C|]. rewrite E. exact I. Qed.
Lemma agg1 l : Forall valid1 l -> let s := fold_left (Add FqO) l (ProjectiveZero FqO) in valid1 s /\ jac1 s = sum1 (map jac1 l).
Proof.
  intros H. destruct (agg1_acc l _ zero1_valid H) as [V E]. split; [exact V|]. rewrite E, (proj2 G1_zero). reflexivity.
Qed.
Lemma agg1_perm l l' : Forall valid1 l -> Permutation l l' -> jac1 (fold_left (Add FqO) l (ProjectiveZero FqO)) = jac1 (fold_left (Add FqO) l' (ProjectiveZero FqO)).
Proof.
  intros H P. assert (Forall valid1 l') as H' by (apply Forall_forall; intros z Hz; rewrite Forall_forall in H; apply H; eapply Permutation_in; [symmetry; exact P|exact Hz]).
  rewrite (proj2 (agg1 l H)), (proj2 (agg1 l' H')). apply sum1_perm; [apply Forall_on1, H|apply Permutation_map, P].
Qed.
Lemma agg1_group ls : Forall (Forall valid1) ls ->
  jac1 (fold_left (Add FqO) (concat ls) (ProjectiveZero FqO)) = jac1 (fold_left (Add FqO) (map (fun l => fold_left (Add FqO) l (ProjectiveZero FqO)) ls) (ProjectiveZero FqO)).
Proof.
  intros H. assert (Forall valid1 (concat ls)) as Hc by (apply Forall_concat, H).
  assert (Forall valid1 (map (fun l => fold_left (Add FqO) l (ProjectiveZero FqO)) ls)) as Hm by (apply Forall_map, (Forall_impl _ (fun l Hl => proj1 (agg1 l Hl)) H)).
  rewrite (proj2 (agg1 _ Hc)), (proj2 (agg1 _ Hm)). clear Hc Hm. induction H as [|l ls Hl Hls IH]; [reflexivity|]. cbn [concat map].
  rewrite map_app, (sum1_app _ _ (Forall_on1 _ Hl) (Forall_on1 _ (proj2 (Forall_concat _ _) Hls))). rewrite IH, <- (proj2 (agg1 l Hl)). exact (eq_refl _).
Qed.
(** multiples of points of order r *)
Lemma mul1_mod P k : on1 P -> mul1 r P = Inf -> mul1 (k mod r) P = mul1 k P.
Proof. intros On T. exact (pk_mod E1 r k P On T). Qed.
Lemma mul1_add P a b : on1 P -> mul1 (a + b) P = plus1 (mul1 a P) (mul1 b P).
Proof. intros On. exact (pk_add E1 a b P On). Qed.
Lemma mul1_mul P a b : on1 P -> mul1 (a * b) P = mul1 a (mul1 b P).
Proof. intros On. exact (pk_mul E1 a b P On). Qed.
Lemma mul1_0 P : mul1 0 P = Inf. Proof. reflexivity. Qed.
Lemma mul1_inj0 P k : on1 P -> mul1 r P = Inf -> P <> Inf -> (mul1 k P = Inf <-> (r | k)).
Proof.
  intros On T N. pose (g := emk E1 P On : EC E1).
  assert (gm r g = gO) as T' by (apply ec_eq; rewrite epr_gm; exact T).
  assert (g <> gO) as N' by (intros Z; apply N; exact (f_equal (epr E1) Z)).
  split.
  - intros H. apply (gm_prime_order r k g prime_r T' N'). apply ec_eq. rewrite epr_gm. exact H.
  - intros H. pose proof (f_equal (epr E1) (gm_divide r k g T' H)) as Q. rewrite epr_gm in Q. exact Q.
Qed.
Lemma mul1_sum P ks : on1 P -> sum1 (map (fun k => mul1 k P) ks) = mul1 (fold_right Z.add 0 ks) P.
Proof. intros On. induction ks as [|k ks IH]; [reflexivity|]. cbn [map fold_right]. rewrite (mul1_add P k _ On), <- IH. reflexivity. Qed.
Definition smul1 (h : Affine FQ) (k : FR) : Proj FQ := Affine_MulFR FqO h (FR_ToRepr k).
Lemma smul1_val h k : canonA1 h -> on1 (aff1 h) -> rcanon k -> valid1 (smul1 h k) /\ jac1 (smul1 h k) = mul1 (rval k) (aff1 h).
Proof.
  intros C On [W _]. destruct (FR_ToRepr_spec k W) as [W' E]. destruct (G1_mulfr _ _ C On W') as [C' J]. unfold smul1. rewrite E in J.
  split; [split; [exact C'|rewrite J; apply G1_on_mul, On]|exact J].
Qed.
Lemma smul1_agg h ks k : canonA1 h -> on1 (aff1 h) -> mul1 r (aff1 h) = Inf -> Forall rcanon ks -> rcanon k -> rval k = fold_right Z.add 0 (map rval ks) mod r ->
  jac1 (fold_left (Add FqO) (map (smul1 h) ks) (ProjectiveZero FqO)) = jac1 (smul1 h k).
Proof.
  intros C On T H Hk E. assert (Forall valid1 (map (smul1 h) ks)) as V by (apply Forall_map, (Forall_impl _ (fun k Hk => proj1 (smul1_val h k C On Hk)) H)).
  rewrite (proj2 (agg1 _ V)), (proj2 (smul1_val h k C On Hk)), E, (mul1_mod _ _ On T), <- (mul1_sum _ _ On), !map_map. f_equal. apply map_ext_in. intros k' Hk'. rewrite Forall_forall in H. apply (smul1_val h k' C On (H k' Hk')).
Qed.
Lemma one1_mul k : mul1 k (aff1 (G1AffineOne FqB)) = Inf <-> (r | k).
Proof. apply mul1_inj0; [exact G1one_on|exact G1one_torsion|]. exact (fun Z => gen1_ne (ec_eq E1 gen1 (@gO (EC E1)) Z)). Qed.

(** ** G2 *)
Definition valid2 (P : Proj (FQ2 FQ)) : Prop := canonP2 P /\ on2 (jac2 P).
Definition sum2 (l : list (pt K2)) : pt K2 := fold_right plus2 Inf l.
Lemma sum2_on l : Forall on2 l -> on2 (sum2 l).
Proof. induction 1 as [|x l Hx _ IH]; [exact I|]. apply G2_on_plus; assumption. Qed.
Lemma plus2_0_l P : plus2 Inf P = P. Proof. reflexivity. Qed.
Lemma plus2_0_r P : plus2 P Inf = P. Proof. destruct P; reflexivity. Qed.
Lemma sum2_app l l' : Forall on2 l -> Forall on2 l' -> sum2 (l ++ l') = plus2 (sum2 l) (sum2 l').
Proof.
  intros H H'. induction H as [|x l Hx Hl IH]; [reflexivity|]. cbn [app]. change (plus2 x (sum2 (l ++ l')) = plus2 (plus2 x (sum2 l)) (sum2 l')).
  rewrite IH. apply G2_assoc; auto using sum2_on.
Qed.
Lemma sum2_perm l l' : Forall on2 l -> Permutation l l' -> sum2 l = sum2 l'.
Proof.
  intros H P. induction P as [|x l l' P IH|x y l|l l1 l2 P1 IH1 P2 IH2].
  - reflexivity.
  - inversion H; subst. change (plus2 x (sum2 l) = plus2 x (sum2 l')). rewrite IH by assumption. reflexivity.
  - inversion H as [|? ? Hy H1]; subst. inversion H1 as [|? ? Hx H2]; subst. change (plus2 y (plus2 x (sum2 l)) = plus2 x (plus2 y (sum2 l))).
    pose proof (sum2_on l H2) as S. rewrite !G2_assoc, (G2_comm y x) by assumption. reflexivity.
  - rewrite IH1 by assumption. apply IH2. apply Forall_forall. intros z Hz. rewrite Forall_forall in H. apply H. eapply Permutation_in; [symmetry; exact P1|exact Hz].
Qed.
Lemma Forall_on2 l : Forall valid2 l -> Forall on2 (map jac2 l).
Proof. induction 1 as [|x l [_ Hx] _ IH]; [constructor|]. constructor; assumption. Qed.
Lemma agg2_acc l : forall a, valid2 a -> Forall valid2 l -> valid2 (fold_left (Add FqO2) l a) /\ jac2 (fold_left (Add FqO2) l a) = plus2 (jac2 a) (sum2 (map jac2 l)).
Proof.
  induction l as [|x l IH]; intros a Ha Hl; cbn [fold_left map]; [split; [exact Ha|symmetry; apply plus2_0_r]|].
  inversion Hl as [|? ? Hx Hl']; subst. destruct (G2_add a x (proj1 Ha) (proj1 Hx)) as [C E].
  assert (valid2 (Add FqO2 a x)) as V by (split; [exact C|rewrite E; apply G2_on_plus; [apply Ha|apply Hx]]).
  destruct (IH _ V Hl') as [V' E']. split; [exact V'|]. rewrite E', E. symmetry. apply G2_assoc; [apply Ha|apply Hx|apply sum2_on, Forall_on2, Hl'].
Qed.
Lemma zero2_valid : valid2 (ProjectiveZero FqO2).
Proof. destruct G2_zero as [C E]. split; [exact C|]. rewrite E. exact I. Qed.
Lemma agg2 l : Forall valid2 l -> let s := fold_left (Add FqO2) l (ProjectiveZero FqO2) in valid2 s /\ jac2 s = sum2 (map jac2 l).
Proof.
  intros H. destruct (agg2_acc l _ zero2_valid H) as [V E]. split; [exact V|]. rewrite E, (proj2 G2_zero). reflexivity.
Qed.
Lemma agg2_perm l l' : Forall valid2 l -> Permutation l l' -> jac2 (fold_left (Add FqO2) l (ProjectiveZero FqO2)) = jac2 (fold_left (Add FqO2) l' (ProjectiveZero FqO2)).
Proof.
  intros H P. assert (Forall valid2 l') as H' by (apply Forall_forall; intros z Hz; rewrite Forall_forall in H; apply H; eapply Permutation_in; [symmetry; exact P|exact Hz]).
  rewrite (proj2 (agg2 l H)), (proj2 (agg2 l' H')). apply sum2_perm; [apply Forall_on2, H|apply Permutation_map, P].
Qed.
Lemma agg2_group ls : Forall (Forall valid2) ls ->
  jac2 (fold_left (Add FqO2) (concat ls) (ProjectiveZero FqO2)) = jac2 (fold_left (Add FqO2) (map (fun l => fold_left (Add FqO2) l (ProjectiveZero FqO2)) ls) (ProjectiveZero FqO2)).
Proof.
  intros H. assert (Forall valid2 (concat ls)) as Hc by (apply Forall_concat, H).
  assert (Forall valid2 (map (fun l => fold_left (Add FqO2) l (ProjectiveZero FqO2)) ls)) as Hm by (apply Forall_map, (Forall_impl _ (fun l Hl => proj1 (agg2 l Hl)) H)).
  rewrite (proj2 (agg2 _ Hc)), (proj2 (agg2 _ Hm)). clear Hc Hm. induction H as [|l ls Hl Hls IH]; [reflexivity|]. cbn [concat map].
  rewrite map_app, (sum2_app _ _ (Forall_on2 _ Hl) (Forall_on2 _ (proj2 (Forall_concat _ _) Hls))). rewrite IH, <- (proj2 (agg2 l Hl)). exact (eq_refl _).
Qed.
(** multiples of points of order r *)
Lemma mul2_mod P k : on2 P -> mul2 r P = Inf -> mul2 (k mod r) P = mul2 k P.
Proof. intros On T. exact (pk_mod E2 r k P On T). Qed.
Lemma mul2_add P a b : on2 P -> mul2 (a + b) P = plus2 (mul2 a P) (mul2 b P).
Proof. intros On. exact (pk_add E2 a b P On). Qed.
Lemma mul2_mul P a b : on2 P -> mul2 (a * b) P = mul2 a (mul2 b P).
Proof. intros On. exact (pk_mul E2 a b P On). Qed.
Lemma mul2_0 P : mul2 0 P = Inf. Proof. reflexivity. Qed.
Lemma mul2_inj0 P k : on2 P -> mul2 r P = Inf -> P <> Inf -> (mul2 k P = Inf <-> (r | k)).
Proof.
  intros On T N. pose (g := emk E2 P On : EC E2).
  assert (gm r g = gO) as T' by (apply ec_eq; rewrite epr_gm; exact T).
  assert (g <> gO) as N' by (intros Z; apply N; exact (f_equal (epr E2) Z)).
  split.
  - intros H. apply (gm_prime_order r k g prime_r T' N'). apply ec_eq. rewrite epr_gm. exact H.
  - intros H. pose proof (f_equal (epr E2) (gm_divide r k g T' H)) as Q. rewrite epr_gm in Q. exact Q.
Qed.
Lemma mul2_sum P ks : on2 P -> sum2 (map (fun k => mul2 k P) ks) = mul2 (fold_right Z.add 0 ks) P.
Proof. intros On. induction ks as [|k ks IH]; [reflexivity|]. cbn [map fold_right]. rewrite (mul2_add P k _ On), <- IH. reflexivity. Qed.
Definition smul2 (h : Affine (FQ2 FQ)) (k : FR) : Proj (FQ2 FQ) := Affine_MulFR FqO2 h (FR_ToRepr k).
Lemma smul2_val h k : canonA2 h -> on2 (aff2 h) -> rcanon k -> valid2 (smul2 h k) /\ jac2 (smul2 h k) = mul2 (rval k) (aff2 h).
Proof.
  intros C On [W _]. destruct (FR_ToRepr_spec k W) as [W' E]. destruct (G2_mulfr _ _ C On W') as [C' J]. unfold smul2. rewrite E in J.
  split; [split; [exact C'|rewrite J; apply G2_on_mul, On]|exact J].
Qed.
Lemma smul2_agg h ks k : canonA2 h -> on2 (aff2 h) -> mul2 r (aff2 h) = Inf -> Forall rcanon ks -> rcanon k -> rval k = fold_right Z.add 0 (map rval ks) mod r ->
  jac2 (fold_left (Add FqO2) (map (smul2 h) ks) (ProjectiveZero FqO2)) = jac2 (smul2 h k).
Proof.
  intros C On T H Hk E. assert (Forall valid2 (map (smul2 h) ks)) as V by (apply Forall_map, (Forall_impl _ (fun k Hk => proj1 (smul2_val h k C On Hk)) H)).
  rewrite (proj2 (agg2 _ V)), (proj2 (smul2_val h k C On Hk)), E, (mul2_mod _ _ On T), <- (mul2_sum _ _ On), !map_map. f_equal. apply map_ext_in. intros k' Hk'. rewrite Forall_forall in H. apply (smul2_val h k' C On (H k' Hk')).
Qed.
Lemma one2_mul k : mul2 k (aff2 (G2AffineOne FqB)) = Inf <-> (r | k).
Proof. apply mul2_inj0; [exact G2one_on|exact G2one_torsion|]. exact (fun Z => gen2_ne (ec_eq E2 gen2 (@gO (EC E2)) Z)). Qed.
