(** The curve code at the level of limbs, for G1 (FQ coordinates) and G2 (FQ2 coordinates). *)
Require Import ZArith Lia Bool List Znumtheory Ring Field.
From Verif Require Import Words ModelRepr ReprProofs ReprProofs2 ModelFq ModelOps ModelTower ModelCurve NumTheory Primality Fp FpOps FqProofs FqProofs2 FqInverse FqRel FqMisc OpsRel OpsRel2 FqTransfer Ext TowerProofs TowerLimb Fld AbGrp EcGroup EcJac EcMul Curves.
Import ListNotations.
Open Scope Z_scope.

Section Generic.
Context {F : Type} (O : Ops F) (E : Curve) (O' : Ops E) (R : F -> E -> Prop) (HR : RelO O O' R) (HO : OpsFld E O').
Context (v : F -> E) (cn : F -> Prop) (RV : forall a x, R a x <-> cn a /\ x = v a).
Context (bl : F) (Hb : R bl (cb E)).

Definition vP (P : Proj F) : Proj E := mkProj (v (px P)) (v (py P)) (v (pz P)).
Definition vA (P : Affine F) : Affine E := mkAff (v (ax P)) (v (ay P)) (ainf P).
Definition cnP (P : Proj F) : Prop := cn (px P) /\ cn (py P) /\ cn (pz P).
Definition cnA (P : Affine F) : Prop := cn (ax P) /\ cn (ay P).
(** the point represented *)
Definition jac (P : Proj F) : pt E := repj E (vP P).
Definition aff (P : Affine F) : pt E := repa E (vA P).

Lemma RP_v P x : RP R P x <-> cnP P /\ x = vP P.
Proof.
  unfold RP, cnP, vP. rewrite !RV. destruct x as [x y z]; cbn [px py pz]. split.
  - intros [[? ->] [[? ->] [? ->]]]. auto.
  - intros [[? [? ?]] X]. injection X as -> -> ->. auto.
Qed.
Lemma RA_v P x : RA R P x <-> cnA P /\ x = vA P.
Proof.
  unfold RA, cnA, vA. rewrite !RV. destruct x as [x y z]; cbn [ax ay ainf]. split.
  - intros [[? ->] [[? ->] ->]]. auto.
  - intros [[? ?] X]. injection X as -> -> ->. auto.
Qed.
Lemma RPi P : cnP P -> RP R P (vP P). Proof. intros. apply RP_v. auto. Qed.
Lemma RAi P : cnA P -> RA R P (vA P). Proof. intros. apply RA_v. auto. Qed.
Lemma outP a x p : RP R a x -> repj E x = p -> cnP a /\ jac a = p.
Proof. intros H <-. apply RP_v in H. destruct H as [H ->]. split; [exact H|reflexivity]. Qed.
Lemma outA a x p : RA R a x -> repa E x = p -> cnA a /\ aff a = p.
Proof. intros H <-. apply RA_v in H. destruct H as [H ->]. split; [exact H|reflexivity]. Qed.
Let H2 := c2_ne E.

Lemma l_double P : cnP P -> cnP (Double O P) /\ jac (Double O P) = pplus E (jac P) (jac P).
Proof. intros C. eapply outP; [exact (rel_Double O O' R HR _ _ (RPi P C))|apply repj_double; assumption]. Qed.
Lemma l_add P Q : cnP P -> cnP Q -> cnP (Add O P Q) /\ jac (Add O P Q) = pplus E (jac P) (jac Q).
Proof. intros C D. eapply outP; [exact (rel_Add O O' R HR _ _ _ _ (RPi P C) (RPi Q D))|apply repj_add; assumption]. Qed.
Lemma l_addaffine P Q : cnP P -> cnA Q -> cnP (AddAffine O P Q) /\ jac (AddAffine O P Q) = pplus E (jac P) (aff Q).
Proof. intros C D. eapply outP; [exact (rel_AddAffine O O' R HR _ _ _ _ (RPi P C) (RAi Q D))|apply repj_addaffine; assumption]. Qed.
Lemma l_zero : cnP (ProjectiveZero O) /\ jac (ProjectiveZero O) = Inf.
Proof. eapply outP; [exact (rel_ProjectiveZero O O' R HR)|apply repj_zero; assumption]. Qed.
Lemma l_azero : cnA (AffineZero O) /\ aff (AffineZero O) = Inf.
Proof. eapply outA; [exact (rel_AffineZero O O' R HR)|apply repa_zero]. Qed.
Lemma l_neg P : cnP P -> cnP (Proj_NegAssign O P) /\ jac (Proj_NegAssign O P) = pneg E (jac P).
Proof. intros C. eapply outP; [exact (rel_Proj_NegAssign O O' R HR _ _ (RPi P C))|apply repj_neg; assumption]. Qed.
Lemma l_aneg P : cnA P -> cnA (Affine_NegAssign O P) /\ aff (Affine_NegAssign O P) = pneg E (aff P).
Proof. intros C. eapply outA; [exact (rel_Affine_NegAssign O O' R HR _ _ (RAi P C))|apply repa_neg; assumption]. Qed.
Lemma l_toproj P : cnA P -> cnP (Affine_ToProjective O P) /\ jac (Affine_ToProjective O P) = aff P.
Proof. intros C. eapply outP; [exact (rel_Affine_ToProjective O O' R HR _ _ (RAi P C))|apply repj_aff; assumption]. Qed.
Lemma l_toaffine1 P : cnP P -> cnA (G1_ToAffine O P) /\ aff (G1_ToAffine O P) = jac P.
Proof. intros C. eapply outA; [exact (rel_G1_ToAffine O O' R HR _ _ (RPi P C))|apply repa_G1_ToAffine; assumption]. Qed.
Lemma l_toaffine2 P : cnP P -> cnA (G2_ToAffine O P) /\ aff (G2_ToAffine O P) = jac P.
Proof. intros C. eapply outA; [exact (rel_G2_ToAffine O O' R HR _ _ (RPi P C))|apply repa_G2_ToAffine; assumption]. Qed.
Lemma l_iszero P : cnP P -> (Proj_IsZero O P = true <-> jac P = Inf).
Proof. intros C. rewrite (rel_Proj_IsZero O O' R HR _ _ (RPi P C)). apply proj_iszero_iff; assumption. Qed.
Lemma l_equal P Q : cnP P -> cnP Q -> (Proj_Equal O P Q = true <-> jac P = jac Q).
Proof. intros C D. rewrite (rel_Proj_Equal O O' R HR _ _ _ _ (RPi P C) (RPi Q D)). apply repj_equal; assumption. Qed.
Lemma l_oncurve P : cnA P -> (IsOnCurve O bl P = true <-> on E (cb E) (aff P)).
Proof. intros C. rewrite (rel_IsOnCurve O O' R HR _ _ _ _ Hb (RAi P C)). apply repa_oncurve; assumption. Qed.
Lemma l_mul P n : cnA P -> on E (cb E) (aff P) -> wf6 n -> cnP (Affine_Mul O P n) /\ jac (Affine_Mul O P n) = pk E (eval6 n) (aff P).
Proof. intros C H W. eapply outP; [exact (rel_Affine_Mul O O' R HR _ _ n (RAi P C))|apply repj_mul; assumption]. Qed.
Lemma l_mulfr P n : cnA P -> on E (cb E) (aff P) -> wf4 n -> cnP (Affine_MulFR O P n) /\ jac (Affine_MulFR O P n) = pk E (eval4 n) (aff P).
Proof. intros C H W. eapply outP; [exact (rel_Affine_MulFR O O' R HR _ _ n (RAi P C))|apply repj_mulfr; assumption]. Qed.
Lemma l_mulbig P n : cnA P -> on E (cb E) (aff P) -> 0 <= n -> cnP (Affine_MulBig O P n) /\ jac (Affine_MulBig O P n) = pk E n (aff P).
Proof. intros C H W. eapply outP; [exact (rel_Affine_MulBig O O' R HR _ _ n (RAi P C))|apply repj_mulbig; assumption]. Qed.
Lemma l_pmul P n : cnP P -> on E (cb E) (jac P) -> wf6 n -> cnP (Proj_Mul O P n) /\ jac (Proj_Mul O P n) = pk E (eval6 n) (jac P).
Proof. intros C H W. eapply outP; [exact (rel_Proj_Mul O O' R HR _ _ n (RPi P C))|apply repj_pmul; assumption]. Qed.
Lemma l_pmulfr P n : cnP P -> on E (cb E) (jac P) -> wf4 n -> cnP (Proj_MulFR O P n) /\ jac (Proj_MulFR O P n) = pk E (eval4 n) (jac P).
Proof. intros C H W. eapply outP; [exact (rel_Proj_MulFR O O' R HR _ _ n (RPi P C))|apply repj_pmulfr; assumption]. Qed.

Context (vinj : forall a b, cn a -> cn b -> v a = v b -> a = b).
Lemma aff_inj P Q : cnA P -> cnA Q -> ainf P = false -> aff P = aff Q -> P = Q.
Proof.
  destruct P as [x y i], Q as [x' y' i']. intros [C1 C2] [D1 D2]. cbn [ax ay ainf] in *. intros ->. unfold aff, repa, vA. cbn [ax ay ainf].
  destruct i'; [discriminate|]. intros X. f_equal; apply vinj; auto; congruence.
Qed.
Lemma l_roundtrip1 P : cnA P -> ainf P = false -> G1_ToAffine O (Affine_ToProjective O P) = P.
Proof.
  intros C N. destruct (l_toproj P C) as [C' E']. destruct (l_toaffine1 _ C') as [C2 E2]. symmetry. apply aff_inj; auto. rewrite E2, E'. reflexivity.
Qed.
Lemma l_roundtrip2 P : cnA P -> ainf P = false -> G2_ToAffine O (Affine_ToProjective O P) = P.
Proof.
  intros C N. destruct (l_toproj P C) as [C' E']. destruct (l_toaffine2 _ C') as [C2 E2]. symmetry. apply aff_inj; auto. rewrite E2, E'. reflexivity.
Qed.
(** Affine equality tests *)
Lemma v_eq a b : cn a -> cn b -> (o_equals O a b = true <-> v a = v b).
Proof.
  intros C D. rewrite (ro_equals _ _ _ HR a (v a) b (v b)) by (apply RV; auto). rewrite (of_equals E O' HO). destruct (fDec (v a) (v b)); split; congruence.
Qed.
Lemma l_aequals1 P Q : cnA P -> cnA Q ->
  (G1Affine_Equals O P Q = true <-> ainf P = true /\ ainf Q = true \/ v (ax P) = v (ax Q) /\ v (ay P) = v (ay Q)).
Proof.
  intros [C1 C2] [D1 D2]. unfold G1Affine_Equals. rewrite orb_true_iff, !andb_true_iff, !v_eq by assumption. destruct (ainf P), (ainf Q); cbn; intuition congruence.
Qed.
Lemma l_aequals2 P Q : cnA P -> cnA Q ->
  (G2Affine_Equals O P Q = true <-> ainf P = ainf Q \/ v (ax P) = v (ax Q) /\ v (ay P) = v (ay Q)).
Proof.
  intros [C1 C2] [D1 D2]. unfold G2Affine_Equals. rewrite orb_true_iff, !andb_true_iff, !v_eq by assumption. destruct (ainf P), (ainf Q); cbn; intuition congruence.
Qed.
End Generic.

(** ** Instances *)
Definition jac1 (P : Proj FQ) : pt Fq := jac E1 fqval P.
Definition aff1 (P : Affine FQ) : pt Fq := aff E1 fqval P.
Definition jac2 (P : Proj (FQ2 FQ)) : pt K2 := jac E2 val2 P.
Definition aff2 (P : Affine (FQ2 FQ)) : pt K2 := aff E2 val2 P.
(** points of y^2 = x^3 + 4 and y^2 = x^3 + 4(1+u), their sum and their multiples *)
Definition on1 (P : pt Fq) : Prop := on FldQ b1 P.
Definition on2 (P : pt K2) : Prop := on FldQ2 b2 P.
Definition plus1 : pt Fq -> pt Fq -> pt Fq := pplus FldQ.
Definition plus2 : pt K2 -> pt K2 -> pt K2 := pplus FldQ2.
Definition neg1 : pt Fq -> pt Fq := pneg FldQ.
Definition neg2 : pt K2 -> pt K2 := pneg FldQ2.
Definition mul1 (k : Z) (P : pt Fq) : pt Fq := pk E1 k P.
Definition mul2 (k : Z) (P : pt K2) : pt K2 := pk E2 k P.
Definition FqO2 : Ops (FQ2 FQ) := FQ2O FqB.

Lemma HR1 : RelO FqO FpO RFq. Proof. exact (rb_ops _ _ _ RelB_Fq). Qed.
Lemma HR2 : RelO FqO2 (FQ2O FpB) (R2 RFq). Proof. exact (rel_FQ2O FqB FpB RFq). Qed.
Lemma Hb1 : RFq (BCoeff FqB) (cb E1).
Proof. pose proof (rel_BCoeff FqB FpB RFq) as H. rewrite BCoeff_val in H. exact H. Qed.
Lemma Hb2 : R2 RFq (BCoeffFQ2 FqB) (cb E2).
Proof. pose proof (rel_BCoeffFQ2 FqB FpB RFq) as H. rewrite BCoeffFQ2_val in H. exact H. Qed.
Lemma fqval_inj x y : canon x -> canon y -> fqval x = fqval y -> x = y.
Proof.
  intros Cx Cy X. apply fval_inj; try assumption. apply (f_equal zof) in X. unfold fqval, z2q in X. rewrite !zof_zp in X.
  rewrite !Z.mod_small in X by apply fval_bound. exact X.
Qed.
Lemma frChar_wf : wf4 frChar. Proof. apply wf4_intro; unfold isW; lia. Qed.
Lemma frChar_eval : eval4 frChar = r. Proof. reflexivity. Qed.
#[global] Opaque pk r.
Notation cn1A := canonA1. Notation cn1P := canonP1.
(** G1 *)
Definition G1_rel := RFq_iff.
Lemma g1_subgroup P : canonA1 P -> on1 (aff1 P) -> (G1_IsInCorrectSubgroupAssumingOnCurve FqB P = true <-> mul1 r (aff1 P) = Inf).
Proof.
  intros C H. unfold G1_IsInCorrectSubgroupAssumingOnCurve.
  destruct (l_mulfr FqO E1 FpO RFq HR1 FpO_ok fqval canon RFq_iff P frChar C H frChar_wf) as [C' E'].
  rewrite (l_iszero FqO E1 FpO RFq HR1 FpO_ok fqval canon RFq_iff _ C'). rewrite E', frChar_eval. unfold mul1, mul2, aff1, aff2. reflexivity.
Qed.
Lemma g2_subgroup P : canonA2 P -> on2 (aff2 P) -> (G2_IsInCorrectSubgroupAssumingOnCurve FqB P = true <-> mul2 r (aff2 P) = Inf).
Proof.
  intros C H. unfold G2_IsInCorrectSubgroupAssumingOnCurve.
  destruct (l_mulfr FqO2 E2 (FQ2O FpB) (R2 RFq) HR2 FpO2_ok val2 canon2 R2_val P frChar C H frChar_wf) as [C' E'].
  rewrite (l_iszero FqO2 E2 (FQ2O FpB) (R2 RFq) HR2 FpO2_ok val2 canon2 R2_val _ C'). rewrite E', frChar_eval. unfold mul1, mul2, aff1, aff2. reflexivity.
Qed.
Lemma g1_fromx x g : canon x ->
  ((forall s, fmul s s <> fadd (fmul (fmul (fqval x) (fqval x)) (fqval x)) b1) -> GetG1PointFromX FqB x g = None) /\
  ((exists s, fmul s s = fadd (fmul (fmul (fqval x) (fqval x)) (fqval x)) b1) ->
    exists y, GetG1PointFromX FqB x g = Some (mkAff x y false) /\ canon y /\ on1 (Pt (fqval x) (fqval y)) /\
      (fqval y <> f0 q -> (g = true <-> fval (FQ_NegAssign y) < fval y))).
Proof.
  intros C. assert (RFq x (fqval x)) as Rx by (apply RFq_iff; auto).
  pose proof (rel_GetG1PointFromX FqB FpB RFq _ _ g Rx) as H. unfold GetG1PointFromX in H at 2. rewrite BCoeff_val in H. change (b_ops FpB) with FpO in H.
  split; intros S.
  - assert (GetPointFromX FpO b1 (fqval x) g = None) as EN by exact (GetPointFromX_none FldQ FpO FpO_ok fq_lt FpO_ord b1 (fqval x) g S). rewrite EN in H. destruct (GetG1PointFromX FqB x g); [contradiction|reflexivity].
  - destruct (GetPointFromX_some FldQ FpO FpO_ok fq_lt FpO_ord b1 two_Q_ne (fqval x) g S) as (y' & Ey & Hy & Hg). assert (GetPointFromX FpO b1 (fqval x) g = Some (mkAff (fqval x) y' false)) as Ey' by exact Ey. rewrite Ey' in H. clear Ey.
    destruct (GetG1PointFromX FqB x g) as [[x1 y1 i]|] eqn:G; [|contradiction]. apply RA1_val in H. destruct H as [[Cx1 Cy1] H]. cbn [ax ay] in Cx1, Cy1.
    unfold valA1 in H. cbn [ax ay ainf] in H. pose proof (f_equal ax H) as Ex. pose proof (f_equal ay H) as Ey1. pose proof (f_equal ainf H) as Ei. cbn [ax ay ainf] in Ex, Ey1, Ei.
    exists y1. split; [|].
    + apply fqval_inj in Ex; [|assumption|assumption]. subst x1 i. reflexivity.
    + split; [exact Cy1|]. subst y'. split; [exact Hy|]. intros N. rewrite (Hg N). unfold fq_lt.
      assert (RFq y1 (fqval y1)) as Ry by (apply RFq_iff; auto). pose proof (ro_neg _ _ _ HR1 _ _ Ry) as Rn. cbn [FqO FpO o_neg] in Rn.
      destruct Rn as [_ Rn]. destruct Ry as [_ Ry]. change (@fN FldQ) with (@fopp q). rewrite Rn, Ry. reflexivity.
Qed.
Lemma g2_fromx_none (X : K2) g : (forall s, k2_mul s s <> k2_add (k2_mul (k2_mul X X) X) b2) -> GetG2PointFromX FpB X g = None.
Proof. intros S. unfold GetG2PointFromX. rewrite BCoeffFQ2_val. exact (GetPointFromX_none FldQ2 (FQ2O FpB) FpO2_ok k2_lt FpO2_ord b2 X g S). Qed.
Lemma g2_fromx_some (X : K2) g : (exists s, k2_mul s s = k2_add (k2_mul (k2_mul X X) X) b2) -> exists y, GetG2PointFromX FpB X g = Some (mkAff X y false) /\ on2 (Pt X y) /\ (y <> k2_0 -> (g = true <-> k2_lt (k2_opp y) y)).
Proof. intros S. unfold GetG2PointFromX. rewrite BCoeffFQ2_val. exact (GetPointFromX_some FldQ2 (FQ2O FpB) FpO2_ok k2_lt FpO2_ord b2 two_Q2_ne X g S). Qed.
Lemma g2_fromx x g : canon2 x ->
  ((forall s, k2_mul s s <> k2_add (k2_mul (k2_mul (val2 x) (val2 x)) (val2 x)) b2) -> GetG2PointFromX FqB x g = None) /\
  ((exists s, k2_mul s s = k2_add (k2_mul (k2_mul (val2 x) (val2 x)) (val2 x)) b2) ->
    exists y, GetG2PointFromX FqB x g = Some (mkAff x y false) /\ canon2 y /\ on2 (Pt (val2 x) (val2 y)) /\
      (val2 y <> k2_0 -> (g = true <-> k2_lt (k2_opp (val2 y)) (val2 y)))).
Proof.
  intros C. assert (R2 RFq x (val2 x)) as Rx by (apply R2_val; auto).
  pose proof (rel_GetG2PointFromX FqB FpB RFq _ _ g Rx) as H. 
  split; intros S.
  - rewrite (g2_fromx_none _ g S) in H. destruct (GetG2PointFromX FqB x g); [contradiction|reflexivity].
  - destruct (g2_fromx_some _ g S) as (y' & Ey & Hy & Hg). rewrite Ey in H.
    destruct (GetG2PointFromX FqB x g) as [[x1 y1 i]|]; [|contradiction]. apply RA2_val in H. destruct H as [[Cx1 Cy1] H]. 
    pose proof (f_equal ax H) as Ex. pose proof (f_equal ay H) as Ey1. pose proof (f_equal ainf H) as Ei. cbn [valA2 ax ay ainf] in Ex, Ey1, Ei, Cx1, Cy1.
    exists y1. apply val2_inj in Ex; [|assumption|assumption]. rewrite <- Ex, <- Ei. rewrite <- Ey1. split; [reflexivity|]. split; [exact Cy1|]. split; [exact Hy|exact Hg].
Qed.

(** ** The generic lemmas for the two groups *)
Lemma G1_double P : canonP1 P -> canonP1 (Double FqO P) /\ jac1 (Double FqO P) = plus1 (jac1 P) (jac1 P).
Proof. exact (l_double FqO E1 FpO RFq HR1 FpO_ok fqval canon RFq_iff P). Qed.
Lemma G1_add P Q : canonP1 P -> canonP1 Q -> canonP1 (Add FqO P Q) /\ jac1 (Add FqO P Q) = plus1 (jac1 P) (jac1 Q).
Proof. exact (l_add FqO E1 FpO RFq HR1 FpO_ok fqval canon RFq_iff P Q). Qed.
Lemma G1_addaffine P Q : canonP1 P -> canonA1 Q -> canonP1 (AddAffine FqO P Q) /\ jac1 (AddAffine FqO P Q) = plus1 (jac1 P) (aff1 Q).
Proof. exact (l_addaffine FqO E1 FpO RFq HR1 FpO_ok fqval canon RFq_iff P Q). Qed.
Lemma G1_zero : canonP1 (ProjectiveZero FqO) /\ jac1 (ProjectiveZero FqO) = Inf.
Proof. exact (l_zero FqO E1 FpO RFq HR1 FpO_ok fqval canon RFq_iff). Qed.
Lemma G1_azero : canonA1 (AffineZero FqO) /\ aff1 (AffineZero FqO) = Inf.
Proof. exact (l_azero FqO E1 FpO RFq HR1 fqval canon RFq_iff). Qed.
Lemma G1_neg P : canonP1 P -> canonP1 (Proj_NegAssign FqO P) /\ jac1 (Proj_NegAssign FqO P) = neg1 (jac1 P).
Proof. exact (l_neg FqO E1 FpO RFq HR1 FpO_ok fqval canon RFq_iff P). Qed.
Lemma G1_aneg P : canonA1 P -> canonA1 (Affine_NegAssign FqO P) /\ aff1 (Affine_NegAssign FqO P) = neg1 (aff1 P).
Proof. exact (l_aneg FqO E1 FpO RFq HR1 FpO_ok fqval canon RFq_iff P). Qed.
Lemma G1_toproj P : canonA1 P -> canonP1 (Affine_ToProjective FqO P) /\ jac1 (Affine_ToProjective FqO P) = aff1 P.
Proof. exact (l_toproj FqO E1 FpO RFq HR1 FpO_ok fqval canon RFq_iff P). Qed.
Lemma G1_toaffine P : canonP1 P -> canonA1 (G1_ToAffine FqO P) /\ aff1 (G1_ToAffine FqO P) = jac1 P.
Proof. exact (l_toaffine1 FqO E1 FpO RFq HR1 FpO_ok fqval canon RFq_iff P). Qed.
Lemma G1_iszero P : canonP1 P -> (Proj_IsZero FqO P = true <-> jac1 P = Inf).
Proof. exact (l_iszero FqO E1 FpO RFq HR1 FpO_ok fqval canon RFq_iff P). Qed.
Lemma G1_equal P Q : canonP1 P -> canonP1 Q -> (Proj_Equal FqO P Q = true <-> jac1 P = jac1 Q).
Proof. exact (l_equal FqO E1 FpO RFq HR1 FpO_ok fqval canon RFq_iff P Q). Qed.
Lemma G1_oncurve P : canonA1 P -> (G1_IsOnCurve FqB P = true <-> on1 (aff1 P)).
Proof. exact (l_oncurve FqO E1 FpO RFq HR1 FpO_ok fqval canon RFq_iff (BCoeff FqB) Hb1 P). Qed.
Lemma G1_mul P n : canonA1 P -> on1 (aff1 P) -> wf6 n -> canonP1 (Affine_Mul FqO P n) /\ jac1 (Affine_Mul FqO P n) = mul1 (eval6 n) (aff1 P).
Proof. exact (l_mul FqO E1 FpO RFq HR1 FpO_ok fqval canon RFq_iff P n). Qed.
Lemma G1_mulfr P n : canonA1 P -> on1 (aff1 P) -> wf4 n -> canonP1 (Affine_MulFR FqO P n) /\ jac1 (Affine_MulFR FqO P n) = mul1 (eval4 n) (aff1 P).
Proof. exact (l_mulfr FqO E1 FpO RFq HR1 FpO_ok fqval canon RFq_iff P n). Qed.
Lemma G1_mulbig P n : canonA1 P -> on1 (aff1 P) -> 0 <= n -> canonP1 (Affine_MulBig FqO P n) /\ jac1 (Affine_MulBig FqO P n) = mul1 n (aff1 P).
Proof. exact (l_mulbig FqO E1 FpO RFq HR1 FpO_ok fqval canon RFq_iff P n). Qed.
Lemma G1_pmul P n : canonP1 P -> on1 (jac1 P) -> wf6 n -> canonP1 (Proj_Mul FqO P n) /\ jac1 (Proj_Mul FqO P n) = mul1 (eval6 n) (jac1 P).
Proof. exact (l_pmul FqO E1 FpO RFq HR1 FpO_ok fqval canon RFq_iff P n). Qed.
Lemma G1_pmulfr P n : canonP1 P -> on1 (jac1 P) -> wf4 n -> canonP1 (Proj_MulFR FqO P n) /\ jac1 (Proj_MulFR FqO P n) = mul1 (eval4 n) (jac1 P).
Proof. exact (l_pmulfr FqO E1 FpO RFq HR1 FpO_ok fqval canon RFq_iff P n). Qed.
Lemma G1_aff_inj P Q : canonA1 P -> canonA1 Q -> ainf P = false -> aff1 P = aff1 Q -> P = Q.
Proof. exact (aff_inj E1 fqval canon fqval_inj P Q). Qed.
Lemma G1_roundtrip P : canonA1 P -> ainf P = false -> G1_ToAffine FqO (Affine_ToProjective FqO P) = P.
Proof. exact (l_roundtrip1 FqO E1 FpO RFq HR1 FpO_ok fqval canon RFq_iff fqval_inj P). Qed.
Lemma G1_on_plus P Q : on1 P -> on1 Q -> on1 (plus1 P Q).
Proof. exact (on_pplus FldQ b1 (c2_ne E1) P Q). Qed.
Lemma G1_on_neg P : on1 P -> on1 (neg1 P).
Proof. exact (on_pneg FldQ b1 P). Qed.
Lemma G1_on_mul k P : on1 P -> on1 (mul1 k P).
Proof. exact (on_pk E1 k P). Qed.
Lemma G1_assoc P Q S : on1 P -> on1 Q -> on1 S -> plus1 P (plus1 Q S) = plus1 (plus1 P Q) S.
Proof. exact (pplus_assoc FldQ b1 (c2_ne E1) (c3_ne E1) (cb_ne E1) P Q S). Qed.
Lemma G1_comm P Q : on1 P -> on1 Q -> plus1 P Q = plus1 Q P.
Proof. exact (pplus_comm FldQ b1 (c2_ne E1) (c3_ne E1) (cb_ne E1) P Q). Qed.
Lemma G1_plus_neg P : plus1 P (neg1 P) = Inf.
Proof. exact (pplus_neg_r FldQ (c2_ne E1) P). Qed.
Lemma G2_double P : canonP2 P -> canonP2 (Double FqO2 P) /\ jac2 (Double FqO2 P) = plus2 (jac2 P) (jac2 P).
Proof. exact (l_double FqO2 E2 (FQ2O FpB) (R2 RFq) HR2 FpO2_ok val2 canon2 R2_val P). Qed.
Lemma G2_add P Q : canonP2 P -> canonP2 Q -> canonP2 (Add FqO2 P Q) /\ jac2 (Add FqO2 P Q) = plus2 (jac2 P) (jac2 Q).
Proof. exact (l_add FqO2 E2 (FQ2O FpB) (R2 RFq) HR2 FpO2_ok val2 canon2 R2_val P Q). Qed.
Lemma G2_addaffine P Q : canonP2 P -> canonA2 Q -> canonP2 (AddAffine FqO2 P Q) /\ jac2 (AddAffine FqO2 P Q) = plus2 (jac2 P) (aff2 Q).
Proof. exact (l_addaffine FqO2 E2 (FQ2O FpB) (R2 RFq) HR2 FpO2_ok val2 canon2 R2_val P Q). Qed.
Lemma G2_zero : canonP2 (ProjectiveZero FqO2) /\ jac2 (ProjectiveZero FqO2) = Inf.
Proof. exact (l_zero FqO2 E2 (FQ2O FpB) (R2 RFq) HR2 FpO2_ok val2 canon2 R2_val). Qed.
Lemma G2_azero : canonA2 (AffineZero FqO2) /\ aff2 (AffineZero FqO2) = Inf.
Proof. exact (l_azero FqO2 E2 (FQ2O FpB) (R2 RFq) HR2 val2 canon2 R2_val). Qed.
Lemma G2_neg P : canonP2 P -> canonP2 (Proj_NegAssign FqO2 P) /\ jac2 (Proj_NegAssign FqO2 P) = neg2 (jac2 P).
Proof. exact (l_neg FqO2 E2 (FQ2O FpB) (R2 RFq) HR2 FpO2_ok val2 canon2 R2_val P). Qed.
Lemma G2_aneg P : canonA2 P -> canonA2 (Affine_NegAssign FqO2 P) /\ aff2 (Affine_NegAssign FqO2 P) = neg2 (aff2 P).
Proof. exact (l_aneg FqO2 E2 (FQ2O FpB) (R2 RFq) HR2 FpO2_ok val2 canon2 R2_val P). Qed.
Lemma G2_toproj P : canonA2 P -> canonP2 (Affine_ToProjective FqO2 P) /\ jac2 (Affine_ToProjective FqO2 P) = aff2 P.
Proof. exact (l_toproj FqO2 E2 (FQ2O FpB) (R2 RFq) HR2 FpO2_ok val2 canon2 R2_val P). Qed.
Lemma G2_toaffine P : canonP2 P -> canonA2 (G2_ToAffine FqO2 P) /\ aff2 (G2_ToAffine FqO2 P) = jac2 P.
Proof. exact (l_toaffine2 FqO2 E2 (FQ2O FpB) (R2 RFq) HR2 FpO2_ok val2 canon2 R2_val P). Qed.
Lemma G2_iszero P : canonP2 P -> (Proj_IsZero FqO2 P = true <-> jac2 P = Inf).
Proof. exact (l_iszero FqO2 E2 (FQ2O FpB) (R2 RFq) HR2 FpO2_ok val2 canon2 R2_val P). Qed.
Lemma G2_equal P Q : canonP2 P -> canonP2 Q -> (Proj_Equal FqO2 P Q = true <-> jac2 P = jac2 Q).
Proof. exact (l_equal FqO2 E2 (FQ2O FpB) (R2 RFq) HR2 FpO2_ok val2 canon2 R2_val P Q). Qed.
Lemma G2_oncurve P : canonA2 P -> (G2_IsOnCurve FqB P = true <-> on2 (aff2 P)).
Proof. exact (l_oncurve FqO2 E2 (FQ2O FpB) (R2 RFq) HR2 FpO2_ok val2 canon2 R2_val (BCoeffFQ2 FqB) Hb2 P). Qed.
Lemma G2_mul P n : canonA2 P -> on2 (aff2 P) -> wf6 n -> canonP2 (Affine_Mul FqO2 P n) /\ jac2 (Affine_Mul FqO2 P n) = mul2 (eval6 n) (aff2 P).
Proof. exact (l_mul FqO2 E2 (FQ2O FpB) (R2 RFq) HR2 FpO2_ok val2 canon2 R2_val P n). Qed.
Lemma G2_mulfr P n : canonA2 P -> on2 (aff2 P) -> wf4 n -> canonP2 (Affine_MulFR FqO2 P n) /\ jac2 (Affine_MulFR FqO2 P n) = mul2 (eval4 n) (aff2 P).
Proof. exact (l_mulfr FqO2 E2 (FQ2O FpB) (R2 RFq) HR2 FpO2_ok val2 canon2 R2_val P n). Qed.
Lemma G2_mulbig P n : canonA2 P -> on2 (aff2 P) -> 0 <= n -> canonP2 (Affine_MulBig FqO2 P n) /\ jac2 (Affine_MulBig FqO2 P n) = mul2 n (aff2 P).
Proof. exact (l_mulbig FqO2 E2 (FQ2O FpB) (R2 RFq) HR2 FpO2_ok val2 canon2 R2_val P n). Qed.
Lemma G2_pmul P n : canonP2 P -> on2 (jac2 P) -> wf6 n -> canonP2 (Proj_Mul FqO2 P n) /\ jac2 (Proj_Mul FqO2 P n) = mul2 (eval6 n) (jac2 P).
Proof. exact (l_pmul FqO2 E2 (FQ2O FpB) (R2 RFq) HR2 FpO2_ok val2 canon2 R2_val P n). Qed.
Lemma G2_pmulfr P n : canonP2 P -> on2 (jac2 P) -> wf4 n -> canonP2 (Proj_MulFR FqO2 P n) /\ jac2 (Proj_MulFR FqO2 P n) = mul2 (eval4 n) (jac2 P).
Proof. exact (l_pmulfr FqO2 E2 (FQ2O FpB) (R2 RFq) HR2 FpO2_ok val2 canon2 R2_val P n). Qed.
Lemma G2_aff_inj P Q : canonA2 P -> canonA2 Q -> ainf P = false -> aff2 P = aff2 Q -> P = Q.
Proof. exact (aff_inj E2 val2 canon2 val2_inj P Q). Qed.
Lemma G2_roundtrip P : canonA2 P -> ainf P = false -> G2_ToAffine FqO2 (Affine_ToProjective FqO2 P) = P.
Proof. exact (l_roundtrip2 FqO2 E2 (FQ2O FpB) (R2 RFq) HR2 FpO2_ok val2 canon2 R2_val val2_inj P). Qed.
Lemma G2_on_plus P Q : on2 P -> on2 Q -> on2 (plus2 P Q).
Proof. exact (on_pplus FldQ2 b2 (c2_ne E2) P Q). Qed.
Lemma G2_on_neg P : on2 P -> on2 (neg2 P).
Proof. exact (on_pneg FldQ2 b2 P). Qed.
Lemma G2_on_mul k P : on2 P -> on2 (mul2 k P).
Proof. exact (on_pk E2 k P). Qed.
Lemma G2_assoc P Q S : on2 P -> on2 Q -> on2 S -> plus2 P (plus2 Q S) = plus2 (plus2 P Q) S.
Proof. exact (pplus_assoc FldQ2 b2 (c2_ne E2) (c3_ne E2) (cb_ne E2) P Q S). Qed.
Lemma G2_comm P Q : on2 P -> on2 Q -> plus2 P Q = plus2 Q P.
Proof. exact (pplus_comm FldQ2 b2 (c2_ne E2) (c3_ne E2) (cb_ne E2) P Q). Qed.
Lemma G2_plus_neg P : plus2 P (neg2 P) = Inf.
Proof. exact (pplus_neg_r FldQ2 (c2_ne E2) P). Qed.
