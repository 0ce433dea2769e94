(** The Jacobian formulas of g1.go and g2.go compute the chord-and-tangent law. *)
Require Import ZArith Lia Bool List Ring Field Setoid Morphisms.
From Verif Require Import Words ModelRepr ModelOps ModelCurve Fp Fld EcGroup.
Import ListNotations.

Record OpsFld (K : Fld) (O : Ops K) : Prop := {
  of_zero : o_zero O = 0%F; of_one : o_one O = 1%F;
  of_add : forall x y, o_add O x y = (x + y)%F; of_sub : forall x y, o_sub O x y = (x - y)%F;
  of_mul : forall x y, o_mul O x y = (x * y)%F; of_sq : forall x, o_sq O x = (x * x)%F;
  of_dbl : forall x, o_dbl O x = (x + x)%F; of_neg : forall x, o_neg O x = (- x)%F;
  of_inv : forall x, x <> 0%F -> o_inv O x = (fV x, true);
  of_iszero : forall x, o_iszero O x = if fDec x 0%F then true else false;
  of_equals : forall x y, o_equals O x y = if fDec x y then true else false }.

Section Jac.
Context (K : Fld) (O : Ops K) (HO : OpsFld K O).
Add Field KF4 : (fTh K).
Open Scope fld_scope.
Hypothesis two_ne : two K <> 0.

(** the point represented by Jacobian and by affine coordinates *)
Definition repj (P : Proj K) : pt K :=
  if fDec (pz P) 0 then Inf else Pt (px P / (pz P * pz P)) (py P / (pz P * pz P * pz P)).
Definition repa (P : Affine K) : pt K := if ainf P then Inf else Pt (ax P) (ay P).

Ltac ops := rewrite ?(of_zero K O HO), ?(of_one K O HO), ?(of_add K O HO), ?(of_sub K O HO), ?(of_mul K O HO), ?(of_sq K O HO), ?(of_dbl K O HO), ?(of_neg K O HO).
Ltac nz := repeat match goal with |- _ /\ _ => split | |- _ * _ <> 0 => apply fld_mul_ne end; try assumption.
Ltac fdec := match goal with |- context [fDec ?x ?y] => destruct (fDec x y) as [?E|?N] end.
Ltac cdec := match goal with |- context [fDec ?x ?x] => destruct (fDec x x) as [_|?N]; [|congruence] | H : ?x <> ?y |- context [fDec ?x ?y] => destruct (fDec x y) as [?E|_]; [contradiction|] end.

Lemma repj_ext x y z x' y' : z <> 0 -> x = x' * (z * z) -> y = y' * (z * z * z) -> repj (mkProj x y z) = Pt x' y'.
Proof. intros N -> ->. unfold repj. cbn [px py pz]. destruct (fDec z 0) as [?|_]; [contradiction|]. f_equal; field; nz. Qed.
Lemma repj_inf x y : repj (mkProj x y 0) = Inf. Proof. unfold repj. cbn. destruct (fDec 0 0) as [_|N]; [reflexivity|congruence]. Qed.
Lemma repj_zero : repj (ProjectiveZero O) = Inf.
Proof. unfold ProjectiveZero. rewrite (of_zero K O HO). apply repj_inf. Qed.
Lemma repj_aff P : repj (Affine_ToProjective O P) = repa P.
Proof.
  unfold Affine_ToProjective, Affine_IsZero, repa. destruct (ainf P); [apply repj_zero|]. rewrite (of_one K O HO).
  apply repj_ext; [apply fld_1_ne_0|ring|ring].
Qed.
Lemma proj_iszero P : Proj_IsZero O P = if fDec (pz P) 0 then true else false. Proof. apply (of_iszero K O HO). Qed.
Lemma proj_iszero_iff P : Proj_IsZero O P = true <-> repj P = Inf.
Proof. rewrite proj_iszero. unfold repj. destruct (fDec (pz P) 0); split; congruence. Qed.

Lemma repj_double P : repj (Double O P) = pplus K (repj P) (repj P).
Proof.
  unfold Double. rewrite proj_iszero. destruct P as [x y z]. cbn [px py pz]. destruct (fDec z 0) as [->|NZ]; [rewrite repj_inf; reflexivity|].
  cbv zeta. ops.
  unfold repj at 2 3. cbn [px py pz]. destruct (fDec z 0) as [?|_]; [contradiction|].
  cbn [pplus]. destruct (fDec (x / (z * z)) (x / (z * z))) as [_|N]; [|congruence].
  destruct (fDec (y / (z * z * z)) (y / (z * z * z))) as [_|N]; [|congruence].
  assert (y / (z * z * z) = 0 <-> y = 0) as Y0.
  { split; intros E; [|rewrite E; field; nz]. transitivity (y / (z * z * z) * (z * z * z)); [field; nz|rewrite E; ring]. }
  destruct (fDec (y / (z * z * z)) 0) as [E|NY].
  - apply Y0 in E. subst y. replace (z * 0 + z * 0) with (0 : K) by ring. apply repj_inf.
  - assert (y <> 0) as NY' by (rewrite <- Y0; exact NY).
    assert (z * y + z * y <> 0) as N2 by (replace (z * y + z * y) with (two K * (z * y)) by (unfold two; ring); nz).
    unfold chord. apply repj_ext; [exact N2| |]; unfold three, two; field; repeat split; try assumption; fold (two K); nz.
Qed.

Lemma repj_add P Q : repj (Add O P Q) = pplus K (repj P) (repj Q).
Proof.
  unfold Add. rewrite !proj_iszero. destruct P as [x1 y1 z1], Q as [x2 y2 z2]. cbn [px py pz].
  destruct (fDec z1 0) as [->|N1]; [rewrite repj_inf; reflexivity|].
  destruct (fDec z2 0) as [->|N2]; [rewrite repj_inf; destruct (repj _); reflexivity|].
  cbv zeta. ops. rewrite !(of_equals K O HO).
  assert (forall a c, a / (z1 * z1) = c / (z2 * z2) <-> a * (z2 * z2) = c * (z1 * z1)) as EX.
  { intros a c. split; intros E.
    - transitivity (a / (z1 * z1) * (z1 * z1 * z2 * z2)); [field; nz|rewrite E; field; nz].
    - transitivity (a * (z2 * z2) / (z1 * z1 * z2 * z2)); [field; nz|rewrite E; field; nz]. }
  assert (y1 / (z1 * z1 * z1) = y2 / (z2 * z2 * z2) <-> y1 * z2 * (z2 * z2) = y2 * z1 * (z1 * z1)) as EY.
  { split; intros E.
    - transitivity (y1 / (z1 * z1 * z1) * (z1 * z1 * z1 * z2 * z2 * z2)); [field; nz|rewrite E; field; nz].
    - transitivity (y1 * z2 * (z2 * z2) / (z1 * z1 * z1 * z2 * z2 * z2)); [field; nz|rewrite E; field; nz]. }
  destruct (fDec (x1 * (z2 * z2)) (x2 * (z1 * z1))) as [Ex|Nx]; [destruct (fDec (y1 * z2 * (z2 * z2)) (y2 * z1 * (z1 * z1))) as [Ey|Ny]|]; cbn [andb].
  - rewrite repj_double. f_equal. unfold repj. cbn [px py pz]. destruct (fDec z1 0) as [?|_]; [contradiction|]. destruct (fDec z2 0) as [?|_]; [contradiction|].
    f_equal; [apply EX, Ex|apply EY, Ey].
  - replace (((z1 + z2) * (z1 + z2) - z1 * z1 - z2 * z2) * (x2 * (z1 * z1) - x1 * (z2 * z2))) with (0 : K) by (rewrite Ex; ring).
    rewrite repj_inf. unfold repj. cbn [px py pz]. destruct (fDec z1 0) as [?|_]; [contradiction|]. destruct (fDec z2 0) as [?|_]; [contradiction|].
    cbn [pplus]. apply EX in Ex. destruct (fDec (x1 / (z1 * z1)) (x2 / (z2 * z2))) as [_|?]; [|contradiction].
    destruct (fDec (y1 / (z1 * z1 * z1)) (y2 / (z2 * z2 * z2))) as [E|_]; [|reflexivity]. apply EY in E. contradiction.
  - unfold repj at 2 3. cbn [px py pz]. destruct (fDec z1 0) as [?|_]; [contradiction|]. destruct (fDec z2 0) as [?|_]; [contradiction|].
    cbn [pplus]. destruct (fDec (x1 / (z1 * z1)) (x2 / (z2 * z2))) as [E|_]; [apply EX in E; contradiction|].
    assert (x2 * (z1 * z1) - x1 * (z2 * z2) <> 0) as NH by (apply fld_sub_ne; auto).
    unfold chord. apply repj_ext.
    + replace ((z1 + z2) * (z1 + z2) - z1 * z1 - z2 * z2) with (two K * (z1 * z2)) by (unfold two; ring). nz.
    + field. repeat split; nz.
    + field. repeat split; nz.
Qed.
Lemma repj_addaffine P Q : repj (AddAffine O P Q) = pplus K (repj P) (repa Q).
Proof.
  unfold AddAffine. rewrite proj_iszero. destruct P as [x1 y1 z1], Q as [x2 y2 i]. cbn [px py pz ax ay].
  destruct (fDec z1 0) as [->|N1]; [rewrite repj_inf, repj_aff; reflexivity|].
  unfold Affine_IsZero. cbn [ainf]. destruct i; [unfold repa; cbn [ainf]; destruct (repj _); reflexivity|].
  cbv zeta. ops. rewrite !(of_equals K O HO). unfold repa. cbn [ax ay ainf].
  assert (x1 / (z1 * z1) = x2 <-> x1 = x2 * (z1 * z1)) as EX.
  { split; intros E; [rewrite <- E; field; nz|rewrite E; field; nz]. }
  assert (y1 / (z1 * z1 * z1) = y2 <-> y1 = y2 * z1 * (z1 * z1)) as EY.
  { split; intros E; [rewrite <- E; field; nz|rewrite E; field; nz]. }
  destruct (fDec x1 (x2 * (z1 * z1))) as [Ex|Nx]; [destruct (fDec y1 (y2 * z1 * (z1 * z1))) as [Ey|Ny]|]; cbn [andb].
  - rewrite repj_double. f_equal. unfold repj. cbn [px py pz]. destruct (fDec z1 0) as [?|_]; [contradiction|].
    f_equal; [apply EX, Ex|apply EY, Ey].
  - replace ((z1 + (x2 * (z1 * z1) - x1)) * (z1 + (x2 * (z1 * z1) - x1)) - z1 * z1 - (x2 * (z1 * z1) - x1) * (x2 * (z1 * z1) - x1)) with (0 : K) by (rewrite Ex; ring).
    rewrite repj_inf. unfold repj. cbn [px py pz]. destruct (fDec z1 0) as [?|_]; [contradiction|].
    cbn [pplus]. apply EX in Ex. destruct (fDec (x1 / (z1 * z1)) x2) as [_|?]; [|contradiction].
    destruct (fDec (y1 / (z1 * z1 * z1)) y2) as [E|_]; [|reflexivity]. apply EY in E. contradiction.
  - unfold repj at 2. cbn [px py pz]. destruct (fDec z1 0) as [?|_]; [contradiction|].
    cbn [pplus]. destruct (fDec (x1 / (z1 * z1)) x2) as [E|_]; [apply EX in E; contradiction|].
    assert (x2 * (z1 * z1) - x1 <> 0) as NH by (apply fld_sub_ne; auto).
    unfold chord. apply repj_ext.
    + replace ((z1 + (x2 * (z1 * z1) - x1)) * (z1 + (x2 * (z1 * z1) - x1)) - z1 * z1 - (x2 * (z1 * z1) - x1) * (x2 * (z1 * z1) - x1)) with (two K * (z1 * (x2 * (z1 * z1) - x1))) by (unfold two; ring). nz.
    + field. repeat split; nz.
    + field. repeat split; nz.
Qed.
Lemma repj_neg P : repj (Proj_NegAssign O P) = pneg K (repj P).
Proof. unfold Proj_NegAssign, repj. ops. cbn [px py pz]. destruct (fDec (pz P) 0); cbn; [reflexivity|]. f_equal. field. nz. Qed.
Lemma repa_neg P : repa (Affine_NegAssign O P) = pneg K (repa P).
Proof. unfold Affine_NegAssign, Affine_IsZero, repa. destruct P as [x y []]; cbn; [reflexivity|]. ops. reflexivity. Qed.
Lemma repa_zero : repa (AffineZero O) = Inf. Proof. reflexivity. Qed.
Lemma repa_div P : pz P <> 0 -> repa (ToAffine_div O P) = repj P.
Proof.
  intros N. unfold ToAffine_div, repa, repj. rewrite (of_inv K O HO) by exact N. cbn [fst NewAffine ainf ax ay]. ops. destruct (fDec (pz P) 0) as [?|_]; [contradiction|]. f_equal; field; nz.
Qed.
Lemma repa_G1_ToAffine P : repa (G1_ToAffine O P) = repj P.
Proof.
  unfold G1_ToAffine. rewrite proj_iszero, (of_iszero K O HO). destruct (fDec (pz P) 0) as [E|N]; [|apply repa_div, N].
  unfold repj. destruct (fDec (pz P) 0); [reflexivity|contradiction].
Qed.
Lemma repa_G2_ToAffine P : repa (G2_ToAffine O P) = repj P.
Proof.
  unfold G2_ToAffine. rewrite proj_iszero, (of_equals K O HO), (of_one K O HO). destruct (fDec (pz P) 0) as [E|N].
  - unfold repj. destruct (fDec (pz P) 0); [reflexivity|contradiction].
  - destruct (fDec (pz P) 1) as [E1|N1]; [|apply repa_div, N]. unfold repj, repa. cbn [NewAffine ainf ax ay]. destruct (fDec (pz P) 0) as [?|_]; [contradiction|].
    rewrite E1. f_equal; field; apply fld_1_ne_0.
Qed.
Lemma repj_equal P Q : Proj_Equal O P Q = true <-> repj P = repj Q.
Proof.
  unfold Proj_Equal. rewrite !proj_iszero. destruct P as [x1 y1 z1], Q as [x2 y2 z2]. cbn [px py pz].
  unfold repj. cbn [px py pz].
  destruct (fDec z1 0) as [->|N1], (fDec z2 0) as [->|N2]; try (split; congruence).
  cbv zeta. ops. rewrite !(of_equals K O HO).
  destruct (fDec (x1 * (z2 * z2)) (x2 * (z1 * z1))) as [Ex|Nx]; cbn [negb].
  - assert (x1 / (z1 * z1) = x2 / (z2 * z2)) as -> by (transitivity (x1 * (z2 * z2) / (z1 * z1 * z2 * z2)); [field; nz|rewrite Ex; field; nz]).
    destruct (fDec (z1 * z1 * z1 * y2) (z2 * z2 * z2 * y1)) as [Ey|Ny].
    + split; [intros _|reflexivity]. f_equal. transitivity (z2 * z2 * z2 * y1 / (z1 * z1 * z1 * z2 * z2 * z2)); [field; nz|rewrite <- Ey; field; nz].
    + split; [discriminate|]. intros E. exfalso. apply Ny. injection E as E.
      transitivity (y2 / (z2 * z2 * z2) * (z1 * z1 * z1 * z2 * z2 * z2)); [field; nz|rewrite <- E; field; nz].
  - split; [discriminate|]. intros E. exfalso. apply Nx. injection E as E _.
    transitivity (x1 / (z1 * z1) * (z1 * z1 * z2 * z2)); [field; nz|rewrite E; field; nz].
Qed.
Lemma repa_oncurve b P : IsOnCurve O b P = true <-> on K b (repa P).
Proof.
  unfold IsOnCurve, repa. destruct P as [x y []]; cbn [ainf ax ay on]; [split; auto|]. ops. rewrite (of_equals K O HO).
  destruct (fDec (y * y) (x * x * x + b)); split; try congruence; auto.
Qed.
End Jac.

(** Square roots and the order used for the sign of y *)
Record OpsOrd (K : Fld) (O : Ops K) (lt : K -> K -> Prop) : Prop := {
  oo_asym : forall x y, lt x y -> ~ lt y x;
  oo_cmp : forall x y, o_cmp O x y = (-1)%Z /\ lt x y \/ o_cmp O x y = 0%Z /\ x = y \/ o_cmp O x y = 1%Z /\ lt y x;
  oo_sqrt_some : forall x s, (s * s = x)%F -> exists t, o_sqrt O x = (t, true) /\ (t * t = x)%F;
  oo_sqrt_none : forall x, (forall s, (s * s <> x)%F) -> snd (o_sqrt O x) = false;
  oo_dec : forall x : K, (exists s : K, (s * s = x)%F) \/ (forall s : K, (s * s <> x)%F) }.

Section PointFromX.
Context (K : Fld) (O : Ops K) (HO : OpsFld K O) (lt : K -> K -> Prop) (HL : OpsOrd K O lt) (b : K).
Add Field KF5 : (fTh K).
Hypothesis two_ne : two K <> 0%F.
Lemma opp_eq_0 (y : K) : y = (- y)%F -> y = 0%F.
Proof.
  intros E. assert (two K * y = 0)%F as Z by (transitivity (y - - y)%F; [unfold two; ring|rewrite <- E; ring]). destruct (fld_integral K _ _ Z); [contradiction|assumption].
Qed.
Theorem GetPointFromX_some x g : (exists s : K, s * s = x * x * x + b)%F ->
  exists y, GetPointFromX O b x g = Some (mkAff x y false) /\ (y * y = x * x * x + b)%F /\ (y <> 0%F -> (g = true <-> lt (- y)%F y)).
Proof.
  intros [s Hs]. unfold GetPointFromX. rewrite !(of_add K O HO), !(of_mul K O HO), !(of_sq K O HO).
  destruct (oo_sqrt_some K O lt HL _ _ Hs) as (t & -> & Ht). cbn [negb]. rewrite (of_neg K O HO).
  exists (if negb (eqb (o_cmp O t (- t)%F <? 0)%Z g) then t else (- t)%F). split; [reflexivity|].
  assert (- t * - t = x * x * x + b)%F as Hn by (rewrite <- Ht; ring). split; [destruct (negb _); assumption|].
  assert (- - t = t)%F as NN by ring.
  destruct (oo_cmp K O lt HL t (- t)%F) as [[-> L]|[[-> E]|[-> L]]]; cbn [Z.ltb Z.compare Pos.compare Pos.compare_cont].
  - pose proof (oo_asym K O lt HL _ _ L). destruct g; cbn [eqb negb]; intros _; rewrite ?NN; split; auto; congruence.
  - apply opp_eq_0 in E. subst t. intros N. exfalso. apply N. destruct (negb _); ring.
  - pose proof (oo_asym K O lt HL _ _ L). destruct g; cbn [eqb negb]; intros _; rewrite ?NN; split; auto; try congruence; try contradiction.
Qed.
Theorem GetPointFromX_none x g : (forall s : K, s * s <> x * x * x + b)%F -> GetPointFromX O b x g = None.
Proof.
  intros N. unfold GetPointFromX. rewrite !(of_add K O HO), !(of_mul K O HO), !(of_sq K O HO).
  pose proof (oo_sqrt_none K O lt HL _ N) as E. destruct (o_sqrt O _) as [y s]. cbn [snd] in E. subst s. reflexivity.
Qed.
(** The point is determined by x and the flag. *)
Lemma GetPointFromX_of x y : (y * y = x * x * x + b)%F -> y <> 0%F -> forall g, (g = true <-> lt (- y)%F y) -> GetPointFromX O b x g = Some (mkAff x y false).
Proof.
  intros H N g Hg. destruct (GetPointFromX_some x g) as (y' & E & H' & Hg'); [exists y; exact H|].
  rewrite E. do 2 f_equal. destruct (fld_sq_eq K y' y) as [Y|Y]; [congruence|exact Y|].
  assert (y' <> 0)%F as N' by (rewrite Y; apply fld_opp_ne, N). specialize (Hg' N'). rewrite Y in Hg'. replace (- - y)%F with y in Hg' by ring.
  exfalso. assert (lt (- y)%F y <-> lt y (- y)%F) as X by (rewrite <- Hg; exact Hg').
  destruct (oo_cmp K O lt HL y (- y)%F) as [[_ L]|[[_ L]|[_ L]]].
  - apply (oo_asym K O lt HL _ _ L). apply X, L.
  - apply N, opp_eq_0, L.
  - apply (oo_asym K O lt HL _ _ L). apply X, L.
Qed.
End PointFromX.
