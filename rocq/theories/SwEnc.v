(** SWEncodeG2 (g2.go:836-881), HashG2WithDomain (g2.go:1041-1089), RandG1 and RandG2. *)
Require Import ZArith Lia Bool List Ring Field.
From Verif Require Import Words ModelRepr ReprProofs ReprProofs2 ModelFq ModelOps ModelTower ModelCurve ModelHash NumTheory Primality FqProofs FqProofs2 FqRel Fp FpOps FqMisc OpsRel OpsRel2 FqTransfer Ext TowerProofs TowerLimb Fld EcGroup AbGrp EcMul EcJac Curves CurveLimb CurveMisc BlsProofs Torsion UNat UInst PolyEval IsoProofs SwuProofs ClearCof CountFacts HashProofs.
Import CurveLimb ListNotations.
Open Scope Z_scope.

(** ** The three candidate x-coordinates: the product of their right-hand sides is a square *)
Section SwAlg.
Context (K : Fld).
Add Field KFs : (fTh K).
Open Scope fld_scope.
Context (T3 : K) (ET : T3 = (1 + 1 + 1)%F).
(** w is a primitive cube root of unity, so 2w + 1 is a square root of -3 *)
Lemma sw_prod12 (w b t D : K) : w * w = - w - 1 -> D = t * t + b + 1 -> let T := t * t in let v := - ((w + w + 1) * T) + w * D in
  (v * v * v + b * (D * D * D)) * (b * (D * D * D) - (D + v) * (D + v) * (D + v)) =
  - ((1 + b) * (1 + b) * ((T3 * T - D * D) * (T3 * T - D * D) * (T3 * T - D * D) + T3 * T3 * T3 * b * (T * T * T))).
Proof. intros H ->. cbv zeta. rewrite ET. ring [H]. Qed.
Lemma sw_square (w b t D u : K) : w * w = - w - 1 -> D = t * t + b + 1 -> D <> 0 -> t <> 0 -> T3 <> 0 -> u = fV D * (w + w + 1) * t ->
  let x1 := - (u * t) + w in let x2 := - x1 - 1 in let x3 := fV (u * u) + 1 in
  exists z, z * z = (x1 * x1 * x1 + b) * (x2 * x2 * x2 + b) * (x3 * x3 * x3 + b).
Proof.
  intros H ED ND Nt N3 Eu x1 x2 x3. set (s := w + w + 1) in *. assert (s * s = - T3) as Hs by (rewrite ET; unfold s; ring [H]).
  assert (s <> 0) as Ns by (intros Z; apply N3; transitivity (- (s * s)); [rewrite Hs; ring|rewrite Z; ring]).
  assert (- T3 <> 0) as N3' by (apply fld_opp_ne; exact N3).
  set (N := (T3 * (t * t) - D * D) * (T3 * (t * t) - D * D) * (T3 * (t * t) - D * D) + T3 * T3 * T3 * b * (t * t * (t * t) * (t * t))).
  exists ((1 + b) * N * fV (T3 * s * (t * t * t) * (D * D * D))).
  assert (x3 = (T3 * (t * t) - D * D) * fV (T3 * (t * t))) as E3.
  { unfold x3. rewrite Eu. transitivity (D * D * fV (s * s * (t * t)) + 1); [field; repeat split; assumption|]. rewrite Hs. field. repeat split; assumption. }
  assert (x3 * x3 * x3 + b = N * fV (T3 * T3 * T3 * (t * t * (t * t) * (t * t)))) as F3 by (rewrite E3; unfold N; field; split; assumption).
  set (v := - (s * (t * t)) + w * D). assert (x1 = v * fV D) as E1 by (unfold x1, v; rewrite Eu; field; exact ND).
  assert ((x1 * x1 * x1 + b) * (x2 * x2 * x2 + b) = - ((1 + b) * (1 + b) * N) * fV (D * D * D * (D * D * D))) as F12.
  { pose proof (sw_prod12 w b t D H ED) as P. cbv zeta in P. fold s v N in P. rewrite <- P. unfold x2. rewrite E1. clearbody v. field. exact ND. }
  rewrite F12, F3. clearbody N.
  transitivity ((1 + b) * (1 + b) * (N * N) * fV (s * s * (T3 * T3) * (t * t * t * (t * t * t)) * (D * D * D * (D * D * D)))).
  - clearbody s. field. repeat split; assumption.
  - rewrite Hs. field. repeat split; assumption.
Qed.
(** one of three numbers whose product is a square is a square, when the squares have index 2 *)
Lemma sq_third (f1 f2 f3 z : K) : (forall a b : K, (forall y, y * y <> a) -> (forall y, y * y <> b) -> exists y, y * y = a * b) ->
  z * z = f1 * f2 * f3 -> (forall y, y * y <> f1) -> (forall y, y * y <> f2) -> exists y, y * y = f3.
Proof.
  intros HN E N1 N2. destruct (HN f1 f2 N1 N2) as [y Hy]. assert (f1 <> 0) as Z1 by (intros Z; apply (N1 0); rewrite Z; ring). assert (f2 <> 0) as Z2 by (intros Z; apply (N2 0); rewrite Z; ring).
  assert (y <> 0) as Ny. { intros Z. destruct (fld_mul_ne K f1 f2 Z1 Z2). rewrite <- Hy, Z. ring. }
  exists (z * fV y). transitivity (z * z * fV (y * y)); [field; exact Ny|]. rewrite E, Hy. field. split; assumption.
Qed.
End SwAlg.
Add Field Kk2 : k2_field.
Definition sK : K2 := mkFQ2 (b_of FpB swencSqrtNegThree) (f0 q).
Definition wK : K2 := mkFQ2 (b_of FpB swencSqrtNegThreeMinusOneDivTwo) (f0 q).
Definition gK (x : K2) : K2 := k2_add (k2_mul (k2_mul x x) x) b2.
Lemma wK_cube : k2_mul wK wK = k2_sub (k2_opp wK) k2_1. Proof. apply k2_zof; vm_compute; reflexivity. Qed.
Lemma sK_w : sK = k2_add (k2_add wK wK) k2_1. Proof. apply k2_zof; vm_compute; reflexivity. Qed.
Lemma three2_ne : k2_add (k2_add k2_1 k2_1) k2_1 <> k2_0. Proof. intros E. apply (f_equal c0) in E. apply (f_equal zof) in E. vm_compute in E. discriminate E. Qed.
(** the specification: the first of the three candidates with a square right-hand side *)
Definition sqK (x : K2) : Prop := exists y, k2_mul y y = gK x.
Definition swenc_cand (t x1 x2 x3 : K2) : Prop :=
  let D := k2_add (k2_add (k2_mul t t) b2) k2_1 in
  k2_mul D x1 = k2_sub (k2_mul wK D) (k2_mul sK (k2_mul t t)) /\ x2 = k2_sub (k2_opp x1) k2_1 /\
  k2_mul (k2_mul (k2_opp (k2_add (k2_add k2_1 k2_1) k2_1)) (k2_mul t t)) (k2_sub x3 k2_1) = k2_mul D D.
Definition swenc_spec (t : K2) (P : pt K2) : Prop :=
  (t = k2_0 /\ P = Inf) \/
  (t <> k2_0 /\ k2_add (k2_add (k2_mul t t) b2) k2_1 = k2_0 /\ P = (if FQ2_Parity FpB t then neg2 (aff2 (G2AffineOne FqB)) else aff2 (G2AffineOne FqB))) \/
  (t <> k2_0 /\ k2_add (k2_add (k2_mul t t) b2) k2_1 <> k2_0 /\ exists x1 x2 x3 x y, swenc_cand t x1 x2 x3 /\ P = Pt x y /\ k2_mul y y = gK x /\
     (y <> k2_0 -> (k2_lt (k2_opp t) t <-> k2_lt (k2_opp y) y)) /\
     ((sqK x1 /\ x = x1) \/ (~ sqK x1 /\ sqK x2 /\ x = x2) \/ (~ sqK x1 /\ ~ sqK x2 /\ x = x3))).
Definition uK (t : K2) : K2 := k2_mul (k2_mul (k2_inv (k2_add (k2_add (k2_mul t t) b2) k2_1)) sK) t.
Definition sw_code (t : K2) : option (Affine K2) :=
  if k2_dec t k2_0 then Some (AffineZero (FQ2O FpB))
  else if k2_dec (k2_add (k2_add (k2_mul t t) b2) k2_1) k2_0 then Some (if FQ2_Parity FpB t then Affine_NegAssign (FQ2O FpB) (G2AffineOne FpB) else G2AffineOne FpB)
  else let x1 := k2_add (k2_opp (k2_mul (uK t) t)) wK in
    match GetG2PointFromX FpB x1 (FQ2_Parity FpB t) with
    | Some p => Some p
    | None => match GetG2PointFromX FpB (k2_sub (k2_opp x1) k2_1) (FQ2_Parity FpB t) with
       | Some p => Some p
       | None => GetG2PointFromX FpB (k2_add (k2_inv (k2_mul (uK t) (uK t))) k2_1) (FQ2_Parity FpB t)
       end
    end.
Lemma sK_ne : sK <> k2_0. Proof. intros E. apply (f_equal c0) in E. apply (f_equal zof) in E. vm_compute in E. discriminate E. Qed.
Lemma uK_ne t : t <> k2_0 -> k2_add (k2_add (k2_mul t t) b2) k2_1 <> k2_0 -> uK t <> k2_0.
Proof. intros Nt ND. unfold uK. apply k2_mul_ne; [apply k2_mul_ne; [|exact sK_ne]|exact Nt]. exact (fld_inv_ne FldQ2 _ ND). Qed.
Lemma sw_form t : SWEncodeG2 FpB t = sw_code t.
Proof.
  unfold SWEncodeG2, sw_code. cbv zeta. rewrite m2_iszero_dec. destruct (k2_dec t k2_0) as [|Nt]; [reflexivity|]. rewrite BCoeffFQ2_val, !m2_sq.
  change (@FQ2_AddAssign Fq FpB) with k2_add. change (@FQ2_NegAssign Fq FpB) with k2_opp. change (@FQ2_SubAssign Fq FpB) with k2_sub. change (FQ2One FpB) with k2_1. rewrite !m2_iszero_dec, !m2_mul.
  destruct (k2_dec (k2_add (k2_add (k2_mul t t) b2) k2_1) k2_0) as [|ND] eqn:EQ; [reflexivity|]. rewrite m2_inv, EQ. cbn [fst]. change (mkFQ2 (b_of FpB swencSqrtNegThree) (o_zero (b_ops FpB))) with sK. change (mkFQ2 (b_of FpB swencSqrtNegThreeMinusOneDivTwo) (o_zero (b_ops FpB))) with wK.
  change (k2_mul (k2_mul (k2_inv (k2_add (k2_add (k2_mul t t) b2) k2_1)) sK) t) with (uK t).
  assert (fst (FQ2_InverseAssign FpB (k2_mul (uK t) (uK t))) = k2_inv (k2_mul (uK t) (uK t))) as ->; [|reflexivity].
  clear EQ. rewrite m2_inv. destruct (k2_dec (k2_mul (uK t) (uK t)) k2_0) as [Z|]; [|reflexivity]. destruct (k2_mul_ne _ _ (uK_ne t Nt ND) (uK_ne t Nt ND) Z).
Qed.
Lemma alg_cand1 (w s t D : K2) : D <> k2_0 -> k2_mul D (k2_add (k2_opp (k2_mul (k2_mul (k2_mul (k2_inv D) s) t) t)) w) = k2_sub (k2_mul w D) (k2_mul s (k2_mul t t)).
Proof. intros. field. assumption. Qed.
Lemma alg_cand3 (m s t D : K2) : D <> k2_0 -> s <> k2_0 -> t <> k2_0 -> m = k2_mul s s ->
  k2_mul (k2_mul m (k2_mul t t)) (k2_sub (k2_add (k2_inv (k2_mul (k2_mul (k2_mul (k2_inv D) s) t) (k2_mul (k2_mul (k2_inv D) s) t))) k2_1) k2_1) = k2_mul D D.
Proof. intros ? ? ? ->. field. auto. Qed.
Lemma sK_sq : k2_opp (k2_add (k2_add k2_1 k2_1) k2_1) = k2_mul sK sK. Proof. apply k2_zof; vm_compute; reflexivity. Qed.
Lemma cand_ok t : t <> k2_0 -> k2_add (k2_add (k2_mul t t) b2) k2_1 <> k2_0 ->
  let x1 := k2_add (k2_opp (k2_mul (uK t) t)) wK in swenc_cand t x1 (k2_sub (k2_opp x1) k2_1) (k2_add (k2_inv (k2_mul (uK t) (uK t))) k2_1).
Proof.
  intros Nt ND x1. unfold swenc_cand. cbv zeta. split; [exact (alg_cand1 wK sK t _ ND)|]. split; [reflexivity|]. exact (alg_cand3 _ sK t _ ND sK_ne Nt sK_sq).
Qed.
Lemma sqK_cases x : sqK x \/ (forall y, k2_mul y y <> gK x).
Proof. destruct (k2_square_dec (gK x)) as [H|H]; [left; exact H|right]. intros y E. apply H. exists y. exact E. Qed.
Lemma nonsq_prod (a b : K2) : (forall y, k2_mul y y <> a) -> (forall y, k2_mul y y <> b) -> exists y, k2_mul y y = k2_mul a b.
Proof. intros Ha Hb. apply nonsq_mul2; intros [y E]; [exact (Ha y E)|exact (Hb y E)]. Qed.
Lemma par_iff t (y : K2) : (y <> k2_0 -> (FQ2_Parity FpB t = true <-> k2_lt (k2_opp y) y)) -> y <> k2_0 -> (k2_lt (k2_opp t) t <-> k2_lt (k2_opp y) y).
Proof. intros H N. rewrite <- m2_parity_true. exact (H N). Qed.
Lemma third_sq t : t <> k2_0 -> k2_add (k2_add (k2_mul t t) b2) k2_1 <> k2_0 -> let x1 := k2_add (k2_opp (k2_mul (uK t) t)) wK in
  (forall y, k2_mul y y <> gK x1) -> (forall y, k2_mul y y <> gK (k2_sub (k2_opp x1) k2_1)) -> sqK (k2_add (k2_inv (k2_mul (uK t) (uK t))) k2_1).
Proof.
  intros Nt ND x1 N1 N2. assert (uK t = k2_mul (k2_mul (k2_inv (k2_add (k2_add (k2_mul t t) b2) k2_1)) (k2_add (k2_add wK wK) k2_1)) t) as EU by (unfold uK; rewrite <- sK_w; reflexivity).
  destruct (sw_square FldQ2 (k2_add (k2_add k2_1 k2_1) k2_1) eq_refl wK b2 t (k2_add (k2_add (k2_mul t t) b2) k2_1) (uK t) wK_cube eq_refl ND Nt three2_ne EU) as [z Hz].
  exact (sq_third FldQ2 (gK x1) (gK (k2_sub (k2_opp x1) k2_1)) (gK (k2_add (k2_inv (k2_mul (uK t) (uK t))) k2_1)) z nonsq_prod Hz N1 N2).
Qed.
Lemma gen2_fp : repa FldQ2 (G2AffineOne FpB) = aff2 (G2AffineOne FqB).
Proof. pose proof (rel_G2AffineOne FqB FpB RFq) as R. apply RA2_val in R. destruct R as [_ V]. change (aff2 (G2AffineOne FqB)) with (repa FldQ2 (valA2 (G2AffineOne FqB))). rewrite <- V. reflexivity. Qed.
Theorem sw_ok t : exists P, SWEncodeG2 FpB t = Some P /\ swenc_spec t (repa FldQ2 P) /\ on2 (repa FldQ2 P).
Proof.
  rewrite sw_form. unfold sw_code. destruct (k2_dec t k2_0) as [Et|Nt].
  { eexists. split; [reflexivity|]. split; [left; split; [exact Et|reflexivity]|exact Logic.I]. }
  destruct (k2_dec (k2_add (k2_add (k2_mul t t) b2) k2_1) k2_0) as [ED|ND].
  { eexists. split; [reflexivity|]. assert (repa FldQ2 (if FQ2_Parity FpB t then Affine_NegAssign (FQ2O FpB) (G2AffineOne FpB) else G2AffineOne FpB) = (if FQ2_Parity FpB t then neg2 (aff2 (G2AffineOne FqB)) else aff2 (G2AffineOne FqB))) as E.
    { destruct (FQ2_Parity FpB t); [|exact gen2_fp]. rewrite (repa_neg FldQ2 (FQ2O FpB) FpO2_ok). exact (f_equal neg2 gen2_fp). }
    split; [right; left; split; [exact Nt|]; split; [exact ED|exact E]|]. refine (eq_ind_r on2 _ E). destruct (FQ2_Parity FpB t); [apply G2_on_neg|]; exact G2one_on. }
  cbv zeta. pose proof (cand_ok t Nt ND) as HC. pose proof (third_sq t Nt ND) as H3. cbv zeta in HC, H3. set (x1 := k2_add (k2_opp (k2_mul (uK t) t)) wK) in *. set (x2 := k2_sub (k2_opp x1) k2_1) in *. set (x3 := k2_add (k2_inv (k2_mul (uK t) (uK t))) k2_1) in *.
  assert (forall x y, GetG2PointFromX FpB x (FQ2_Parity FpB t) = Some (mkAff x y false) -> on2 (Pt x y) -> (y <> k2_0 -> (FQ2_Parity FpB t = true <-> k2_lt (k2_opp y) y)) ->
    ((sqK x1 /\ x = x1) \/ (~ sqK x1 /\ sqK x2 /\ x = x2) \/ (~ sqK x1 /\ ~ sqK x2 /\ x = x3)) ->
    exists P, Some (mkAff x y false) = Some P /\ swenc_spec t (repa FldQ2 P) /\ on2 (repa FldQ2 P)) as FIN.
  { intros x y _ O HY HS. exists (mkAff x y false). split; [reflexivity|]. split; [|exact O]. right. right. split; [exact Nt|]. split; [exact ND|]. exists x1, x2, x3, x, y. split; [exact HC|]. split; [reflexivity|]. split; [exact O|]. split; [exact (par_iff t y HY)|exact HS]. }
  clearbody x1 x2 x3. destruct (sqK_cases x1) as [S1|N1].
  { destruct (g2_fromx_some x1 (FQ2_Parity FpB t) S1) as (y & E & O & HY). rewrite E. apply (FIN x1 y E O HY). left. auto. }
  rewrite (g2_fromx_none x1 _ N1). assert (~ sqK x1) as M1 by (intros [y E]; exact (N1 y E)). destruct (sqK_cases x2) as [S2|N2].
  { destruct (g2_fromx_some x2 (FQ2_Parity FpB t) S2) as (y & E & O & HY). rewrite E. apply (FIN x2 y E O HY). right. left. auto. }
  rewrite (g2_fromx_none x2 _ N2). assert (~ sqK x2) as M2 by (intros [y E]; exact (N2 y E)).
  destruct (g2_fromx_some x3 (FQ2_Parity FpB t) (H3 N1 N2)) as (y & E & O & HY). rewrite E. apply (FIN x3 y E O HY). right. right. auto.
Qed.
Theorem SWEncodeG2_limb t : canon2 t -> exists P, SWEncodeG2 FqB t = Some P /\ canonA2 P /\ on2 (aff2 P) /\ swenc_spec (val2 t) (aff2 P).
Proof.
  intros C. pose proof (rel_SWEncodeG2 FqB FpB RFq t (val2 t) (R2v t C)) as R. destruct (sw_ok (val2 t)) as (P' & E & S & O). rewrite E in R.
  destruct (SWEncodeG2 FqB t) as [P|]; [|destruct R]. apply RA2_val in R. destruct R as [CP V]. exists P. split; [reflexivity|]. split; [exact CP|].
  rewrite V in S, O. split; [exact O|exact S].
Qed.
(** ** HashG2WithDomain *)
Lemma some_inj' {A} (x y : A) : Some x = Some y -> x = y. Proof. congruence. Qed.
Definition k2n (i : nat) : K2 := mkFQ2 (z2q (Z.of_nat i)) (f0 q).
Lemma k2n_0 x : k2_add x (k2n 0) = x.
Proof. assert (k2n 0 = k2_0) as -> by (apply k2_zof; reflexivity). ring. Qed.
Lemma k2n_S i : k2n (S i) = k2_add k2_1 (k2n i).
Proof.
  apply k2_eq; cbn [k2n k2_add k2_1 c0 c1]; apply zof_inj; [|reflexivity]. unfold fadd, z2q, f1. rewrite !zof_zp, <- Zplus_mod. f_equal. lia.
Qed.
Lemma k2n_shift x i : k2_add x (k2n (S i)) = k2_add (k2_add x k2_1) (k2n i).
Proof. rewrite k2n_S. ring. Qed.
Definition hd_point (x y : K2) : Affine K2 := mkAff x y false.
Definition hd_spec (x0 : K2) (i : nat) (y : K2) : Prop :=
  (forall j, (j < i)%nat -> ~ sqK (k2_add x0 (k2n j))) /\ k2_mul y y = gK (k2_add x0 (k2n i)) /\ (y <> k2_0 -> k2_lt (k2_opp y) y).
Lemma par_fix y : let y' := if negb (FQ2_Parity FpB y) then k2_opp y else y in k2_mul y' y' = k2_mul y y /\ (y' <> k2_0 -> k2_lt (k2_opp y') y').
Proof.
  cbv zeta. destruct (FQ2_Parity FpB y) eqn:P; cbn [negb].
  - split; [reflexivity|]. intros _. apply m2_parity_true. exact P.
  - split; [ring|]. intros N. apply m2_parity_true. rewrite m2_parity_opp, P; [reflexivity|]. intros Z. apply N. rewrite Z. ring.
Qed.
Lemma loop_step k x : HashG2WithDomain_loop FpB (S k) x =
  let '(y0, found) := k2_sqrt (gK x) in if found then Some (G2_ScaleByCofactor FpB (hd_point x (if negb (FQ2_Parity FpB y0) then k2_opp y0 else y0))) else HashG2WithDomain_loop FpB k (k2_add x k2_1).
Proof. cbn [HashG2WithDomain_loop]. rewrite BCoeffFQ2_val, m2_sqrt, m2_sq, m2_mul. reflexivity. Qed.
Lemma loop_sound fuel : forall x h, HashG2WithDomain_loop FpB fuel x = Some h -> exists i y, (i < fuel)%nat /\ hd_spec x i y /\ h = G2_ScaleByCofactor FpB (hd_point (k2_add x (k2n i)) y).
Proof.
  induction fuel as [|k IH]; intros x h; [intros E; discriminate E|]. rewrite loop_step. destruct (sqrt2_cases (gK x)) as [(s & S & -> & E)|[N ->]].
  - intros H. apply some_inj' in H. subst h. destruct (par_fix s) as [Y1 Y2]. exists O, (if negb (FQ2_Parity FpB s) then k2_opp s else s). split; [lia|]. rewrite k2n_0. split; [|reflexivity].
    split; [intros j Hj; lia|]. rewrite k2n_0. split; [rewrite Y1; exact E|exact Y2].
  - intros H. destruct (IH _ _ H) as (i & y & Hi & (H1 & H2 & H3) & ->). exists (S i), y. split; [lia|]. rewrite k2n_shift. split; [|reflexivity]. split; [|rewrite k2n_shift; split; assumption].
    intros [|j] Hj; [rewrite k2n_0; exact N|rewrite k2n_shift; apply H1; lia].
Qed.
Lemma loop_complete fuel : forall x i, (i < fuel)%nat -> sqK (k2_add x (k2n i)) -> HashG2WithDomain_loop FpB fuel x <> None.
Proof.
  induction fuel as [|k IH]; intros x i Hi S; [lia|]. rewrite loop_step. destruct (sqrt2_cases (gK x)) as [(s & _ & -> & E)|[N ->]]; [intros X; discriminate X|].
  destruct i as [|i]; [rewrite k2n_0 in S; contradiction|]. apply (IH _ i); [lia|]. rewrite <- k2n_shift. exact S.
Qed.
Lemma on_hd x y : k2_mul y y = gK x -> on2 (repa FldQ2 (hd_point x y)). Proof. intros H. exact H. Qed.
Lemma cof2_pos : 0 <= g2Cofactor. Proof. apply Z.leb_le. vm_compute. reflexivity. Qed.
Theorem loop_limb fuel x : canon2 x ->
  (forall h, HashG2WithDomain_loop FqB fuel x = Some h -> exists i y, (i < fuel)%nat /\ hd_spec (val2 x) i y /\ valid2 h /\
     jac2 h = mul2 g2Cofactor (Pt (k2_add (val2 x) (k2n i)) y) /\ mul2 r (jac2 h) = Inf) /\
  ((exists i, (i < fuel)%nat /\ sqK (k2_add (val2 x) (k2n i))) -> exists h, HashG2WithDomain_loop FqB fuel x = Some h).
Proof.
  intros C. pose proof (rel_HashG2WithDomain_loop FqB FpB RFq fuel x (val2 x) (R2v x C)) as R. split.
  - intros h E. rewrite E in R. destruct (HashG2WithDomain_loop FpB fuel (val2 x)) as [h'|] eqn:E'; [|destruct R]. destruct (loop_sound _ _ _ E') as (i & y & Hi & HS & Eh).
    exists i, y. split; [exact Hi|]. split; [exact HS|]. apply RP2_val in R. destruct R as [Ch V]. destruct HS as (_ & Hy & _). pose proof (on_hd _ _ Hy) as O.
    pose proof (repj_mulbig E2 (FQ2O FpB) FpO2_ok (hd_point (k2_add (val2 x) (k2n i)) y) g2Cofactor O cof2_pos) as J.
    assert (jac2 h = mul2 g2Cofactor (Pt (k2_add (val2 x) (k2n i)) y)) as EJ. { change (jac2 h) with (repj FldQ2 (valP2 h)). rewrite <- V, Eh. exact J. }
    split; [split; [exact Ch|]|split; [exact EJ|]].
    + rewrite EJ. apply G2_on_mul. exact Hy.
    + rewrite EJ. exact (clr E2 exp2 g2Cofactor E2_clear (eq_ind _ (fun c => (exp2 | c)) exp2_divides _ cof2_value) _ O).
  - intros (i & Hi & S). pose proof (loop_complete fuel (val2 x) i Hi S) as N. destruct (HashG2WithDomain_loop FqB fuel x) as [h|]; [exists h; reflexivity|]. destruct (HashG2WithDomain_loop FpB fuel (val2 x)); [destruct R|contradiction].
Qed.
Definition hd_start sha (mh dom : list Z) : K2 := mkFQ2 (z2q (big_SetBytes (sha (mh ++ dom ++ [1])))) (z2q (big_SetBytes (sha (mh ++ dom ++ [2])))).
Lemma sha_small sha l : sha_ok sha -> 0 <= big_SetBytes (sha l) < 2 ^ 256.
Proof. intros S. destruct (S l) as [B L]. pose proof (big_SetBytes_bound (sha l) B) as H. rewrite L in H. exact H. Qed.
Lemma of_small z : 0 <= z < q -> canon (b_of FqB (FQRepr_const z)) /\ fqval (b_of FqB (FQRepr_const z)) = z2q z.
Proof. intros H. pose proof (of_limb z) as G. rewrite q_big_q, Z.mod_small in G by exact H. exact G. Qed.
Lemma start_limb sha mh dom : sha_ok sha -> canon2 (HashG2WithDomain_start sha FqB mh dom) /\ val2 (HashG2WithDomain_start sha FqB mh dom) = hd_start sha mh dom.
Proof.
  intros S. assert (2 ^ 256 < q) as Q by reflexivity. pose proof (sha_small sha (mh ++ dom ++ [1]) S) as B1. pose proof (sha_small sha (mh ++ dom ++ [2]) S) as B2.
  destruct (of_small _ (Logic.conj (proj1 B1) (Z.lt_trans _ _ _ (proj2 B1) Q))) as [C1 V1]. destruct (of_small _ (Logic.conj (proj1 B2) (Z.lt_trans _ _ _ (proj2 B2) Q))) as [C2 V2].
  split; [split; assumption|]. unfold HashG2WithDomain_start, hd_start, val2. cbv zeta. cbn [c0 c1]. rewrite V1, V2. reflexivity.
Qed.
Theorem HashG2WithDomain_sound sha fuel mh dom h : sha_ok sha -> HashG2WithDomain_fuel sha FqB fuel mh dom = Some h ->
  exists i y, (i < fuel)%nat /\ hd_spec (hd_start sha mh dom) i y /\ valid2 h /\ jac2 h = mul2 g2Cofactor (Pt (k2_add (hd_start sha mh dom) (k2n i)) y) /\ mul2 r (jac2 h) = Inf.
Proof. intros S E. destruct (start_limb sha mh dom S) as [C V]. rewrite <- V. exact (proj1 (loop_limb fuel _ C) h E). Qed.
Theorem HashG2WithDomain_complete sha fuel mh dom i : sha_ok sha -> (i < fuel)%nat -> sqK (k2_add (hd_start sha mh dom) (k2n i)) -> exists h, HashG2WithDomain_fuel sha FqB fuel mh dom = Some h.
Proof. intros S Hi Q. destruct (start_limb sha mh dom S) as [C V]. rewrite <- V in Q. exact (proj2 (loop_limb fuel _ C) (ex_intro _ i (Logic.conj Hi Q))). Qed.
(** ** RandG1, RandG2 *)
Definition sq1 (x : Fq) : Prop := exists s, fmul s s = fadd (fmul (fmul x x) x) b1.
Lemma sq1_cases x : sq1 x \/ (forall s, fmul s s <> fadd (fmul (fmul x x) x) b1).
Proof. destruct (Fq_square_dec (fadd (fmul (fmul x x) x) b1)) as [H|H]; [left; exact H|right]. intros y E. apply H. exists y. exact E. Qed.
Theorem RandG1_sound draws : Forall (fun d => 0 <= snd d < q) draws -> forall P, RandG1 FqB draws = Some P ->
  exists pre byte x rest y, draws = pre ++ (byte, x) :: rest /\ Forall (fun d => ~ sq1 (z2q (snd d))) pre /\ on1 (Pt (z2q x) y) /\
    valid1 P /\ jac1 P = mul1 (eval6 g1Cofactor) (Pt (z2q x) y) /\ mul1 r (jac1 P) = Inf.
Proof.
  intros HD. induction HD as [|[byte x] rest Hx HD IH]; intros P; [intros E; discriminate E|]. cbn [RandG1 snd] in *. cbv zeta. destruct (of_small x Hx) as [C V].
  destruct (g1_fromx (b_of FqB (FQRepr_const x)) (byte mod 2 =? 0) C) as [GN GS]. rewrite V in GN, GS. destruct (sq1_cases (z2q x)) as [S|N].
  - destruct (GS S) as (y & -> & Cy & O & _). cbn [Affine_IsZero ainf negb]. intros E. apply some_inj' in E. subst P. exists [], byte, x, rest, (fqval y). split; [reflexivity|]. split; [constructor|]. split; [exact O|].
    assert (aff1 (mkAff (b_of FqB (FQRepr_const x)) y false) = Pt (z2q x) (fqval y)) as EA by (rewrite <- V; reflexivity).
    destruct (scale_cofactor1 (mkAff (b_of FqB (FQRepr_const x)) y false) (Logic.conj C Cy) (eq_ind_r on1 O EA)) as (H1 & H2 & H3). rewrite EA in H2. split; [exact H1|]. split; [exact H2|exact H3].
  - rewrite (GN N). intros E. destruct (IH P E) as (pre & byte' & x' & rest' & y & -> & Hp & R). exists ((byte, x) :: pre), byte', x', rest', y. split; [reflexivity|]. split; [|exact R].
    constructor; [|exact Hp]. intros [s Hs]. exact (N s Hs).
Qed.
Theorem RandG2_sound draws : Forall (fun d => 0 <= fst (snd d) < q /\ 0 <= snd (snd d) < q) draws -> forall P, RandG2 FqB draws = Some P ->
  exists pre byte x rest y, draws = pre ++ (byte, x) :: rest /\ Forall (fun d => ~ sqK (mkFQ2 (z2q (fst (snd d))) (z2q (snd (snd d))))) pre /\ on2 (Pt (mkFQ2 (z2q (fst x)) (z2q (snd x))) y) /\
    valid2 P /\ jac2 P = mul2 g2Cofactor (Pt (mkFQ2 (z2q (fst x)) (z2q (snd x))) y) /\ mul2 r (jac2 P) = Inf.
Proof.
  intros HD. induction HD as [|[byte [x0 x1]] rest [Hx0 Hx1] HD IH]; intros P; [intros E; discriminate E|]. cbn [RandG2 fst snd] in *. cbv zeta. destruct (of_small x0 Hx0) as [C0 V0]. destruct (of_small x1 Hx1) as [C1 V1].
  set (X := mkFQ2 (b_of FqB (FQRepr_const x0)) (b_of FqB (FQRepr_const x1))). assert (canon2 X) as C by (split; assumption). assert (val2 X = mkFQ2 (z2q x0) (z2q x1)) as V by (unfold X, val2; cbn [c0 c1]; rewrite V0, V1; reflexivity). clearbody X.
  destruct (g2_fromx X (byte mod 2 =? 0) C) as [GN GS]. rewrite V in GN, GS. destruct (sqK_cases (mkFQ2 (z2q x0) (z2q x1))) as [S|N].
  - destruct (GS S) as (y & -> & Cy & O & _). cbn [Affine_IsZero ainf negb]. intros E. apply some_inj' in E. subst P. exists [], byte, (x0, x1), rest, (val2 y). split; [reflexivity|]. split; [constructor|]. split; [exact O|].
    assert (aff2 (mkAff X y false) = Pt (mkFQ2 (z2q x0) (z2q x1)) (val2 y)) as EA by (rewrite <- V; reflexivity).
    destruct (scale_cofactor2 (mkAff X y false) (Logic.conj C Cy) (eq_ind_r on2 O EA)) as (H1 & H2 & H3). rewrite EA in H2. split; [exact H1|]. split; [exact H2|exact H3].
  - rewrite (GN N). intros E. destruct (IH P E) as (pre & byte' & x' & rest' & y & -> & Hp & R). exists ((byte, (x0, x1)) :: pre), byte', x', rest', y. split; [reflexivity|]. split; [|exact R].
    constructor; [|exact Hp]. intros [s Hs]. exact (N s Hs).
Qed.
