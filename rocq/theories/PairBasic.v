(** Consequences for the exported pairing functions. *)
Require Import ZArith Lia Bool List Ring Field Znumtheory Permutation.
From Verif Require Import Words ModelRepr ReprProofs ReprProofs2 ModelFq ModelOps ModelTower ModelCurve ModelPairing NumTheory Primality Fp FpOps FqProofs FqProofs2 FqInverse FqRel FqMisc Loops OpsRel OpsRel2 FqTransfer ZInst TwoPow Ext ExtFrob TowerProofs TowerLimb Fld AbGrp EcGroup EcJac EcMul Curves CurveLimb FinExp Miller.
Import ListNotations.
Open Scope Z_scope.
#[global] Opaque finE.

(** The item made of two finite affine points *)
Definition it_of (x y : Fq) (X Y : K2) : Affine Fq * G2Prepared Fq := (mkAff x y false, G2AffineToPrepared FpB (mkAff X Y false)).
Definition pmil (x y : Fq) (X Y : K2) : K12 := k12_conj (mval (it_of x y X Y)).
Lemma it_of_fit x y X Y : fitem (it_of x y X Y).
Proof. split; [reflexivity|]. apply prepared_length. reflexivity. Qed.
Lemma mval_conj x y X Y : mval (it_of x (fopp y) X Y) = k12_conj (mval (it_of x y X Y)).
Proof.
  unfold mval. transitivity (mfold (fun i => k12_conj (Lof (it_of x y X Y) i)) loopbits).
  - apply mfold_ext. intros i. unfold Lof, it_of. cbn [fst snd ax ay]. unfold lineval. destruct (nth i _ dline) as [[a b] c].
    unfold k12_014, k12_conj. cbn [e0 e1]. apply k12_eq; cbn [e0 e1]; [reflexivity|]. apply k6_eq; cbn [d0 d1 d2 k6_opp]; [ring| |ring].
    assert (k2_emb (fopp y) = k2_opp (k2_emb y)) as -> by (apply k2_eq; cbn; ring). ring.
  - generalize (Lof (it_of x y X Y)). intros L. unfold mfold.
    assert (forall bs f i, fold_left (mstep (fun i => k12_conj (L i))) bs (k12_conj f, i) = let '(f', i') := fold_left (mstep L) bs (f, i) in (k12_conj f', i')) as H.
    { induction bs as [|b bs IH]; intros f i; cbn [fold_left]; [reflexivity|]. unfold mstep at 2 4. destruct b; rewrite <- !k12_conj_mul; apply IH. }
    assert (k12_conj k12_1 = k12_1) as E by (apply k12_eq; cbn [k12_conj e0 e1 k12_1]; [reflexivity|ring]).
    specialize (H loopbits k12_1 O). rewrite E in H. rewrite H. destruct (fold_left (mstep L) loopbits (k12_1, O)). symmetry. apply k12_conj_mul.
Qed.
Lemma pmil_conj x y X Y : pmil x (fopp y) X Y = k12_conj (pmil x y X Y).
Proof. unfold pmil. rewrite mval_conj. reflexivity. Qed.

Lemma repa_pt {K : Fld} (A : Affine K) x y : repa K A = Pt x y -> A = mkAff x y false.
Proof. destruct A as [a b []]; unfold repa; cbn; [discriminate|]. intros [= -> ->]. reflexivity. Qed.
Lemma repa_inf {K : Fld} (A : Affine K) : repa K A = Inf -> ainf A = true.
Proof. destruct A as [a b []]; unfold repa; cbn; [reflexivity|discriminate]. Qed.
Lemma toaff1_pt p x y : repj FldQ p = Pt x y -> G1_ToAffine FpO p = mkAff x y false.
Proof. intros H. apply (repa_pt (K := FldQ)). rewrite (repa_G1_ToAffine FldQ FpO FpO_ok). exact H. Qed.
Lemma toaff2_pt p x y : repj FldQ2 p = Pt x y -> G2_ToAffine (FQ2O FpB) p = mkAff x y false.
Proof. intros H. apply (repa_pt (K := FldQ2)). rewrite (repa_G2_ToAffine FldQ2 _ FpO2_ok). exact H. Qed.
Lemma toaff1_inf p : repj FldQ p = Inf -> ainf (G1_ToAffine FpO p) = true.
Proof. intros H. apply (repa_inf (K := FldQ)). rewrite (repa_G1_ToAffine FldQ FpO FpO_ok). exact H. Qed.
Lemma toaff2_inf p : repj FldQ2 p = Inf -> ainf (G2_ToAffine (FQ2O FpB) p) = true.
Proof. intros H. apply (repa_inf (K := FldQ2)). rewrite (repa_G2_ToAffine FldQ2 _ FpO2_ok). exact H. Qed.

Lemma k12_mul_1_r a : k12_mul a k12_1 = a. Proof. ring. Qed.
Theorem Pairing_fin p Q x y X Y : repj FldQ p = Pt x y -> repj FldQ2 Q = Pt X Y -> Pairing FpB p Q = FinalExponentiation FpB (pmil x y X Y).
Proof.
  intros H1 H2. unfold Pairing. change (b_ops FpB) with FpO. rewrite (toaff1_pt _ _ _ H1), (toaff2_pt _ _ _ H2).
  fold (it_of x y X Y). rewrite MillerLoop_prod by (intros it [<-|[]]; apply it_of_fit). cbn [map prodl fold_right].
  fold (pmil x y X Y). rewrite k12_mul_1_r. reflexivity.
Qed.
Theorem Pairing_inf p Q : repj FldQ p = Inf \/ repj FldQ2 Q = Inf -> Pairing FpB p Q = None.
Proof.
  intros H. unfold Pairing. change (b_ops FpB) with FpO. erewrite MillerLoop_infinity; [reflexivity|left; reflexivity|].
  destruct H as [H|H]; [left; apply toaff1_inf, H|right]. rewrite prepared_inf by (apply toaff2_inf, H). reflexivity.
Qed.
Theorem Compare_fin p1 Q1 p2 Q2 x y X Y x' y' X' Y' :
  repj FldQ p1 = Pt x y -> repj FldQ2 Q1 = Pt X Y -> repj FldQ p2 = Pt x' y' -> repj FldQ2 Q2 = Pt X' Y' ->
  CompareTwoPairings FpB p1 Q1 p2 Q2 =
  match FinalExponentiation FpB (k12_mul (pmil x y X Y) (k12_conj (pmil x' y' X' Y'))) with None => None | Some e => Some (FQ12_Equals FpB e (FQ12One FpB)) end.
Proof.
  intros H1 H2 H3 H4. unfold CompareTwoPairings. change (b_ops FpB) with FpO. cbv zeta.
  assert (repj FldQ (Proj_NegAssign FpO p2) = Pt x' (fopp y')) as H3' by (rewrite (repj_neg FldQ FpO FpO_ok), H3; reflexivity).
  rewrite (toaff1_pt _ _ _ H1), (toaff2_pt _ _ _ H2), (toaff1_pt _ _ _ H3'), (toaff2_pt _ _ _ H4).
  fold (it_of x y X Y) (it_of x' (fopp y') X' Y'). rewrite MillerLoop_prod by (intros it [<-|[<-|[]]]; apply it_of_fit). cbn [map prodl fold_right].
  rewrite <- (pmil_conj x' y' X' Y'). unfold pmil. rewrite k12_mul_1_r. reflexivity.
Qed.
Theorem Compare_inf p1 Q1 p2 Q2 : repj FldQ p1 = Inf \/ repj FldQ2 Q1 = Inf \/ repj FldQ p2 = Inf \/ repj FldQ2 Q2 = Inf ->
  CompareTwoPairings FpB p1 Q1 p2 Q2 = None.
Proof.
  intros H. unfold CompareTwoPairings. change (b_ops FpB) with FpO. cbv zeta.
  destruct H as [H|[H|[H|H]]].
  - erewrite MillerLoop_infinity; [reflexivity|left; reflexivity|]. left. apply toaff1_inf, H.
  - erewrite MillerLoop_infinity; [reflexivity|left; reflexivity|]. right. rewrite prepared_inf by (apply toaff2_inf, H). reflexivity.
  - erewrite MillerLoop_infinity; [reflexivity|right; left; reflexivity|]. left. apply toaff1_inf.
    rewrite (repj_neg FldQ FpO FpO_ok), H. reflexivity.
  - erewrite MillerLoop_infinity; [reflexivity|right; left; reflexivity|]. right. rewrite prepared_inf by (apply toaff2_inf, H). reflexivity.
Qed.

(** ** The group of values *)
Lemma finE_cyc (u : U12) : cyc (gm finE u).
Proof. rewrite finE_split, Z.mul_comm, gm_mul. apply cyc_of. Qed.
Lemma FE_some a e : FinalExponentiation FpB a = Some e -> exists u : U12, a = upr u /\ e = upr (gm finE u).
Proof.
  intros H. destruct (k12_dec a k12_0) as [->|N]; [rewrite FinalExponentiation_0 in H; discriminate|].
  exists (umk FldQ12 a N). split; [reflexivity|]. pose proof (FinalExponentiation_spec (umk FldQ12 a N)) as S. rewrite upr_umk in S. congruence.
Qed.
Lemma FE_conj (u : U12) : FinalExponentiation FpB (k12_conj (upr u)) = Some (upr (gN (gm finE u))).
Proof.
  rewrite u12_conj, FinalExponentiation_spec, <- gm_mul, Z.mul_comm, gm_mul. f_equal. f_equal.
  apply gN_unique. rewrite <- gm_succ. apply finE_cyc.
Qed.
Lemma gN_inj {G : AbGrp} (x y : G) : gA x (gN y) = gO -> x = y.
Proof. intros H. apply (gA_cancel_r (gN y)). rewrite H, gA_N_r. reflexivity. Qed.
Theorem Compare_pairings p1 Q1 p2 Q2 e1 e2 : Pairing FpB p1 Q1 = Some e1 -> Pairing FpB p2 Q2 = Some e2 ->
  CompareTwoPairings FpB p1 Q1 p2 Q2 = Some (if k12_dec e1 e2 then true else false).
Proof.
  intros H1 H2.
  destruct (repj FldQ p1) as [|x y] eqn:E1; [rewrite (Pairing_inf _ _ (or_introl E1)) in H1; discriminate H1|].
  destruct (repj FldQ2 Q1) as [|X Y] eqn:E2; [rewrite (Pairing_inf _ _ (or_intror E2)) in H1; discriminate H1|].
  destruct (repj FldQ p2) as [|x' y'] eqn:E3; [rewrite (Pairing_inf _ _ (or_introl E3)) in H2; discriminate H2|].
  destruct (repj FldQ2 Q2) as [|X' Y'] eqn:E4; [rewrite (Pairing_inf _ _ (or_intror E4)) in H2; discriminate H2|].
  rewrite (Pairing_fin _ _ _ _ _ _ E1 E2) in H1. rewrite (Pairing_fin _ _ _ _ _ _ E3 E4) in H2. rewrite (Compare_fin _ _ _ _ _ _ _ _ _ _ _ _ E1 E2 E3 E4).
  apply FE_some in H1, H2. destruct H1 as (u & -> & ->), H2 as (v & -> & ->). rewrite u12_conj, u12_A, FinalExponentiation_spec.
  rewrite gm_A, <- (gm_mul finE (q ^ 6)), (Z.mul_comm finE), (gm_mul (q ^ 6)).
  assert (gm (q ^ 6) (gm finE v) = gN (gm finE v)) as -> by (apply gN_unique; rewrite <- gm_succ; apply finE_cyc).
  set (a := gm finE u). set (b := gm finE v). clearbody a b. f_equal. rewrite m12_one.
  destruct (k12_dec (upr a) (upr b)) as [E|N].
  - apply m12_equals. apply (u_eq (K := FldQ12)) in E. subst b. rewrite gA_N_r. reflexivity.
  - apply not_true_iff_false. intros E. apply m12_equals in E. apply N. f_equal. apply gN_inj. apply (u_eq (K := FldQ12)). exact E.
Qed.
Theorem Pairing_neg p Q e : Pairing FpB p Q = Some e -> exists e', Pairing FpB (Proj_NegAssign FpO p) Q = Some e' /\ k12_mul e' e = k12_1.
Proof.
  intros H.
  destruct (repj FldQ p) as [|x y] eqn:E1; [rewrite (Pairing_inf _ _ (or_introl E1)) in H; discriminate H|].
  destruct (repj FldQ2 Q) as [|X Y] eqn:E2; [rewrite (Pairing_inf _ _ (or_intror E2)) in H; discriminate H|].
  rewrite (Pairing_fin _ _ _ _ _ _ E1 E2) in H. apply FE_some in H. destruct H as (u & H & ->).
  assert (repj FldQ (Proj_NegAssign FpO p) = Pt x (fopp y)) as E3 by (rewrite (repj_neg FldQ FpO FpO_ok), E1; reflexivity).
  rewrite (Pairing_fin _ _ _ _ _ _ E3 E2), pmil_conj, H, FE_conj. eexists. split; [reflexivity|].
  rewrite u12_A, gA_N_l. reflexivity.
Qed.
