(** The pairing results for the limb-level code. *)
Require Import ZArith Lia Bool List Ring Field Znumtheory Permutation.
From Verif Require Import Words ModelRepr ReprProofs ReprProofs2 ModelFq ModelOps ModelTower ModelCurve ModelPairing NumTheory Primality Fp FpOps FqProofs FqProofs2 FqInverse FqRel FqMisc Loops OpsRel OpsRel2 FqTransfer ZInst TwoPow Ext ExtFrob TowerProofs TowerLimb Fld AbGrp EcGroup EcJac EcMul Curves CurveLimb FinExp Miller PairBasic.
Import ListNotations.
Open Scope Z_scope.

Lemma optR12_none o : optR (R12 RFq) o None -> o = None. Proof. destruct o; [contradiction|reflexivity]. Qed.
Lemma optR12_some o e : optR (R12 RFq) o (Some e) -> exists f, o = Some f /\ canon12 f /\ val12 f = e.
Proof. destruct o as [f|]; [|contradiction]. intros H. apply R12_val in H. destruct H as [C ->]. eauto. Qed.
Lemma optR12_inv o o' f : optR (R12 RFq) o o' -> o = Some f -> canon12 f /\ o' = Some (val12 f).
Proof. intros H ->. destruct o' as [e|]; [|contradiction]. cbn [optR] in H. apply R12_val in H. destruct H as [C ->]. auto. Qed.
Lemma optR12_inv_none o o' : optR (R12 RFq) o o' -> o = None -> o' = None.
Proof. intros H ->. destruct o'; [contradiction|reflexivity]. Qed.

(** ** FinalExponentiation *)
Lemma FE_rel f : canon12 f -> optR (R12 RFq) (FinalExponentiation FqB f) (FinalExponentiation FpB (val12 f)).
Proof. intros C. exact (rel_FinalExponentiation FqB FpB RFq _ _ (R12v f C)). Qed.
Theorem FE_limb f : canon12 f ->
  (val12 f = k12_0 -> FinalExponentiation FqB f = None) /\
  (val12 f <> k12_0 -> exists e, FinalExponentiation FqB f = Some e /\ canon12 e /\
     val12 e = pw12 (val12 f) (3 * ((q ^ 12 - 1) / r)) /\ pw12 (val12 e) r = k12_1).
Proof.
  intros C. pose proof (FE_rel f C) as H. split; intros E.
  - rewrite E, FinalExponentiation_0 in H. apply optR12_none, H.
  - rewrite (FinalExponentiation_pow _ E) in H. apply optR12_some in H. destruct H as (e & He & Ce & Ve). exists e.
    rewrite <- finE_div. split; [exact He|]. split; [exact Ce|]. split; [exact Ve|]. rewrite Ve.
    change (val12 f) with (upr (umk FldQ12 (val12 f) E)). rewrite u12_pow by apply finE_pos. rewrite u12_pow by discriminate. rewrite finE_root. reflexivity.
Qed.
Theorem FE_mult f g e1 e2 : canon12 f -> canon12 g -> FinalExponentiation FqB f = Some e1 -> FinalExponentiation FqB g = Some e2 ->
  FinalExponentiation FqB (FQ12_MulAssign FqB f g) = Some (FQ12_MulAssign FqB e1 e2).
Proof.
  intros Cf Cg H1 H2. destruct (L12_mul f g Cf Cg) as [C V]. pose proof (FE_rel _ C) as H. rewrite V in H.
  destruct (optR12_inv _ _ _ (FE_rel f Cf) H1) as [C1 F1]. destruct (optR12_inv _ _ _ (FE_rel g Cg) H2) as [C2 F2].
  apply FE_some in F1, F2. destruct F1 as (u & U1 & U2), F2 as (v & V1 & V2).
  rewrite U1, V1, u12_A, FinalExponentiation_spec, gm_A, <- u12_A, <- U2, <- V2 in H. apply optR12_some in H. destruct H as (e & He & Ce & Ve).
  rewrite He. f_equal. destruct (L12_mul e1 e2 C1 C2) as [C3 V3]. apply val12_inj; [exact Ce|exact C3|]. rewrite V3. exact Ve.
Qed.

(** ** MillerLoop *)
Definition pr1 (it : Affine FQ * Affine (FQ2 FQ)) : Affine FQ * G2Prepared FQ := (fst it, G2AffineToPrepared FqB (snd it)).
Definition fin_item (it : Affine FQ * Affine (FQ2 FQ)) : Prop :=
  canonA1 (fst it) /\ canonA2 (snd it) /\ ainf (fst it) = false /\ ainf (snd it) = false.
Definition v_item (it : Affine FQ * Affine (FQ2 FQ)) : Affine Fq * G2Prepared Fq := (valA1 (fst it), G2AffineToPrepared FpB (valA2 (snd it))).
Lemma v_item_fit it : fin_item it -> fitem (v_item it).
Proof. intros (_ & _ & A & B). split; [exact A|]. apply prepared_length. exact B. Qed.
Lemma ML_rel items : (forall it, In it items -> fin_item it) -> optR (R12 RFq) (MillerLoop FqB (map pr1 items)) (MillerLoop FpB (map v_item items)).
Proof.
  intros H. apply (rel_MillerLoop FqB FpB RFq). induction items as [|it items IH]; cbn [map]; constructor.
  - destruct (H it (or_introl eq_refl)) as (A & B & _). split; cbn [fst snd pr1 v_item]; [apply RA1_val; auto|].
    apply (rel_G2AffineToPrepared FqB FpB RFq), RA2_val. auto.
  - apply IH. intros. apply H. right. assumption.
Qed.
Theorem ML_limb items : (forall it, In it items -> fin_item it) ->
  exists f, MillerLoop FqB (map pr1 items) = Some f /\ canon12 f /\ val12 f = prodl (map (fun it => k12_conj (mval (v_item it))) items).
Proof.
  intros H. pose proof (ML_rel items H) as R. rewrite MillerLoop_prod in R.
  - rewrite map_map in R. apply optR12_some in R. exact R.
  - intros it Hit. apply in_map_iff in Hit. destruct Hit as (x & <- & Hx). apply v_item_fit, H, Hx.
Qed.
Theorem ML_product items : (forall it, In it items -> fin_item it) ->
  exists f fs, MillerLoop FqB (map pr1 items) = Some f /\ canon12 f /\
    Forall2 (fun it g => MillerLoop FqB [pr1 it] = Some g /\ canon12 g) items fs /\ val12 f = fold_right k12_mul k12_1 (map val12 fs).
Proof.
  intros H. destruct (ML_limb items H) as (f & Hf & Cf & Vf). exists f.
  assert (exists fs, Forall2 (fun it g => MillerLoop FqB [pr1 it] = Some g /\ canon12 g) items fs /\ map val12 fs = map (fun it => k12_conj (mval (v_item it))) items) as (fs & F & E).
  { clear f Hf Cf Vf. induction items as [|it items IH]; [exists []; split; [constructor|reflexivity]|].
    destruct IH as (fs & F & E); [intros; apply H; right; assumption|].
    destruct (ML_limb [it]) as (g & Hg & Cg & Vg); [intros x [<-|[]]; apply H; left; reflexivity|]. cbn [map prodl fold_right] in *.
    exists (g :: fs). split; [constructor; [split; assumption|exact F]|]. cbn [map]. f_equal; [|exact E]. rewrite Vg. apply k12_mul_1_r. }
  exists fs. split; [exact Hf|]. split; [exact Cf|]. split; [exact F|]. rewrite E. exact Vf.
Qed.
Theorem ML_perm items items' : (forall it, In it items -> fin_item it) -> Permutation items items' ->
  MillerLoop FqB (map pr1 items) = MillerLoop FqB (map pr1 items').
Proof.
  intros H P. destruct (ML_limb items H) as (f & Hf & Cf & Vf).
  destruct (ML_limb items') as (g & Hg & Cg & Vg); [intros it Hit; apply H; eapply Permutation_in; [symmetry; exact P|exact Hit]|].
  rewrite Hf, Hg. f_equal. apply val12_inj; try assumption. rewrite Vf, Vg. apply prodl_perm, Permutation_map, P.
Qed.
Theorem ML_empty : MillerLoop FqB [] = Some (FQ12One FqB).
Proof.
  destruct (ML_limb [] (fun it H => match H with end)) as (f & Hf & Cf & Vf). cbn [map prodl fold_right] in *. rewrite Hf. f_equal.
  pose proof (rel_FQ12One FqB FpB RFq) as R. apply R12_val in R. destruct R as [C V]. apply val12_inj; [exact Cf|exact C|]. rewrite Vf, <- V. reflexivity.
Qed.

(** ** Pairing and CompareTwoPairings *)
Lemma Pairing_rel P Q : canonP1 P -> canonP2 Q -> optR (R12 RFq) (Pairing FqB P Q) (Pairing FpB (valP1 P) (valP2 Q)).
Proof. intros CP CQ. apply (rel_Pairing FqB FpB RFq); [apply RP1_val|apply RP2_val]; auto. Qed.
Lemma Compare_rel P1 Q1 P2 Q2 : canonP1 P1 -> canonP2 Q1 -> canonP1 P2 -> canonP2 Q2 ->
  CompareTwoPairings FqB P1 Q1 P2 Q2 = CompareTwoPairings FpB (valP1 P1) (valP2 Q1) (valP1 P2) (valP2 Q2).
Proof.
  intros C1 C2 C3 C4. pose proof (rel_CompareTwoPairings FqB FpB RFq P1 (valP1 P1) Q1 (valP2 Q1) P2 (valP1 P2) Q2 (valP2 Q2)) as H.
  specialize (H (proj2 (RP1_val _ _) (conj C1 eq_refl)) (proj2 (RP2_val _ _) (conj C2 eq_refl)) (proj2 (RP1_val _ _) (conj C3 eq_refl)) (proj2 (RP2_val _ _) (conj C4 eq_refl))).
  destruct (CompareTwoPairings FqB P1 Q1 P2 Q2), (CompareTwoPairings FpB _ _ _ _); cbn [optR] in H; congruence || contradiction.
Qed.
Theorem Compare_limb P1 Q1 P2 Q2 e1 e2 : canonP1 P1 -> canonP2 Q1 -> canonP1 P2 -> canonP2 Q2 ->
  Pairing FqB P1 Q1 = Some e1 -> Pairing FqB P2 Q2 = Some e2 ->
  exists b, CompareTwoPairings FqB P1 Q1 P2 Q2 = Some b /\ (b = true <-> e1 = e2).
Proof.
  intros C1 C2 C3 C4 H1 H2. destruct (optR12_inv _ _ _ (Pairing_rel _ _ C1 C2) H1) as [D1 F1]. destruct (optR12_inv _ _ _ (Pairing_rel _ _ C3 C4) H2) as [D2 F2].
  rewrite Compare_rel by assumption. rewrite (Compare_pairings _ _ _ _ _ _ F1 F2). eexists. split; [reflexivity|].
  destruct (k12_dec (val12 e1) (val12 e2)) as [E|N]; split; intros X; try congruence.
  - apply val12_inj; assumption.
Qed.
Theorem Pairing_neg_limb P Q e : canonP1 P -> canonP2 Q -> Pairing FqB P Q = Some e ->
  exists e', Pairing FqB (Proj_NegAssign FqO P) Q = Some e' /\ FQ12_MulAssign FqB e' e = FQ12One FqB.
Proof.
  intros C1 C2 H. destruct (optR12_inv _ _ _ (Pairing_rel _ _ C1 C2) H) as [D F]. apply Pairing_neg in F. destruct F as (e' & F & M).
  assert (RP RFq (Proj_NegAssign FqO P) (Proj_NegAssign FpO (valP1 P))) as N by (unshelve eapply (rel_Proj_NegAssign FqO FpO RFq); [exact HR1|apply RP1_val; auto]).
  assert (optR (R12 RFq) (Pairing FqB (Proj_NegAssign FqO P) Q) (Pairing FpB (Proj_NegAssign FpO (valP1 P)) (valP2 Q))) as R by (apply (rel_Pairing FqB FpB RFq); [exact N|apply RP2_val; auto]).
  rewrite F in R. apply optR12_some in R. destruct R as (g & Hg & Cg & Vg). exists g. split; [exact Hg|].
  pose proof (rel_FQ12One FqB FpB RFq) as R1. apply R12_val in R1. destruct R1 as [CO VO]. destruct (L12_mul g e Cg D) as [CM VM].
  apply val12_inj; [exact CM|exact CO|]. rewrite VM, <- VO, Vg. exact M.
Qed.
(** A pairing result exists exactly when both points are finite and the Miller value is not zero; with a point at
    infinity the Go code panics. *)
Lemma jac1_rep P : jac1 P = repj FldQ (valP1 P). Proof. unfold jac1, jac. reflexivity. Qed.
Lemma jac2_rep P : jac2 P = repj FldQ2 (valP2 P). Proof. unfold jac2, jac. reflexivity. Qed.
Theorem Pairing_inf_limb P Q : canonP1 P -> canonP2 Q -> jac1 P = Inf \/ jac2 Q = Inf -> Pairing FqB P Q = None.
Proof. intros C1 C2 H. pose proof (Pairing_rel P Q C1 C2) as R. rewrite jac1_rep, jac2_rep in H. rewrite (Pairing_inf (valP1 P) (valP2 Q) H) in R. apply optR12_none, R. Qed.
Theorem Compare_inf_limb P1 Q1 P2 Q2 : canonP1 P1 -> canonP2 Q1 -> canonP1 P2 -> canonP2 Q2 ->
  jac1 P1 = Inf \/ jac2 Q1 = Inf \/ jac1 P2 = Inf \/ jac2 Q2 = Inf -> CompareTwoPairings FqB P1 Q1 P2 Q2 = None.
Proof. intros C1 C2 C3 C4 H. rewrite !jac1_rep, !jac2_rep in H. rewrite Compare_rel by assumption. exact (Compare_inf (valP1 P1) (valP2 Q1) (valP1 P2) (valP2 Q2) H). Qed.
