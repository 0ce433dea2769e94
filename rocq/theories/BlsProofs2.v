(** The protocol layer, continued: dependence on the represented points only, the pairing equation of
    VerifyAggregate, encodings of keys. *)
Require Import ZArith Lia Bool List Permutation Znumtheory Ring Field.
From Verif Require Import Words ModelRepr ReprProofs ReprProofs2 ModelFq ModelFr ModelOps ModelTower ModelCurve ModelPairing ModelHash ModelBls NumTheory Primality Fp FpOps FqProofs FqProofs2 FqRel FrProofs OpsRel OpsRel2 FqTransfer Ext TowerProofs TowerLimb Fld AbGrp EcGroup EcJac EcMul Curves CurveLimb CurveMisc Codec Miller PairBasic PairLimb GenFacts MsgScreen BlsProofs.
Import ListNotations.
Open Scope Z_scope.

Section Sq0.
Context (K : Fld).
Add Field KFsq : (fTh K).
Lemma sq_zero_gen (y y' : K) : (y * y = y' * y')%F -> y = 0%F -> y' = 0%F.
Proof.
  intros E ->. destruct (fDec y' 0%F) as [|N]; [assumption|]. exfalso. apply (fld_mul_ne K y' y' N N). rewrite <- E. ring.
Qed.
End Sq0.
Definition sq_zero_1 (y y' : FldQ) := sq_zero_gen FldQ y y'.
Definition sq_zero_2 (y y' : FldQ2) := sq_zero_gen FldQ2 y y'.

Lemma xbytes_inj x x' : xbytes x = xbytes x' -> x = x'.
Proof. intros E. rewrite <- (xread_xbytes x), <- (xread_xbytes x'), E. reflexivity. Qed.
Lemma flagged_inj g h g' h' : 0 <= h < 32 -> 0 <= h' < 32 -> flagged g h = flagged g' h' -> g = g' /\ h = h'.
Proof.
  intros H H' E. destruct (flag_write h g H) as (_ & _ & _ & A & B). destruct (flag_write h' g' H') as (_ & _ & _ & A' & B'). rewrite E in A, B.
  split; [|congruence]. rewrite A' in A. destruct g, g'; try reflexivity; discriminate A.
Qed.
Lemma flagged_192 g h : 0 <= h < 32 -> flagged g h <> 192.
Proof. intros H E. destruct (flag_write h g H) as (_ & _ & B & _). rewrite E in B. discriminate B. Qed.
Lemma compress1_fin_inf x y : CompressG1 FpB (mkAff x y false) = CompressG1 FpB (AffineZero FpO) -> False.
Proof. destruct (xbytes_head x) as (h & t & E & Hh & _). rewrite (compress1_fin x y h t E), compress1_inf. intros X. injection X as X _. exact (flagged_192 _ _ Hh X). Qed.
Lemma compress1_fin_inj x y x' y' : on1 (Pt x y) -> on1 (Pt x' y') -> CompressG1 FpB (mkAff x y false) = CompressG1 FpB (mkAff x' y' false) -> Pt (K := FldQ) x y = Pt (K := FldQ) x' y'.
Proof.
  intros H H' E. destruct (xbytes_head x) as (h & t & Ex & Hh & _). destruct (xbytes_head x') as (h' & t' & Ex' & Hh' & _).
  pose proof E as E0. rewrite (compress1_fin x y h t Ex), (compress1_fin x' y' h' t' Ex') in E. injection E as E1 <-. destruct (flagged_inj _ _ _ _ Hh Hh' E1) as [Eg <-].
  assert (x = x') as <- by (apply xbytes_inj; congruence). clear Ex Ex' Hh Hh' E1 h t.
  destruct (Fp_dec y (f0 q)) as [Z|N].
  - destruct (Fp_dec y' (f0 q)) as [Z'|N']; [congruence|]. exfalso. apply N'. pose proof (eq_trans H (eq_sym H')) as S. apply (sq_zero_1 y y' S Z).
  - destruct (Fp_dec y' (f0 q)) as [Z'|N']; [exfalso; apply N; exact (sq_zero_1 y' y (eq_trans H' (eq_sym H)) Z')|].
    pose proof (decompress1_compress x y H N) as D. pose proof (decompress1_compress x y' H' N') as D'. rewrite E0, D' in D. apply some_inj in D. apply (f_equal (@ay Fq)) in D. cbn [ay] in D. rewrite D. reflexivity.
Qed.

(** ** G1 *)
Lemma ainf1 A : aff1 A <> Inf -> ainf A = false.
Proof. destruct A as [x y [|]]; [|reflexivity]. intros H. exfalso. apply H. reflexivity. Qed.
Lemma aff1_fin A : ainf A = false -> aff1 A <> Inf.
Proof. destruct A as [x y [|]]; [discriminate|]. intros _ H. discriminate H. Qed.
Lemma toaff1_inf P : canonP1 P -> jac1 P = Inf -> G1_ToAffine FqO P = AffineZero FqO.
Proof. intros C E. unfold G1_ToAffine. rewrite (proj2 (G1_iszero P C) E). reflexivity. Qed.
Lemma toaff1_eq P P' : canonP1 P -> canonP1 P' -> jac1 P = jac1 P' -> G1_ToAffine FqO P = G1_ToAffine FqO P'.
Proof.
  intros C C' E. destruct (Proj_IsZero FqO P) eqn:Z.
  - apply (G1_iszero P C) in Z. rewrite (toaff1_inf P C Z), (toaff1_inf P' C') by congruence. reflexivity.
  - destruct (G1_toaffine P C) as [A1 A2]. destruct (G1_toaffine P' C') as [A1' A2']. apply G1_aff_inj; [assumption|assumption| |congruence].
    apply ainf1. rewrite A2. intros X. apply (G1_iszero P C) in X. congruence.
Qed.
(** equal keys serialize equally, and conversely on the curve *)
Lemma compress1_inj P P' : canonP1 P -> canonP1 P' -> on1 (jac1 P) -> on1 (jac1 P') ->
  CompressG1 FqB (G1_ToAffine FqO P) = CompressG1 FqB (G1_ToAffine FqO P') -> jac1 P = jac1 P'.
Proof.
  intros C C' H H' E. destruct (G1_toaffine P C) as [A1 A2]. destruct (G1_toaffine P' C') as [A1' A2'].
  rewrite <- A2 in H |- *. rewrite <- A2' in H' |- *. rewrite (compress1_val _ A1), (compress1_val _ A1') in E.
  assert (forall P, canonP1 P -> ainf (G1_ToAffine FqO P) = true -> valA1 (G1_ToAffine FqO P) = AffineZero FpO) as ZZ.
  { intros P0 C0 I. destruct (G1_toaffine P0 C0) as [_ X]. assert (jac1 P0 = Inf) as J by (rewrite <- X; destruct (G1_ToAffine FqO P0) as [x y [|]]; [reflexivity|discriminate]).
    rewrite (toaff1_inf P0 C0 J). exact azero1_val. }
  pose proof (ZZ P C) as Z1. pose proof (ZZ P' C') as Z2. clear ZZ A1 A1' A2 A2'.
  destruct (G1_ToAffine FqO P) as [x y [|]], (G1_ToAffine FqO P') as [x' y' [|]]; cbn [ainf] in Z1, Z2.
  - reflexivity.
  - exfalso. rewrite Z1 in E by reflexivity. exact (compress1_fin_inf _ _ (eq_sym E)).
  - exfalso. rewrite Z2 in E by reflexivity. exact (compress1_fin_inf _ _ E).
  - change (Pt (fqval x) (fqval y) = Pt (fqval x') (fqval y')). exact (compress1_fin_inj _ _ _ _ H H' E).
Qed.

Lemma compress2_fin_inf x y : CompressG2 FpB (mkAff x y false) = CompressG2 FpB (AffineZero (FQ2O FpB)) -> False.
Proof.
  destruct (xbytes_head (c1 x)) as (h & t & E & Hh & _). rewrite (compress2_fin x y h t E). change (CompressG2 FpB (AffineZero (FQ2O FpB))) with (192 :: repeat 0 95).
  intros X. injection X as X _. exact (flagged_192 _ _ Hh X).
Qed.
Lemma compress2_fin_inj x y x' y' : on2 (Pt x y) -> on2 (Pt x' y') -> CompressG2 FpB (mkAff x y false) = CompressG2 FpB (mkAff x' y' false) -> Pt (K := FldQ2) x y = Pt (K := FldQ2) x' y'.
Proof.
  intros H H' E. destruct (xbytes_head (c1 x)) as (h & t & Ex & Hh & _ & Lt). destruct (xbytes_head (c1 x')) as (h' & t' & Ex' & Hh' & _ & Lt').
  pose proof E as E0. rewrite (compress2_fin x y h t Ex), (compress2_fin x' y' h' t' Ex') in E. injection E as E1 E2. destruct (flagged_inj _ _ _ _ Hh Hh' E1) as [Eg <-].
  assert (t = t' /\ xbytes (c0 x) = xbytes (c0 x')) as [<- E3].
  { split; [apply (f_equal (firstn 47)) in E2|apply (f_equal (skipn 47)) in E2].
    - rewrite <- Lt in E2 at 1. rewrite <- Lt' in E2. rewrite !firstn_app, !firstn_all, !Nat.sub_diag in E2. cbn [firstn] in E2. rewrite !app_nil_r in E2. exact E2.
    - rewrite <- Lt in E2 at 1. rewrite <- Lt' in E2. rewrite !skipn_app, !skipn_all, !Nat.sub_diag in E2. exact E2. }
  assert (x = x') as <- by (destruct x as [a b], x' as [a' b']; cbn [c0 c1] in *; f_equal; apply xbytes_inj; congruence). clear Ex Ex' Hh Hh' E1 E2 E3 h t Lt Lt'.
  destruct (k2_dec y k2_0) as [Z|N].
  - destruct (k2_dec y' k2_0) as [Z'|N']; [congruence|]. exfalso. apply N'. exact (sq_zero_2 y y' (eq_trans H (eq_sym H')) Z).
  - destruct (k2_dec y' k2_0) as [Z'|N']; [exfalso; apply N; exact (sq_zero_2 y' y (eq_trans H' (eq_sym H)) Z')|].
    pose proof (decompress2_compress x y H N) as D. pose proof (decompress2_compress x y' H' N') as D'. rewrite E0, D' in D. apply some_inj in D. apply (f_equal (@ay K2)) in D. cbn [ay] in D. rewrite D. reflexivity.
Qed.

(** ** G2 *)
Lemma ainf2 A : aff2 A <> Inf -> ainf A = false.
Proof. destruct A as [x y [|]]; [|reflexivity]. intros H. exfalso. apply H. reflexivity. Qed.
Lemma aff2_fin A : ainf A = false -> aff2 A <> Inf.
Proof. destruct A as [x y [|]]; [discriminate|]. intros _ H. discriminate H. Qed.
Lemma toaff2_inf P : canonP2 P -> jac2 P = Inf -> G2_ToAffine FqO2 P = AffineZero FqO2.
Proof. intros C E. unfold G2_ToAffine. rewrite (proj2 (G2_iszero P C) E). reflexivity. Qed.
Lemma toaff2_eq P P' : canonP2 P -> canonP2 P' -> jac2 P = jac2 P' -> G2_ToAffine FqO2 P = G2_ToAffine FqO2 P'.
Proof.
  intros C C' E. destruct (Proj_IsZero FqO2 P) eqn:Z.
  - apply (G2_iszero P C) in Z. rewrite (toaff2_inf P C Z), (toaff2_inf P' C') by congruence. reflexivity.
  - destruct (G2_toaffine P C) as [A1 A2]. destruct (G2_toaffine P' C') as [A1' A2']. apply G2_aff_inj; [assumption|assumption| |congruence].
    apply ainf2. rewrite A2. intros X. apply (G2_iszero P C) in X. congruence.
Qed.
(** equal keys serialize equally, and conversely on the curve *)
Lemma compress2_inj P P' : canonP2 P -> canonP2 P' -> on2 (jac2 P) -> on2 (jac2 P') ->
  CompressG2 FqB (G2_ToAffine FqO2 P) = CompressG2 FqB (G2_ToAffine FqO2 P') -> jac2 P = jac2 P'.
Proof.
  intros C C' H H' E. destruct (G2_toaffine P C) as [A1 A2]. destruct (G2_toaffine P' C') as [A1' A2'].
  rewrite <- A2 in H |- *. rewrite <- A2' in H' |- *. rewrite (compress2_val _ A1), (compress2_val _ A1') in E.
  assert (forall P, canonP2 P -> ainf (G2_ToAffine FqO2 P) = true -> valA2 (G2_ToAffine FqO2 P) = AffineZero (FQ2O FpB)) as ZZ.
  { intros P0 C0 I. destruct (G2_toaffine P0 C0) as [_ X]. assert (jac2 P0 = Inf) as J by (rewrite <- X; destruct (G2_ToAffine FqO2 P0) as [x y [|]]; [reflexivity|discriminate]).
    rewrite (toaff2_inf P0 C0 J). exact azero2_val. }
  pose proof (ZZ P C) as Z1. pose proof (ZZ P' C') as Z2. clear ZZ A1 A1' A2 A2'.
  destruct (G2_ToAffine FqO2 P) as [x y [|]], (G2_ToAffine FqO2 P') as [x' y' [|]]; cbn [ainf] in Z1, Z2.
  - reflexivity.
  - exfalso. rewrite Z1 in E by reflexivity. exact (compress2_fin_inf _ _ (eq_sym E)).
  - exfalso. rewrite Z2 in E by reflexivity. exact (compress2_fin_inf _ _ E).
  - change (Pt (val2 x) (val2 y) = Pt (val2 x') (val2 y')). exact (compress2_fin_inj _ _ _ _ H H' E).
Qed.
