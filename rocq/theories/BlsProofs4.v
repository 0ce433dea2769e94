(** Statements used by Properties_Bls. *)
Require Import ZArith Lia Bool List Permutation Znumtheory.
From Verif Require Import Words ModelRepr ReprProofs ReprProofs2 ModelFq ModelFr ModelOps ModelTower ModelCurve ModelPairing ModelHash ModelBls NumTheory Primality Fp FpOps FqProofs FqProofs2 FqRel FrProofs OpsRel OpsRel2 FqTransfer Ext TowerProofs TowerLimb Fld AbGrp EcGroup EcJac EcMul Curves CurveLimb CurveMisc Codec Miller PairBasic PairLimb GenFacts MsgScreen BlsProofs BlsProofs2 BlsProofs3 BlsKeys.
Import ListNotations.
Open Scope Z_scope.
Lemma prod12_none es : In None es -> prod12 es = None.
Proof. induction es as [|o es IH]; [intros []|]. intros [->|H]; cbn [prod12 fold_right]; [reflexivity|]. fold (prod12 es). rewrite (IH H). destruct o; reflexivity. Qed.
Lemma term1_def sha P m : term1 sha (P, m) = match HashG2 sha FqB m with None => None | Some h => Pairing FqB P (Affine_ToProjective FqO2 h) end.
Proof. unfold term1, termB1. cbn [fst snd]. reflexivity. Qed.
Lemma term2_def sha P m : term2 sha (P, m) = match HashG1 sha FqB m with None => None | Some h => Pairing FqB (Affine_ToProjective FqO h) P end.
Proof. unfold term2, termB2. cbn [fst snd]. reflexivity. Qed.
Lemma vocabulary :
  (forall P, valid1 P <-> canonP1 P /\ on1 (jac1 P)) /\ (forall P, valid2 P <-> canonP2 P /\ on2 (jac2 P)) /\
  sum1 [] = Inf /\ (forall P l, sum1 (P :: l) = plus1 P (sum1 l)) /\ sum2 [] = Inf /\ (forall P l, sum2 (P :: l) = plus2 P (sum2 l)) /\
  (forall sha P m, term1 sha (P, m) = match HashG2 sha FqB m with None => None | Some h => Pairing FqB P (Affine_ToProjective FqO2 h) end) /\
  (forall sha P m, term2 sha (P, m) = match HashG1 sha FqB m with None => None | Some h => Pairing FqB (Affine_ToProjective FqO h) P end) /\
  (forall es, prod12 (map Some es) = Some (fold_right k12_mul k12_1 (map val12 es))) /\ (forall es, In None es -> prod12 es = None).
Proof.
  split; [intros P; reflexivity|]. split; [intros P; reflexivity|]. split; [reflexivity|]. split; [reflexivity|]. split; [reflexivity|]. split; [reflexivity|].
  split; [exact term1_def|]. split; [exact term2_def|]. split; [exact prod12_some|exact prod12_none].
Qed.
Lemma constants58 :
  eval6 QFieldModulus = q /\ eval6 FQR2 = 2 ^ 768 mod q /\ (1 + montInvFQ * q) mod 2 ^ 64 = 0 /\ eval6 negativeOne = q - 1 /\ fval negativeOneFQ = q - 1 /\ fval FQOne = 1 /\
  eval6 qMinus1Over2 = (q - 1) / 2 /\ eval6 qMinus3Over4 = (q - 3) / 4 /\ q mod 4 = 3 /\
  eval4 RFieldModulus = r /\ eval4 FRR = 2 ^ 256 mod r /\ eval4 FRR2 = 2 ^ 512 mod r /\ (1 + montInvFR * r) mod 2 ^ 64 = 0 /\ eval4 rMinus1Over2 = (r - 1) / 2 /\ eval4 frChar = r.
Proof. repeat split; vm_compute; reflexivity. Qed.
Lemma parameters58 : let x := - eval6 blsX in
  r = x ^ 4 - x ^ 2 + 1 /\ 3 * q = (x - 1) ^ 2 * r + 3 * x /\
  3 * eval6 g1Cofactor = (x - 1) ^ 2 /\ eval6 g1Cofactor * r = q + 1 - (x + 1) /\
  9 * g2Cofactor = x ^ 8 - 4 * x ^ 7 + 5 * x ^ 6 - 4 * x ^ 4 + 6 * x ^ 3 - 4 * x ^ 2 - 4 * x + 13.
Proof. cbv zeta. repeat split; vm_compute; reflexivity. Qed.
Lemma coefficients58 : fval (BCoeff FqB) = 4 /\ fval (c0 (BCoeffFQ2 FqB)) = 4 /\ fval (c1 (BCoeffFQ2 FqB)) = 4.
Proof. repeat split; vm_compute; reflexivity. Qed.
Lemma key_refuted : exists b, length b = 32%nat /\ Forall isByte b /\ r <= be_value b /\ DeserializeSecretKey b = None /\
  forall sha m, g1pubs_Sign sha FqB m (DeserializeSecretKey b) = None /\ g1pubs_PrivToPub FqB (DeserializeSecretKey b) = None /\
    g2pubs_Sign sha FqB m (DeserializeSecretKey b) = None /\ g2pubs_PrivToPub FqB (DeserializeSecretKey b) = None /\ SecretKey_Serialize (DeserializeSecretKey b) = None.
Proof.
  exists (repeat 255 32). assert (DeserializeSecretKey (repeat 255 32) = None) as E by (vm_compute; reflexivity).
  split; [reflexivity|]. split; [apply Forall_forall; intros x Hx; apply repeat_spec in Hx; subst; split; [discriminate|reflexivity]|]. split; [vm_compute; discriminate|]. split; [exact E|].
  intros sha m. rewrite E. exact (nil_key sha FqB m).
Qed.
Lemma F2map {A B} (f : A -> option B) l l' : Forall2 (fun a b => f a = Some b) l l' -> map f l = map Some l'.
Proof. induction 1 as [|a b l l' E _ IH]; [reflexivity|]. cbn [map]. rewrite E, IH. reflexivity. Qed.
Lemma F2map' {A B} (f : A -> B) l l' : Forall2 (fun a b => Some (f a) = Some b) l l' -> l' = map f l.
Proof. induction 1 as [|a b l l' E _ IH]; [reflexivity|]. cbn [map]. injection E as ->. rewrite IH. reflexivity. Qed.

Lemma one1_toproj : valid1 (G1ProjectiveOne FqB).
Proof. split; [exact G1pone_canon|]. rewrite G1pone_jac. exact G1one_on. Qed.
Lemma ex43_1 : Forall valid1 [G1ProjectiveOne FqB; Proj_NegAssign FqO (G1ProjectiveOne FqB)] /\
  jac1 (g1pubs_AggregatePublicKeys FqB [G1ProjectiveOne FqB; Proj_NegAssign FqO (G1ProjectiveOne FqB)]) = Inf /\
  jac1 (g1pubs_AggregatePublicKeys FqB [G1ProjectiveOne FqB]) <> Inf.
Proof.
  destruct (G1_neg _ G1pone_canon) as [C E]. assert (valid1 (Proj_NegAssign FqO (G1ProjectiveOne FqB))) as V by (split; [exact C|rewrite E; apply G1_on_neg, one1_toproj]).
  assert (Forall valid1 [G1ProjectiveOne FqB; Proj_NegAssign FqO (G1ProjectiveOne FqB)]) as H by (constructor; [exact one1_toproj|constructor; [exact V|constructor]]).
  split; [exact H|]. split.
  - refine (eq_trans (proj2 (agg1 _ H)) _). cbn [map sum1 fold_right]. rewrite plus1_0_r, E. apply G1_plus_neg.
  - assert (Forall valid1 [G1ProjectiveOne FqB]) as H1 by (constructor; [exact one1_toproj|constructor]). intros Z0. apply (eq_trans (eq_sym (proj2 (agg1 _ H1)))) in Z0. revert Z0. cbn [map sum1 fold_right]. rewrite plus1_0_r, G1pone_jac.
    exact (fun Z => gen1_ne (ec_eq E1 gen1 (@gO (EC E1)) Z)).
Qed.
Lemma pub_spec1 k : rcanon k -> exists P, g1pubs_PrivToPub FqB (Some k) = Some P /\ valid1 P /\ jac1 P = mul1 (rval k) (aff1 (G1AffineOne FqB)) /\
  (jac1 P = Inf <-> rval k = 0).
Proof.
  intros H. destruct (smul1_val _ k G1one_canon G1one_on H) as [V E]. exists (smul1 (G1AffineOne FqB) k). split; [reflexivity|]. split; [exact V|]. split; [exact E|].
  rewrite E, one1_mul. pose proof (rval_bound k) as B. split; [|intros ->; apply Z.divide_0_r]. intros D. destruct (Z.eq_dec (rval k) 0) as [Z|N]; [exact Z|]. apply Z.divide_pos_le in D; lia.
Qed.
Lemma keys_hom1 ks k Ps P : Forall rcanon ks -> rcanon k -> rval k = fold_right Z.add 0 (map rval ks) mod r ->
  Forall2 (fun k P => g1pubs_PrivToPub FqB (Some k) = Some P) ks Ps -> g1pubs_PrivToPub FqB (Some k) = Some P ->
  jac1 (g1pubs_AggregatePublicKeys FqB Ps) = jac1 P.
Proof.
  intros H Hk E F2 EP. assert (Ps = map (smul1 (G1AffineOne FqB)) ks) as -> by exact (F2map' (smul1 (G1AffineOne FqB)) ks Ps F2).
  assert (smul1 (G1AffineOne FqB) k = P) as <- by exact (some_inj _ _ EP).
  exact (smul1_agg _ ks k G1one_canon G1one_on G1one_torsion H Hk E).
Qed.
Lemma sign1 sha m h k : HashG2 sha FqB m = Some h -> g1pubs_Sign sha FqB m (Some k) = Some (smul2 h k).
Proof. intros E. unfold g1pubs_Sign. rewrite E. reflexivity. Qed.
Lemma sigs_hom1 sha m h ks k Ss S : HashG2 sha FqB m = Some h -> on2 (aff2 h) -> mul2 r (aff2 h) = Inf ->
  Forall rcanon ks -> rcanon k -> rval k = fold_right Z.add 0 (map rval ks) mod r ->
  Forall2 (fun k S => g1pubs_Sign sha FqB m (Some k) = Some S) ks Ss -> g1pubs_Sign sha FqB m (Some k) = Some S ->
  jac2 (g1pubs_AggregateSignatures FqB Ss) = jac2 S.
Proof.
  intros Eh On T H Hk E F2 ES. rewrite (sign1 sha m h k Eh) in ES. apply some_inj in ES. subst S.
  assert (Ss = map (smul2 h) ks) as ->.
  { apply (F2map' (smul2 h)). clear - F2 Eh. induction F2 as [|a b l l' X _ IH]; [constructor|]. constructor; [|exact IH]. rewrite <- X. symmetry. exact (sign1 sha m h a Eh). }
  exact (smul2_agg h ks k (hash2_canon sha m h Eh) On T H Hk E).
Qed.
Lemma equals_serialize1 P P' : valid1 P -> valid1 P' ->
  (g1pubs_PublicKey_Equals FqB P P' = true <-> g1pubs_PublicKey_Serialize FqB P = g1pubs_PublicKey_Serialize FqB P').
Proof.
  intros [C O] [C' O']. unfold g1pubs_PublicKey_Equals, g1pubs_PublicKey_Serialize. rewrite (G1_equal P P' C C'). split.
  - intros E. exact (f_equal (CompressG1 FqB) (toaff1_eq P P' C C' E)).
  - exact (compress1_inj P P' C C' O O').
Qed.
Lemma sig_serialize1 S S' : valid2 S -> valid2 S' ->
  (jac2 S = jac2 S' <-> g1pubs_Signature_Serialize FqB S = g1pubs_Signature_Serialize FqB S').
Proof.
  intros [C O] [C' O']. unfold g1pubs_Signature_Serialize. split.
  - intros E. exact (f_equal (CompressG2 FqB) (toaff2_eq S S' C C' E)).
  - exact (compress2_inj S S' C C' O O').
Qed.
Lemma reserialize1 P : valid1 P -> mul1 r (jac1 P) = Inf ->
  exists P', g1pubs_DeserializePublicKey FqB (g1pubs_PublicKey_Serialize FqB P) = Some P' /\ valid1 P' /\ g1pubs_PublicKey_Equals FqB P P' = true.
Proof.
  intros [C O] T. destruct (G1_toaffine P C) as [Ca Ea]. pose proof O as O'. rewrite <- Ea in T, O.
  assert (sub1 (G1_ToAffine FqO P)) as S.
  { split; [exact Ca|]. split; [exact O|]. split; [exact T|]. intros I. assert (jac1 P = Inf) as J by (rewrite <- Ea; destruct (G1_ToAffine FqO P) as [x y [|]]; [reflexivity|discriminate I]). exact (toaff1_inf P C J). }
  pose proof (G1_roundtrip_sub _ S) as R. destruct (G1_toproj _ Ca) as [C' E']. exists (Affine_ToProjective FqO (G1_ToAffine FqO P)).
  assert (jac1 P = jac1 (Affine_ToProjective FqO (G1_ToAffine FqO P))) as J by (rewrite E', Ea; reflexivity).
  split; [exact (f_equal (option_map (Affine_ToProjective FqO)) R)|]. split; [split; [exact C'|rewrite <- J; exact O']|]. exact (proj2 (G1_equal _ _ C C') J).
Qed.

Lemma one2_toproj : valid2 (G2ProjectiveOne FqB).
Proof. split; [exact G2pone_canon|]. rewrite G2pone_jac. exact G2one_on. Qed.
Lemma ex43_2 : Forall valid2 [G2ProjectiveOne FqB; Proj_NegAssign FqO2 (G2ProjectiveOne FqB)] /\
  jac2 (g2pubs_AggregatePublicKeys FqB [G2ProjectiveOne FqB; Proj_NegAssign FqO2 (G2ProjectiveOne FqB)]) = Inf /\
  jac2 (g2pubs_AggregatePublicKeys FqB [G2ProjectiveOne FqB]) <> Inf.
Proof.
  destruct (G2_neg _ G2pone_canon) as [C E]. assert (valid2 (Proj_NegAssign FqO2 (G2ProjectiveOne FqB))) as V by (split; [exact C|rewrite E; apply G2_on_neg, one2_toproj]).
  assert (Forall valid2 [G2ProjectiveOne FqB; Proj_NegAssign FqO2 (G2ProjectiveOne FqB)]) as H by (constructor; [exact one2_toproj|constructor; [exact V|constructor]]).
  split; [exact H|]. split.
  - refine (eq_trans (proj2 (agg2 _ H)) _). cbn [map sum2 fold_right]. rewrite plus2_0_r, E. apply G2_plus_neg.
  - assert (Forall valid2 [G2ProjectiveOne FqB]) as H1 by (constructor; [exact one2_toproj|constructor]). intros Z0. apply (eq_trans (eq_sym (proj2 (agg2 _ H1)))) in Z0. revert Z0. cbn [map sum2 fold_right]. rewrite plus2_0_r, G2pone_jac.
    exact (fun Z => gen2_ne (ec_eq E2 gen2 (@gO (EC E2)) Z)).
Qed.
Lemma pub_spec2 k : rcanon k -> exists P, g2pubs_PrivToPub FqB (Some k) = Some P /\ valid2 P /\ jac2 P = mul2 (rval k) (aff2 (G2AffineOne FqB)) /\
  (jac2 P = Inf <-> rval k = 0).
Proof.
  intros H. destruct (smul2_val _ k G2one_canon G2one_on H) as [V E]. exists (smul2 (G2AffineOne FqB) k). split; [reflexivity|]. split; [exact V|]. split; [exact E|].
  rewrite E, one2_mul. pose proof (rval_bound k) as B. split; [|intros ->; apply Z.divide_0_r]. intros D. destruct (Z.eq_dec (rval k) 0) as [Z|N]; [exact Z|]. apply Z.divide_pos_le in D; lia.
Qed.
Lemma keys_hom2 ks k Ps P : Forall rcanon ks -> rcanon k -> rval k = fold_right Z.add 0 (map rval ks) mod r ->
  Forall2 (fun k P => g2pubs_PrivToPub FqB (Some k) = Some P) ks Ps -> g2pubs_PrivToPub FqB (Some k) = Some P ->
  jac2 (g2pubs_AggregatePublicKeys FqB Ps) = jac2 P.
Proof.
  intros H Hk E F2 EP. assert (Ps = map (smul2 (G2AffineOne FqB)) ks) as -> by exact (F2map' (smul2 (G2AffineOne FqB)) ks Ps F2).
  assert (smul2 (G2AffineOne FqB) k = P) as <- by exact (some_inj _ _ EP).
  exact (smul2_agg _ ks k G2one_canon G2one_on G2one_torsion H Hk E).
Qed.
Lemma sign2 sha m h k : HashG1 sha FqB m = Some h -> g2pubs_Sign sha FqB m (Some k) = Some (smul1 h k).
Proof. intros E. unfold g2pubs_Sign. rewrite E. reflexivity. Qed.
Lemma sigs_hom2 sha m h ks k Ss S : HashG1 sha FqB m = Some h -> on1 (aff1 h) -> mul1 r (aff1 h) = Inf ->
  Forall rcanon ks -> rcanon k -> rval k = fold_right Z.add 0 (map rval ks) mod r ->
  Forall2 (fun k S => g2pubs_Sign sha FqB m (Some k) = Some S) ks Ss -> g2pubs_Sign sha FqB m (Some k) = Some S ->
  jac1 (g2pubs_AggregateSignatures FqB Ss) = jac1 S.
Proof.
  intros Eh On T H Hk E F2 ES. rewrite (sign2 sha m h k Eh) in ES. apply some_inj in ES. subst S.
  assert (Ss = map (smul1 h) ks) as ->.
  { apply (F2map' (smul1 h)). clear - F2 Eh. induction F2 as [|a b l l' X _ IH]; [constructor|]. constructor; [|exact IH]. rewrite <- X. symmetry. exact (sign2 sha m h a Eh). }
  exact (smul1_agg h ks k (hash1_canon sha m h Eh) On T H Hk E).
Qed.
Lemma equals_serialize2 P P' : valid2 P -> valid2 P' ->
  (g2pubs_PublicKey_Equals FqB P P' = true <-> g2pubs_PublicKey_Serialize FqB P = g2pubs_PublicKey_Serialize FqB P').
Proof.
  intros [C O] [C' O']. unfold g2pubs_PublicKey_Equals, g2pubs_PublicKey_Serialize. rewrite (G2_equal P P' C C'). split.
  - intros E. exact (f_equal (CompressG2 FqB) (toaff2_eq P P' C C' E)).
  - exact (compress2_inj P P' C C' O O').
Qed.
Lemma sig_serialize2 S S' : valid1 S -> valid1 S' ->
  (jac1 S = jac1 S' <-> g2pubs_Signature_Serialize FqB S = g2pubs_Signature_Serialize FqB S').
Proof.
  intros [C O] [C' O']. unfold g2pubs_Signature_Serialize. split.
  - intros E. exact (f_equal (CompressG1 FqB) (toaff1_eq S S' C C' E)).
  - exact (compress1_inj S S' C C' O O').
Qed.
Lemma reserialize2 P : valid2 P -> mul2 r (jac2 P) = Inf ->
  exists P', g2pubs_DeserializePublicKey FqB (g2pubs_PublicKey_Serialize FqB P) = Some P' /\ valid2 P' /\ g2pubs_PublicKey_Equals FqB P P' = true.
Proof.
  intros [C O] T. destruct (G2_toaffine P C) as [Ca Ea]. pose proof O as O'. rewrite <- Ea in T, O.
  assert (sub2 (G2_ToAffine FqO2 P)) as S.
  { split; [exact Ca|]. split; [exact O|]. split; [exact T|]. intros I. assert (jac2 P = Inf) as J by (rewrite <- Ea; destruct (G2_ToAffine FqO2 P) as [x y [|]]; [reflexivity|discriminate I]). exact (toaff2_inf P C J). }
  pose proof (G2_roundtrip_sub _ S) as R. destruct (G2_toproj _ Ca) as [C' E']. exists (Affine_ToProjective FqO2 (G2_ToAffine FqO2 P)).
  assert (jac2 P = jac2 (Affine_ToProjective FqO2 (G2_ToAffine FqO2 P))) as J by (rewrite E', Ea; reflexivity).
  split; [exact (f_equal (option_map (Affine_ToProjective FqO2)) R)|]. split; [split; [exact C'|rewrite <- J; exact O']|]. exact (proj2 (G2_equal _ _ C C') J).
Qed.
