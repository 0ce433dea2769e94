(** Verification at the level of bytes: which byte strings, deserialised, verify. *)
Require Import ZArith Lia Bool List Znumtheory.
From Verif Require Import Words ModelRepr ReprProofs ReprProofs2 ModelFq ModelFr ModelOps ModelTower ModelCurve ModelPairing ModelHash ModelBls NumTheory Primality Fp FpOps FqProofs FqProofs2 FqRel FrProofs OpsRel OpsRel2 FqTransfer Ext TowerProofs TowerLimb Fld AbGrp EcGroup EcJac EcMul Curves CurveLimb CurveMisc Codec BlsProofs BlsProofs2 BlsProofs3 BlsProofs4 PairTor VerifyProofs.
Import CurveLimb ListNotations.
Open Scope Z_scope.

Lemma Pt_inj {A} (x y x' y' : A) : Pt x y = Pt x' y' -> x = x' /\ y = y'.
Proof. intros E. injection E as E E'. split; assumption. Qed.
(** a G2 encoding with a coordinate of q or more is read as a point with a zero x-coefficient *)
Lemma G2_noncanon_zero l P : length l = 96%nat -> Forall isByte l -> DecompressG2 FqB l = Some P -> canonical_enc2 l \/ c0 (val2 (ax P)) = f0 q \/ c1 (val2 (ax P)) = f0 q.
Proof.
  intros L F E. apply (G2_decompress_checked l P L F) in E. destruct E as [E S].
  pose proof (decompress2_val l L F) as H. rewrite E in H. destruct H as [C H].
  destruct l as [|h t']; [discriminate|]. injection L as L. inversion_clear F as [|? ? Hh Ht'].
  assert (exists t u, t' = t ++ u /\ length t = 47%nat /\ length u = 48%nat) as (t & u & -> & Lt & Lu).
  { exists (firstn 47 t'), (skipn 47 t'). rewrite firstn_skipn, firstn_length, skipn_length. repeat split; lia. }
  apply Forall_app in Ht'. destruct Ht' as [Ht Hu]. rewrite decompress2_eq in H by exact Lt.
  assert (byte0 ((h :: t) ++ u) = h /\ firstn 47 (skipn 1 ((h :: t) ++ u)) = t /\ skipn 48 ((h :: t) ++ u) = u) as (Q1 & Q2 & Q3).
  { split; [reflexivity|]. split; [|apply (skipn_app_exact 48); cbn [length]; rewrite Lt; reflexivity]. cbn [app skipn]. rewrite <- Lt at 1. rewrite <- (Nat.add_0_r (length t)) at 1. rewrite firstn_app_2. cbn [firstn]. apply app_nil_r. }
  change (h :: t ++ u) with ((h :: t) ++ u). unfold canonical_enc2. rewrite Q1, Q2, Q3.
  destruct (wand h 128 =? 0) eqn:A; [discriminate|]. destruct (wand h 64 =? 0) eqn:B.
  - apply g2_get_inv in H. destruct H as (y & X & _ & _). pose proof (f_equal ax X) as Ex. unfold valA2 in Ex. cbn [ax] in Ex.
    pose proof (f_equal (@c0 Fq) Ex) as E0. pose proof (f_equal (@c1 Fq) Ex) as E1. cbn [c0 c1] in E0, E1.
    destruct (flag_read h Hh A B) as [B31 _].
    assert (Forall isByte (wand h 31 :: t)) as F' by (constructor; [apply byte_lt32, B31|exact Ht]).
    assert (length (wand h 31 :: t) = 48%nat) as L' by (cbn [length]; rewrite Lt; reflexivity).
    destruct (Z.lt_ge_cases (be_value (wand h 31 :: t)) q) as [V|V]; [|right; right; exact (eq_trans E1 (xread_noncanon _ L' F' V))].
    destruct (Z.lt_ge_cases (be_value u) q) as [V'|V']; [left; split; assumption|right; left; exact (eq_trans E0 (xread_noncanon _ Lu Hu V'))].
  - destruct ((wand h 63 =? 0) && forallb (fun x => x =? 0) (t ++ u)) eqn:D; [|discriminate H]. left.
    apply andb_true_iff in D. destruct D as [D D']. apply Z.eqb_eq in D. rewrite forallb_app in D'. apply andb_true_iff in D'. destruct D' as [D1 D2].
    rewrite (flag_inf h Hh A B D), (zeros_repeat t 47 Lt D1), (zeros_repeat u 48 Lu D2). split; apply Z.ltb_lt; vm_compute; reflexivity.
Qed.
(** the affine form of a non-identity subgroup point *)
Lemma tor_sub1 S : tor1 S -> sub1 (G1_ToAffine FqO S) /\ aff1 (G1_ToAffine FqO S) = jac1 S.
Proof.
  intros (C & O & T & N). destruct (G1_toaffine S C) as [Ca Ea]. split; [|exact Ea]. split; [exact Ca|]. split; [rewrite Ea; exact O|]. split; [rewrite Ea; exact T|].
  intros I. exfalso. apply N. rewrite <- Ea. destruct (G1_ToAffine FqO S) as [x y [|]]; [reflexivity|discriminate I].
Qed.
(** the affine form of a non-identity subgroup point *)
Lemma tor_sub2 S : tor2 S -> sub2 (G2_ToAffine FqO2 S) /\ aff2 (G2_ToAffine FqO2 S) = jac2 S.
Proof.
  intros (C & O & T & N). destruct (G2_toaffine S C) as [Ca Ea]. split; [|exact Ea]. split; [exact Ca|]. split; [rewrite Ea; exact O|]. split; [rewrite Ea; exact T|].
  intros I. exfalso. apply N. rewrite <- Ea. destruct (G2_ToAffine FqO2 S) as [x y [|]]; [reflexivity|discriminate I].
Qed.

(** * g1pubs *)
Lemma deser_sig1 b S : length b = 96%nat -> Forall isByte b -> g1pubs_DeserializeSignature FqB b = Some S ->
  exists A, DecompressG2 FqB b = Some A /\ S = Affine_ToProjective FqO2 A /\ sub2 A /\ canonP2 S /\ jac2 S = aff2 A.
Proof.
  intros L F E. unfold g1pubs_DeserializeSignature in E. destruct (DecompressG2 FqB b) as [A|] eqn:D; [|discriminate E]. apply some_inj' in E.
  exists A. split; [reflexivity|]. split; [symmetry; exact E|]. pose proof (proj1 (G2_nonmalleable b A L F D)) as SA. split; [exact SA|]. subst S. exact (G2_toproj A (proj1 SA)).
Qed.
Lemma ser_deser_sig1 S : tor2 S -> exists S', g1pubs_DeserializeSignature FqB (g1pubs_Signature_Serialize FqB S) = Some S' /\ tor2 S' /\ jac2 S' = jac2 S.
Proof.
  intros T. destruct (tor_sub2 S T) as [U J]. pose proof (G2_roundtrip_sub _ U) as R. destruct (G2_toproj _ (proj1 U)) as [C J'].
  exists (Affine_ToProjective FqO2 (G2_ToAffine FqO2 S)). split; [exact (f_equal (option_map (Affine_ToProjective FqO2)) R)|].
  assert (jac2 (Affine_ToProjective FqO2 (G2_ToAffine FqO2 S)) = jac2 S) as E by (rewrite J', J; reflexivity). split; [|exact E]. destruct T as (_ & O & T & N). split; [exact C|]. rewrite E. exact (Logic.conj O (Logic.conj T N)).
Qed.
Lemma ser_deser_key1 P : tor1 P -> exists P', g1pubs_DeserializePublicKey FqB (g1pubs_PublicKey_Serialize FqB P) = Some P' /\ tor1 P' /\ jac1 P' = jac1 P.
Proof.
  intros T. destruct (tor_sub1 P T) as [U J]. pose proof (G1_roundtrip_sub _ U) as R. destruct (G1_toproj _ (proj1 U)) as [C J'].
  exists (Affine_ToProjective FqO (G1_ToAffine FqO P)). split; [exact (f_equal (option_map (Affine_ToProjective FqO)) R)|].
  assert (jac1 (Affine_ToProjective FqO (G1_ToAffine FqO P)) = jac1 P) as E by (rewrite J', J; reflexivity). split; [|exact E]. destruct T as (_ & O & T & N). split; [exact C|]. rewrite E. exact (Logic.conj O (Logic.conj T N)).
Qed.
(** everything sent over the wire and read back still verifies *)
Theorem wire_roundtrip1 sha m h k P S : HashG2 sha FqB m = Some h -> hok2 h -> rcanon k -> rval k <> 0 -> g1pubs_PrivToPub FqB (Some k) = Some P -> g1pubs_Sign sha FqB m (Some k) = Some S ->
  exists P' S', g1pubs_DeserializePublicKey FqB (g1pubs_PublicKey_Serialize FqB P) = Some P' /\ g1pubs_DeserializeSignature FqB (g1pubs_Signature_Serialize FqB S) = Some S' /\ g1pubs_Verify sha FqB m P' S' = Some true.
Proof.
  intros E Hh Ck Nk HP HS. pose proof (honest_key1 k P Ck Nk HP) as KP. destruct (honest_sig1 sha m h k S E Hh Ck HS) as (_ & JS & TS).
  destruct (ser_deser_key1 P (proj1 KP)) as (P' & EP & TP & JP). destruct (ser_deser_sig1 S (TS Nk)) as (S' & ES & TS' & JS').
  exists P', S'. split; [exact EP|]. split; [exact ES|].
  destruct (Verify_iff1 sha m h P' S' (rval k) E Hh (Logic.conj TP (eq_trans JP (proj2 KP))) TS') as (b & -> & [_ Ib]). rewrite (Ib (eq_trans JS' JS)). reflexivity.
Qed.
(** a deserialised signature that verifies is the honest one *)
Lemma wire_point1 sha m h k P S b T : HashG2 sha FqB m = Some h -> hok2 h -> rcanon k -> rval k <> 0 -> g1pubs_PrivToPub FqB (Some k) = Some P -> g1pubs_Sign sha FqB m (Some k) = Some S ->
  length b = 96%nat -> Forall isByte b -> g1pubs_DeserializeSignature FqB b = Some T -> g1pubs_Verify sha FqB m P T = Some true ->
  DecompressG2 FqB b = Some (G2_ToAffine FqO2 S).
Proof.
  intros E Hh Ck Nk HP HS L F D V. pose proof (honest_key1 k P Ck Nk HP) as KP. destruct (honest_sig1 sha m h k S E Hh Ck HS) as (_ & JS & TS).
  destruct (deser_sig1 b T L F D) as (A & DA & ET & SA & CT & JT).
  destruct (ainf A) eqn:I.
  - exfalso. assert (jac2 T = Inf) as Z by (rewrite JT; destruct A as [x y i]; cbn [ainf] in I; subst i; reflexivity).
    rewrite (Verify_inf1 sha m h P T E (proj1 (proj1 KP)) CT (or_intror (or_introl Z))) in V. discriminate V.
  - assert (aff2 A <> Inf) as NA by (destruct A as [x y i]; cbn [ainf] in I; subst i; discriminate).
    assert (tor2 T) as TT. { split; [exact CT|]. rewrite JT. destruct SA as (_ & O & R & _). exact (Logic.conj O (Logic.conj R NA)). }
    destruct (Verify_iff1 sha m h P T (rval k) E Hh KP TT) as (v & Hv & Iv). rewrite Hv in V. apply some_inj' in V. subst v.
    pose proof (proj1 Iv eq_refl) as J. destruct (tor_sub2 S (TS Nk)) as [SS EA].
    rewrite DA. f_equal. apply valA2_inj; [exact (proj1 SA)|exact (proj1 SS)|].
    assert (aff2 A = aff2 (G2_ToAffine FqO2 S)) as Q by (rewrite <- JT, J, EA, JS; reflexivity). rewrite !aff2_pt2 in Q. unfold pt2, repa in Q.
    assert (ainf (G2_ToAffine FqO2 S) = false) as I'. { destruct (ainf (G2_ToAffine FqO2 S)) eqn:I'; [|reflexivity]. exfalso. apply NA. rewrite <- JT, J, <- JS, <- EA. destruct (G2_ToAffine FqO2 S) as [x y i]. cbn [ainf] in I'. subst i. reflexivity. }
    unfold valA2 in *. cbn [ainf ax ay] in Q. rewrite I, I' in Q. destruct (Pt_inj _ _ _ _ Q) as [Qx Qy]. rewrite I, I'. f_equal; [exact Qx|exact Qy].
Qed.

(** exactly one 96-byte string is accepted, unless an x-coefficient of the honest signature is zero *)
Theorem wire_unique1 sha m h k P S b : HashG2 sha FqB m = Some h -> hok2 h -> rcanon k -> rval k <> 0 -> g1pubs_PrivToPub FqB (Some k) = Some P -> g1pubs_Sign sha FqB m (Some k) = Some S ->
  length b = 96%nat -> Forall isByte b -> canonical_enc2 b \/ (forall x y, jac2 S = Pt x y -> c0 x <> f0 q /\ c1 x <> f0 q) ->
  ((exists T, g1pubs_DeserializeSignature FqB b = Some T /\ g1pubs_Verify sha FqB m P T = Some true) <-> b = g1pubs_Signature_Serialize FqB S).
Proof.
  intros E Hh Ck Nk HP HS L F N. destruct (honest_sig1 sha m h k S E Hh Ck HS) as (_ & JS & TS). split.
  - intros (T & D & V). pose proof (wire_point1 sha m h k P S b T E Hh Ck Nk HP HS L F D V) as X. symmetry. refine (proj2 (G2_nonmalleable b _ L F X) _).
    destruct N as [N|N]; [exact N|]. destruct (G2_noncanon_zero b _ L F X) as [Y|Y]; [exact Y|exfalso].
    destruct (tor_sub2 S (TS Nk)) as [_ EA]. destruct (TS Nk) as (_ & _ & _ & NI). destruct (G2_ToAffine FqO2 S) as [x y i] eqn:EQ. destruct i; [apply NI; rewrite <- EA; reflexivity|].
    destruct (N (val2 x) (val2 y) (eq_sym EA)) as [N0 N1]. cbn [ax] in Y. destruct Y as [Y|Y]; contradiction.
  - intros ->. pose proof (honest_key1 k P Ck Nk HP) as KP. destruct (ser_deser_sig1 S (TS Nk)) as (S' & ES & TS' & JS').
    exists S'. split; [exact ES|]. destruct (Verify_iff1 sha m h P S' (rval k) E Hh KP TS') as (v & -> & [_ Iv]). rewrite (Iv (eq_trans JS' JS)). reflexivity.
Qed.

(** * g2pubs *)
Lemma deser_sig2 b S : length b = 48%nat -> Forall isByte b -> g2pubs_DeserializeSignature FqB b = Some S ->
  exists A, DecompressG1 FqB b = Some A /\ S = Affine_ToProjective FqO A /\ sub1 A /\ canonP1 S /\ jac1 S = aff1 A.
Proof.
  intros L F E. unfold g2pubs_DeserializeSignature in E. destruct (DecompressG1 FqB b) as [A|] eqn:D; [|discriminate E]. apply some_inj' in E.
  exists A. split; [reflexivity|]. split; [symmetry; exact E|]. pose proof (proj1 (G1_nonmalleable b A L F D)) as SA. split; [exact SA|]. subst S. exact (G1_toproj A (proj1 SA)).
Qed.
Lemma ser_deser_sig2 S : tor1 S -> exists S', g2pubs_DeserializeSignature FqB (g2pubs_Signature_Serialize FqB S) = Some S' /\ tor1 S' /\ jac1 S' = jac1 S.
Proof.
  intros T. destruct (tor_sub1 S T) as [U J]. pose proof (G1_roundtrip_sub _ U) as R. destruct (G1_toproj _ (proj1 U)) as [C J'].
  exists (Affine_ToProjective FqO (G1_ToAffine FqO S)). split; [exact (f_equal (option_map (Affine_ToProjective FqO)) R)|].
  assert (jac1 (Affine_ToProjective FqO (G1_ToAffine FqO S)) = jac1 S) as E by (rewrite J', J; reflexivity). split; [|exact E]. destruct T as (_ & O & T & N). split; [exact C|]. rewrite E. exact (Logic.conj O (Logic.conj T N)).
Qed.
Lemma ser_deser_key2 P : tor2 P -> exists P', g2pubs_DeserializePublicKey FqB (g2pubs_PublicKey_Serialize FqB P) = Some P' /\ tor2 P' /\ jac2 P' = jac2 P.
Proof.
  intros T. destruct (tor_sub2 P T) as [U J]. pose proof (G2_roundtrip_sub _ U) as R. destruct (G2_toproj _ (proj1 U)) as [C J'].
  exists (Affine_ToProjective FqO2 (G2_ToAffine FqO2 P)). split; [exact (f_equal (option_map (Affine_ToProjective FqO2)) R)|].
  assert (jac2 (Affine_ToProjective FqO2 (G2_ToAffine FqO2 P)) = jac2 P) as E by (rewrite J', J; reflexivity). split; [|exact E]. destruct T as (_ & O & T & N). split; [exact C|]. rewrite E. exact (Logic.conj O (Logic.conj T N)).
Qed.
(** everything sent over the wire and read back still verifies *)
Theorem wire_roundtrip2 sha m h k P S : HashG1 sha FqB m = Some h -> hok1 h -> rcanon k -> rval k <> 0 -> g2pubs_PrivToPub FqB (Some k) = Some P -> g2pubs_Sign sha FqB m (Some k) = Some S ->
  exists P' S', g2pubs_DeserializePublicKey FqB (g2pubs_PublicKey_Serialize FqB P) = Some P' /\ g2pubs_DeserializeSignature FqB (g2pubs_Signature_Serialize FqB S) = Some S' /\ g2pubs_Verify sha FqB m P' S' = Some true.
Proof.
  intros E Hh Ck Nk HP HS. pose proof (honest_key2 k P Ck Nk HP) as KP. destruct (honest_sig2 sha m h k S E Hh Ck HS) as (_ & JS & TS).
  destruct (ser_deser_key2 P (proj1 KP)) as (P' & EP & TP & JP). destruct (ser_deser_sig2 S (TS Nk)) as (S' & ES & TS' & JS').
  exists P', S'. split; [exact EP|]. split; [exact ES|].
  destruct (Verify_iff2 sha m h P' S' (rval k) E Hh (Logic.conj TP (eq_trans JP (proj2 KP))) TS') as (b & -> & [_ Ib]). rewrite (Ib (eq_trans JS' JS)). reflexivity.
Qed.
(** a deserialised signature that verifies is the honest one *)
Lemma wire_point2 sha m h k P S b T : HashG1 sha FqB m = Some h -> hok1 h -> rcanon k -> rval k <> 0 -> g2pubs_PrivToPub FqB (Some k) = Some P -> g2pubs_Sign sha FqB m (Some k) = Some S ->
  length b = 48%nat -> Forall isByte b -> g2pubs_DeserializeSignature FqB b = Some T -> g2pubs_Verify sha FqB m P T = Some true ->
  DecompressG1 FqB b = Some (G1_ToAffine FqO S).
Proof.
  intros E Hh Ck Nk HP HS L F D V. pose proof (honest_key2 k P Ck Nk HP) as KP. destruct (honest_sig2 sha m h k S E Hh Ck HS) as (_ & JS & TS).
  destruct (deser_sig2 b T L F D) as (A & DA & ET & SA & CT & JT).
  destruct (ainf A) eqn:I.
  - exfalso. assert (jac1 T = Inf) as Z by (rewrite JT; destruct A as [x y i]; cbn [ainf] in I; subst i; reflexivity).
    rewrite (Verify_inf2 sha m h P T E (proj1 (proj1 KP)) CT (or_intror (or_introl Z))) in V. discriminate V.
  - assert (aff1 A <> Inf) as NA by (destruct A as [x y i]; cbn [ainf] in I; subst i; discriminate).
    assert (tor1 T) as TT. { split; [exact CT|]. rewrite JT. destruct SA as (_ & O & R & _). exact (Logic.conj O (Logic.conj R NA)). }
    destruct (Verify_iff2 sha m h P T (rval k) E Hh KP TT) as (v & Hv & Iv). rewrite Hv in V. apply some_inj' in V. subst v.
    pose proof (proj1 Iv eq_refl) as J. destruct (tor_sub1 S (TS Nk)) as [SS EA].
    rewrite DA. f_equal. apply valA1_inj; [exact (proj1 SA)|exact (proj1 SS)|].
    assert (aff1 A = aff1 (G1_ToAffine FqO S)) as Q by (rewrite <- JT, J, EA, JS; reflexivity). rewrite !aff1_pt1 in Q. unfold pt1, repa in Q.
    assert (ainf (G1_ToAffine FqO S) = false) as I'. { destruct (ainf (G1_ToAffine FqO S)) eqn:I'; [|reflexivity]. exfalso. apply NA. rewrite <- JT, J, <- JS, <- EA. destruct (G1_ToAffine FqO S) as [x y i]. cbn [ainf] in I'. subst i. reflexivity. }
    unfold valA1 in *. cbn [ainf ax ay] in Q. rewrite I, I' in Q. destruct (Pt_inj _ _ _ _ Q) as [Qx Qy]. rewrite I, I'. f_equal; [exact Qx|exact Qy].
Qed.

(** exactly one 48-byte string is accepted *)
Theorem wire_unique2 sha m h k P S b : HashG1 sha FqB m = Some h -> hok1 h -> rcanon k -> rval k <> 0 -> g2pubs_PrivToPub FqB (Some k) = Some P -> g2pubs_Sign sha FqB m (Some k) = Some S ->
  length b = 48%nat -> Forall isByte b ->
  ((exists T, g2pubs_DeserializeSignature FqB b = Some T /\ g2pubs_Verify sha FqB m P T = Some true) <-> b = g2pubs_Signature_Serialize FqB S).
Proof.
  intros E Hh Ck Nk HP HS L F. split.
  - intros (T & D & V). pose proof (wire_point2 sha m h k P S b T E Hh Ck Nk HP HS L F D V) as X. symmetry. exact (proj2 (G1_nonmalleable b _ L F X)).
  - intros ->. pose proof (honest_key2 k P Ck Nk HP) as KP. destruct (honest_sig2 sha m h k S E Hh Ck HS) as (_ & JS & TS). destruct (ser_deser_sig2 S (TS Nk)) as (S' & ES & TS' & JS').
    exists S'. split; [exact ES|]. destruct (Verify_iff2 sha m h P S' (rval k) E Hh KP TS') as (v & -> & [_ Iv]). rewrite (Iv (eq_trans JS' JS)). reflexivity.
Qed.
