(** Properties C30, C58 (point counts), C40, C61-C67: the pairing on the order-r subgroups and what the verification
    functions accept.  Everything is about the limb-level code ([FqB]); SHA-256 is an arbitrary function [sha].
    - [tor1 P] ([tor2 P]): canonical, on the curve, killed by r, not the identity; [hok1 h] ([hok2 h]): the same for the
      affine hash point h (canonicity is automatic for hash results).
    - [gp1], [gp2]: the generators; [key_of1 P k]: P is a non-identity subgroup point and P = k * generator.
    - [signer1]: public key, secret key, message, hash point; [signer_ok1 hf s]: they belong together;
      [expected1 l]: the sum of key * hash point over the signers.  [honest1 sha k m P S]: k is a nonzero canonical key,
      the hash of m is good, P = PrivToPub(k), S = Sign(m, k).
    - [pw12 x n]: x to the power n in GF(q^12). *)
Require Import ZArith Lia Bool List Permutation Znumtheory.
From Verif Require Import HashEx Sha256 HonestEx CasesEx.
From Verif Require Import Words ModelRepr ReprProofs ReprProofs2 ModelFq ModelFr ModelOps ModelTower ModelCurve ModelPairing ModelHash ModelBls NumTheory Primality Fp FpOps FqProofs FqProofs2 FqRel FrProofs OpsRel OpsRel2 FqTransfer Ext TowerProofs TowerLimb Fld AbGrp EcGroup EcJac EcMul Curves CurveLimb CurveMisc FinExp Miller PairBasic PairLimb GenFacts BlsProofs BlsProofs3 BlsProofs4 ClearCof PairTor VerifyProofs CountFacts.
Import ListNotations.
Open Scope Z_scope.

Theorem verification_vocabulary :
  (forall P, tor1 P <-> canonP1 P /\ on1 (jac1 P) /\ mul1 r (jac1 P) = Inf /\ jac1 P <> Inf) /\ (forall P, tor2 P <-> canonP2 P /\ on2 (jac2 P) /\ mul2 r (jac2 P) = Inf /\ jac2 P <> Inf) /\
  (forall h, hok1 h <-> on1 (aff1 h) /\ mul1 r (aff1 h) = Inf /\ aff1 h <> Inf) /\ (forall h, hok2 h <-> on2 (aff2 h) /\ mul2 r (aff2 h) = Inf /\ aff2 h <> Inf) /\
  gp1 = aff1 (G1AffineOne FqB) /\ gp2 = aff2 (G2AffineOne FqB) /\
  (forall P k, key_of1 P k <-> tor1 P /\ jac1 P = mul1 k gp1) /\ (forall P k, key_of2 P k <-> tor2 P /\ jac2 P = mul2 k gp2) /\
  (forall hf P k m h, signer_ok1 hf (mkSigner1 P k m h) <-> key_of1 P k /\ hf m = Some h /\ tor2 h) /\ (forall hf P k m h, signer_ok2 hf (mkSigner2 P k m h) <-> key_of2 P k /\ hf m = Some h /\ tor1 h) /\
  expected1 [] = Inf /\ (forall P k m h l, expected1 (mkSigner1 P k m h :: l) = plus2 (mul2 k (jac2 h)) (expected1 l)) /\
  expected2 [] = Inf /\ (forall P k m h l, expected2 (mkSigner2 P k m h :: l) = plus1 (mul1 k (jac1 h)) (expected2 l)) /\
  (forall sha m, hf1 sha m = option_map (Affine_ToProjective FqO2) (HashG2 sha FqB m)) /\ (forall sha m, hf2 sha m = option_map (Affine_ToProjective FqO) (HashG1 sha FqB m)) /\
  (forall sha fuel dom m, hfd sha fuel dom m = option_map (fun h => Affine_ToProjective FqO2 (G2_ToAffine FqO2 h)) (HashG2WithDomain_fuel sha FqB fuel m dom)).
Proof. exact verify_vocabulary. Qed.
Print Assumptions verification_vocabulary.

(** * Point counts and subgroups *)
Theorem C30_G1_count : exists l : list (pt Fq), NoDup l /\ Z.of_nat (length l) = r * eval6 g1Cofactor /\ forall P, In P l <-> on1 P.
Proof. exact count1. Qed.
Theorem C30_G2_count : exists l : list (pt K2), NoDup l /\ Z.of_nat (length l) = r * g2Cofactor /\ forall P, In P l <-> on2 P.
Proof. exact count2. Qed.
Theorem C58_G1_cofactor : exists l : list (pt Fq), NoDup l /\ Z.of_nat (length l) = r * eval6 g1Cofactor /\ forall P, In P l <-> on1 P.
Proof. exact count1. Qed.
Theorem C58_G2_cofactor : exists l : list (pt K2), NoDup l /\ Z.of_nat (length l) = r * g2Cofactor /\ forall P, In P l <-> on2 P.
Proof. exact count2. Qed.
Theorem C30_G1_subgroup_size : exists l : list (pt Fq), NoDup l /\ Z.of_nat (length l) = r /\ forall P, In P l <-> on1 P /\ mul1 r P = Inf.
Proof. exact subgroup1. Qed.
Theorem C30_G2_subgroup_size : exists l : list (pt K2), NoDup l /\ Z.of_nat (length l) = r /\ forall P, In P l <-> on2 P /\ mul2 r P = Inf.
Proof. exact subgroup2. Qed.
Theorem C65_G1_multiples P : on1 P -> (mul1 r P = Inf <-> exists k, 0 <= k < r /\ P = mul1 k gp1).
Proof. exact (torsion_mult1 P). Qed.
Theorem C65_G2_multiples P : on2 P -> (mul2 r P = Inf <-> exists k, 0 <= k < r /\ P = mul2 k gp2).
Proof. exact (torsion_mult2 P). Qed.
Theorem C65_g1pubs_one_key P : tor1 P -> exists k, 0 < k < r /\ key_of1 P k /\ forall k', 0 <= k' < r -> jac1 P = mul1 k' gp1 -> k' = k.
Proof. exact (key_exists1 P). Qed.
Theorem C65_g2pubs_one_key P : tor2 P -> exists k, 0 < k < r /\ key_of2 P k /\ forall k', 0 <= k' < r -> jac2 P = mul2 k' gp2 -> k' = k.
Proof. exact (key_exists2 P). Qed.
Example C65_nonvacuous : tor1 (G1ProjectiveOne FqB) /\ tor2 (G2ProjectiveOne FqB) /\ key_of1 (G1ProjectiveOne FqB) 1 /\ key_of2 (G2ProjectiveOne FqB) 1.
Proof. exact (Logic.conj one1_tor (Logic.conj one2_tor (Logic.conj key_one1 key_one2))). Qed.
Theorem C66_G1_ScaleByCofactor A : canonA1 A -> on1 (aff1 A) -> let P := G1_ScaleByCofactor FqB A in valid1 P /\ jac1 P = mul1 (eval6 g1Cofactor) (aff1 A) /\ mul1 r (jac1 P) = Inf.
Proof. exact (scale_cofactor1 A). Qed.
Theorem C66_G2_ScaleByCofactor A : canonA2 A -> on2 (aff2 A) -> let P := G2_ScaleByCofactor FqB A in valid2 P /\ jac2 P = mul2 g2Cofactor (aff2 A) /\ mul2 r (jac2 P) = Inf.
Proof. exact (scale_cofactor2 A). Qed.
Theorem C66_ClearH A : canonA1 A -> on1 (aff1 A) -> let P := ClearH FqB A in canonA1 P /\ on1 (aff1 P) /\ aff1 P = mul1 (0xd201000000010000 + 1) (aff1 A) /\ mul1 r (aff1 P) = Inf.
Proof. exact (ClearH_limb A). Qed.
Theorem C66_clearH2 A : canonA2 A -> on2 (aff2 A) -> ainf A = false -> let P := clearH2 FqB A in canonA2 P /\ on2 (aff2 P) /\ mul2 r (aff2 P) = Inf.
Proof. exact (clearH2_limb A). Qed.
Example C66_nonvacuous : canonA1 (G1AffineOne FqB) /\ on1 (aff1 (G1AffineOne FqB)) /\ canonA2 (G2AffineOne FqB) /\ on2 (aff2 (G2AffineOne FqB)) /\ ainf (G2AffineOne FqB) = false /\
  (exists A, canonA1 A /\ on1 (aff1 A) /\ ainf A = false /\ mul1 r (aff1 A) <> Inf).
Proof. exact (Logic.conj G1one_canon (Logic.conj G1one_on (Logic.conj G2one_canon (Logic.conj G2one_on (Logic.conj eq_refl outside_example1))))). Qed.

(** * The pairing *)
Theorem C61_scalars P Q P' Q' a b : tor1 P -> tor2 Q -> tor1 P' -> tor2 Q' -> 0 <= a -> 0 <= b -> jac1 P' = mul1 a (jac1 P) -> jac2 Q' = mul2 b (jac2 Q) ->
  exists e e', Pairing FqB P Q = Some e /\ Pairing FqB P' Q' = Some e' /\ val12 e' = pw12 (val12 e) (a * b).
Proof. exact (pairing_scalar P Q P' Q' a b). Qed.
Theorem C61_left P1 P2 P3 Q : tor1 P1 -> tor1 P2 -> tor1 P3 -> tor2 Q -> jac1 P3 = plus1 (jac1 P1) (jac1 P2) ->
  exists e1 e2 e3, Pairing FqB P1 Q = Some e1 /\ Pairing FqB P2 Q = Some e2 /\ Pairing FqB P3 Q = Some e3 /\ FQ12_MulAssign FqB e1 e2 = e3.
Proof. exact (pairing_add_l P1 P2 P3 Q). Qed.
Theorem C61_right P Q1 Q2 Q3 : tor1 P -> tor2 Q1 -> tor2 Q2 -> tor2 Q3 -> jac2 Q3 = plus2 (jac2 Q1) (jac2 Q2) ->
  exists e1 e2 e3, Pairing FqB P Q1 = Some e1 /\ Pairing FqB P Q2 = Some e2 /\ Pairing FqB P Q3 = Some e3 /\ FQ12_MulAssign FqB e1 e2 = e3.
Proof. exact (pairing_add_r P Q1 Q2 Q3). Qed.
Theorem C62_nondegenerate P Q : tor1 P -> tor2 Q -> exists e, Pairing FqB P Q = Some e /\ canon12 e /\ e <> FQ12One FqB.
Proof. exact (pairing_nondegenerate P Q). Qed.
Example C61_C62_nonvacuous : let P := Double FqO (G1ProjectiveOne FqB) in tor1 (G1ProjectiveOne FqB) /\ tor2 (G2ProjectiveOne FqB) /\ tor1 P /\ jac1 P = plus1 (jac1 (G1ProjectiveOne FqB)) (jac1 (G1ProjectiveOne FqB)).
Proof. exact pairing_example. Qed.

(** * g1pubs *)
Theorem C63_g1pubs_Verify sha m h P S k : HashG2 sha FqB m = Some h -> hok2 h -> key_of1 P k -> tor2 S ->
  exists b, g1pubs_Verify sha FqB m P S = Some b /\ (b = true <-> jac2 S = mul2 k (aff2 h)).
Proof. exact (Verify_iff1 sha m h P S k). Qed.
Theorem C63_g1pubs_unique sha m h P S S' : HashG2 sha FqB m = Some h -> hok2 h -> tor1 P -> tor2 S -> tor2 S' ->
  g1pubs_Verify sha FqB m P S = Some true -> g1pubs_Verify sha FqB m P S' = Some true -> jac2 S = jac2 S'.
Proof. exact (Verify_unique1 sha m h P S S'). Qed.
Theorem C64_g1pubs_VerifyAggregate sha l S : NoDup (map s_msg1 l) -> ~ In [] (map s_msg1 l) -> Forall (signer_ok1 (hf1 sha)) l -> tor2 S ->
  exists b, g1pubs_VerifyAggregate sha FqB S (map s_pub1 l) (map s_msg1 l) = Some b /\ (b = true <-> jac2 S = expected1 l).
Proof. exact (VerifyAggregate_iff1 sha l S). Qed.
Theorem C64_g1pubs_VerifyAggregateCommon sha m h Ps ks S : HashG2 sha FqB m = Some h -> hok2 h -> Forall2 key_of1 Ps ks -> ~ (r | fold_right Z.add 0 ks) -> tor2 S ->
  exists b, g1pubs_VerifyAggregateCommon sha FqB S Ps m = Some b /\ (b = true <-> jac2 S = mul2 (fold_right Z.add 0 ks) (aff2 h)).
Proof. exact (VerifyCommon_iff1 sha m h Ps ks S). Qed.
Theorem C67_g1pubs_identity sha m h P S : HashG2 sha FqB m = Some h -> canonP1 P -> canonP2 S -> jac1 P = Inf \/ jac2 S = Inf \/ aff2 h = Inf -> g1pubs_Verify sha FqB m P S = None.
Proof. exact (Verify_inf1 sha m h P S). Qed.
(** C40, for messages whose hash point is good and aggregates that are not the identity (else the code panics: C67) *)
Theorem C40_g1pubs_Verify_partial sha m h k P S : HashG2 sha FqB m = Some h -> hok2 h -> rcanon k -> rval k <> 0 ->
  g1pubs_PrivToPub FqB (Some k) = Some P -> g1pubs_Sign sha FqB m (Some k) = Some S -> g1pubs_Verify sha FqB m P S = Some true.
Proof. exact (honest_Verify1 sha m h k P S). Qed.
Theorem C40_g1pubs_VerifyAggregate_partial sha ks ms Ps Ss : length ks = length ms -> length ms = length Ps -> length Ps = length Ss ->
  Forall (fun t => honest1 sha (fst (fst (fst t))) (snd (fst (fst t))) (snd (fst t)) (snd t)) (combine (combine (combine ks ms) Ps) Ss) ->
  NoDup ms -> ~ In [] ms -> jac2 (g1pubs_AggregateSignatures FqB Ss) <> Inf ->
  g1pubs_VerifyAggregate sha FqB (g1pubs_AggregateSignatures FqB Ss) Ps ms = Some true.
Proof. exact (honest_VerifyAggregate1 sha ks ms Ps Ss). Qed.
Theorem C40_g1pubs_VerifyAggregateCommon_partial sha m ks Ps Ss : length ks = length Ps -> length Ps = length Ss -> (exists h, HashG2 sha FqB m = Some h /\ hok2 h) ->
  Forall (fun t => honest1 sha (fst (fst t)) m (snd (fst t)) (snd t)) (combine (combine ks Ps) Ss) -> ~ (r | fold_right Z.add 0 (map rval ks)) ->
  g1pubs_VerifyAggregateCommon sha FqB (g1pubs_AggregateSignatures FqB Ss) Ps m = Some true.
Proof. exact (honest_VerifyCommon1 sha m ks Ps Ss). Qed.

(** * g2pubs *)
Theorem C63_g2pubs_Verify sha m h P S k : HashG1 sha FqB m = Some h -> hok1 h -> key_of2 P k -> tor1 S ->
  exists b, g2pubs_Verify sha FqB m P S = Some b /\ (b = true <-> jac1 S = mul1 k (aff1 h)).
Proof. exact (Verify_iff2 sha m h P S k). Qed.
Theorem C63_g2pubs_unique sha m h P S S' : HashG1 sha FqB m = Some h -> hok1 h -> tor2 P -> tor1 S -> tor1 S' ->
  g2pubs_Verify sha FqB m P S = Some true -> g2pubs_Verify sha FqB m P S' = Some true -> jac1 S = jac1 S'.
Proof. exact (Verify_unique2 sha m h P S S'). Qed.
Theorem C64_g2pubs_VerifyAggregate sha l S : NoDup (map s_msg2 l) -> ~ In [] (map s_msg2 l) -> Forall (signer_ok2 (hf2 sha)) l -> tor1 S ->
  exists b, g2pubs_VerifyAggregate sha FqB S (map s_pub2 l) (map s_msg2 l) = Some b /\ (b = true <-> jac1 S = expected2 l).
Proof. exact (VerifyAggregate_iff2 sha l S). Qed.
Theorem C64_g2pubs_VerifyAggregateCommon sha m h Ps ks S : HashG1 sha FqB m = Some h -> hok1 h -> Forall2 key_of2 Ps ks -> ~ (r | fold_right Z.add 0 ks) -> tor1 S ->
  exists b, g2pubs_VerifyAggregateCommon sha FqB S Ps m = Some b /\ (b = true <-> jac1 S = mul1 (fold_right Z.add 0 ks) (aff1 h)).
Proof. exact (VerifyCommon_iff2 sha m h Ps ks S). Qed.
Theorem C67_g2pubs_identity sha m h P S : HashG1 sha FqB m = Some h -> canonP2 P -> canonP1 S -> jac2 P = Inf \/ jac1 S = Inf \/ aff1 h = Inf -> g2pubs_Verify sha FqB m P S = None.
Proof. exact (Verify_inf2 sha m h P S). Qed.
Example C67_nonvacuous m : (exists h, HashG2 sha_two FqB m = Some h) /\ (exists h, HashG1 sha_two FqB m = Some h) /\ canonP1 (ProjectiveZero FqO) /\ jac1 (ProjectiveZero FqO) = Inf /\ canonP2 (ProjectiveZero FqO2) /\ jac2 (ProjectiveZero FqO2) = Inf.
Proof. destruct (hok2_example m) as (h & H & _), (hok1_example m) as (h' & H' & _). split; [exists h; exact H|]. split; [exists h'; exact H'|]. exact (Logic.conj (proj1 G1_zero) (Logic.conj (proj2 G1_zero) G2_zero)). Qed.
(** C40, for messages whose hash point is good and aggregates that are not the identity (else the code panics: C67) *)
Theorem C40_g2pubs_Verify_partial sha m h k P S : HashG1 sha FqB m = Some h -> hok1 h -> rcanon k -> rval k <> 0 ->
  g2pubs_PrivToPub FqB (Some k) = Some P -> g2pubs_Sign sha FqB m (Some k) = Some S -> g2pubs_Verify sha FqB m P S = Some true.
Proof. exact (honest_Verify2 sha m h k P S). Qed.
Theorem C40_g2pubs_VerifyAggregate_partial sha ks ms Ps Ss : length ks = length ms -> length ms = length Ps -> length Ps = length Ss ->
  Forall (fun t => honest2 sha (fst (fst (fst t))) (snd (fst (fst t))) (snd (fst t)) (snd t)) (combine (combine (combine ks ms) Ps) Ss) ->
  NoDup ms -> ~ In [] ms -> jac1 (g2pubs_AggregateSignatures FqB Ss) <> Inf ->
  g2pubs_VerifyAggregate sha FqB (g2pubs_AggregateSignatures FqB Ss) Ps ms = Some true.
Proof. exact (honest_VerifyAggregate2 sha ks ms Ps Ss). Qed.
Theorem C40_g2pubs_VerifyAggregateCommon_partial sha m ks Ps Ss : length ks = length Ps -> length Ps = length Ss -> (exists h, HashG1 sha FqB m = Some h /\ hok1 h) ->
  Forall (fun t => honest2 sha (fst (fst t)) m (snd (fst t)) (snd t)) (combine (combine ks Ps) Ss) -> ~ (r | fold_right Z.add 0 (map rval ks)) ->
  g2pubs_VerifyAggregateCommon sha FqB (g2pubs_AggregateSignatures FqB Ss) Ps m = Some true.
Proof. exact (honest_VerifyCommon2 sha m ks Ps Ss). Qed.

(** * g1pubs with a domain; [fuel] bounds the search of HashG2WithDomain *)
Theorem C63_VerifyWithDomain sha fuel dom m h P S k : HashG2WithDomain_fuel sha FqB fuel m dom = Some h -> tor2 h -> key_of1 P k -> tor2 S ->
  exists b, g1pubs_VerifyWithDomain sha FqB fuel m P S dom = Some b /\ (b = true <-> jac2 S = mul2 k (jac2 h)).
Proof. exact (Verifyd_iff sha fuel dom m h P S k). Qed.
Example C63_nonvacuous m : (exists h, HashG2 sha_two FqB m = Some h /\ hok2 h) /\ (exists h, HashG1 sha_two FqB m = Some h /\ hok1 h) /\
  (exists h, HashG2WithDomain_fuel sha256 FqB 50 (repeat 0 32) (repeat 0 8) = Some h /\ tor2 h) /\
  key_of1 (G1ProjectiveOne FqB) 1 /\ key_of1 (Double FqO (G1ProjectiveOne FqB)) 2 /\ key_of2 (G2ProjectiveOne FqB) 1 /\ key_of2 (Double FqO2 (G2ProjectiveOne FqB)) 2.
Proof. exact (Logic.conj (hok2_example m) (Logic.conj (hok1_example m) (Logic.conj domain_example (Logic.conj key_one1 (Logic.conj key_two1 (Logic.conj key_one2 key_two2)))))). Qed.
Theorem C64_VerifyAggregateWithDomain sha fuel dom l S : (forall l, Forall isByte (sha l) /\ length (sha l) = 32%nat) -> Forall (signer_ok1 (hfd sha fuel dom)) l -> tor2 S ->
  exists b, g1pubs_VerifyAggregateWithDomain sha FqB fuel S (map s_pub1 l) (map s_msg1 l) dom = Some b /\ (b = true <-> jac2 S = expected1 l).
Proof. intros Sh. exact (VerifyAggregated_iff sha Sh fuel dom l S). Qed.
Theorem C64_VerifyAggregateCommonWithDomain sha fuel dom m h Ps ks S : HashG2WithDomain_fuel sha FqB fuel m dom = Some h -> tor2 h -> Forall2 key_of1 Ps ks -> ~ (r | fold_right Z.add 0 ks) -> tor2 S ->
  exists b, g1pubs_VerifyAggregateCommonWithDomain sha FqB fuel S Ps m dom = Some b /\ (b = true <-> jac2 S = mul2 (fold_right Z.add 0 ks) (jac2 h)).
Proof. exact (VerifyCommond_iff sha fuel dom m h Ps ks S). Qed.
(** two signers, with keys 1 and 2 *)
Example C64_nonvacuous : (exists l, map s_msg1 l = [[1]; [2; 3]] /\ map s_pub1 l = [G1ProjectiveOne FqB; Double FqO (G1ProjectiveOne FqB)] /\ Forall (signer_ok1 (hf1 sha_two)) l) /\
  (exists l, map s_msg2 l = [[1]; [2; 3]] /\ map s_pub2 l = [G2ProjectiveOne FqB; Double FqO2 (G2ProjectiveOne FqB)] /\ Forall (signer_ok2 (hf2 sha_two)) l) /\
  (exists l, map s_msg1 l = [repeat 0 32; repeat 0 32] /\ map s_pub1 l = [G1ProjectiveOne FqB; Double FqO (G1ProjectiveOne FqB)] /\ Forall (signer_ok1 (hfd sha256 50 (repeat 0 8))) l) /\
  ~ (r | fold_right Z.add 0 [1; 2]).
Proof. exact (Logic.conj signers_example1 (Logic.conj signers_example2 (Logic.conj signers_exampled ndiv3))). Qed.
Theorem C40_VerifyWithDomain_partial sha fuel dom m h k P S : HashG2WithDomain_fuel sha FqB fuel m dom = Some h -> tor2 h -> rcanon k -> rval k <> 0 ->
  g1pubs_PrivToPub FqB (Some k) = Some P -> g1pubs_SignWithDomain sha FqB fuel m (Some k) dom = Some S -> g1pubs_VerifyWithDomain sha FqB fuel m P S dom = Some true.
Proof. exact (honest_Verifyd sha fuel dom m h k P S). Qed.
Theorem C40_VerifyAggregateWithDomain_partial sha fuel dom ks ms Ps Ss : (forall l, Forall isByte (sha l) /\ length (sha l) = 32%nat) -> length ks = length ms -> length ms = length Ps -> length Ps = length Ss ->
  Forall (fun t => honestd sha fuel dom (fst (fst (fst t))) (snd (fst (fst t))) (snd (fst t)) (snd t)) (combine (combine (combine ks ms) Ps) Ss) ->
  jac2 (g1pubs_AggregateSignatures FqB Ss) <> Inf ->
  g1pubs_VerifyAggregateWithDomain sha FqB fuel (g1pubs_AggregateSignatures FqB Ss) Ps ms dom = Some true.
Proof. intros Sh. exact (honest_VerifyAggregated sha Sh fuel dom ks ms Ps Ss). Qed.
Theorem C40_VerifyAggregateCommonWithDomain_partial sha fuel dom m ks Ps Ss : length ks = length Ps -> length Ps = length Ss -> (exists h, HashG2WithDomain_fuel sha FqB fuel m dom = Some h /\ tor2 h) ->
  Forall (fun t => honestd sha fuel dom (fst (fst t)) m (snd (fst t)) (snd t)) (combine (combine ks Ps) Ss) -> ~ (r | fold_right Z.add 0 (map rval ks)) ->
  g1pubs_VerifyAggregateCommonWithDomain sha FqB fuel (g1pubs_AggregateSignatures FqB Ss) Ps m dom = Some true.
Proof. exact (honest_VerifyCommond sha fuel dom m ks Ps Ss). Qed.

Print Assumptions C30_G1_count.
Print Assumptions C30_G2_count.
Print Assumptions C58_G1_cofactor.
Print Assumptions C58_G2_cofactor.
Print Assumptions C30_G1_subgroup_size.
Print Assumptions C30_G2_subgroup_size.
Print Assumptions C65_G1_multiples.
Print Assumptions C65_G2_multiples.
Print Assumptions C65_g1pubs_one_key.
Print Assumptions C65_g2pubs_one_key.
Print Assumptions C66_G1_ScaleByCofactor.
Print Assumptions C66_G2_ScaleByCofactor.
Print Assumptions C66_ClearH.
Print Assumptions C66_clearH2.
Print Assumptions C61_scalars.
Print Assumptions C61_left.
Print Assumptions C61_right.
Print Assumptions C62_nondegenerate.
Print Assumptions C63_g1pubs_Verify.
Print Assumptions C63_g1pubs_unique.
Print Assumptions C64_g1pubs_VerifyAggregate.
Print Assumptions C64_g1pubs_VerifyAggregateCommon.
Print Assumptions C67_g1pubs_identity.
Print Assumptions C40_g1pubs_Verify_partial.
Print Assumptions C40_g1pubs_VerifyAggregate_partial.
Print Assumptions C40_g1pubs_VerifyAggregateCommon_partial.
Print Assumptions C63_g2pubs_Verify.
Print Assumptions C63_g2pubs_unique.
Print Assumptions C64_g2pubs_VerifyAggregate.
Print Assumptions C64_g2pubs_VerifyAggregateCommon.
Print Assumptions C67_g2pubs_identity.
Print Assumptions C40_g2pubs_Verify_partial.
Print Assumptions C40_g2pubs_VerifyAggregate_partial.
Print Assumptions C40_g2pubs_VerifyAggregateCommon_partial.
Print Assumptions C63_VerifyWithDomain.
Print Assumptions C64_VerifyAggregateWithDomain.
Print Assumptions C64_VerifyAggregateCommonWithDomain.
Print Assumptions C40_VerifyWithDomain_partial.
Print Assumptions C40_VerifyAggregateWithDomain_partial.
Print Assumptions C40_VerifyAggregateCommonWithDomain_partial.
