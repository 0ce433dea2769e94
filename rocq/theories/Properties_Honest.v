(** C40 as first stated is false for some hash functions: there are 32-byte hash functions with which every message hashes to the
    identity, and then Verify panics on the honest signature of every key.  Nothing is claimed about SHA-256 here. *)
Require Import ZArith Lia Bool List Ring Field.
From Verif Require Import Words ModelRepr ReprProofs ModelFq ModelFr ModelOps ModelTower ModelCurve ModelPairing ModelHash ModelBls Primality Fp FpOps FqProofs FqRel FrProofs OpsRel OpsRel2 FqTransfer Ext Fld AbGrp EcGroup EcJac EcMul Curves CurveLimb CurveMisc BlsProofs BlsProofs3 BlsProofs4 ClearCof PairTor VerifyProofs CountFacts PolyEval IsoProofs SwuProofs HashProofs HashEx HonestEx HashInf HonestInf.
Import CurveLimb ListNotations.
Open Scope Z_scope.

Theorem C40_g1pubs_Verify_refuted : exists sha, sha_ok sha /\ forall m k, rcanon k -> rval k <> 0 ->
  exists P S, g1pubs_PrivToPub FqB (Some k) = Some P /\ g1pubs_Sign sha FqB m (Some k) = Some S /\ g1pubs_Verify sha FqB m P S = None.
Proof. exact honest1_panics. Qed.
Theorem C40_g2pubs_Verify_refuted : exists sha, sha_ok sha /\ forall m k, rcanon k -> rval k <> 0 ->
  exists P S, g2pubs_PrivToPub FqB (Some k) = Some P /\ g2pubs_Sign sha FqB m (Some k) = Some S /\ g2pubs_Verify sha FqB m P S = None.
Proof. exact honest2_panics. Qed.
(** the points behind it *)
Example C40_hash_identity m : (exists h, HashG1 sha_inf1 FqB m = Some h /\ canonA1 h /\ aff1 h = Inf) /\ (exists h, HashG2 sha_inf2 FqB m = Some h /\ canonA2 h /\ aff2 h = Inf).
Proof. exact (Logic.conj (HashG1_inf m) (HashG2_inf m)). Qed.

Print Assumptions C40_g1pubs_Verify_refuted.
Print Assumptions C40_g2pubs_Verify_refuted.
