(** Honest signatures that do not verify: with the hash functions of HashInf.v every message hashes to the identity. *)
Require Import ZArith Lia Bool List Ring Field.
From Verif Require Import Words ModelRepr ReprProofs ModelFq ModelFr ModelOps ModelTower ModelCurve ModelPairing ModelHash ModelBls Primality Fp FpOps FqProofs FqRel FrProofs OpsRel OpsRel2 FqTransfer Ext Fld AbGrp EcGroup EcJac EcMul Curves CurveLimb CurveMisc BlsProofs BlsProofs3 BlsProofs4 ClearCof PairTor VerifyProofs CountFacts PolyEval IsoProofs SwuProofs HashProofs HashEx HonestEx HashInf.
Import CurveLimb ListNotations.
Open Scope Z_scope.

Theorem honest1_panics : exists sha, sha_ok sha /\ forall m k, rcanon k -> rval k <> 0 ->
  exists P S, g1pubs_PrivToPub FqB (Some k) = Some P /\ g1pubs_Sign sha FqB m (Some k) = Some S /\ g1pubs_Verify sha FqB m P S = None.
Proof.
  exists sha_inf2. split; [exact (sha_pair_ok _ _)|]. intros m k C N. destruct (HashG2_inf m) as (h & H & Ch & I).
  assert (exists P, g1pubs_PrivToPub FqB (Some k) = Some P) as [P EP] by (eexists; reflexivity).
  assert (g1pubs_Sign sha_inf2 FqB m (Some k) = Some (smul2 h k)) as ES by (unfold g1pubs_Sign; rewrite H; reflexivity).
  exists P, (smul2 h k). split; [exact EP|]. split; [exact ES|]. apply (Verify_inf1 sha_inf2 m h); [exact H| | |right; right; exact I].
  - destruct (honest_key1 k P C N EP) as [[CP _] _]. exact CP.
  - assert (on2 (aff2 h)) as O by (rewrite I; exact Logic.I). exact (proj1 (proj1 (smul2_val h k Ch O C))).
Qed.
Theorem honest2_panics : exists sha, sha_ok sha /\ forall m k, rcanon k -> rval k <> 0 ->
  exists P S, g2pubs_PrivToPub FqB (Some k) = Some P /\ g2pubs_Sign sha FqB m (Some k) = Some S /\ g2pubs_Verify sha FqB m P S = None.
Proof.
  exists sha_inf1. split; [exact (sha_pair_ok _ _)|]. intros m k C N. destruct (HashG1_inf m) as (h & H & Ch & I).
  assert (exists P, g2pubs_PrivToPub FqB (Some k) = Some P) as [P EP] by (eexists; reflexivity).
  assert (g2pubs_Sign sha_inf1 FqB m (Some k) = Some (smul1 h k)) as ES by (unfold g2pubs_Sign; rewrite H; reflexivity).
  exists P, (smul1 h k). split; [exact EP|]. split; [exact ES|]. apply (Verify_inf2 sha_inf1 m h); [exact H| | |right; right; exact I].
  - destruct (honest_key2 k P C N EP) as [[CP _] _]. exact CP.
  - assert (on1 (aff1 h)) as O by (rewrite I; exact Logic.I). exact (proj1 (proj1 (smul1_val h k Ch O C))).
Qed.
