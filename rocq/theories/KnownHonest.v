(** With SHA-256 as the hash, the repository's test message has good hash points, so every honest-signer theorem applies to it. *)
Require Import ZArith Lia Bool List.
From Verif Require Import Words ModelRepr ReprProofs ModelFq ModelFr ModelOps ModelTower ModelCurve ModelPairing ModelHash ModelBls Primality Fp FpOps FqProofs FqRel FrProofs OpsRel OpsRel2 FqTransfer UInst Ext Fld AbGrp EcGroup EcJac EcMul Curves CurveLimb CurveMisc BlsProofs VerifyProofs HashEx HonestEx Sha256 KnownAnswer.
Import CurveLimb ListNotations.
Open Scope Z_scope.

Lemma fin1 (h : Affine FQ) : ainf h = false -> aff1 h <> Inf.
Proof. destruct h as [x y i]. cbn [ainf]. intros ->. discriminate. Qed.
Lemma fin2 (h : Affine (FQ2 FQ)) : ainf h = false -> aff2 h <> Inf.
Proof. destruct h as [x y i]. cbn [ainf]. intros ->. discriminate. Qed.
Lemma good1 x y : inQ x && inQ y = true -> (let u := mkAff (ofm x) (ofm y) false in G1_IsOnCurve UB u && G1_IsInCorrectSubgroupAssumingOnCurve UB u) = true -> hok1 (mkAff (fq x) (fq y) false).
Proof.
  intros W E. apply andb_true_iff in W. destruct W as [Wx Wy].
  assert (RA RU (mkAff (ofm x) (ofm y) false) (mkAff (z2q x) (z2q y) false)) as H by (split; [|split; [|reflexivity]]; apply okI_u; assumption).
  assert (RA RFq (mkAff (fq x) (fq y) false) (mkAff (z2q x) (z2q y) false)) as G by (split; [|split; [|reflexivity]]; apply okI_fq; assumption).
  cbv zeta in E. apply andb_true_iff in E. destruct E as [E1 E2].
  rewrite (rel_G1_IsOnCurve UB FpB RU _ _ H), <- (rel_G1_IsOnCurve FqB FpB RFq _ _ G) in E1.
  rewrite (rel_G1_IsInCorrectSubgroupAssumingOnCurve UB FpB RU _ _ H), <- (rel_G1_IsInCorrectSubgroupAssumingOnCurve FqB FpB RFq _ _ G) in E2.
  destruct G as (G1 & G2 & _). assert (canonA1 (mkAff (fq x) (fq y) false)) as C by (split; [exact (proj1 G1)|exact (proj1 G2)]).
  apply (G1_oncurve _ C) in E1. apply (g1_subgroup _ C E1) in E2. split; [exact E1|]. split; [exact E2|]. exact (fin1 (mkAff (fq x) (fq y) false) eq_refl).
Qed.
Lemma good2 a b c d : inQ a && inQ b && (inQ c && inQ d) = true -> (let u := mkAff (iq2 ofm a b) (iq2 ofm c d) false in G2_IsOnCurve UB u && G2_IsInCorrectSubgroupAssumingOnCurve UB u) = true -> hok2 (mkAff (fq2 a b) (fq2 c d) false).
Proof.
  intros W E. apply andb_true_iff in W. destruct W as [Wx Wy].
  assert (RA (R2 RU) (mkAff (iq2 ofm a b) (iq2 ofm c d) false) (mkAff (iq2 z2q a b) (iq2 z2q c d) false)) as H by (split; [|split; [|reflexivity]]; apply rel_iq2; try exact okI_u; assumption).
  assert (RA (R2 RFq) (mkAff (fq2 a b) (fq2 c d) false) (mkAff (iq2 z2q a b) (iq2 z2q c d) false)) as G by (split; [|split; [|reflexivity]]; apply (rel_iq2 RFq fq); try exact okI_fq; assumption).
  cbv zeta in E. apply andb_true_iff in E. destruct E as [E1 E2].
  rewrite (rel_G2_IsOnCurve UB FpB RU _ _ H), <- (rel_G2_IsOnCurve FqB FpB RFq _ _ G) in E1.
  rewrite (rel_G2_IsInCorrectSubgroupAssumingOnCurve UB FpB RU _ _ H), <- (rel_G2_IsInCorrectSubgroupAssumingOnCurve FqB FpB RFq _ _ G) in E2.
  destruct G as (G1 & G2 & _). assert (canonA2 (mkAff (fq2 a b) (fq2 c d) false)) as C by (split; [exact (proj1 (proj1 (R2_val _ _) G1))|exact (proj1 (proj1 (R2_val _ _) G2))]).
  apply (G2_oncurve _ C) in E1. apply (g2_subgroup _ C E1) in E2. split; [exact E1|]. split; [exact E2|]. exact (fin2 (mkAff (fq2 a b) (fq2 c d) false) eq_refl).
Qed.
Theorem sha256_good1 : exists h, HashG1 sha256 FqB msg_signed = Some h /\ hok1 h.
Proof. eexists. split; [exact kat_HashG1|]. apply good1; vm_compute; reflexivity. Qed.
Theorem sha256_good2 : exists h, HashG2 sha256 FqB msg_signed = Some h /\ hok2 h.
Proof. eexists. split; [exact kat_HashG2|]. apply good2; vm_compute; reflexivity. Qed.
(** Every key's signature on the test message verifies, with SHA-256. *)
Theorem sha256_honest1 k : rcanon k -> rval k <> 0 -> exists P S, g1pubs_PrivToPub FqB (Some k) = Some P /\ g1pubs_Sign sha256 FqB msg_signed (Some k) = Some S /\ g1pubs_Verify sha256 FqB msg_signed P S = Some true.
Proof. intros C N. destruct sha256_good2 as (h & H & K). destruct (honest1_some sha256 msg_signed h k H K C N) as (P & S & (_ & _ & _ & EP & ES) & V). exists P, S. exact (Logic.conj EP (Logic.conj ES V)). Qed.
Theorem sha256_honest2 k : rcanon k -> rval k <> 0 -> exists P S, g2pubs_PrivToPub FqB (Some k) = Some P /\ g2pubs_Sign sha256 FqB msg_signed (Some k) = Some S /\ g2pubs_Verify sha256 FqB msg_signed P S = Some true.
Proof. intros C N. destruct sha256_good1 as (h & H & K). destruct (honest2_some sha256 msg_signed h k H K C N) as (P & S & (_ & _ & _ & EP & ES) & V). exists P, S. exact (Logic.conj EP (Logic.conj ES V)). Qed.
