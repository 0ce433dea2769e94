(** Secret keys: serialization and hashing to the scalar field; hash to the base field. *)
Require Import ZArith Lia Bool List Znumtheory.
From Verif Require Import Words ModelRepr ReprProofs ReprProofs2 ModelFq ModelFr ModelOps ModelTower ModelCurve ModelPairing ModelHash ModelBls NumTheory Primality Fp FpOps FqProofs FqProofs2 FqRel FrProofs OpsRel OpsRel2 FqTransfer Ext TowerProofs TowerLimb.
Import ListNotations.
Open Scope Z_scope.

Lemma key_roundtrip k : rcanon k -> exists b, SecretKey_Serialize (Some k) = Some b /\ length b = 32%nat /\ Forall isByte b /\ be_value b = rval k /\ DeserializeSecretKey b = Some k.
Proof.
  intros C. destruct (FR_ToRepr_spec k (proj1 C)) as [W E]. exists (FRRepr_Bytes (FR_ToRepr k)). split; [reflexivity|]. split; [apply FRRepr_Bytes_length|].
  split; [apply FRRepr_Bytes_isByte|]. split; [rewrite FRRepr_Bytes_value by exact W; exact E|]. unfold DeserializeSecretKey. rewrite FRRepr_FromBytes_Bytes by exact W. apply FRReprToFR_FR_ToRepr, C.
Qed.
Lemma key_deserialize b : length b = 32%nat -> Forall isByte b ->
  (be_value b < r -> exists k, DeserializeSecretKey b = Some k /\ rcanon k /\ rval k = be_value b /\ SecretKey_Serialize (Some k) = Some b) /\
  (r <= be_value b -> DeserializeSecretKey b = None).
Proof.
  intros L F. destruct (FRReprFromBytes_spec b L F) as [W E]. unfold DeserializeSecretKey. split; intros H; rewrite <- E in H.
  - destruct (FRReprToFR_valid _ W H) as (k & Ek & Ck & Vk). exists k. split; [exact Ek|]. split; [exact Ck|]. split; [congruence|].
    cbn [SecretKey_Serialize option_map]. unfold FR_Bytes. rewrite (FR_ToRepr_FRReprToFR _ _ W Ek), FRRepr_Bytes_FromBytes by assumption. reflexivity.
  - apply FRReprToFR_invalid; assumption.
Qed.
Lemma nil_key sha {F} (B : BOps F) m : g1pubs_Sign sha B m None = None /\ g1pubs_PrivToPub B None = None /\ g2pubs_Sign sha B m None = None /\ g2pubs_PrivToPub B None = None /\ SecretKey_Serialize None = None.
Proof.
  repeat split; try reflexivity; [unfold g1pubs_Sign; destruct (HashG2 sha B m)|unfold g2pubs_Sign; destruct (HashG1 sha B m)]; reflexivity.
Qed.
Lemma key_hash sha b : let d := sha b ++ [0] in
  exists k, HashSecretKey sha b = Some k /\ rcanon k /\ rval k = be_value (sha (d ++ [1; 1]) ++ sha (d ++ [1; 2])) mod r.
Proof.
  cbv zeta. unfold HashSecretKey. cbv zeta. set (n := big_SetBytes _). change r_big with r. pose proof (Z.mod_pos_bound n r r_pos) as B.
  destruct (wf4_const (n mod r)) as [W E]; [split; [lia|]; apply (Z.lt_le_trans _ r); [lia|vm_compute; discriminate]|].
  destruct (FRReprToFR_valid _ W) as (k & Ek & Ck & Vk); [lia|]. exists k. split; [exact Ek|]. split; [exact Ck|]. rewrite Vk, E. reflexivity.
Qed.
Lemma field_hash n : canon (b_of FqB (FQRepr_const (n mod q_big))) /\ fval (b_of FqB (FQRepr_const (n mod q_big))) = n mod q.
Proof.
  change q_big with q. assert (0 < q) as Q by reflexivity. pose proof (Z.mod_pos_bound n q Q) as B.
  destruct (FQRepr_const_spec (n mod q)) as [W E]; [split; [lia|]; apply (Z.lt_le_trans _ q); [lia|vm_compute; discriminate]|].
  change (b_of FqB (FQRepr_const (n mod q))) with (FQReprToFQ (FQRepr_const (n mod q))).
  destruct (FQReprToFQ_valid _ W) as [C V]; [lia|]. split; [exact C|]. rewrite V. exact E.
Qed.
Lemma hp_spec sha msg ctr : let d := sha msg ++ [ctr] in
  canon (hp sha FqB msg ctr) /\ fval (hp sha FqB msg ctr) = be_value (sha (d ++ [1; 1]) ++ sha (d ++ [1; 2])) mod q.
Proof. cbv zeta. exact (field_hash _). Qed.
Lemma hp2_spec sha msg ctr : let d := sha msg ++ [ctr] in let f := hp2 sha FqB msg ctr in
  canon2 f /\ fval (c0 f) = be_value (sha (d ++ [1; 1]) ++ sha (d ++ [1; 2])) mod q /\ fval (c1 f) = be_value (sha (d ++ [2; 1]) ++ sha (d ++ [2; 2])) mod q.
Proof. cbv zeta. split; [split; exact (proj1 (field_hash _))|]. split; exact (proj2 (field_hash _)). Qed.
