(** Properties C69-C73: verification at the level of bytes, rogue keys, memory handed to callers; and C40 with SHA-256 itself.
    - [hok1 h], [hok2 h], [tor1], [tor2]: as in Properties_Verify (subgroup points that are not the identity).
    - [canonical_enc2 b]: both x-coefficients in the 96-byte encoding b are below q once the three flag bits are removed.
    - [rogue1 X P] ([rogue2]): AggregatePublicKeys of X and the negation of P.
    - [contents M o]: the byte strings a [][]byte points to; [extends M M']: M' has all buffers and arrays of M unchanged.
    - [prun], [pok_all]: a history of calls on affine points, using only pointers handed out before; cell 0 is the package's
      point at infinity. *)
Require Import ZArith Lia Bool List Permutation Sorted.
From Verif Require Import Words ModelRepr ReprProofs ReprProofs2 ModelFq ModelFr ModelOps ModelTower ModelCurve ModelPairing ModelHash ModelBls Primality Fp FpOps FqProofs FqRel FrProofs OpsRel OpsRel2 FqTransfer Ext Fld AbGrp EcGroup EcJac EcMul Curves CurveLimb CurveMisc Codec BlsProofs BlsProofs3 BlsProofs4 ClearCof PairTor VerifyProofs HashEx HonestEx Sha256 KnownAnswer KnownHonest WireProofs RogueProofs ModelSlice SliceProofs ModelPtHeap PtHeapProofs WireEx.
Import ListNotations.
Open Scope Z_scope.

Theorem wire_vocabulary_stated :
  (forall b, canonical_enc2 b <-> be_value (wand (byte0 b) 31 :: firstn 47 (skipn 1 b)) < q /\ be_value (skipn 48 b) < q) /\
  (forall X P, rogue1 X P = g1pubs_AggregatePublicKeys FqB [X; Proj_NegAssign FqO P]) /\ (forall X P, rogue2 X P = g2pubs_AggregatePublicKeys FqB [X; Proj_NegAssign FqO2 P]) /\
  (forall M o, contents M o = map (fun p => nth p (bufs M) []) (array M o)) /\
  (forall M M', extends M M' <-> (exists b, bufs M' = bufs M ++ b) /\ (exists a, arrays M' = arrays M ++ a)) /\
  (forall M, wfM M <-> Forall (Forall (fun p => (p < length (bufs M))%nat)) (arrays M)) /\
  (forall l, sorted_bytes l <-> StronglySorted (fun a b => bytes_Compare b a <> -1) l).
Proof. exact wire_vocabulary. Qed.

(** * C69: the byte strings that verify *)
Theorem C69_g2pubs_one_string sha m h k P S b : HashG1 sha FqB m = Some h -> hok1 h -> rcanon k -> rval k <> 0 -> g2pubs_PrivToPub FqB (Some k) = Some P -> g2pubs_Sign sha FqB m (Some k) = Some S ->
  length b = 48%nat -> Forall isByte b ->
  ((exists T, g2pubs_DeserializeSignature FqB b = Some T /\ g2pubs_Verify sha FqB m P T = Some true) <-> b = g2pubs_Signature_Serialize FqB S).
Proof. exact (wire_unique2 sha m h k P S b). Qed.
Theorem C69_g1pubs_one_string sha m h k P S b : HashG2 sha FqB m = Some h -> hok2 h -> rcanon k -> rval k <> 0 -> g1pubs_PrivToPub FqB (Some k) = Some P -> g1pubs_Sign sha FqB m (Some k) = Some S ->
  length b = 96%nat -> Forall isByte b -> canonical_enc2 b \/ (forall x y, jac2 S = Pt x y -> c0 x <> f0 q /\ c1 x <> f0 q) ->
  ((exists T, g1pubs_DeserializeSignature FqB b = Some T /\ g1pubs_Verify sha FqB m P T = Some true) <-> b = g1pubs_Signature_Serialize FqB S).
Proof. exact (wire_unique1 sha m h k P S b). Qed.

(** * C70: sent over the wire and read back *)
Theorem C70_g1pubs sha m h k P S : HashG2 sha FqB m = Some h -> hok2 h -> rcanon k -> rval k <> 0 -> g1pubs_PrivToPub FqB (Some k) = Some P -> g1pubs_Sign sha FqB m (Some k) = Some S ->
  exists P' S', g1pubs_DeserializePublicKey FqB (g1pubs_PublicKey_Serialize FqB P) = Some P' /\ g1pubs_DeserializeSignature FqB (g1pubs_Signature_Serialize FqB S) = Some S' /\ g1pubs_Verify sha FqB m P' S' = Some true.
Proof. exact (wire_roundtrip1 sha m h k P S). Qed.
Theorem C70_g2pubs sha m h k P S : HashG1 sha FqB m = Some h -> hok1 h -> rcanon k -> rval k <> 0 -> g2pubs_PrivToPub FqB (Some k) = Some P -> g2pubs_Sign sha FqB m (Some k) = Some S ->
  exists P' S', g2pubs_DeserializePublicKey FqB (g2pubs_PublicKey_Serialize FqB P) = Some P' /\ g2pubs_DeserializeSignature FqB (g2pubs_Signature_Serialize FqB S) = Some S' /\ g2pubs_Verify sha FqB m P' S' = Some true.
Proof. exact (wire_roundtrip2 sha m h k P S). Qed.
(** with SHA-256, the test message of the repository and every key *)
Example C69_C70_g1pubs_nonvacuous k : rcanon k -> rval k <> 0 -> exists h P S, HashG2 sha256 FqB msg_signed = Some h /\ hok2 h /\ g1pubs_PrivToPub FqB (Some k) = Some P /\ g1pubs_Sign sha256 FqB msg_signed (Some k) = Some S /\
  length (g1pubs_Signature_Serialize FqB S) = 96%nat /\ Forall isByte (g1pubs_Signature_Serialize FqB S) /\ canonical_enc2 (g1pubs_Signature_Serialize FqB S).
Proof. exact (wire_example1 k). Qed.
Example C69_C70_g2pubs_nonvacuous k : rcanon k -> rval k <> 0 -> exists h P S, HashG1 sha256 FqB msg_signed = Some h /\ hok1 h /\ g2pubs_PrivToPub FqB (Some k) = Some P /\ g2pubs_Sign sha256 FqB msg_signed (Some k) = Some S /\
  length (g2pubs_Signature_Serialize FqB S) = 48%nat /\ Forall isByte (g2pubs_Signature_Serialize FqB S).
Proof. exact (wire_example2 k). Qed.
(** C40 for the real hash: one message, every key *)
Theorem C40_g1pubs_sha256_partial k : rcanon k -> rval k <> 0 -> exists P S, g1pubs_PrivToPub FqB (Some k) = Some P /\ g1pubs_Sign sha256 FqB msg_signed (Some k) = Some S /\ g1pubs_Verify sha256 FqB msg_signed P S = Some true.
Proof. exact (sha256_honest1 k). Qed.
Theorem C40_g2pubs_sha256_partial k : rcanon k -> rval k <> 0 -> exists P S, g2pubs_PrivToPub FqB (Some k) = Some P /\ g2pubs_Sign sha256 FqB msg_signed (Some k) = Some S /\ g2pubs_Verify sha256 FqB msg_signed P S = Some true.
Proof. exact (sha256_honest2 k). Qed.

(** * C71: rogue keys *)
Theorem C71_g1pubs_VerifyAggregateCommon sha m h P x X S : HashG2 sha FqB m = Some h -> hok2 h -> tor1 P -> rcanon x -> rval x <> 0 -> g1pubs_PrivToPub FqB (Some x) = Some X -> jac1 P <> jac1 X ->
  g1pubs_Sign sha FqB m (Some x) = Some S -> tor1 (rogue1 X P) /\ g1pubs_VerifyAggregateCommon sha FqB S [P; rogue1 X P] m = Some true.
Proof. exact (rogue_Common1 sha m h P x X S). Qed.
Theorem C71_g2pubs_VerifyAggregateCommon sha m h P x X S : HashG1 sha FqB m = Some h -> hok1 h -> tor2 P -> rcanon x -> rval x <> 0 -> g2pubs_PrivToPub FqB (Some x) = Some X -> jac2 P <> jac2 X ->
  g2pubs_Sign sha FqB m (Some x) = Some S -> tor2 (rogue2 X P) /\ g2pubs_VerifyAggregateCommon sha FqB S [P; rogue2 X P] m = Some true.
Proof. exact (rogue_Common2 sha m h P x X S). Qed.
Theorem C71_VerifyAggregateWithDomain sha (Sh : forall l, Forall isByte (sha l) /\ length (sha l) = 32%nat) fuel dom m h P x X S : HashG2WithDomain_fuel sha FqB fuel m dom = Some h -> tor2 h -> tor1 P -> rcanon x -> rval x <> 0 -> g1pubs_PrivToPub FqB (Some x) = Some X -> jac1 P <> jac1 X ->
  g1pubs_SignWithDomain sha FqB fuel m (Some x) dom = Some S -> g1pubs_VerifyAggregateWithDomain sha FqB fuel S [P; rogue1 X P] [m; m] dom = Some true.
Proof. exact (rogue_Aggregated sha Sh fuel dom m h P x X S). Qed.
Theorem C71_VerifyAggregate_screens sha m P R S P' R' S' : g1pubs_VerifyAggregate sha FqB S [P; R] [m; m] = Some false /\ g2pubs_VerifyAggregate sha FqB S' [P'; R'] [m; m] = Some false.
Proof. exact (Logic.conj (rogue_Aggregate1 sha m P R S) (rogue_Aggregate2 sha m P' R' S')). Qed.
(** a victim key and an attacker key that meet the hypotheses *)
Example C71_nonvacuous : exists x X X', rcanon x /\ rval x <> 0 /\ g1pubs_PrivToPub FqB (Some x) = Some X /\ g2pubs_PrivToPub FqB (Some x) = Some X' /\
  tor1 (G1ProjectiveOne FqB) /\ jac1 (G1ProjectiveOne FqB) <> jac1 X /\ tor2 (G2ProjectiveOne FqB) /\ jac2 (G2ProjectiveOne FqB) <> jac2 X'.
Proof. exact rogue_example. Qed.

(** * C72: the package's points at infinity *)
Theorem C72_G1 l : pok_all FqO (G1_ToAffine FqO) (G1_SetRawBytes FqB) false (pinit FqO) l ->
  cell FqO (prun FqO (G1_ToAffine FqO) (G1_SetRawBytes FqB) false (pinit FqO) l) 0 = AffineZero FqO.
Proof. exact (copy_safe FqO (G1_ToAffine FqO) (G1_SetRawBytes FqB) l). Qed.
Theorem C72_G2_refuted : exists l, pok_all FqO2 (G2_ToAffine FqO2) (G2_SetRawBytes FqB) true (pinit FqO2) l /\
  cell FqO2 (prun FqO2 (G2_ToAffine FqO2) (G2_SetRawBytes FqB) true (pinit FqO2) l) 0 <> AffineZero FqO2 /\
  g2_identity_bytes (prun FqO2 (G2_ToAffine FqO2) (G2_SetRawBytes FqB) true (pinit FqO2) l) <> g2_identity_bytes (pinit FqO2).
Proof. exact share_refuted. Qed.
Theorem C72_G2_without_SetRawBytes_partial l : forallb (fun c => negb (is_raw c)) l = true ->
  cell FqO2 (prun FqO2 (G2_ToAffine FqO2) (G2_SetRawBytes FqB) true (pinit FqO2) l) 0 = AffineZero FqO2.
Proof. exact (share_safe FqO2 (G2_ToAffine FqO2) (G2_SetRawBytes FqB) l). Qed.
Example C72_nonvacuous : pok_all FqO (G1_ToAffine FqO) (G1_SetRawBytes FqB) false (pinit FqO) [PToAffine (ProjectiveZero FqO); PSetRaw 1%nat (repeat 0 96); PCopy 1%nat; PNeg 2%nat].
Proof. exact g1_history. Qed.

(** * C73: VerifyAggregate and the caller's slices, for every sequence of swaps sort.Sort may make *)
Theorem C73_g1pubs sha sig pubs M o s M2 v : wfM M -> (o < length (arrays M))%nat -> g1pubs_VerifyAggregate_mem sha FqB sig pubs M o s = Some (M2, v) ->
  extends M M2 /\ contents M2 o = contents M o /\
  ((length pubs = length (contents M o) -> sorted_bytes (contents M2 (length (arrays M)))) -> v = g1pubs_VerifyAggregate sha FqB sig pubs (contents M o)).
Proof. exact (mem1 sha FqB sig pubs M o s M2 v). Qed.
Theorem C73_g2pubs sha sig pubs M o s M2 v : wfM M -> (o < length (arrays M))%nat -> g2pubs_VerifyAggregate_mem sha FqB sig pubs M o s = Some (M2, v) ->
  extends M M2 /\ contents M2 o = contents M o /\
  ((length pubs = length (contents M o) -> sorted_bytes (contents M2 (length (arrays M)))) -> v = g2pubs_VerifyAggregate sha FqB sig pubs (contents M o)).
Proof. exact (mem2 sha FqB sig pubs M o s M2 v). Qed.
Example C73_nonvacuous : wfM ex_mem /\ contents ex_mem 0 = [[3; 1]; [2; 9]; [2]] /\
  match screen ex_mem 0 [(0, 2)]%nat with Some (M2, b) => contents M2 0 = [[3; 1]; [2; 9]; [2]] /\ contents M2 1 = [[2; 9]] /\ contents M2 2 = [[2]; [2; 9]; [3; 1]] /\ b = false | None => False end.
Proof. exact ex_screen. Qed.
Example C73_sorted : sorted_bytes [[2]; [2; 9]; [3; 1]].
Proof. exact ex_sorted. Qed.
(** without the copy the property fails *)
Example C73_copy_needed : exists M o s M2 b, wfM M /\ (o < length (arrays M))%nat /\ screen_in_place M o s = Some (M2, b) /\ contents M2 o <> contents M o.
Proof. exact in_place_refuted. Qed.

Print Assumptions wire_vocabulary_stated.
Print Assumptions C69_g2pubs_one_string.
Print Assumptions C69_g1pubs_one_string.
Print Assumptions C70_g1pubs.
Print Assumptions C70_g2pubs.
Print Assumptions C69_C70_g1pubs_nonvacuous.
Print Assumptions C69_C70_g2pubs_nonvacuous.
Print Assumptions C40_g1pubs_sha256_partial.
Print Assumptions C40_g2pubs_sha256_partial.
Print Assumptions C71_g1pubs_VerifyAggregateCommon.
Print Assumptions C71_g2pubs_VerifyAggregateCommon.
Print Assumptions C71_VerifyAggregateWithDomain.
Print Assumptions C71_VerifyAggregate_screens.
Print Assumptions C71_nonvacuous.
Print Assumptions C72_G1.
Print Assumptions C72_G2_refuted.
Print Assumptions C72_G2_without_SetRawBytes_partial.
Print Assumptions C72_nonvacuous.
Print Assumptions C73_g1pubs.
Print Assumptions C73_g2pubs.
Print Assumptions C73_nonvacuous.
Print Assumptions C73_sorted.
Print Assumptions C73_copy_needed.
