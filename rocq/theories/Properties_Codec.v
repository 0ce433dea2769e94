(** Properties C32-C35: point encodings.  The functions are the limb-level code ([FqB]).
    - byte strings are lists of integers in [0, 256) ([isByte]) of the length the Go array types impose;
      [be_value]: big-endian integer of a byte string; an error is [None].
    - [sub1 P] ([sub2 P]): canonical coordinates, on the curve, r*P is infinity, and an infinity object is the
      package's G1AffineZero (G2AffineZero).  [on1], [aff1], [mul1] are as in Properties_Curve. *)
Require Import ZArith Lia Bool List.
From Verif Require Import Words ModelRepr ReprProofs ReprProofs2 ModelFq ModelOps ModelTower ModelCurve NumTheory Primality Fp FpOps FqProofs FqProofs2 FqRel FqMisc OpsRel OpsRel2 FqTransfer Ext TowerProofs TowerLimb Fld AbGrp EcGroup EcJac EcMul Curves CurveLimb CurveMisc Codec.
Import ListNotations.
Open Scope Z_scope.

Theorem subgroup_points_meaning :
  (forall P, sub1 P <-> canonA1 P /\ on1 (aff1 P) /\ mul1 r (aff1 P) = Inf /\ (ainf P = true -> P = AffineZero FqO)) /\
  (forall P, sub2 P <-> canonA2 P /\ on2 (aff2 P) /\ mul2 r (aff2 P) = Inf /\ (ainf P = true -> P = AffineZero FqO2)).
Proof. split; intros P; reflexivity. Qed.
Print Assumptions subgroup_points_meaning.

(** Exactly the compressed forms of subgroup points are accepted, each for its own point. *)
Theorem C32_G1_exact_codec l P : length l = 48%nat -> Forall isByte l ->
  (DecompressG1 FqB l = Some P <-> sub1 P /\ CompressG1 FqB P = l).
Proof.
  intros L F. split; [exact (G1_nonmalleable l P L F)|]. intros [S <-]. exact (G1_roundtrip_sub P S).
Qed.
Theorem C32_G1_roundtrip P : sub1 P ->
  length (CompressG1 FqB P) = 48%nat /\ Forall isByte (CompressG1 FqB P) /\ DecompressG1 FqB (CompressG1 FqB P) = Some P.
Proof. intros S. exact (conj (proj1 (compress1_bytes P (proj1 S))) (conj (proj2 (compress1_bytes P (proj1 S))) (G1_roundtrip_sub P S))). Qed.
Theorem C32_G1_injective l l' P : length l = 48%nat -> length l' = 48%nat -> Forall isByte l -> Forall isByte l' ->
  DecompressG1 FqB l = Some P -> DecompressG1 FqB l' = Some P -> l = l'.
Proof.
  intros L L' F F' E E'. destruct (G1_nonmalleable l P L F E) as [_ <-]. exact (proj2 (G1_nonmalleable l' P L' F' E')).
Qed.
(** without the subgroup check: every finite curve point with y <> 0 still round-trips, and only curve points come out *)
Theorem C32_G1_unchecked P l : length l = 48%nat -> Forall isByte l ->
  (canonA1 P -> on1 (aff1 P) -> ainf P = false -> fqval (ay P) <> f0 q -> DecompressG1Unchecked FqB (CompressG1 FqB P) = Some P) /\
  (DecompressG1Unchecked FqB l = Some P -> canonA1 P /\ on1 (aff1 P)).
Proof.
  intros L F. split; [exact (G1_roundtrip_unchecked P)|]. intros E. destruct (G1_decompress_some l P L F E) as (C & H & _). auto.
Qed.
Example C32_nonvacuous : sub1 (AffineZero FqO) /\ CompressG1 FqB (AffineZero FqO) = 192 :: repeat 0 47 /\
  DecompressG1Unchecked FqB (CompressG1 FqB (G1AffineOne FqB)) = Some (G1AffineOne FqB) /\ DecompressG1 FqB (0 :: repeat 0 47) = None.
Proof.
  split; [exact (proj2 (proj1 (G1_decompress_checked _ _ (proj1 (compress1_bytes _ (proj1 G1_azero))) (proj2 (compress1_bytes _ (proj1 G1_azero)))) G1_roundtrip_zero))|].
  split; [vm_compute; reflexivity|]. split; [|vm_compute; reflexivity].
  apply G1_roundtrip_unchecked; [exact G1one_canon|exact G1one_on|reflexivity|]. exact G1one_y.
Qed.
Print Assumptions C32_G1_exact_codec.
Print Assumptions C32_G1_roundtrip.
Print Assumptions C32_G1_injective.
Print Assumptions C32_G1_unchecked.

(** For G2 the converse direction needs both encoded coordinates to be smaller than q. *)
Theorem C33_G2_roundtrip P : sub2 P ->
  length (CompressG2 FqB P) = 96%nat /\ Forall isByte (CompressG2 FqB P) /\ DecompressG2 FqB (CompressG2 FqB P) = Some P.
Proof. intros S. exact (conj (proj1 (compress2_bytes P (proj1 S))) (conj (proj2 (compress2_bytes P (proj1 S))) (G2_roundtrip_sub P S))). Qed.
Theorem C33_G2_nonmalleable l P : length l = 96%nat -> Forall isByte l -> DecompressG2 FqB l = Some P ->
  sub2 P /\ (be_value (wand (byte0 l) 31 :: firstn 47 (skipn 1 l)) < q -> be_value (skipn 48 l) < q -> CompressG2 FqB P = l).
Proof. intros L F E. destruct (G2_nonmalleable l P L F E) as [S H]. exact (conj S (fun A B => H (conj A B))). Qed.
Theorem C33_G2_unchecked P l : length l = 96%nat -> Forall isByte l ->
  (canonA2 P -> on2 (aff2 P) -> ainf P = false -> val2 (ay P) <> k2_0 -> DecompressG2Unchecked FqB (CompressG2 FqB P) = Some P) /\
  (DecompressG2Unchecked FqB l = Some P -> canonA2 P /\ on2 (aff2 P)).
Proof.
  intros L F. split; [exact (G2_roundtrip_unchecked P)|]. intros E. destruct (G2_decompress_some l P L F E) as (C & H & _). auto.
Qed.
Example C33_nonvacuous : DecompressG2Unchecked FqB (CompressG2 FqB (G2AffineOne FqB)) = Some (G2AffineOne FqB).
Proof. apply G2_roundtrip_unchecked; [exact G2one_canon|exact G2one_on|reflexivity|]. exact G2one_y. Qed.
Print Assumptions C33_G2_roundtrip.
Print Assumptions C33_G2_nonmalleable.
Print Assumptions C33_G2_unchecked.

(** The documented rejection of non-canonical x does not happen: x = q is read as 0 and a point comes out. *)
Theorem C34_G1_noncanonical_refuted : exists l, length l = 48%nat /\ Forall isByte l /\
  (wand (byte0 l) 128 =? 0) = false /\ (wand (byte0 l) 64 =? 0) = true /\
  be_value (upd0 (fun x => wand x 31) l) = q /\ DecompressG1Unchecked FqB l <> None.
Proof. exact noncanon1. Qed.
Theorem C34_G2_noncanonical_refuted : exists l, length l = 96%nat /\ Forall isByte l /\
  (wand (byte0 l) 128 =? 0) = false /\ (wand (byte0 l) 64 =? 0) = true /\
  be_value (firstn 48 (upd0 (fun x => wand x 31) l)) = q /\ DecompressG2Unchecked FqB l <> None.
Proof. exact noncanon2. Qed.
Print Assumptions C34_G1_noncanonical_refuted.
Print Assumptions C34_G2_noncanonical_refuted.

(** G2: the coordinates come back (the flag of the receiver is kept). *)
Theorem C35_G2_raw_roundtrip P g : canonA2 P ->
  length (G2_SerializeBytes FqB P) = 192%nat /\ Forall isByte (G2_SerializeBytes FqB P) /\
  G2_SetRawBytes FqB g (G2_SerializeBytes FqB P) = mkAff (ax P) (ay P) (ainf g).
Proof. exact (G2_raw_roundtrip P g). Qed.
(** G1: SetRawBytes stores the bytes as the Montgomery form, so every coordinate comes back divided by 2^384. *)
Theorem C35_G1_raw_refuted : exists P, canonA1 P /\ on1 (aff1 P) /\ ainf P = false /\
  ax (G1_SetRawBytes FqB P (G1_SerializeBytes FqB P)) <> ax P.
Proof. exact G1_raw_refuted. Qed.
Theorem C35_G1_raw_partial P g : canonA1 P ->
  length (G1_SerializeBytes FqB P) = 96%nat /\ Forall isByte (G1_SerializeBytes FqB P) /\
  (forall xb yb, G1_SerializeBytes FqB P = xb ++ yb -> length xb = 48%nat -> be_value xb = fval (ax P) /\ be_value yb = fval (ay P)) /\
  let P' := G1_SetRawBytes FqB g (G1_SerializeBytes FqB P) in
  canonA1 P' /\ fval (ax P') = (fval (ax P) * RQinv) mod q /\ fval (ay P') = (fval (ay P) * RQinv) mod q /\ ainf P' = ainf g.
Proof. exact (G1_raw_partial P g). Qed.
Example C35_RQinv : (RQinv * 2 ^ 384) mod q = 1. Proof. vm_compute. reflexivity. Qed.
Print Assumptions C35_G2_raw_roundtrip.
Print Assumptions C35_G1_raw_refuted.
Print Assumptions C35_G1_raw_partial.
