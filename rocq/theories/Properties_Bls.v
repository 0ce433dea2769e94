(** Properties C41-C46, C57, C59: the protocol layer (g1pubs, g2pubs).  Everything is about the limb-level code ([FqB]);
    SHA-256 is an arbitrary function [sha].  A verdict is [Some b]; [None] is a Go panic.
    - keys and signatures are Jacobian triples; [jac1 P] ([jac2 P]) is the point P stands for, [plus1], [mul1], [on1] the
      group of the curve (see Properties_Curve); [valid1 P] ([valid2 P]): canonical coordinates and on the curve.
    - [sum1] ([sum2]): the sum of a list of points.  [prod12]: the product of a list of pairing values, None if one is
      missing (its computation panicked); [term1 sha (P, m)] ([term2]): the pairing of the public key P with the hash of m.
    - [rcanon k]: k is a canonical FR; [rval k]: the integer modulo r it stands for. *)
Require Import ZArith Lia Bool List Permutation Znumtheory.
From Verif Require Import PairTor VerifyProofs HashEx CasesEx.
From Verif Require Import Words ModelRepr ReprProofs ReprProofs2 ModelFq ModelFr ModelOps ModelTower ModelCurve ModelPairing ModelHash ModelBls NumTheory Primality Fp FpOps FqProofs FqProofs2 FqRel FrProofs OpsRel OpsRel2 FqTransfer Ext TowerProofs TowerLimb Fld AbGrp EcGroup EcJac EcMul Curves CurveLimb CurveMisc Codec Miller PairBasic PairLimb GenFacts MsgScreen BlsProofs BlsProofs2 BlsProofs3 BlsKeys BlsProofs4.
Import ListNotations.
Open Scope Z_scope.

Theorem protocol_vocabulary :
  (forall P, valid1 P <-> canonP1 P /\ on1 (jac1 P)) /\ (forall P, valid2 P <-> canonP2 P /\ on2 (jac2 P)) /\
  sum1 [] = Inf /\ (forall P l, sum1 (P :: l) = plus1 P (sum1 l)) /\ sum2 [] = Inf /\ (forall P l, sum2 (P :: l) = plus2 P (sum2 l)) /\
  (forall sha P m, term1 sha (P, m) = match HashG2 sha FqB m with None => None | Some h => Pairing FqB P (Affine_ToProjective FqO2 h) end) /\
  (forall sha P m, term2 sha (P, m) = match HashG1 sha FqB m with None => None | Some h => Pairing FqB (Affine_ToProjective FqO h) P end) /\
  (forall es, prod12 (map Some es) = Some (fold_right k12_mul k12_1 (map val12 es))) /\ (forall es, In None es -> prod12 es = None).
Proof. exact vocabulary. Qed.
Print Assumptions protocol_vocabulary.

(** * g1pubs: public keys in G1, signatures in G2 *)
Theorem C41_g1pubs_screening sha s pubs msgs : length pubs <> length msgs \/ ~ NoDup msgs -> g1pubs_VerifyAggregate sha FqB s pubs msgs = Some false.
Proof. intros H. exact (VerifyAggregate_screen1 sha s pubs msgs (or_ind (fun x => or_introl x) (fun y => or_intror (or_introl y)) H)). Qed.
Theorem C41_g1pubs_equation_partial sha s pubs msgs : length pubs = length msgs -> NoDup msgs -> ~ In [] msgs -> canonP2 s -> Forall canonP1 pubs ->
  g1pubs_VerifyAggregate sha FqB s pubs msgs =
    match Pairing FqB (G1ProjectiveOne FqB) s, prod12 (map (term1 sha) (combine pubs msgs)) with Some l, Some v => Some (eq12 (val12 l) v) | _, _ => None end.
Proof. exact (VerifyAggregate_eq1 sha s pubs msgs). Qed.
(** As stated C41 is false: the empty message is refused, whatever the keys and the signature are. *)
Theorem C41_g1pubs_empty_message_refuted : exists msgs : list (list Z), NoDup msgs /\ forall sha s pubs, g1pubs_VerifyAggregate sha FqB s pubs msgs = Some false.
Proof. exists [[]]. split; [repeat constructor; exact (fun x => x)|]. intros sha s pubs. exact (VerifyAggregate_screen1 sha s pubs [[]] (or_intror (or_intror (or_introl eq_refl)))). Qed.
Print Assumptions C41_g1pubs_screening.
Print Assumptions C41_g1pubs_equation_partial.
Print Assumptions C41_g1pubs_empty_message_refuted.

Theorem C42_g1pubs_order sha s l l' : canonP2 s -> Forall (fun pm => canonP1 (fst pm)) l -> Permutation l l' ->
  g1pubs_VerifyAggregate sha FqB s (map fst l) (map snd l) = g1pubs_VerifyAggregate sha FqB s (map fst l') (map snd l').
Proof. exact (VerifyAggregate_perm1 sha s l l'). Qed.
Example C41_C42_g1pubs_nonvacuous : let G := G1ProjectiveOne FqB in let l := [(G, [1]); (Double FqO G, [2; 3])] in
  NoDup (map snd l) /\ ~ In [] (map snd l) /\ canonP2 (G2ProjectiveOne FqB) /\ Forall (fun pm => canonP1 (fst pm)) l /\ Permutation l (rev l) /\ ~ NoDup [[7]; [7]].
Proof.
  cbv zeta. split; [constructor; [intros [X|[]]; discriminate X|constructor; [intros []|constructor]]|]. split; [intros [X|[X|[]]]; discriminate X|].
  destruct points1 as ([C _] & [C' _] & _), points2 as ([D _] & _). split; [exact D|]. split; [constructor; [exact C|constructor; [exact C'|constructor]]|]. split; [apply Permutation_rev|].
  intros N. inversion N as [|x l' X]. apply X. left. reflexivity.
Qed.
Print Assumptions C42_g1pubs_order.

Theorem C43_g1pubs_signatures l : Forall valid2 l ->
  valid2 (g1pubs_AggregateSignatures FqB l) /\ jac2 (g1pubs_AggregateSignatures FqB l) = sum2 (map jac2 l).
Proof. exact (agg2 l). Qed.
Theorem C43_g1pubs_keys l : Forall valid1 l ->
  valid1 (g1pubs_AggregatePublicKeys FqB l) /\ jac1 (g1pubs_AggregatePublicKeys FqB l) = sum1 (map jac1 l).
Proof. exact (agg1 l). Qed.
Theorem C43_g1pubs_order l l' k k' : Forall valid2 l -> Permutation l l' -> Forall valid1 k -> Permutation k k' ->
  jac2 (g1pubs_AggregateSignatures FqB l) = jac2 (g1pubs_AggregateSignatures FqB l') /\
  jac1 (g1pubs_AggregatePublicKeys FqB k) = jac1 (g1pubs_AggregatePublicKeys FqB k').
Proof. exact (fun H P H' P' => conj (agg2_perm l l' H P) (agg1_perm k k' H' P')). Qed.
Theorem C43_g1pubs_grouping ls ks : Forall (Forall valid2) ls -> Forall (Forall valid1) ks ->
  jac2 (g1pubs_AggregateSignatures FqB (concat ls)) = jac2 (g1pubs_AggregateSignatures FqB (map (g1pubs_AggregateSignatures FqB) ls)) /\
  jac1 (g1pubs_AggregatePublicKeys FqB (concat ks)) = jac1 (g1pubs_AggregatePublicKeys FqB (map (g1pubs_AggregatePublicKeys FqB) ks)).
Proof. exact (fun H H' => conj (agg2_group ls H) (agg1_group ks H')). Qed.
Theorem C43_g1pubs_nothing : jac2 (g1pubs_AggregateSignatures FqB []) = Inf /\ jac1 (g1pubs_AggregatePublicKeys FqB []) = Inf /\
  jac2 (g1pubs_NewAggregateSignature FqB) = Inf /\ jac1 (g1pubs_NewAggregatePubkey FqB) = Inf.
Proof. exact (conj (proj2 G2_zero) (conj (proj2 G1_zero) (conj (proj2 G2_zero) (proj2 G1_zero)))). Qed.
Example C43_g1pubs_nonvacuous : Forall valid1 [G1ProjectiveOne FqB; Proj_NegAssign FqO (G1ProjectiveOne FqB)] /\
  jac1 (g1pubs_AggregatePublicKeys FqB [G1ProjectiveOne FqB; Proj_NegAssign FqO (G1ProjectiveOne FqB)]) = Inf /\
  jac1 (g1pubs_AggregatePublicKeys FqB [G1ProjectiveOne FqB]) <> Inf.
Proof. exact ex43_1. Qed.
Print Assumptions C43_g1pubs_signatures.
Print Assumptions C43_g1pubs_keys.
Print Assumptions C43_g1pubs_order.
Print Assumptions C43_g1pubs_grouping.
Print Assumptions C43_g1pubs_nothing.

Theorem C44_g1pubs_public_key k : rcanon k -> exists P, g1pubs_PrivToPub FqB (Some k) = Some P /\ valid1 P /\ jac1 P = mul1 (rval k) (aff1 (G1AffineOne FqB)) /\
  (jac1 P = Inf <-> rval k = 0).
Proof. exact (pub_spec1 k). Qed.
Theorem C44_g1pubs_keys ks k Ps P : Forall rcanon ks -> rcanon k -> rval k = fold_right Z.add 0 (map rval ks) mod r ->
  Forall2 (fun k P => g1pubs_PrivToPub FqB (Some k) = Some P) ks Ps -> g1pubs_PrivToPub FqB (Some k) = Some P ->
  jac1 (g1pubs_AggregatePublicKeys FqB Ps) = jac1 P.
Proof. exact (keys_hom1 ks k Ps P). Qed.
Theorem C44_g1pubs_signatures sha m h ks k Ss S : HashG2 sha FqB m = Some h -> on2 (aff2 h) -> mul2 r (aff2 h) = Inf ->
  Forall rcanon ks -> rcanon k -> rval k = fold_right Z.add 0 (map rval ks) mod r ->
  Forall2 (fun k S => g1pubs_Sign sha FqB m (Some k) = Some S) ks Ss -> g1pubs_Sign sha FqB m (Some k) = Some S ->
  jac2 (g1pubs_AggregateSignatures FqB Ss) = jac2 S.
Proof. exact (sigs_hom1 sha m h ks k Ss S). Qed.
(** keys 1 + 2 = 3, with a fixed hash under which every message can be signed *)
Example C44_g1pubs_nonvacuous m : exists ks k Ps P Ss S h, HashG2 sha_two FqB m = Some h /\ hok2 h /\ length ks = 2%nat /\ Forall rcanon ks /\ rcanon k /\ rval k = fold_right Z.add 0 (map rval ks) mod r /\
  Forall2 (fun k P => g1pubs_PrivToPub FqB (Some k) = Some P) ks Ps /\ g1pubs_PrivToPub FqB (Some k) = Some P /\
  Forall2 (fun k S => g1pubs_Sign sha_two FqB m (Some k) = Some S) ks Ss /\ g1pubs_Sign sha_two FqB m (Some k) = Some S.
Proof. exact (split_key_example1 m). Qed.
Print Assumptions C44_g1pubs_public_key.
Print Assumptions C44_g1pubs_keys.
Print Assumptions C44_g1pubs_signatures.

Theorem C57_g1pubs_common sha s pubs m : g1pubs_VerifyAggregateCommon sha FqB s pubs m = g1pubs_Verify sha FqB m (g1pubs_AggregatePublicKeys FqB pubs) s.
Proof. exact (Common1 sha s pubs m). Qed.
Theorem C57_g1pubs_order sha s pubs pubs' m : canonP2 s -> Forall valid1 pubs -> Permutation pubs pubs' ->
  g1pubs_VerifyAggregateCommon sha FqB s pubs m = g1pubs_VerifyAggregateCommon sha FqB s pubs' m.
Proof. exact (Common_perm1 sha s pubs pubs' m). Qed.
(** more generally the verdict only depends on the points represented *)
Theorem C57_g1pubs_representation sha m P P' S S' : canonP1 P -> canonP1 P' -> canonP2 S -> canonP2 S' -> jac1 P = jac1 P' -> jac2 S = jac2 S' ->
  g1pubs_Verify sha FqB m P S = g1pubs_Verify sha FqB m P' S'.
Proof. exact (Verify_dep1 sha m P P' S S'). Qed.
(** one point with two representations *)
Example C57_g1pubs_nonvacuous : exists P, valid1 P /\ jac1 P = jac1 (Double FqO (G1ProjectiveOne FqB)) /\ P <> Double FqO (G1ProjectiveOne FqB).
Proof. exact two_reps1. Qed.
Print Assumptions C57_g1pubs_common.
Print Assumptions C57_g1pubs_order.
Print Assumptions C57_g1pubs_representation.

Theorem C59_g1pubs_Equals P P' : valid1 P -> valid1 P' ->
  (g1pubs_PublicKey_Equals FqB P P' = true <-> g1pubs_PublicKey_Serialize FqB P = g1pubs_PublicKey_Serialize FqB P').
Proof. exact (equals_serialize1 P P'). Qed.
Theorem C59_g1pubs_signatures S S' : valid2 S -> valid2 S' ->
  (jac2 S = jac2 S' <-> g1pubs_Signature_Serialize FqB S = g1pubs_Signature_Serialize FqB S').
Proof. exact (sig_serialize1 S S'). Qed.
Theorem C59_g1pubs_reserialize P : valid1 P -> mul1 r (jac1 P) = Inf ->
  exists P', g1pubs_DeserializePublicKey FqB (g1pubs_PublicKey_Serialize FqB P) = Some P' /\ valid1 P' /\ g1pubs_PublicKey_Equals FqB P P' = true.
Proof. exact (reserialize1 P). Qed.
Example C59_g1pubs_nonvacuous : let G := G1ProjectiveOne FqB in valid1 G /\ mul1 r (jac1 G) = Inf /\ valid1 (Double FqO G) /\ jac1 G <> jac1 (Double FqO G).
Proof. destruct points1 as (A & B & _ & N & _). split; [exact A|]. split; [exact (proj1 (proj2 (proj2 one1_tor)))|]. split; [exact B|exact N]. Qed.
Print Assumptions C59_g1pubs_Equals.
Print Assumptions C59_g1pubs_signatures.
Print Assumptions C59_g1pubs_reserialize.

(** * g2pubs: public keys in G2, signatures in G1 *)
Theorem C41_g2pubs_screening sha s pubs msgs : length pubs <> length msgs \/ ~ NoDup msgs -> g2pubs_VerifyAggregate sha FqB s pubs msgs = Some false.
Proof. intros H. exact (VerifyAggregate_screen2 sha s pubs msgs (or_ind (fun x => or_introl x) (fun y => or_intror (or_introl y)) H)). Qed.
Theorem C41_g2pubs_equation_partial sha s pubs msgs : length pubs = length msgs -> NoDup msgs -> ~ In [] msgs -> canonP1 s -> Forall canonP2 pubs ->
  g2pubs_VerifyAggregate sha FqB s pubs msgs =
    match Pairing FqB s (G2ProjectiveOne FqB), prod12 (map (term2 sha) (combine pubs msgs)) with Some l, Some v => Some (eq12 (val12 l) v) | _, _ => None end.
Proof. exact (VerifyAggregate_eq2 sha s pubs msgs). Qed.
(** As stated C41 is false: the empty message is refused, whatever the keys and the signature are. *)
Theorem C41_g2pubs_empty_message_refuted : exists msgs : list (list Z), NoDup msgs /\ forall sha s pubs, g2pubs_VerifyAggregate sha FqB s pubs msgs = Some false.
Proof. exists [[]]. split; [repeat constructor; exact (fun x => x)|]. intros sha s pubs. exact (VerifyAggregate_screen2 sha s pubs [[]] (or_intror (or_intror (or_introl eq_refl)))). Qed.
Print Assumptions C41_g2pubs_screening.
Print Assumptions C41_g2pubs_equation_partial.
Print Assumptions C41_g2pubs_empty_message_refuted.

Theorem C42_g2pubs_order sha s l l' : canonP1 s -> Forall (fun pm => canonP2 (fst pm)) l -> Permutation l l' ->
  g2pubs_VerifyAggregate sha FqB s (map fst l) (map snd l) = g2pubs_VerifyAggregate sha FqB s (map fst l') (map snd l').
Proof. exact (VerifyAggregate_perm2 sha s l l'). Qed.
Example C41_C42_g2pubs_nonvacuous : let G := G2ProjectiveOne FqB in let l := [(G, [1]); (Double FqO2 G, [2; 3])] in
  NoDup (map snd l) /\ ~ In [] (map snd l) /\ canonP1 (G1ProjectiveOne FqB) /\ Forall (fun pm => canonP2 (fst pm)) l /\ Permutation l (rev l) /\ ~ NoDup [[7]; [7]].
Proof.
  cbv zeta. split; [constructor; [intros [X|[]]; discriminate X|constructor; [intros []|constructor]]|]. split; [intros [X|[X|[]]]; discriminate X|].
  destruct points2 as ([C _] & [C' _] & _), points1 as ([D _] & _). split; [exact D|]. split; [constructor; [exact C|constructor; [exact C'|constructor]]|]. split; [apply Permutation_rev|].
  intros N. inversion N as [|x l' X]. apply X. left. reflexivity.
Qed.
Print Assumptions C42_g2pubs_order.

Theorem C43_g2pubs_signatures l : Forall valid1 l ->
  valid1 (g2pubs_AggregateSignatures FqB l) /\ jac1 (g2pubs_AggregateSignatures FqB l) = sum1 (map jac1 l).
Proof. exact (agg1 l). Qed.
Theorem C43_g2pubs_keys l : Forall valid2 l ->
  valid2 (g2pubs_AggregatePublicKeys FqB l) /\ jac2 (g2pubs_AggregatePublicKeys FqB l) = sum2 (map jac2 l).
Proof. exact (agg2 l). Qed.
Theorem C43_g2pubs_order l l' k k' : Forall valid1 l -> Permutation l l' -> Forall valid2 k -> Permutation k k' ->
  jac1 (g2pubs_AggregateSignatures FqB l) = jac1 (g2pubs_AggregateSignatures FqB l') /\
  jac2 (g2pubs_AggregatePublicKeys FqB k) = jac2 (g2pubs_AggregatePublicKeys FqB k').
Proof. exact (fun H P H' P' => conj (agg1_perm l l' H P) (agg2_perm k k' H' P')). Qed.
Theorem C43_g2pubs_grouping ls ks : Forall (Forall valid1) ls -> Forall (Forall valid2) ks ->
  jac1 (g2pubs_AggregateSignatures FqB (concat ls)) = jac1 (g2pubs_AggregateSignatures FqB (map (g2pubs_AggregateSignatures FqB) ls)) /\
  jac2 (g2pubs_AggregatePublicKeys FqB (concat ks)) = jac2 (g2pubs_AggregatePublicKeys FqB (map (g2pubs_AggregatePublicKeys FqB) ks)).
Proof. exact (fun H H' => conj (agg1_group ls H) (agg2_group ks H')). Qed.
Theorem C43_g2pubs_nothing : jac1 (g2pubs_AggregateSignatures FqB []) = Inf /\ jac2 (g2pubs_AggregatePublicKeys FqB []) = Inf /\
  jac1 (g2pubs_NewAggregateSignature FqB) = Inf /\ jac2 (g2pubs_NewAggregatePubkey FqB) = Inf.
Proof. exact (conj (proj2 G1_zero) (conj (proj2 G2_zero) (conj (proj2 G1_zero) (proj2 G2_zero)))). Qed.
Example C43_g2pubs_nonvacuous : Forall valid2 [G2ProjectiveOne FqB; Proj_NegAssign FqO2 (G2ProjectiveOne FqB)] /\
  jac2 (g2pubs_AggregatePublicKeys FqB [G2ProjectiveOne FqB; Proj_NegAssign FqO2 (G2ProjectiveOne FqB)]) = Inf /\
  jac2 (g2pubs_AggregatePublicKeys FqB [G2ProjectiveOne FqB]) <> Inf.
Proof. exact ex43_2. Qed.
Print Assumptions C43_g2pubs_signatures.
Print Assumptions C43_g2pubs_keys.
Print Assumptions C43_g2pubs_order.
Print Assumptions C43_g2pubs_grouping.
Print Assumptions C43_g2pubs_nothing.

Theorem C44_g2pubs_public_key k : rcanon k -> exists P, g2pubs_PrivToPub FqB (Some k) = Some P /\ valid2 P /\ jac2 P = mul2 (rval k) (aff2 (G2AffineOne FqB)) /\
  (jac2 P = Inf <-> rval k = 0).
Proof. exact (pub_spec2 k). Qed.
Theorem C44_g2pubs_keys ks k Ps P : Forall rcanon ks -> rcanon k -> rval k = fold_right Z.add 0 (map rval ks) mod r ->
  Forall2 (fun k P => g2pubs_PrivToPub FqB (Some k) = Some P) ks Ps -> g2pubs_PrivToPub FqB (Some k) = Some P ->
  jac2 (g2pubs_AggregatePublicKeys FqB Ps) = jac2 P.
Proof. exact (keys_hom2 ks k Ps P). Qed.
Theorem C44_g2pubs_signatures sha m h ks k Ss S : HashG1 sha FqB m = Some h -> on1 (aff1 h) -> mul1 r (aff1 h) = Inf ->
  Forall rcanon ks -> rcanon k -> rval k = fold_right Z.add 0 (map rval ks) mod r ->
  Forall2 (fun k S => g2pubs_Sign sha FqB m (Some k) = Some S) ks Ss -> g2pubs_Sign sha FqB m (Some k) = Some S ->
  jac1 (g2pubs_AggregateSignatures FqB Ss) = jac1 S.
Proof. exact (sigs_hom2 sha m h ks k Ss S). Qed.
(** keys 1 + 2 = 3, with a fixed hash under which every message can be signed *)
Example C44_g2pubs_nonvacuous m : exists ks k Ps P Ss S h, HashG1 sha_two FqB m = Some h /\ hok1 h /\ length ks = 2%nat /\ Forall rcanon ks /\ rcanon k /\ rval k = fold_right Z.add 0 (map rval ks) mod r /\
  Forall2 (fun k P => g2pubs_PrivToPub FqB (Some k) = Some P) ks Ps /\ g2pubs_PrivToPub FqB (Some k) = Some P /\
  Forall2 (fun k S => g2pubs_Sign sha_two FqB m (Some k) = Some S) ks Ss /\ g2pubs_Sign sha_two FqB m (Some k) = Some S.
Proof. exact (split_key_example2 m). Qed.
Print Assumptions C44_g2pubs_public_key.
Print Assumptions C44_g2pubs_keys.
Print Assumptions C44_g2pubs_signatures.

Theorem C57_g2pubs_common sha s pubs m : g2pubs_VerifyAggregateCommon sha FqB s pubs m = g2pubs_Verify sha FqB m (g2pubs_AggregatePublicKeys FqB pubs) s.
Proof. exact (Common2 sha s pubs m). Qed.
Theorem C57_g2pubs_order sha s pubs pubs' m : canonP1 s -> Forall valid2 pubs -> Permutation pubs pubs' ->
  g2pubs_VerifyAggregateCommon sha FqB s pubs m = g2pubs_VerifyAggregateCommon sha FqB s pubs' m.
Proof. exact (Common_perm2 sha s pubs pubs' m). Qed.
(** more generally the verdict only depends on the points represented *)
Theorem C57_g2pubs_representation sha m P P' S S' : canonP2 P -> canonP2 P' -> canonP1 S -> canonP1 S' -> jac2 P = jac2 P' -> jac1 S = jac1 S' ->
  g2pubs_Verify sha FqB m P S = g2pubs_Verify sha FqB m P' S'.
Proof. exact (Verify_dep2 sha m P P' S S'). Qed.
(** one point with two representations *)
Example C57_g2pubs_nonvacuous : exists P, valid2 P /\ jac2 P = jac2 (Double FqO2 (G2ProjectiveOne FqB)) /\ P <> Double FqO2 (G2ProjectiveOne FqB).
Proof. exact two_reps2. Qed.
Print Assumptions C57_g2pubs_common.
Print Assumptions C57_g2pubs_order.
Print Assumptions C57_g2pubs_representation.

Theorem C59_g2pubs_Equals P P' : valid2 P -> valid2 P' ->
  (g2pubs_PublicKey_Equals FqB P P' = true <-> g2pubs_PublicKey_Serialize FqB P = g2pubs_PublicKey_Serialize FqB P').
Proof. exact (equals_serialize2 P P'). Qed.
Theorem C59_g2pubs_signatures S S' : valid1 S -> valid1 S' ->
  (jac1 S = jac1 S' <-> g2pubs_Signature_Serialize FqB S = g2pubs_Signature_Serialize FqB S').
Proof. exact (sig_serialize2 S S'). Qed.
Theorem C59_g2pubs_reserialize P : valid2 P -> mul2 r (jac2 P) = Inf ->
  exists P', g2pubs_DeserializePublicKey FqB (g2pubs_PublicKey_Serialize FqB P) = Some P' /\ valid2 P' /\ g2pubs_PublicKey_Equals FqB P P' = true.
Proof. exact (reserialize2 P). Qed.
Example C59_g2pubs_nonvacuous : let G := G2ProjectiveOne FqB in valid2 G /\ mul2 r (jac2 G) = Inf /\ valid2 (Double FqO2 G) /\ jac2 G <> jac2 (Double FqO2 G).
Proof. destruct points2 as (A & B & _ & N & _). split; [exact A|]. split; [exact (proj1 (proj2 (proj2 one2_tor)))|]. split; [exact B|exact N]. Qed.
Print Assumptions C59_g2pubs_Equals.
Print Assumptions C59_g2pubs_signatures.
Print Assumptions C59_g2pubs_reserialize.

(** * The functions with a domain (g1pubs only); [fuel] bounds the search of HashG2WithDomain, SHA-256 returns 32 bytes *)
Theorem C57_domain_common sha fuel s pubs m dom : g1pubs_VerifyAggregateCommonWithDomain sha FqB fuel s pubs m dom = g1pubs_VerifyWithDomain sha FqB fuel m (g1pubs_AggregatePublicKeys FqB pubs) s dom.
Proof. exact (Commond sha fuel dom s pubs m). Qed.
Theorem C57_domain_order sha fuel s pubs pubs' m dom : (forall l, Forall isByte (sha l) /\ length (sha l) = 32%nat) -> canonP2 s -> Forall valid1 pubs -> Permutation pubs pubs' ->
  g1pubs_VerifyAggregateCommonWithDomain sha FqB fuel s pubs m dom = g1pubs_VerifyAggregateCommonWithDomain sha FqB fuel s pubs' m dom.
Proof. exact (fun Sh => Commond_perm sha Sh fuel dom s pubs pubs' m). Qed.
Theorem C42_domain_order sha fuel s l l' dom : (forall l, Forall isByte (sha l) /\ length (sha l) = 32%nat) -> canonP2 s -> Forall (fun pm => canonP1 (fst pm)) l -> Permutation l l' ->
  g1pubs_VerifyAggregateWithDomain sha FqB fuel s (map fst l) (map snd l) dom = g1pubs_VerifyAggregateWithDomain sha FqB fuel s (map fst l') (map snd l') dom.
Proof. exact (fun Sh => VerifyAggregated_perm sha Sh fuel dom s l l'). Qed.
Print Assumptions C57_domain_common.
Print Assumptions C57_domain_order.
Print Assumptions C42_domain_order.

(** * Secret keys *)
Theorem C45_roundtrip k : rcanon k ->
  exists b, SecretKey_Serialize (Some k) = Some b /\ length b = 32%nat /\ Forall isByte b /\ be_value b = rval k /\ DeserializeSecretKey b = Some k.
Proof. exact (key_roundtrip k). Qed.
Theorem C45_all_strings b : length b = 32%nat -> Forall isByte b ->
  (be_value b < r -> exists k, DeserializeSecretKey b = Some k /\ rcanon k /\ rval k = be_value b /\ SecretKey_Serialize (Some k) = Some b) /\
  (r <= be_value b -> DeserializeSecretKey b = None).
Proof. exact (key_deserialize b). Qed.
Example C45_nonvacuous : (exists k, rcanon k /\ rval k = 2) /\ be_value (repeat 0 31 ++ [5]) < r /\ r <= be_value (repeat 255 32) /\ length (repeat 0 31 ++ [5]) = 32%nat /\ length (repeat 255 32) = 32%nat.
Proof. split; [exact WireEx.two_ok|]. split; [reflexivity|]. split; [apply Z.leb_le; vm_compute; reflexivity|]. split; reflexivity. Qed.
(** An integer >= r is not reported: the result is a SecretKey holding a nil pointer, and every use of it panics. *)
Theorem C45_out_of_range_refuted : exists b, length b = 32%nat /\ Forall isByte b /\ r <= be_value b /\ DeserializeSecretKey b = None /\
  forall sha m, g1pubs_Sign sha FqB m (DeserializeSecretKey b) = None /\ g1pubs_PrivToPub FqB (DeserializeSecretKey b) = None /\
    g2pubs_Sign sha FqB m (DeserializeSecretKey b) = None /\ g2pubs_PrivToPub FqB (DeserializeSecretKey b) = None /\ SecretKey_Serialize (DeserializeSecretKey b) = None.
Proof. exact key_refuted. Qed.
Print Assumptions C45_roundtrip.
Print Assumptions C45_all_strings.
Print Assumptions C45_out_of_range_refuted.

Theorem C46_HashSecretKey sha b : let d := sha b ++ [0] in
  exists k, HashSecretKey sha b = Some k /\ rcanon k /\ rval k = be_value (sha (d ++ [1; 1]) ++ sha (d ++ [1; 2])) mod r.
Proof. exact (key_hash sha b). Qed.
Theorem C46_hp sha msg ctr : let d := sha msg ++ [ctr] in
  canon (hp sha FqB msg ctr) /\ fval (hp sha FqB msg ctr) = be_value (sha (d ++ [1; 1]) ++ sha (d ++ [1; 2])) mod q.
Proof. exact (hp_spec sha msg ctr). Qed.
Theorem C46_hp2 sha msg ctr : let d := sha msg ++ [ctr] in let f := hp2 sha FqB msg ctr in
  canon2 f /\ fval (c0 f) = be_value (sha (d ++ [1; 1]) ++ sha (d ++ [1; 2])) mod q /\ fval (c1 f) = be_value (sha (d ++ [2; 1]) ++ sha (d ++ [2; 2])) mod q.
Proof. exact (hp2_spec sha msg ctr). Qed.
Example C46_nonvacuous : let sha := fun l : list Z => repeat 7 32 in exists k, HashSecretKey sha [1; 2; 3] = Some k /\ rcanon k /\ rval k = be_value (repeat 7 64) mod r.
Proof. exact (key_hash (fun _ => repeat 7 32) [1; 2; 3]). Qed.
Print Assumptions C46_HashSecretKey.
Print Assumptions C46_hp.
Print Assumptions C46_hp2.

(** * Constants *)
Theorem C58_primes : prime q /\ prime r.
Proof. exact (conj prime_q prime_r). Qed.
Theorem C58_field_constants :
  eval6 QFieldModulus = q /\ eval6 FQR2 = 2 ^ 768 mod q /\ (1 + montInvFQ * q) mod 2 ^ 64 = 0 /\ eval6 negativeOne = q - 1 /\ fval negativeOneFQ = q - 1 /\ fval FQOne = 1 /\
  eval6 qMinus1Over2 = (q - 1) / 2 /\ eval6 qMinus3Over4 = (q - 3) / 4 /\ q mod 4 = 3 /\
  eval4 RFieldModulus = r /\ eval4 FRR = 2 ^ 256 mod r /\ eval4 FRR2 = 2 ^ 512 mod r /\ (1 + montInvFR * r) mod 2 ^ 64 = 0 /\ eval4 rMinus1Over2 = (r - 1) / 2 /\ eval4 frChar = r.
Proof. exact constants58. Qed.
Theorem C58_curve_parameters : let x := - eval6 blsX in
  r = x ^ 4 - x ^ 2 + 1 /\ 3 * q = (x - 1) ^ 2 * r + 3 * x /\
  3 * eval6 g1Cofactor = (x - 1) ^ 2 /\ eval6 g1Cofactor * r = q + 1 - (x + 1) /\
  9 * g2Cofactor = x ^ 8 - 4 * x ^ 7 + 5 * x ^ 6 - 4 * x ^ 4 + 6 * x ^ 3 - 4 * x ^ 2 - 4 * x + 13.
Proof. exact parameters58. Qed.
Theorem C58_coefficients : fval (BCoeff FqB) = 4 /\ fval (c0 (BCoeffFQ2 FqB)) = 4 /\ fval (c1 (BCoeffFQ2 FqB)) = 4.
Proof. exact coefficients58. Qed.
(** the generators are on the curves and have order exactly r *)
Theorem C58_generators :
  (canonA1 (G1AffineOne FqB) /\ on1 (aff1 (G1AffineOne FqB)) /\ forall k, mul1 k (aff1 (G1AffineOne FqB)) = Inf <-> (r | k)) /\
  (canonA2 (G2AffineOne FqB) /\ on2 (aff2 (G2AffineOne FqB)) /\ forall k, mul2 k (aff2 (G2AffineOne FqB)) = Inf <-> (r | k)).
Proof. exact (conj (conj G1one_canon (conj G1one_on one1_mul)) (conj G2one_canon (conj G2one_on one2_mul))). Qed.
Theorem C30_generators_pass : G1_IsInCorrectSubgroupAssumingOnCurve FqB (G1AffineOne FqB) = true /\ G2_IsInCorrectSubgroupAssumingOnCurve FqB (G2AffineOne FqB) = true.
Proof. exact (conj (proj2 (g1_subgroup _ G1one_canon G1one_on) G1one_torsion) (proj2 (g2_subgroup _ G2one_canon G2one_on) G2one_torsion)). Qed.
Print Assumptions C58_primes.
Print Assumptions C58_field_constants.
Print Assumptions C58_curve_parameters.
Print Assumptions C58_coefficients.
Print Assumptions C58_generators.
Print Assumptions C30_generators_pass.
