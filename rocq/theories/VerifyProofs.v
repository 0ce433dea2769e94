(** Verification: Verify, VerifyAggregate and VerifyAggregateCommon answer true exactly on the signature the secret keys make. *)
Require Import ZArith Lia Bool List Permutation Znumtheory.
From Verif Require Import Words ModelRepr ReprProofs ModelFq ModelFr ModelOps ModelTower ModelCurve ModelPairing ModelHash ModelBls NumTheory Primality Fp FpOps FqProofs FqProofs2 FqRel FrProofs OpsRel OpsRel2 FqTransfer Ext TowerProofs TowerLimb Fld EcGroup AbGrp EcMul EcJac Curves CurveLimb CurveMisc FinExp Miller PairBasic PairLimb BilinBase Bilin GenFacts PairGen PairGen2 BlsProofs BlsProofs2 BlsProofs3 BlsKeys BlsProofs4 Torsion PairTor.
Import CurveLimb ListNotations.
Open Scope Z_scope.

Definition gp1 : pt Fq := aff1 (G1AffineOne FqB).
Definition gp2 : pt K2 := aff2 (G2AffineOne FqB).
(** hash points good for verification: on the curve, killed by r, finite *)
Definition hok1 (h : Affine FQ) : Prop := on1 (aff1 h) /\ mul1 r (aff1 h) = Inf /\ aff1 h <> Inf.
Definition hok2 (h : Affine (FQ2 FQ)) : Prop := on2 (aff2 h) /\ mul2 r (aff2 h) = Inf /\ aff2 h <> Inf.
Lemma one1_tor : tor1 (G1ProjectiveOne FqB).
Proof. split; [exact G1pone_canon|]. rewrite G1pone_jac. split; [exact G1one_on|]. split; [exact G1one_torsion|]. intros E. apply gen1_ne, ec_eq. exact E. Qed.
Lemma one2_tor : tor2 (G2ProjectiveOne FqB).
Proof. split; [exact G2pone_canon|]. rewrite G2pone_jac. split; [exact G2one_on|]. split; [exact G2one_torsion|]. intros E. apply gen2_ne, ec_eq. exact E. Qed.
Lemma epr_gen1 : epr E1 gen1 = jac1 (G1ProjectiveOne FqB). Proof. rewrite G1pone_jac. reflexivity. Qed.
Lemma epr_gen2 : epr E2 gen2 = jac2 (G2ProjectiveOne FqB). Proof. rewrite G2pone_jac. reflexivity. Qed.
Lemma gp1_gen : gp1 = epr E1 gen1. Proof. reflexivity. Qed.
Lemma gp2_gen : gp2 = epr E2 gen2. Proof. reflexivity. Qed.
(** the pairing with the key on the left, for either package *)
Definition ep1 (A : EC E1) (B : EC E2) : U12 := epair A B.
Definition ep2 (A : EC E2) (B : EC E1) : U12 := epair B A.
Lemma pair1 P Q (A : EC E1) (B : EC E2) : canonP1 P -> canonP2 Q -> epr E1 A = jac1 P -> epr E2 B = jac2 Q -> gm r A = gO -> gm r B = gO -> A <> gO -> B <> gO ->
  exists e, Pairing FqB P Q = Some e /\ canon12 e /\ val12 e = upr (ep1 A B).
Proof. intros CP CQ EA EB TA TB NA NB. exact (pair_core P Q A B CP CQ EA EB TA (E2_Q2 B TB) NA NB). Qed.
Lemma pair2 P Q (A : EC E2) (B : EC E1) : canonP2 P -> canonP1 Q -> epr E2 A = jac2 P -> epr E1 B = jac1 Q -> gm r A = gO -> gm r B = gO -> A <> gO -> B <> gO ->
  exists e, Pairing FqB Q P = Some e /\ canon12 e /\ val12 e = upr (ep2 A B).
Proof. intros CP CQ EA EB TA TB NA NB. exact (pair_core Q P B A CQ CP EB EA TB (E2_Q2 A TA) NB NA). Qed.
Lemma ep1_gm k (A : EC E1) (B : EC E2) : gm r A = gO -> gm r B = gO -> ep1 (gm k A) B = ep1 A (gm k B).
Proof. intros TA TB. pose proof (E2_Q2 B TB) as QB. unfold ep1. rewrite epair_gm_l, epair_gm_r by assumption. reflexivity. Qed.
Lemma ep2_gm k (A : EC E2) (B : EC E1) : gm r A = gO -> gm r B = gO -> ep2 (gm k A) B = ep2 A (gm k B).
Proof. intros TA TB. pose proof (E2_Q2 A TA) as QA. unfold ep2. rewrite epair_gm_l, epair_gm_r by assumption. reflexivity. Qed.
Lemma ep1_A (A : EC E1) (B B' : EC E2) : gm r A = gO -> gm r B = gO -> gm r B' = gO -> ep1 A (gA B B') = gA (ep1 A B) (ep1 A B').
Proof. intros TA TB TB'. exact (epair_A_r A B B' TA (E2_Q2 B TB) (E2_Q2 B' TB')). Qed.
Lemma ep2_A (A : EC E2) (B B' : EC E1) : gm r A = gO -> gm r B = gO -> gm r B' = gO -> ep2 A (gA B B') = gA (ep2 A B) (ep2 A B').
Proof. intros TA TB TB'. exact (epair_A_l B B' A TB TB' (E2_Q2 A TA)). Qed.
Lemma ep1_O (A : EC E1) : ep1 A gO = gO. Proof. exact (epair_O_r A). Qed.
Lemma ep2_O (A : EC E2) : ep2 A gO = gO. Proof. exact (epair_O_l A). Qed.
Lemma ep1_inj (B B' : EC E2) : gm r B = gO -> gm r B' = gO -> (ep1 gen1 B = ep1 gen1 B' <-> B = B'). Proof. exact (epair_inj_r B B'). Qed.
Lemma ep2_inj (B B' : EC E1) : gm r B = gO -> gm r B' = gO -> (ep2 gen2 B = ep2 gen2 B' <-> B = B'). Proof. exact (epair_inj_l B B'). Qed.
Lemma torec1 P : tor1 P -> exists A : EC E1, epr E1 A = jac1 P /\ gm r A = gO /\ A <> gO. Proof. exact (tor1_ec P). Qed.
Lemma torec2 P : tor2 P -> exists A : EC E2, epr E2 A = jac2 P /\ gm r A = gO /\ A <> gO.
Proof. intros H. destruct (tor2_ec P H) as (A & EA & TA & _ & NA). exists A. auto. Qed.
Lemma lowr1 (A : EC E1) : gm r A = gO -> on1 (epr E1 A) /\ mul1 r (epr E1 A) = Inf. Proof. exact (lower1 A). Qed.
Lemma lowr2 (A : EC E2) : gm r A = gO -> on2 (epr E2 A) /\ mul2 r (epr E2 A) = Inf. Proof. exact (lower2 A). Qed.
Lemma some_inj' {A} (x y : A) : Some x = Some y -> x = y. Proof. congruence. Qed.
Lemma eci1 (A B : EC E1) : epr E1 A = epr E1 B <-> A = B. Proof. split; [exact (ec_eq E1 A B)|intros ->; reflexivity]. Qed.
Lemma eci2 (A B : EC E2) : epr E2 A = epr E2 B <-> A = B. Proof. split; [exact (ec_eq E2 A B)|intros ->; reflexivity]. Qed.
Lemma gm_comm {G : AbGrp} a b (x : G) : gm a (gm b x) = gm b (gm a x). Proof. rewrite <- !gm_mul, Z.mul_comm. reflexivity. Qed.
Lemma gm_T {G : AbGrp} n k (x : G) : gm n x = gO -> gm n (gm k x) = gO. Proof. intros H. rewrite gm_comm, H. apply gm_O. Qed.
Lemma gm_TA {G : AbGrp} n (x y : G) : gm n x = gO -> gm n y = gO -> gm n (gA x y) = gO. Proof. intros H H'. rewrite gm_A, H, H'. apply gA_0_l. Qed.
Lemma mulT1 k P : on1 P -> mul1 r P = Inf -> mul1 r (mul1 k P) = Inf.
Proof. intros O T. rewrite <- mul1_mul, Z.mul_comm, mul1_mul, T by exact O. exact (pk_Inf E1 k). Qed.
Lemma mulT2 k P : on2 P -> mul2 r P = Inf -> mul2 r (mul2 k P) = Inf.
Proof. intros O T. rewrite <- mul2_mul, Z.mul_comm, mul2_mul, T by exact O. exact (pk_Inf E2 k). Qed.
Lemma mul_tor1 k P S : on1 P -> mul1 r P = Inf -> P <> Inf -> ~ (r | k) -> valid1 S -> jac1 S = mul1 k P -> tor1 S.
Proof. intros O T N D [C O'] J. split; [exact C|]. split; [exact O'|]. split; [exact (eq_trans (f_equal (mul1 r) J) (mulT1 k P O T))|]. intros Z. apply D. apply (mul1_inj0 P k O T N). exact (eq_trans (eq_sym J) Z). Qed.
Lemma mul_tor2 k P S : on2 P -> mul2 r P = Inf -> P <> Inf -> ~ (r | k) -> valid2 S -> jac2 S = mul2 k P -> tor2 S.
Proof. intros O T N D [C O'] J. split; [exact C|]. split; [exact O'|]. split; [exact (eq_trans (f_equal (mul2 r) J) (mulT2 k P O T))|]. intros Z. apply D. apply (mul2_inj0 P k O T N). exact (eq_trans (eq_sym J) Z). Qed.
Lemma rkey_ndiv k : rcanon k -> rval k <> 0 -> ~ (r | rval k).
Proof. intros C N D. pose proof (rval_bound k). apply Z.divide_pos_le in D; lia. Qed.

(** * g1pubs *)
(** [P] is the public key of the secret key [k] (and not the identity) *)
Definition key_of1 (P : Proj FQ) (k : Z) : Prop := tor1 P /\ jac1 P = mul1 k gp1.
Lemma key_mult1 P k : canonP1 P -> jac1 P = mul1 k gp1 -> ~ (r | k) -> key_of1 P k.
Proof.
  intros C J ND. split; [|exact J]. split; [exact C|]. rewrite J, gp1_gen, !mul1_gm. destruct (lowr1 (gm k gen1) (gm_T r k gen1 gen1_r)) as [O T]. rewrite mul1_gm in T.
  split; [exact O|]. split; [exact T|]. intros Z. apply ND. apply (gm_prime_order r k gen1 prime_r gen1_r gen1_ne). apply ec_eq. exact Z.
Qed.
(** every finite point of order r is the public key of exactly one secret key *)
Theorem key_exists1 P : tor1 P -> exists k, 0 < k < r /\ key_of1 P k /\ forall k', 0 <= k' < r -> jac1 P = mul1 k' gp1 -> k' = k.
Proof.
  intros HP. destruct (torec1 _ HP) as (A & EA & TA & NA). destruct (E1_torsion A TA) as [k0 ->]. pose proof (gm_mod r k0 gen1 gen1_r) as E. set (k := k0 mod r) in E.
  assert (0 <= k < r) as Bk by (apply Z.mod_pos_bound; reflexivity). exists k.
  assert (k <> 0) as N by (intros Z; rewrite Z in E; apply NA; rewrite <- E; reflexivity).
  assert (jac1 P = mul1 k gp1) as J by (rewrite <- EA, gp1_gen, mul1_gm, E; reflexivity).
  split; [lia|]. split; [split; [exact HP|exact J]|]. intros k' Bk' J'. rewrite J, gp1_gen, !mul1_gm in J'. pose proof (ec_eq E1 (gm k gen1) (gm k' gen1) J') as J2.
  assert (gm (k' - k) gen1 = gO) as Z by (rewrite gm_sub, J2; apply gA_N_r). apply (gm_prime_order r _ gen1 prime_r gen1_r gen1_ne) in Z. destruct Z as [c Hc]. assert (c = 0) by nia. lia.
Qed.
Lemma key_ec1 P k : key_of1 P k -> epr E1 (gm k gen1) = jac1 P /\ gm k gen1 <> gO.
Proof.
  intros [(C & O & T & N) J]. assert (epr E1 (gm k gen1) = jac1 P) as E by (rewrite J, gp1_gen, mul1_gm; reflexivity).
  split; [exact E|]. intros Z. apply N. rewrite <- E, Z. reflexivity.
Qed.
Lemma compare1 P S Q k : key_of1 P k -> tor2 S -> tor2 Q ->
  exists b, CompareTwoPairings FqB (G1ProjectiveOne FqB) S P Q = Some b /\ (b = true <-> jac2 S = mul2 k (jac2 Q)).
Proof.
  intros HP HS HQ. destruct (key_ec1 P k HP) as [EA NA]. destruct (torec2 _ HS) as (B & EB & TB & NB). destruct (torec2 _ HQ) as (H & EH & TH & NH).
  destruct (pair1 (G1ProjectiveOne FqB) S gen1 B G1pone_canon (proj1 HS) epr_gen1 EB gen1_r TB gen1_ne NB) as (e1 & H1 & C1 & V1).
  destruct (pair1 P Q _ H (proj1 (proj1 HP)) (proj1 HQ) EA EH (gm_T r k gen1 gen1_r) TH NA NH) as (e2 & H2 & C2 & V2).
  destruct (Compare_limb (G1ProjectiveOne FqB) S P Q e1 e2 G1pone_canon (proj1 HS) (proj1 (proj1 HP)) (proj1 HQ) H1 H2) as (b & Hb & Ib). exists b. split; [exact Hb|].
  assert (jac2 S = mul2 k (jac2 Q) <-> B = gm k H) as I1 by (rewrite <- EB, <- EH, mul2_gm; apply eci2).
  assert (e1 = e2 <-> ep1 gen1 B = ep1 (gm k gen1) H) as I2.
  { split; intros E; [apply upr_inj; rewrite <- V1, <- V2, E; reflexivity|apply val12_inj; auto; rewrite V1, V2, E; reflexivity]. }
  rewrite Ib, I1, I2, ep1_gm by (exact gen1_r || exact TH). exact (ep1_inj _ _ TB (gm_T r k H TH)).
Qed.
(** a signer: public key, secret key, message, hash point *)
Record signer1 := mkSigner1 { s_pub1 : Proj FQ; s_key1 : Z; s_msg1 : list Z; s_hash1 : Proj (FQ2 FQ) }.
(** the signature all of them make together *)
Definition expected1 (l : list signer1) : pt K2 := sum2 (map (fun s => mul2 (s_key1 s) (jac2 (s_hash1 s))) l).
Lemma agg_key1 Ps ks : Forall2 key_of1 Ps ks -> valid1 (g1pubs_AggregatePublicKeys FqB Ps) /\ jac1 (g1pubs_AggregatePublicKeys FqB Ps) = mul1 (fold_right Z.add 0 ks) gp1.
Proof.
  intros H. assert (Forall valid1 Ps) as HV by (induction H as [|P k Ps ks [(C & O & _) _] _ IH]; constructor; [split; assumption|exact IH]).
  destruct (agg1 Ps HV) as [V J]. split; [exact V|]. refine (eq_trans J _). refine (eq_trans _ (mul1_sum gp1 ks G1one_on)). f_equal. clear - H. induction H as [|P k Ps ks [_ HP] _ IH]; [reflexivity|]. cbn [map]. rewrite HP, IH. reflexivity.
Qed.
Section V1.
Context (Hf : list Z -> option (Proj (FQ2 FQ))).
Definition signer_ok1 (s : signer1) : Prop := key_of1 (s_pub1 s) (s_key1 s) /\ Hf (s_msg1 s) = Some (s_hash1 s) /\ tor2 (s_hash1 s).
Definition termH1 (pm : Proj FQ * list Z) : option (FQ12 FQ) := match Hf (snd pm) with None => None | Some h => Pairing FqB (fst pm) h end.
Lemma terms_val1 l : Forall signer_ok1 l ->
  exists X : EC E2, prod12 (map termH1 (combine (map s_pub1 l) (map s_msg1 l))) = Some (upr (ep1 gen1 X)) /\ epr E2 X = expected1 l /\ gm r X = gO.
Proof.
  induction 1 as [|s l (K & E & Hh) _ IH].
  - exists gO. split; [|split; [reflexivity|apply gm_O]]. rewrite ep1_O. reflexivity.
  - destruct IH as (X & Hp & EX & TX). destruct (key_ec1 _ _ K) as [EA NA]. destruct (torec2 _ Hh) as (H & EH & TH & NH).
    destruct (pair1 _ _ _ H (proj1 (proj1 K)) (proj1 Hh) EA EH (gm_T r _ gen1 gen1_r) TH NA NH) as (e & He & Ce & Ve).
    exists (gA (gm (s_key1 s) H) X). cbn [map combine prod12 fold_right]. fold (prod12 (map termH1 (combine (map s_pub1 l) (map s_msg1 l)))).
    assert (termH1 (s_pub1 s, s_msg1 s) = Some e) as -> by (unfold termH1; cbn [fst snd]; rewrite E; exact He). rewrite Hp. split; [|split].
    + f_equal. rewrite Ve, (ep1_gm _ gen1 H gen1_r TH), (ep1_A gen1 _ X gen1_r (gm_T r _ H TH) TX). reflexivity.
    + unfold expected1. cbn [map]. cbn [sum2 fold_right]. rewrite <- plus2_gA, <- mul2_gm, EH, EX. reflexivity.
    + exact (gm_TA r _ X (gm_T r _ H TH) TX).
Qed.
Lemma aggregate_eq1 l S : Forall signer_ok1 l -> tor2 S ->
  exists e v, Pairing FqB (G1ProjectiveOne FqB) S = Some e /\ prod12 (map termH1 (combine (map s_pub1 l) (map s_msg1 l))) = Some v /\ (eq12 (val12 e) v = true <-> jac2 S = expected1 l).
Proof.
  intros HL HS. destruct (terms_val1 l HL) as (X & Hp & EX & TX). destruct (torec2 _ HS) as (B & EB & TB & NB).
  destruct (pair1 (G1ProjectiveOne FqB) S gen1 B G1pone_canon (proj1 HS) epr_gen1 EB gen1_r TB gen1_ne NB) as (e1 & H1 & C1 & V1).
  exists e1, (upr (ep1 gen1 X)). split; [exact H1|]. split; [exact Hp|].
  assert (jac2 S = expected1 l <-> B = X) as -> by (rewrite <- EB, <- EX; apply eci2).
  rewrite eq12_iff, V1, <- (ep1_inj B X TB TX). split; [apply upr_inj|intros ->; reflexivity].
Qed.
Lemma signers_canon1 l : Forall signer_ok1 l -> Forall canonP1 (map s_pub1 l).
Proof. intros HL. apply Forall_map. eapply Forall_impl; [|exact HL]. intros s ((H & _) & _). exact (proj1 H). Qed.
Lemma expected_tor1 l S : Forall signer_ok1 l -> canonP2 S -> jac2 S = expected1 l -> expected1 l <> Inf -> tor2 S.
Proof.
  intros HL C J N. destruct (terms_val1 l HL) as (X & _ & EX & TX). split; [exact C|]. rewrite J. rewrite <- EX in N |- *. destruct (lowr2 X TX) as [O T]. auto.
Qed.
Lemma expected_common1 (m : list Z) Q ks Ps : tor2 Q -> Forall2 key_of1 Ps ks -> expected1 (map (fun t => mkSigner1 (fst t) (snd t) m Q) (combine Ps ks)) = mul2 (fold_right Z.add 0 ks) (jac2 Q).
Proof.
  intros HQ H. unfold expected1. rewrite map_map. cbn [s_key1 s_hash1]. rewrite <- (mul2_sum (jac2 Q) ks (proj1 (proj2 HQ))). f_equal.
  induction H as [|P k Ps ks _ _ IH]; [reflexivity|]. cbn [combine map snd]. rewrite IH. reflexivity.
Qed.
End V1.
Section H1.
Context (sha : list Z -> list Z).
Definition hf1 (m : list Z) : option (Proj (FQ2 FQ)) := option_map (Affine_ToProjective FqO2) (HashG2 sha FqB m).
Lemma hf1_ok m h : HashG2 sha FqB m = Some h -> hok2 h -> hf1 m = Some (Affine_ToProjective FqO2 h) /\ tor2 (Affine_ToProjective FqO2 h) /\ jac2 (Affine_ToProjective FqO2 h) = aff2 h.
Proof.
  intros E H. destruct (G2_toproj h (hash2_canon _ _ _ E)) as [C J]. split; [unfold hf1; rewrite E; reflexivity|]. split; [|exact J]. split; [exact C|]. rewrite J. exact H.
Qed.
Theorem Verify_iff1 m h P S k : HashG2 sha FqB m = Some h -> hok2 h -> key_of1 P k -> tor2 S ->
  exists b, g1pubs_Verify sha FqB m P S = Some b /\ (b = true <-> jac2 S = mul2 k (aff2 h)).
Proof.
  intros E Hh HP HS. destruct (hf1_ok m h E Hh) as (_ & T & J). unfold g1pubs_Verify. rewrite E, <- J. exact (compare1 P S _ k HP HS T).
Qed.
Theorem Verify_inf1 m h P S : HashG2 sha FqB m = Some h -> canonP1 P -> canonP2 S -> jac1 P = Inf \/ jac2 S = Inf \/ aff2 h = Inf -> g1pubs_Verify sha FqB m P S = None.
Proof.
  intros E CP CS H. unfold g1pubs_Verify. rewrite E. destruct (G2_toproj h (hash2_canon _ _ _ E)) as [C V]. rewrite <- V in H.
  apply Compare_inf_limb; [exact G1pone_canon|exact CS|exact CP|exact C|]. tauto.
Qed.
Lemma term_hf1 pm : term1 sha pm = termH1 hf1 pm.
Proof. unfold term1, termB1, termH1, hf1. destruct (HashG2 sha FqB (snd pm)); reflexivity. Qed.
Theorem VerifyAggregate_iff1 l S : NoDup (map s_msg1 l) -> ~ In [] (map s_msg1 l) -> Forall (signer_ok1 hf1) l -> tor2 S ->
  exists b, g1pubs_VerifyAggregate sha FqB S (map s_pub1 l) (map s_msg1 l) = Some b /\ (b = true <-> jac2 S = expected1 l).
Proof.
  intros N NE HL HS. rewrite VerifyAggregate_eq1; auto; [|rewrite !map_length; reflexivity|exact (proj1 HS)|exact (signers_canon1 _ _ HL)].
  destruct (aggregate_eq1 hf1 l S HL HS) as (e & v & -> & Hv & I). rewrite (map_ext _ _ term_hf1), Hv. eexists. split; [reflexivity|exact I].
Qed.
Theorem VerifyCommon_iff1 m h Ps ks S : HashG2 sha FqB m = Some h -> hok2 h -> Forall2 key_of1 Ps ks -> ~ (r | fold_right Z.add 0 ks) -> tor2 S ->
  exists b, g1pubs_VerifyAggregateCommon sha FqB S Ps m = Some b /\ (b = true <-> jac2 S = mul2 (fold_right Z.add 0 ks) (aff2 h)).
Proof.
  intros E Hh HK ND HS. rewrite Common1. destruct (agg_key1 Ps ks HK) as [[C O] J]. apply Verify_iff1; auto. apply key_mult1; assumption.
Qed.
(** ** honest signers *)
Lemma honest_key1 k P : rcanon k -> rval k <> 0 -> g1pubs_PrivToPub FqB (Some k) = Some P -> key_of1 P (rval k).
Proof.
  intros Ck Nk E. change (Some (smul1 (G1AffineOne FqB) k) = Some P) in E. apply some_inj' in E. subst P.
  destruct (smul1_val (G1AffineOne FqB) k G1one_canon G1one_on Ck) as [[C O] J]. apply key_mult1; [exact C|exact J|exact (rkey_ndiv k Ck Nk)].
Qed.
Lemma honest_sig1 m h k S : HashG2 sha FqB m = Some h -> hok2 h -> rcanon k -> g1pubs_Sign sha FqB m (Some k) = Some S -> valid2 S /\ jac2 S = mul2 (rval k) (aff2 h) /\ (rval k <> 0 -> tor2 S).
Proof.
  intros E (Oh & Th & Nh) Ck HS. rewrite (sign1 sha m h k E) in HS. apply some_inj' in HS. subst S.
  destruct (smul2_val h k (hash2_canon _ _ _ E) Oh Ck) as [V J]. split; [exact V|]. split; [exact J|]. intros Nk.
  exact (mul_tor2 (rval k) _ _ Oh Th Nh (rkey_ndiv k Ck Nk) V J).
Qed.
Theorem honest_Verify1 m h k P S : HashG2 sha FqB m = Some h -> hok2 h -> rcanon k -> rval k <> 0 ->
  g1pubs_PrivToPub FqB (Some k) = Some P -> g1pubs_Sign sha FqB m (Some k) = Some S -> g1pubs_Verify sha FqB m P S = Some true.
Proof.
  intros E Hh Ck Nk HP HS. pose proof (honest_key1 k P Ck Nk HP) as KP. destruct (honest_sig1 m h k S E Hh Ck HS) as (_ & JS & TS).
  destruct (Verify_iff1 m h P S (rval k) E Hh KP (TS Nk)) as (b & -> & [_ Ib]). rewrite (Ib JS). reflexivity.
Qed.
(** the same key verifies no other signature and no other message: the verdict true pins the signature point *)
Theorem Verify_unique1 m h P S S' : HashG2 sha FqB m = Some h -> hok2 h -> tor1 P -> tor2 S -> tor2 S' ->
  g1pubs_Verify sha FqB m P S = Some true -> g1pubs_Verify sha FqB m P S' = Some true -> jac2 S = jac2 S'.
Proof.
  intros E Hh HP HS HS' V V'. destruct (key_exists1 P HP) as (k & _ & K & _). destruct (Verify_iff1 m h P S k E Hh K HS) as (b & Hb & Ib). destruct (Verify_iff1 m h P S' k E Hh K HS') as (b' & Hb' & Ib').
  assert (b = true) as -> by congruence. assert (b' = true) as -> by congruence. rewrite (proj1 Ib eq_refl), (proj1 Ib' eq_refl). reflexivity.
Qed.
(** what an honest signer with key [k] does on message [m] *)
Definition honest1 (k : FR) (m : list Z) (P : Proj FQ) (S : Proj (FQ2 FQ)) : Prop :=
  rcanon k /\ rval k <> 0 /\ (exists h, HashG2 sha FqB m = Some h /\ hok2 h) /\ g1pubs_PrivToPub FqB (Some k) = Some P /\ g1pubs_Sign sha FqB m (Some k) = Some S.
Lemma honest_signers1 ks ms Ps Ss : length ks = length ms -> length ms = length Ps -> length Ps = length Ss ->
  Forall (fun t => honest1 (fst (fst (fst t))) (snd (fst (fst t))) (snd (fst t)) (snd t)) (combine (combine (combine ks ms) Ps) Ss) ->
  exists l, Forall (signer_ok1 hf1) l /\ map s_pub1 l = Ps /\ map s_msg1 l = ms /\ map s_key1 l = map rval ks /\ Forall valid2 Ss /\ sum2 (map jac2 Ss) = expected1 l.
Proof.
  revert ms Ps Ss. induction ks as [|k ks IH]; intros [|m ms] [|P Ps] [|S Ss]; try discriminate; cbn [combine length]; intros L1 L2 L3 H.
  - exists []. repeat split; constructor.
  - inversion H as [|x y (Ck & Nk & (h & E & Hh) & HP & HS) H']; subst; cbn [fst snd] in *. destruct (IH ms Ps Ss) as (l & H1 & H2 & H3 & H4 & H5 & H6); [lia..|exact H'|].
    destruct (hf1_ok m h E Hh) as (Eh & T & J). destruct (honest_sig1 m h k S E Hh Ck HS) as (V & JS & _).
    exists (mkSigner1 P (rval k) m (Affine_ToProjective FqO2 h) :: l). cbn [map s_pub1 s_msg1 s_key1].
    split; [constructor; [split; [exact (honest_key1 k P Ck Nk HP)|split; assumption]|exact H1]|]. rewrite H2, H3, H4. split; [reflexivity|]. split; [reflexivity|]. split; [reflexivity|]. split; [constructor; assumption|].
    unfold expected1. cbn [map s_key1 s_hash1]. cbn [sum2 fold_right]. fold (sum2 (map jac2 Ss)). fold (sum2 (map (fun s => mul2 (s_key1 s) (jac2 (s_hash1 s))) l)). fold (expected1 l). rewrite JS, J, H6. reflexivity.
Qed.
Theorem honest_VerifyAggregate1 ks ms Ps Ss : length ks = length ms -> length ms = length Ps -> length Ps = length Ss ->
  Forall (fun t => honest1 (fst (fst (fst t))) (snd (fst (fst t))) (snd (fst t)) (snd t)) (combine (combine (combine ks ms) Ps) Ss) ->
  NoDup ms -> ~ In [] ms -> jac2 (g1pubs_AggregateSignatures FqB Ss) <> Inf ->
  g1pubs_VerifyAggregate sha FqB (g1pubs_AggregateSignatures FqB Ss) Ps ms = Some true.
Proof.
  intros L1 L2 L3 H N NE NI. destruct (honest_signers1 ks ms Ps Ss L1 L2 L3 H) as (l & HL & <- & <- & _ & V & J).
  destruct (agg2 Ss V) as [[C O] JA]. assert (jac2 (g1pubs_AggregateSignatures FqB Ss) = expected1 l) as JE by exact (eq_trans JA J).
  assert (tor2 (g1pubs_AggregateSignatures FqB Ss)) as TS by (apply (expected_tor1 hf1 l); [exact HL|exact C|exact JE|rewrite <- JE; exact NI]).
  destruct (VerifyAggregate_iff1 l _ N NE HL TS) as (b & Hb & [_ Ib]). rewrite (Ib JE) in Hb. exact Hb.
Qed.
Theorem honest_VerifyCommon1 m ks Ps Ss : length ks = length Ps -> length Ps = length Ss -> (exists h, HashG2 sha FqB m = Some h /\ hok2 h) ->
  Forall (fun t => honest1 (fst (fst t)) m (snd (fst t)) (snd t)) (combine (combine ks Ps) Ss) -> ~ (r | fold_right Z.add 0 (map rval ks)) ->
  g1pubs_VerifyAggregateCommon sha FqB (g1pubs_AggregateSignatures FqB Ss) Ps m = Some true.
Proof.
  intros L2 L3 (h & E & Hh) H ND.
  assert (Forall2 key_of1 Ps (map rval ks) /\ Forall valid2 Ss /\ sum2 (map jac2 Ss) = mul2 (fold_right Z.add 0 (map rval ks)) (aff2 h)) as (HK & V & J).
  { clear ND. revert Ps Ss L2 L3 H. induction ks as [|k ks IH]; intros [|P Ps] [|S Ss] L2 L3 H; try (discriminate L2); try (discriminate L3); cbn [combine length] in *; [split; [constructor|split; [constructor|exact (eq_sym (mul2_0 (aff2 h)))]]|].
    inversion H as [|x y (Ck & Nk & _ & HP & HS) H']; subst; cbn [fst snd] in *. destruct (IH Ps Ss) as (H1 & H2 & H3); [lia..|exact H'|]. destruct (honest_sig1 m h k S E Hh Ck HS) as (V & JS & _).
    split; [constructor; [exact (honest_key1 k P Ck Nk HP)|exact H1]|]. split; [constructor; assumption|]. cbn [map fold_right]. rewrite (mul2_add _ _ _ (proj1 Hh)). cbn [sum2 fold_right]. fold (sum2 (map jac2 Ss)). rewrite JS, H3. reflexivity. }
  destruct (agg2 Ss V) as [[C O] JA]. assert (jac2 (g1pubs_AggregateSignatures FqB Ss) = mul2 (fold_right Z.add 0 (map rval ks)) (aff2 h)) as JE by exact (eq_trans JA J).
  assert (tor2 (g1pubs_AggregateSignatures FqB Ss)) as TS.
  { destruct Hh as (Oh & Th & Nh). refine (mul_tor2 _ _ _ Oh Th Nh ND _ JE). split; assumption. }
  destruct (VerifyCommon_iff1 m h Ps _ _ E Hh HK ND TS) as (b & Hb & [_ Ib]). rewrite (Ib JE) in Hb. exact Hb.
Qed.
End H1.

(** * g2pubs *)
(** [P] is the public key of the secret key [k] (and not the identity) *)
Definition key_of2 (P : Proj (FQ2 FQ)) (k : Z) : Prop := tor2 P /\ jac2 P = mul2 k gp2.
Lemma key_mult2 P k : canonP2 P -> jac2 P = mul2 k gp2 -> ~ (r | k) -> key_of2 P k.
Proof.
  intros C J ND. split; [|exact J]. split; [exact C|]. rewrite J, gp2_gen, !mul2_gm. destruct (lowr2 (gm k gen2) (gm_T r k gen2 gen2_r)) as [O T]. rewrite mul2_gm in T.
  split; [exact O|]. split; [exact T|]. intros Z. apply ND. apply (gm_prime_order r k gen2 prime_r gen2_r gen2_ne). apply ec_eq. exact Z.
Qed.
(** every finite point of order r is the public key of exactly one secret key *)
Theorem key_exists2 P : tor2 P -> exists k, 0 < k < r /\ key_of2 P k /\ forall k', 0 <= k' < r -> jac2 P = mul2 k' gp2 -> k' = k.
Proof.
  intros HP. destruct (torec2 _ HP) as (A & EA & TA & NA). destruct (E2_torsion A TA) as [k0 ->]. pose proof (gm_mod r k0 gen2 gen2_r) as E. set (k := k0 mod r) in E.
  assert (0 <= k < r) as Bk by (apply Z.mod_pos_bound; reflexivity). exists k.
  assert (k <> 0) as N by (intros Z; rewrite Z in E; apply NA; rewrite <- E; reflexivity).
  assert (jac2 P = mul2 k gp2) as J by (rewrite <- EA, gp2_gen, mul2_gm, E; reflexivity).
  split; [lia|]. split; [split; [exact HP|exact J]|]. intros k' Bk' J'. rewrite J, gp2_gen, !mul2_gm in J'. pose proof (ec_eq E2 (gm k gen2) (gm k' gen2) J') as J2.
  assert (gm (k' - k) gen2 = gO) as Z by (rewrite gm_sub, J2; apply gA_N_r). apply (gm_prime_order r _ gen2 prime_r gen2_r gen2_ne) in Z. destruct Z as [c Hc]. assert (c = 0) by nia. lia.
Qed.
Lemma key_ec2 P k : key_of2 P k -> epr E2 (gm k gen2) = jac2 P /\ gm k gen2 <> gO.
Proof.
  intros [(C & O & T & N) J]. assert (epr E2 (gm k gen2) = jac2 P) as E by (rewrite J, gp2_gen, mul2_gm; reflexivity).
  split; [exact E|]. intros Z. apply N. rewrite <- E, Z. reflexivity.
Qed.
Lemma compare2 P S Q k : key_of2 P k -> tor1 S -> tor1 Q ->
  exists b, CompareTwoPairings FqB S (G2ProjectiveOne FqB) Q P = Some b /\ (b = true <-> jac1 S = mul1 k (jac1 Q)).
Proof.
  intros HP HS HQ. destruct (key_ec2 P k HP) as [EA NA]. destruct (torec1 _ HS) as (B & EB & TB & NB). destruct (torec1 _ HQ) as (H & EH & TH & NH).
  destruct (pair2 (G2ProjectiveOne FqB) S gen2 B G2pone_canon (proj1 HS) epr_gen2 EB gen2_r TB gen2_ne NB) as (e1 & H1 & C1 & V1).
  destruct (pair2 P Q _ H (proj1 (proj1 HP)) (proj1 HQ) EA EH (gm_T r k gen2 gen2_r) TH NA NH) as (e2 & H2 & C2 & V2).
  destruct (Compare_limb S (G2ProjectiveOne FqB) Q P e1 e2 (proj1 HS) G2pone_canon (proj1 HQ) (proj1 (proj1 HP)) H1 H2) as (b & Hb & Ib). exists b. split; [exact Hb|].
  assert (jac1 S = mul1 k (jac1 Q) <-> B = gm k H) as I1 by (rewrite <- EB, <- EH, mul1_gm; apply eci1).
  assert (e1 = e2 <-> ep2 gen2 B = ep2 (gm k gen2) H) as I2.
  { split; intros E; [apply upr_inj; rewrite <- V1, <- V2, E; reflexivity|apply val12_inj; auto; rewrite V1, V2, E; reflexivity]. }
  rewrite Ib, I1, I2, ep2_gm by (exact gen2_r || exact TH). exact (ep2_inj _ _ TB (gm_T r k H TH)).
Qed.
(** a signer: public key, secret key, message, hash point *)
Record signer2 := mkSigner2 { s_pub2 : Proj (FQ2 FQ); s_key2 : Z; s_msg2 : list Z; s_hash2 : Proj FQ }.
(** the signature all of them make together *)
Definition expected2 (l : list signer2) : pt Fq := sum1 (map (fun s => mul1 (s_key2 s) (jac1 (s_hash2 s))) l).
Lemma agg_key2 Ps ks : Forall2 key_of2 Ps ks -> valid2 (g2pubs_AggregatePublicKeys FqB Ps) /\ jac2 (g2pubs_AggregatePublicKeys FqB Ps) = mul2 (fold_right Z.add 0 ks) gp2.
Proof.
  intros H. assert (Forall valid2 Ps) as HV by (induction H as [|P k Ps ks [(C & O & _) _] _ IH]; constructor; [split; assumption|exact IH]).
  destruct (agg2 Ps HV) as [V J]. split; [exact V|]. refine (eq_trans J _). refine (eq_trans _ (mul2_sum gp2 ks G2one_on)). f_equal. clear - H. induction H as [|P k Ps ks [_ HP] _ IH]; [reflexivity|]. cbn [map]. rewrite HP, IH. reflexivity.
Qed.
Section V2.
Context (Hf : list Z -> option (Proj FQ)).
Definition signer_ok2 (s : signer2) : Prop := key_of2 (s_pub2 s) (s_key2 s) /\ Hf (s_msg2 s) = Some (s_hash2 s) /\ tor1 (s_hash2 s).
Definition termH2 (pm : Proj (FQ2 FQ) * list Z) : option (FQ12 FQ) := match Hf (snd pm) with None => None | Some h => Pairing FqB h (fst pm) end.
Lemma terms_val2 l : Forall signer_ok2 l ->
  exists X : EC E1, prod12 (map termH2 (combine (map s_pub2 l) (map s_msg2 l))) = Some (upr (ep2 gen2 X)) /\ epr E1 X = expected2 l /\ gm r X = gO.
Proof.
  induction 1 as [|s l (K & E & Hh) _ IH].
  - exists gO. split; [|split; [reflexivity|apply gm_O]]. rewrite ep2_O. reflexivity.
  - destruct IH as (X & Hp & EX & TX). destruct (key_ec2 _ _ K) as [EA NA]. destruct (torec1 _ Hh) as (H & EH & TH & NH).
    destruct (pair2 _ _ _ H (proj1 (proj1 K)) (proj1 Hh) EA EH (gm_T r _ gen2 gen2_r) TH NA NH) as (e & He & Ce & Ve).
    exists (gA (gm (s_key2 s) H) X). cbn [map combine prod12 fold_right]. fold (prod12 (map termH2 (combine (map s_pub2 l) (map s_msg2 l)))).
    assert (termH2 (s_pub2 s, s_msg2 s) = Some e) as -> by (unfold termH2; cbn [fst snd]; rewrite E; exact He). rewrite Hp. split; [|split].
    + f_equal. rewrite Ve, (ep2_gm _ gen2 H gen2_r TH), (ep2_A gen2 _ X gen2_r (gm_T r _ H TH) TX). reflexivity.
    + unfold expected2. cbn [map]. cbn [sum1 fold_right]. rewrite <- plus1_gA, <- mul1_gm, EH, EX. reflexivity.
    + exact (gm_TA r _ X (gm_T r _ H TH) TX).
Qed.
Lemma aggregate_eq2 l S : Forall signer_ok2 l -> tor1 S ->
  exists e v, Pairing FqB S (G2ProjectiveOne FqB) = Some e /\ prod12 (map termH2 (combine (map s_pub2 l) (map s_msg2 l))) = Some v /\ (eq12 (val12 e) v = true <-> jac1 S = expected2 l).
Proof.
  intros HL HS. destruct (terms_val2 l HL) as (X & Hp & EX & TX). destruct (torec1 _ HS) as (B & EB & TB & NB).
  destruct (pair2 (G2ProjectiveOne FqB) S gen2 B G2pone_canon (proj1 HS) epr_gen2 EB gen2_r TB gen2_ne NB) as (e1 & H1 & C1 & V1).
  exists e1, (upr (ep2 gen2 X)). split; [exact H1|]. split; [exact Hp|].
  assert (jac1 S = expected2 l <-> B = X) as -> by (rewrite <- EB, <- EX; apply eci1).
  rewrite eq12_iff, V1, <- (ep2_inj B X TB TX). split; [apply upr_inj|intros ->; reflexivity].
Qed.
Lemma signers_canon2 l : Forall signer_ok2 l -> Forall canonP2 (map s_pub2 l).
Proof. intros HL. apply Forall_map. eapply Forall_impl; [|exact HL]. intros s ((H & _) & _). exact (proj1 H). Qed.
Lemma expected_tor2 l S : Forall signer_ok2 l -> canonP1 S -> jac1 S = expected2 l -> expected2 l <> Inf -> tor1 S.
Proof.
  intros HL C J N. destruct (terms_val2 l HL) as (X & _ & EX & TX). split; [exact C|]. rewrite J. rewrite <- EX in N |- *. destruct (lowr1 X TX) as [O T]. auto.
Qed.
Lemma expected_common2 (m : list Z) Q ks Ps : tor1 Q -> Forall2 key_of2 Ps ks -> expected2 (map (fun t => mkSigner2 (fst t) (snd t) m Q) (combine Ps ks)) = mul1 (fold_right Z.add 0 ks) (jac1 Q).
Proof.
  intros HQ H. unfold expected2. rewrite map_map. cbn [s_key2 s_hash2]. rewrite <- (mul1_sum (jac1 Q) ks (proj1 (proj2 HQ))). f_equal.
  induction H as [|P k Ps ks _ _ IH]; [reflexivity|]. cbn [combine map snd]. rewrite IH. reflexivity.
Qed.
End V2.
Section H2.
Context (sha : list Z -> list Z).
Definition hf2 (m : list Z) : option (Proj FQ) := option_map (Affine_ToProjective FqO) (HashG1 sha FqB m).
Lemma hf2_ok m h : HashG1 sha FqB m = Some h -> hok1 h -> hf2 m = Some (Affine_ToProjective FqO h) /\ tor1 (Affine_ToProjective FqO h) /\ jac1 (Affine_ToProjective FqO h) = aff1 h.
Proof.
  intros E H. destruct (G1_toproj h (hash1_canon _ _ _ E)) as [C J]. split; [unfold hf2; rewrite E; reflexivity|]. split; [|exact J]. split; [exact C|]. rewrite J. exact H.
Qed.
Theorem Verify_iff2 m h P S k : HashG1 sha FqB m = Some h -> hok1 h -> key_of2 P k -> tor1 S ->
  exists b, g2pubs_Verify sha FqB m P S = Some b /\ (b = true <-> jac1 S = mul1 k (aff1 h)).
Proof.
  intros E Hh HP HS. destruct (hf2_ok m h E Hh) as (_ & T & J). unfold g2pubs_Verify. rewrite E, <- J. exact (compare2 P S _ k HP HS T).
Qed.
Theorem Verify_inf2 m h P S : HashG1 sha FqB m = Some h -> canonP2 P -> canonP1 S -> jac2 P = Inf \/ jac1 S = Inf \/ aff1 h = Inf -> g2pubs_Verify sha FqB m P S = None.
Proof.
  intros E CP CS H. unfold g2pubs_Verify. rewrite E. destruct (G1_toproj h (hash1_canon _ _ _ E)) as [C V]. rewrite <- V in H.
  apply Compare_inf_limb; [exact CS|exact G2pone_canon|exact C|exact CP|]. tauto.
Qed.
Lemma term_hf2 pm : term2 sha pm = termH2 hf2 pm.
Proof. unfold term2, termB2, termH2, hf2. destruct (HashG1 sha FqB (snd pm)); reflexivity. Qed.
Theorem VerifyAggregate_iff2 l S : NoDup (map s_msg2 l) -> ~ In [] (map s_msg2 l) -> Forall (signer_ok2 hf2) l -> tor1 S ->
  exists b, g2pubs_VerifyAggregate sha FqB S (map s_pub2 l) (map s_msg2 l) = Some b /\ (b = true <-> jac1 S = expected2 l).
Proof.
  intros N NE HL HS. rewrite VerifyAggregate_eq2; auto; [|rewrite !map_length; reflexivity|exact (proj1 HS)|exact (signers_canon2 _ _ HL)].
  destruct (aggregate_eq2 hf2 l S HL HS) as (e & v & -> & Hv & I). rewrite (map_ext _ _ term_hf2), Hv. eexists. split; [reflexivity|exact I].
Qed.
Theorem VerifyCommon_iff2 m h Ps ks S : HashG1 sha FqB m = Some h -> hok1 h -> Forall2 key_of2 Ps ks -> ~ (r | fold_right Z.add 0 ks) -> tor1 S ->
  exists b, g2pubs_VerifyAggregateCommon sha FqB S Ps m = Some b /\ (b = true <-> jac1 S = mul1 (fold_right Z.add 0 ks) (aff1 h)).
Proof.
  intros E Hh HK ND HS. rewrite Common2. destruct (agg_key2 Ps ks HK) as [[C O] J]. apply Verify_iff2; auto. apply key_mult2; assumption.
Qed.
(** ** honest signers *)
Lemma honest_key2 k P : rcanon k -> rval k <> 0 -> g2pubs_PrivToPub FqB (Some k) = Some P -> key_of2 P (rval k).
Proof.
  intros Ck Nk E. change (Some (smul2 (G2AffineOne FqB) k) = Some P) in E. apply some_inj' in E. subst P.
  destruct (smul2_val (G2AffineOne FqB) k G2one_canon G2one_on Ck) as [[C O] J]. apply key_mult2; [exact C|exact J|exact (rkey_ndiv k Ck Nk)].
Qed.
Lemma honest_sig2 m h k S : HashG1 sha FqB m = Some h -> hok1 h -> rcanon k -> g2pubs_Sign sha FqB m (Some k) = Some S -> valid1 S /\ jac1 S = mul1 (rval k) (aff1 h) /\ (rval k <> 0 -> tor1 S).
Proof.
  intros E (Oh & Th & Nh) Ck HS. rewrite (sign2 sha m h k E) in HS. apply some_inj' in HS. subst S.
  destruct (smul1_val h k (hash1_canon _ _ _ E) Oh Ck) as [V J]. split; [exact V|]. split; [exact J|]. intros Nk.
  exact (mul_tor1 (rval k) _ _ Oh Th Nh (rkey_ndiv k Ck Nk) V J).
Qed.
Theorem honest_Verify2 m h k P S : HashG1 sha FqB m = Some h -> hok1 h -> rcanon k -> rval k <> 0 ->
  g2pubs_PrivToPub FqB (Some k) = Some P -> g2pubs_Sign sha FqB m (Some k) = Some S -> g2pubs_Verify sha FqB m P S = Some true.
Proof.
  intros E Hh Ck Nk HP HS. pose proof (honest_key2 k P Ck Nk HP) as KP. destruct (honest_sig2 m h k S E Hh Ck HS) as (_ & JS & TS).
  destruct (Verify_iff2 m h P S (rval k) E Hh KP (TS Nk)) as (b & -> & [_ Ib]). rewrite (Ib JS). reflexivity.
Qed.
(** the same key verifies no other signature and no other message: the verdict true pins the signature point *)
Theorem Verify_unique2 m h P S S' : HashG1 sha FqB m = Some h -> hok1 h -> tor2 P -> tor1 S -> tor1 S' ->
  g2pubs_Verify sha FqB m P S = Some true -> g2pubs_Verify sha FqB m P S' = Some true -> jac1 S = jac1 S'.
Proof.
  intros E Hh HP HS HS' V V'. destruct (key_exists2 P HP) as (k & _ & K & _). destruct (Verify_iff2 m h P S k E Hh K HS) as (b & Hb & Ib). destruct (Verify_iff2 m h P S' k E Hh K HS') as (b' & Hb' & Ib').
  assert (b = true) as -> by congruence. assert (b' = true) as -> by congruence. rewrite (proj1 Ib eq_refl), (proj1 Ib' eq_refl). reflexivity.
Qed.
(** what an honest signer with key [k] does on message [m] *)
Definition honest2 (k : FR) (m : list Z) (P : Proj (FQ2 FQ)) (S : Proj FQ) : Prop :=
  rcanon k /\ rval k <> 0 /\ (exists h, HashG1 sha FqB m = Some h /\ hok1 h) /\ g2pubs_PrivToPub FqB (Some k) = Some P /\ g2pubs_Sign sha FqB m (Some k) = Some S.
Lemma honest_signers2 ks ms Ps Ss : length ks = length ms -> length ms = length Ps -> length Ps = length Ss ->
  Forall (fun t => honest2 (fst (fst (fst t))) (snd (fst (fst t))) (snd (fst t)) (snd t)) (combine (combine (combine ks ms) Ps) Ss) ->
  exists l, Forall (signer_ok2 hf2) l /\ map s_pub2 l = Ps /\ map s_msg2 l = ms /\ map s_key2 l = map rval ks /\ Forall valid1 Ss /\ sum1 (map jac1 Ss) = expected2 l.
Proof.
  revert ms Ps Ss. induction ks as [|k ks IH]; intros [|m ms] [|P Ps] [|S Ss]; try discriminate; cbn [combine length]; intros L1 L2 L3 H.
  - exists []. repeat split; constructor.
  - inversion H as [|x y (Ck & Nk & (h & E & Hh) & HP & HS) H']; subst; cbn [fst snd] in *. destruct (IH ms Ps Ss) as (l & H1 & H2 & H3 & H4 & H5 & H6); [lia..|exact H'|].
    destruct (hf2_ok m h E Hh) as (Eh & T & J). destruct (honest_sig2 m h k S E Hh Ck HS) as (V & JS & _).
    exists (mkSigner2 P (rval k) m (Affine_ToProjective FqO h) :: l). cbn [map s_pub2 s_msg2 s_key2].
    split; [constructor; [split; [exact (honest_key2 k P Ck Nk HP)|split; assumption]|exact H1]|]. rewrite H2, H3, H4. split; [reflexivity|]. split; [reflexivity|]. split; [reflexivity|]. split; [constructor; assumption|].
    unfold expected2. cbn [map s_key2 s_hash2]. cbn [sum1 fold_right]. fold (sum1 (map jac1 Ss)). fold (sum1 (map (fun s => mul1 (s_key2 s) (jac1 (s_hash2 s))) l)). fold (expected2 l). rewrite JS, J, H6. reflexivity.
Qed.
Theorem honest_VerifyAggregate2 ks ms Ps Ss : length ks = length ms -> length ms = length Ps -> length Ps = length Ss ->
  Forall (fun t => honest2 (fst (fst (fst t))) (snd (fst (fst t))) (snd (fst t)) (snd t)) (combine (combine (combine ks ms) Ps) Ss) ->
  NoDup ms -> ~ In [] ms -> jac1 (g2pubs_AggregateSignatures FqB Ss) <> Inf ->
  g2pubs_VerifyAggregate sha FqB (g2pubs_AggregateSignatures FqB Ss) Ps ms = Some true.
Proof.
  intros L1 L2 L3 H N NE NI. destruct (honest_signers2 ks ms Ps Ss L1 L2 L3 H) as (l & HL & <- & <- & _ & V & J).
  destruct (agg1 Ss V) as [[C O] JA]. assert (jac1 (g2pubs_AggregateSignatures FqB Ss) = expected2 l) as JE by exact (eq_trans JA J).
  assert (tor1 (g2pubs_AggregateSignatures FqB Ss)) as TS by (apply (expected_tor2 hf2 l); [exact HL|exact C|exact JE|rewrite <- JE; exact NI]).
  destruct (VerifyAggregate_iff2 l _ N NE HL TS) as (b & Hb & [_ Ib]). rewrite (Ib JE) in Hb. exact Hb.
Qed.
Theorem honest_VerifyCommon2 m ks Ps Ss : length ks = length Ps -> length Ps = length Ss -> (exists h, HashG1 sha FqB m = Some h /\ hok1 h) ->
  Forall (fun t => honest2 (fst (fst t)) m (snd (fst t)) (snd t)) (combine (combine ks Ps) Ss) -> ~ (r | fold_right Z.add 0 (map rval ks)) ->
  g2pubs_VerifyAggregateCommon sha FqB (g2pubs_AggregateSignatures FqB Ss) Ps m = Some true.
Proof.
  intros L2 L3 (h & E & Hh) H ND.
  assert (Forall2 key_of2 Ps (map rval ks) /\ Forall valid1 Ss /\ sum1 (map jac1 Ss) = mul1 (fold_right Z.add 0 (map rval ks)) (aff1 h)) as (HK & V & J).
  { clear ND. revert Ps Ss L2 L3 H. induction ks as [|k ks IH]; intros [|P Ps] [|S Ss] L2 L3 H; try (discriminate L2); try (discriminate L3); cbn [combine length] in *; [split; [constructor|split; [constructor|exact (eq_sym (mul1_0 (aff1 h)))]]|].
    inversion H as [|x y (Ck & Nk & _ & HP & HS) H']; subst; cbn [fst snd] in *. destruct (IH Ps Ss) as (H1 & H2 & H3); [lia..|exact H'|]. destruct (honest_sig2 m h k S E Hh Ck HS) as (V & JS & _).
    split; [constructor; [exact (honest_key2 k P Ck Nk HP)|exact H1]|]. split; [constructor; assumption|]. cbn [map fold_right]. rewrite (mul1_add _ _ _ (proj1 Hh)). cbn [sum1 fold_right]. fold (sum1 (map jac1 Ss)). rewrite JS, H3. reflexivity. }
  destruct (agg1 Ss V) as [[C O] JA]. assert (jac1 (g2pubs_AggregateSignatures FqB Ss) = mul1 (fold_right Z.add 0 (map rval ks)) (aff1 h)) as JE by exact (eq_trans JA J).
  assert (tor1 (g2pubs_AggregateSignatures FqB Ss)) as TS.
  { destruct Hh as (Oh & Th & Nh). refine (mul_tor1 _ _ _ Oh Th Nh ND _ JE). split; assumption. }
  destruct (VerifyCommon_iff2 m h Ps _ _ E Hh HK ND TS) as (b & Hb & [_ Ib]). rewrite (Ib JE) in Hb. exact Hb.
Qed.
End H2.

(** * g1pubs with a domain *)
Section Hd.
Context (sha : list Z -> list Z) (Sh : sha_ok sha) (fuel : nat) (dom : list Z).
Definition hfd (m : list Z) : option (Proj (FQ2 FQ)) := option_map (fun h => Affine_ToProjective FqO2 (G2_ToAffine FqO2 h)) (HashG2WithDomain_fuel sha FqB fuel m dom).
Lemma hfd_ok m h : HashG2WithDomain_fuel sha FqB fuel m dom = Some h -> tor2 h -> let h' := Affine_ToProjective FqO2 (G2_ToAffine FqO2 h) in hfd m = Some h' /\ tor2 h' /\ jac2 h' = jac2 h.
Proof.
  intros E (C & H). destruct (G2_toaffine h C) as [C1 J1]. destruct (G2_toproj _ C1) as [C2 J2]. rewrite J1 in J2. split; [unfold hfd; rewrite E; reflexivity|]. split; [|exact J2]. split; [exact C2|]. rewrite J2. exact H.
Qed.
Theorem Verifyd_iff m h P S k : HashG2WithDomain_fuel sha FqB fuel m dom = Some h -> tor2 h -> key_of1 P k -> tor2 S ->
  exists b, g1pubs_VerifyWithDomain sha FqB fuel m P S dom = Some b /\ (b = true <-> jac2 S = mul2 k (jac2 h)).
Proof.
  intros E Hh HP HS. destruct (hfd_ok m h E Hh) as (_ & T & J). unfold g1pubs_VerifyWithDomain. rewrite E, <- J. exact (compare1 P S _ k HP HS T).
Qed.
Lemma term_hfd pm : termd sha fuel dom pm = termH1 hfd pm.
Proof. unfold termd, termdB, termH1, hfd. destruct (HashG2WithDomain_fuel sha FqB fuel (snd pm) dom); reflexivity. Qed.
Theorem VerifyAggregated_iff l S : Forall (signer_ok1 hfd) l -> tor2 S ->
  exists b, g1pubs_VerifyAggregateWithDomain sha FqB fuel S (map s_pub1 l) (map s_msg1 l) dom = Some b /\ (b = true <-> jac2 S = expected1 l).
Proof.
  intros HL HS. rewrite (VerifyAggregated_eq sha Sh fuel dom S (map s_pub1 l) (map s_msg1 l) (proj1 HS) (signers_canon1 _ _ HL)), !map_length, Nat.eqb_refl. cbn [negb].
  destruct (aggregate_eq1 hfd l S HL HS) as (e & v & -> & Hv & I). rewrite (map_ext _ _ term_hfd), Hv. eexists. split; [reflexivity|exact I].
Qed.
Theorem VerifyCommond_iff m h Ps ks S : HashG2WithDomain_fuel sha FqB fuel m dom = Some h -> tor2 h -> Forall2 key_of1 Ps ks -> ~ (r | fold_right Z.add 0 ks) -> tor2 S ->
  exists b, g1pubs_VerifyAggregateCommonWithDomain sha FqB fuel S Ps m dom = Some b /\ (b = true <-> jac2 S = mul2 (fold_right Z.add 0 ks) (jac2 h)).
Proof.
  intros E Hh HK ND HS. rewrite Commond. destruct (agg_key1 Ps ks HK) as [[C O] J]. apply Verifyd_iff; auto. apply key_mult1; assumption.
Qed.
Lemma honest_sigd m h k S : HashG2WithDomain_fuel sha FqB fuel m dom = Some h -> tor2 h -> rcanon k -> g1pubs_SignWithDomain sha FqB fuel m (Some k) dom = Some S -> valid2 S /\ jac2 S = mul2 (rval k) (jac2 h) /\ (rval k <> 0 -> tor2 S).
Proof.
  intros E (Ch & Oh & Th & Nh) Ck HS. unfold g1pubs_SignWithDomain in HS. rewrite E in HS. change (FQ2O FqB) with FqO2 in HS. apply some_inj' in HS. subst S.
  destruct (FR_ToRepr_spec k (proj1 Ck)) as [W V]. destruct (G2_pmulfr h (FR_ToRepr k) Ch Oh W) as [C J]. rewrite V in J.
  assert (valid2 (Proj_MulFR FqO2 h (FR_ToRepr k))) as Va by (split; [exact C|exact (eq_ind_r on2 (G2_on_mul _ _ Oh) J)]).
  split; [exact Va|]. split; [exact J|]. intros Nk. exact (mul_tor2 (rval k) _ _ Oh Th Nh (rkey_ndiv k Ck Nk) Va J).
Qed.
Theorem honest_Verifyd m h k P S : HashG2WithDomain_fuel sha FqB fuel m dom = Some h -> tor2 h -> rcanon k -> rval k <> 0 ->
  g1pubs_PrivToPub FqB (Some k) = Some P -> g1pubs_SignWithDomain sha FqB fuel m (Some k) dom = Some S -> g1pubs_VerifyWithDomain sha FqB fuel m P S dom = Some true.
Proof.
  intros E Hh Ck Nk HP HS. pose proof (honest_key1 k P Ck Nk HP) as KP. destruct (honest_sigd m h k S E Hh Ck HS) as (_ & JS & TS).
  destruct (Verifyd_iff m h P S (rval k) E Hh KP (TS Nk)) as (b & -> & [_ Ib]). rewrite (Ib JS). reflexivity.
Qed.
Definition honestd (k : FR) (m : list Z) (P : Proj FQ) (S : Proj (FQ2 FQ)) : Prop :=
  rcanon k /\ rval k <> 0 /\ (exists h, HashG2WithDomain_fuel sha FqB fuel m dom = Some h /\ tor2 h) /\ g1pubs_PrivToPub FqB (Some k) = Some P /\ g1pubs_SignWithDomain sha FqB fuel m (Some k) dom = Some S.
Lemma honest_signersd ks ms Ps Ss : length ks = length ms -> length ms = length Ps -> length Ps = length Ss ->
  Forall (fun t => honestd (fst (fst (fst t))) (snd (fst (fst t))) (snd (fst t)) (snd t)) (combine (combine (combine ks ms) Ps) Ss) ->
  exists l, Forall (signer_ok1 hfd) l /\ map s_pub1 l = Ps /\ map s_msg1 l = ms /\ Forall valid2 Ss /\ sum2 (map jac2 Ss) = expected1 l.
Proof.
  revert ms Ps Ss. induction ks as [|k ks IH]; intros [|m ms] [|P Ps] [|S Ss]; try discriminate; cbn [combine length]; intros L1 L2 L3 H.
  - exists []. repeat split; constructor.
  - inversion H as [|x y (Ck & Nk & (h & E & Hh) & HP & HS) H']; subst; cbn [fst snd] in *. destruct (IH ms Ps Ss) as (l & H1 & H2 & H3 & H5 & H6); [lia..|exact H'|].
    destruct (hfd_ok m h E Hh) as (Eh & T & J). destruct (honest_sigd m h k S E Hh Ck HS) as (V & JS & _).
    exists (mkSigner1 P (rval k) m (Affine_ToProjective FqO2 (G2_ToAffine FqO2 h)) :: l). cbn [map s_pub1 s_msg1].
    split; [constructor; [split; [exact (honest_key1 k P Ck Nk HP)|split; assumption]|exact H1]|]. rewrite H2, H3. split; [reflexivity|]. split; [reflexivity|]. split; [constructor; assumption|].
    unfold expected1. cbn [map s_key1 s_hash1]. cbn [sum2 fold_right]. fold (sum2 (map jac2 Ss)). fold (sum2 (map (fun s => mul2 (s_key1 s) (jac2 (s_hash1 s))) l)). fold (expected1 l). rewrite JS, J, H6. reflexivity.
Qed.
Theorem honest_VerifyAggregated ks ms Ps Ss : length ks = length ms -> length ms = length Ps -> length Ps = length Ss ->
  Forall (fun t => honestd (fst (fst (fst t))) (snd (fst (fst t))) (snd (fst t)) (snd t)) (combine (combine (combine ks ms) Ps) Ss) ->
  jac2 (g1pubs_AggregateSignatures FqB Ss) <> Inf ->
  g1pubs_VerifyAggregateWithDomain sha FqB fuel (g1pubs_AggregateSignatures FqB Ss) Ps ms dom = Some true.
Proof.
  intros L1 L2 L3 H NI. destruct (honest_signersd ks ms Ps Ss L1 L2 L3 H) as (l & HL & <- & <- & V & J).
  destruct (agg2 Ss V) as [[C O] JA]. assert (jac2 (g1pubs_AggregateSignatures FqB Ss) = expected1 l) as JE by exact (eq_trans JA J).
  assert (tor2 (g1pubs_AggregateSignatures FqB Ss)) as TS by (apply (expected_tor1 hfd l); [exact HL|exact C|exact JE|rewrite <- JE; exact NI]).
  destruct (VerifyAggregated_iff l _ HL TS) as (b & Hb & [_ Ib]). rewrite (Ib JE) in Hb. exact Hb.
Qed.
Theorem honest_VerifyCommond m ks Ps Ss : length ks = length Ps -> length Ps = length Ss -> (exists h, HashG2WithDomain_fuel sha FqB fuel m dom = Some h /\ tor2 h) ->
  Forall (fun t => honestd (fst (fst t)) m (snd (fst t)) (snd t)) (combine (combine ks Ps) Ss) -> ~ (r | fold_right Z.add 0 (map rval ks)) ->
  g1pubs_VerifyAggregateCommonWithDomain sha FqB fuel (g1pubs_AggregateSignatures FqB Ss) Ps m dom = Some true.
Proof.
  intros L2 L3 (h & E & Hh) H ND.
  assert (Forall2 key_of1 Ps (map rval ks) /\ Forall valid2 Ss /\ sum2 (map jac2 Ss) = mul2 (fold_right Z.add 0 (map rval ks)) (jac2 h)) as (HK & V & J).
  { clear ND. revert Ps Ss L2 L3 H. induction ks as [|k ks IH]; intros [|P Ps] [|S Ss] L2 L3 H; try (discriminate L2); try (discriminate L3); cbn [combine length] in *; [split; [constructor|split; [constructor|exact (eq_sym (mul2_0 (jac2 h)))]]|].
    inversion H as [|x y (Ck & Nk & _ & HP & HS) H']; subst; cbn [fst snd] in *. destruct (IH Ps Ss) as (H1 & H2 & H3); [lia..|exact H'|]. destruct (honest_sigd m h k S E Hh Ck HS) as (V & JS & _).
    split; [constructor; [exact (honest_key1 k P Ck Nk HP)|exact H1]|]. split; [constructor; assumption|]. cbn [map fold_right]. rewrite (mul2_add _ _ _ (proj1 (proj2 Hh))). cbn [sum2 fold_right]. fold (sum2 (map jac2 Ss)). rewrite JS, H3. reflexivity. }
  destruct (agg2 Ss V) as [[C O] JA]. assert (jac2 (g1pubs_AggregateSignatures FqB Ss) = mul2 (fold_right Z.add 0 (map rval ks)) (jac2 h)) as JE by exact (eq_trans JA J).
  assert (tor2 (g1pubs_AggregateSignatures FqB Ss)) as TS.
  { destruct Hh as (Ch & Oh & Th & Nh). refine (mul_tor2 _ _ _ Oh Th Nh ND _ JE). split; assumption. }
  destruct (VerifyCommond_iff m h Ps _ _ E Hh HK ND TS) as (b & Hb & [_ Ib]). rewrite (Ib JE) in Hb. exact Hb.
Qed.
End Hd.
