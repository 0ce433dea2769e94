(** Non-degeneracy: e(G1, G2) has order exactly r, and so the pairing separates the multiples of the generators. *)
Require Import ZArith Lia Bool List Ring Field Znumtheory.
From Verif Require Import Words ModelRepr ReprProofs ReprProofs2 ModelFq ModelOps ModelTower ModelCurve ModelPairing NumTheory Primality Fp FpOps FqProofs FqProofs2 FqRel OpsRel OpsRel2 FqTransfer Ext ExtFrob TowerProofs TowerLimb Fld EcIdeal EcGroup AbGrp EcMul EcJac Curves CurveLimb CurveMisc FinExp Miller PairBasic PairLimb LineIdeal Cocycle Recip BilinBase MillerVal Bilin UNat UInst GenFacts PairGen.
Import ListNotations.
Open Scope Z_scope.

Lemma Pairing_steps {F} (B : BOps F) p Q a b pr m e : G1_ToAffine (b_ops B) p = a -> G2_ToAffine (FQ2O B) Q = b -> G2AffineToPrepared B b = pr ->
  MillerLoop B [(a, pr)] = Some m -> FinalExponentiation B m = e -> Pairing B p Q = e.
Proof. intros H1 H2 H3 H4 H5. unfold Pairing. rewrite H1, H2, H3, H4. exact H5. Qed.
Lemma pu_eq : G1_ToAffine UO (G1ProjectiveOne UB) = g1u. Proof. vm_compute. reflexivity. Qed.
Lemma qu_eq : G2_ToAffine (FQ2O UB) (G2ProjectiveOne UB) = g2u. Proof. vm_compute. reflexivity. Qed.
Lemma Pairing_u : Pairing UB (G1ProjectiveOne UB) (G2ProjectiveOne UB) = Some u_e.
Proof. exact (Pairing_steps UB _ _ _ _ _ _ _ pu_eq qu_eq pru_eq mlu_eq feu_eq). Qed.
Lemma Pairing_one_rel : optR (R12 RU) (Some u_e) (Pairing FpB (G1ProjectiveOne FpB) (G2ProjectiveOne FpB)).
Proof. rewrite <- Pairing_u. apply (rel_Pairing UB FpB RU); [apply (rel_G1ProjectiveOne UB FpB RU)|apply (rel_G2ProjectiveOne UB FpB RU)]. Qed.
Lemma u_e_ne : leqb (c0 (d0 (e0 u_e))) u1 = false. Proof. vm_compute. reflexivity. Qed.
Lemma Pairing_one_ne e : Pairing FpB (G1ProjectiveOne FpB) (G2ProjectiveOne FpB) = Some e -> e <> k12_1.
Proof.
  intros E. pose proof Pairing_one_rel as H. rewrite E in H. cbn [optR] in H. destruct H as [[[H _] _] _].
  intros ->. pose proof (RU_eqb _ _ _ _ H RU_1) as X. rewrite u_e_ne in X. discriminate X.
Qed.
Lemma G1one_fp : vA E1 fqval (G1AffineOne FqB) = G1AffineOne FpB.
Proof. pose proof (rel_G1AffineOne FqB FpB RFq) as H. apply RA1_val in H. destruct H as [_ H]. symmetry. exact H. Qed.
Lemma gen1_repa : epr E1 gen1 = repa E1 (G1AffineOne FpB).
Proof. rewrite <- G1one_fp. reflexivity. Qed.
Lemma one1_rep : repj FldQ (G1ProjectiveOne FpB) = epr E1 gen1.
Proof. rewrite gen1_repa. exact (repj_aff FldQ FpO FpO_ok (G1AffineOne FpB)). Qed.
Lemma one2_rep : repj FldQ2 (G2ProjectiveOne FpB) = epr E2 gen2.
Proof. rewrite gen2_repa. exact (repj_aff FldQ2 (FQ2O FpB) FpO2_ok (G2AffineOne FpB)). Qed.
Theorem epair_gen_ne : epair gen1 gen2 <> gO.
Proof.
  intros E. pose proof (Pairing_epair _ _ gen1 gen2 one1_rep one2_rep gen1_T1 gen2_Q2 gen1_ne gen2_ne) as H. rewrite E in H.
  apply (Pairing_one_ne _ H). reflexivity.
Qed.
Lemma epair_r P Q : T1 P -> Q2 Q -> gm r (epair P Q) = gO.
Proof. intros HP HQ. rewrite <- epair_gm_l by assumption. unfold T1 in HP. rewrite HP. apply epair_O_l. Qed.
Theorem epair_gen_order k : gm k (epair gen1 gen2) = gO <-> (r | k).
Proof.
  pose proof (epair_r gen1 gen2 gen1_T1 gen2_Q2) as R. split.
  - intros H. exact (gm_prime_order r k _ prime_r R epair_gen_ne H).
  - intros D. exact (gm_divide r k _ R D).
Qed.
Theorem epair_gens a b : epair (gm a gen1) (gm b gen2) = gm (a * b) (epair gen1 gen2).
Proof. rewrite (epair_gm_l a _ _ gen1_T1 (Q2_gm b _ gen2_Q2)), (epair_gm_r b _ _ gen1_T1 gen2_Q2), gm_mul. reflexivity. Qed.
