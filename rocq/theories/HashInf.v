(** A hash function for which HashG1 and HashG2 return the identity: the two SWU points differ by a point whose order divides the cofactor. *)
Require Import ZArith Lia Bool List Ring Field.
From Verif Require Import Words ModelRepr ReprProofs ReprProofs2 ModelFq ModelOps ModelTower ModelCurve ModelHash NumTheory Primality FqProofs FqProofs2 FqRel Fp FpOps FqMisc OpsRel OpsRel2 FqTransfer Ext TowerProofs TowerLimb Fld EcGroup AbGrp EcMul EcJac Curves CurveLimb UNat UInst PolyEval IsoProofs SwuProofs ClearCof CountFacts HashProofs HashEx.
Import CurveLimb ListNotations.
Open Scope Z_scope.

(** the 32 bytes of v *)
Definition be32 (v : Z) : list Z := map (fun i => Z.shiftr v (8 * (31 - Z.of_nat i)) mod 256) (seq 0 32).
(** digests: 2 and 0 for counter 0, a and b for counter 1 *)
Definition sha_pair (a b : Z) (l : list Z) : list Z :=
  let v := if nth 32 l 0 =? 0 then (if nth 33 l 0 =? 1 then 2 else 0) else (if nth 33 l 0 =? 1 then a else b) in
  be32 (if nth 34 l 0 =? 1 then Z.shiftr v 256 else v mod 2 ^ 256).
Lemma be32_ok v : Forall isByte (be32 v) /\ length (be32 v) = 32%nat.
Proof.
  split; [|unfold be32; rewrite map_length, seq_length; reflexivity]. apply Forall_forall. intros x H. apply in_map_iff in H. destruct H as (i & <- & _). apply Z.mod_pos_bound. reflexivity.
Qed.
Lemma sha_pair_ok a b : sha_ok (sha_pair a b).
Proof. intros l. apply be32_ok. Qed.

Definition t1_i : Z := 1577950359325175247148686051222447366619480263194110621812429346076479521900421953652091546848705876331008064638418.
Definition x1_i : Z := 2256128293575033377746376237100222649961480894969681389176611148201110973442589185529077804605147478651238089438670.
Definition y1_i : Z := 549902001152861569773544221646490566180539192365346807951167728079536841412352635989015324193632209045183124672304.
Definition t2_ia : Z := 3593956711052151272141402504190165472616374450585771980074603734782836491315041693161268915139283176325942346853514.
Definition t2_ib : Z := 1453735058744591389667264919155916169594727584622793598472221767284480341386048805138677862075531391212678340483146.
Definition x2_i : FQ2 Z := mkFQ2 3106891131606625947614694117173808647131980012292654208105202830786777704923721926495254960046126604682013867158566 1963286356374793025741648895517727609097248085738792596483973148625905065874320949741901214929657745173256045697014.
Definition y2_i : FQ2 Z := mkFQ2 1313453106839408438939612182590745727654988585713490814422893790384799612271356642480666223113703739738739624907507 1207127304309201498174241450802779438716430995995942091583225748731847991766405207312131619273503776706817102026083.
Lemma chk1_eval : chk UO (ellPA UB) (ellPB UB) (d1c UO (ofm t1_i)) (ofm x1_i) (ofm y1_i) = true.
Proof. vm_cast_no_check (eq_refl true). Qed.
Lemma chk2_eval : chk (FQ2O UB) (ell2pA UB) (ell2pB UB) (d2c (FQ2O UB) (mkFQ2 (ofm 1) (ofm 1)) (u2q (mkFQ2 t2_ia t2_ib))) (u2q x2_i) (u2q y2_i) = true.
Proof. vm_cast_no_check (eq_refl true). Qed.
Lemma big_i1 : big1 (z2q y1_i) = big1 (z2q t1_i). Proof. vm_compute. reflexivity. Qed.
Lemma big_i2 : big2 (k2q y2_i) = big2 (k2q (mkFQ2 t2_ia t2_ib)). Proof. vm_compute. reflexivity. Qed.
Lemma inf1_eval : Affine_IsZero (post1 UB (U1 x1_2 y1_2) (U1 x1_i y1_i)) = true.
Proof. vm_cast_no_check (eq_refl true). Qed.
Lemma inf2_eval : Affine_IsZero (post2 UB (U2 x2_2 y2_2) (U2 x2_i y2_i)) = true.
Proof. vm_cast_no_check (eq_refl true). Qed.
Definition sha_inf1 := sha_pair t1_i 0.
Definition sha_inf2 := sha_pair t2_ia t2_ib.
Lemma aff_inf1 (h : Affine FQ) : Affine_IsZero h = true -> aff1 h = Inf.
Proof. unfold aff1, aff, repa, Affine_IsZero. cbn [ainf vA]. intros ->. reflexivity. Qed.
Lemma aff_inf2 (h : Affine (FQ2 FQ)) : Affine_IsZero h = true -> aff2 h = Inf.
Proof. unfold aff2, aff, repa, Affine_IsZero. cbn [ainf vA]. intros ->. reflexivity. Qed.
Lemma dg1_0 m : digest sha_inf1 (1 :: m) 0 1 = 2. Proof. vm_compute. reflexivity. Qed.
Lemma dg1_1 m : digest sha_inf1 (1 :: m) 1 1 = t1_i. Proof. vm_compute. reflexivity. Qed.
Lemma dg2_0a m : digest sha_inf2 (1 :: m) 0 1 = 2. Proof. vm_compute. reflexivity. Qed.
Lemma dg2_0b m : digest sha_inf2 (1 :: m) 0 2 = 0. Proof. vm_compute. reflexivity. Qed.
Lemma dg2_1a m : digest sha_inf2 (1 :: m) 1 1 = t2_ia. Proof. vm_compute. reflexivity. Qed.
Lemma dg2_1b m : digest sha_inf2 (1 :: m) 1 2 = t2_ib. Proof. vm_compute. reflexivity. Qed.
Theorem HashG1_inf m : exists h, HashG1 sha_inf1 FqB m = Some h /\ canonA1 h /\ aff1 h = Inf.
Proof.
  destruct (swu_at1 sha_inf1 m 0 2 x1_2 y1_2 (dg1_0 m) pt1_2) as (P & EP & RP). destruct (swu_at1 sha_inf1 m 1 t1_i x1_i y1_i (dg1_1 m) (pt1_of _ _ _ chk1_eval big_i1)) as (Q & EQ & RQ).
  exists (post1 FqB P Q). split; [exact (HashG1_form sha_inf1 m P Q EP EQ)|].
  pose proof (rel_post1 FqB FpB RFq _ _ _ _ RP RQ) as R1. pose proof (rel_post1 UB FpB RU _ _ _ _ (RUV1 x1_2 y1_2) (RUV1 x1_i y1_i)) as R2.
  split; [exact (proj1 (proj1 (RA1_val _ _) R1))|]. apply aff_inf1. rewrite (rel_Affine_IsZero _ _ _ _ _ R1), <- (rel_Affine_IsZero _ _ _ _ _ R2). exact inf1_eval.
Qed.
Theorem HashG2_inf m : exists h, HashG2 sha_inf2 FqB m = Some h /\ canonA2 h /\ aff2 h = Inf.
Proof.
  destruct (swu_at2 sha_inf2 m 0 2 0 x2_2 y2_2 (dg2_0a m) (dg2_0b m) pt2_2) as (P & EP & RP). destruct (swu_at2 sha_inf2 m 1 t2_ia t2_ib x2_i y2_i (dg2_1a m) (dg2_1b m) (pt2_of _ _ _ chk2_eval big_i2)) as (Q & EQ & RQ).
  exists (post2 FqB P Q). split; [exact (HashG2_form sha_inf2 m P Q EP EQ)|].
  pose proof (rel_post2 FqB FpB RFq _ _ _ _ RP RQ) as R1. pose proof (rel_post2 UB FpB RU _ _ _ _ (RUV2 x2_2 y2_2) (RUV2 x2_i y2_i)) as R2.
  split; [exact (proj1 (proj1 (RA2_val _ _) R1))|]. apply aff_inf2. rewrite (rel_Affine_IsZero _ _ _ _ _ R1), <- (rel_Affine_IsZero _ _ _ _ _ R2). exact inf2_eval.
Qed.
