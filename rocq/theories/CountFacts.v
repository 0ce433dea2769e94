(** Point counts, cofactors, the r-torsion and cofactor clearing, for the limb-level code. *)
Require Import ZArith Lia Bool List Znumtheory.
From Verif Require Import Words ModelRepr ReprProofs ModelFq ModelFr ModelOps ModelTower ModelCurve ModelPairing ModelHash NumTheory Primality Fp FpOps FqProofs FqProofs2 FqRel OpsRel OpsRel2 FqTransfer Ext TowerProofs TowerLimb Fld EcGroup AbGrp EcMul EcJac Curves CurveLimb CurveMisc BilinBase Bilin GenFacts BlsProofs Torsion ClearCof PairTor VerifyProofs.
Import CurveLimb ListNotations.
Open Scope Z_scope.

Lemma cof1_value : cof1 = eval6 g1Cofactor. Proof. vm_compute. reflexivity. Qed.
Lemma cof2_value : cof2 = g2Cofactor. Proof. vm_compute. reflexivity. Qed.
Lemma exp1_divides : (exp1 | cof1). Proof. exists (cof1 / exp1). vm_compute. reflexivity. Qed.
Lemma exp2_divides : (exp2 | cof2). Proof. exists (cof2 / exp2). vm_compute. reflexivity. Qed.
Lemma count_pts (E : Curve) n (l : list (EC E)) : NoDup l -> Z.of_nat (length l) = n -> (forall A, In A l) -> exists l' : list (pt E), NoDup l' /\ Z.of_nat (length l') = n /\ forall P, In P l' <-> on E (cb E) P.
Proof.
  intros D L H. exists (map (epr E) l). split; [|split].
  - apply FinFun.Injective_map_NoDup; [|exact D]. intros A B. exact (ec_eq E A B).
  - rewrite map_length. exact L.
  - intros P. rewrite in_map_iff. split; [intros (A & <- & _); exact (epr_on E A)|]. intros O. exists (emk E P O). split; [reflexivity|apply H].
Qed.
Theorem count1 : exists l : list (pt Fq), NoDup l /\ Z.of_nat (length l) = r * eval6 g1Cofactor /\ forall P, In P l <-> on1 P.
Proof. rewrite <- cof1_value. destruct E1_count as (l & D & L & H). exact (count_pts E1 _ l D L H). Qed.
Theorem count2 : exists l : list (pt K2), NoDup l /\ Z.of_nat (length l) = r * g2Cofactor /\ forall P, In P l <-> on2 P.
Proof. rewrite <- cof2_value. destruct E2_count as (l & D & L & H). exact (count_pts E2 _ l D L H). Qed.
Lemma NoDup_map_in {A B} (f : A -> B) l : (forall x y, In x l -> In y l -> f x = f y -> x = y) -> NoDup l -> NoDup (map f l).
Proof.
  intros H D. induction D as [|x l N D IH]; [constructor|]. cbn [map]. constructor.
  - rewrite in_map_iff. intros (y & Ey & Iy). apply N. rewrite <- (H y x (or_intror Iy) (or_introl eq_refl) Ey). exact Iy.
  - apply IH. intros a b Ha Hb. exact (H a b (or_intror Ha) (or_intror Hb)).
Qed.
(** the r-torsion is cyclic of order r, generated by the generator *)
Lemma cyclic (E : Curve) (g : EC E) : gm r g = gO -> g <> gO -> (forall A : EC E, gm r A = gO -> exists k, A = gm k g) ->
  exists l : list (pt E), NoDup l /\ Z.of_nat (length l) = r /\ forall P, In P l <-> on E (cb E) P /\ pk E r P = Inf.
Proof.
  intros R N C. exists (map (fun n => epr E (gm (Z.of_nat n) g)) (seq 0 (Z.to_nat r))). split; [|split].
  - apply NoDup_map_in; [|apply seq_NoDup]. intros a b Ha Hb Eq. apply in_seq in Ha. apply in_seq in Hb. pose proof (ec_eq E _ _ Eq) as Eq'.
    assert (gm (Z.of_nat a - Z.of_nat b) g = gO) as Z by (rewrite gm_sub, Eq'; apply gA_N_r). apply (gm_prime_order r _ g prime_r R N) in Z. destruct Z as [c Hc].
    assert (0 < r) by reflexivity. assert (c = 0) by nia. lia.
  - rewrite map_length, seq_length, Z2Nat.id by discriminate. reflexivity.
  - intros P. rewrite in_map_iff. split.
    + intros (n & <- & _). split; [exact (epr_on E _)|]. rewrite <- epr_gm, gm_T by exact R. reflexivity.
    + intros [O T]. set (A := emk E P O). destruct (C A) as [k Hk]; [apply ec_eq; rewrite epr_gm; exact T|]. exists (Z.to_nat (k mod r)).
      assert (0 <= k mod r < r) as B by (apply Z.mod_pos_bound; reflexivity). rewrite Z2Nat.id by lia. split.
      * rewrite gm_mod by exact R. rewrite <- Hk. reflexivity.
      * apply in_seq. rewrite Z2Nat.inj_lt in * by lia. lia.
Qed.
Theorem subgroup1 : exists l : list (pt Fq), NoDup l /\ Z.of_nat (length l) = r /\ forall P, In P l <-> on1 P /\ mul1 r P = Inf.
Proof. exact (cyclic E1 gen1 gen1_r gen1_ne E1_torsion). Qed.
Theorem subgroup2 : exists l : list (pt K2), NoDup l /\ Z.of_nat (length l) = r /\ forall P, In P l <-> on2 P /\ mul2 r P = Inf.
Proof. exact (cyclic E2 gen2 gen2_r gen2_ne E2_torsion). Qed.
Lemma mult (E : Curve) (g : EC E) : gm r g = gO -> (forall A : EC E, gm r A = gO -> exists k, A = gm k g) -> forall P, on E (cb E) P -> (pk E r P = Inf <-> exists k, 0 <= k < r /\ P = pk E k (epr E g)).
Proof.
  intros R C P O. split.
  - intros T. set (A := emk E P O). destruct (C A) as [k Hk]; [apply ec_eq; rewrite epr_gm; exact T|]. exists (k mod r). split; [apply Z.mod_pos_bound; reflexivity|]. rewrite <- epr_gm, gm_mod by exact R. rewrite <- Hk. reflexivity.
  - intros (k & _ & ->). rewrite <- !epr_gm, gm_T by exact R. reflexivity.
Qed.
Theorem torsion_mult1 P : on1 P -> (mul1 r P = Inf <-> exists k, 0 <= k < r /\ P = mul1 k gp1). Proof. exact (mult E1 gen1 gen1_r E1_torsion P). Qed.
Theorem torsion_mult2 P : on2 P -> (mul2 r P = Inf <-> exists k, 0 <= k < r /\ P = mul2 k gp2). Proof. exact (mult E2 gen2 gen2_r E2_torsion P). Qed.
(** cofactor clearing *)
Lemma clr (E : Curve) e c : (forall A : EC E, gm r (gm e A) = gO) -> (e | c) -> forall P, on E (cb E) P -> pk E r (pk E c P) = Inf.
Proof.
  intros H [d ->] P O. change P with (epr E (emk E P O)). rewrite <- !epr_gm, Z.mul_comm, gm_mul, H. reflexivity.
Qed.
Theorem scale_cofactor1 A : canonA1 A -> on1 (aff1 A) -> let P := G1_ScaleByCofactor FqB A in valid1 P /\ jac1 P = mul1 (eval6 g1Cofactor) (aff1 A) /\ mul1 r (jac1 P) = Inf.
Proof.
  intros C O P. destruct (G1_cofactor A C O) as [CP J]. split; [split; [exact CP|]|split].
  - exact (eq_ind_r on1 (G1_on_mul _ _ O) J).
  - exact J.
  - refine (eq_trans (f_equal (mul1 r) J) _). exact (clr E1 exp1 cof1 E1_clear exp1_divides (aff1 A) O).
Qed.
Theorem scale_cofactor2 A : canonA2 A -> on2 (aff2 A) -> let P := G2_ScaleByCofactor FqB A in valid2 P /\ jac2 P = mul2 g2Cofactor (aff2 A) /\ mul2 r (jac2 P) = Inf.
Proof.
  intros C O P. destruct (G2_cofactor A C O) as [CP J]. split; [split; [exact CP|]|split].
  - exact (eq_ind_r on2 (G2_on_mul _ _ O) J).
  - exact J.
  - refine (eq_trans (f_equal (mul2 r) J) _). exact (clr E2 exp2 cof2 E2_clear exp2_divides (aff2 A) O).
Qed.
(** hash.go's cofactor clearing *)
Theorem ClearH_limb A : canonA1 A -> on1 (aff1 A) -> let P := ClearH FqB A in canonA1 P /\ on1 (aff1 P) /\ aff1 P = mul1 (absx + 1) (aff1 A) /\ mul1 r (aff1 P) = Inf.
Proof.
  intros C O P. pose proof (rel_ClearH FqB FpB RFq A (valA1 A) (proj2 (RA1_val _ _) (Logic.conj C eq_refl))) as R. apply RA1_val in R. destruct R as [CP V].
  set (X := emk E1 (aff1 A) O : EC E1). pose proof (ClearH_ok (valA1 A) X eq_refl) as H. assert (aff1 P = epr E1 (gm exp1 X)) as EP by (refine (eq_trans _ H); unfold aff1, aff; f_equal; exact (eq_sym V)).
  destruct (lowr1 _ (E1_clear X)) as [O' T']. split; [exact CP|]. rewrite EP. split; [exact O'|]. split; [|exact T']. rewrite <- mul1_gm, exp1_absx. reflexivity.
Qed.
Theorem clearH2_limb A : canonA2 A -> on2 (aff2 A) -> ainf A = false -> let P := clearH2 FqB A in canonA2 P /\ on2 (aff2 P) /\ mul2 r (aff2 P) = Inf.
Proof.
  intros C O I P. pose proof (rel_clearH2 FqB FpB RFq A (valA2 A) (proj2 (RA2_val _ _) (Logic.conj C eq_refl))) as R. apply RA2_val in R. destruct R as [CP V].
  set (X := emk E2 (aff2 A) O : EC E2). pose proof (clearH2_ok (valA2 A) X eq_refl I) as H. assert (aff2 P = epr E2 (ch2 X)) as EP by (refine (eq_trans _ H); unfold aff2, aff; f_equal; exact (eq_sym V)).
  destruct (lowr2 _ (ch2_torsion X)) as [O' T']. split; [exact CP|]. rewrite EP. split; [exact O'|exact T'].
Qed.
Lemma key_one1 : key_of1 (G1ProjectiveOne FqB) 1.
Proof. apply key_mult1; [exact G1pone_canon| |intros D; apply Z.divide_pos_le in D; [apply D; reflexivity|reflexivity]]. rewrite gp1_gen, mul1_gm, gm_1. symmetry. exact epr_gen1. Qed.
Lemma key_one2 : key_of2 (G2ProjectiveOne FqB) 1.
Proof. apply key_mult2; [exact G2pone_canon| |intros D; apply Z.divide_pos_le in D; [apply D; reflexivity|reflexivity]]. rewrite gp2_gen, mul2_gm, gm_1. symmetry. exact epr_gen2. Qed.
Lemma pairing_example : let P := Double FqO (G1ProjectiveOne FqB) in tor1 (G1ProjectiveOne FqB) /\ tor2 (G2ProjectiveOne FqB) /\ tor1 P /\ jac1 P = plus1 (jac1 (G1ProjectiveOne FqB)) (jac1 (G1ProjectiveOne FqB)).
Proof.
  cbv zeta. split; [exact one1_tor|]. split; [exact one2_tor|]. destruct (G1_double _ G1pone_canon) as [C J]. split; [|exact J].
  refine (proj1 (key_mult1 _ 2 C _ _)).
  - rewrite J, gp1_gen, mul1_gm, gm_2, <- epr_gen1, <- plus1_gA. reflexivity.
  - intros D. apply Z.divide_pos_le in D; [|reflexivity]. apply D; reflexivity.
Qed.
Lemma verify_vocabulary :
  (forall P, tor1 P <-> canonP1 P /\ on1 (jac1 P) /\ mul1 r (jac1 P) = Inf /\ jac1 P <> Inf) /\ (forall P, tor2 P <-> canonP2 P /\ on2 (jac2 P) /\ mul2 r (jac2 P) = Inf /\ jac2 P <> Inf) /\
  (forall h, hok1 h <-> on1 (aff1 h) /\ mul1 r (aff1 h) = Inf /\ aff1 h <> Inf) /\ (forall h, hok2 h <-> on2 (aff2 h) /\ mul2 r (aff2 h) = Inf /\ aff2 h <> Inf) /\
  gp1 = aff1 (G1AffineOne FqB) /\ gp2 = aff2 (G2AffineOne FqB) /\
  (forall P k, key_of1 P k <-> tor1 P /\ jac1 P = mul1 k gp1) /\ (forall P k, key_of2 P k <-> tor2 P /\ jac2 P = mul2 k gp2) /\
  (forall hf P k m h, signer_ok1 hf (mkSigner1 P k m h) <-> key_of1 P k /\ hf m = Some h /\ tor2 h) /\ (forall hf P k m h, signer_ok2 hf (mkSigner2 P k m h) <-> key_of2 P k /\ hf m = Some h /\ tor1 h) /\
  expected1 [] = Inf /\ (forall P k m h l, expected1 (mkSigner1 P k m h :: l) = plus2 (mul2 k (jac2 h)) (expected1 l)) /\
  expected2 [] = Inf /\ (forall P k m h l, expected2 (mkSigner2 P k m h :: l) = plus1 (mul1 k (jac1 h)) (expected2 l)) /\
  (forall sha m, hf1 sha m = option_map (Affine_ToProjective FqO2) (HashG2 sha FqB m)) /\ (forall sha m, hf2 sha m = option_map (Affine_ToProjective FqO) (HashG1 sha FqB m)) /\
  (forall sha fuel dom m, hfd sha fuel dom m = option_map (fun h => Affine_ToProjective FqO2 (G2_ToAffine FqO2 h)) (HashG2WithDomain_fuel sha FqB fuel m dom)).
Proof.
  split; [intros; exact (iff_refl _)|]. split; [intros; exact (iff_refl _)|]. split; [intros; exact (iff_refl _)|]. split; [intros; exact (iff_refl _)|].
  split; [reflexivity|]. split; [reflexivity|]. split; [intros; exact (iff_refl _)|]. split; [intros; exact (iff_refl _)|]. split; [intros; exact (iff_refl _)|]. split; [intros; exact (iff_refl _)|].
  split; [reflexivity|]. split; [reflexivity|]. split; [reflexivity|]. split; [reflexivity|]. split; [reflexivity|]. split; reflexivity.
Qed.
