(** The generators: order r, the twisted Frobenius acts on the G2 generator as -x, and the pairing of the generators is
    a primitive r-th root of unity.  Computed with the machine-integer instance [UB] and transported by the relation lemmas. *)
Require Import ZArith Lia Bool List Ring Field Znumtheory.
From Verif Require Import Words ModelRepr ReprProofs ReprProofs2 ModelFq ModelOps ModelTower ModelCurve ModelPairing NumTheory Primality Fp FpOps FqProofs FqProofs2 FqRel OpsRel OpsRel2 FqTransfer ZInst Ext ExtFrob TowerProofs TowerLimb Fld EcIdeal EcGroup AbGrp EcMul EcJac Curves CurveLimb CurveMisc FinExp Miller PairBasic PairLimb LineIdeal Cocycle Recip BilinBase MillerVal Bilin UNat UInst.
Import ListNotations.
Open Scope Z_scope.

(** ** r * G = O *)
Lemma G1one_torsion : mul1 r (aff1 (G1AffineOne FqB)) = Inf.
Proof.
  apply (g1_subgroup _ G1one_canon G1one_on).
  rewrite (rel_G1_IsInCorrectSubgroupAssumingOnCurve FqB FpB RFq _ _ (rel_G1AffineOne FqB FpB RFq)).
  rewrite <- (rel_G1_IsInCorrectSubgroupAssumingOnCurve UB FpB RU _ _ (rel_G1AffineOne UB FpB RU)). vm_compute. reflexivity.
Qed.
Lemma G2one_torsion : mul2 r (aff2 (G2AffineOne FqB)) = Inf.
Proof.
  apply (g2_subgroup _ G2one_canon G2one_on).
  rewrite (rel_G2_IsInCorrectSubgroupAssumingOnCurve FqB FpB RFq _ _ (rel_G2AffineOne FqB FpB RFq)).
  rewrite <- (rel_G2_IsInCorrectSubgroupAssumingOnCurve UB FpB RU _ _ (rel_G2AffineOne UB FpB RU)). vm_compute. reflexivity.
Qed.
Definition gen1 : EC E1 := emk E1 (aff1 (G1AffineOne FqB)) G1one_on.
Definition gen2 : EC E2 := emk E2 (aff2 (G2AffineOne FqB)) G2one_on.
Lemma gen1_r : gm r gen1 = gO.
Proof. apply ec_eq. rewrite epr_gm. exact G1one_torsion. Qed.
Lemma gen2_r : gm r gen2 = gO.
Proof. apply ec_eq. rewrite epr_gm. exact G2one_torsion. Qed.
Lemma gen1_ne : gen1 <> gO.
Proof. intros H. apply (f_equal (epr E1)) in H. discriminate. Qed.
Lemma gen2_ne : gen2 <> gO.
Proof. intros H. apply (f_equal (epr E2)) in H. discriminate. Qed.

(** ** the twisted Frobenius *)
Definition psi_test {F} (B : BOps F) (g : Affine (FQ2 F)) (p : Proj (FQ2 F)) (k : FQ2 F) : bool :=
  let kx := FQ2_MulAssign B k k in
  let ky := FQ2_MulAssign B k kx in
  let zz := FQ2_SquareAssign B (pz p) in
  let zzz := FQ2_MulAssign B zz (pz p) in
  let cx := mkFQ2 (c0 (ax g)) (o_neg (b_ops B) (c1 (ax g))) in
  let cy := mkFQ2 (o_neg (b_ops B) (c0 (ay g))) (c1 (ay g)) in
  negb (o_iszero (FQ2O B) (pz p)) && o_equals (FQ2O B) (FQ2_MulAssign B (px p) kx) (FQ2_MulAssign B zz cx) && o_equals (FQ2O B) (FQ2_MulAssign B (py p) ky) (FQ2_MulAssign B zzz cy).
Definition psi_check {F} (B : BOps F) : bool := psi_test B (G2AffineOne B) (Affine_Mul (FQ2O B) (G2AffineOne B) blsX) (nth 1 (frobeniusCoeffFQ12c1 B) (FQ2Zero B)).
Lemma psi_check_def F (B : BOps F) : psi_check B = psi_test B (G2AffineOne B) (Affine_Mul (FQ2O B) (G2AffineOne B) blsX) (nth 1 (frobeniusCoeffFQ12c1 B) (FQ2Zero B)).
Proof. reflexivity. Qed.
Lemma psi_check_rel : psi_check UB = psi_check FpB.
Proof.
  unfold psi_check.
  assert (RelO (FQ2O UB) (FQ2O FpB) (R2 RU)) as HO by exact (rel_FQ2O UB FpB RU).
  assert (RA (R2 RU) (G2AffineOne UB) (G2AffineOne FpB)) as Hg by exact (rel_G2AffineOne UB FpB RU).
  set (g := G2AffineOne UB) in *. set (g' := G2AffineOne FpB) in *. clearbody g g'.
  pose proof (rel_Affine_Mul _ _ _ HO g g' blsX Hg) as Hp. set (p := Affine_Mul (FQ2O UB) g blsX) in *. set (p' := Affine_Mul (FQ2O FpB) g' blsX) in *. clearbody p p'.
  pose proof (F2_nth (R2 RU) _ _ 1 _ _ (rel_frobeniusCoeffFQ12c1 UB FpB RU) (ro_zero _ _ _ HO)) as Hk.
  change (o_zero (FQ2O UB)) with (FQ2Zero UB) in Hk. change (o_zero (FQ2O FpB)) with (FQ2Zero FpB) in Hk.
  set (k := nth 1 (frobeniusCoeffFQ12c1 UB) (FQ2Zero UB)) in *. set (k' := nth 1 (frobeniusCoeffFQ12c1 FpB) (FQ2Zero FpB)) in *. clearbody k k'.
  pose proof (ro_mul _ _ _ HO) as M. pose proof (ro_sq _ _ _ HO) as S. cbn [FQ2O o_mul o_sq] in M, S. destruct Hg as (Hx & Hy & _). destruct Hp as (Px & Py & Pz).
  unfold psi_test. cbv zeta. f_equal; [f_equal; [f_equal; apply (ro_iszero _ _ _ HO); exact Pz|]|]; apply (ro_equals _ _ _ HO); apply M; auto.
  - split; cbn [c0 c1]; [apply Hx|apply (ro_neg _ _ _ RelO_U), Hx].
  - split; cbn [c0 c1]; [apply (ro_neg _ _ _ RelO_U), Hy|apply Hy].
Qed.
Lemma psi_check_ok : psi_check FpB = true.
Proof. rewrite <- psi_check_rel. vm_compute. reflexivity. Qed.
Lemma G2one_fp : vA E2 val2 (G2AffineOne FqB) = G2AffineOne FpB.
Proof. pose proof (rel_G2AffineOne FqB FpB RFq) as H. apply RA2_val in H. destruct H as [_ H]. symmetry. exact H. Qed.
Lemma gam_coeff : nth 1 (frobeniusCoeffFQ12c1 FpB) (FQ2Zero FpB) = gam.
Proof. refine (R2Z_eq _ _ _ _ (F2_nth _ _ _ 1 (FQ2Zero ZB) _ (rel_frobeniusCoeffFQ12c1 ZB FpB RZ) (rel_FQ2Zero ZB FpB RZ)) zgam_rel _); vm_compute; reflexivity. Qed.
Section Repj.
Context (K : Fld).
Add Field KF : (fTh K).
Lemma repj_ratio p gx gy cx cy : pz p <> 0%F -> gx <> 0%F -> gy <> 0%F -> (px p * gx = pz p * pz p * cx)%F -> (py p * gy = pz p * pz p * pz p * cy)%F -> repj K p = Pt (cx / gx)%F (cy / gy)%F.
Proof.
  intros N Nx Ny H1 H2. destruct p as [x y z]; cbn [px py pz] in *. apply repj_ext; [exact N| |].
  - transitivity ((x * gx) / gx)%F; [field; exact Nx|]. rewrite H1. field. exact Nx.
  - transitivity ((y * gy) / gy)%F; [field; exact Ny|]. rewrite H2. field. exact Ny.
Qed.
End Repj.
Lemma psi_alg (p : Proj K2) (g : Affine K2) gx gy : pz p <> k2_0 -> gx <> k2_0 -> gy <> k2_0 ->
  k2_mul (px p) gx = k2_mul (k2_mul (pz p) (pz p)) (k2_conj (ax g)) ->
  k2_mul (py p) gy = k2_mul (k2_mul (k2_mul (pz p) (pz p)) (pz p)) (mkFQ2 (fopp (c0 (ay g))) (c1 (ay g))) ->
  repj FldQ2 p = pneg E2 (psi E2 k2_conj gx gy (Pt (ax g) (ay g))).
Proof.
  intros Nz Nx Ny Ex Ey. assert (mkFQ2 (fopp (c0 (ay g))) (c1 (ay g)) = k2_opp (k2_conj (ay g))) as E by (apply k2_eq; cbn [k2_opp k2_conj c0 c1]; [reflexivity|ring]). rewrite E in Ey.
  rewrite (repj_ratio FldQ2 p gx gy (k2_conj (ax g)) (k2_opp (k2_conj (ay g))) Nz Nx Ny Ex Ey).
  assert (k2_div (k2_opp (k2_conj (ay g))) gy = k2_opp (k2_div (k2_conj (ay g)) gy)) as D by (field; exact Ny). exact (f_equal (Pt _) D).
Qed.
Lemma psi_test_ok g p k : psi_test FpB g p k = true -> k2_mul k k <> k2_0 -> k2_mul k (k2_mul k k) <> k2_0 ->
  repj FldQ2 p = pneg E2 (psi E2 k2_conj (k2_mul k k) (k2_mul k (k2_mul k k)) (Pt (ax g) (ay g))).
Proof.
  intros H N1 N2. unfold psi_test in H. cbv zeta in H. apply andb_true_iff in H. destruct H as [H Hy]. apply andb_true_iff in H. destruct H as [Hz Hx].
  rewrite (of_iszero _ _ FpO2_ok) in Hz. rewrite (of_equals _ _ FpO2_ok) in Hx, Hy.
  destruct (fDec _ _) as [?|Nz] in Hz; [discriminate|]. destruct (fDec _ _) as [Ex|?] in Hx; [|discriminate]. destruct (fDec _ _) as [Ey|?] in Hy; [|discriminate]. clear Hx Hy Hz.
  rewrite !m2_mul, ?m2_sq in Ex. rewrite !m2_mul, ?m2_sq, ?m2_mul in Ey.
  exact (psi_alg p g _ _ Nz N1 N2 Ex Ey).
Qed.
Lemma psi_test_gen : psi_test FpB (G2AffineOne FpB) (Affine_Mul (FQ2O FpB) (G2AffineOne FpB) blsX) gam = true.
Proof. pose proof psi_check_ok as H. rewrite psi_check_def, gam_coeff in H. exact H. Qed.
Lemma gen2_repa : epr E2 gen2 = repa E2 (G2AffineOne FpB).
Proof. rewrite <- G2one_fp. reflexivity. Qed.
Lemma gen2_xT : epr E2 (gm xT gen2) = repj FldQ2 (Affine_Mul (FQ2O FpB) (G2AffineOne FpB) blsX).
Proof.
  rewrite epr_gm, gen2_repa. symmetry. refine (repj_mul E2 (FQ2O FpB) FpO2_ok (G2AffineOne FpB) blsX _ blsX_wf). rewrite <- G2one_fp. exact G2one_on.
Qed.
Lemma psi2_epr A : epr E2 (gN (psi2 A)) = pneg E2 (psi E2 k2_conj gX gY (epr E2 A)). Proof. reflexivity. Qed.
Lemma gen2_psi : gm xT gen2 = gN (psi2 gen2).
Proof.
  apply ec_eq. rewrite gen2_xT, psi2_epr, gen2_repa. exact (psi_test_ok _ _ _ psi_test_gen gX_ne gY_ne).
Qed.
Theorem gen1_T1 : T1 gen1. Proof. exact gen1_r. Qed.
Theorem gen2_Q2 : Q2 gen2. Proof. split; [exact gen2_r|exact gen2_psi]. Qed.
