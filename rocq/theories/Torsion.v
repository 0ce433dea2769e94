(** Consequences of the explicit generators: the number of points of the two curves, the r-torsion, cofactors. *)
Require Import ZArith Lia Bool List Znumtheory.
From Verif Require Import Words ModelRepr ReprProofs ModelFq ModelOps ModelTower ModelCurve NumTheory Primality PrimCof Fp FpOps FqProofs FqProofs2 FqRel OpsRel OpsRel2 FqTransfer Ext TowerProofs TowerLimb Fld EcIdeal EcGroup AbGrp EcMul EcJac Curves CurveLimb CurveMisc LineIdeal Cocycle Recip BilinBase Bilin GenFacts Span EcCount GenCheck Gens.
Import ListNotations.
Open Scope Z_scope.

Lemma zeta1_ok : (fun z : FldQ => z * z + z + 1 = 0)%F zeta1.
Proof. change (fadd (fadd (fmul zeta1 zeta1) zeta1) (f1 q) = f0 q). apply zof_inj. vm_compute. reflexivity. Qed.
Lemma zeta2_ok : (fun z : FldQ2 => z * z + z + 1 = 0)%F zeta2.
Proof. change (k2_add (k2_add (k2_mul zeta2 zeta2) zeta2) k2_1 = k2_0). apply k2_eq; apply zof_inj; vm_compute; reflexivity. Qed.
Section Tor.
Context (E : Curve) (O : Ops E) (HO : OpsFld E O) (z : E) (z3 : (z * z + z + 1 = 0)%F).
Lemma F2_det gs gs' (l : list (Affine E)) : Forall2 (fun (A : EC E) g => epr E A = repa E g) gs l -> Forall2 (fun (A : EC E) g => epr E A = repa E g) gs' l -> gs = gs'.
Proof. intros H. revert gs'. induction H as [|A g gs l HA _ IH]; intros gs' H'; inversion H'; subst; [reflexivity|]. f_equal; [apply ec_eq; congruence|auto]. Qed.
Theorem gens_split N n m (gen : EC E) p k g l : epr E gen = repa E g -> chk_all O (cb E) z (mkItem p k g None :: l) = true -> Forall (fun t => prime (i_p t)) (mkItem p k g None :: l) ->
  (forall l : list (EC E), NoDup l -> Z.of_nat (length l) <= N) -> size l = n -> expo l = m -> N < 2 * (p * n) ->
  exists gs : list (EC E), indep (gen :: gs) (p * n) /\ Forall (fun A => gm m A = gO) gs /\ Forall2 (fun A g => epr E A = repa E g) gs (points l) /\ forall A, spn (gen :: gs) A.
Proof.
  intros Eg Hc Hp HN <- <- HL. destruct (chk_all_ok E O HO z z3 _ Hp Hc) as (gs & F2 & Ind & _).
  assert (chk_all O (cb E) z l = true) as Hc' by (cbn [chk_all] in Hc; apply andb_true_iff in Hc; apply Hc).
  inversion Hp as [|? ? _ Hp']; subst. destruct (chk_all_ok E O HO z z3 _ Hp' Hc') as (gs' & F2' & _ & Kill).
  cbn [points i_h i_g] in F2. inversion F2 as [|A ? gs0 ? HA F20]; subst. rewrite (F2_det _ _ _ F20 F2') in *. assert (A = gen) as -> by (apply ec_eq; congruence).
  exists gs'. cbn [size i_h i_p] in Ind. split; [exact Ind|]. split; [exact Kill|]. split; [exact F2'|]. exact (spn_all _ _ N (ec_dec E) Ind HN HL).
Qed.
End Tor.

Definition cof1 : Z := Eval vm_compute in size (map (toitem (mk1 z2q)) data1).
Definition cof2 : Z := Eval vm_compute in size (map (toitem (mk2 z2q)) data2).
Definition exp1 : Z := Eval vm_compute in expo (map (toitem (mk1 z2q)) data1).
Definition exp2 : Z := Eval vm_compute in expo (map (toitem (mk2 z2q)) data2).
Lemma cof1_eq : size (map (toitem (mk1 z2q)) data1) = cof1. Proof. vm_compute. reflexivity. Qed.
Lemma cof2_eq : size (map (toitem (mk2 z2q)) data2) = cof2. Proof. vm_compute. reflexivity. Qed.
Lemma exp1_eq : expo (map (toitem (mk1 z2q)) data1) = exp1. Proof. vm_compute. reflexivity. Qed.
Lemma exp2_eq : expo (map (toitem (mk2 z2q)) data2) = exp2. Proof. vm_compute. reflexivity. Qed.
Lemma primes1 : Forall (fun t => prime (i_p t)) (items1 FpB z2q).
Proof. repeat (apply Forall_cons; [first [exact prime_r|exact prime_3|exact prime_11|exact prime_10177|exact prime_859267|exact prime_52437899]|]). apply Forall_nil. Qed.
Lemma primes2 : Forall (fun t => prime (i_p t)) (items2 FpB z2q).
Proof. repeat (apply Forall_cons; [first [exact prime_r|exact prime_13|exact prime_23|exact prime_2713|exact prime_11953|exact prime_262069|exact prime_M2]|]). apply Forall_nil. Qed.
Lemma G1one_fp : epr E1 gen1 = repa E1 (G1AffineOne FpB).
Proof.
  pose proof (rel_G1AffineOne FqB FpB RFq) as H. unfold gen1. rewrite epr_emk. apply RA1_val in H. destruct H as [_ H]. rewrite H. reflexivity.
Qed.
Theorem E1_gens : exists gs : list (EC E1), indep (gen1 :: gs) (r * cof1) /\ Forall (fun A => gm exp1 A = gO) gs /\ forall A, spn (gen1 :: gs) A.
Proof.
  destruct (gens_split E1 FpO FpO_ok zeta1 zeta1_ok (2 * q + 1) cof1 exp1 gen1 r 0 (G1AffineOne FpB) (map (toitem (mk1 z2q)) data1) G1one_fp check1 primes1 E1_bound cof1_eq exp1_eq) as (gs & H1 & H2 & _ & H4).
  - vm_compute. reflexivity.
  - exists gs. auto.
Qed.
Theorem E2_gens : exists gs : list (EC E2), indep (gen2 :: gs) (r * cof2) /\ Forall (fun A => gm exp2 A = gO) gs /\
  Forall2 (fun A g => epr E2 A = repa E2 g) gs (points (map (toitem (mk2 z2q)) data2)) /\ forall A, spn (gen2 :: gs) A.
Proof.
  destruct (gens_split E2 (FQ2O FpB) FpO2_ok zeta2 zeta2_ok (2 * (q * q) + 1) cof2 exp2 gen2 r 0 (G2AffineOne FpB) (map (toitem (mk2 z2q)) data2) gen2_repa check2 primes2 E2_bound cof2_eq exp2_eq) as (gs & H1 & H2 & H3 & H4).
  - vm_compute. reflexivity.
  - exists gs. auto.
Qed.
Lemma tor_gen {G : AbGrp} m p (g : G) gs : Forall (fun A => gm m A = gO) gs -> Z.gcd m p = 1 -> gm p g = gO -> (forall A, spn (g :: gs) A) -> forall A, gm p A = gO -> exists k, A = gm k g.
Proof.
  intros K D Kg S A HA. destruct (S A) as (k & y & Sy & ->). exists k. replace y with (@gO G); [apply gA_0_r|]. symmetry. apply (gm_coprime m p y D); [exact (spn_killed m gs K y Sy)|].
  rewrite gm_A, <- gm_mul, Z.mul_comm, gm_mul, Kg, gm_O, gA_0_l in HA. exact HA.
Qed.
(** the r-torsion of each curve is generated by the standard generator *)
Theorem E1_torsion (A : EC E1) : gm r A = gO -> exists k, A = gm k gen1.
Proof. destruct E1_gens as (gs & _ & K & S). revert A. apply (tor_gen exp1 r gen1 gs K); [vm_compute; reflexivity|exact gen1_r|exact S]. Qed.
Theorem E2_torsion (A : EC E2) : gm r A = gO -> exists k, A = gm k gen2.
Proof. destruct E2_gens as (gs & _ & K & _ & S). revert A. apply (tor_gen exp2 r gen2 gs K); [vm_compute; reflexivity|exact gen2_r|exact S]. Qed.
Theorem E2_Q2 (A : EC E2) : gm r A = gO -> Q2 A.
Proof. intros H. destruct (E2_torsion A H) as [k ->]. apply Q2_gm, gen2_Q2. Qed.
(** the numbers of points *)
Theorem E1_count : exists l : list (EC E1), NoDup l /\ Z.of_nat (length l) = r * cof1 /\ forall A, In A l.
Proof. destruct E1_gens as (gs & I & _ & S). destruct (indep_big _ _ I) as (l & N & L & _ & C). exists l. auto. Qed.
Theorem E2_count : exists l : list (EC E2), NoDup l /\ Z.of_nat (length l) = r * cof2 /\ forall A, In A l.
Proof. destruct E2_gens as (gs & I & _ & _ & S). destruct (indep_big _ _ I) as (l & N & L & _ & C). exists l. auto. Qed.
(** multiplying by |x|+1 clears the cofactor of E1 *)
Theorem E1_clear (A : EC E1) : gm r (gm exp1 A) = gO.
Proof.
  destruct E1_gens as (gs & _ & K & S). rewrite <- gm_mul. apply (spn_killed (r * exp1) (gen1 :: gs)); [|apply S]. constructor.
  - rewrite Z.mul_comm, gm_mul, gen1_r. apply gm_O.
  - eapply Forall_impl; [|exact K]. intros X HX. cbv beta in HX. rewrite gm_mul, HX. apply gm_O.
Qed.
Theorem E2_clear (A : EC E2) : gm r (gm exp2 A) = gO.
Proof.
  destruct E2_gens as (gs & _ & K & _ & S). rewrite <- gm_mul. apply (spn_killed (r * exp2) (gen2 :: gs)); [|apply S]. constructor.
  - rewrite Z.mul_comm, gm_mul, gen2_r. apply gm_O.
  - eapply Forall_impl; [|exact K]. intros X HX. cbv beta in HX. rewrite gm_mul, HX. apply gm_O.
Qed.
