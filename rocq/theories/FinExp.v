(** The multiplicative group of a field, and the final exponentiation as a power map. *)
Require Import ZArith Lia Bool List Ring Field Eqdep_dec Znumtheory.
From Verif Require Import Words ModelRepr ReprProofs ReprProofs2 ModelFq ModelOps ModelTower ModelCurve ModelPairing NumTheory Primality Fp FpOps FqProofs FqProofs2 FqInverse FqRel FqMisc Loops OpsRel OpsRel2 ZInst TwoPow Ext ExtFrob TowerProofs Fld AbGrp EcGroup EcJac EcMul Curves.
Import ListNotations.
Open Scope Z_scope.

Section Units.
Context (K : Fld).
Definition nzb (x : K) : bool := if fDec x 0%F then false else true.
Lemma nzb_ne x : nzb x = true <-> x <> 0%F.
Proof. unfold nzb. destruct (fDec x 0%F); split; congruence. Qed.
Definition unT : Type := { x : K | nzb x = true }.
Definition upr (u : unT) : K := proj1_sig u.
Lemma u_eq (u v : unT) : upr u = upr v -> u = v.
Proof. destruct u as [u Hu], v as [v Hv]. cbn. intros <-. f_equal. apply (UIP_dec bool_dec). Qed.
Lemma upr_ne (u : unT) : upr u <> 0%F. Proof. apply nzb_ne, (proj2_sig u). Qed.
Definition umk (x : K) (H : x <> 0%F) : unT := exist _ x (proj2 (nzb_ne x) H).
Lemma upr_umk x H : upr (umk x H) = x. Proof. reflexivity. Qed.
Definition unA (u v : unT) : unT := umk (upr u * upr v)%F (fld_mul_ne K _ _ (upr_ne u) (upr_ne v)).
Definition unN (u : unT) : unT := umk (fV (upr u)) (fld_inv_ne K _ (upr_ne u)).
Definition unO : unT := umk 1%F (fld_1_ne_0 K).
Add Field KFu : (fTh K).
Definition Un : AbGrp.
Proof.
  refine (mkAbGrp unT unO unA unN _ _ _ _); intros; apply u_eq; unfold unA, unN, unO; rewrite !upr_umk.
  - ring.
  - ring.
  - ring.
  - field. apply upr_ne.
Defined.
Lemma upr_A (u v : Un) : upr (gA u v) = (upr u * upr v)%F. Proof. reflexivity. Qed.
Lemma upr_N (u : Un) : upr (gN u) = fV (upr u). Proof. reflexivity. Qed.
Lemma upr_O : upr (gO : Un) = 1%F. Proof. reflexivity. Qed.
Lemma upr_gm n (u : Un) : 0 <= n -> upr (gm n u) = zpow 1%F fM (upr u) n.
Proof.
  revert n. apply natlike_ind; [reflexivity|]. intros n Hn IH. rewrite <- Z.add_1_r, gm_succ, upr_A, IH.
  symmetry. apply (zpow_succ _ _ _ _ _ _ (fRing K)). exact Hn.
Qed.
End Units.
Arguments upr {K}. Arguments u_eq {K}. Arguments upr_ne {K}.

(** ** Fq12 *)
Notation U12 := (Un FldQ12).
Lemma u12_A (u v : U12) : k12_mul (upr u) (upr v) = upr (gA u v). Proof. reflexivity. Qed.
Lemma u12_pow n (u : U12) : 0 <= n -> pw12 (upr u) n = upr (gm n u).
Proof. intros H. symmetry. exact (upr_gm FldQ12 n u H). Qed.
Lemma m12_frob_12 a : FQ12_FrobeniusMapAssign FpB a 12 = a.
Proof. rewrite <- (m12_frob_0 a) at 2. reflexivity. Qed.
Lemma m6_frob_6 a : FQ6_FrobeniusMapAssign FpB a 6 = a.
Proof. rewrite <- (m6_frob_0 a) at 2. reflexivity. Qed.
Lemma frob12_6 : nth (Z.to_nat (6 mod 12)) (frobeniusCoeffFQ12c1 FpB) k2_0 = k2_opp k2_1.
Proof.
  transitivity (mkFQ2 (z2q (q - 1)) (z2q 0)).
  - refine (R2Z_eq _ _ _ _ (Forall2_nth_rel _ _ _ _ _ _ (rel_frobeniusCoeffFQ12c1 ZB FpB RZ) _) (R2Z_of (q - 1) 0 _ _) _).
    1: instantiate (1 := mkFQ2 0 0); unfold k2_0; rewrite <- z2q_0; apply R2Z_of.
    all: vm_compute; try split; reflexivity || discriminate.
  - apply k2_eq; cbn; apply zof_inj; unfold fopp, z2q, f1, f0; rewrite !zof_zp; vm_compute; reflexivity.
Qed.
Lemma k12_conj_frob a : k12_conj a = pw12 a (q ^ 6).
Proof.
  rewrite <- m12_frob by lia. unfold FQ12_FrobeniusMapAssign. rewrite !m6_frob_6, m2_zero, frob12_6. cbv zeta. r2. unfold k12_conj, k6_opp.
  apply k12_eq; cbn [e0 e1]; [reflexivity|]. apply k6_eq; cbn [d0 d1 d2]; ring.
Qed.
Definition N12 : Z := q ^ 12 - 1.
Lemma q_pos : 0 < q. Proof. vm_compute. reflexivity. Qed.
Lemma qpow_pos n : 0 <= n -> 0 < q ^ n. Proof. intros. apply Z.pow_pos_nonneg; [apply q_pos|assumption]. Qed.
Lemma u12_conj (u : U12) : k12_conj (upr u) = upr (gm (q ^ 6) u).
Proof. rewrite k12_conj_frob. apply u12_pow. pose proof (qpow_pos 6). lia. Qed.
Lemma u12_frob n (u : U12) : 0 <= n -> FQ12_FrobeniusMapAssign FpB (upr u) n = upr (gm (q ^ n) u).
Proof. intros H. rewrite m12_frob by assumption. apply u12_pow. pose proof (qpow_pos n H). lia. Qed.
Lemma u12_fermat (u : U12) : gm N12 u = gO.
Proof.
  apply (gA_cancel_r u). rewrite gA_0_l, gA_comm, <- gm_succ. unfold N12. replace (q ^ 12 - 1 + 1) with (q ^ 12) by lia.
  apply u_eq. rewrite <- u12_frob by lia. apply m12_frob_12.
Qed.
Lemma k12_fermat a : a <> k12_0 -> pw12 a (q ^ 12 - 1) = k12_1.
Proof.
  intros H. change a with (upr (umk FldQ12 a H)). rewrite u12_pow by (pose proof (qpow_pos 12); lia).
  fold N12. rewrite u12_fermat. reflexivity.
Qed.

(** Elements of the form f^(q^6 - 1): conjugation inverts them. *)
Definition cyc (u : U12) : Prop := gm (q ^ 6 + 1) u = gO.
Lemma cyc_of u : cyc (gm (q ^ 6 - 1) u).
Proof. unfold cyc. rewrite <- gm_mul. replace ((q ^ 6 + 1) * (q ^ 6 - 1)) with N12; [apply u12_fermat|]. unfold N12. change 12 with (6 + 6). rewrite Z.pow_add_r by lia. ring. Qed.
Lemma cyc_gm n u : cyc u -> cyc (gm n u).
Proof. unfold cyc. intros H. rewrite <- gm_mul, Z.mul_comm, gm_mul, H, gm_O. reflexivity. Qed.
Lemma cyc_conj u : cyc u -> k12_conj (upr u) = upr (gm (- 1) u).
Proof.
  intros H. rewrite u12_conj. f_equal. apply (gA_cancel_r u). rewrite !(gA_comm _ u), <- !gm_succ. exact H.
Qed.
Definition xT : Z := 0xd201000000010000.
Lemma blsX_eval : eval6 blsX = xT. Proof. reflexivity. Qed.
Lemma blsX_wf : wf6 blsX. Proof. apply wf6_intro; unfold isW; vm_compute; split; (reflexivity || discriminate). Qed.
Lemma blsX_half : FQRepr_Lsh (FQRepr_Rsh blsX 1) 1 = blsX /\ eval6 (FQRepr_Rsh blsX 1) * 2 = xT /\ wf6 (FQRepr_Rsh blsX 1).
Proof. split; [vm_compute; reflexivity|]. split; [vm_compute; reflexivity|]. apply wf6_intro; unfold isW; vm_compute; split; (reflexivity || discriminate). Qed.
Lemma ExpByX_spec u n : wf6 n -> cyc u -> ExpByX FpB (upr u) n = upr (gm (- eval6 n) u).
Proof.
  intros W C. unfold ExpByX. cbn [blsIsNegative]. rewrite m12_exp by assumption. pose proof (eval6_bound n W).
  rewrite u12_pow by lia. rewrite m12_conj, cyc_conj by (apply cyc_gm, C). rewrite <- gm_mul. reflexivity.
Qed.

(** x (negative) and the exponent of the second part *)
Definition xB : Z := - xT.
Definition hardE : Z := (xB - 1) ^ 2 * (xB + q) * (xB ^ 2 + q ^ 2 - 1) + 3.
Definition finE : Z := (q ^ 6 - 1) * (q ^ 2 + 1) * hardE.
Definition phiD : Z := (q ^ 4 - q ^ 2 + 1) / r.
Lemma phiD_r : phiD * r = q ^ 4 - q ^ 2 + 1. Proof. vm_compute. reflexivity. Qed.
Lemma hardE_phi : hardE = 3 * phiD. Proof. vm_compute. reflexivity. Qed.
Lemma N12_split : N12 = (q ^ 6 - 1) * (q ^ 2 + 1) * (q ^ 4 - q ^ 2 + 1). Proof. unfold N12. generalize q. intros z. ring. Qed.
Lemma finE_r : finE * r = 3 * N12.
Proof. unfold finE. rewrite hardE_phi, N12_split, <- phiD_r. generalize phiD (q ^ 6 - 1) (q ^ 2 + 1) r. intros. ring. Qed.
Lemma finE_div : finE = 3 * ((q ^ 12 - 1) / r).
Proof.
  unfold finE. rewrite hardE_phi. transitivity (3 * (N12 / r)); [|reflexivity]. rewrite N12_split, <- phiD_r.
  assert (r <> 0) as R by discriminate. revert R. generalize phiD (q ^ 6 - 1) (q ^ 2 + 1) r. intros a b c d R. rewrite (Z.mul_assoc (b * c) a d), Z.div_mul by exact R. ring.
Qed.
Lemma finE_pos : 0 <= finE. Proof. vm_compute. discriminate. Qed.

Lemma gm_add1 {G : AbGrp} k (x : G) : gA (gm k x) x = gm (k + 1) x. Proof. rewrite gm_succ. apply gA_comm. Qed.
Lemma mm12 (u v : U12) : FQ12_MulAssign FpB (upr u) (upr v) = upr (gA u v). Proof. rewrite m12_mul. reflexivity. Qed.
Lemma ms12 (u : U12) : FQ12_SquareAssign FpB (upr u) = upr (gm 2 u). Proof. rewrite m12_sq, gm_2. reflexivity. Qed.
Lemma mc12 (u : U12) : cyc u -> FQ12_ConjugateAssign FpB (upr u) = upr (gm (- 1) u). Proof. rewrite m12_conj. apply cyc_conj. Qed.
Lemma finE_split : finE = hardE * (q ^ 2 + 1) * (q ^ 6 - 1). Proof. unfold finE. ring. Qed.
Theorem FinalExponentiation_spec (u : U12) : FinalExponentiation FpB (upr u) = Some (upr (gm finE u)).
Proof.
  unfold FinalExponentiation. rewrite m12_inv. destruct (k12_dec (upr u) k12_0) as [E|N]; [destruct (upr_ne u E)|]. cbv beta iota zeta delta [negb].
  rewrite m12_conj, u12_conj. change (k12_inv (upr u)) with (upr (gN u)). rewrite mm12, finE_split, (gm_mul _ (q ^ 6 - 1)).
  replace (gA (gm (q ^ 6) u) (gN u)) with (gm (q ^ 6 - 1) u) by (rewrite gm_sub, gm_1; reflexivity).
  pose proof (cyc_of u) as C. set (g := gm (q ^ 6 - 1) u) in *. clearbody g. clear u N.
  destruct blsX_half as (L & H2 & W2). rewrite L. rewrite <- blsX_eval in H2. pose proof blsX_wf as W. unfold hardE, xB. rewrite <- blsX_eval.
  set (hx := FQRepr_Rsh blsX 1) in *. clearbody hx. set (bx := blsX) in *. clearbody bx. clear L.
  rewrite u12_frob, mm12 by lia.
  replace (gA (gm (q ^ 2) g) g) with (gm (q ^ 2 + 1) g) by (rewrite gm_succ; apply gA_comm).
  apply (cyc_gm (q ^ 2 + 1)) in C. rewrite (gm_mul _ (q ^ 2 + 1)). set (h := gm (q ^ 2 + 1) g) in *. clearbody h. clear g.
  rewrite ms12.
  rewrite (ExpByX_spec (gm 2 h) bx W (cyc_gm _ _ C)), <- gm_mul.
  rewrite (ExpByX_spec _ _ W2 (cyc_gm _ _ C)), <- gm_mul.
  rewrite (mc12 h C).
  rewrite mm12, <- gm_add, (mc12 _ (cyc_gm _ _ C)), <- gm_mul, mm12, <- gm_add.
  rewrite (ExpByX_spec _ _ W (cyc_gm _ _ C)), <- gm_mul.
  rewrite (ExpByX_spec _ _ W (cyc_gm _ _ C)), <- gm_mul.
  rewrite (mc12 _ (cyc_gm _ _ C)), <- gm_mul, mm12, <- gm_add.
  rewrite (mc12 _ (cyc_gm _ _ C)), <- gm_mul.
  rewrite !u12_frob, <- !gm_mul, mm12, <- gm_add by lia.
  rewrite (ExpByX_spec _ _ W (cyc_gm _ _ C)), <- gm_mul.
  rewrite mm12, <- gm_add, mm12. rewrite gm_add1, mm12, <- gm_add, mm12, <- gm_add.
  f_equal. f_equal. revert H2. generalize (eval6 hx) (eval6 bx) q. clear. intros s t q <-. f_equal. ring.
Qed.
Lemma FinalExponentiation_0 : FinalExponentiation FpB k12_0 = None.
Proof. unfold FinalExponentiation. rewrite m12_inv. destruct (k12_dec k12_0 k12_0) as [_|N]; [reflexivity|destruct N; reflexivity]. Qed.
Theorem FinalExponentiation_pow a : a <> k12_0 -> FinalExponentiation FpB a = Some (pw12 a finE).
Proof. intros H. change a with (upr (umk FldQ12 a H)). rewrite FinalExponentiation_spec, u12_pow by apply finE_pos. reflexivity. Qed.
Lemma finE_root (u : U12) : gm r (gm finE u) = gO.
Proof. rewrite <- gm_mul, Z.mul_comm, finE_r, gm_mul, u12_fermat, gm_O. reflexivity. Qed.
