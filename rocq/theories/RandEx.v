(** RandG1 and RandG2 can return the identity. *)
Require Import ZArith Lia Bool List Ring Field.
From Verif Require Import Words ModelRepr ReprProofs ReprProofs2 ModelFq ModelOps ModelTower ModelCurve ModelHash NumTheory Primality FqProofs FqProofs2 FqRel Fp FpOps FqMisc OpsRel OpsRel2 FqTransfer Ext TowerProofs TowerLimb Fld EcGroup AbGrp EcMul EcJac Curves CurveLimb CurveMisc BlsProofs Torsion UNat UInst PolyEval IsoProofs SwuProofs ClearCof CountFacts HashProofs SwEnc HashEx.
Import CurveLimb ListNotations.
Open Scope Z_scope.

Section Order3.
Context (E : Curve).
Add Field KFo : (fTh E).
Open Scope fld_scope.
Lemma pplus_x0 (y : E) : y <> 0 -> pplus E (pplus E (Pt 0 y) (Pt 0 y)) (Pt 0 y) = Inf.
Proof.
  intros N. pose proof (c2_ne E) as H2. assert (pplus E (Pt 0 y) (Pt 0 y) = Pt 0 (- y)) as ->.
  { unfold pplus. destruct (fDec 0 0) as [_|X]; [|destruct X; reflexivity]. destruct (fDec y y) as [_|X]; [|destruct X; reflexivity]. destruct (fDec y 0) as [X|_]; [contradiction|].
    unfold chord. assert (three E * (0 * 0) / (two E * y) = 0) as -> by (field; split; assumption). f_equal; ring. }
  replace (Pt 0 y) with (pneg E (Pt 0 (- y))); [exact (pplus_neg_r E (c2_ne E) _)|]. cbn [pneg]. f_equal. ring.
Qed.
Lemma pk_x0 (y : E) : y <> 0 -> forall P, P = Pt 0 y -> on E (cb E) P -> pk E 3 P = Inf.
Proof.
  intros N P EP O. set (A := emk E P O : EC E). change P with (epr E A). rewrite <- epr_gm. assert (gm 3 A = gA (gA A A) A) as ->.
  { change 3%Z with (1 + 1 + 1)%Z. rewrite !gm_add, gm_1. reflexivity. }
  rewrite !epr_A. change (epr E A) with P. subst P. exact (pplus_x0 y N).
Qed.
Lemma pk_div (n c : Z) P : on E (cb E) P -> pk E n P = Inf -> (n | c)%Z -> pk E c P = Inf.
Proof.
  intros O H [d ->]. set (A := emk E P O : EC E). change P with (epr E A). rewrite <- epr_gm, gm_mul. assert (gm n A = gO) as ->; [apply ec_eq; rewrite epr_gm; exact H|]. rewrite gm_O. reflexivity.
Qed.
Lemma pk_neg (n : Z) P : on E (cb E) P -> pk E n P = Inf -> pk E n (pneg E P) = Inf.
Proof.
  intros O H. set (A := emk E P O : EC E). change (pneg E P) with (epr E (gN A)). rewrite <- epr_gm, gm_N. assert (gm n A = gO) as ->; [apply ec_eq; rewrite epr_gm; exact H|]. reflexivity.
Qed.
End Order3.

Theorem RandG1_identity : exists draws P, Forall (fun d => 0 <= snd d < q) draws /\ RandG1 FqB draws = Some P /\ jac1 P = Inf.
Proof.
  assert (Forall (fun d : Z * Z => 0 <= snd d < q) [(0, 0)]) as HD by (constructor; [split; [discriminate|reflexivity]|constructor]).
  assert (exists P, RandG1 FqB [(0, 0)] = Some P) as [P EP].
  { cbn [RandG1]. cbv zeta. destruct (of_small 0 (Logic.conj (Z.le_refl 0) eq_refl)) as [C V]. destruct (g1_fromx (b_of FqB (FQRepr_const 0)) (0 mod 2 =? 0) C) as [_ GS]. rewrite V in GS.
    destruct GS as (y & -> & _); [exists (z2q 2); zc|]. cbn [Affine_IsZero ainf negb]. eexists. reflexivity. }
  exists [(0, 0)], P. split; [exact HD|]. split; [exact EP|]. destruct (RandG1_sound _ HD P EP) as (pre & byte & x & rest & y & ED & _ & O & _ & J & _).
  assert (x = 0) as ->. { destruct pre as [|d [|? ?]]; cbn [app] in ED; inversion ED; reflexivity. }
  rewrite J. change (z2q 0) with (f0 q) in *. refine (pk_div E1 3 _ _ O (pk_x0 E1 y _ _ eq_refl O) _).
  - intros Z. assert (y = f0 q) as Z' by exact Z. rewrite Z' in O. apply (f_equal zof) in O. vm_compute in O. discriminate O.
  - exists (eval6 g1Cofactor / 3). vm_compute. reflexivity.
Qed.
Definition x13 : FQ2 Z := mkFQ2 3302811696236693048817432710937200207154146062888472244124401231088541568825880779436480055488906969507825521497988 2159161761998572029827115715135251648516413537530764144546098409415901214338605707709859368308445700024446995204964.
Definition y13 : FQ2 Z := mkFQ2 918272763181459299777785049801485251739425764325067183332904369815332912808088109486288125688779618627172051883901 1520342217214845708397311524493951876842629938360259965595483298367599583510590171163992542460916921937176980633828.
Lemma on13 : on2 (Pt (k2q x13) (k2q y13)). Proof. unfold on2, on. apply k2_zof; vm_compute; reflexivity. Qed.
Lemma eval13 : Proj_IsZero (FQ2O UB) (Affine_MulBig (FQ2O UB) (U2 x13 y13) 13) = true. Proof. vm_cast_no_check (eq_refl true). Qed.
Lemma mul13 : mul2 13 (Pt (k2q x13) (k2q y13)) = Inf.
Proof.
  pose proof (rel_FQ2O UB FpB RU) as HO. pose proof eval13 as H. rewrite (rel_Proj_IsZero _ _ _ HO _ _ (rel_Affine_MulBig _ _ _ HO _ _ 13 (RUV2 x13 y13))) in H.
  apply (proj_iszero_iff FldQ2 (FQ2O FpB) FpO2_ok) in H. refine (eq_trans (eq_sym _) H). exact (repj_mulbig E2 (FQ2O FpB) FpO2_ok (V2 x13 y13) 13 on13 ltac:(discriminate)).
Qed.
Theorem RandG2_identity : exists draws P, Forall (fun d => 0 <= fst (snd d) < q /\ 0 <= snd (snd d) < q) draws /\ RandG2 FqB draws = Some P /\ jac2 P = Inf.
Proof.
  set (draws := [(0, (c0 x13, c1 x13))] : list (Z * (Z * Z))).
  assert (0 <= c0 x13 < q /\ 0 <= c1 x13 < q) as HX by (split; split; (discriminate || reflexivity)).
  assert (Forall (fun d : Z * (Z * Z) => 0 <= fst (snd d) < q /\ 0 <= snd (snd d) < q) draws) as HD by (constructor; [exact HX|constructor]).
  assert (exists P, RandG2 FqB draws = Some P) as [P EP].
  { unfold draws. cbn [RandG2]. cbv zeta. destruct (of_small _ (proj1 HX)) as [C0 V0]. destruct (of_small _ (proj2 HX)) as [C1 V1]. set (X := mkFQ2 (b_of FqB (FQRepr_const (c0 x13))) (b_of FqB (FQRepr_const (c1 x13)))).
    assert (canon2 X) as C by (split; assumption). assert (val2 X = k2q x13) as V by (unfold X, val2, k2q; cbn [c0 c1]; rewrite V0, V1; reflexivity). clearbody X.
    destruct (g2_fromx X (0 mod 2 =? 0) C) as [_ GS]. rewrite V in GS. destruct GS as (y & -> & _); [exists (k2q y13); exact on13|]. cbn [Affine_IsZero ainf negb]. eexists. reflexivity. }
  exists draws, P. split; [exact HD|]. split; [exact EP|]. destruct (RandG2_sound _ HD P EP) as (pre & byte & x & rest & y & ED & _ & O & _ & J & _).
  assert (x = (c0 x13, c1 x13)) as ->. { unfold draws in ED. destruct pre as [|d [|? ?]]; cbn [app] in ED; inversion ED; reflexivity. }
  rewrite J. cbn [fst snd] in O |- *. change (mkFQ2 (z2q (c0 x13)) (z2q (c1 x13))) with (k2q x13) in *.
  refine (pk_div E2 13 _ _ O _ _); [|exists (g2Cofactor / 13); vm_compute; reflexivity].
  destruct (fld_sq_eq FldQ2 y (k2q y13)) as [Y|Y]; [exact (eq_trans O (eq_sym on13))| |].
  - rewrite Y. exact mul13.
  - rewrite Y. exact (pk_neg E2 13 _ on13 mul13).
Qed.
(** HashG2WithDomain terminates: with an all-zero digest the search succeeds at the third candidate at the latest *)
Definition y_dom : FQ2 Z := mkFQ2 3813414062821088896965879244443358096636228247329175415943186029072982909461945441384695595240360445618611812101176 3568027680765585585945490907042741669558639753778547462314760963815399658271727325750766584361357481230047117262172.
Lemma dom_sq : sqK (k2n 2). Proof. exists (k2q y_dom). apply k2_zof; vm_compute; reflexivity. Qed.
Theorem HashG2WithDomain_example : exists h, HashG2WithDomain_fuel sha_zero FqB 3 [1; 2] [0] = Some h.
Proof.
  refine (HashG2WithDomain_complete sha_zero 3 [1; 2] [0] 2 sha_zero_ok (le_n _) _).
  assert (hd_start sha_zero [1; 2] [0] = k2_0) as -> by (apply k2_zof; vm_compute; reflexivity). assert (k2_add k2_0 (k2n 2) = k2n 2) as -> by ring. exact dom_sq.
Qed.
