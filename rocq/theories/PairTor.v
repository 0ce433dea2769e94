(** The pairing on the r-torsion at limb level: bilinear, not degenerate. *)
Require Import ZArith Lia Bool List Znumtheory.
From Verif Require Import Words ModelRepr ReprProofs ModelFq ModelOps ModelTower ModelCurve ModelPairing NumTheory Primality Fp FpOps FqProofs FqProofs2 FqRel OpsRel OpsRel2 FqTransfer Ext TowerProofs TowerLimb Fld EcGroup AbGrp EcMul EcJac Curves CurveLimb CurveMisc FinExp Miller PairBasic PairLimb BilinBase Bilin GenFacts PairGen PairGen2 Torsion.
Import CurveLimb ListNotations.
Open Scope Z_scope.

(** a finite point of order r *)
Definition tor1 (P : Proj FQ) : Prop := canonP1 P /\ on1 (jac1 P) /\ mul1 r (jac1 P) = Inf /\ jac1 P <> Inf.
Definition tor2 (P : Proj (FQ2 FQ)) : Prop := canonP2 P /\ on2 (jac2 P) /\ mul2 r (jac2 P) = Inf /\ jac2 P <> Inf.
Lemma lift1 p : on1 p -> mul1 r p = Inf -> exists A : EC E1, epr E1 A = p /\ T1 A /\ (p <> Inf -> A <> gO).
Proof. intros H R. exists (emk E1 p H). split; [reflexivity|]. split; [apply ec_eq; rewrite epr_gm; exact R|]. intros N E. apply N. exact (f_equal (epr E1) E). Qed.
Lemma lift2 p : on2 p -> mul2 r p = Inf -> exists A : EC E2, epr E2 A = p /\ gm r A = gO /\ Q2 A /\ (p <> Inf -> A <> gO).
Proof.
  intros H R. exists (emk E2 p H). assert (gm r (emk E2 p H : EC E2) = gO) as K by (apply ec_eq; rewrite epr_gm; exact R).
  split; [reflexivity|]. split; [exact K|]. split; [apply E2_Q2, K|]. intros N E. apply N. exact (f_equal (epr E2) E).
Qed.
Lemma lower1 (A : EC E1) : T1 A -> on1 (epr E1 A) /\ mul1 r (epr E1 A) = Inf.
Proof. intros H. split; [exact (epr_on E1 A)|]. unfold mul1. rewrite <- epr_gm. unfold T1 in H. rewrite H. reflexivity. Qed.
Lemma lower2 (A : EC E2) : gm r A = gO -> on2 (epr E2 A) /\ mul2 r (epr E2 A) = Inf.
Proof. intros H. split; [exact (epr_on E2 A)|]. unfold mul2. rewrite <- epr_gm. rewrite H. reflexivity. Qed.
Lemma mul1_gm k (A : EC E1) : mul1 k (epr E1 A) = epr E1 (gm k A). Proof. unfold mul1. rewrite epr_gm. reflexivity. Qed.
Lemma mul2_gm k (A : EC E2) : mul2 k (epr E2 A) = epr E2 (gm k A). Proof. unfold mul2. rewrite epr_gm. reflexivity. Qed.
Lemma plus1_gA (A A' : EC E1) : plus1 (epr E1 A) (epr E1 A') = epr E1 (gA A A'). Proof. reflexivity. Qed.
Lemma plus2_gA (A A' : EC E2) : plus2 (epr E2 A) (epr E2 A') = epr E2 (gA A A'). Proof. reflexivity. Qed.
Lemma pair_core P Q (A : EC E1) (B : EC E2) : canonP1 P -> canonP2 Q -> epr E1 A = jac1 P -> epr E2 B = jac2 Q -> T1 A -> Q2 B -> A <> gO -> B <> gO ->
  exists e, Pairing FqB P Q = Some e /\ canon12 e /\ val12 e = upr (epair A B).
Proof.
  intros CP CQ EA EB TA QB NA NB. pose proof (Pairing_rel P Q CP CQ) as R.
  pose proof (Pairing_epair (valP1 P) (valP2 Q) A B (eq_trans (eq_sym (jac1_rep P)) (eq_sym EA)) (eq_trans (eq_sym (jac2_rep Q)) (eq_sym EB)) TA QB NA NB) as H.
  apply optR12_some. exact (eq_ind _ (optR (R12 RFq) (Pairing FqB P Q)) R _ H).
Qed.
(** the pairing on multiples of the generators *)
Lemma epair_inj_r (B B' : EC E2) : gm r B = gO -> gm r B' = gO -> (epair gen1 B = epair gen1 B' <-> B = B').
Proof.
  intros H H'. split; [|intros ->; reflexivity]. destruct (E2_torsion _ H) as [k ->], (E2_torsion _ H') as [k' ->].
  rewrite !epair_gm_r by (exact gen1_T1 || exact gen2_Q2). intros E.
  assert (gm (k - k') (epair gen1 gen2) = gO) as Z by (rewrite gm_sub, E; apply gA_N_r). apply epair_gen_order in Z. apply (gm_cong r); [exact gen2_r|].
  destruct Z as [c Hc]. replace k with (k' + c * r) by lia. apply Z.mod_add. discriminate.
Qed.
Lemma epair_inj_l (A A' : EC E1) : T1 A -> T1 A' -> (epair A gen2 = epair A' gen2 <-> A = A').
Proof.
  intros H H'. split; [|intros ->; reflexivity]. destruct (E1_torsion _ H) as [k ->], (E1_torsion _ H') as [k' ->].
  rewrite !epair_gm_l by (exact gen1_T1 || exact gen2_Q2). intros E.
  assert (gm (k - k') (epair gen1 gen2) = gO) as Z by (rewrite gm_sub, E; apply gA_N_r). apply epair_gen_order in Z. apply (gm_cong r); [exact gen1_r|].
  destruct Z as [c Hc]. replace k with (k' + c * r) by lia. apply Z.mod_add. discriminate.
Qed.
Lemma gm_ne {G : AbGrp} (g : G) k : gm r g = gO -> gm k g <> gO -> ~ (r | k).
Proof. intros H N D. apply N. exact (gm_divide r k g H D). Qed.
Lemma epair_nd (A : EC E1) (B : EC E2) : T1 A -> gm r B = gO -> A <> gO -> B <> gO -> epair A B <> gO.
Proof.
  intros TA TB NA NB. destruct (E1_torsion _ TA) as [a ->], (E2_torsion _ TB) as [b ->]. rewrite epair_gens. intros E. apply epair_gen_order, prime_mult in E; [|exact prime_r].
  destruct E as [E|E]; [exact (gm_ne gen1 a gen1_r NA E)|exact (gm_ne gen2 b gen2_r NB E)].
Qed.
Lemma upr_inj (u v : U12) : upr u = upr v -> u = v.
Proof. apply u_eq. Qed.
Lemma tor1_ec P : tor1 P -> exists A : EC E1, epr E1 A = jac1 P /\ T1 A /\ A <> gO.
Proof. intros (C & H & R & N). destruct (lift1 _ H R) as (A & HA & TA & NA). exists A. auto. Qed.
Lemma tor2_ec P : tor2 P -> exists A : EC E2, epr E2 A = jac2 P /\ gm r A = gO /\ Q2 A /\ A <> gO.
Proof. intros (C & H & R & N). destruct (lift2 _ H R) as (A & HA & TA & QA & NA). exists A. auto. Qed.
Theorem pairing_scalar P Q P' Q' a b : tor1 P -> tor2 Q -> tor1 P' -> tor2 Q' -> 0 <= a -> 0 <= b -> jac1 P' = mul1 a (jac1 P) -> jac2 Q' = mul2 b (jac2 Q) ->
  exists e e', Pairing FqB P Q = Some e /\ Pairing FqB P' Q' = Some e' /\ val12 e' = pw12 (val12 e) (a * b).
Proof.
  intros HP HQ HP' HQ' Ha Hb EP EQ. destruct (tor1_ec _ HP) as (A & EA & TA & NA). destruct (tor2_ec _ HQ) as (B & EB & RB & QB & NB).
  destruct (tor1_ec _ HP') as (A' & EA' & TA' & NA'). destruct (tor2_ec _ HQ') as (B' & EB' & RB' & QB' & NB').
  assert (A' = gm a A) as -> by (apply ec_eq; rewrite EA', EP, <- EA; apply mul1_gm). assert (B' = gm b B) as -> by (apply ec_eq; rewrite EB', EQ, <- EB; apply mul2_gm).
  destruct (pair_core P Q A B (proj1 HP) (proj1 HQ) EA EB TA QB NA NB) as (e & He & _ & Ve).
  destruct (pair_core P' Q' _ _ (proj1 HP') (proj1 HQ') EA' EB' TA' QB' NA' NB') as (e' & He' & _ & Ve').
  exists e, e'. split; [exact He|]. split; [exact He'|]. rewrite Ve, Ve', u12_pow by lia. rewrite epair_gm_l, epair_gm_r, gm_mul by assumption. reflexivity.
Qed.
Theorem pairing_add_l P1 P2 P3 Q : tor1 P1 -> tor1 P2 -> tor1 P3 -> tor2 Q -> jac1 P3 = plus1 (jac1 P1) (jac1 P2) ->
  exists e1 e2 e3, Pairing FqB P1 Q = Some e1 /\ Pairing FqB P2 Q = Some e2 /\ Pairing FqB P3 Q = Some e3 /\ FQ12_MulAssign FqB e1 e2 = e3.
Proof.
  intros HP1 HP2 HP3 HQ EP. destruct (tor1_ec _ HP1) as (A1 & E1' & T1' & N1). destruct (tor1_ec _ HP2) as (A2 & E2' & T2' & N2). destruct (tor1_ec _ HP3) as (A3 & E3' & T3' & N3). destruct (tor2_ec _ HQ) as (B & EB & RB & QB & NB).
  assert (A3 = gA A1 A2) as -> by (apply ec_eq; rewrite E3', EP, <- E1', <- E2'; apply plus1_gA).
  destruct (pair_core P1 Q _ B (proj1 HP1) (proj1 HQ) E1' EB T1' QB N1 NB) as (e1 & H1 & C1 & V1).
  destruct (pair_core P2 Q _ B (proj1 HP2) (proj1 HQ) E2' EB T2' QB N2 NB) as (e2 & H2 & C2 & V2).
  destruct (pair_core P3 Q _ B (proj1 HP3) (proj1 HQ) E3' EB T3' QB N3 NB) as (e3 & H3 & C3 & V3).
  exists e1, e2, e3. split; [exact H1|]. split; [exact H2|]. split; [exact H3|]. destruct (L12_mul e1 e2 C1 C2) as [CM VM]. apply val12_inj; auto. rewrite VM, V1, V2, V3, u12_A. rewrite epair_A_l by assumption. reflexivity.
Qed.
Theorem pairing_add_r P Q1 Q2 Q3 : tor1 P -> tor2 Q1 -> tor2 Q2 -> tor2 Q3 -> jac2 Q3 = plus2 (jac2 Q1) (jac2 Q2) ->
  exists e1 e2 e3, Pairing FqB P Q1 = Some e1 /\ Pairing FqB P Q2 = Some e2 /\ Pairing FqB P Q3 = Some e3 /\ FQ12_MulAssign FqB e1 e2 = e3.
Proof.
  intros HP HQ1 HQ2 HQ3 EP. destruct (tor1_ec _ HP) as (A & EA & TA & NA). destruct (tor2_ec _ HQ1) as (B1 & E1' & R1' & Q1' & N1). destruct (tor2_ec _ HQ2) as (B2 & E2' & R2' & Q2' & N2). destruct (tor2_ec _ HQ3) as (B3 & E3' & R3' & Q3' & N3).
  assert (B3 = gA B1 B2) as -> by (apply ec_eq; rewrite E3', EP, <- E1', <- E2'; apply plus2_gA).
  destruct (pair_core P Q1 A _ (proj1 HP) (proj1 HQ1) EA E1' TA Q1' NA N1) as (e1 & H1 & C1 & V1).
  destruct (pair_core P Q2 A _ (proj1 HP) (proj1 HQ2) EA E2' TA Q2' NA N2) as (e2 & H2 & C2 & V2).
  destruct (pair_core P Q3 A _ (proj1 HP) (proj1 HQ3) EA E3' TA Q3' NA N3) as (e3 & H3 & C3 & V3).
  exists e1, e2, e3. split; [exact H1|]. split; [exact H2|]. split; [exact H3|]. destruct (L12_mul e1 e2 C1 C2) as [CM VM]. apply val12_inj; auto. rewrite VM, V1, V2, V3, u12_A. rewrite epair_A_r by assumption. reflexivity.
Qed.
Theorem pairing_nondegenerate P Q : tor1 P -> tor2 Q -> exists e, Pairing FqB P Q = Some e /\ canon12 e /\ e <> FQ12One FqB.
Proof.
  intros HP HQ. destruct (tor1_ec _ HP) as (A & EA & TA & NA). destruct (tor2_ec _ HQ) as (B & EB & RB & QB & NB).
  destruct (pair_core P Q A B (proj1 HP) (proj1 HQ) EA EB TA QB NA NB) as (e & He & Ce & Ve). exists e. split; [exact He|]. split; [exact Ce|]. intros E.
  pose proof (rel_FQ12One FqB FpB RFq) as R1. apply R12_val in R1. destruct R1 as [_ VO]. rewrite E, <- VO in Ve. apply (epair_nd A B TA RB NA NB). apply upr_inj. rewrite <- Ve. reflexivity.
Qed.
