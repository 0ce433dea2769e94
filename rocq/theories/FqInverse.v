(** FQ.Inverse (fq.go:224-266): termination and correctness on canonical input, divergence on the raw value q. *)
Require Import String Ascii ZArith Lia Bool List Znumtheory.
From Verif Require Import Words ModelRepr ReprProofs ReprProofs2 ModelFq NumTheory Primality FqProofs FqProofs2 InvZ.
Open Scope Z_scope.

Lemma bigOne_wf : wf6 bigOne. Proof. apply wf6_intro; unfold isW; lia. Qed.
Lemma bigOne_eval : eval6 bigOne = 1. Proof. reflexivity. Qed.
Lemma q_odd : Z.odd q = true. Proof. reflexivity. Qed.

Lemma FQ_inv_halve_ref fuel : forall u b, wf6 u -> canon b ->
  match FQ_inv_halve fuel u b, zhalve q fuel (eval6 u) (eval6 (fq_n b)) with
  | Some (u', b'), Some (x, y) => wf6 u' /\ canon b' /\ eval6 u' = x /\ eval6 (fq_n b') = y
  | None, None => True
  | _, _ => False
  end.
Proof.
  induction fuel as [|k IH]; intros u b Hu Hb; cbn [FQ_inv_halve zhalve];
    unfold isEven; rewrite FQRepr_IsEven_eval; destruct (Z.even (eval6 u)) eqn:Ev; try (repeat split; try assumption; try reflexivity; apply Hb); try exact I.
  destruct (FQRepr_Div2_spec u Hu) as [W1 E1].
  rewrite FQRepr_IsEven_eval. pose proof (canon_bounds b Hb) as Bb. pose proof q_bounds as Qb.
  destruct (halve_b_spec q q_odd q_gt_1 (eval6 (fq_n b)) Bb) as [HB _].
  destruct (Z.even (eval6 (fq_n b))) eqn:Evb.
  - destruct (FQRepr_Div2_spec (fq_n b)) as [W2 E2]; [apply Hb|].
    specialize (IH (FQRepr_Div2 u) (mkFQ (FQRepr_Div2 (fq_n b))) W1).
    cbn [fq_n] in IH. rewrite E1, E2 in IH. apply IH. split; cbn [fq_n]; [assumption|rewrite E2; lia].
  - assert (eval6 (AddNoCarry (fq_n b) QFieldModulus) = eval6 (fq_n b) + q) as E3.
    { rewrite AddNoCarry_eval by (apply Hb || apply QFieldModulus_wf). rewrite QFieldModulus_eval. apply Z.mod_small. lia. }
    assert (wf6 (AddNoCarry (fq_n b) QFieldModulus)) as W3 by (apply AddNoCarry_wf; [apply Hb|apply QFieldModulus_wf]).
    destruct (FQRepr_Div2_spec _ W3) as [W2 E2]. rewrite E3 in E2.
    specialize (IH (FQRepr_Div2 u) (mkFQ (FQRepr_Div2 (FQRepr_AddNoCarry (fq_n b) QFieldModulus))) W1).
    unfold FQRepr_AddNoCarry in *. cbn [fq_n] in IH. rewrite E1, E2 in IH. apply IH. split; cbn [fq_n]; [assumption|rewrite E2; lia].
Qed.

Lemma FQ_SubAssign_eval f g : canon f -> canon g -> eval6 (fq_n (FQ_SubAssign f g)) = zsubm q (eval6 (fq_n f)) (eval6 (fq_n g)).
Proof.
  intros Hf Hg. pose proof (canon_bounds f Hf) as Bf. pose proof (canon_bounds g Hg) as Bg. pose proof q_bounds as Qb.
  unfold FQ_SubAssign, FQRepr_AddNoCarry, FQRepr_SubNoBorrow, zsubm. rewrite FQRepr_Cmp_eval by (apply Hf || apply Hg).
  destruct (Z.ltb_spec (eval6 (fq_n f)) (eval6 (fq_n g))) as [L|L].
  - assert (0 < zcmp (eval6 (fq_n g)) (eval6 (fq_n f))) as Lp by (rewrite zcmp_pos; assumption).
    apply Z.ltb_lt in Lp. rewrite Lp. cbn [fq_n].
    rewrite SubNoBorrow_eval by (apply Hg || (apply AddNoCarry_wf; [apply Hf|apply QFieldModulus_wf])).
    rewrite AddNoCarry_eval by (apply Hf || apply QFieldModulus_wf). rewrite QFieldModulus_eval.
    rewrite (Z.mod_small (eval6 (fq_n f) + q)) by lia. apply Z.mod_small. lia.
  - destruct (Z.ltb_spec 0 (zcmp (eval6 (fq_n g)) (eval6 (fq_n f)))) as [X|X]; [rewrite zcmp_pos in X; lia|]. cbn [fq_n].
    rewrite SubNoBorrow_eval by (apply Hg || apply Hf). apply Z.mod_small. lia.
Qed.

Lemma cmp_one_eqb u : wf6 u -> (FQRepr_Cmp u bigOne =? 0) = (eval6 u =? 1).
Proof.
  intros Hu. rewrite FQRepr_Cmp_eval, bigOne_eval by (assumption || apply bigOne_wf).
  destruct (Z.eqb_spec (eval6 u) 1) as [E|E]; [rewrite zcmp_eq by assumption; reflexivity|].
  destruct (Z.eqb_spec (zcmp (eval6 u) 1) 0) as [X|X]; [rewrite zcmp_0 in X; contradiction|reflexivity].
Qed.
Lemma cmp_leb u v : wf6 u -> wf6 v -> (0 <=? FQRepr_Cmp u v) = (eval6 v <=? eval6 u).
Proof.
  intros Hu Hv. rewrite FQRepr_Cmp_eval by assumption.
  destruct (Z.leb_spec (eval6 v) (eval6 u)) as [E|E].
  - destruct (Z.leb_spec 0 (zcmp (eval6 u) (eval6 v))) as [X|X]; [reflexivity|]. rewrite zcmp_neg in X. lia.
  - rewrite zcmp_lt by assumption. reflexivity.
Qed.

Lemma FQ_inv_loop_ref fuel0 fuel : forall u b v c, wf6 u -> canon b -> wf6 v -> canon c ->
  match FQ_inv_loop fuel0 fuel u b v c, zinv_loop q fuel0 fuel (eval6 u) (eval6 (fq_n b)) (eval6 v) (eval6 (fq_n c)) with
  | Some (u', b', c'), Some (x, y, z) => wf6 u' /\ canon b' /\ canon c' /\ eval6 u' = x /\ eval6 (fq_n b') = y /\ eval6 (fq_n c') = z
  | None, None => True
  | _, _ => False
  end.
Proof.
  induction fuel as [|k IH]; intros u b v c Hu Hb Hv Hc; cbn [FQ_inv_loop zinv_loop]; rewrite !cmp_one_eqb by assumption;
    destruct (negb (eval6 u =? 1) && negb (eval6 v =? 1)) eqn:G; try (do 3 (split; [assumption|]); do 2 (split; [reflexivity|]); reflexivity); try exact I.
  pose proof (FQ_inv_halve_ref fuel0 u b Hu Hb) as R1.
  destruct (FQ_inv_halve fuel0 u b) as [[u1 b1]|], (zhalve q fuel0 (eval6 u) (eval6 (fq_n b))) as [[x1 y1]|]; try contradiction; [|exact I].
  destruct R1 as (Hu1 & Hb1 & <- & <-).
  pose proof (FQ_inv_halve_ref fuel0 v c Hv Hc) as R2.
  destruct (FQ_inv_halve fuel0 v c) as [[v1 c1]|], (zhalve q fuel0 (eval6 v) (eval6 (fq_n c))) as [[x2 y2]|]; try contradiction; [|exact I].
  destruct R2 as (Hv1 & Hc1 & <- & <-).
  rewrite cmp_leb by assumption. pose proof (eval6_bound _ Hu1). pose proof (eval6_bound _ Hv1).
  destruct (Z.leb_spec (eval6 v1) (eval6 u1)) as [L|L].
  - assert (eval6 (FQRepr_SubNoBorrow u1 v1) = eval6 u1 - eval6 v1) as E.
    { unfold FQRepr_SubNoBorrow. rewrite SubNoBorrow_eval by assumption. apply Z.mod_small. lia. }
    specialize (IH (FQRepr_SubNoBorrow u1 v1) (FQ_SubAssign b1 c1) v1 c1).
    rewrite E, FQ_SubAssign_eval in IH by assumption. apply IH; try assumption.
    + apply SubNoBorrow_wf; assumption.
    + apply FQ_SubAssign_spec; assumption.
  - assert (eval6 (FQRepr_SubNoBorrow v1 u1) = eval6 v1 - eval6 u1) as E.
    { unfold FQRepr_SubNoBorrow. rewrite SubNoBorrow_eval by assumption. apply Z.mod_small. lia. }
    specialize (IH u1 b1 (FQRepr_SubNoBorrow v1 u1) (FQ_SubAssign c1 b1)).
    rewrite E, FQ_SubAssign_eval in IH by assumption. apply IH; try assumption.
    + apply SubNoBorrow_wf; assumption.
    + apply FQ_SubAssign_spec; assumption.
Qed.

Lemma gcd_q n : 0 < n < q -> Z.gcd n q = 1.
Proof.
  intros Hn. apply Zgcd_1_rel_prime, rel_prime_sym, prime_rel_prime; [exact prime_q|].
  intros D. apply Z.divide_pos_le in D; lia.
Qed.

Lemma canon_zero_eval f : canon f -> (FQ_IsZero f = true <-> eval6 (fq_n f) = 0).
Proof.
  intros Hf. rewrite FQ_IsZero_spec by assumption. split; intros E.
  - rewrite fval_eval, E by assumption. reflexivity.
  - unfold fval. rewrite E. reflexivity.
Qed.

(** From b*n = R^2 (Montgomery radix) to a statement on residues. *)
Lemma inv1_fval f b : canon f -> canon b -> inv1 q (eval6 (fq_n f)) (eval6 FQR2) 1 (eval6 (fq_n b)) ->
  (fval b * fval f) mod q = 1.
Proof.
  intros Hf Hb [_ [k Hk]].
  rewrite <- fval_prod.
  replace (eval6 (fq_n b) * eval6 (fq_n f)) with (k * q + 1 * eval6 FQR2) by lia.
  replace ((k * q + 1 * eval6 FQR2) * RQinv * RQinv) with (eval6 FQR2 * RQinv * RQinv + (k * RQinv * RQinv) * q) by ring.
  rewrite Z.mod_add by apply q_ne.
  assert ((eval6 FQR2 * RQinv) mod q = RQ mod q) as E by exact FQR2_fval.
  rewrite <- mod_mul_l, E, mod_mul_l. apply RQinv_ok.
Qed.

Lemma q_lt_2_381 : q < 2 ^ Z.of_nat 381.
Proof. reflexivity. Qed.

Theorem FQ_Inverse_fuel_spec f fuel : canon f -> FQ_IsZero f = false -> (763 <= fuel)%nat ->
  exists g, FQ_Inverse_fuel fuel f = Some (g, true) /\ canon g /\ (fval g * fval f) mod q = 1.
Proof.
  intros Hf Hz Hfuel. unfold FQ_Inverse_fuel. rewrite Hz. cbv zeta.
  pose proof (FQ_inv_loop_ref fuel fuel (fq_n f) (FQReprToFQRaw FQR2) QFieldModulus FQZero (proj1 Hf) FQR2_canon QFieldModulus_wf FQZero_canon) as R.
  change (fq_n (FQReprToFQRaw FQR2)) with FQR2 in R. change (eval6 (fq_n FQZero)) with 0 in R. rewrite QFieldModulus_eval in R.
  pose proof (canon_bounds f Hf) as Bf.
  assert (eval6 (fq_n f) <> 0) as NZ by (intros E; apply (canon_zero_eval f Hf) in E; congruence).
  pose proof (canon_bounds _ FQR2_canon) as B2. cbn [fq_n] in B2.
  destruct (zinv_spec q q_odd q_gt_1 (eval6 (fq_n f)) (eval6 FQR2) 381 fuel q_lt_2_381 Hfuel) as (x & y & z & E & S); [lia|apply gcd_q; lia|exact B2|].
  rewrite E in R.
  destruct (FQ_inv_loop fuel fuel (fq_n f) (FQReprToFQRaw FQR2) QFieldModulus FQZero) as [[[u' b'] c']|]; [|contradiction].
  destruct R as (Hu' & Hb' & Hc' & <- & <- & <-).
  rewrite cmp_one_eqb by assumption.
  destruct S as [[S1 S2]|[S1 S2]].
  - rewrite S1. rewrite Z.eqb_refl. exists b'. split; [reflexivity|]. split; [assumption|]. apply inv1_fval; assumption.
  - destruct (Z.eqb_spec (eval6 u') 1) as [X|X]; [contradiction|]. exists c'. split; [reflexivity|]. split; [assumption|]. apply inv1_fval; assumption.
Qed.

Lemma FQ_Inverse_zero_fuel f fuel : canon f -> fval f = 0 -> FQ_Inverse_fuel fuel f = Some (FQ_empty, false).
Proof. intros Hf E. unfold FQ_Inverse_fuel. apply (FQ_IsZero_spec f Hf) in E. rewrite E. reflexivity. Qed.

(** The budget of 800 in FQ_Inverse is never the reason for its result on canonical input. *)
Theorem FQ_Inverse_spec f : canon f ->
  (fval f = 0 -> FQ_Inverse f = (FQ_empty, false)) /\
  (fval f <> 0 -> exists g, FQ_Inverse f = (g, true) /\ canon g /\ (fval g * fval f) mod q = 1).
Proof.
  intros Hf. split; intros E; unfold FQ_Inverse.
  - rewrite FQ_Inverse_zero_fuel by assumption. reflexivity.
  - destruct (FQ_Inverse_fuel_spec f 800 Hf) as (g & -> & Hg & E2).
    + destruct (FQ_IsZero f) eqn:Z0; [apply (FQ_IsZero_spec f Hf) in Z0; contradiction|reflexivity].
    + lia.
    + exists g. split; [reflexivity|]. split; assumption.
Qed.

(** ** Divergence on the raw, non-canonical value q *)
Lemma zhalve_0 m fuel : forall b, zhalve m fuel 0 b = None.
Proof. induction fuel as [|k IH]; intros b; cbn [zhalve]; [reflexivity|]. cbn [Z.even]. apply IH. Qed.

Lemma FQ_inv_halve_0 fuel : forall u b, wf6 u -> eval6 u = 0 -> FQ_inv_halve fuel u b = None.
Proof.
  induction fuel as [|k IH]; intros u b Hu E; cbn [FQ_inv_halve]; unfold isEven; rewrite FQRepr_IsEven_eval, E; [reflexivity|].
  cbn [Z.even]. destruct (FQRepr_Div2_spec u Hu) as [W1 E1]. apply IH; [assumption|rewrite E1, E; reflexivity].
Qed.

Theorem FQ_Inverse_raw_q fuel : FQ_Inverse_fuel fuel (FQReprToFQRaw QFieldModulus) = None.
Proof.
  unfold FQ_Inverse_fuel. change (FQ_IsZero (FQReprToFQRaw QFieldModulus)) with false. cbv zeta iota.
  destruct fuel as [|[|k]]; [reflexivity|reflexivity|].
  assert (forall n b c, FQ_inv_loop (S (S k)) n bigZero b QFieldModulus c = None) as L.
  { intros n b c. destruct n; cbn [FQ_inv_loop];
      change (negb (FQRepr_Cmp bigZero bigOne =? 0) && negb (FQRepr_Cmp QFieldModulus bigOne =? 0)) with true; cbv iota; [reflexivity|].
    rewrite FQ_inv_halve_0; [reflexivity|apply bigZero_wf|reflexivity]. }
  assert (forall n b c, FQ_inv_loop (S (S k)) (S n) QFieldModulus b QFieldModulus c = FQ_inv_loop (S (S k)) n bigZero (FQ_SubAssign b c) QFieldModulus c) as L2.
  { intros n b c. cbn [FQ_inv_loop].
    change (negb (FQRepr_Cmp QFieldModulus bigOne =? 0) && negb (FQRepr_Cmp QFieldModulus bigOne =? 0)) with true. cbv iota.
    cbn [FQ_inv_halve]. change (isEven QFieldModulus) with false. cbv iota.
    change (0 <=? FQRepr_Cmp QFieldModulus QFieldModulus) with true. cbv iota. reflexivity. }
  cbn [fq_n FQReprToFQRaw]. rewrite L2, L. reflexivity.
Qed.
