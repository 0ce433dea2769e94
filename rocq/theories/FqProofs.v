(** Montgomery arithmetic of fq.go: every operation keeps values below q and computes modulo q. *)
Require Import String Ascii ZArith Lia Bool List Znumtheory.
From Verif Require Import Words ModelRepr ReprProofs ReprProofs2 ModelFq NumTheory Primality.
Import ListNotations.
Open Scope Z_scope.

(** Montgomery radix. *)
Definition RQ : Z := Eval vm_compute in 2 ^ 384.

Lemma QFieldModulus_wf : wf6 QFieldModulus.
Proof. apply wf6_intro; unfold isW; lia. Qed.
Lemma QFieldModulus_eval : eval6 QFieldModulus = q.
Proof. reflexivity. Qed.
Lemma q_bounds : 2 ^ 380 < q /\ 2 * q < 2 ^ 382.
Proof. unfold q; lia. Qed.
Lemma RQ_eq : RQ = W * W * W * W * W * W. Proof. reflexivity. Qed.
Lemma RQ_pow : RQ = 2 ^ 384. Proof. reflexivity. Qed.

(** One reduction round: the multiple chosen clears the low word. *)
Lemma mont_low inv m0 x : wlo (1 + inv * m0) = 0 -> isW x ->
  exists kk, wmul x inv = kk /\ isW kk /\ (forall o c, isW o -> o + W * c = x + kk * m0 + 0 -> o = 0).
Proof.
  intros Hinv Hx. exists (wmul x inv). split; [reflexivity|]. split; [apply wlo_isW|].
  intros o c Ho E. unfold wmul in E. rewrite !wlo_mod in *. 
  pose proof (Z.div_mod (x * inv) W ltac:(discriminate)) as D1.
  pose proof (Z.div_mod (1 + inv * m0) W ltac:(discriminate)) as D2. rewrite Hinv in D2.
  set (a := x * inv / W) in *. set (b := (1 + inv * m0) / W) in *. set (k := x * inv mod W) in *.
  assert (k = x * inv - W * a) as Ek by lia. 
  assert (o = x * (1 + inv * m0) - W * (a * m0) - W * c) as E2 by (rewrite Ek in E; clear - E; nia).
  rewrite D2 in E2. unfold isW in Ho. assert (o = W * (x * b - a * m0 - c)) by (rewrite E2; ring). lia.
Qed.

Ltac mont_step inv fact :=
  match goal with
  | |- context [wmul ?x inv] =>
      let kk := fresh "kk" in let Hk := fresh "Hkk" in let Hz := fresh "Hz" in let E := fresh "E" in
      destruct (mont_low inv _ x fact) as (kk & E & Hk & Hz); [isWs|]; rewrite E in *; clear E
  end.

Lemma montInvFQ_ok : wlo (1 + montInvFQ * w0 QFieldModulus) = 0.
Proof. reflexivity. Qed.

Lemma MontReduce_spec hi lo : wf6 hi -> wf6 lo -> eval6 hi * RQ + eval6 lo < q * RQ ->
  wf6 (MontReduce hi lo) /\ eval6 (MontReduce hi lo) < 2 * q /\
  exists K, eval6 (MontReduce hi lo) * RQ = eval6 hi * RQ + eval6 lo + K * q.
Proof.
  intros Hhi Hlo HT. pose proof montInvFQ_ok as Hinv. pose proof QFieldModulus_wf as Hqw. pose proof QFieldModulus_eval as Hqe.
  assert (0 < q) as Hq0 by reflexivity. assert (2 * q < RQ) as HqR by reflexivity. 
  rewrite RQ_eq in *.
  revert HT Hqe Hq0 HqR. generalize q. intros q0 HT Hqe Hq0 HqR.
  unfold MontReduce.
  destruct QFieldModulus as [m0 m1 m2 m3 m4 m5]. cbn [w0] in Hinv.
  destruct hi as [hi0 hi1 hi2 hi3 hi4 hi5], lo as [lo0 lo1 lo2 lo3 lo4 lo5]. unwf.
  revert Hinv. generalize montInvFQ. intros inv Hinv. cbv zeta.
  assert (isW 0) as HW0 by apply isW_0.
  do 6 (mont_step inv Hinv; do 7 mac_step).
  repeat match goal with
  | Hz : (forall o c, isW o -> o + W * c = ?x + ?kk * m0 + 0 -> o = 0), H : ?o + W * ?c = ?x + ?kk * m0 + 0 |- _ =>
     let Hzz := fresh "Hzero" in assert (Hzz : o = 0) by (apply (Hz o c); [assumption|exact H]); clear Hz
  end.
  match goal with |- wf6 ?r /\ _ => set (res := r) end.
  assert (wf6 res) as Hres by (apply wf6_intro; assumption).
  set (T := eval6 (mkFQRepr hi0 hi1 hi2 hi3 hi4 hi5) * (W*W*W*W*W*W) + eval6 (mkFQRepr lo0 lo1 lo2 lo3 lo4 lo5)) in *.
  set (K := eval6 (mkFQRepr kk kk0 kk1 kk2 kk3 kk4)).
  assert (0 <= T) as HT0.
  { pose proof (eval6_bound _ (wf6_intro hi0 hi1 hi2 hi3 hi4 hi5 ltac:(assumption) ltac:(assumption) ltac:(assumption) ltac:(assumption) ltac:(assumption) ltac:(assumption))).
    pose proof (eval6_bound _ (wf6_intro lo0 lo1 lo2 lo3 lo4 lo5 ltac:(assumption) ltac:(assumption) ltac:(assumption) ltac:(assumption) ltac:(assumption) ltac:(assumption))).
    unfold T. lia. }
  assert (0 <= K < W*W*W*W*W*W) as HK.
  { pose proof (eval6_bound _ (wf6_intro kk kk0 kk1 kk2 kk3 kk4 ltac:(assumption) ltac:(assumption) ltac:(assumption) ltac:(assumption) ltac:(assumption) ltac:(assumption))). match goal with H : 0 <= eval6 (mkFQRepr kk _ _ _ _ _) < _ |- _ => exact H end. }
  assert (T + K * q0 = evalw [o; o5; o10; o14; o17; o19] + (W*W*W*W*W*W) * (eval6 res + (W*W*W*W*W*W) * k40)) as HEQ.
  { rewrite <- Hqe. unfold T, K, res. uneval. clear - Hmac Hmac0 Hmac1 Hmac2 Hmac3 Hmac4 Hmac5 Hmac6 Hmac7 Hmac8 Hmac9 Hmac10 Hmac11 Hmac12 Hmac13 Hmac14 Hmac15 Hmac16 Hmac17 Hmac18 Hmac19 Hmac20 Hmac21 Hmac22 Hmac23 Hmac24 Hmac25 Hmac26 Hmac27 Hmac28 Hmac29 Hmac30 Hmac31 Hmac32 Hmac33 Hmac34 Hadd Hadd0 Hadd1 Hadd2 Hadd3 Hadd4.
    solve_macs. ring. }
  subst o o5 o10 o14 o17 o19. change (evalw [0; 0; 0; 0; 0; 0]) with 0 in HEQ.
  pose proof (eval6_bound _ Hres) as Hrb. change (2^384) with (W*W*W*W*W*W) in Hrb.
  assert (0 <= k40) as Hk40 by lia.
  clearbody T K. clear - Hres HT HT0 HqR Hq0 HK HEQ Hrb Hk40. clearbody res.
  assert (0 < W*W*W*W*W*W) as HR0 by reflexivity.
  revert HT HqR HK HEQ Hrb HR0. generalize (W*W*W*W*W*W) (eval6 res). intros RR er HT HqR HK HEQ Hrb HR0.
  assert (RR * (er + RR * k40) < RR * (2 * q0)) as HL by (rewrite Z.add_0_l in HEQ; rewrite <- HEQ; nia).
  apply Z.mul_lt_mono_pos_l in HL; [|assumption].
  assert (k40 = 0) by nia. subst k40. rewrite Z.mul_0_r, Z.add_0_r in *.
  split; [assumption|]. split; [lia|]. exists K. lia.
Qed.

(** ** Canonical field elements and the residue they represent *)

Definition canon (f : FQ) : Prop := wf6 (fq_n f) /\ eval6 (fq_n f) < q.

(** Inverse of the radix modulo q. *)
Definition RQinv : Z := 3231460744492646417066832100176244795738767926513225105051837195607029917124509527734802654356338138714468589979680.
Lemma RQinv_ok : (RQ * RQinv) mod q = 1. Proof. vm_compute. reflexivity. Qed.

(** The residue represented by a Montgomery-form element. *)
Definition fval (f : FQ) : Z := (eval6 (fq_n f) * RQinv) mod q.

Lemma q_pos : 0 < q. Proof. reflexivity. Qed.
Lemma q_gt_1 : 1 < q. Proof. reflexivity. Qed.
Lemma q_ne : q <> 0. Proof. discriminate. Qed.
#[global] Opaque q.

Lemma fval_bound f : 0 <= fval f < q.
Proof. apply Z.mod_pos_bound, q_pos. Qed.

Lemma canon_bounds f : canon f -> 0 <= eval6 (fq_n f) < q.
Proof. intros [H1 H2]. apply eval6_bound in H1. lia. Qed.

Lemma mod_mul_l a b : (a mod q * b) mod q = (a * b) mod q.
Proof. apply Z.mul_mod_idemp_l, q_ne. Qed.
Lemma mod_mul_r a b : (a * (b mod q)) mod q = (a * b) mod q.
Proof. apply Z.mul_mod_idemp_r, q_ne. Qed.

Lemma RQ_cancel a : (a * RQ * RQinv) mod q = a mod q.
Proof. rewrite <- Z.mul_assoc, <- mod_mul_r, RQinv_ok, Z.mul_1_r. reflexivity. Qed.

(** eval = fval * R mod q *)
Lemma fval_eval f : canon f -> eval6 (fq_n f) = (fval f * RQ) mod q.
Proof.
  intros H. apply canon_bounds in H. unfold fval. rewrite mod_mul_l.
  replace (eval6 (fq_n f) * RQinv * RQ) with (eval6 (fq_n f) * RQ * RQinv) by ring. rewrite RQ_cancel.
  symmetry. apply Z.mod_small. assumption.
Qed.

Lemma fval_inj f g : canon f -> canon g -> fval f = fval g -> f = g.
Proof.
  intros Hf Hg E. assert (eval6 (fq_n f) = eval6 (fq_n g)) as E2 by (rewrite (fval_eval f), (fval_eval g), E by assumption; reflexivity).
  destruct f as [nf], g as [ng]. f_equal. apply eval6_inj; [apply Hf|apply Hg|exact E2].
Qed.

Lemma FQ_IsValid_spec f : wf6 (fq_n f) -> (FQ_IsValid f = true <-> eval6 (fq_n f) < q).
Proof.
  intros H. unfold FQ_IsValid. rewrite FQRepr_Cmp_eval, QFieldModulus_eval by (assumption || apply QFieldModulus_wf).
  rewrite orb_true_iff, Z.ltb_lt, zcmp_neg. split; [|tauto].
  intros [E|E]; [|assumption].
  assert (eval6 (fq_n f) < 2 ^ 380) as B.
  { destruct (fq_n f) as [a0 a1 a2 a3 a4 a5]. unwf. cbn [w5] in E. apply Z.eqb_eq in E.
    assert (a5 < 2 ^ 60) as B5.
    { assert (a5 / 2 ^ 60 = 0) as D.
      { unfold wand in E. rewrite <- Z.shiftr_div_pow2 by lia.
        apply Z.bits_inj'. intros i Hi. rewrite Z.shiftr_spec, Z.bits_0 by lia.
        destruct (Z.lt_ge_cases i 4) as [Hi4|Hi4].
        - assert (Z.testbit (Z.land a5 0xf000000000000000) (i + 60) = false) as T by (rewrite E; apply Z.bits_0).
          rewrite Z.land_spec in T.
          assert (Z.testbit 0xf000000000000000 (i + 60) = true) as T2 by (assert (i = 0 \/ i = 1 \/ i = 2 \/ i = 3) as [->|[->|[->| ->]]] by lia; reflexivity).
          rewrite T2, andb_true_r in T. exact T.
        - destruct (Z.eq_dec a5 0) as [->|]; [apply Z.bits_0|]. apply Z.bits_above_log2; [unfold isW in *; lia|].
          assert (Z.log2 a5 < 64) by (apply Z.log2_lt_pow2; unfold isW in *; lia). lia. }
      apply Z.div_small_iff in D; lia. }
    uneval. unfold isW in *. lia. }
  pose proof q_bounds. lia.
Qed.

Lemma FQ_reduceAssign_spec n : wf6 n -> eval6 n < 2 * q ->
  canon (FQ_reduceAssign (mkFQ n)) /\ fval (FQ_reduceAssign (mkFQ n)) = (eval6 n * RQinv) mod q.
Proof.
  intros Hn Hb. unfold FQ_reduceAssign. pose proof (eval6_bound n Hn) as B.
  destruct (FQ_IsValid (mkFQ n)) eqn:E; cbn [negb fq_n].
  - apply FQ_IsValid_spec in E; [|assumption]. split; [split; assumption|reflexivity].
  - assert (q <= eval6 n) as Hq.
    { destruct (Z.lt_ge_cases (eval6 n) q) as [L|G]; [|assumption]. apply (FQ_IsValid_spec (mkFQ n) Hn) in L. congruence. }
    assert (eval6 (SubNoBorrow n QFieldModulus) = eval6 n - q) as Es.
    { rewrite SubNoBorrow_eval, QFieldModulus_eval by (assumption || apply QFieldModulus_wf). apply Z.mod_small. pose proof q_pos. lia. }
    unfold FQRepr_SubNoBorrow. split.
    + split; cbn [fq_n]; [apply SubNoBorrow_wf; [assumption|apply QFieldModulus_wf]|rewrite Es; lia].
    + unfold fval; cbn [fq_n]. rewrite Es. replace ((eval6 n - q) * RQinv) with (eval6 n * RQinv + (- RQinv) * q) by ring.
      apply Z.mod_add, q_ne.
Qed.

Lemma FQ_montReduce_spec hi lo : wf6 hi -> wf6 lo -> eval6 hi * RQ + eval6 lo < q * RQ ->
  canon (FQ_montReduce hi lo) /\ fval (FQ_montReduce hi lo) = ((eval6 hi * RQ + eval6 lo) * RQinv * RQinv) mod q.
Proof.
  intros H1 H2 H3. destruct (MontReduce_spec hi lo H1 H2 H3) as (Hw & Hb & K & HK). unfold FQ_montReduce.
  destruct (FQ_reduceAssign_spec _ Hw Hb) as [C E]. split; [exact C|]. rewrite E.
  rewrite <- (RQ_cancel (_ * RQinv)).
  replace (eval6 (MontReduce hi lo) * RQinv * RQ * RQinv) with (eval6 (MontReduce hi lo) * RQ * RQinv * RQinv) by ring. rewrite HK.
  replace ((eval6 hi * RQ + eval6 lo + K * q) * RQinv * RQinv) with ((eval6 hi * RQ + eval6 lo) * RQinv * RQinv + (K * RQinv * RQinv) * q) by ring.
  apply Z.mod_add, q_ne.
Qed.

Lemma q_lt_RQ : q < RQ. Proof. reflexivity. Qed.
#[global] Opaque RQ RQinv.

Lemma fval_prod f g : ((eval6 (fq_n f) * eval6 (fq_n g)) * RQinv * RQinv) mod q = (fval f * fval g) mod q.
Proof. unfold fval. rewrite mod_mul_l, mod_mul_r. f_equal. ring. Qed.

(** Also correct when the first operand is any 384-bit word vector: used for FQReprToFQ and raw bytes. *)
Lemma FQ_MulAssign_raw f g : wf6 (fq_n f) -> canon g ->
  canon (FQ_MulAssign f g) /\ fval (FQ_MulAssign f g) = (fval f * fval g) mod q.
Proof.
  intros Hf Hg. unfold FQ_MulAssign. destruct (MultiplyFQRepr (fq_n f) (fq_n g)) as [hi lo] eqn:E.
  apply MultiplyFQRepr_spec in E; [|assumption|apply Hg]. destruct E as (Hh & Hl & E). rewrite <- RQ_pow in E.
  pose proof (eval6_bound _ Hf) as Bf. rewrite <- RQ_pow in Bf. apply canon_bounds in Hg.
  destruct (FQ_montReduce_spec hi lo Hh Hl) as [C V]; [rewrite E; nia|].
  split; [exact C|]. rewrite V, E. apply fval_prod.
Qed.

Lemma FQ_MulAssign_spec f g : canon f -> canon g ->
  canon (FQ_MulAssign f g) /\ fval (FQ_MulAssign f g) = (fval f * fval g) mod q.
Proof. intros Hf Hg. apply FQ_MulAssign_raw; [apply Hf|assumption]. Qed.

Lemma FQ_AddAssign_spec f g : canon f -> canon g ->
  canon (FQ_AddAssign f g) /\ fval (FQ_AddAssign f g) = (fval f + fval g) mod q.
Proof.
  intros Hf Hg. pose proof (canon_bounds f Hf) as Bf. pose proof (canon_bounds g Hg) as Bg. pose proof q_bounds as Qb.
  unfold FQ_AddAssign, FQRepr_AddNoCarry.
  assert (eval6 (AddNoCarry (fq_n f) (fq_n g)) = eval6 (fq_n f) + eval6 (fq_n g)) as E.
  { rewrite AddNoCarry_eval by (apply Hf || apply Hg). apply Z.mod_small. lia. }
  destruct (FQ_reduceAssign_spec (AddNoCarry (fq_n f) (fq_n g))) as [C V]; [apply AddNoCarry_wf; [apply Hf|apply Hg]|lia|].
  split; [exact C|]. rewrite V, E. unfold fval. rewrite <- Zplus_mod. f_equal. ring.
Qed.

Lemma FQ_DoubleAssign_spec f : canon f -> canon (FQ_DoubleAssign f) /\ fval (FQ_DoubleAssign f) = (2 * fval f) mod q.
Proof.
  intros Hf. pose proof (canon_bounds f Hf) as Bf. pose proof q_bounds as Qb. unfold FQ_DoubleAssign.
  destruct (FQRepr_Mul2_spec (fq_n f)) as [Hw E]; [apply Hf|]. rewrite Z.mod_small in E by lia.
  destruct (FQ_reduceAssign_spec _ Hw) as [C V]; [lia|].
  split; [exact C|]. rewrite V, E. unfold fval. rewrite mod_mul_r. f_equal. ring.
Qed.

Lemma FQ_SubAssign_spec f g : canon f -> canon g ->
  canon (FQ_SubAssign f g) /\ fval (FQ_SubAssign f g) = (fval f - fval g) mod q.
Proof.
  intros Hf Hg. pose proof (canon_bounds f Hf) as Bf. pose proof (canon_bounds g Hg) as Bg. pose proof q_bounds as Qb.
  unfold FQ_SubAssign, FQRepr_AddNoCarry, FQRepr_SubNoBorrow. rewrite FQRepr_Cmp_eval by (apply Hf || apply Hg).
  destruct (Z.ltb_spec 0 (zcmp (eval6 (fq_n g)) (eval6 (fq_n f)))) as [L|L].
  - rewrite zcmp_pos in L.
    assert (eval6 (AddNoCarry (fq_n f) QFieldModulus) = eval6 (fq_n f) + q) as E1.
    { rewrite AddNoCarry_eval by (apply Hf || apply QFieldModulus_wf). rewrite QFieldModulus_eval. apply Z.mod_small. lia. }
    assert (wf6 (AddNoCarry (fq_n f) QFieldModulus)) as W1 by (apply AddNoCarry_wf; [apply Hf|apply QFieldModulus_wf]).
    assert (eval6 (SubNoBorrow (AddNoCarry (fq_n f) QFieldModulus) (fq_n g)) = eval6 (fq_n f) + q - eval6 (fq_n g)) as E2.
    { rewrite SubNoBorrow_eval by (apply Hg || assumption). rewrite E1. apply Z.mod_small. lia. }
    split; [split; cbn [fq_n]; [apply SubNoBorrow_wf; [assumption|apply Hg]|lia]|].
    unfold fval; cbn [fq_n]. rewrite E2, <- Zminus_mod.
    replace ((eval6 (fq_n f) + q - eval6 (fq_n g)) * RQinv) with (eval6 (fq_n f) * RQinv - eval6 (fq_n g) * RQinv + RQinv * q) by ring.
    apply Z.mod_add, q_ne.
  - assert (eval6 (fq_n g) <= eval6 (fq_n f)) as L2 by (destruct (Z.le_gt_cases (eval6 (fq_n g)) (eval6 (fq_n f))) as [?|X]; [assumption|apply zcmp_pos in X; lia]).
    assert (eval6 (SubNoBorrow (fq_n f) (fq_n g)) = eval6 (fq_n f) - eval6 (fq_n g)) as E2.
    { rewrite SubNoBorrow_eval by (apply Hg || apply Hf). apply Z.mod_small. lia. }
    split; [split; cbn [fq_n]; [apply SubNoBorrow_wf; [apply Hf|apply Hg]|lia]|].
    unfold fval; cbn [fq_n]. rewrite E2, <- Zminus_mod. f_equal. ring.
Qed.

Lemma bigZero_wf : wf6 bigZero. Proof. apply wf6_0. Qed.
Lemma FQ_IsZero_spec f : canon f -> (FQ_IsZero f = true <-> fval f = 0).
Proof.
  intros Hf. unfold FQ_IsZero. rewrite FQRepr_Equals_eval by (apply Hf || apply bigZero_wf). change (eval6 bigZero) with 0.
  split; intros E.
  - unfold fval. rewrite E. reflexivity.
  - rewrite fval_eval by assumption. rewrite E. reflexivity.
Qed.

Lemma FQ_Equals_spec f g : canon f -> canon g -> (FQ_Equals f g = true <-> fval f = fval g).
Proof.
  intros Hf Hg. unfold FQ_Equals. rewrite FQRepr_Equals_iff. split.
  - intros E. unfold fval. rewrite E. reflexivity.
  - intros E. apply fval_inj in E; [congruence|assumption|assumption].
Qed.

Lemma FQ_NegAssign_spec f : canon f -> canon (FQ_NegAssign f) /\ fval (FQ_NegAssign f) = (- fval f) mod q.
Proof.
  intros Hf. pose proof (canon_bounds f Hf) as Bf. pose proof q_bounds as Qb.
  unfold FQ_NegAssign, FQRepr_SubNoBorrow. destruct (FQ_IsZero f) eqn:E; cbn [negb].
  - apply FQ_IsZero_spec in E; [|assumption]. split; [assumption|]. rewrite E. reflexivity.
  - assert (eval6 (fq_n f) <> 0) as NZ.
    { intros Z0. assert (FQ_IsZero f = true) as X; [|congruence]. apply FQ_IsZero_spec; [assumption|]. unfold fval. rewrite Z0. reflexivity. }
    assert (eval6 (SubNoBorrow QFieldModulus (fq_n f)) = q - eval6 (fq_n f)) as E2.
    { rewrite SubNoBorrow_eval by (apply Hf || apply QFieldModulus_wf). rewrite QFieldModulus_eval. apply Z.mod_small. lia. }
    split; [split; cbn [fq_n]; [apply SubNoBorrow_wf; [apply QFieldModulus_wf|apply Hf]|lia]|].
    unfold fval; cbn [fq_n]. rewrite E2. rewrite <- (Z.sub_0_l (_ mod q)), Zminus_mod_idemp_r.
    replace ((q - eval6 (fq_n f)) * RQinv) with (0 - eval6 (fq_n f) * RQinv + RQinv * q) by ring. apply Z.mod_add, q_ne.
Qed.
