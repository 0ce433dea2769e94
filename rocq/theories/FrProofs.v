(** Montgomery arithmetic of fr.go: every operation keeps values below r and computes modulo r. *)
Require Import String Ascii ZArith Lia Bool List Znumtheory.
From Verif Require Import Words ModelRepr ReprProofs ReprProofs2 ModelFq ModelFr NumTheory Primality FqProofs FqProofs2 InvZ.
Import ListNotations.
Open Scope Z_scope.

(** Montgomery radix. *)
Definition RR : Z := Eval vm_compute in 2 ^ 256.

Lemma RFieldModulus_wf : wf4 RFieldModulus.
Proof. apply wf4_intro; unfold isW; lia. Qed.
Lemma RFieldModulus_eval : eval4 RFieldModulus = r.
Proof. reflexivity. Qed.
Lemma r_bounds : 2 ^ 254 < r /\ 2 * r < 2 ^ 256.
Proof. unfold r; lia. Qed.
Lemma RR_eq : RR = W * W * W * W. Proof. reflexivity. Qed.
Lemma RR_pow : RR = 2 ^ 256. Proof. reflexivity. Qed.
Lemma montInvFR_ok : wlo (1 + montInvFR * v0 RFieldModulus) = 0.
Proof. reflexivity. Qed.

(** The eight words of a product, before the final conditional subtraction. *)
Lemma FR_montReduce_words l0 l1 l2 l3 h0 h1 h2 h3 : 
  isW l0 -> isW l1 -> isW l2 -> isW l3 -> isW h0 -> isW h1 -> isW h2 -> isW h3 ->
  eval4 (mkFRRepr h0 h1 h2 h3) * RR + eval4 (mkFRRepr l0 l1 l2 l3) < r * RR ->
  exists n, FR_montReduce l0 l1 l2 l3 h0 h1 h2 h3 = FR_reduceAssign (mkFR n) /\ wf4 n /\ eval4 n < 2 * r /\
  exists K, eval4 n * RR = eval4 (mkFRRepr h0 h1 h2 h3) * RR + eval4 (mkFRRepr l0 l1 l2 l3) + K * r.
Proof.
  intros Hl0 Hl1 Hl2 Hl3 Hh0 Hh1 Hh2 Hh3 HT. pose proof montInvFR_ok as Hinv. pose proof RFieldModulus_wf as Hqw. pose proof RFieldModulus_eval as Hqe.
  assert (0 < r) as Hq0 by reflexivity. assert (2 * r < RR) as HqR by reflexivity.
  rewrite RR_eq in *.
  revert HT Hqe Hq0 HqR. generalize r. intros q0 HT Hqe Hq0 HqR.
  set (P := fun x : FR => exists n, x = FR_reduceAssign (mkFR n) /\ wf4 n /\ eval4 n < 2 * q0 /\
    exists K, eval4 n * (W*W*W*W) = eval4 (mkFRRepr h0 h1 h2 h3) * (W*W*W*W) + eval4 (mkFRRepr l0 l1 l2 l3) + K * q0).
  change (P (FR_montReduce l0 l1 l2 l3 h0 h1 h2 h3)).
  unfold FR_montReduce.
  destruct RFieldModulus as [m0 m1 m2 m3]. cbn [v0] in Hinv. unwf.
  revert Hinv. generalize montInvFR. intros inv Hinv. cbv zeta.
  assert (isW 0) as HW0 by apply isW_0.
  do 4 (mont_step inv Hinv; do 5 mac_step).
  repeat match goal with
  | Hz : (forall o c, isW o -> o + W * c = ?x + ?kk * m0 + 0 -> o = 0), H : ?o + W * ?c = ?x + ?kk * m0 + 0 |- _ =>
     let Hzz := fresh "Hzero" in assert (Hzz : o = 0) by (apply (Hz o c); [assumption|exact H]); clear Hz
  end.
  match goal with |- P (FR_reduceAssign (mkFR ?x)) => set (res := x); exists res end. split; [reflexivity|].
  assert (wf4 res) as Hres by (apply wf4_intro; assumption).
  set (T := eval4 (mkFRRepr h0 h1 h2 h3) * (W*W*W*W) + eval4 (mkFRRepr l0 l1 l2 l3)) in *.
  set (K := eval4 (mkFRRepr kk kk0 kk1 kk2)).
  assert (0 <= T) as HT0.
  { pose proof (eval4_bound _ (wf4_intro h0 h1 h2 h3 ltac:(assumption) ltac:(assumption) ltac:(assumption) ltac:(assumption))).
    pose proof (eval4_bound _ (wf4_intro l0 l1 l2 l3 ltac:(assumption) ltac:(assumption) ltac:(assumption) ltac:(assumption))).
    unfold T. lia. }
  assert (0 <= K < W*W*W*W) as HK.
  { pose proof (eval4_bound _ (wf4_intro kk kk0 kk1 kk2 ltac:(assumption) ltac:(assumption) ltac:(assumption) ltac:(assumption))). match goal with H : 0 <= eval4 (mkFRRepr kk _ _ _) < _ |- _ => exact H end. }
  match goal with
  | _ := mkFRRepr _ _ _ ?top |- _ => match goal with H : top + W * ?kt = _ |- _ => set (ktop := kt) in * end
  end.
  assert (T + K * q0 = evalw [o; o3; o6; o8] + (W*W*W*W) * (eval4 res + (W*W*W*W) * ktop)) as HEQ.
  { rewrite <- Hqe. unfold T, K, res, ktop. uneval. clear P T K res Hres HT HT0 HK HqR Hq0 Hqe.
    repeat match goal with H : isW _ |- _ => clear H | H : _ <= _ |- _ => clear H | H : _ /\ _ |- _ => clear H | H : ?x = 0 |- _ => clear H end.
    unfold ktop in *. clear ktop. solve_macs. ring. }
  subst o o3 o6 o8. change (evalw [0; 0; 0; 0]) with 0 in HEQ.
  pose proof (eval4_bound _ Hres) as Hrb. change (2^256) with (W*W*W*W) in Hrb.
  assert (0 <= ktop) as Hk40 by (unfold ktop; lia).
  clearbody T K ktop. clear - Hres HT HT0 HqR Hq0 HK HEQ Hrb Hk40. clearbody res.
  assert (0 < W*W*W*W) as HR0 by reflexivity.
  revert HT HqR HK HEQ Hrb HR0. generalize (W*W*W*W) (eval4 res). intros R0 er HT HqR HK HEQ Hrb HR0.
  assert (R0 * (er + R0 * ktop) < R0 * (2 * q0)) as HL by (rewrite Z.add_0_l in HEQ; rewrite <- HEQ; nia).
  apply Z.mul_lt_mono_pos_l in HL; [|assumption].
  assert (ktop = 0) by nia. subst ktop. rewrite Z.mul_0_r, Z.add_0_r in *.
  split; [assumption|]. split; [lia|]. exists K. lia.
Qed.

(** ** Canonical field elements and the residue they represent *)

Definition rcanon (f : FR) : Prop := wf4 (fr_n f) /\ eval4 (fr_n f) < r.

(** Inverse of the radix modulo r. *)
Definition RRinv : Z := 12549076656233958353659347336803947287922716146853412054870763148006372261952.
Lemma RRinv_ok : (RR * RRinv) mod r = 1. Proof. vm_compute. reflexivity. Qed.

(** The residue represented by a Montgomery-form element. *)
Definition rval (f : FR) : Z := (eval4 (fr_n f) * RRinv) mod r.

Lemma r_pos : 0 < r. Proof. reflexivity. Qed.
Lemma r_gt_1 : 1 < r. Proof. reflexivity. Qed.
Lemma r_ne : r <> 0. Proof. discriminate. Qed.
#[global] Opaque r.

Lemma rval_bound f : 0 <= rval f < r.
Proof. apply Z.mod_pos_bound, r_pos. Qed.

Lemma rcanon_bounds f : rcanon f -> 0 <= eval4 (fr_n f) < r.
Proof. intros [H1 H2]. apply eval4_bound in H1. lia. Qed.

Lemma rmod_mul_l a b : (a mod r * b) mod r = (a * b) mod r.
Proof. apply Z.mul_mod_idemp_l, r_ne. Qed.
Lemma rmod_mul_r a b : (a * (b mod r)) mod r = (a * b) mod r.
Proof. apply Z.mul_mod_idemp_r, r_ne. Qed.

Lemma RR_cancel a : (a * RR * RRinv) mod r = a mod r.
Proof. rewrite <- Z.mul_assoc, <- rmod_mul_r, RRinv_ok, Z.mul_1_r. reflexivity. Qed.

(** eval = rval * R mod r *)
Lemma rval_eval f : rcanon f -> eval4 (fr_n f) = (rval f * RR) mod r.
Proof.
  intros H. apply rcanon_bounds in H. unfold rval. rewrite rmod_mul_l.
  replace (eval4 (fr_n f) * RRinv * RR) with (eval4 (fr_n f) * RR * RRinv) by ring. rewrite RR_cancel.
  symmetry. apply Z.mod_small. assumption.
Qed.

Lemma rval_inj f g : rcanon f -> rcanon g -> rval f = rval g -> f = g.
Proof.
  intros Hf Hg E. assert (eval4 (fr_n f) = eval4 (fr_n g)) as E2 by (rewrite (rval_eval f), (rval_eval g), E by assumption; reflexivity).
  destruct f as [nf], g as [ng]. f_equal. apply eval4_inj; [apply Hf|apply Hg|exact E2].
Qed.

Lemma FR_IsValid_spec f : wf4 (fr_n f) -> (FR_IsValid f = true <-> eval4 (fr_n f) < r).
Proof.
  intros H. unfold FR_IsValid. rewrite FRRepr_Cmp_eval, RFieldModulus_eval by (assumption || apply RFieldModulus_wf).
  rewrite Z.ltb_lt, zcmp_neg. reflexivity.
Qed.

Lemma FR_reduceAssign_spec n : wf4 n -> eval4 n < 2 * r ->
  rcanon (FR_reduceAssign (mkFR n)) /\ rval (FR_reduceAssign (mkFR n)) = (eval4 n * RRinv) mod r.
Proof.
  intros Hn Hb. unfold FR_reduceAssign. pose proof (eval4_bound n Hn) as B.
  destruct (FR_IsValid (mkFR n)) eqn:E; cbn [negb fr_n].
  - apply FR_IsValid_spec in E; [|assumption]. split; [split; assumption|reflexivity].
  - assert (r <= eval4 n) as Hq.
    { destruct (Z.lt_ge_cases (eval4 n) r) as [L|G]; [|assumption]. apply (FR_IsValid_spec (mkFR n) Hn) in L. congruence. }
    assert (eval4 (FRRepr_SubNoBorrow n RFieldModulus) = eval4 n - r) as Es.
    { rewrite FRRepr_SubNoBorrow_eval, RFieldModulus_eval by (assumption || apply RFieldModulus_wf). apply Z.mod_small. pose proof r_pos. lia. }
    split.
    + split; cbn [fr_n]; [apply FRRepr_SubNoBorrow_wf; [assumption|apply RFieldModulus_wf]|rewrite Es; lia].
    + unfold rval; cbn [fr_n]. rewrite Es. replace ((eval4 n - r) * RRinv) with (eval4 n * RRinv + (- RRinv) * r) by ring.
      apply Z.mod_add, r_ne.
Qed.

Lemma FR_montReduce_spec l0 l1 l2 l3 h0 h1 h2 h3 : 
  isW l0 -> isW l1 -> isW l2 -> isW l3 -> isW h0 -> isW h1 -> isW h2 -> isW h3 ->
  eval4 (mkFRRepr h0 h1 h2 h3) * RR + eval4 (mkFRRepr l0 l1 l2 l3) < r * RR ->
  rcanon (FR_montReduce l0 l1 l2 l3 h0 h1 h2 h3) /\ rval (FR_montReduce l0 l1 l2 l3 h0 h1 h2 h3) = ((eval4 (mkFRRepr h0 h1 h2 h3) * RR + eval4 (mkFRRepr l0 l1 l2 l3)) * RRinv * RRinv) mod r.
Proof.
  intros Hl0 Hl1 Hl2 Hl3 Hh0 Hh1 Hh2 Hh3 HT. destruct (FR_montReduce_words l0 l1 l2 l3 h0 h1 h2 h3) as (n & E0 & Hw & Hb & K & HK); try assumption.
  rewrite E0. destruct (FR_reduceAssign_spec _ Hw Hb) as [C E]. split; [exact C|]. rewrite E.
  rewrite <- (RR_cancel (_ * RRinv)).
  replace (eval4 n * RRinv * RR * RRinv) with (eval4 n * RR * RRinv * RRinv) by ring. rewrite HK.
  match goal with |- ((?a + K * r) * _ * _) mod r = _ => replace ((a + K * r) * RRinv * RRinv) with (a * RRinv * RRinv + (K * RRinv * RRinv) * r) by ring end.
  apply Z.mod_add, r_ne.
Qed.

Lemma r_lt_RR : r < RR. Proof. reflexivity. Qed.
#[global] Opaque RR RRinv.

Lemma rval_prod f g : ((eval4 (fr_n f) * eval4 (fr_n g)) * RRinv * RRinv) mod r = (rval f * rval g) mod r.
Proof. unfold rval. rewrite rmod_mul_l, rmod_mul_r. f_equal. ring. Qed.

(** The product words of MulAssign, before reduction. *)
Lemma FR_MulAssign_product f g : wf4 (fr_n f) -> wf4 (fr_n g) -> exists l0 l1 l2 l3 h0 h1 h2 h3, 
  FR_MulAssign f g = FR_montReduce l0 l1 l2 l3 h0 h1 h2 h3 /\ 
  (isW l0 /\ isW l1 /\ isW l2 /\ isW l3 /\ isW h0 /\ isW h1 /\ isW h2 /\ isW h3) /\
  eval4 (mkFRRepr h0 h1 h2 h3) * RR + eval4 (mkFRRepr l0 l1 l2 l3) = eval4 (fr_n f) * eval4 (fr_n g).
Proof.
  intros Hf Hg.
  set (P := fun x : FR => exists l0 l1 l2 l3 h0 h1 h2 h3, x = FR_montReduce l0 l1 l2 l3 h0 h1 h2 h3 /\ 
  (isW l0 /\ isW l1 /\ isW l2 /\ isW l3 /\ isW h0 /\ isW h1 /\ isW h2 /\ isW h3) /\
  eval4 (mkFRRepr h0 h1 h2 h3) * RR + eval4 (mkFRRepr l0 l1 l2 l3) = eval4 (fr_n f) * eval4 (fr_n g)).
  change (P (FR_MulAssign f g)).
  unfold FR_MulAssign. destruct f as [[a0 a1 a2 a3]], g as [[b0 b1 b2 b3]]. cbn [fr_n] in *. unwf. cbv zeta.
  assert (isW 0) as HW0 by apply isW_0.
  repeat mac_step.
  do 8 eexists. split; [reflexivity|]. split; [do 7 (split; [assumption|]); assumption|].
  rewrite RR_eq. uneval.
  repeat match goal with H : isW _ |- _ => clear H end. clear P. 
  repeat match goal with H : _ = _ |- _ => revert H end. generalize W. intros w. intros.
  repeat match goal with
  | H : ?o + w * ?k = ?rhs |- _ => is_var o; let E := fresh in assert (E : o = rhs - w * k) by (rewrite <- H; ring); clear H; subst o
  end. ring.
Qed.

(** Also correct when the first operand is any 256-bit word vector: used for FRReprToFR. *)
Lemma FR_MulAssign_raw f g : wf4 (fr_n f) -> rcanon g ->
  rcanon (FR_MulAssign f g) /\ rval (FR_MulAssign f g) = (rval f * rval g) mod r.
Proof.
  intros Hf Hg. destruct (FR_MulAssign_product f g Hf (proj1 Hg)) as (l0 & l1 & l2 & l3 & h0 & h1 & h2 & h3 & E0 & Hw & E).
  rewrite E0. pose proof (eval4_bound _ Hf) as Bf. rewrite <- RR_pow in Bf. apply rcanon_bounds in Hg.
  destruct (FR_montReduce_spec l0 l1 l2 l3 h0 h1 h2 h3) as [C V]; try tauto; [rewrite E; nia|].
  split; [exact C|]. rewrite V, E. apply rval_prod.
Qed.

Lemma FR_MulAssign_spec f g : rcanon f -> rcanon g ->
  rcanon (FR_MulAssign f g) /\ rval (FR_MulAssign f g) = (rval f * rval g) mod r.
Proof. intros Hf Hg. apply FR_MulAssign_raw; [apply Hf|assumption]. Qed.

Lemma FR_AddAssign_spec f g : rcanon f -> rcanon g ->
  rcanon (FR_AddAssign f g) /\ rval (FR_AddAssign f g) = (rval f + rval g) mod r.
Proof.
  intros Hf Hg. pose proof (rcanon_bounds f Hf) as Bf. pose proof (rcanon_bounds g Hg) as Bg. pose proof r_bounds as Qb.
  unfold FR_AddAssign.
  assert (eval4 (FRRepr_AddNoCarry (fr_n f) (fr_n g)) = eval4 (fr_n f) + eval4 (fr_n g)) as E.
  { rewrite FRRepr_AddNoCarry_eval by (apply Hf || apply Hg). apply Z.mod_small. lia. }
  destruct (FR_reduceAssign_spec (FRRepr_AddNoCarry (fr_n f) (fr_n g))) as [C V]; [apply FRRepr_AddNoCarry_wf; [apply Hf|apply Hg]|lia|].
  split; [exact C|]. rewrite V, E. unfold rval. rewrite <- Zplus_mod. f_equal. ring.
Qed.

Lemma FR_DoubleAssign_spec f : rcanon f -> rcanon (FR_DoubleAssign f) /\ rval (FR_DoubleAssign f) = (2 * rval f) mod r.
Proof.
  intros Hf. pose proof (rcanon_bounds f Hf) as Bf. pose proof r_bounds as Qb. unfold FR_DoubleAssign.
  destruct (FRRepr_Mul2_spec (fr_n f)) as [Hw E]; [apply Hf|]. rewrite Z.mod_small in E by lia.
  destruct (FR_reduceAssign_spec _ Hw) as [C V]; [lia|].
  split; [exact C|]. rewrite V, E. unfold rval. rewrite rmod_mul_r. f_equal. ring.
Qed.

Lemma FR_SubAssign_spec f g : rcanon f -> rcanon g ->
  rcanon (FR_SubAssign f g) /\ rval (FR_SubAssign f g) = (rval f - rval g) mod r.
Proof.
  intros Hf Hg. pose proof (rcanon_bounds f Hf) as Bf. pose proof (rcanon_bounds g Hg) as Bg. pose proof r_bounds as Qb.
  unfold FR_SubAssign. rewrite FRRepr_Cmp_eval by (apply Hf || apply Hg).
  destruct (Z.ltb_spec 0 (zcmp (eval4 (fr_n g)) (eval4 (fr_n f)))) as [L|L].
  - rewrite zcmp_pos in L.
    assert (eval4 (FRRepr_AddNoCarry (fr_n f) RFieldModulus) = eval4 (fr_n f) + r) as E1.
    { rewrite FRRepr_AddNoCarry_eval by (apply Hf || apply RFieldModulus_wf). rewrite RFieldModulus_eval. apply Z.mod_small. lia. }
    assert (wf4 (FRRepr_AddNoCarry (fr_n f) RFieldModulus)) as W1 by (apply FRRepr_AddNoCarry_wf; [apply Hf|apply RFieldModulus_wf]).
    assert (eval4 (FRRepr_SubNoBorrow (FRRepr_AddNoCarry (fr_n f) RFieldModulus) (fr_n g)) = eval4 (fr_n f) + r - eval4 (fr_n g)) as E2.
    { rewrite FRRepr_SubNoBorrow_eval by (apply Hg || assumption). rewrite E1. apply Z.mod_small. lia. }
    split; [split; cbn [fr_n]; [apply FRRepr_SubNoBorrow_wf; [assumption|apply Hg]|lia]|].
    unfold rval; cbn [fr_n]. rewrite E2, <- Zminus_mod.
    replace ((eval4 (fr_n f) + r - eval4 (fr_n g)) * RRinv) with (eval4 (fr_n f) * RRinv - eval4 (fr_n g) * RRinv + RRinv * r) by ring.
    apply Z.mod_add, r_ne.
  - assert (eval4 (fr_n g) <= eval4 (fr_n f)) as L2 by (destruct (Z.le_gt_cases (eval4 (fr_n g)) (eval4 (fr_n f))) as [?|X]; [assumption|apply zcmp_pos in X; lia]).
    assert (eval4 (FRRepr_SubNoBorrow (fr_n f) (fr_n g)) = eval4 (fr_n f) - eval4 (fr_n g)) as E2.
    { rewrite FRRepr_SubNoBorrow_eval by (apply Hg || apply Hf). apply Z.mod_small. lia. }
    split; [split; cbn [fr_n]; [apply FRRepr_SubNoBorrow_wf; [apply Hf|apply Hg]|lia]|].
    unfold rval; cbn [fr_n]. rewrite E2, <- Zminus_mod. f_equal. ring.
Qed.

Lemma frZero_wf : wf4 frZero. Proof. apply wf4_0. Qed.
Lemma FR_IsZero_spec f : rcanon f -> (FR_IsZero f = true <-> rval f = 0).
Proof.
  intros Hf. unfold FR_IsZero. rewrite FRRepr_Cmp_eval by (apply Hf || apply frZero_wf). change (eval4 frZero) with 0.
  rewrite Z.eqb_eq, zcmp_0. split; intros E.
  - unfold rval. rewrite E. reflexivity.
  - rewrite rval_eval by assumption. rewrite E. reflexivity.
Qed.

Lemma FR_Equals_spec f g : rcanon f -> rcanon g -> (FR_Equals f g = true <-> rval f = rval g).
Proof.
  intros Hf Hg. unfold FR_Equals. rewrite FRRepr_Equals_iff. split.
  - intros E. unfold rval. rewrite E. reflexivity.
  - intros E. apply rval_inj in E; [congruence|assumption|assumption].
Qed.

Lemma FR_NegAssign_spec f : rcanon f -> rcanon (FR_NegAssign f) /\ rval (FR_NegAssign f) = (- rval f) mod r.
Proof.
  intros Hf. pose proof (rcanon_bounds f Hf) as Bf. pose proof r_bounds as Qb.
  unfold FR_NegAssign. destruct (FR_IsZero f) eqn:E; cbn [negb].
  - apply FR_IsZero_spec in E; [|assumption]. split; [assumption|]. rewrite E. reflexivity.
  - assert (eval4 (fr_n f) <> 0) as NZ.
    { intros Z0. assert (FR_IsZero f = true) as X; [|congruence]. apply FR_IsZero_spec; [assumption|]. unfold rval. rewrite Z0. reflexivity. }
    assert (eval4 (FRRepr_SubNoBorrow RFieldModulus (fr_n f)) = r - eval4 (fr_n f)) as E2.
    { rewrite FRRepr_SubNoBorrow_eval by (apply Hf || apply RFieldModulus_wf). rewrite RFieldModulus_eval. apply Z.mod_small. lia. }
    split; [split; cbn [fr_n]; [apply FRRepr_SubNoBorrow_wf; [apply RFieldModulus_wf|apply Hf]|lia]|].
    unfold rval; cbn [fr_n]. rewrite E2. rewrite <- (Z.sub_0_l (_ mod r)), Zminus_mod_idemp_r.
    replace ((r - eval4 (fr_n f)) * RRinv) with (0 - eval4 (fr_n f) * RRinv + RRinv * r) by ring. apply Z.mod_add, r_ne.
Qed.

(** The eight product words of SquareAssign, before reduction. *)
Lemma FR_SquareAssign_product f : wf4 (fr_n f) -> exists l0 l1 l2 l3 h0 h1 h2 h3, 
  FR_SquareAssign f = FR_montReduce l0 l1 l2 l3 h0 h1 h2 h3 /\ 
  (isW l0 /\ isW l1 /\ isW l2 /\ isW l3 /\ isW h0 /\ isW h1 /\ isW h2 /\ isW h3) /\
  eval4 (mkFRRepr h0 h1 h2 h3) * RR + eval4 (mkFRRepr l0 l1 l2 l3) = eval4 (fr_n f) * eval4 (fr_n f).
Proof.
  intros Hf.
  set (P := fun x : FR => exists l0 l1 l2 l3 h0 h1 h2 h3, x = FR_montReduce l0 l1 l2 l3 h0 h1 h2 h3 /\ 
  (isW l0 /\ isW l1 /\ isW l2 /\ isW l3 /\ isW h0 /\ isW h1 /\ isW h2 /\ isW h3) /\
  eval4 (mkFRRepr h0 h1 h2 h3) * RR + eval4 (mkFRRepr l0 l1 l2 l3) = eval4 (fr_n f) * eval4 (fr_n f)).
  change (P (FR_SquareAssign f)).
  unfold FR_SquareAssign. destruct f as [[n0 n1 n2 n3]]. cbn [fr_n] in *. unwf. cbv zeta.
  assert (isW 0) as HW0 by apply isW_0.
  repeat first [dbl_step | mac_step].
  do 8 eexists. split; [reflexivity|]. split; [do 7 (split; [assumption|]); assumption|].
  match goal with |- eval4 (mkFRRepr _ _ _ ?top) * RR + _ = _ => match goal with H : top + W * ?kt = _ |- _ => set (ktop := kt) in * end end.
  match goal with |- eval4 ?a * RR + eval4 ?b = eval4 ?c * _ => 
    assert (eval4 a * RR + eval4 b + RR * RR * ktop = eval4 c * eval4 c) as HEQ;
    [|assert (0 <= eval4 a < 2 ^ 256) as Ba by (apply eval4_bound, wf4_intro; assumption);
      assert (0 <= eval4 b < 2 ^ 256) as Bb by (apply eval4_bound, wf4_intro; assumption);
      assert (0 <= eval4 c < 2 ^ 256) as Bc by (apply eval4_bound, wf4_intro; assumption);
      rewrite <- RR_pow in *; assert (0 <= ktop) as Hk25 by (unfold ktop; lia);
      clear - HEQ Ba Bb Bc Hk25; revert HEQ Ba Bb Bc; clearbody ktop; generalize RR (eval4 a) (eval4 b) (eval4 c); intros R0 xa xb xc HEQ Ba Bb Bc;
      assert (xc * xc < R0 * R0) by nia; assert (0 <= xa * R0) by nia;
      destruct (Z.eq_dec ktop 0) as [->|]; [lia|assert (R0 * R0 * 1 <= R0 * R0 * ktop) by (apply Z.mul_le_mono_nonneg_l; nia); lia]] end.
  rewrite RR_eq. uneval. unfold ktop in *. clear ktop.
  repeat match goal with H : isW _ |- _ => clear H | H : _ <= _ |- _ => clear H | H : _ /\ _ |- _ => clear H end. clear P.
  repeat match goal with H : _ = _ |- _ => revert H end. generalize W. intros w. intros.
  repeat match goal with
  | H : ?o + w * ?k = ?rhs |- _ => is_var o; let E := fresh in assert (E : o = rhs - w * k) by (rewrite <- H; ring); clear H; subst o
  end. ring.
Qed.

Lemma FR_SquareAssign_spec f : rcanon f -> rcanon (FR_SquareAssign f) /\ rval (FR_SquareAssign f) = (rval f * rval f) mod r.
Proof.
  intros Hf. destruct (FR_SquareAssign_product f (proj1 Hf)) as (l0 & l1 & l2 & l3 & h0 & h1 & h2 & h3 & E0 & Hw & E).
  rewrite E0. pose proof (rcanon_bounds f Hf). pose proof r_lt_RR.
  destruct (FR_montReduce_spec l0 l1 l2 l3 h0 h1 h2 h3) as [C V]; try tauto; [rewrite E; nia|].
  split; [exact C|]. rewrite V, E. apply rval_prod.
Qed.

(** Squaring equals multiplying by oneself, word for word. *)
Lemma FR_SquareAssign_Mul f : rcanon f -> FR_SquareAssign f = FR_MulAssign f f.
Proof.
  intros Hf. destruct (FR_SquareAssign_spec f Hf), (FR_MulAssign_spec f f Hf Hf). apply rval_inj; congruence.
Qed.

(** ** Conversions *)

Lemma FRR2_canon : rcanon (mkFR FRR2).
Proof. split; [apply wf4_intro; unfold isW; lia|reflexivity]. Qed.
Lemma FRR2_rval : rval (mkFR FRR2) = RR mod r.
Proof. vm_compute. reflexivity. Qed.
Lemma FRReprToFR_valid o : wf4 o -> eval4 o < r -> exists f, FRReprToFR o = Some f /\ rcanon f /\ rval f = eval4 o.
Proof.
  intros Ho Hq. unfold FRReprToFR.
  assert (FR_IsValid (mkFR o) = true) as -> by (apply FR_IsValid_spec; assumption).
  destruct (FR_MulAssign_raw (mkFR o) (mkFR FRR2) Ho FRR2_canon) as [C V]. eexists. split; [reflexivity|]. split; [exact C|].
  rewrite V, FRR2_rval. unfold rval; cbn [fr_n]. rewrite rmod_mul_l, rmod_mul_r.
  replace (eval4 o * RRinv * RR) with (eval4 o * RR * RRinv) by ring. rewrite RR_cancel. apply Z.mod_small.
  apply eval4_bound in Ho. lia.
Qed.
Lemma FRReprToFR_invalid o : wf4 o -> r <= eval4 o -> FRReprToFR o = None.
Proof.
  intros Ho Hq. unfold FRReprToFR. destruct (FR_IsValid (mkFR o)) eqn:E; [|reflexivity].
  apply FR_IsValid_spec in E; [cbn [fr_n] in E; lia|assumption].
Qed.

Lemma wf4_const x : 0 <= x < 2 ^ 256 -> wf4 (FRRepr_const x) /\ eval4 (FRRepr_const x) = x.
Proof.
  intros H. destruct (FRReprFromBigInt_ok x H) as (f & E & Hw & Ev). unfold FRRepr_const. rewrite E. auto.
Qed.
Lemma bigOneFR_canon : rcanon bigOneFR.
Proof. split; [apply wf4_intro; unfold isW; lia|reflexivity]. Qed.
Lemma bigOneFR_rval : rval bigOneFR = 1. Proof. vm_compute. reflexivity. Qed.
Lemma bigZeroFR_canon : rcanon bigZeroFR.
Proof. split; [apply wf4_intro; unfold isW; lia|reflexivity]. Qed.
Lemma bigZeroFR_rval : rval bigZeroFR = 0. Proof. reflexivity. Qed.

Lemma FR_ToRepr_spec f : wf4 (fr_n f) -> wf4 (FR_ToRepr f) /\ eval4 (FR_ToRepr f) = rval f.
Proof.
  intros Hf. unfold FR_ToRepr. pose proof (eval4_bound _ Hf) as B. rewrite <- RR_pow in B.
  assert (exists n0 n1 n2 n3, fr_n f = mkFRRepr n0 n1 n2 n3) as (n0 & n1 & n2 & n3 & E0) by (destruct (fr_n f); eauto).
  assert (isW n0 /\ isW n1 /\ isW n2 /\ isW n3) as Hw by (rewrite E0 in Hf; apply wf4_elim in Hf; exact Hf).
  destruct (FR_montReduce_spec n0 n1 n2 n3 0 0 0 0) as [C V]; try tauto; try apply isW_0.
  { rewrite <- E0. change (eval4 (mkFRRepr 0 0 0 0)) with 0. pose proof r_gt_1. nia. }
  rewrite E0. rewrite <- E0 in V.
  change (eval4 (mkFRRepr 0 0 0 0)) with 0 in V. rewrite Z.mul_0_l, Z.add_0_l in V.
  split; [apply C|]. rewrite (rval_eval _ C), V, rmod_mul_l.
  replace (eval4 (fr_n f) * RRinv * RRinv * RR) with (eval4 (fr_n f) * RRinv * RR * RRinv) by ring. apply RR_cancel.
Qed.

(** Round trips between integers below r and field elements. *)
Lemma FR_ToRepr_FRReprToFR o f : wf4 o -> FRReprToFR o = Some f -> FR_ToRepr f = o.
Proof.
  intros Ho E. destruct (Z.lt_ge_cases (eval4 o) r) as [L|L]; [|rewrite FRReprToFR_invalid in E by assumption; discriminate].
  destruct (FRReprToFR_valid o Ho L) as (g & E2 & C & V). assert (g = f) by congruence. subst g.
  destruct (FR_ToRepr_spec f) as [Hw E3]; [apply C|].
  apply eval4_inj; [assumption|assumption|congruence].
Qed.
Lemma FRReprToFR_FR_ToRepr f : rcanon f -> FRReprToFR (FR_ToRepr f) = Some f.
Proof.
  intros C. destruct (FR_ToRepr_spec f) as [Hw E]; [apply C|]. pose proof (rval_bound f).
  destruct (FRReprToFR_valid (FR_ToRepr f)) as (g & E2 & C2 & V); [assumption|lia|]. rewrite E2. f_equal. apply rval_inj; [assumption|assumption|congruence].
Qed.

(** ** Comparison *)
Lemma FR_Cmp_spec f g : rcanon f -> rcanon g -> FR_Cmp f g = zcmp (rval f) (rval g).
Proof.
  intros Hf Hg. unfold FR_Cmp. destruct (FR_ToRepr_spec f), (FR_ToRepr_spec g); try (apply Hf || apply Hg).
  rewrite FRRepr_Cmp_eval by assumption. congruence.
Qed.
Lemma FR_Parity_spec f : rcanon f -> (FR_Parity f = true <-> r < 2 * rval f).
Proof.
  intros Hf. unfold FR_Parity. destruct (FR_NegAssign_spec f Hf) as [C V]. rewrite FR_Cmp_spec, V by assumption.
  rewrite Z.ltb_lt, zcmp_pos. pose proof (rval_bound f). pose proof r_pos.
  destruct (Z.eq_dec (rval f) 0) as [->|NZ]; [change (-0) with 0; rewrite Z.mod_0_l by lia; lia|].
  rewrite Z.mod_opp_l_nz, Z.mod_small by (try rewrite Z.mod_small; lia). lia.
Qed.

(** ** Inverse *)
Lemma fr_one_wf : wf4 fr_one. Proof. apply wf4_intro; unfold isW; lia. Qed.
Lemma fr_one_eval : eval4 fr_one = 1. Proof. reflexivity. Qed.
Lemma r_odd : Z.odd r = true. Proof. reflexivity. Qed.

Lemma FR_inv_halve_ref fuel : forall u b, wf4 u -> rcanon b ->
  match FR_inv_halve fuel u b, zhalve r fuel (eval4 u) (eval4 (fr_n b)) with
  | Some (u', b'), Some (x, y) => wf4 u' /\ rcanon b' /\ eval4 u' = x /\ eval4 (fr_n b') = y
  | None, None => True
  | _, _ => False
  end.
Proof.
  induction fuel as [|k IH]; intros u b Hu Hb; cbn [FR_inv_halve zhalve];
    rewrite FRRepr_IsEven_eval; destruct (Z.even (eval4 u)) eqn:Ev; try (repeat split; try assumption; try reflexivity; apply Hb); try exact I.
  destruct (FRRepr_Div2_spec u Hu) as [W1 E1].
  rewrite FRRepr_IsEven_eval. pose proof (rcanon_bounds b Hb) as Bb. pose proof r_bounds as Qb.
  destruct (halve_b_spec r r_odd r_gt_1 (eval4 (fr_n b)) Bb) as [HB _].
  destruct (Z.even (eval4 (fr_n b))) eqn:Evb.
  - destruct (FRRepr_Div2_spec (fr_n b)) as [W2 E2]; [apply Hb|].
    specialize (IH (FRRepr_Div2 u) (mkFR (FRRepr_Div2 (fr_n b))) W1).
    cbn [fr_n] in IH. rewrite E1, E2 in IH. apply IH. split; cbn [fr_n]; [assumption|rewrite E2; lia].
  - assert (eval4 (FRRepr_AddNoCarry (fr_n b) RFieldModulus) = eval4 (fr_n b) + r) as E3.
    { rewrite FRRepr_AddNoCarry_eval by (apply Hb || apply RFieldModulus_wf). rewrite RFieldModulus_eval. apply Z.mod_small. lia. }
    assert (wf4 (FRRepr_AddNoCarry (fr_n b) RFieldModulus)) as W3 by (apply FRRepr_AddNoCarry_wf; [apply Hb|apply RFieldModulus_wf]).
    destruct (FRRepr_Div2_spec _ W3) as [W2 E2]. rewrite E3 in E2.
    specialize (IH (FRRepr_Div2 u) (mkFR (FRRepr_Div2 (FRRepr_AddNoCarry (fr_n b) RFieldModulus))) W1).
    cbn [fr_n] in IH. rewrite E1, E2 in IH. apply IH. split; cbn [fr_n]; [assumption|rewrite E2; lia].
Qed.

Lemma FR_SubAssign_eval f g : rcanon f -> rcanon g -> eval4 (fr_n (FR_SubAssign f g)) = zsubm r (eval4 (fr_n f)) (eval4 (fr_n g)).
Proof.
  intros Hf Hg. pose proof (rcanon_bounds f Hf) as Bf. pose proof (rcanon_bounds g Hg) as Bg. pose proof r_bounds as Qb.
  unfold FR_SubAssign, zsubm. rewrite FRRepr_Cmp_eval by (apply Hf || apply Hg).
  destruct (Z.ltb_spec (eval4 (fr_n f)) (eval4 (fr_n g))) as [L|L].
  - assert (0 < zcmp (eval4 (fr_n g)) (eval4 (fr_n f))) as Lp by (rewrite zcmp_pos; assumption).
    apply Z.ltb_lt in Lp. rewrite Lp. cbn [fr_n].
    rewrite FRRepr_SubNoBorrow_eval by (apply Hg || (apply FRRepr_AddNoCarry_wf; [apply Hf|apply RFieldModulus_wf])).
    rewrite FRRepr_AddNoCarry_eval by (apply Hf || apply RFieldModulus_wf). rewrite RFieldModulus_eval.
    rewrite (Z.mod_small (eval4 (fr_n f) + r)) by lia. apply Z.mod_small. lia.
  - destruct (Z.ltb_spec 0 (zcmp (eval4 (fr_n g)) (eval4 (fr_n f)))) as [X|X]; [rewrite zcmp_pos in X; lia|]. cbn [fr_n].
    rewrite FRRepr_SubNoBorrow_eval by (apply Hg || apply Hf). apply Z.mod_small. lia.
Qed.

Lemma rcmp_one_eqb u : wf4 u -> (FRRepr_Cmp u fr_one =? 0) = (eval4 u =? 1).
Proof.
  intros Hu. rewrite FRRepr_Cmp_eval, fr_one_eval by (assumption || apply fr_one_wf).
  destruct (Z.eqb_spec (eval4 u) 1) as [E|E]; [rewrite zcmp_eq by assumption; reflexivity|].
  destruct (Z.eqb_spec (zcmp (eval4 u) 1) 0) as [X|X]; [rewrite zcmp_0 in X; contradiction|reflexivity].
Qed.
Lemma rcmp_leb u v : wf4 u -> wf4 v -> (0 <=? FRRepr_Cmp u v) = (eval4 v <=? eval4 u).
Proof.
  intros Hu Hv. rewrite FRRepr_Cmp_eval by assumption.
  destruct (Z.leb_spec (eval4 v) (eval4 u)) as [E|E].
  - destruct (Z.leb_spec 0 (zcmp (eval4 u) (eval4 v))) as [X|X]; [reflexivity|]. rewrite zcmp_neg in X. lia.
  - rewrite zcmp_lt by assumption. reflexivity.
Qed.

Lemma FR_inv_loop_ref fuel0 fuel : forall u b v c, wf4 u -> rcanon b -> wf4 v -> rcanon c ->
  match FR_inv_loop fuel0 fuel u b v c, zinv_loop r fuel0 fuel (eval4 u) (eval4 (fr_n b)) (eval4 v) (eval4 (fr_n c)) with
  | Some (u', b', c'), Some (x, y, z) => wf4 u' /\ rcanon b' /\ rcanon c' /\ eval4 u' = x /\ eval4 (fr_n b') = y /\ eval4 (fr_n c') = z
  | None, None => True
  | _, _ => False
  end.
Proof.
  induction fuel as [|k IH]; intros u b v c Hu Hb Hv Hc; cbn [FR_inv_loop zinv_loop]; rewrite !rcmp_one_eqb by assumption;
    destruct (negb (eval4 u =? 1) && negb (eval4 v =? 1)) eqn:G; try (do 3 (split; [assumption|]); do 2 (split; [reflexivity|]); reflexivity); try exact I.
  pose proof (FR_inv_halve_ref fuel0 u b Hu Hb) as R1.
  destruct (FR_inv_halve fuel0 u b) as [[u1 b1]|], (zhalve r fuel0 (eval4 u) (eval4 (fr_n b))) as [[x1 y1]|]; try contradiction; [|exact I].
  destruct R1 as (Hu1 & Hb1 & <- & <-).
  pose proof (FR_inv_halve_ref fuel0 v c Hv Hc) as R2.
  destruct (FR_inv_halve fuel0 v c) as [[v1 c1]|], (zhalve r fuel0 (eval4 v) (eval4 (fr_n c))) as [[x2 y2]|]; try contradiction; [|exact I].
  destruct R2 as (Hv1 & Hc1 & <- & <-).
  rewrite rcmp_leb by assumption. pose proof (eval4_bound _ Hu1). pose proof (eval4_bound _ Hv1).
  destruct (Z.leb_spec (eval4 v1) (eval4 u1)) as [L|L].
  - assert (eval4 (FRRepr_SubNoBorrow u1 v1) = eval4 u1 - eval4 v1) as E.
    { rewrite FRRepr_SubNoBorrow_eval by assumption. apply Z.mod_small. lia. }
    specialize (IH (FRRepr_SubNoBorrow u1 v1) (FR_SubAssign b1 c1) v1 c1).
    rewrite E, FR_SubAssign_eval in IH by assumption. apply IH; try assumption.
    + apply FRRepr_SubNoBorrow_wf; assumption.
    + apply FR_SubAssign_spec; assumption.
  - assert (eval4 (FRRepr_SubNoBorrow v1 u1) = eval4 v1 - eval4 u1) as E.
    { rewrite FRRepr_SubNoBorrow_eval by assumption. apply Z.mod_small. lia. }
    specialize (IH u1 b1 (FRRepr_SubNoBorrow v1 u1) (FR_SubAssign c1 b1)).
    rewrite E, FR_SubAssign_eval in IH by assumption. apply IH; try assumption.
    + apply FRRepr_SubNoBorrow_wf; assumption.
    + apply FR_SubAssign_spec; assumption.
Qed.

Lemma gcd_r n : 0 < n < r -> Z.gcd n r = 1.
Proof.
  intros Hn. apply Zgcd_1_rel_prime, rel_prime_sym, prime_rel_prime; [exact prime_r|].
  intros D. apply Z.divide_pos_le in D; lia.
Qed.

Lemma rcanon_zero_eval f : rcanon f -> (FR_IsZero f = true <-> eval4 (fr_n f) = 0).
Proof.
  intros Hf. rewrite FR_IsZero_spec by assumption. split; intros E.
  - rewrite rval_eval, E by assumption. reflexivity.
  - unfold rval. rewrite E. reflexivity.
Qed.

(** From b*n = R^2 (Montgomery radix) to a statement on residues. *)
Lemma inv1_rval f b : rcanon f -> rcanon b -> inv1 r (eval4 (fr_n f)) (eval4 FRR2) 1 (eval4 (fr_n b)) ->
  (rval b * rval f) mod r = 1.
Proof.
  intros Hf Hb [_ [k Hk]].
  rewrite <- rval_prod.
  replace (eval4 (fr_n b) * eval4 (fr_n f)) with (k * r + 1 * eval4 FRR2) by lia.
  replace ((k * r + 1 * eval4 FRR2) * RRinv * RRinv) with (eval4 FRR2 * RRinv * RRinv + (k * RRinv * RRinv) * r) by ring.
  rewrite Z.mod_add by apply r_ne.
  assert ((eval4 FRR2 * RRinv) mod r = RR mod r) as E by exact FRR2_rval.
  rewrite <- rmod_mul_l, E, rmod_mul_l. apply RRinv_ok.
Qed.

Lemma r_lt_2_255 : r < 2 ^ Z.of_nat 255.
Proof. reflexivity. Qed.

Theorem FR_Inverse_fuel_spec f fuel : rcanon f -> FR_IsZero f = false -> (511 <= fuel)%nat ->
  exists g, FR_Inverse_fuel fuel f = Some (Some g) /\ rcanon g /\ (rval g * rval f) mod r = 1.
Proof.
  intros Hf Hz Hfuel. unfold FR_Inverse_fuel. rewrite Hz. cbv zeta.
  pose proof (FR_inv_loop_ref fuel fuel (fr_n f) (mkFR FRR2) RFieldModulus bigZeroFR (proj1 Hf) FRR2_canon RFieldModulus_wf bigZeroFR_canon) as R.
  cbn [fr_n] in R. change (eval4 (fr_n bigZeroFR)) with 0 in R. rewrite RFieldModulus_eval in R.
  pose proof (rcanon_bounds f Hf) as Bf.
  assert (eval4 (fr_n f) <> 0) as NZ by (intros E; apply (rcanon_zero_eval f Hf) in E; congruence).
  pose proof (rcanon_bounds _ FRR2_canon) as B2. cbn [fr_n] in B2.
  destruct (zinv_spec r r_odd r_gt_1 (eval4 (fr_n f)) (eval4 FRR2) 255 fuel r_lt_2_255 Hfuel) as (x & y & z & E & S); [lia|apply gcd_r; lia|exact B2|].
  rewrite E in R.
  destruct (FR_inv_loop fuel fuel (fr_n f) (mkFR FRR2) RFieldModulus bigZeroFR) as [[[u' b'] c']|]; [|contradiction].
  destruct R as (Hu' & Hb' & Hc' & <- & <- & <-).
  assert (FRRepr_Equals u' fr_one = true <-> eval4 u' = 1) as HE by (rewrite FRRepr_Equals_eval by (assumption || apply fr_one_wf); reflexivity).
  destruct S as [[S1 S2]|[S1 S2]].
  - rewrite (proj2 HE S1). exists b'. split; [reflexivity|]. split; [assumption|]. apply inv1_rval; assumption.
  - destruct (FRRepr_Equals u' fr_one) eqn:X; [destruct (S1 (proj1 HE eq_refl))|]. exists c'. split; [reflexivity|]. split; [assumption|]. apply inv1_rval; assumption.
Qed.

(** The budget of 600 in FR_Inverse is never the reason for its result on canonical input. *)
Theorem FR_Inverse_spec f : rcanon f ->
  (rval f = 0 -> FR_Inverse f = None) /\
  (rval f <> 0 -> exists g, FR_Inverse f = Some g /\ rcanon g /\ (rval g * rval f) mod r = 1).
Proof.
  intros Hf. split; intros E; unfold FR_Inverse.
  - unfold FR_Inverse_fuel. apply (FR_IsZero_spec f Hf) in E. rewrite E. reflexivity.
  - destruct (FR_Inverse_fuel_spec f 600 Hf) as (g & -> & Hg & E2).
    + destruct (FR_IsZero f) eqn:Z0; [apply (FR_IsZero_spec f Hf) in Z0; contradiction|reflexivity].
    + lia.
    + exists g. split; [reflexivity|]. split; assumption.
Qed.
