(** More of fq.go: squaring, conversions, exponentiation. *)
Require Import String Ascii ZArith Lia Bool List Znumtheory.
From Verif Require Import Words ModelRepr ReprProofs ReprProofs2 ModelFq NumTheory Primality FqProofs.
Import ListNotations.
Open Scope Z_scope.

(** ** SquareAssign *)

Lemma dbl_word x hy : isW x -> 0 <= hy <= 1 ->
  exists d hx, wor (wshl x 1) hy = d /\ wshr x 63 = hx /\ isW d /\ 0 <= hx <= 1 /\ d + W * hx = 2 * x + hy.
Proof.
  intros Hx Hy. exists (wor (wshl x 1) hy), (wshr x 63). split; [reflexivity|]. split; [reflexivity|].
  split; [apply isW_lor; [apply wlo_isW|unfold isW; lia]|].
  assert (0 <= wshr x 63 <= 1) as H1.
  { unfold isW in Hx. rewrite wshr_div by lia. split; [apply Z.div_pos; lia|]. assert (x / 2^63 < 2) by (apply Z.div_lt_upper_bound; lia). lia. }
  split; [exact H1|].
  pose proof (shl_or_shr x (hy * 2^63) 1 ltac:(lia) Hx) as E. change (64 - 1) with 63 in E.
  rewrite (wshr_div (hy * 2^63)), Z.div_mul in E by lia. rewrite wshr_div by lia. rewrite E; [lia|unfold isW; lia].
Qed.

Lemma dbl_word0 x : isW x -> exists d hx, wshl x 1 = d /\ wshr x 63 = hx /\ isW d /\ 0 <= hx <= 1 /\ d + W * hx = 2 * x + 0.
Proof.
  intros Hx. destruct (dbl_word x 0 Hx ltac:(lia)) as (d & hx & H). exists d, hx. rewrite wor_0_r in H. exact H.
Qed.

Ltac dbl_step :=
  match goal with
  | |- context [wor (wshl ?x 1) ?hy] =>
      match goal with Hb : 0 <= hy <= 1 |- _ =>
        let d := fresh "d" in let h := fresh "h" in let E1 := fresh "E" in let E2 := fresh "E" in let H := fresh "Hdbl" in
        destruct (dbl_word x hy ltac:(assumption) Hb) as (d & h & E1 & E2 & ? & ? & H); rewrite E1, E2; clear E1 E2
      end
  | |- context [wshl ?x 1] =>
      match goal with |- context [wor (wshl x 1) _] => fail 1 | _ => idtac end;
        let d := fresh "d" in let h := fresh "h" in let E1 := fresh "E" in let E2 := fresh "E" in let H := fresh "Hdbl" in
        destruct (dbl_word0 x ltac:(assumption)) as (d & h & E1 & E2 & ? & ? & H); rewrite E1, E2; clear E1 E2
  end.

(** The twelve product words of SquareAssign, before reduction. *)
Lemma FQ_SquareAssign_product f : wf6 (fq_n f) -> exists hi lo, FQ_SquareAssign f = FQ_montReduce hi lo /\ wf6 hi /\ wf6 lo /\
  eval6 hi * RQ + eval6 lo = eval6 (fq_n f) * eval6 (fq_n f).
Proof.
  intros Hf.
  set (P := fun r : FQ => exists hi lo, r = FQ_montReduce hi lo /\ wf6 hi /\ wf6 lo /\ eval6 hi * RQ + eval6 lo = eval6 (fq_n f) * eval6 (fq_n f)).
  change (P (FQ_SquareAssign f)).
  unfold FQ_SquareAssign. destruct f as [[n0 n1 n2 n3 n4 n5]]. cbn [fq_n] in *. unwf. cbv zeta.
  assert (isW 0) as HW0 by apply isW_0.
  repeat first [dbl_step | mac_step].
  eexists _, _. split; [reflexivity|].
  split; [apply wf6_intro; assumption|]. split; [apply wf6_intro; assumption|].
  match goal with |- eval6 ?a * RQ + eval6 ?b = eval6 ?c * _ => 
    assert (eval6 a * RQ + eval6 b + RQ * RQ * k25 = eval6 c * eval6 c) as HEQ;
    [|assert (0 <= eval6 a < 2 ^ 384) as Ba by (apply eval6_bound, wf6_intro; assumption);
      assert (0 <= eval6 b < 2 ^ 384) as Bb by (apply eval6_bound, wf6_intro; assumption);
      assert (0 <= eval6 c < 2 ^ 384) as Bc by (apply eval6_bound, wf6_intro; assumption);
      rewrite <- RQ_pow in *; assert (0 <= k25) as Hk25 by lia;
      clear - HEQ Ba Bb Bc Hk25; revert HEQ Ba Bb Bc; generalize RQ (eval6 a) (eval6 b) (eval6 c); intros RR xa xb xc HEQ Ba Bb Bc;
      assert (xc * xc < RR * RR) by nia; assert (0 <= xa * RR) by nia;
      destruct (Z.eq_dec k25 0) as [->|]; [lia|assert (RR * RR * 1 <= RR * RR * k25) by (apply Z.mul_le_mono_nonneg_l; nia); lia]] end.
  rewrite RQ_eq. uneval.
  repeat match goal with H : isW _ |- _ => clear H | H : _ <= _ |- _ => clear H | H : _ /\ _ |- _ => clear H end. clear P.
  repeat match goal with H : _ = _ |- _ => revert H end. generalize W. intros w. intros.
  repeat match goal with
  | H : ?o + w * ?k = ?rhs |- _ => is_var o; let E := fresh in assert (E : o = rhs - w * k) by (rewrite <- H; ring); clear H; subst o
  end. ring.
Qed.

Lemma FQ_SquareAssign_spec f : canon f -> canon (FQ_SquareAssign f) /\ fval (FQ_SquareAssign f) = (fval f * fval f) mod q.
Proof.
  intros Hf. destruct (FQ_SquareAssign_product f) as (hi & lo & -> & Hh & Hl & E); [apply Hf|].
  pose proof (canon_bounds f Hf). pose proof q_lt_RQ.
  destruct (FQ_montReduce_spec hi lo Hh Hl) as [C V]; [rewrite E; nia|].
  split; [exact C|]. rewrite V, E. apply fval_prod.
Qed.

(** Squaring equals multiplying by oneself, word for word. *)
Lemma FQ_SquareAssign_Mul f : canon f -> FQ_SquareAssign f = FQ_MulAssign f f.
Proof.
  intros Hf. destruct (FQ_SquareAssign_spec f Hf), (FQ_MulAssign_spec f f Hf Hf). apply fval_inj; congruence.
Qed.

(** ** Conversions *)

Lemma FQR2_canon : canon (mkFQ FQR2).
Proof. split; [apply wf6_intro; unfold isW; lia|reflexivity]. Qed.
Lemma FQR2_fval : fval (mkFQ FQR2) = RQ mod q.
Proof. vm_compute. reflexivity. Qed.
Lemma FQ_empty_canon : canon FQ_empty.
Proof. split; [apply wf6_0|reflexivity]. Qed.
Lemma FQ_empty_fval : fval FQ_empty = 0. Proof. reflexivity. Qed.
Lemma FQZero_canon : canon FQZero. Proof. apply FQ_empty_canon. Qed.
Lemma FQZero_fval : fval FQZero = 0. Proof. reflexivity. Qed.

Lemma FQReprToFQ_valid o : wf6 o -> eval6 o < q -> canon (FQReprToFQ o) /\ fval (FQReprToFQ o) = eval6 o.
Proof.
  intros Ho Hq. unfold FQReprToFQ.
  assert (FQ_IsValid (mkFQ o) = true) as -> by (apply FQ_IsValid_spec; assumption).
  destruct (FQ_MulAssign_raw (mkFQ o) (mkFQ FQR2) Ho FQR2_canon) as [C V]. split; [exact C|].
  rewrite V, FQR2_fval. unfold fval; cbn [fq_n]. rewrite mod_mul_l, mod_mul_r.
  replace (eval6 o * RQinv * RQ) with (eval6 o * RQ * RQinv) by ring. rewrite RQ_cancel. apply Z.mod_small.
  apply eval6_bound in Ho. lia.
Qed.
Lemma FQReprToFQ_invalid o : wf6 o -> q <= eval6 o -> FQReprToFQ o = FQ_empty.
Proof.
  intros Ho Hq. unfold FQReprToFQ. destruct (FQ_IsValid (mkFQ o)) eqn:E; [|reflexivity].
  apply FQ_IsValid_spec in E; [cbn [fq_n] in E; lia|assumption].
Qed.
Lemma FQReprToFQ_canon o : wf6 o -> canon (FQReprToFQ o).
Proof.
  intros Ho. destruct (Z.lt_ge_cases (eval6 o) q); [apply FQReprToFQ_valid; assumption|].
  rewrite FQReprToFQ_invalid by assumption. apply FQ_empty_canon.
Qed.

Lemma wf6_const x : 0 <= x < 2 ^ 384 -> wf6 (FQRepr_const x) /\ eval6 (FQRepr_const x) = x.
Proof. intros H. exact (FQRepr_const_spec x H). Qed.

Lemma FQOne_canon : canon FQOne.
Proof. split; [apply wf6_intro; unfold isW; lia|reflexivity]. Qed.
Lemma FQOne_fval : fval FQOne = 1. Proof. vm_compute. reflexivity. Qed.
Lemma negativeOneFQ_canon : canon negativeOneFQ.
Proof. split; [apply wf6_intro; unfold isW; lia|reflexivity]. Qed.
Lemma negativeOneFQ_fval : fval negativeOneFQ = q - 1. Proof. vm_compute. reflexivity. Qed.

Lemma FQ_ToRepr_spec f : wf6 (fq_n f) -> wf6 (FQ_ToRepr f) /\ eval6 (FQ_ToRepr f) = fval f.
Proof.
  intros Hf. unfold FQ_ToRepr. pose proof (eval6_bound _ Hf) as B. rewrite <- RQ_pow in B.
  destruct (FQ_montReduce_spec (mkFQRepr 0 0 0 0 0 0) (fq_n f) wf6_0 Hf) as [C V].
  { change (eval6 (mkFQRepr 0 0 0 0 0 0)) with 0. pose proof q_gt_1. nia. }
  change (eval6 (mkFQRepr 0 0 0 0 0 0)) with 0 in V. rewrite Z.mul_0_l, Z.add_0_l in V.
  split; [apply C|]. rewrite (fval_eval _ C), V, mod_mul_l.
  replace (eval6 (fq_n f) * RQinv * RQinv * RQ) with (eval6 (fq_n f) * RQinv * RQ * RQinv) by ring. apply RQ_cancel.
Qed.

(** Round trips between integers below q and field elements. *)
Lemma FQ_ToRepr_FQReprToFQ o : wf6 o -> eval6 o < q -> FQ_ToRepr (FQReprToFQ o) = o.
Proof.
  intros Ho Hq. destruct (FQReprToFQ_valid o Ho Hq) as [C V]. destruct (FQ_ToRepr_spec (FQReprToFQ o)) as [Hw E]; [apply C|].
  apply eval6_inj; [assumption|assumption|congruence].
Qed.
Lemma FQReprToFQ_FQ_ToRepr f : canon f -> FQReprToFQ (FQ_ToRepr f) = f.
Proof.
  intros C. destruct (FQ_ToRepr_spec f) as [Hw E]; [apply C|]. pose proof (fval_bound f).
  destruct (FQReprToFQ_valid (FQ_ToRepr f)) as [C2 V]; [assumption|lia|]. apply fval_inj; [assumption|assumption|congruence].
Qed.

(** ** Comparison *)
Lemma FQ_Cmp_spec f g : canon f -> canon g -> FQ_Cmp f g = zcmp (fval f) (fval g).
Proof.
  intros Hf Hg. unfold FQ_Cmp. destruct (FQ_ToRepr_spec f), (FQ_ToRepr_spec g); try (apply Hf || apply Hg).
  rewrite FQRepr_Cmp_eval by assumption. congruence.
Qed.
Lemma FQ_Parity_spec f : canon f -> (FQ_Parity f = true <-> q < 2 * fval f).
Proof.
  intros Hf. unfold FQ_Parity. destruct (FQ_NegAssign_spec f Hf) as [C V]. rewrite FQ_Cmp_spec, V by assumption.
  rewrite Z.ltb_lt, zcmp_pos. pose proof (fval_bound f). pose proof q_pos.
  destruct (Z.eq_dec (fval f) 0) as [->|NZ]; [change (-0) with 0; rewrite Z.mod_0_l by lia; lia|].
  rewrite Z.mod_opp_l_nz, Z.mod_small by (try rewrite Z.mod_small; lia). lia.
Qed.
