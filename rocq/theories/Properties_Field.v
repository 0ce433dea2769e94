(** Properties C08-C18 and C54: the prime fields FQ (mod q) and FR (mod r).
    [canon f]: the limbs of f are words and their integer is below q ([rcanon]: below r).
    [fval f]/[rval f]: the residue f stands for, i.e. the number whose Montgomery form f holds
    (characterised independently by [fval_is_montgomery]). *)
Require Import ZArith Lia Bool List.
From Verif Require Import Words ModelRepr ReprProofs ReprProofs2 ModelFq ModelFr NumTheory Primality FqProofs FqProofs2 FqInverse FqRel FrProofs FrProofs2 FqMisc ModelFrHeap FrHeapProofs.
Import ListNotations.
Open Scope Z_scope.

(** What "the residue of f" means, without reference to the constant used to define it. *)
Theorem fval_is_montgomery f v : canon f -> 0 <= v < q -> (fval f = v <-> eval6 (fq_n f) = (v * 2^384) mod q).
Proof.
  intros C Hv. rewrite <- RQ_pow. split; intros E.
  - subst v. apply fval_eval, C.
  - unfold fval. rewrite E, mod_mul_l, RQ_cancel. apply Z.mod_small, Hv.
Qed.
Theorem rval_is_montgomery f v : rcanon f -> 0 <= v < r -> (rval f = v <-> eval4 (fr_n f) = (v * 2^256) mod r).
Proof.
  intros C Hv. rewrite <- RR_pow. split; intros E.
  - subst v. apply rval_eval, C.
  - unfold rval. rewrite E, rmod_mul_l, RR_cancel. apply Z.mod_small, Hv.
Qed.

Theorem C08_reachable_canonical f : reachFQ f -> wf6 (fq_n f) /\ eval6 (fq_n f) < q.
Proof. exact (reachFQ_canon f). Qed.
Theorem C08_reachable_equality f g : reachFQ f -> reachFQ g -> (FQ_Equals f g = true <-> fval f = fval g) /\ (FQ_Equals f g = true <-> f = g).
Proof.
  intros Hf Hg. apply reachFQ_canon in Hf, Hg. pose proof (FQ_Equals_spec f g Hf Hg) as E. split; [exact E|].
  rewrite E. split; intros X; [apply fval_inj; assumption|subst; reflexivity].
Qed.
Example C08_nonvacuous : let f := FQ_MulAssign (FQReprToFQ (NewFQRepr 6)) (fst (FQ_Inverse (FQReprToFQ (NewFQRepr 3)))) in reachFQ f /\ fval f = 2.
Proof. cbv zeta. split; [apply rqMul; [apply rqFrom|apply rqInverse, rqFrom]; apply wf6_intro; unfold isW; lia|vm_compute; reflexivity]. Qed.
Print Assumptions C08_reachable_equality.

Theorem C09_FQ_arithmetic f g : canon f -> canon g ->
  (canon (FQ_AddAssign f g) /\ fval (FQ_AddAssign f g) = (fval f + fval g) mod q) /\
  (canon (FQ_SubAssign f g) /\ fval (FQ_SubAssign f g) = (fval f - fval g) mod q) /\
  (canon (FQ_MulAssign f g) /\ fval (FQ_MulAssign f g) = (fval f * fval g) mod q) /\
  (canon (FQ_SquareAssign f) /\ fval (FQ_SquareAssign f) = (fval f * fval f) mod q) /\
  (canon (FQ_DoubleAssign f) /\ fval (FQ_DoubleAssign f) = (2 * fval f) mod q) /\
  (canon (FQ_NegAssign f) /\ fval (FQ_NegAssign f) = (- fval f) mod q).
Proof.
  intros Hf Hg. exact (conj (FQ_AddAssign_spec f g Hf Hg) (conj (FQ_SubAssign_spec f g Hf Hg) (conj (FQ_MulAssign_spec f g Hf Hg)
    (conj (FQ_SquareAssign_spec f Hf) (conj (FQ_DoubleAssign_spec f Hf) (FQ_NegAssign_spec f Hf)))))).
Qed.
Theorem C09_FQ_conversions n : wf6 n ->
  (eval6 n < q -> canon (FQReprToFQ n) /\ fval (FQReprToFQ n) = eval6 n /\ FQ_ToRepr (FQReprToFQ n) = n) /\
  (q <= eval6 n -> fval (FQReprToFQ n) = 0 /\ FQReprToFQ n = FQZero) /\
  (forall f, canon f -> eval6 (FQ_ToRepr f) = fval f /\ FQReprToFQ (FQ_ToRepr f) = f).
Proof.
  intros H. split; [|split].
  - intros B. destruct (FQReprToFQ_valid n H B). split; [assumption|]. split; [assumption|]. apply FQ_ToRepr_FQReprToFQ; assumption.
  - intros B. rewrite (FQReprToFQ_invalid n H B). split; reflexivity.
  - intros f C. split; [apply FQ_ToRepr_spec, C|apply FQReprToFQ_FQ_ToRepr, C].
Qed.
Example C09_nonvacuous : let f := FQReprToFQ (FQRepr_const (q - 1)) in canon f /\ fval f = q - 1 /\ fval (FQ_MulAssign f f) = 1 /\ fval (FQ_AddAssign f f) = q - 2.
Proof. cbv zeta. split; [apply FQReprToFQ_canon, FQRepr_const_spec; split; [vm_compute; discriminate|reflexivity]|]. split; [|split]; vm_compute; reflexivity. Qed.
Print Assumptions C09_FQ_arithmetic.
Print Assumptions C09_FQ_conversions.

(** FQ_Inverse_fuel k is the Go loop cut off after k rounds (None: still running).  763 rounds always suffice. *)
Theorem C10_FQ_Inverse f : canon f ->
  (fval f = 0 -> forall fuel, FQ_Inverse_fuel fuel f = Some (FQZero, false)) /\
  (fval f <> 0 -> exists g, canon g /\ (fval g * fval f) mod q = 1 /\ forall fuel, (763 <= fuel)%nat -> FQ_Inverse_fuel fuel f = Some (g, true)).
Proof.
  intros C. split; intros E.
  - intros fuel. exact (FQ_Inverse_zero_fuel f fuel C E).
  - assert (FQ_IsZero f = false) as Z0 by (destruct (FQ_IsZero f) eqn:X; [apply (FQ_IsZero_spec f C) in X; contradiction|reflexivity]).
    destruct (FQ_Inverse_fuel_spec f 763 C Z0 (Nat.le_refl _)) as (g & _ & Cg & Eg). exists g. split; [exact Cg|]. split; [exact Eg|].
    intros fuel Hf. destruct (FQ_Inverse_fuel_spec f fuel C Z0 Hf) as (g' & -> & Cg' & Eg').
    do 2 f_equal. apply fval_inj; try assumption.
    rewrite <- (Z.mod_small (fval g') q), <- (Z.mod_small (fval g) q) by apply fval_bound.
    rewrite <- (Z.mul_1_r (fval g')), <- (Z.mul_1_r (fval g)). rewrite <- (mod_mul_r (fval g')), <- (mod_mul_r (fval g)).
    assert (1 mod q = 1) as -> by reflexivity. rewrite <- Eg at 1. rewrite <- Eg' at 1. rewrite !mod_mul_r. f_equal. ring.
Qed.
Theorem C10_FQ_DivAssign f g : canon f -> canon g -> fval g <> 0 -> canon (FQ_DivAssign f g) /\ (fval (FQ_DivAssign f g) * fval g) mod q = fval f.
Proof. exact (FQ_DivAssign_spec f g). Qed.
Example C10_nonvacuous : exists g, FQ_Inverse_fuel 763 (FQReprToFQ (NewFQRepr 2)) = Some (g, true) /\ fval g = (q + 1) / 2.
Proof. eexists. split; [vm_compute; reflexivity|vm_compute; reflexivity]. Qed.
Print Assumptions C10_FQ_Inverse.

(** Intended: for every wf6 n, Inverse of FQReprToFQRaw(n) returns.  False: on n = q the loop never ends. *)
Theorem C11_Inverse_raw_refuted : exists n, wf6 n /\ forall fuel, FQ_Inverse_fuel fuel (FQReprToFQRaw n) = None.
Proof. exists QFieldModulus. exact (conj QFieldModulus_wf FQ_Inverse_raw_q). Qed.
Print Assumptions C11_Inverse_raw_refuted.

Theorem C12_FQ_Exp f n : canon f -> wf6 n -> canon (FQ_Exp f n) /\ fval (FQ_Exp f n) = fval f ^ eval6 n mod q.
Proof. exact (FQ_Exp_spec f n). Qed.
Theorem C12_FR_Exp f n : rcanon f -> wf4 n -> rcanon (FR_Exp f n) /\ rval (FR_Exp f n) = rval f ^ eval4 n mod r.
Proof. exact (FR_Exp_spec f n). Qed.
Example C12_nonvacuous : fval (FQ_Exp (FQReprToFQ (NewFQRepr 3)) (NewFQRepr 5)) = 243.
Proof. vm_compute. reflexivity. Qed.
Print Assumptions C12_FQ_Exp.
Print Assumptions C12_FR_Exp.

Theorem C13_FQ_Sqrt f : canon f ->
  ((exists s, (s * s) mod q = fval f) -> exists s, FQ_Sqrt f = (s, true) /\ canon s /\ (fval s * fval s) mod q = fval f) /\
  (~ (exists s, (s * s) mod q = fval f) -> exists s, FQ_Sqrt f = (s, false)).
Proof.
  intros C. destruct (FQ_Sqrt_spec f C) as [A B]. unfold square_mod in *. rewrite (Z.mod_small (fval f)) in * by apply fval_bound. exact (conj A B).
Qed.
Example C13_nonvacuous : (exists s, (s * s) mod q = 4) /\ ~ (exists s, (s * s) mod q = q - 1).
Proof.
  split; [exists 2; reflexivity|].
  exact neg1_nonsquare_mod.
Qed.
Print Assumptions C13_FQ_Sqrt.

Theorem C14_FQ_Legendre f : canon f ->
  (fval f = 0 -> FQ_Legendre f = LegendreZero) /\
  (fval f <> 0 -> square_mod q (fval f) -> FQ_Legendre f = LegendreQuadraticResidue) /\
  (~ square_mod q (fval f) -> FQ_Legendre f = LegendreQuadraticNonResidue).
Proof. exact (FQ_Legendre_spec f). Qed.
Theorem C14_FR_Legendre f : rcanon f ->
  (rval f = 0 -> FR_Legendre f = LegendreZero) /\
  (rval f <> 0 -> square_mod r (rval f) -> FR_Legendre f = LegendreQuadraticResidue) /\
  (~ square_mod r (rval f) -> FR_Legendre f = LegendreQuadraticNonResidue).
Proof. exact (FR_Legendre_spec' f). Qed.
Example C14_nonvacuous : (canon (FQReprToFQ (NewFQRepr 4)) /\ fval (FQReprToFQ (NewFQRepr 4)) = 4 /\ square_mod q 4) /\
  (canon (FQReprToFQ (FQRepr_const (q - 1))) /\ fval (FQReprToFQ (FQRepr_const (q - 1))) = q - 1 /\ ~ square_mod q (q - 1)).
Proof.
  split.
  - destruct (FQReprToFQ_valid (NewFQRepr 4)) as [C V]; [unfold wf6, FQRepr_slice, NewFQRepr; cbn; repeat (apply Forall_cons || apply Forall_nil); unfold isW; lia|reflexivity|]. split; [exact C|]. split; [exact V|]. exists 2. reflexivity.
  - destruct (FQRepr_const_spec (q - 1) ltac:(split; [discriminate|reflexivity])) as [H1 H2]. destruct (FQReprToFQ_valid (FQRepr_const (q - 1)) H1 ltac:(rewrite H2; reflexivity)) as [C V]. split; [exact C|]. split; [rewrite V; exact H2|exact neg1_nonsquare_mod].
Qed.
Print Assumptions C14_FQ_Legendre.
Print Assumptions C14_FR_Legendre.

Theorem C15_FQ_order f g : canon f -> canon g ->
  ((FQ_Cmp f g = 0 <-> fval f = fval g) /\ (0 < FQ_Cmp f g <-> fval g < fval f) /\ (FQ_Cmp f g < 0 <-> fval f < fval g)) /\
  (FQ_Equals f g = true <-> f = g) /\
  (FQ_Parity f = true <-> (- fval f) mod q < fval f) /\
  (fval f <> 0 -> FQ_Parity (FQ_NegAssign f) = negb (FQ_Parity f)).
Proof.
  intros Cf Cg. split; [|split; [|split]].
  - rewrite FQ_Cmp_spec by assumption. split; [apply zcmp_0|]. split; [apply zcmp_pos|apply zcmp_neg].
  - rewrite (FQ_Equals_spec f g Cf Cg). split; intros X; [apply fval_inj; assumption|subst; reflexivity].
  - rewrite (FQ_Parity_spec f Cf). pose proof (fval_bound f) as B. destruct (Z.eq_dec (fval f) 0) as [E|E].
    + rewrite E. pose proof q_pos. change ((- 0) mod q) with 0. lia.
    + rewrite Z.mod_opp_l_nz, Z.mod_small by (try rewrite Z.mod_small; lia). lia.
  - apply FQ_Parity_neg. exact Cf.
Qed.
Example C15_nonvacuous : FQ_Parity (FQReprToFQ (NewFQRepr 1)) = false /\ FQ_Parity (FQ_NegAssign (FQReprToFQ (NewFQRepr 1))) = true.
Proof. split; vm_compute; reflexivity. Qed.
Print Assumptions C15_FQ_order.

Theorem C16_FR_arithmetic f g : rcanon f -> rcanon g ->
  (rcanon (FR_AddAssign f g) /\ rval (FR_AddAssign f g) = (rval f + rval g) mod r) /\
  (rcanon (FR_SubAssign f g) /\ rval (FR_SubAssign f g) = (rval f - rval g) mod r) /\
  (rcanon (FR_MulAssign f g) /\ rval (FR_MulAssign f g) = (rval f * rval g) mod r) /\
  (rcanon (FR_SquareAssign f) /\ rval (FR_SquareAssign f) = (rval f * rval f) mod r) /\
  (rcanon (FR_DoubleAssign f) /\ rval (FR_DoubleAssign f) = (2 * rval f) mod r) /\
  (rcanon (FR_NegAssign f) /\ rval (FR_NegAssign f) = (- rval f) mod r) /\
  (rval f = 0 -> forall fuel, FR_Inverse_fuel fuel f = Some None) /\
  (rval f <> 0 -> forall fuel, (511 <= fuel)%nat -> exists i, FR_Inverse_fuel fuel f = Some (Some i) /\ rcanon i /\ (rval i * rval f) mod r = 1).
Proof.
  intros Hf Hg. repeat match goal with |- (_ /\ _) /\ _ => split end;
  [exact (FR_AddAssign_spec f g Hf Hg)|exact (FR_SubAssign_spec f g Hf Hg)|exact (FR_MulAssign_spec f g Hf Hg)
  |exact (FR_SquareAssign_spec f Hf)|exact (FR_DoubleAssign_spec f Hf)|exact (FR_NegAssign_spec f Hf)|].
  split; intros E fuel.
  - unfold FR_Inverse_fuel. apply (FR_IsZero_spec f Hf) in E. rewrite E. reflexivity.
  - intros Hk. apply FR_Inverse_fuel_spec; try assumption.
    destruct (FR_IsZero f) eqn:Z0; [apply (FR_IsZero_spec f Hf) in Z0; contradiction|reflexivity].
Qed.
Theorem C16_FR_conversions n : wf4 n ->
  (eval4 n < r -> exists f, FRReprToFR n = Some f /\ rcanon f /\ rval f = eval4 n /\ FR_ToRepr f = n) /\
  (r <= eval4 n -> FRReprToFR n = None).
Proof.
  intros H. split.
  - intros B. destruct (FRReprToFR_valid n H B) as (f & E & C & V). exists f. split; [exact E|]. split; [exact C|]. split; [exact V|].
    apply (FR_ToRepr_FRReprToFR n f H E).
  - apply FRReprToFR_invalid, H.
Qed.
Example C16_nonvacuous : exists f, FRReprToFR (FRRepr_const (r - 1)) = Some f /\ rval (FR_MulAssign f f) = 1.
Proof. eexists. split; [vm_compute; reflexivity|vm_compute; reflexivity]. Qed.
Print Assumptions C16_FR_arithmetic.
Print Assumptions C16_FR_conversions.

(** C17, pointer-level model (ModelFrHeap): intended for every history; false as soon as Sqrt is called. *)
Theorem C17_globals_refuted : exists cs, calls_ok heap0 cs /\ globals (run heap0 cs) <> globals heap0 /\
  be_value (exp_zero_of heap0) = 1 /\ be_value (exp_zero_of (run heap0 cs)) <> 1.
Proof. exists sqrt_history. exact (conj sqrt_history_ok (conj sqrt_history_globals (conj exp_zero_before exp_zero_after))). Qed.
Theorem C17_globals_without_Sqrt_partial cs : calls_ok heap0 cs -> forallb (fun c => negb (is_sqrt c)) cs = true ->
  globals (run heap0 cs) = globals heap0.
Proof. intros H1 H2. exact (run_globals cs heap0 heap0_inv H1 H2). Qed.
Example C17_nonvacuous : let cs := [CNew (NewFRRepr 5); CFRReprToFR 5; CToRepr 2; CCopy 2; CDouble 3; CNeg 3] in
  calls_ok heap0 cs /\ forallb (fun c => negb (is_sqrt c)) cs = true.
Proof. split; [|reflexivity]. vm_compute. repeat (apply conj); lia || exact I. Qed.
Print Assumptions C17_globals_refuted.
Print Assumptions C17_globals_without_Sqrt_partial.

(** C18: after New(5) at address 5 and one conversion, address 5 no longer holds 5; after a second conversion
    both scalars (which share the object) are wrong. *)
Theorem C18_FRReprToFR_refuted : exists n : FRRepr, wf4 n /\ eval4 n < r /\
  (let h := run heap0 [CNew n; CFRReprToFR 5] in rval (rd h 2) = eval4 n /\ reprs h 5 <> n) /\
  (let h := run heap0 [CNew n; CFRReprToFR 5; CFRReprToFR 5] in rval (rd h 2) <> eval4 n /\ rval (rd h 3) <> eval4 n).
Proof.
  exists (NewFRRepr 5). split; [apply wf4_intro; unfold isW; lia|]. split; [reflexivity|]. split; [exact convert_once_value|exact convert_twice_values].
Qed.
Theorem C18_FRReprToFR_overwrites h o f : reprs h aRFieldModulus = RFieldModulus -> reprs h aFRR2 = FRR2 -> wf4 (reprs h o) ->
  snd (hFRReprToFR h o) = Some f ->
  frn (fst (hFRReprToFR h o)) f = o /\ rcanon (rd (fst (hFRReprToFR h o)) f) /\ rval (rd (fst (hFRReprToFR h o)) f) = eval4 (reprs h o) /\
  eval4 (reprs (fst (hFRReprToFR h o)) o) = (eval4 (reprs h o) * 2 ^ 256) mod r.
Proof. exact (FRReprToFR_overwrites h o f). Qed.
Print Assumptions C18_FRReprToFR_refuted.
Print Assumptions C18_FRReprToFR_overwrites.

(** C54: the loops run from bit 0 upwards, so the multiplier is bit-reversed: 1.MulBits(2) = 1. *)
Theorem C54_FQ_MulBits_refuted : exists f b, canon f /\ wf6 b /\ fval (FQ_MulBits f b) <> (eval6 b * fval f) mod q.
Proof.
  exists FQOne, (NewFQRepr 2). split; [apply FQOne_canon|]. split; [apply wf6_intro; unfold isW; lia|]. vm_compute. discriminate.
Qed.
Theorem C54_FQ_MulBytes_refuted : exists f b, canon f /\ Forall isByte b /\ fval (FQ_MulBytes f b) <> (be_value b * fval f) mod q.
Proof.
  exists FQOne, [2]. split; [apply FQOne_canon|]. split; [repeat constructor; unfold isByte; lia|]. vm_compute. discriminate.
Qed.
Theorem C54_FR_MulBits_refuted : exists f b, rcanon f /\ wf4 b /\ rval (FR_MulBits f b) <> (eval4 b * rval f) mod r.
Proof.
  exists bigOneFR, (NewFRRepr 2). split; [apply bigOneFR_canon|]. split; [apply wf4_intro; unfold isW; lia|]. vm_compute. discriminate.
Qed.
(** What FQ.MulBits computes instead: the multiplier with its bits in reverse order. *)
Theorem C54_FQ_MulBits_value_partial f b : canon f -> wf6 b ->
  canon (FQ_MulBits f b) /\
  fval (FQ_MulBits f b) = (rev_bits (fun i => Z.testbit (eval6 b) (Z.of_nat i)) (Z.to_nat (bitlen (eval6 b))) * fval f) mod q.
Proof. exact (FQ_MulBits_value f b). Qed.
Print Assumptions C54_FQ_MulBits_refuted.
Print Assumptions C54_FQ_MulBytes_refuted.
Print Assumptions C54_FR_MulBits_refuted.
Print Assumptions C54_FQ_MulBits_value_partial.
