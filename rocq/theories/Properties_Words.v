(** Properties C01-C04, C06, C07, C53, C60: words, limb vectors, codecs, bit iterator. 
    Reading guide: [isW x] is 0 <= x < 2^64; [wf6 f]/[wf4 f]: all limbs are words; [eval6]/[eval4]: little-endian
    integer of the limbs; [be_value]: big-endian integer of a byte list. *)
Require Import String Ascii ZArith Lia Bool List.
From Verif Require Import Words ModelRepr ReprProofs ReprProofs2 ReprProofs3 ModelFq NumTheory Primality FqProofs.
Import ListNotations.
Open Scope Z_scope.

(** Sample limb vectors used for the non-vacuity examples. *)
Definition allones : FQRepr := mkFQRepr (2^64-1) (2^64-1) (2^64-1) (2^64-1) (2^64-1) (2^64-1).
Definition allones4 : FRRepr := mkFRRepr (2^64-1) (2^64-1) (2^64-1) (2^64-1).
Example allones_wf : wf6 allones /\ wf4 allones4 /\ eval6 allones = 2^384 - 1 /\ eval4 allones4 = 2^256 - 1.
Proof. split; [apply wf6_intro; unfold isW; lia|]. split; [apply wf4_intro; unfold isW; lia|]. split; reflexivity. Qed.

Theorem C01_AddWithCarry_exact a b c s k : isW a -> isW b -> isW c -> AddWithCarry a b c = (s, k) ->
  isW s /\ 0 <= k <= 2 /\ s + 2^64 * k = a + b + c.
Proof. exact (AddWithCarry_spec a b c s k). Qed.
Theorem C01_SubWithBorrow_exact a b w d w' : isW a -> isW b -> 0 <= w <= 1 -> SubWithBorrow a b w = (d, w') ->
  isW d /\ 0 <= w' <= 1 /\ d - 2^64 * w' = a - b - w.
Proof. exact (SubWithBorrow_spec a b w d w'). Qed.
Theorem C01_MACWithCarry_exact a b c k o k' : isW a -> isW b -> isW c -> isW k -> MACWithCarry a b c k = (o, k') ->
  isW o /\ isW k' /\ o + 2^64 * k' = a + b * c + k.
Proof. exact (MACWithCarry_spec a b c k o k'). Qed.
Example C01_nonvacuous : isW (2^64-1) /\ MACWithCarry (2^64-1) (2^64-1) (2^64-1) (2^64-1) = (2^64-1, 2^64-1)
  /\ AddWithCarry (2^64-1) (2^64-1) (2^64-1) = (2^64-3, 2) /\ SubWithBorrow 0 (2^64-1) 1 = (0, 1).
Proof. split; [unfold isW; lia|]. repeat split; reflexivity. Qed.
Print Assumptions C01_MACWithCarry_exact.

Theorem C02_MultiplyFQRepr_exact a b hi lo : wf6 a -> wf6 b -> MultiplyFQRepr a b = (hi, lo) ->
  wf6 hi /\ wf6 lo /\ eval6 hi * 2^384 + eval6 lo = eval6 a * eval6 b.
Proof. exact (MultiplyFQRepr_spec a b hi lo). Qed.
Example C02_nonvacuous : exists hi lo, MultiplyFQRepr allones allones = (hi, lo) /\ eval6 hi = 2^384 - 2 /\ eval6 lo = 1.
Proof. eexists _, _. split; [vm_compute; reflexivity|]. split; vm_compute; reflexivity. Qed.
Print Assumptions C02_MultiplyFQRepr_exact.

(** [FQ_montReduce] is MontReduce followed by the conditional subtraction (fq.go:70-73). *)
Theorem C03_MontReduce hi lo : wf6 hi -> wf6 lo -> eval6 hi * 2^384 + eval6 lo < q * 2^384 ->
  (eval6 (MontReduce hi lo) < 2 * q /\ (eval6 (MontReduce hi lo) * 2^384) mod q = (eval6 hi * 2^384 + eval6 lo) mod q) /\
  (wf6 (fq_n (FQ_montReduce hi lo)) /\ eval6 (fq_n (FQ_montReduce hi lo)) < q /\
   (eval6 (fq_n (FQ_montReduce hi lo)) * 2^384) mod q = (eval6 hi * 2^384 + eval6 lo) mod q).
Proof.
  intros H1 H2 H3. rewrite <- RQ_pow in *. destruct (MontReduce_spec hi lo H1 H2 H3) as (Hw & Hb & K & HK).
  split; [split; [exact Hb|rewrite HK; apply Z.mod_add, q_ne]|].
  destruct (FQ_montReduce_spec hi lo H1 H2 H3) as [[C1 C2] V]. split; [exact C1|]. split; [exact C2|].
  unfold fval in V. set (e := eval6 (fq_n (FQ_montReduce hi lo))) in *. set (t := eval6 hi * RQ + eval6 lo) in *.
  rewrite <- (RQ_cancel (e * RQ)), <- (RQ_cancel t).
  replace (e * RQ * RQ * RQinv) with (e * RQinv * (RQ * RQ)) by ring. rewrite <- mod_mul_l, V, mod_mul_l.
  replace (t * RQinv * RQinv * (RQ * RQ)) with (t * RQ * RQinv * RQ * RQinv) by ring. rewrite RQ_cancel.
  reflexivity.
Qed.
Example C03_nonvacuous : let hi := FQRepr_const (q - 1) in let lo := allones in
  wf6 hi /\ wf6 lo /\ eval6 hi * 2^384 + eval6 lo < q * 2^384.
Proof. cbv zeta. split; [apply FQRepr_const_spec; vm_compute; split; [discriminate|reflexivity]|]. split; [apply allones_wf|vm_compute; reflexivity]. Qed.
Print Assumptions C03_MontReduce.

Theorem C04_add_sub_modulo :
  (forall a b, wf6 a -> wf6 b -> wf6 (AddNoCarry a b) /\ eval6 (AddNoCarry a b) = (eval6 a + eval6 b) mod 2^384) /\
  (forall a b, wf6 a -> wf6 b -> wf6 (SubNoBorrow a b) /\ eval6 (SubNoBorrow a b) = (eval6 a - eval6 b) mod 2^384) /\
  (forall a b, wf4 a -> wf4 b -> wf4 (FRRepr_AddNoCarry a b) /\ eval4 (FRRepr_AddNoCarry a b) = (eval4 a + eval4 b) mod 2^256) /\
  (forall a b, wf4 a -> wf4 b -> wf4 (FRRepr_SubNoBorrow a b) /\ eval4 (FRRepr_SubNoBorrow a b) = (eval4 a - eval4 b) mod 2^256).
Proof.
  repeat apply conj; intros a b Ha Hb.
  - exact (conj (AddNoCarry_wf a b Ha Hb) (AddNoCarry_eval a b Ha Hb)).
  - exact (conj (SubNoBorrow_wf a b Ha Hb) (SubNoBorrow_eval a b Ha Hb)).
  - exact (conj (FRRepr_AddNoCarry_wf a b Ha Hb) (FRRepr_AddNoCarry_eval a b Ha Hb)).
  - exact (conj (FRRepr_SubNoBorrow_wf a b Ha Hb) (FRRepr_SubNoBorrow_eval a b Ha Hb)).
Qed.
Example C04_nonvacuous : eval6 (AddNoCarry allones allones) = 2^384 - 2 /\ eval6 (SubNoBorrow (NewFQRepr 0) allones) = 1.
Proof. split; vm_compute; reflexivity. Qed.
Print Assumptions C04_add_sub_modulo.

Theorem C06_FQRepr_integer_ops f : wf6 f ->
  (forall n, 0 <= n -> wf6 (FQRepr_Lsh f n) /\ eval6 (FQRepr_Lsh f n) = (eval6 f * 2^n) mod 2^384) /\
  (forall n, 0 <= n -> wf6 (FQRepr_Rsh f n) /\ eval6 (FQRepr_Rsh f n) = eval6 f / 2^n) /\
  (wf6 (FQRepr_Mul2 f) /\ eval6 (FQRepr_Mul2 f) = (eval6 f * 2) mod 2^384) /\
  (wf6 (FQRepr_Div2 f) /\ eval6 (FQRepr_Div2 f) = eval6 f / 2) /\
  (forall g, wf6 g -> (FQRepr_Cmp f g = 0 <-> eval6 f = eval6 g) /\ (0 < FQRepr_Cmp f g <-> eval6 g < eval6 f) /\ (FQRepr_Cmp f g < 0 <-> eval6 f < eval6 g)) /\
  (forall g, wf6 g -> (FQRepr_Equals f g = true <-> eval6 f = eval6 g)) /\
  (FQRepr_IsZero f = true <-> eval6 f = 0) /\
  FQRepr_IsOdd f = Z.odd (eval6 f) /\ FQRepr_IsEven f = Z.even (eval6 f) /\
  (eval6 f = 0 -> FQRepr_BitLen f = 0) /\ (0 < eval6 f -> 2^(FQRepr_BitLen f - 1) <= eval6 f < 2^(FQRepr_BitLen f)) /\
  (forall n, 0 <= n < 384 -> FQRepr_Bit f n = Some (Z.testbit (eval6 f) n)).
Proof.
  intros H. repeat match goal with |- _ /\ _ => split end.
  - intros n. exact (FQRepr_Lsh_spec f n H).
  - intros n. exact (FQRepr_Rsh_spec f n H).
  - apply (FQRepr_Mul2_spec f H).
  - apply (FQRepr_Mul2_spec f H).
  - apply (FQRepr_Div2_spec f H).
  - apply (FQRepr_Div2_spec f H).
  - intros g Hg. rewrite FQRepr_Cmp_eval by assumption. split; [apply zcmp_0|]. split; [apply zcmp_pos|apply zcmp_neg].
  - intros g. exact (FQRepr_Equals_eval f g H).
  - apply (FQRepr_IsZero_eval f H).
  - apply FQRepr_IsOdd_eval.
  - apply FQRepr_IsEven_eval.
  - intros E. rewrite FQRepr_BitLen_spec, E by assumption. reflexivity.
  - intros E. rewrite FQRepr_BitLen_spec by assumption. apply bitlen_bounds. assumption.
  - intros n Hn. rewrite (FQRepr_Bit_spec f n H) by lia. destruct (Z.ltb_spec n 384); [reflexivity|lia].
Qed.
Theorem C06_FRRepr_integer_ops f : wf4 f ->
  (forall n, 0 <= n -> wf4 (FRRepr_Lsh f n) /\ eval4 (FRRepr_Lsh f n) = (eval4 f * 2^n) mod 2^256) /\
  (forall n, 0 <= n -> wf4 (FRRepr_Rsh f n) /\ eval4 (FRRepr_Rsh f n) = eval4 f / 2^n) /\
  (wf4 (FRRepr_Mul2 f) /\ eval4 (FRRepr_Mul2 f) = (eval4 f * 2) mod 2^256) /\
  (wf4 (FRRepr_Div2 f) /\ eval4 (FRRepr_Div2 f) = eval4 f / 2) /\
  (forall g, wf4 g -> (FRRepr_Cmp f g = 0 <-> eval4 f = eval4 g) /\ (0 < FRRepr_Cmp f g <-> eval4 g < eval4 f) /\ (FRRepr_Cmp f g < 0 <-> eval4 f < eval4 g)) /\
  (forall g, wf4 g -> (FRRepr_Equals f g = true <-> eval4 f = eval4 g)) /\
  (FRRepr_IsZero f = true <-> eval4 f = 0) /\
  FRRepr_IsOdd f = Z.odd (eval4 f) /\ FRRepr_IsEven f = Z.even (eval4 f) /\
  (eval4 f = 0 -> FRRepr_BitLen f = 0) /\ (0 < eval4 f -> 2^(FRRepr_BitLen f - 1) <= eval4 f < 2^(FRRepr_BitLen f)) /\
  (forall n, 0 <= n < 256 -> FRRepr_Bit f n = Some (Z.testbit (eval4 f) n)).
Proof.
  intros H. repeat match goal with |- _ /\ _ => split end.
  - intros n. exact (FRRepr_Lsh_spec f n H).
  - intros n. exact (FRRepr_Rsh_spec f n H).
  - apply (FRRepr_Mul2_spec f H).
  - apply (FRRepr_Mul2_spec f H).
  - apply (FRRepr_Div2_spec f H).
  - apply (FRRepr_Div2_spec f H).
  - intros g Hg. rewrite FRRepr_Cmp_eval by assumption. split; [apply zcmp_0|]. split; [apply zcmp_pos|apply zcmp_neg].
  - intros g. exact (FRRepr_Equals_eval f g H).
  - apply (FRRepr_IsZero_eval f H).
  - apply FRRepr_IsOdd_eval.
  - apply FRRepr_IsEven_eval.
  - intros E. rewrite FRRepr_BitLen_spec, E by assumption. reflexivity.
  - intros E. rewrite FRRepr_BitLen_spec by assumption. apply bitlen_bounds. assumption.
  - intros n Hn. rewrite (FRRepr_Bit_spec f n H) by lia. destruct (Z.ltb_spec n 256); [reflexivity|lia].
Qed.
Example C06_nonvacuous : eval6 (FQRepr_Lsh allones 130) = (2^384 - 1) * 2^130 mod 2^384 /\ eval4 (FRRepr_Rsh allones4 191) = 2^65 - 1.
Proof. split; vm_compute; reflexivity. Qed.
Print Assumptions C06_FQRepr_integer_ops.
Print Assumptions C06_FRRepr_integer_ops.

Theorem C07_FQRepr_codecs :
  (forall f, wf6 f -> length (FQRepr_Bytes f) = 48%nat /\ Forall isByte (FQRepr_Bytes f) /\
     be_value (FQRepr_Bytes f) = eval6 f /\ FQReprFromBytes (FQRepr_Bytes f) = f) /\
  (forall b, length b = 48%nat -> Forall isByte b ->
     wf6 (FQReprFromBytes b) /\ eval6 (FQReprFromBytes b) = be_value b /\ FQRepr_Bytes (FQReprFromBytes b) = b) /\
  (forall f, wf6 f -> FQRepr_ToBig f = eval6 f /\ FQReprFromBigInt (FQRepr_ToBig f) = Some (Some f)) /\
  (forall n, 0 <= n < 2^384 -> exists f, FQReprFromBigInt n = Some (Some f) /\ wf6 f /\ eval6 f = n) /\
  (forall n, n < 0 \/ 2^384 <= n -> FQReprFromBigInt n = Some None).
Proof.
  split; [|split; [|split; [|split]]].
  - intros f H. exact (conj (FQRepr_Bytes_length f) (conj (FQRepr_Bytes_isByte f) (conj (FQRepr_Bytes_value f H) (FQRepr_FromBytes_Bytes f H)))).
  - intros b L B. destruct (FQReprFromBytes_spec b L B). split; [assumption|]. split; [assumption|]. apply FQRepr_Bytes_FromBytes; assumption.
  - intros f H. exact (conj (FQRepr_ToBig_spec f) (FQReprFromBigInt_ToBig f H)).
  - exact FQReprFromBigInt_ok.
  - exact FQReprFromBigInt_err.
Qed.
Theorem C07_FRRepr_codecs :
  (forall f, wf4 f -> length (FRRepr_Bytes f) = 32%nat /\ Forall isByte (FRRepr_Bytes f) /\
     be_value (FRRepr_Bytes f) = eval4 f /\ FRReprFromBytes (FRRepr_Bytes f) = f) /\
  (forall b, length b = 32%nat -> Forall isByte b ->
     wf4 (FRReprFromBytes b) /\ eval4 (FRReprFromBytes b) = be_value b /\ FRRepr_Bytes (FRReprFromBytes b) = b) /\
  (forall f, wf4 f -> FRRepr_ToBig f = eval4 f /\ FRReprFromBigInt (FRRepr_ToBig f) = Some (Some f)) /\
  (forall n, 0 <= n < 2^256 -> exists f, FRReprFromBigInt n = Some (Some f) /\ wf4 f /\ eval4 f = n) /\
  (forall n, n < 0 \/ 2^256 <= n -> FRReprFromBigInt n = Some None).
Proof.
  split; [|split; [|split; [|split]]].
  - intros f H. exact (conj (FRRepr_Bytes_length f) (conj (FRRepr_Bytes_isByte f) (conj (FRRepr_Bytes_value f H) (FRRepr_FromBytes_Bytes f H)))).
  - intros b L B. destruct (FRReprFromBytes_spec b L B). split; [assumption|]. split; [assumption|]. apply FRRepr_Bytes_FromBytes; assumption.
  - intros f H. exact (conj (FRRepr_ToBig_spec f) (FRReprFromBigInt_ToBig f H)).
  - exact FRReprFromBigInt_ok.
  - exact FRReprFromBigInt_err.
Qed.
Example C07_nonvacuous : FQReprFromBytes (repeat 1 48) = mkFQRepr 0x0101010101010101 0x0101010101010101 0x0101010101010101 0x0101010101010101 0x0101010101010101 0x0101010101010101
  /\ FQReprFromBigInt (2^384) = Some None.
Proof. split; vm_compute; reflexivity. Qed.
Print Assumptions C07_FQRepr_codecs.
Print Assumptions C07_FRRepr_codecs.

(** The k-th call of Next (counting from 0) on a fresh iterator. *)
Theorem C53_BitIterator_msb_first arr k : Forall isW arr ->
  fst (BitIterator_Next (bi_after k (NewBitIterator arr))) =
  if Z.of_nat k <? 64 * Z.of_nat (length arr) then (Z.testbit (evalw arr) (64 * Z.of_nat (length arr) - 1 - Z.of_nat k), false) else (false, true).
Proof.
  intros H. rewrite bi_after_spec by assumption. destruct (Z.ltb_spec (Z.of_nat k) (64 * Z.of_nat (length arr))).
  - rewrite Z.max_r by lia. rewrite BitIterator_Next_spec by (assumption || lia). cbn [fst]. do 2 f_equal. lia.
  - rewrite Z.max_l by lia. reflexivity.
Qed.
Example C53_nonvacuous : fst (BitIterator_Next (bi_after 127 (NewBitIterator [5; 9]))) = (true, false)
  /\ fst (BitIterator_Next (bi_after 60 (NewBitIterator [5; 9]))) = (true, false)
  /\ fst (BitIterator_Next (bi_after 128 (NewBitIterator [5; 9]))) = (false, true).
Proof. repeat split; vm_compute; reflexivity. Qed.
Print Assumptions C53_BitIterator_msb_first.

Theorem C60_String_is_hexadecimal :
  (forall f, wf6 f -> FQRepr_String f = hexstring 96 (eval6 f) /\ FQReprFromString16 (FQRepr_String f) = Some (Some f)) /\
  (forall f, wf4 f -> FRRepr_String f = hexstring 64 (eval4 f) /\ FRReprFromString16 (FRRepr_String f) = Some (Some f)).
Proof.
  split; intros f H.
  - exact (conj (FQRepr_String_spec f H) (FQReprFromString16_String f H)).
  - exact (conj (FRRepr_String_spec f H) (FRReprFromString16_String f H)).
Qed.
Theorem C60_String_injective f g : wf6 f -> wf6 g -> FQRepr_String f = FQRepr_String g -> f = g.
Proof.
  intros Hf Hg E. pose proof (FQReprFromString16_String f Hf) as E1. pose proof (FQReprFromString16_String g Hg) as E2. congruence.
Qed.
Example C60_nonvacuous : FRRepr_String (NewFRRepr 0xbeef) = "000000000000000000000000000000000000000000000000000000000000beef"%string.
Proof. vm_compute. reflexivity. Qed.
Print Assumptions C60_String_is_hexadecimal.
