(** Property C77: the random generators, down to the bytes the reader delivers.
    - A [Reader] is the list of chunks it hands out (ModelRand.v); [concat rd] is its byte stream; [nonempty rd]: no Read returns zero bytes without an error.
    - A generator returns Some (Some x, rd'): the value x and the rest of the reader; Some (None, rd'): an error; None: panic or no termination.
    - [first_below max k bits s v rest]: cut s into windows of k bytes and keep the low [bits] bits of each; v is the first of these numbers below max, rest follows its window.
      [none_below]: there is no such window before s ends. [next_q], [end_q]: 48 bytes, 381 bits, below q; [next_r], [end_r]: 32 bytes, 255 bits, below r.
    - [draws s vs rest]: the numbers vs are drawn from s one after the other; [attempts1], [attempts2]: a byte and one (two) draws, repeatedly. *)
Require Import ZArith Bool List.
From Verif Require Import Words ModelRepr ReprProofs2 ModelFq ModelFr ModelOps ModelTower ModelCurve ModelPairing ModelHash ModelBls Primality Fp FqProofs FqProofs2 FqMisc FqRel FrProofs FqTransfer Fld EcGroup EcMul Curves CurveLimb CurveMisc BlsProofs SwEnc ModelRand RandProofs RandProofs2 RandProofs3.
Import CurveLimb ListNotations.
Open Scope Z_scope.

(** the streams *)
Theorem C77_streams w s v rest : next_q = first_below q 48 381 /\ end_q = none_below q 48 381 /\ next_r = first_below r 32 255 /\ end_r = none_below r 32 255 /\
  (length w = 48%nat -> be_value w mod 2 ^ 381 < q -> next_q (w ++ s) (be_value w mod 2 ^ 381) s) /\
  (length w = 48%nat -> q <= be_value w mod 2 ^ 381 -> (next_q (w ++ s) v rest <-> next_q s v rest) /\ (end_q (w ++ s) <-> end_q s)) /\
  ((length s < 48)%nat -> end_q s).
Proof. exact (streams_ok w s v rest). Qed.
(** RandFQ: the first window below q, in canonical form; an error only when the reader ends first *)
Theorem C77_RandFQ rd : Forall isByte (concat rd) -> match read_FQ FqB rd with
  | None => False
  | Some (Some f, rd') => next_q (concat rd) (fval f) (concat rd') /\ canon f
  | Some (None, rd') => end_q (concat rd) /\ rd' = [] end.
Proof. exact (read_FQ_ok rd). Qed.
Theorem C77_RandFR rd : Forall isByte (concat rd) -> match read_FR rd with
  | Some (Some (Some k), rd') => next_r (concat rd) (rval k) (concat rd') /\ rcanon k
  | Some (None, rd') => end_r (concat rd) /\ rd' = []
  | _ => False end.
Proof. exact (read_FR_ok rd). Qed.
Theorem C77_RandKey rd : read_Key rd = read_FR rd.
Proof. exact (read_Key_eq rd). Qed.
Example C77_nonvacuous : Forall isByte (concat stream5) /\ (exists f, read_FQ FqB stream5 = Some (Some f, [[9]]) /\ fval f = 5) /\ (exists k, read_Key stream5 = Some (Some (Some k), [[9]]) /\ rval k = 5).
Proof. exact (Logic.conj stream5_bytes (Logic.conj stream5_FQ stream5_FR)). Qed.
(** no bias: every element of FQ is the result of exactly 8 of the 2^384 windows, every element of FR of exactly 2 of the 2^256 *)
Theorem C77_RandFQ_uniform v : 0 <= v < q -> exists l, NoDup l /\ length l = 8%nat /\
  forall w, length w = 48%nat -> Forall isByte w -> (In w l <-> exists f rd', read_FQ FqB [w] = Some (Some f, rd') /\ fval f = v).
Proof. exact (read_FQ_uniform v). Qed.
Theorem C77_RandFR_uniform v : 0 <= v < r -> exists l, NoDup l /\ length l = 2%nat /\
  forall w, length w = 32%nat -> Forall isByte w -> (In w l <-> exists k rd', read_FR [w] = Some (Some (Some k), rd') /\ rval k = v).
Proof. exact (read_FR_uniform v). Qed.
(** the result does not depend on how the reader splits its bytes *)
Theorem C77_RandFQ_chunks rd1 rd2 : Forall isByte (concat rd1) -> concat rd1 = concat rd2 ->
  match read_FQ FqB rd1, read_FQ FqB rd2 with Some (o1, rd1'), Some (o2, rd2') => o1 = o2 /\ concat rd1' = concat rd2' | _, _ => False end.
Proof. exact (read_FQ_chunks rd1 rd2). Qed.
Theorem C77_RandFR_chunks rd1 rd2 : Forall isByte (concat rd1) -> concat rd1 = concat rd2 ->
  match read_FR rd1, read_FR rd2 with Some (o1, rd1'), Some (o2, rd2') => o1 = o2 /\ concat rd1' = concat rd2' | _, _ => False end.
Proof. exact (read_FR_chunks rd1 rd2). Qed.
(** RandFQ2, RandFQ6, RandFQ12: 2, 6, 12 consecutive draws, in the order c0, c1, ... *)
Theorem C77_outcome {A} n (P : A -> list Z -> Prop) rd (x : Draw A) : outcome n P rd x <-> match x with
  | None => False
  | Some (Some a, rd') => Forall isByte (concat rd') /\ exists vs, length vs = n /\ draws (concat rd) vs (concat rd') /\ P a vs
  | Some (None, rd') => rd' = [] /\ exists vs rest, (length vs < n)%nat /\ draws (concat rd) vs rest /\ end_q rest end.
Proof. exact (iff_refl _). Qed.
Theorem C77_RandFQ2 rd : Forall isByte (concat rd) -> outcome 2 (fun x vs => map fval [c0 x; c1 x] = vs /\ Forall canon [c0 x; c1 x]) rd (read_FQ2 FqB rd).
Proof. exact (outcome_FQ2 rd). Qed.
Theorem C77_RandFQ6 rd : Forall isByte (concat rd) -> outcome 6 (fun x vs => map fval (coeffs6 x) = vs /\ Forall canon (coeffs6 x)) rd (read_FQ6 FqB rd).
Proof. exact (outcome_FQ6 rd). Qed.
Theorem C77_RandFQ12 rd : Forall isByte (concat rd) -> outcome 12 (fun x vs => map fval (coeffs12 x) = vs /\ Forall canon (coeffs12 x)) rd (read_FQ12 FqB rd).
Proof. exact (outcome_FQ12 rd). Qed.
(** RandG1, RandG2: terminate; the result is a valid point of order dividing r, that of the first successful attempt (C52) *)
Theorem C77_RandG1 rd : Forall isByte (concat rd) -> match read_G1 FqB rd with
  | None => False
  | Some (Some P, rd') => valid1 P /\ mul1 r (jac1 P) = Inf /\ exists ds, Forall (fun d => 0 <= snd d < q) ds /\ RandG1 FqB ds = Some P /\ RandG1 FqB (removelast ds) = None /\
      (nonempty rd -> attempts1 (concat rd) ds (concat rd'))
  | Some (None, _) => nonempty rd -> exists ds rest, attempts1 (concat rd) ds rest /\ RandG1 FqB ds = None /\ (rest = [] \/ exists b s, rest = b :: s /\ end_q s) end.
Proof. exact (read_G1_ok rd). Qed.
Theorem C77_RandG2 rd : Forall isByte (concat rd) -> match read_G2 FqB rd with
  | None => False
  | Some (Some P, rd') => valid2 P /\ mul2 r (jac2 P) = Inf /\ exists ds, Forall (fun d => 0 <= fst (snd d) < q /\ 0 <= snd (snd d) < q) ds /\ RandG2 FqB ds = Some P /\ RandG2 FqB (removelast ds) = None /\
      (nonempty rd -> attempts2 (concat rd) ds (concat rd'))
  | Some (None, _) => nonempty rd -> exists ds rest, attempts2 (concat rd) ds rest /\ RandG2 FqB ds = None /\
      (rest = [] \/ exists b s, rest = b :: s /\ (end_q s \/ exists v s', next_q s v s' /\ end_q s')) end.
Proof. exact (read_G2_ok rd). Qed.
Example C77_points_nonvacuous : (exists P, read_G1 FqB [[0]; zeros48; [7]] = Some (Some P, [[7]])) /\ (Forall isByte (concat stream2) /\ nonempty stream2) /\ exists P, read_G2 FqB stream2 = Some (Some P, [[7; 8]]).
Proof. exact (Logic.conj stream2_G1 (Logic.conj stream2_bytes stream2_G2)). Qed.
(** RandG1 on two readers with the same bytes: an empty Read is taken for the byte 0 *)
Theorem C77_RandG1_chunks_refuted : exists rd1 rd2, Forall isByte (concat rd1) /\ concat rd1 = concat rd2 /\ (exists P rd', read_G1 FqB rd1 = Some (Some P, rd')) /\ read_G1 FqB rd2 = Some (None, []).
Proof. exact read_G1_chunks_refuted. Qed.
(** RandKey may return the zero key, for which Verify panics *)
Theorem C77_RandKey_nonzero_refuted : exists rd k, Forall isByte (concat rd) /\ read_Key rd = Some (Some (Some k), []) /\ rcanon k /\ rval k = 0 /\
  (forall sha m h P S, HashG2 sha FqB m = Some h -> g1pubs_PrivToPub FqB (Some k) = Some P -> canonP2 S -> g1pubs_Verify sha FqB m P S = None) /\
  (forall sha m h P S, HashG1 sha FqB m = Some h -> g2pubs_PrivToPub FqB (Some k) = Some P -> canonP1 S -> g2pubs_Verify sha FqB m P S = None).
Proof. exact read_Key_zero_refuted. Qed.

Print Assumptions C77_streams.
Print Assumptions C77_RandFQ.
Print Assumptions C77_RandFR.
Print Assumptions C77_RandKey.
Print Assumptions C77_nonvacuous.
Print Assumptions C77_RandFQ_uniform.
Print Assumptions C77_RandFR_uniform.
Print Assumptions C77_RandFQ_chunks.
Print Assumptions C77_RandFR_chunks.
Print Assumptions C77_outcome.
Print Assumptions C77_RandFQ2.
Print Assumptions C77_RandFQ6.
Print Assumptions C77_RandFQ12.
Print Assumptions C77_RandG1.
Print Assumptions C77_RandG2.
Print Assumptions C77_points_nonvacuous.
Print Assumptions C77_RandG1_chunks_refuted.
Print Assumptions C77_RandKey_nonzero_refuted.
