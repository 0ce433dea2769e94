(** Property C76: FQ12 elements as objects in memory (an FQ12 holds two pointers to FQ6).
    - [mem0]: memory after package initialisation; [val12 m x]: the element that object x holds, read through its pointers;
      [n12 m]: objects 0 .. n12 m - 1 exist; objects [pFQ12Zero] and [pFQ12One] are the package variables.
    - [qok_all m l]: in the history l callers use existing objects only and do not call writing methods on the package variables.
    - [qreceiver c]: the object whose value the call is meant to change; [written]: the value-level operation of the call. *)
Require Import ZArith Bool List Arith.
From Verif Require Import Words ModelRepr ModelFq ModelOps ModelTower ModelCurve ModelPairing ModelQ12Heap Q12HeapProofs3 Q12HeapEx.
Import ListNotations.
Local Open Scope nat_scope.

(** * C76: FQ12 elements in memory *)
(** the vocabulary *)
Theorem C76_vocabulary (m : Mem FQ) x c l :
  val12 m x = mkFQ12 (c6 m (fst (c12 m x))) (c6 m (snd (c12 m x))) /\
  (qok m c <-> Forall (fun y => y < n12 m) (qobjects c) /\ qreceiver c <> Some pFQ12Zero /\ qreceiver c <> Some pFQ12One) /\
  (qok_all FqB m (c :: l) <-> qok m c /\ qok_all FqB (qstep FqB m c) l) /\ qrun FqB m (c :: l) = qrun FqB (qstep FqB m c) l.
Proof. exact (conj eq_refl (conj (iff_refl _) (conj (iff_refl _) eq_refl))). Qed.
(** FQ12Zero and FQ12One keep their values *)
Theorem C76_package_variables l : qok_all FqB (mem0 FqB) l ->
  val12 (qrun FqB (mem0 FqB) l) pFQ12Zero = FQ12Zero FqB /\ val12 (qrun FqB (mem0 FqB) l) pFQ12One = FQ12One FqB.
Proof. exact (q12_package FqB l). Qed.
(** a call writes the result of the field operation to its receiver, also when the receiver is the argument, and changes no other element *)
Theorem C76_calls l c : qok_all FqB (mem0 FqB) (l ++ [c]) -> let m := qrun FqB (mem0 FqB) l in let m' := qstep FqB m c in
  (forall x, qreceiver c = Some x -> val12 m' x = written FqB (val12 m) c) /\ (forall z, z < n12 m -> qreceiver c <> Some z -> val12 m' z = val12 m z).
Proof. exact (q12_call FqB l c). Qed.
(** results of the calls that return something *)
Theorem C76_results l : qok_all FqB (mem0 FqB) l -> let m := qrun FqB (mem0 FqB) l in
  (forall v, let '(m', x) := m12_New m v in n12 m <= x < n12 m' /\ val12 m' x = v) /\
  (forall y, y < n12 m -> let '(m', x) := m12_Copy m y in n12 m <= x < n12 m' /\ val12 m' x = val12 m y) /\
  (forall y n, y < n12 m -> let '(m', x) := m12_Exp FqB m y n in n12 m <= x < n12 m' /\ val12 m' x = FQ12_Exp FqB (val12 m y) n) /\
  (forall y, 2 <= y < n12 m -> snd (m12_InverseAssign FqB m y) = snd (FQ12_InverseAssign FqB (val12 m y))) /\
  (forall x y, x < n12 m -> y < n12 m -> m12_Equals FqB m x y = FQ12_Equals FqB (val12 m x) (val12 m y) /\ m12_IsZero FqB m x = FQ12_IsZero FqB (val12 m x)) /\
  (forall items, match m_MillerLoop FqB m items with Some (m', x) => n12 m <= x < n12 m' /\ MillerLoop FqB items = Some (val12 m' x) | None => MillerLoop FqB items = None end) /\
  (forall y, y < n12 m -> let '(m', o) := m_FinalExponentiation FqB m y in
     match o with Some x => n12 m <= x < n12 m' /\ FinalExponentiation FqB (val12 m y) = Some (val12 m' x) | None => FinalExponentiation FqB (val12 m y) = None end) /\
  (forall p q, match m_Pairing FqB m p q with
     | Some (m', Some x) => n12 m <= x < n12 m' /\ Pairing FqB p q = Some (val12 m' x) | Some (_, None) | None => Pairing FqB p q = None end) /\
  (forall P1 Q1 P2 Q2, match m_CompareTwoPairings FqB m P1 Q1 P2 Q2 with
     | Some (m', b) => CompareTwoPairings FqB P1 Q1 P2 Q2 = Some b | None => CompareTwoPairings FqB P1 Q1 P2 Q2 = None end).
Proof. exact (q12_results FqB l). Qed.
Example C76_nonvacuous : qok_all FqB (mem0 FqB) q_history /\
  val12 (qrun FqB (mem0 FqB) [QNew v12; QCopy 2; QMul 2 2]) 2 = FQ12_MulAssign FqB v12 v12 /\ val12 (qrun FqB (mem0 FqB) [QNew v12; QCopy 2; QMul 2 2]) 3 = v12 /\
  FQ12_MulAssign FqB v12 v12 <> v12.
Proof. exact q_history_ok. Qed.
(** the same for FQ6 objects: Exp writes to no existing object; MulAssign depends on whether the argument is the receiver (C22) *)
Theorem C76_FQ6_Exp (m : Mem FQ) p n : p < n6 m -> 1 < n6 m -> c6 m pFQ6One = FQ6One FqB ->
  let '(m', x) := m6_Exp FqB m p n in n6 m <= x < n6 m' /\ c6 m' x = FQ6_Exp FqB (c6 m p) n /\ (forall z, z < n6 m -> c6 m' z = c6 m z).
Proof. exact (exp6_ok FqB m p n). Qed.
Example C76_FQ6_nonvacuous : n6 (mem0 FqB) = 2 /\ c6 (mem0 FqB) pFQ6One = FQ6One FqB.
Proof. exact (conj eq_refl eq_refl). Qed.
Theorem C76_FQ6_MulAssign (m : Mem FQ) p q : c6 (m6_MulAssign FqB m p q) p = (if q =? p then FQ6_MulAssign_aliased FqB (c6 m p) else FQ6_MulAssign FqB (c6 m p) (c6 m q)) /\
  forall k, k <> p -> c6 (m6_MulAssign FqB m p q) k = c6 m k.
Proof. exact (mul6_ok FqB m p q). Qed.
(** without the restriction on receivers: after FQ12Zero.AddAssign(x) with x = 1, FQ12Zero is not 1, FQ12One is not 1, zero is not IsZero, x^0 is not 1 *)
Theorem C76_package_receiver_refuted :
  let m := qrun FqB (mem0 FqB) bad_history in
  qexist (mem0 FqB) (QNew (FQ12One FqB)) /\ qexist (qstep FqB (mem0 FqB) (QNew (FQ12One FqB))) (QAdd pFQ12Zero 2 : q12call (F := FQ)) /\
  val12 m 2 = FQ12One FqB /\ val12 m pFQ12Zero <> FQ12_AddAssign FqB (FQ12Zero FqB) (FQ12One FqB) /\
  val12 m pFQ12One <> FQ12One FqB /\ (let '(m', z) := m12_New m (FQ12Zero FqB) in m12_IsZero FqB m' z = false) /\
  (let '(m', x) := m12_Exp FqB m 2 (FQRepr_const 0) in val12 m' x <> FQ12_Exp FqB (FQ12One FqB) (FQRepr_const 0)).
Proof. exact package_receiver_refuted. Qed.
(** an element built by NewFQ12(p, p): NegAssign changes nothing, AddAssign adds both halves to both *)
Theorem C76_shared_halves_refuted : let '(m, x) := shared in
  val12 m x = mkFQ12 (FQ6One FqB) (FQ6One FqB) /\ val12 (m12_NegAssign FqB m x) x = val12 m x /\ FQ12_NegAssign FqB (val12 m x) <> val12 m x /\
  val12 (m12_AddAssign FqB m x pFQ12One) x <> FQ12_AddAssign FqB (val12 m x) (FQ12One FqB).
Proof. exact shared_halves_refuted. Qed.

Print Assumptions C76_vocabulary.
Print Assumptions C76_package_variables.
Print Assumptions C76_calls.
Print Assumptions C76_results.
Print Assumptions C76_nonvacuous.
Print Assumptions C76_FQ6_Exp.
Print Assumptions C76_FQ6_nonvacuous.
Print Assumptions C76_FQ6_MulAssign.
Print Assumptions C76_package_receiver_refuted.
Print Assumptions C76_shared_halves_refuted.
