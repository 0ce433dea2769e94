(** FQ6.Exp in memory; what goes wrong when the package's FQ12Zero is a receiver, or the halves of an FQ12 are one object; a history. *)
Require Import ZArith Bool List Arith Lia.
From Verif Require Import Words ModelRepr ModelFq ModelOps ModelTower ModelCurve ModelPairing ModelQ12Heap Q12HeapProofs Q12HeapProofs2 Q12HeapProofs3.
Import ListNotations.
Local Open Scope nat_scope.

Section E.
Context {F : Type} (B : BOps F).
Notation mem := (Mem F).
Lemma loop6_ok fuel : forall (m : mem) n fi res, fi <> res ->
  let m' := m_ExpLoop (m6_MulAssign B) fuel m n fi res in
  n6 m' = n6 m /\ c6 m' res = ExpLoop (FQ6_MulAssign B) (FQ6_MulAssign_aliased B) fuel n (c6 m fi) (c6 m res) /\ (forall z, z <> fi -> z <> res -> c6 m' z = c6 m z).
Proof.
  induction fuel as [|fuel IH]; intros m n fi res N; cbn [m_ExpLoop ExpLoop]; [auto|].
  destruct (negb (FQRepr_Cmp n bigZero =? 0)%Z); [|auto].
  set (m1 := if negb (isEven n) then m6_MulAssign B m res fi else m).
  assert (n6 m1 = n6 m /\ c6 m1 res = (if negb (isEven n) then FQ6_MulAssign B (c6 m res) (c6 m fi) else c6 m res) /\ (forall z, z <> res -> c6 m1 z = c6 m z)) as (N1 & V1 & F1).
  { unfold m1. destruct (negb (isEven n)); [|auto]. split; [apply n6_mul|]. split; [rewrite c6_mul; eqbs; reflexivity|]. intros z Hz. rewrite c6_mul. eqbs. reflexivity. }
  clearbody m1. destruct (IH (m6_MulAssign B m1 fi fi) (FQRepr_Rsh n 1) fi res N) as (N3 & V3 & F3).
  split; [rewrite N3, n6_mul; exact N1|]. split.
  - rewrite V3, !c6_mul. eqbs. rewrite V1, F1 by exact N. reflexivity.
  - intros z Hf Hr. rewrite F3, c6_mul by assumption. eqbs. apply F1, Hr.
Qed.
(** FQ6.Exp returns what the value-level model says, and writes to no existing object *)
Theorem exp6_ok (m : mem) p n : p < n6 m -> 1 < n6 m -> c6 m pFQ6One = FQ6One B ->
  let '(m', x) := m6_Exp B m p n in n6 m <= x < n6 m' /\ c6 m' x = FQ6_Exp B (c6 m p) n /\ (forall z, z < n6 m -> c6 m' z = c6 m z).
Proof.
  intros Hp H1 E1. unfold m6_Exp, FQ6_Exp. rewrite !cp_eq, n6_cp.
  destruct (loop6_ok 385 (cp (cp m pFQ6One) p) n (S (n6 m)) (n6 m) ltac:(lia)) as (N & V & Fr). rewrite n6_cp, n6_cp in N. cbv zeta in N, V, Fr.
  split; [lia|]. split.
  - rewrite V, !c6_cp, !n6_cp. eqbs. rewrite E1. reflexivity.
  - intros z Hz. rewrite Fr by lia. rewrite !c6_cp, !n6_cp. eqbs. reflexivity.
Qed.
(** MulAssign of FQ6 objects: the aliased call differs *)
Theorem mul6_ok (m : mem) p q : c6 (m6_MulAssign B m p q) p = (if q =? p then FQ6_MulAssign_aliased B (c6 m p) else FQ6_MulAssign B (c6 m p) (c6 m q)) /\
  forall k, k <> p -> c6 (m6_MulAssign B m p q) k = c6 m k.
Proof. split; [rewrite c6_mul, Nat.eqb_refl; reflexivity|]. intros k N. rewrite c6_mul. eqbs. reflexivity. Qed.
End E.

(** one limb of the second half *)
Definition probe (v : FQ12 FQ) : Z := w0 (fq_n (c0 (d0 (e1 v)))).
(** FQ12Zero.AddAssign(x) with x = 1 *)
Definition bad_history : list (q12call (F := FQ)) := [QNew (FQ12One FqB); QAdd pFQ12Zero 2].
Theorem package_receiver_refuted :
  let m := qrun FqB (mem0 FqB) bad_history in
  qexist (mem0 FqB) (QNew (FQ12One FqB)) /\ qexist (qstep FqB (mem0 FqB) (QNew (FQ12One FqB))) (QAdd pFQ12Zero 2 : q12call (F := FQ)) /\
  val12 m 2 = FQ12One FqB /\ val12 m pFQ12Zero <> FQ12_AddAssign FqB (FQ12Zero FqB) (FQ12One FqB) /\
  val12 m pFQ12One <> FQ12One FqB /\ (let '(m', z) := m12_New m (FQ12Zero FqB) in m12_IsZero FqB m' z = false) /\
  (let '(m', x) := m12_Exp FqB m 2 (FQRepr_const 0) in val12 m' x <> FQ12_Exp FqB (FQ12One FqB) (FQRepr_const 0)).
Proof.
  cbv zeta. split; [constructor|]. split; [repeat constructor|]. split; [vm_compute; reflexivity|].
  split; [intros H; apply (f_equal probe) in H; vm_compute in H; discriminate H|].
  split; [intros H; apply (f_equal probe) in H; vm_compute in H; discriminate H|].
  split; [vm_compute; reflexivity|].
  destruct (m12_Exp FqB (qrun FqB (mem0 FqB) bad_history) 2 (FQRepr_const 0)) as [m' x] eqn:E. intros H. apply (f_equal probe) in H.
  assert (probe (val12 m' x) = probe (val12 (fst (m12_Exp FqB (qrun FqB (mem0 FqB) bad_history) 2 (FQRepr_const 0))) (snd (m12_Exp FqB (qrun FqB (mem0 FqB) bad_history) 2 (FQRepr_const 0))))) as E' by (rewrite E; reflexivity).
  rewrite E' in H. vm_compute in H. discriminate H.
Qed.
(** NewFQ12(p, p): both halves are the same object *)
Definition shared : Mem FQ * nat := let '(m, p) := new6 (mem0 FqB) (FQ6One FqB) in new12 m p p.
Theorem shared_halves_refuted : let '(m, x) := shared in
  val12 m x = mkFQ12 (FQ6One FqB) (FQ6One FqB) /\ val12 (m12_NegAssign FqB m x) x = val12 m x /\ FQ12_NegAssign FqB (val12 m x) <> val12 m x /\
  val12 (m12_AddAssign FqB m x pFQ12One) x <> FQ12_AddAssign FqB (val12 m x) (FQ12One FqB).
Proof.
  unfold shared. cbn [new6 new12]. split; [vm_compute; reflexivity|]. split; [vm_compute; reflexivity|].
  split; (intros H; apply (f_equal (fun v => probe v + 2 * w0 (fq_n (c0 (d0 (e0 v)))))%Z) in H; vm_compute in H; discriminate H).
Qed.
(** a history with every kind of call *)
Definition v12 : FQ12 FQ := mkFQ12 (FQ6One FqB) (FQ6One FqB).
Definition q_history : list (q12call (F := FQ)) :=
  [QNew v12; QCopy 2; QCopy pFQ12One; QMul 2 2; QMul 2 3; QAdd 3 3; QAdd 3 pFQ12One; QSub 4 pFQ12Zero; QSub 4 3; QConjugate 2; QDouble 4; QNeg 4; QSquare 2; QInverse 3;
   QFrobenius 2 5; QMulBy014 3 (FQ2One FqB) (FQ2One FqB) (FQ2Zero FqB); QExp 2 (FQRepr_const 5); QMiller []; QFinal pFQ12One].
Lemma qok_all_mono {F} (B : BOps F) l : forall m k, WF B m -> k <= n12 m ->
  Forall (fun c => Forall (fun x => x < k) (qobjects c) /\ qreceiver c <> Some pFQ12Zero /\ qreceiver c <> Some pFQ12One) l -> qok_all B m l.
Proof.
  induction l as [|c l IH]; intros m k W Hk H; cbn [qok_all]; [exact I|]. inversion H as [|? ? (Hc & N0 & N1) Hl]; subst.
  assert (qok m c) as Q. { split; [|split; assumption]. unfold qexist. eapply Forall_impl; [|exact Hc]. intros x Hx. cbn beta in Hx. lia. }
  split; [exact Q|]. destruct (qstep_ok B m c W Q) as (W' & N' & _). apply (IH _ k W'); [lia|exact Hl].
Qed.
Theorem q_history_ok : qok_all FqB (mem0 FqB) q_history /\
  val12 (qrun FqB (mem0 FqB) [QNew v12; QCopy 2; QMul 2 2]) 2 = FQ12_MulAssign FqB v12 v12 /\ val12 (qrun FqB (mem0 FqB) [QNew v12; QCopy 2; QMul 2 2]) 3 = v12 /\
  FQ12_MulAssign FqB v12 v12 <> v12.
Proof.
  split.
  - assert (forall l1 l2 m, qok_all FqB m l1 -> qok_all FqB (qrun FqB m l1) l2 -> qok_all FqB m (l1 ++ l2)) as A.
    { induction l1 as [|c l1 IH]; intros l2 m; cbn [app qok_all qrun]; [auto|]. intros [Q K] H. auto. }
    assert (qok_all FqB (mem0 FqB) (firstn 3 q_history)) as H3.
    { cbn [firstn q_history qok_all]. repeat (split; [unfold qok, qexist; cbn [qobjects qreceiver]; split; [repeat constructor|split; discriminate]|]). exact I. }
    rewrite <- (firstn_skipn 3 q_history). apply A; [exact H3|]. destruct (qrun_ok FqB _ _ (WF_mem0 FqB) H3) as [W _].
    apply (qok_all_mono FqB _ _ 5 W); [apply Nat.leb_le; reflexivity|].
    cbn [skipn q_history]. repeat (constructor; [cbn [qobjects qreceiver]; split; [repeat (constructor; [unfold pFQ12Zero, pFQ12One; lia|]); constructor|split; discriminate]|]). constructor.
  - split; [vm_compute; reflexivity|]. split; [vm_compute; reflexivity|]. intros H. apply (f_equal probe) in H. vm_compute in H. discriminate H.
Qed.
