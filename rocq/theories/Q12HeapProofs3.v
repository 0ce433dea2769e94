(** FQ12 in memory: the final exponentiation, pairings, histories of calls. *)
Require Import ZArith Bool List Arith Lia.
From Verif Require Import Words ModelRepr ModelFq ModelOps ModelTower ModelCurve ModelPairing ModelQ12Heap Q12HeapProofs Q12HeapProofs2.
Import ListNotations.
Local Open Scope nat_scope.

Section M.
Context {F : Type} (B : BOps F).
Notation mem := (Mem F). Notation WF := (WF B). Notation Upd := (Upd B). Notation New := (New B).

(** the known objects of the current memory [m]: [Q : m ! z = v] *)
Definition known (m : mem) (z : nat) (v : FQ12 F) : Prop := z < n12 m /\ 2 <= z /\ val12 m z = v.
Lemma known_live m z v : known m z v -> live m z. Proof. intros (A & C & _). split; assumption. Qed.
Lemma known_new m m' x v : WF m -> New m m' x v -> known m' x v.
Proof. intros W K. pose proof (new_live B _ _ _ _ W K) as [L L']. split; [exact L'|]. split; [exact L|]. apply (w_val B _ _ _ _ K). Qed.
Lemma known_keep m m' x v z w : New m m' x v -> known m z w -> known m' z w /\ z < x.
Proof. intros [_ L _ Fr] (A & C & V). split; [|lia]. split; [lia|]. split; [exact C|]. rewrite Fr by exact A. exact V. Qed.
Lemma known_upd m m' x v w : Upd m m' x v -> known m x w -> known m' x v.
Proof. intros [_ N V _] (A & C & _). split; [lia|]. split; assumption. Qed.
Lemma known_stay m m' x v z w : Upd m m' x v -> z <> x -> known m z w -> known m' z w.
Proof. intros [_ N _ Fr] D (A & C & V). split; [lia|]. split; [exact C|]. rewrite Fr by assumption. exact V. Qed.
(** nothing that existed in m0 has changed *)
Definition kept (m0 m : mem) : Prop := n12 m0 <= n12 m /\ forall z, z < n12 m0 -> val12 m z = val12 m0 z.
Lemma kept_refl m : kept m m. Proof. split; auto. Qed.
Lemma kept_new m0 m m' x v : kept m0 m -> New m m' x v -> kept m0 m'.
Proof. intros [A V] [_ L _ Fr]. split; [lia|]. intros z Hz. rewrite Fr by lia. apply V, Hz. Qed.
Lemma kept_upd m0 m m' x v : kept m0 m -> n12 m0 <= x -> Upd m m' x v -> kept m0 m'.
Proof. intros [A V] L [_ N _ Fr]. split; [lia|]. intros z Hz. rewrite Fr by lia. apply V, Hz. Qed.
End M.

Ltac keep_new W K :=   (* K : New m m' x v *)
  match type of K with New ?B ?m ?m' ?x ?v =>
    repeat match goal with Q : known m ?z ?w |- _ => let Q' := fresh "Q" in let D := fresh "D" in destruct (known_keep B m m' x v z w K Q) as [Q' D]; clear Q end;
    let Q' := fresh "Q" in pose proof (known_new B m m' x v W K) as Q';
    match goal with R : kept ?m0 m |- _ => let L := fresh "L" in assert (n12 m0 <= x) as L by (destruct (w_live B m m' x v K); destruct R; lia); apply (kept_new B m0 m m' x v R) in K as R'; clear R; rename R' into R end;
    let W' := fresh "W'" in pose proof (w_wf B m m' x v K) as W'; clear W K; rename W' into W end.
Ltac copy_step W :=
  match goal with |- context[m12_Copy ?m ?y] =>
    match goal with Q : known m y ?v |- _ =>
      let K := fresh "K" in pose proof (copy_ok _ m y W (proj1 Q)) as K; rewrite (proj2 (proj2 Q)) in K;
      destruct (m12_Copy m y); cbn [fst snd] in K; keep_new W K end end.
Ltac exp_step W :=
  match goal with |- context[m_ExpByX ?B ?m ?y ?n] =>
    match goal with Q : known m y ?v |- _ =>
      let K := fresh "K" in pose proof (expx_ok _ m y n W (proj1 Q)) as K; rewrite (proj2 (proj2 Q)) in K;
      destruct (m_ExpByX B m y n); cbn [fst snd] in K; keep_new W K end end.
Ltac keep_upd W U :=   (* U : Upd m m' x v *)
  match type of U with Upd ?B ?m ?m' ?x ?v =>
    repeat match goal with Q : known m ?z ?w |- _ =>
      let Q' := fresh "Q" in
      lazymatch z with
      | x => pose proof (known_upd B m m' x v w U Q) as Q'
      | _ => assert (known m' z w) as Q' by (refine (known_stay B m m' x v z w U _ Q); lia)
      end; clear Q end;
    match goal with R : kept ?m0 m, L : n12 ?m0 <= x |- _ => apply (kept_upd B m0 m m' x v R L) in U as R'; clear R; rename R' into R end;
    let W' := fresh "W'" in pose proof (u_wf B m m' x v U) as W'; clear W; rename W' into W;
    let M := fresh "m" in set (M := m') in *; clearbody M; clear U end.
Ltac upd1 W op ok :=
  match goal with |- context[op ?B ?m ?x] =>
    match goal with Q : known m x ?v |- _ => let U := fresh "U" in pose proof (ok B m x W (known_live m x v Q)) as U; rewrite (proj2 (proj2 Q)) in U; keep_upd W U end end.
Ltac updf W :=
  match goal with |- context[m12_FrobeniusMapAssign ?B ?m ?x ?k] =>
    match goal with Q : known m x ?v |- _ => let U := fresh "U" in pose proof (frob_ok B m x k W (known_live m x v Q)) as U; rewrite (proj2 (proj2 Q)) in U; keep_upd W U end end.
Ltac updm W :=
  match goal with |- context[m12_MulAssign ?B ?m ?x ?y] =>
    match goal with Q : known m x ?v, Q' : known m y ?w |- _ => let U := fresh "U" in pose proof (mul_ok B m x y W (known_live m x v Q) (proj1 Q')) as U; rewrite (proj2 (proj2 Q)), (proj2 (proj2 Q')) in U; keep_upd W U end end.

Section M2.
Context {F : Type} (B : BOps F).
Notation mem := (Mem F). Notation WF := (WF B). Notation Upd := (Upd B). Notation New := (New B).
Definition same_fe (m : mem) (o : mem * option nat) (o' : option (FQ12 F)) : Prop :=
  WF (fst o) /\ kept m (fst o) /\
  match snd o, o' with Some e, Some v => n12 m <= e < n12 (fst o) /\ val12 (fst o) e = v | None, None => True | _, _ => False end.
Lemma final_ok m r : WF m -> r < n12 m -> same_fe m (m_FinalExponentiation B m r) (FinalExponentiation B (val12 m r)).
Proof.
  intros W Hr. pose proof (kept_refl m) as R. remember (FinalExponentiation B (val12 m r)) as goal eqn:G. unfold m_FinalExponentiation.
  set (v0 := val12 m r) in *. pose proof (copy_ok B m r W Hr) as K. fold v0 in K.
  assert (val12 (fst (m12_Copy m r)) r = v0) as V0 by (apply (w_frame B _ _ _ _ K), Hr). assert (r < n12 (fst (m12_Copy m r))) as Hr1 by (destruct (w_live B _ _ _ _ K); lia).
  destruct (m12_Copy m r) as [m1 f1]. cbn [fst snd] in *.
  assert (r < f1) as Df by (destruct (w_live B _ _ _ _ K); lia).
  keep_new W K. pose proof (conj_ok B m1 f1 W (known_live _ _ _ Q)) as U. rewrite (proj2 (proj2 Q)) in U.
  assert (val12 (m12_ConjugateAssign B m1 f1) r = v0) as V1 by (rewrite (u_frame B _ _ _ _ U) by lia; exact V0).
  assert (r < n12 (m12_ConjugateAssign B m1 f1)) as Hr2 by (rewrite (u_n B _ _ _ _ U); exact Hr1).
  clear V0 Hr1. keep_upd W U. pose proof (copy_ok B _ r W Hr2) as K. rewrite V1 in K. clear V1 Hr2.
  match goal with |- context[m12_Copy ?m r] => destruct (m12_Copy m r) as [m3 f2] end. cbn [fst snd] in K. keep_new W K. clear Df Hr. clearbody v0. clear r m1 m0.
  match goal with |- context[m12_InverseAssign B ?m ?x] => match goal with Q : known m x _ |- _ => destruct (inv_ok B m x W (known_live m x _ Q)) as [U E]; rewrite (proj2 (proj2 Q)) in U, E end end.
  destruct (m12_InverseAssign B m3 f2) as [m4 ok]. cbn [fst snd] in U, E. subst ok. destruct (FQ12_InverseAssign B v0) as [vi ok] eqn:Ei. cbn [fst snd] in U |- *.
  unfold FinalExponentiation in G. rewrite Ei in G. destruct ok; cbn [negb] in G |- *.
  2:{ subst goal. keep_upd W U. split; [exact W|]. split; [exact R|exact I]. }
  keep_upd W U. clear m3 m4.
  repeat first [copy_step W | exp_step W | upd1 W (@m12_ConjugateAssign F) (@conj_ok F) | upd1 W (@m12_SquareAssign F) (@sq_ok F) | updf W | updm W].
  split; [exact W|]. split; [exact R|]. cbn [fst snd]. subst goal. cbv beta iota.
  match goal with Q : known ?mm ?e _ |- (_ /\ ?e < _) /\ _ => destruct Q as (X1 & X2 & X3) end. split; [split; assumption|]. rewrite X3. reflexivity.
Qed.

(** ** Pairing, CompareTwoPairings *)
Lemma new_kept m m' x v : New m m' x v -> kept m m'.
Proof. intros [_ L _ Fr]. split; [lia|exact Fr]. Qed.
Lemma kept_trans (m m1 m2 : mem) : kept m m1 -> kept m1 m2 -> kept m m2.
Proof. intros [A V] [A' V']. split; [lia|]. intros z Hz. rewrite V' by lia. apply V, Hz. Qed.
Lemma pairing_ok m p q : WF m ->
  match m_Pairing B m p q with
  | Some (m', Some e) => WF m' /\ kept m m' /\ n12 m <= e < n12 m' /\ Pairing B p q = Some (val12 m' e)
  | Some (m', None) => WF m' /\ kept m m' /\ Pairing B p q = None
  | None => Pairing B p q = None
  end.
Proof.
  intros W. unfold m_Pairing, Pairing. set (items := [_]). pose proof (miller_ok B m items W) as S. unfold same_result in S.
  destruct (m_MillerLoop B m items) as [[m1 f]|], (MillerLoop B items) as [v|]; try contradiction; [|reflexivity].
  destruct (w_live B _ _ _ _ S) as [Lf Lf']. pose proof (final_ok m1 f (w_wf B _ _ _ _ S) Lf') as (W2 & K2 & E2). rewrite (w_val B _ _ _ _ S) in E2.
  destruct (m_FinalExponentiation B m1 f) as [m2 o]. cbn [fst snd] in *. pose proof (kept_trans _ _ _ (new_kept _ _ _ _ S) K2) as K.
  destruct o as [e|], (FinalExponentiation B v) as [w|]; try contradiction.
  - destruct E2 as [L E2]. rewrite E2. pose proof (proj1 (new_kept _ _ _ _ S)). split; [exact W2|]. split; [exact K|]. split; [lia|reflexivity].
  - split; [exact W2|]. split; [exact K|reflexivity].
Qed.
Lemma compare_ok m P1 Q1 P2 Q2 : WF m ->
  match m_CompareTwoPairings B m P1 Q1 P2 Q2 with
  | Some (m', b) => WF m' /\ kept m m' /\ CompareTwoPairings B P1 Q1 P2 Q2 = Some b
  | None => CompareTwoPairings B P1 Q1 P2 Q2 = None
  end.
Proof.
  intros W. unfold m_CompareTwoPairings, CompareTwoPairings. set (items := [_; _]). pose proof (miller_ok B m items W) as S. unfold same_result in S.
  destruct (m_MillerLoop B m items) as [[m1 f]|], (MillerLoop B items) as [v|]; try contradiction; [|reflexivity].
  destruct (w_live B _ _ _ _ S) as [Lf Lf']. pose proof (final_ok m1 f (w_wf B _ _ _ _ S) Lf') as (W2 & K2 & E2). rewrite (w_val B _ _ _ _ S) in E2.
  destruct (m_FinalExponentiation B m1 f) as [m2 o]. cbn [fst snd] in *. pose proof (kept_trans _ _ _ (new_kept _ _ _ _ S) K2) as K.
  destruct o as [e|], (FinalExponentiation B v) as [w|]; try contradiction; [|reflexivity].
  destruct E2 as [L E2]. split; [exact W2|]. split; [exact K|]. rewrite <- E2, <- (val_one B m2 W2). reflexivity.
Qed.

(** ** histories *)
(** the value a writing call leaves in its receiver, from the values of the objects before the call *)
Definition written (v : nat -> FQ12 F) (c : q12call (F := F)) : FQ12 F :=
  match c with
  | QConjugate x => FQ12_ConjugateAssign B (v x) | QDouble x => FQ12_DoubleAssign B (v x) | QNeg x => FQ12_NegAssign B (v x)
  | QSquare x => FQ12_SquareAssign B (v x) | QInverse x => fst (FQ12_InverseAssign B (v x))
  | QFrobenius x p => FQ12_FrobeniusMapAssign B (v x) p | QMulBy014 x k0 k1 k4 => FQ12_MulBy014Assign B (v x) k0 k1 k4
  | QAdd x y => FQ12_AddAssign B (v x) (v y) | QSub x y => FQ12_SubAssign B (v x) (v y) | QMul x y => FQ12_MulAssign B (v x) (v y)
  | _ => v 0
  end.
Definition step_good (m m' : mem) (c : q12call) : Prop :=
  WF m' /\ n12 m <= n12 m' /\ (forall z, z < n12 m -> qreceiver c <> Some z -> val12 m' z = val12 m z) /\
  (forall x, qreceiver c = Some x -> val12 m' x = written (val12 m) c).
Lemma good_upd m m' c x v : qreceiver c = Some x -> written (val12 m) c = v -> Upd m m' x v -> step_good m m' c.
Proof.
  intros Hc Hw [W N V Fr]. split; [exact W|]. split; [lia|]. rewrite Hc. split.
  - intros z Hz Nz. apply Fr; congruence.
  - intros y [= <-]. congruence.
Qed.
Lemma good_kept m m' c : qreceiver c = None -> WF m' -> kept m m' -> step_good m m' c.
Proof. intros Hc W [N V]. split; [exact W|]. split; [exact N|]. rewrite Hc. split; [intros z Hz _; apply V, Hz|discriminate]. Qed.
Lemma qstep_ok m c : WF m -> qok m c -> step_good m (qstep B m c) c.
Proof.
  intros W (Ex & N0 & N1). unfold qexist in Ex.
  assert (forall x, qreceiver c = Some x -> In x (qobjects c) -> live m x) as Lr.
  { intros x Hx Hi. rewrite Forall_forall in Ex. specialize (Ex x Hi). unfold live, pFQ12Zero, pFQ12One in *. rewrite Hx in N0, N1.
    destruct x as [|[|x]]; [congruence|congruence|lia]. }
  destruct c; cbn [qstep qobjects qreceiver] in *;
    repeat match goal with H : Forall _ (_ :: _) |- _ => inversion H; clear H; subst | H : Forall _ [] |- _ => clear H end;
    try (match goal with H : forall y, Some ?x = Some y -> _ |- _ => specialize (H x eq_refl (or_introl eq_refl)) end).
  - apply good_kept; [reflexivity|eapply w_wf, New_ok, W|eapply new_kept, New_ok, W].
  - apply good_kept; [reflexivity|eapply w_wf, copy_ok; assumption|eapply new_kept, copy_ok; assumption].
  - apply good_kept; [reflexivity|eapply w_wf, exp_ok; assumption|eapply new_kept, exp_ok; assumption].
  - eapply good_upd; [reflexivity|reflexivity|apply conj_ok; assumption].
  - eapply good_upd; [reflexivity|reflexivity|apply dbl_ok; assumption].
  - eapply good_upd; [reflexivity|reflexivity|apply neg_ok; assumption].
  - eapply good_upd; [reflexivity|reflexivity|apply sq_ok; assumption].
  - eapply good_upd; [reflexivity|reflexivity|apply (inv_ok B m); assumption].
  - eapply good_upd; [reflexivity|reflexivity|apply frob_ok; assumption].
  - eapply good_upd; [reflexivity|reflexivity|apply mul014_ok; assumption].
  - eapply good_upd; [reflexivity|reflexivity|apply add_ok; assumption].
  - eapply good_upd; [reflexivity|reflexivity|apply sub_ok; assumption].
  - eapply good_upd; [reflexivity|reflexivity|apply mul_ok; assumption].
  - pose proof (miller_ok B m items W) as S. unfold same_result in S. destruct (m_MillerLoop B m items) as [[m1 f]|]; [destruct (MillerLoop B items); [|contradiction]|];
      (apply good_kept; [reflexivity| |]); [exact (w_wf B _ _ _ _ S)|exact (new_kept _ _ _ _ S)|exact W|apply kept_refl].
  - match goal with H : x < n12 m |- _ => destruct (final_ok m x W H) as (Wf & Kf & _) end. apply good_kept; [reflexivity|exact Wf|exact Kf].
  - pose proof (pairing_ok m p q W) as S. destruct (m_Pairing B m p q) as [[m1 [e|]]|]; (apply good_kept; [reflexivity| |]); try apply S; [exact W|apply kept_refl].
  - pose proof (compare_ok m P1 Q1 P2 Q2 W) as S. destruct (m_CompareTwoPairings B m P1 Q1 P2 Q2) as [[m1 b]|]; (apply good_kept; [reflexivity| |]); try apply S; [exact W|apply kept_refl].
Qed.
Lemma qrun_ok l : forall m, WF m -> qok_all B m l -> WF (qrun B m l) /\ n12 m <= n12 (qrun B m l).
Proof.
  induction l as [|c l IH]; intros m W; cbn [qok_all qrun]; [auto|]. intros [Hc Hl]. destruct (qstep_ok m c W Hc) as (W' & N & _). destruct (IH _ W' Hl). split; [assumption|lia].
Qed.
(** the package variables never change *)
Theorem q12_package l : qok_all B (mem0 B) l -> val12 (qrun B (mem0 B) l) pFQ12Zero = FQ12Zero B /\ val12 (qrun B (mem0 B) l) pFQ12One = FQ12One B.
Proof. intros H. destruct (qrun_ok l _ (WF_mem0 B) H) as [W _]. split; [apply val_zero, W|apply val_one, W]. Qed.
(** one more call: what it writes, and what it leaves alone *)
Theorem q12_call l c : qok_all B (mem0 B) (l ++ [c]) -> let m := qrun B (mem0 B) l in let m' := qstep B m c in
  (forall x, qreceiver c = Some x -> val12 m' x = written (val12 m) c) /\ (forall z, z < n12 m -> qreceiver c <> Some z -> val12 m' z = val12 m z).
Proof.
  intros H m m'. assert (forall l m, qok_all B m (l ++ [c]) -> qok_all B m l /\ qok (qrun B m l) c) as K.
  { clear. induction l as [|d l IH]; intros m; cbn [app qok_all qrun]; [intros [A _]; split; [exact Logic.I|exact A]|]. intros [A K]. destruct (IH _ K). auto. }
  destruct (K l _ H) as [Hl Hc]. destruct (qrun_ok l _ (WF_mem0 B) Hl) as [W _]. destruct (qstep_ok m c W Hc) as (_ & _ & A & D). auto.
Qed.
(** calls that return a result *)
Theorem q12_results l : qok_all B (mem0 B) l -> let m := qrun B (mem0 B) l in
  (forall v, let '(m', x) := m12_New m v in n12 m <= x < n12 m' /\ val12 m' x = v) /\
  (forall y, y < n12 m -> let '(m', x) := m12_Copy m y in n12 m <= x < n12 m' /\ val12 m' x = val12 m y) /\
  (forall y n, y < n12 m -> let '(m', x) := m12_Exp B m y n in n12 m <= x < n12 m' /\ val12 m' x = FQ12_Exp B (val12 m y) n) /\
  (forall y, 2 <= y < n12 m -> snd (m12_InverseAssign B m y) = snd (FQ12_InverseAssign B (val12 m y))) /\
  (forall x y, x < n12 m -> y < n12 m -> m12_Equals B m x y = FQ12_Equals B (val12 m x) (val12 m y) /\ m12_IsZero B m x = FQ12_IsZero B (val12 m x)) /\
  (forall items, match m_MillerLoop B m items with Some (m', x) => n12 m <= x < n12 m' /\ MillerLoop B items = Some (val12 m' x) | None => MillerLoop B items = None end) /\
  (forall y, y < n12 m -> let '(m', o) := m_FinalExponentiation B m y in
     match o with Some x => n12 m <= x < n12 m' /\ FinalExponentiation B (val12 m y) = Some (val12 m' x) | None => FinalExponentiation B (val12 m y) = None end) /\
  (forall p q, match m_Pairing B m p q with
     | Some (m', Some x) => n12 m <= x < n12 m' /\ Pairing B p q = Some (val12 m' x) | Some (_, None) | None => Pairing B p q = None end) /\
  (forall P1 Q1 P2 Q2, match m_CompareTwoPairings B m P1 Q1 P2 Q2 with
     | Some (m', b) => CompareTwoPairings B P1 Q1 P2 Q2 = Some b | None => CompareTwoPairings B P1 Q1 P2 Q2 = None end).
Proof.
  intros H m. destruct (qrun_ok l _ (WF_mem0 B) H) as [W _]. change (qrun B (mem0 B) l) with m in W. clearbody m.
  repeat apply conj.
  - intros v. pose proof (New_ok B m v W) as K. destruct (m12_New m v). split; [apply (w_live B _ _ _ _ K)|apply (w_val B _ _ _ _ K)].
  - intros y Hy. pose proof (copy_ok B m y W Hy) as K. destruct (m12_Copy m y). split; [apply (w_live B _ _ _ _ K)|apply (w_val B _ _ _ _ K)].
  - intros y n Hy. pose proof (exp_ok B m y n W Hy) as K. destruct (m12_Exp B m y n). split; [apply (w_live B _ _ _ _ K)|apply (w_val B _ _ _ _ K)].
  - intros y Hy. apply (inv_ok B m y W Hy).
  - intros x y Hx Hy. split; [reflexivity|]. unfold m12_IsZero, m6_IsZero, m6_Equals, FQ12_IsZero, FQ6_IsZero, pFQ6Zero. rewrite (wf_vz B m W). reflexivity.
  - intros items. pose proof (miller_ok B m items W) as S. unfold same_result in S. destruct (m_MillerLoop B m items) as [[m1 f]|], (MillerLoop B items); try contradiction; [|reflexivity].
    split; [apply (w_live B _ _ _ _ S)|]. rewrite (w_val B _ _ _ _ S). reflexivity.
  - intros y Hy. pose proof (final_ok m y W Hy) as (_ & _ & S). destruct (m_FinalExponentiation B m y) as [m1 [e|]]; cbn [fst snd] in S; destruct (FinalExponentiation B (val12 m y)); try contradiction; [|reflexivity].
    destruct S as [L ->]. auto.
  - intros p q. pose proof (pairing_ok m p q W) as S. destruct (m_Pairing B m p q) as [[m1 [e|]]|]; [|apply S|exact S]. split; apply S.
  - intros P1 Q1 P2 Q2. pose proof (compare_ok m P1 Q1 P2 Q2 W) as S. destruct (m_CompareTwoPairings B m P1 Q1 P2 Q2) as [[m1 b]|]; [apply S|exact S].
Qed.
End M2.
