(** Univariate polynomials over a field: coefficient lists (lowest degree first) up to trailing zeros. *)
Require Import ZArith Lia Bool List Ring Field Setoid Morphisms.
From Verif Require Import Fp Fld.
Import ListNotations.

Section Poly.
Context (K : Fld).
Add Field KF1 : (fTh K).
Open Scope fld_scope.

Notation poly := (list (fT K)).
Implicit Types p s t : poly.
Fixpoint coef p (n : nat) : K := match p, n with [], _ => 0 | a :: _, O => a | _ :: r, S k => coef r k end.
Record peq p s : Prop := mkpeq { peq_c : forall n, coef p n = coef s n }.
Fixpoint padd p s : poly := match p, s with [], _ => s | _, [] => p | a :: r, b :: r' => (a + b) :: padd r r' end.
Definition pscale (c : K) p : poly := map (fM c) p.
Definition popp p : poly := map fN p.
Definition psub p s : poly := padd p (popp s).
Fixpoint pmul p s : poly := match p with [] => [] | a :: r => padd (pscale a s) (0 :: pmul r s) end.
Definition pC (c : K) : poly := [c].
Definition pX : poly := [0; 1].
Fixpoint peval p (x : K) : K := match p with [] => 0 | a :: r => a + x * peval r x end.

#[global] Instance peq_equiv : Equivalence peq.
Proof.
  constructor; [intros p; constructor; intros n; reflexivity|intros p s H; constructor; intros n; symmetry; apply H|intros p s t H H'; constructor; intros n; rewrite (peq_c _ _ H n); apply H'].
Qed.
#[global] Instance coef_proper : Proper (peq ==> eq ==> eq) coef.
Proof. intros p s H n ? <-. apply H. Qed.
Lemma coef_nil n : coef [] n = 0. Proof. destruct n; reflexivity. Qed.
Lemma coef_add p s n : coef (padd p s) n = coef p n + coef s n.
Proof.
  revert s n. induction p as [|a p IH]; intros s n.
  - cbn [padd]. rewrite coef_nil. ring.
  - destruct s as [|b s]; cbn [padd]; [rewrite coef_nil; ring|]. destruct n; cbn [coef]; [ring|apply IH].
Qed.
Lemma coef_scale c p n : coef (pscale c p) n = c * coef p n.
Proof. revert n. induction p as [|a p IH]; intros n; [cbn; destruct n; ring|]. destruct n; cbn; [reflexivity|apply IH]. Qed.
Lemma coef_opp p n : coef (popp p) n = - coef p n.
Proof. revert n. induction p as [|a p IH]; intros n; [cbn; destruct n; ring|]. destruct n; cbn; [reflexivity|apply IH]. Qed.
Lemma coef_sub p s n : coef (psub p s) n = coef p n - coef s n.
Proof. unfold psub. rewrite coef_add, coef_opp. ring. Qed.
Lemma coef_mul_0 p s : coef (pmul p s) 0 = coef p 0 * coef s 0.
Proof. destruct p; cbn [pmul]; [cbn; ring|]. rewrite coef_add, coef_scale. cbn. ring. Qed.
Lemma coef_mul_S a p s n : coef (pmul (a :: p) s) (S n) = a * coef s (S n) + coef (pmul p s) n.
Proof. cbn [pmul]. rewrite coef_add, coef_scale. reflexivity. Qed.

Lemma peq_cons a b p s : a = b -> peq p s -> peq (a :: p) (b :: s).
Proof. intros -> H. constructor. intros [|n]; cbn; [reflexivity|apply H]. Qed.
#[global] Instance padd_proper : Proper (peq ==> peq ==> peq) padd.
Proof. intros p p' H s s' H'. constructor; intros n. rewrite !coef_add, H, H'. reflexivity. Qed.
#[global] Instance popp_proper : Proper (peq ==> peq) popp.
Proof. intros p p' H. constructor; intros n. rewrite !coef_opp, H. reflexivity. Qed.
#[global] Instance psub_proper : Proper (peq ==> peq ==> peq) psub.
Proof. intros p p' H s s' H'. constructor; intros n. rewrite !coef_sub, H, H'. reflexivity. Qed.
#[global] Instance pscale_proper c : Proper (peq ==> peq) (pscale c).
Proof. intros p p' H. constructor; intros n. rewrite !coef_scale, H. reflexivity. Qed.
Lemma pmul_r p s s' : peq s s' -> peq (pmul p s) (pmul p s').
Proof. intros H. induction p as [|a p IH]; cbn [pmul]; [reflexivity|]. apply padd_proper; [apply pscale_proper, H|]. apply peq_cons; [reflexivity|exact IH]. Qed.
Lemma pmul_nil_r p : peq (pmul p []) [].
Proof. induction p as [|a p IH]; cbn [pmul]; [reflexivity|]. constructor; intros [|n]; cbn; [reflexivity|]. rewrite IH, coef_nil. reflexivity. Qed.
Lemma pmul_cons_r p b s : peq (pmul p (b :: s)) (padd (pscale b p) (0 :: pmul p s)).
Proof.
  induction p as [|a p IH]; [constructor; intros [|[|n]]; reflexivity|]. constructor; intros [|n].
  - rewrite coef_mul_0, coef_add, coef_scale. cbn [coef]. ring.
  - rewrite coef_mul_S, IH, !coef_add, !coef_scale. cbn [coef]. destruct n; cbn [coef pmul]; rewrite coef_add, coef_scale; cbn [coef]; ring.
Qed.
Lemma pmul_comm p s : peq (pmul p s) (pmul s p).
Proof.
  revert s. induction p as [|a p IH]; intros s; [symmetry; apply pmul_nil_r|].
  rewrite pmul_cons_r. cbn [pmul]. apply padd_proper; [reflexivity|]. apply peq_cons; [reflexivity|apply IH].
Qed.
#[global] Instance pmul_proper : Proper (peq ==> peq ==> peq) pmul.
Proof. intros p p' H s s' H'. rewrite (pmul_r p s s' H'), (pmul_comm p), (pmul_comm p'). apply pmul_r, H. Qed.
Lemma pmul_add_l p p' s : peq (pmul (padd p p') s) (padd (pmul p s) (pmul p' s)).
Proof.
  revert p'. induction p as [|a p IH]; intros p'; [reflexivity|]. destruct p' as [|a' p']; cbn [padd].
  - constructor; intros n. rewrite coef_add. cbn [pmul]. rewrite coef_nil. ring.
  - constructor; intros [|n]; [rewrite coef_add, !coef_mul_0; cbn [coef]; ring|]. rewrite coef_add, !coef_mul_S, IH, coef_add. ring.
Qed.
Lemma pmul_scale_l c p s : peq (pmul (pscale c p) s) (pscale c (pmul p s)).
Proof.
  induction p as [|a p IH]; [reflexivity|]. constructor; intros [|n]; [rewrite coef_scale, !coef_mul_0; cbn; ring|].
  cbn [pscale map]. rewrite coef_scale, !coef_mul_S. fold (pscale c p). rewrite IH, coef_scale. ring.
Qed.
Lemma pmul_shift_l p s : peq (pmul (0 :: p) s) (0 :: pmul p s).
Proof. constructor; intros [|n]; [rewrite coef_mul_0; cbn; ring|]. rewrite coef_mul_S. cbn [coef]. ring. Qed.
Lemma pmul_assoc p s t : peq (pmul p (pmul s t)) (pmul (pmul p s) t).
Proof.
  induction p as [|a p IH]; [reflexivity|]. cbn [pmul]. rewrite pmul_add_l, pmul_shift_l, pmul_scale_l.
  apply padd_proper; [reflexivity|]. apply peq_cons; [reflexivity|exact IH].
Qed.
Lemma pmul_1_l p : peq (pmul (pC 1) p) p.
Proof. constructor; intros [|n]; unfold pC; [rewrite coef_mul_0|rewrite coef_mul_S]; cbn [coef pmul]; [|destruct n; cbn]; ring. Qed.
Lemma pring : ring_theory (@nil K) (pC 1) padd pmul psub popp peq.
Proof.
  constructor; intros.
  - reflexivity.
  - constructor; intros n. rewrite !coef_add. ring.
  - constructor; intros n. rewrite !coef_add. ring.
  - apply pmul_1_l.
  - apply pmul_comm.
  - apply pmul_assoc.
  - apply pmul_add_l.
  - reflexivity.
  - constructor; intros n. rewrite coef_add, coef_opp, coef_nil. ring.
Qed.
Lemma pring_ext : ring_eq_ext padd pmul popp peq.
Proof. constructor; [exact padd_proper|exact pmul_proper|exact popp_proper]. Qed.

(** Evaluation *)
Lemma peval_add p s x : peval (padd p s) x = peval p x + peval s x.
Proof. revert s. induction p as [|a p IH]; intros [|b s]; cbn; try ring. rewrite IH. ring. Qed.
Lemma peval_scale c p x : peval (pscale c p) x = c * peval p x.
Proof. induction p as [|a p IH]; cbn; [ring|]. fold (pscale c p). rewrite IH. ring. Qed.
Lemma peval_opp p x : peval (popp p) x = - peval p x.
Proof. induction p as [|a p IH]; cbn; [ring|]. fold (popp p). rewrite IH. ring. Qed.
Lemma peval_sub p s x : peval (psub p s) x = peval p x - peval s x.
Proof. unfold psub. rewrite peval_add, peval_opp. ring. Qed.
Lemma peval_mul p s x : peval (pmul p s) x = peval p x * peval s x.
Proof. induction p as [|a p IH]; cbn; [ring|]. rewrite peval_add, peval_scale. cbn. rewrite IH. ring. Qed.
Lemma peval_zero p x : peq p [] -> peval p x = 0.
Proof.
  induction p as [|a p IH]; intros H; [reflexivity|]. cbn. rewrite IH.
  - pose proof (peq_c _ _ H O) as E. cbn in E. rewrite E. ring.
  - constructor; intros n. exact (peq_c _ _ H (S n)).
Qed.
#[global] Instance peval_proper : Proper (peq ==> eq ==> eq) peval.
Proof.
  intros p p' H x ? <-. apply (fld_sub_0 K). rewrite <- peval_sub. apply peval_zero. constructor; intros n. rewrite coef_sub, H, coef_nil. ring.
Qed.
Lemma peval_C c x : peval (pC c) x = c. Proof. cbn. ring. Qed.
Lemma peval_X x : peval pX x = x. Proof. cbn. ring. Qed.

(** Leading terms *)
Definition lead p (n : nat) (c : K) : Prop := coef p n = c /\ c <> 0 /\ forall m, (n < m)%nat -> coef p m = 0.
Lemma lead_proper p s n c : peq p s -> lead p n c -> lead s n c.
Proof. intros E (A & B & C). split; [rewrite <- E; exact A|]. split; [exact B|]. intros m Hm. rewrite <- E. auto. Qed.
Lemma lead_exists p : peq p [] \/ exists n c, lead p n c.
Proof.
  induction p as [|a p IH]; [left; reflexivity|]. destruct IH as [Z|(n & c & A & B & C)].
  - destruct (fDec a 0) as [->|N].
    + left. constructor; intros [|n]; [reflexivity|]. cbn. rewrite Z, coef_nil. reflexivity.
    + right. exists O, a. split; [reflexivity|]. split; [exact N|]. intros [|m] Hm; [lia|]. cbn. rewrite Z, coef_nil. reflexivity.
  - right. exists (S n), c. split; [exact A|]. split; [exact B|]. intros [|m] Hm; [lia|]. cbn. apply C. lia.
Qed.
Lemma lead_unique p n c n' c' : lead p n c -> lead p n' c' -> n = n' /\ c = c'.
Proof.
  intros (A & B & C) (A' & B' & C'). assert (n = n') as E.
  { destruct (Nat.lt_trichotomy n n') as [L|[E|L]]; [|exact E|]; exfalso; [apply B'; rewrite <- A'; auto|apply B; rewrite <- A; auto]. }
  subst n'. split; [reflexivity|congruence].
Qed.
Lemma lead_nz p n c : lead p n c -> ~ peq p []. Proof. intros (A & B & _) E. apply B. rewrite <- A, E. apply coef_nil. Qed.
Lemma coef_mul_bound p s n m : (forall k, (n < k)%nat -> coef p k = 0) -> (forall k, (m < k)%nat -> coef s k = 0) ->
  (forall k, (n + m < k)%nat -> coef (pmul p s) k = 0) /\ coef (pmul p s) (n + m) = coef p n * coef s m.
Proof.
  revert n. induction p as [|a p IH]; intros n Hp Hs.
  - split; intros; cbn [pmul]; rewrite ?coef_nil; ring.
  - destruct n as [|n].
    + assert (peq p []) as Z by (constructor; intros k; rewrite coef_nil; apply (Hp (S k)); lia).
      assert (forall k, coef (pmul (a :: p) s) k = a * coef s k) as E.
      { intros k. cbn [pmul]. rewrite coef_add, coef_scale. destruct k; cbn [coef]; [ring|]. rewrite Z. cbn [pmul]. rewrite coef_nil. ring. }
      split; [intros k Hk; rewrite E, Hs by lia; ring|]. rewrite E. reflexivity.
    + destruct (IH n) as [I1 I2]; [intros k Hk; apply (Hp (S k)); lia|exact Hs|]. split.
      * intros [|k] Hk; [lia|]. rewrite coef_mul_S, Hs, I1 by lia. ring.
      * cbn [Nat.add]. rewrite coef_mul_S, I2, Hs by lia. cbn [coef]. ring.
Qed.
Lemma lead_mul p s n c m d : lead p n c -> lead s m d -> lead (pmul p s) (n + m) (c * d).
Proof.
  intros (A & B & C) (A' & B' & C'). destruct (coef_mul_bound p s n m C C') as [H1 H2].
  split; [rewrite H2, A, A'; reflexivity|]. split; [apply fld_mul_ne; assumption|exact H1].
Qed.
Lemma pmul_nz p s : ~ peq p [] -> ~ peq s [] -> ~ peq (pmul p s) [].
Proof.
  intros H H'. destruct (lead_exists p) as [|(n & c & L)]; [contradiction|]. destruct (lead_exists s) as [|(m & d & L')]; [contradiction|].
  exact (lead_nz _ _ _ (lead_mul _ _ _ _ _ _ L L')).
Qed.
(** sum of two polynomials of different degrees *)
Lemma lead_sub_gt p s n c : lead p n c -> (forall k, (n <= k)%nat -> coef s k = 0) -> lead (psub p s) n c.
Proof.
  intros (A & B & C) H. split; [rewrite coef_sub, A, H by lia; ring|]. split; [exact B|]. intros m Hm. rewrite coef_sub, C, H by lia. ring.
Qed.
Lemma lead_sub_lt p s n c : (forall k, (n <= k)%nat -> coef p k = 0) -> lead s n c -> lead (psub p s) n (- c).
Proof.
  intros H (A & B & C). split; [rewrite coef_sub, A, H by lia; ring|]. split; [apply fld_opp_ne, B|]. intros m Hm. rewrite coef_sub, C, H by lia. ring.
Qed.
End Poly.
Arguments coef {K}. Arguments peq {K}. Arguments padd {K}. Arguments pscale {K}. Arguments popp {K}. Arguments psub {K}. Arguments pmul {K}.
Arguments pC {K}. Arguments pX {K}. Arguments peval {K}. Arguments lead {K}.
