(** Polynomials given by coefficient lists over any instance of the field operations, evaluated over a field.  An identity
    between polynomials is checked on the coefficients, in whatever instance evaluates fastest. *)
Require Import ZArith Lia Bool List Ring Field.
From Verif Require Import Words ModelRepr ModelOps ModelTower ModelCurve ModelHash OpsRel OpsRel2 Fp Fld EcGroup EcJac.
Import ListNotations.

Section PolyOps.
Context {C : Type} (O : Ops C).
Fixpoint padd (l m : list C) : list C :=
  match l, m with [], _ => m | _, [] => l | a :: l, b :: m => o_add O a b :: padd l m end.
Definition pscale (c : C) (l : list C) : list C := map (o_mul O c) l.
Definition pmul (l m : list C) : list C := fold_right (fun c acc => padd (pscale c m) (o_zero O :: acc)) [] l.
Definition pcube (l : list C) : list C := pmul (pmul l l) l.
Fixpoint peq (l m : list C) : bool :=
  match l, m with [], [] => true | a :: l, b :: m => o_equals O a b && peq l m | _, _ => false end.
(** yd^2 = xd^3 and (x^3 + A x + B) yn^2 = xn^3 + b xd^3 *)
Definition iso_chk (A B b : C) (xn xd yn yd : list C) : bool :=
  peq (pmul yd yd) (pcube xd) && peq (pmul [B; A; o_zero O; o_one O] (pmul yn yn)) (padd (pcube xn) (pmul [b] (pcube xd))).
End PolyOps.

Section PolyRel.
Context {C C' : Type} (O : Ops C) (O' : Ops C') (R : C -> C' -> Prop) (HR : RelO O O' R).
Notation RL := (Forall2 R).
Lemma rel_padd l l' m m' : RL l l' -> RL m m' -> RL (padd O l m) (padd O' l' m').
Proof.
  intros H. revert m m'. induction H as [|a a' l l' Ha Hl IH]; intros m m' Hm; [exact Hm|].
  destruct Hm as [|b b' m m' Hb Hm]; cbn [padd]; constructor; auto. apply (ro_add _ _ _ HR); assumption.
Qed.
Lemma rel_pscale c c' l l' : R c c' -> RL l l' -> RL (pscale O c l) (pscale O' c' l').
Proof. intros Hc H. induction H; cbn; constructor; auto. apply (ro_mul _ _ _ HR); assumption. Qed.
Lemma rel_pmul l l' m m' : RL l l' -> RL m m' -> RL (pmul O l m) (pmul O' l' m').
Proof.
  intros H Hm. induction H as [|a a' l l' Ha Hl IH]; cbn [pmul fold_right]; [constructor|]. apply rel_padd; [apply rel_pscale; assumption|].
  constructor; [apply (ro_zero _ _ _ HR)|exact IH].
Qed.
Lemma rel_peq l l' m m' : RL l l' -> RL m m' -> peq O l m = peq O' l' m'.
Proof.
  intros H. revert m m'. induction H as [|a a' l l' Ha Hl IH]; intros m m' Hm; destruct Hm as [|b b' m m' Hb Hm]; cbn [peq]; auto.
  rewrite (ro_equals _ _ _ HR a a' b b' Ha Hb), (IH m m' Hm). reflexivity.
Qed.
Lemma rel_iso_chk A A' B B' b b' xn xn' xd xd' yn yn' yd yd' : R A A' -> R B B' -> R b b' -> RL xn xn' -> RL xd xd' -> RL yn yn' -> RL yd yd' ->
  iso_chk O A B b xn xd yn yd = iso_chk O' A' B' b' xn' xd' yn' yd'.
Proof.
  intros HA HB Hb Hxn Hxd Hyn Hyd. unfold iso_chk, pcube. f_equal; apply rel_peq; repeat first [apply rel_pmul|apply rel_padd|assumption|apply Forall2_cons|apply Forall2_nil|apply (ro_zero _ _ _ HR)|apply (ro_one _ _ _ HR)].
Qed.
End PolyRel.

Section Poly.
Context (K : Fld) (O : Ops K) (HO : OpsFld K O).
Add Field KFp : (fTh K).
Open Scope fld_scope.
Definition pev (l : list K) (x : K) : K := fold_right (fun c v => (c + x * v)%F) 0%F l.
Lemma pev_cons c l x : pev (c :: l) x = c + x * pev l x. Proof. reflexivity. Qed.
Lemma pev_nil x : pev [] x = 0. Proof. reflexivity. Qed.
Lemma pev_add l m x : pev (padd O l m) x = pev l x + pev m x.
Proof. revert m. induction l as [|a l IH]; intros [|b m]; cbn [padd]; rewrite ?pev_nil; try ring. rewrite !pev_cons, IH, (of_add K O HO). ring. Qed.
Lemma pev_scale c l x : pev (pscale O c l) x = c * pev l x.
Proof. induction l as [|a l IH]; cbn [pscale map]; rewrite ?pev_nil; [ring|]. rewrite !pev_cons. fold (pscale O c l). rewrite IH, (of_mul K O HO). ring. Qed.
Lemma pev_mul l m x : pev (pmul O l m) x = pev l x * pev m x.
Proof. induction l as [|a l IH]; cbn [pmul fold_right]; rewrite ?pev_nil; [ring|]. fold (pmul O l m). rewrite pev_add, !pev_cons, pev_scale, IH, (of_zero K O HO). ring. Qed.
Lemma peq_eq l m : peq O l m = true -> l = m.
Proof.
  revert m. induction l as [|a l IH]; intros [|b m]; cbn [peq]; intros H; try reflexivity; try discriminate H.
  apply andb_true_iff in H. destruct H as [H1 H2]. rewrite (of_equals K O HO) in H1. destruct (fDec a b) as [->|]; [|discriminate H1]. rewrite (IH m H2). reflexivity.
Qed.
Lemma iso_chk_ok A B b xn xd yn yd x : iso_chk O A B b xn xd yn yd = true ->
  pev yd x * pev yd x = pev xd x * pev xd x * pev xd x /\
  (x * x * x + A * x + B) * (pev yn x * pev yn x) = pev xn x * pev xn x * pev xn x + b * (pev xd x * pev xd x * pev xd x).
Proof.
  unfold iso_chk, pcube. intros H. apply andb_true_iff in H. destruct H as [H1 H2]. apply peq_eq in H1, H2.
  apply (f_equal (fun l => pev l x)) in H1, H2. rewrite !pev_mul in H1. rewrite pev_add in H2. rewrite !pev_mul in H2. split; [exact H1|].
  transitivity (pev [B; A; o_zero O; o_one O] x * (pev yn x * pev yn x)); [|rewrite H2].
  - rewrite !pev_cons, pev_nil, (of_zero K O HO), (of_one K O HO). ring.
  - rewrite !pev_cons, !pev_nil. ring.
Qed.
Lemma horner_fold rest top x : fold_left (fun v k => o_add O (o_mul O v x) k) rest top = pev (rev rest ++ [top]) x.
Proof.
  revert top. induction rest as [|k rest IH]; intros top; cbn [fold_left rev app]; [cbn; ring|].
  rewrite IH, (of_add K O HO), (of_mul K O HO), <- app_assoc. cbn [app].
  assert (forall l a b, pev (l ++ [(a * x + b)%F]) x = pev (l ++ [b; a]) x) as G.
  { intros l a b. induction l as [|c l IHl]; cbn; [ring|]. unfold pev in IHl. rewrite IHl. reflexivity. }
  apply G.
Qed.
Lemma horner_pev cs x : horner O cs x = pev cs x.
Proof.
  unfold horner. destruct (rev cs) as [|top rest] eqn:E.
  - rewrite <- (rev_involutive cs), E. cbn. apply (of_zero K O HO).
  - rewrite horner_fold. rewrite <- (rev_involutive cs), E. reflexivity.
Qed.
(** with yd^2 = xd^3 and g * yn^2 = xn^3 + b * xd^3 the image point is on y^2 = x^3 + b *)
Lemma iso_alg (xn xd yn yd g y b : K) : xd <> 0 -> yd * yd = xd * xd * xd -> g * (yn * yn) = xn * xn * xn + b * (xd * xd * xd) -> y * y = g ->
  yd <> 0 /\ let X := xn * fV xd in let Y := y * yn * fV yd in Y * Y = X * X * X + b.
Proof.
  intros N H1 H2 H3. cbv zeta. assert (yd <> 0) as Ny. { intros E. rewrite E in H1. apply N. assert (xd * xd * xd = 0) as H by (rewrite <- H1; ring).
    destruct (fld_integral K _ _ H) as [H'|H']; [exact (fld_sq_0 K _ H')|exact H']. }
  split; [exact Ny|]. apply (fld_cancel K (yd * yd)); [apply fld_mul_ne; assumption|].
  transitivity (y * y * (yn * yn)); [field; exact Ny|]. rewrite H3, H2, H1. field. exact N.
Qed.
Lemma iso_ok A B b xn xd yn yd x y : iso_chk O A B b xn xd yn yd = true -> horner O xd x <> 0 -> y * y = x * x * x + A * x + B ->
  horner O yd x <> 0 /\ on K b (Pt (horner O xn x * fV (horner O xd x)) (y * horner O yn x * fV (horner O yd x))).
Proof.
  intros H N Hy. destruct (iso_chk_ok _ _ _ _ _ _ _ x H) as [H1 H2]. rewrite <- !horner_pev in H1. rewrite <- !horner_pev in H2.
  exact (iso_alg _ _ _ _ _ _ b N H1 H2 Hy).
Qed.
(** the simplified SWU argument: g(xi t^2 x0) = xi^3 t^6 g(x0) *)
Lemma swu_alg (A B xi t x0 : K) : let D := xi * xi * (t * t * (t * t)) + xi * (t * t) in A <> 0 -> D <> 0 -> x0 = (- B) * (D + 1) * fV (A * D) ->
  let x1 := xi * (t * t) * x0 in x1 * x1 * x1 + A * x1 + B = xi * xi * xi * (t * t * t * (t * t * t)) * (x0 * x0 * x0 + A * x0 + B).
Proof.
  intros D NA ND E x1. assert (A * D <> 0) as N by (apply fld_mul_ne; assumption).
  assert (A * (D * x0) = (- B) * (D + 1)) as R by (rewrite E; field; split; assumption).
  assert (A * (D * x0) + B * (D + 1) = 0) as R0 by (rewrite R; ring).
  (* difference = (xi t^2 - (xi t^2)^3)... factors through R0 *)
  apply fld_sub_0. set (z := xi * (t * t)) in *. assert (D = z * z + z) as ED by (unfold D, z; ring). rewrite ED in R0.
  transitivity ((1 - z) * (A * ((z * z + z) * x0) + B * (z * z + z + 1))); [unfold x1; fold z; unfold z; ring|]. rewrite R0. ring.
Qed.
Lemma swu_alg' (A B xi t x0 D x1 : K) : D = xi * xi * (t * t * (t * t)) + xi * (t * t) -> A <> 0 -> D <> 0 -> A * D * x0 = (- B) * (D + 1) -> x1 = xi * (t * t) * x0 ->
  x1 * x1 * x1 + A * x1 + B = xi * xi * xi * (t * t * t * (t * t * t)) * (x0 * x0 * x0 + A * x0 + B).
Proof.
  intros -> NA ND EX ->. apply (swu_alg A B xi t x0 NA ND). rewrite <- EX. field. split; [|exact NA]. assumption.
Qed.
(** the chord through two points of y^2 = x^3 + A x + B *)
Lemma chord_alg (A B x1 y1 x2 y2 : K) : x1 <> x2 -> y1 * y1 = x1 * x1 * x1 + A * x1 + B -> y2 * y2 = x2 * x2 * x2 + A * x2 + B ->
  let l := (y2 - y1) / (x2 - x1) in let x := l * l - x1 - x2 in let y := l * (x1 - x) - y1 in y * y = x * x * x + A * x + B.
Proof.
  intros N H1 H2 l x y. assert (x2 - x1 <> 0) as N' by (apply fld_sub_ne; auto).
  assert (l * (x2 - x1) = y2 - y1) as L by (unfold l; field; exact N').
  assert (y2 = y1 + l * (x2 - x1)) as Y2 by (rewrite L; ring). clearbody l. subst y2.
  apply (fld_cancel K (x2 - x1)); [exact N'|]. apply fld_sub_0.
  assert (forall u v w : K, u = 0 -> v = 0 -> w = 0 -> u + v + w = 0) as Z3 by (intros ? ? ? -> -> ->; ring).
  pose proof (proj2 (fld_sub_0 K _ _) H1) as G1. pose proof (proj2 (fld_sub_0 K _ _) H2) as G2.
  set (g1 := y1 * y1 - (x1 * x1 * x1 + A * x1 + B)) in G1.
  set (g2 := (y1 + l * (x2 - x1)) * (y1 + l * (x2 - x1)) - (x2 * x2 * x2 + A * x2 + B)) in G2.
  transitivity ((x2 - x) * g1 + (x - x1) * g2); [unfold g1, g2, y, x; ring|]. rewrite G1, G2. ring.
Qed.
End Poly.
