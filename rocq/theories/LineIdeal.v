(** The line through two points of y^2 = x^3 + b as an element of the coordinate ring, its divisor, and the
    associativity identity between lines up to a constant. *)
Require Import ZArith Lia Bool List Ring Field Setoid Morphisms.
From Verif Require Import Fp Fld Poly EcIdeal EcGroup.
Import ListNotations.

Section Lines.
Context (K : Fld) (b : K).
Add Field KF4 : (fTh K).
Open Scope fld_scope.
Hypothesis two_ne : two K <> 0.
Hypothesis three_ne : three K <> 0.
Hypothesis b_ne : b <> 0.
Notation R := (R K). Notation req := (req K). Notation rmul := (rmul K b). Notation radd := (radd K). Notation rsub := (rsub K). Notation ropp := (ropp K).
Notation rC := (rC K). Notation rX := (rX K). Notation rY := (rY K). Notation r0 := (r0 K). Notation r1 := (r1 K).
Notation iprod := (iprod K b). Notation ieq := (ieq K). Notation prin := (prin K b). Notation idp := (idp K b). Notation ln := (ln K b). Notation xa := (xa K).
Notation on := (on K b). Notation pplus := (pplus K). Notation pneg := (pneg K). Notation top := (top K).
Add Ring RR4 : (rring K b) (setoid (req_equiv K) (rring_ext K b)).
Local Existing Instance ieq_equiv.
Local Existing Instance iprod_proper.

Definition slope (x1 y1 x2 y2 : K) : option K :=
  if fDec x1 x2 then if fDec y1 y2 then if fDec y1 0 then None else Some (three K * (x1 * x1) / (two K * y1)) else None
  else Some ((y2 - y1) / (x2 - x1)).
Definition vert (P : pt K) : R := match P with Inf => r1 | Pt x _ => xa x end.
Definition lin (P Q : pt K) : R :=
  match P, Q with
  | Inf, _ => vert Q
  | _, Inf => vert P
  | Pt x1 y1, Pt x2 y2 => match slope x1 y1 x2 y2 with Some l => ln l (y1 - l * x1) | None => xa x1 end
  end.

Lemma pplus_slope x1 y1 x2 y2 : pplus (Pt x1 y1) (Pt x2 y2) = match slope x1 y1 x2 y2 with Some l => chord K x1 y1 x2 l | None => Inf end.
Proof. unfold slope. cbn. destruct (fDec x1 x2); [destruct (fDec y1 y2); [destruct (fDec y1 0)|]|]; reflexivity. Qed.
Lemma slope_some x1 y1 x2 y2 l : y1 * y1 = x1 * x1 * x1 + b -> y2 * y2 = x2 * x2 * x2 + b -> slope x1 y1 x2 y2 = Some l ->
  y2 = y1 + l * (x2 - x1) /\ l * (y2 + y1) = x1 * x1 + x1 * x2 + x2 * x2.
Proof.
  intros C1 C2. unfold slope. destruct (fDec x1 x2) as [Ex|N].
  - destruct (fDec y1 y2) as [Eyy|]; [|discriminate]. destruct (fDec y1 0) as [Z|NZ]; [discriminate|]. intros [= <-]. subst x2 y2.
    assert (three K * (x1 * x1) / (two K * y1) * (two K * y1) = three K * (x1 * x1)) as L by (field; auto). split; [ring|].
    transitivity (three K * (x1 * x1)); [|unfold three; ring]. etransitivity; [|exact L]. generalize (three K * (x1 * x1) / (two K * y1)). intros l. unfold two. ring.
  - intros [= <-]. assert (x2 - x1 <> 0) as Hd by (apply fld_sub_ne; auto). split; [field; exact Hd|].
    apply (fld_cancel K (x2 - x1)); [exact Hd|]. transitivity (y2 * y2 - y1 * y1); [field; exact Hd|rewrite C1, C2; ring].
Qed.
Lemma slope_none x1 y1 x2 y2 : y1 * y1 = x1 * x1 * x1 + b -> y2 * y2 = x2 * x2 * x2 + b -> slope x1 y1 x2 y2 = None ->
  x2 = x1 /\ y2 = - y1.
Proof.
  intros C1 C2. unfold slope. destruct (fDec x1 x2) as [Ex|N]; [|discriminate]. subst x2. intros H. split; [reflexivity|].
  destruct (fDec y1 y2) as [Eyy|Ny]; [destruct (fDec y1 0) as [Z|NZ]; [|discriminate]|].
  - rewrite <- Eyy, Z. ring.
  - destruct (fld_sq_eq K y1 y2) as [E|E]; [congruence|contradiction|]. rewrite E. ring.
Qed.
(** the three roots of the line, in terms of slope and offset *)
Lemma line_roots l x1 y1 x2 y2 : y1 * y1 = x1 * x1 * x1 + b -> y2 = y1 + l * (x2 - x1) -> l * (y2 + y1) = x1 * x1 + x1 * x2 + x2 * x2 ->
  let x3 := l * l - x1 - x2 in let n := y1 - l * x1 in
  two K * (l * n) = - (x1 * x2 + x1 * x3 + x2 * x3) /\ n * n - b = x1 * x2 * x3.
Proof.
  intros C1 Ey L2 x3 n. assert (l * (two K * y1) = x1 * x1 + x1 * x2 + x2 * x2 - l * l * (x2 - x1)) as L3 by (rewrite <- L2, Ey; unfold two; ring).
  unfold n. split.
  - transitivity (l * (two K * y1) - l * l * (two K * x1)); [unfold two; ring|]. rewrite L3. unfold x3, two. ring.
  - transitivity (y1 * y1 - l * (two K * y1) * x1 + l * l * (x1 * x1) - b); [unfold two; ring|]. rewrite L3, C1. unfold x3. ring.
Qed.
Lemma vert_ideal P : on P -> ieq (iprod (idp P) (idp (pneg P))) (prin (vert P)).
Proof.
  destruct P as [|x y]; intros H; cbn [EcGroup.on EcGroup.pneg vert] in *; [|apply idp_neg; assumption]. cbn [EcGroup.idp]. rewrite iprod_top by apply top_ideal.
  symmetry. apply (prin_unit K b 1), fld_1_ne_0.
Qed.
Lemma lin_ideal P Q : on P -> on Q -> ieq (iprod (idp P) (iprod (idp Q) (idp (pneg (pplus P Q))))) (prin (lin P Q)).
Proof.
  destruct P as [|x1 y1].
  { intros _ HQ. rewrite pplus_inf_l. cbn [lin EcGroup.idp]. rewrite iprod_top by (apply iprod_ideal; apply idp_ideal). apply vert_ideal, HQ. }
  destruct Q as [|x2 y2].
  { intros HP _. rewrite pplus_inf_r. cbn [lin]. change (idp Inf) with top. rewrite (iprod_top K b (idp _)) by apply idp_ideal. apply vert_ideal, HP. }
  intros C1 C2. rewrite pplus_slope. cbn [lin]. cbn [EcGroup.on] in C1, C2. destruct (slope x1 y1 x2 y2) as [l|] eqn:S.
  - destruct (slope_some _ _ _ _ _ C1 C2 S) as [Ey L2]. destruct (line_roots l x1 y1 x2 y2 C1 Ey L2) as [H2 H3].
    unfold chord. cbn [EcGroup.pneg]. apply line_eq; auto.
    + assert (on (chord K x1 y1 x2 l)) as C3. { pose proof (on_pplus K b two_ne (Pt x1 y1) (Pt x2 y2) C1 C2) as O. rewrite pplus_slope, S in O. exact O. }
      cbn [EcGroup.on chord] in C3. rewrite <- C3. ring.
    + ring.
    + rewrite Ey. ring.
    + ring.
    + ring.
  - destruct (slope_none _ _ _ _ C1 C2 S) as [-> ->]. change (idp (pneg Inf)) with top.
    rewrite (iprod_comm K b (idp (Pt x1 (- y1)))), (iprod_top K b (idp _)) by apply idp_ideal. apply idp_neg; assumption.
Qed.
Lemma lin_nz P Q : ~ req (lin P Q) r0.
Proof.
  assert (forall P, ~ req (vert P) r0) as V by (intros [|x y]; [apply r1_nz|apply xa_nz]).
  destruct P as [|x1 y1]; [apply V|]. destruct Q as [|x2 y2]; [apply (V (Pt x1 y1))|]. cbn [lin]. destruct (slope x1 y1 x2 y2); [apply ln_nz|apply xa_nz].
Qed.
Lemma vert_nz P : ~ req (vert P) r0. Proof. destruct P; [apply r1_nz|apply xa_nz]. Qed.

(** generators of the same principal ideal differ by a constant *)
Lemma prin_const f g : ~ req f r0 -> ieq (prin f) (prin g) -> exists k, k <> 0 /\ req f (rmul (rC k) g).
Proof.
  intros F [E]. destruct (proj1 (E f)) as [s Hs]; [exists r1; ring|]. destruct (proj2 (E g)) as [t Ht]; [exists r1; ring|].
  assert (req (rmul s t) r1) as U. { apply (rcancel K b f); [exact F|]. rewrite Ht in Hs. transitivity (rmul (rmul f t) s); [ring|]. rewrite <- Hs. ring. }
  assert (lead (nrm K b r1) 0 1) as L1. { eapply lead_proper; [symmetry; apply nrm_1|]. apply lead_pC, fld_1_ne_0. }
  destruct (nrm_factor K b r1 s t 0 1 (symmetry U) L1) as (i & d & j & e & _ & _ & Eij & _ & _ & H0 & _).
  destruct H0 as (k & Hk & Ek); [lia|]. exists k. split; [exact Hk|]. rewrite Hs, Ek. ring.
Qed.
Lemma iprod_left_comm (A B C : rset K) : ieq (iprod A (iprod B C)) (iprod B (iprod A C)).
Proof. rewrite !(iprod_assoc K b). rewrite (iprod_comm K b A B). reflexivity. Qed.
Lemma iprod_shuffle (A B C n1 n2 n3 p1 p2 : rset K) :
  ieq (iprod (iprod (iprod A (iprod B n1)) (iprod p1 (iprod C n3))) (iprod p2 n2)) (iprod (iprod (iprod B (iprod C n2)) (iprod A (iprod p2 n3))) (iprod p1 n1)).
Proof.
  rewrite <- !(iprod_assoc K b).
  transitivity (iprod A (iprod B (iprod C (iprod n1 (iprod n2 (iprod n3 (iprod p1 p2))))))).
  - apply iprod_proper; [reflexivity|]. apply iprod_proper; [reflexivity|].
    rewrite (iprod_left_comm p1 C), (iprod_left_comm n1 C). apply iprod_proper; [reflexivity|]. apply iprod_proper; [reflexivity|].
    rewrite (iprod_comm K b p2 n2), (iprod_left_comm n3 n2), (iprod_left_comm p1 n2). apply iprod_proper; [reflexivity|].
    apply iprod_left_comm.
  - symmetry. rewrite (iprod_left_comm n2 A), (iprod_left_comm C A), (iprod_left_comm B A). apply iprod_proper; [reflexivity|]. apply iprod_proper; [reflexivity|]. apply iprod_proper; [reflexivity|].
    rewrite (iprod_comm K b p1 n1), (iprod_left_comm n3 n1), (iprod_left_comm p2 n1), (iprod_left_comm n2 n1). apply iprod_proper; [reflexivity|]. apply iprod_proper; [reflexivity|].
    rewrite (iprod_left_comm p2 n3). apply iprod_proper; [reflexivity|]. apply iprod_comm.
Qed.
Theorem lin_assoc A B C : on A -> on B -> on C ->
  exists k, k <> 0 /\ req (rmul (rmul (lin A B) (lin (pplus A B) C)) (vert (pplus B C))) (rmul (rC k) (rmul (rmul (lin B C) (lin A (pplus B C))) (vert (pplus A B)))).
Proof.
  intros HA HB HC. pose proof (on_pplus K b two_ne A B HA HB) as HAB. pose proof (on_pplus K b two_ne B C HB HC) as HBC.
  apply prin_const. { repeat apply rmul_nz; try apply lin_nz. apply vert_nz. }
  rewrite <- !(prin_mul K b). rewrite <- !lin_ideal, <- !vert_ideal by assumption.
  rewrite <- (pplus_assoc K b two_ne three_ne b_ne A B C) by assumption. apply iprod_shuffle.
Qed.
Theorem lin_comm A B : on A -> on B -> exists k, k <> 0 /\ req (lin A B) (rmul (rC k) (lin B A)).
Proof.
  intros HA HB. apply prin_const; [apply lin_nz|]. rewrite <- !lin_ideal by assumption. rewrite (pplus_comm K b two_ne three_ne b_ne A B) by assumption. apply iprod_left_comm.
Qed.
End Lines.

(** ** Evaluation in an extension field *)
Section EvL.
Context (K L : Fld) (b : K) (phi : K -> L).
Add Field KF5 : (fTh K).
Add Field LF5 : (fTh L).
Open Scope fld_scope.
Hypothesis phi_1 : phi 1 = 1.
Hypothesis phi_add : forall x y, phi (x + y) = phi x + phi y.
Hypothesis phi_mul : forall x y, phi (x * y) = phi x * phi y.
Lemma phi_0 : phi 0 = 0.
Proof. assert (phi 0 + phi 0 = phi 0) as E by (rewrite <- phi_add; f_equal; ring). transitivity (phi 0 + phi 0 - phi 0); [ring|rewrite E; ring]. Qed.
Lemma phi_opp x : phi (- x) = - phi x.
Proof. assert (phi (- x) + phi x = 0) as E by (rewrite <- phi_add; transitivity (phi 0); [f_equal; ring|apply phi_0]). transitivity (phi (- x) + phi x - phi x); [ring|rewrite E; ring]. Qed.
Lemma phi_sub x y : phi (x - y) = phi x - phi y.
Proof. transitivity (phi (x + - y)); [f_equal; ring|]. rewrite phi_add, phi_opp. ring. Qed.
Lemma phi_ne x : x <> 0 -> phi x <> 0.
Proof. intros H E. apply (fld_1_ne_0 L). rewrite <- phi_1. transitivity (phi (fV x * x)); [f_equal; symmetry; apply fld_inv_l, H|]. rewrite phi_mul, E. ring. Qed.
Lemma phi_inj x y : phi x = phi y -> x = y.
Proof. intros E. destruct (fDec x y) as [|N]; [assumption|]. exfalso. apply (phi_ne (x - y)); [apply fld_sub_ne, N|]. rewrite phi_sub, E. ring. Qed.
Lemma phi_div x y : y <> 0 -> phi (x / y) = phi x / phi y.
Proof. intros H. pose proof (phi_ne y H). apply (fld_cancel L (phi y)); [assumption|]. rewrite <- phi_mul. transitivity (phi x); [f_equal; field; assumption|field; assumption]. Qed.
Notation pmap := (map phi).
Lemma coef_map p n : coef (pmap p) n = phi (coef p n).
Proof. revert n. induction p as [|a p IH]; intros n; [destruct n; symmetry; apply phi_0|]. destruct n; cbn; [reflexivity|apply IH]. Qed.
Lemma peq_map p s : peq p s -> peq (pmap p) (pmap s).
Proof. intros [H]. constructor. intros n. rewrite !coef_map, H. reflexivity. Qed.
Lemma padd_map p s : pmap (padd p s) = padd (pmap p) (pmap s).
Proof. revert s. induction p as [|a p IH]; intros [|c s]; cbn; try reflexivity. rewrite phi_add, IH. reflexivity. Qed.
Lemma pscale_map c p : pmap (pscale c p) = pscale (phi c) (pmap p).
Proof. unfold pscale. rewrite !map_map. apply map_ext. intros a. apply phi_mul. Qed.
Lemma popp_map p : pmap (popp p) = popp (pmap p).
Proof. unfold popp. rewrite !map_map. apply map_ext. intros a. apply phi_opp. Qed.
Lemma psub_map p s : pmap (psub p s) = psub (pmap p) (pmap s).
Proof. unfold psub. rewrite padd_map, popp_map. reflexivity. Qed.
Lemma pmul_map p s : pmap (pmul p s) = pmul (pmap p) (pmap s).
Proof. induction p as [|a p IH]; cbn [pmul map]; [reflexivity|]. rewrite padd_map, pscale_map. cbn [map]. rewrite IH, phi_0. reflexivity. Qed.
Definition rmap (u : R K) : R L := (pmap (fst u), pmap (snd u)).
Definition evL (X Y : L) (u : R K) : L := ev L X Y (rmap u).
Lemma evL_proper X Y u v : req K u v -> evL X Y u = evL X Y v.
Proof. intros [A B]. unfold evL. apply ev_proper. constructor; cbn; apply peq_map; assumption. Qed.
Lemma evL_mul X Y u v : Y * Y = X * X * X + phi b -> evL X Y (rmul K b u v) = evL X Y u * evL X Y v.
Proof.
  intros C. unfold evL. rewrite <- (ev_mul L (phi b)) by exact C. f_equal. unfold rmap, rmul. cbn [fst snd].
  rewrite !padd_map, !pmul_map. unfold cw. cbn [map]. rewrite phi_0, phi_1. reflexivity.
Qed.
Lemma evL_C X Y c : evL X Y (rC K c) = phi c.
Proof. unfold evL, rmap, rC, ev. cbn. ring. Qed.
Lemma evL_xa X Y a : evL X Y (xa K a) = X - phi a.
Proof. unfold evL, rmap, xa, ev. cbn. rewrite ?phi_add, ?phi_opp, ?phi_0, ?phi_1. ring. Qed.
Lemma evL_ln X Y l n : Y * Y = X * X * X + phi b -> evL X Y (ln K b l n) = Y - phi l * X - phi n.
Proof.
  intros C. unfold evL, rmap, ln, ev. cbn. rewrite ?phi_0, ?phi_1, ?phi_add, ?phi_opp, ?phi_add, ?phi_mul, ?phi_0, ?phi_1. ring.
Qed.
End EvL.
