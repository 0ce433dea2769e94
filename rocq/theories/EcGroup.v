(** The chord-and-tangent law on y^2 = x^3 + b (b <> 0, characteristic not 2 or 3) is a commutative group.
    Associativity is proved through the ideal classes of the coordinate ring. *)
Require Import ZArith Lia Bool List Ring Field Setoid Morphisms.
From Verif Require Import Fp Fld Poly EcIdeal.
Import ListNotations.

Inductive pt (K : Type) : Type := Inf | Pt (x y : K).
Arguments Inf {K}. Arguments Pt {K}.
Section Law.
Context (K : Fld) (b : K).
Add Field KF3 : (fTh K).
Open Scope fld_scope.
Implicit Types P Q S T A B C : pt K.
Definition on P : Prop := match P with Inf => True | Pt x y => y * y = x * x * x + b end.
Definition pneg P : pt K := match P with Inf => Inf | Pt x y => Pt x (- y) end.
Definition chord (x1 y1 x2 l : K) : pt K := let x3 := l * l - x1 - x2 in Pt x3 (l * (x1 - x3) - y1).
Definition two : K := 1 + 1.
Definition three : K := 1 + 1 + 1.
Definition pplus P Q : pt K :=
  match P, Q with
  | Inf, _ => Q
  | _, Inf => P
  | Pt x1 y1, Pt x2 y2 =>
      if fDec x1 x2 then if fDec y1 y2 then if fDec y1 0 then Inf else chord x1 y1 x2 (three * (x1 * x1) / (two * y1)) else Inf
      else chord x1 y1 x2 ((y2 - y1) / (x2 - x1))
  end.
Definition pdec P Q : {P = Q} + {P <> Q}.
Proof. destruct P as [|x y], Q as [|x' y']; try (left; reflexivity); try (right; discriminate). destruct (fDec x x') as [->|N]; [|right; congruence]. destruct (fDec y y') as [->|N]; [left; reflexivity|right; congruence]. Defined.

Hypothesis two_ne : two <> 0.
Hypothesis three_ne : three <> 0.
Hypothesis b_ne : b <> 0.

Notation R := (R K). Notation req := (req K). Notation rmul := (rmul K b). Notation radd := (radd K). Notation rsub := (rsub K). Notation ropp := (ropp K).
Notation rC := (rC K). Notation rX := (rX K). Notation rY := (rY K). Notation r0 := (r0 K). Notation r1 := (r1 K).
Add Ring RR3 : (rring K b) (setoid (req_equiv K) (rring_ext K b)).

(** ** Ideals *)
Definition rset := R -> Prop.
Implicit Types I J L : rset.
Record ideal I : Prop := { id_eq : forall u v, req u v -> I u -> I v; id_0 : I r0; id_add : forall u v, I u -> I v -> I (radd u v);
  id_mul : forall u v, I u -> I (rmul u v) }.
Inductive iprod I J : rset :=
| ip_mul : forall u v r, I u -> J v -> req r (rmul u v) -> iprod I J r
| ip_add : forall s t r, iprod I J s -> iprod I J t -> req r (radd s t) -> iprod I J r.
Definition prin (f : R) : rset := fun r => exists s, req r (rmul f s).
Definition top : rset := fun _ => True.
Record ieq I J : Prop := mkieq { ieq_h : forall r, I r <-> J r }.
Instance ieq_equiv : Equivalence ieq.
Proof.
  constructor; [intros I; constructor; reflexivity|intros I J [H]; constructor; intros r; symmetry; apply H|].
  intros I J L [H] [H']; constructor; intros r; rewrite H; apply H'.
Qed.
Lemma iprod_mono I J I' J' : (forall r, I r -> I' r) -> (forall r, J r -> J' r) -> forall r, iprod I J r -> iprod I' J' r.
Proof. intros H H' r. induction 1 as [u v r A B E|s t r _ IH1 _ IH2 E]; [apply (ip_mul _ _ u v); auto|apply (ip_add _ _ s t); auto]. Qed.
Instance iprod_proper : Proper (ieq ==> ieq ==> ieq) iprod.
Proof. intros I I' [H] J J' [H']. constructor. intros r. split; apply iprod_mono; intros s; apply H || apply H'. Qed.
Lemma iprod_eq I J u v : req u v -> iprod I J u -> iprod I J v.
Proof. intros E H. revert v E. induction H as [u v r A B E'|s t r A IH1 B IH2 E']; intros z E; [apply (ip_mul _ _ u v)|apply (ip_add _ _ s t)]; auto; rewrite <- E; exact E'. Qed.
Lemma iprod_ideal I J : ideal I -> ideal J -> ideal (iprod I J).
Proof.
  intros HI HJ. constructor.
  - apply iprod_eq.
  - eapply ip_mul; [apply (id_0 I HI)|apply (id_0 J HJ)|ring].
  - intros u v A B. apply (ip_add _ _ u v); auto. reflexivity.
  - intros u v A. revert v. induction A as [u w r A B E|s t r A IH1 B IH2 E]; intros v.
    + eapply (ip_mul _ _ u (rmul w v)); [exact A|apply id_mul; assumption|rewrite E; ring].
    + eapply ip_add; [apply (IH1 v)|apply (IH2 v)|rewrite E; ring].
Qed.
Lemma prin_ideal f : ideal (prin f).
Proof.
  constructor.
  - intros u v E [s H]. exists s. rewrite <- E. exact H.
  - exists r0. ring.
  - intros u v [s H] [t H']. exists (radd s t). rewrite H, H'. ring.
  - intros u v [s H]. exists (rmul s v). rewrite H. ring.
Qed.
Lemma top_ideal : ideal top. Proof. constructor; constructor. Qed.
Hint Resolve iprod_ideal prin_ideal top_ideal : core.
Lemma iprod_comm I J : ieq (iprod I J) (iprod J I).
Proof.
  assert (forall I J r, iprod I J r -> iprod J I r) as H.
  { clear. intros I J r. induction 1 as [u v r A B E|s t r _ IH1 _ IH2 E]; [apply (ip_mul _ _ v u); auto; rewrite E; ring|apply (ip_add _ _ s t); auto]. }
  constructor; split; apply H.
Qed.
Lemma iprod_assoc_1 I J L r : iprod I (iprod J L) r -> iprod (iprod I J) L r.
Proof.
  induction 1 as [u v r A B E|s t r _ IH1 _ IH2 E]; [|apply (ip_add _ _ s t); auto].
  revert r E. induction B as [v w z B C E'|s t z _ IH1 _ IH2 E']; intros r E.
  - eapply (ip_mul _ _ (rmul u v) w); [apply (ip_mul _ _ u v); auto; reflexivity|exact C|]. rewrite E, E'. ring.
  - eapply ip_add; [apply IH1; reflexivity|apply IH2; reflexivity|]. rewrite E, E'. ring.
Qed.
Lemma iprod_assoc_2 I J L r : iprod (iprod I J) L r -> iprod I (iprod J L) r.
Proof.
  induction 1 as [u v r A B E|s t r _ IH1 _ IH2 E]; [|apply (ip_add _ _ s t); auto].
  revert r E. induction A as [w x z A C E'|s t z _ IH1 _ IH2 E']; intros r E.
  - eapply (ip_mul _ _ w (rmul x v)); [exact A|apply (ip_mul _ _ x v); auto; reflexivity|]. rewrite E, E'. ring.
  - eapply ip_add; [apply IH1; reflexivity|apply IH2; reflexivity|]. rewrite E, E'. ring.
Qed.
Lemma iprod_assoc I J L : ieq (iprod I (iprod J L)) (iprod (iprod I J) L).
Proof. constructor. intros r. split; [apply iprod_assoc_1|apply iprod_assoc_2]. Qed.
Lemma iprod_top I : ideal I -> ieq (iprod top I) I.
Proof.
  intros H. constructor. intros r. split.
  - induction 1 as [u v r _ B E|s t r _ IH1 _ IH2 E]; [apply (id_eq I H (rmul v u)); [rewrite E; ring|apply id_mul; assumption]|].
    apply (id_eq I H (radd s t)); [symmetry; exact E|apply id_add; assumption].
  - intros X. eapply (ip_mul _ _ r1 r); [exact Logic.I|exact X|ring].
Qed.
Lemma iprod_prin f J : ideal J -> forall r, iprod (prin f) J r <-> exists j, J j /\ req r (rmul f j).
Proof.
  intros H r. split.
  - induction 1 as [u v r [w A] B E|s t r _ (j & A & B) _ (j' & A' & B') E].
    + exists (rmul v w). split; [apply id_mul; assumption|]. rewrite E, A. ring.
    + exists (radd j j'). split; [apply id_add; assumption|]. rewrite E, B, B'. ring.
  - intros (j & A & E). eapply (ip_mul _ _ f j); [exists r1; ring|exact A|exact E].
Qed.
Lemma prin_mul f g : ieq (iprod (prin f) (prin g)) (prin (rmul f g)).
Proof.
  constructor. intros r. rewrite iprod_prin by auto. split.
  - intros (j & [s A] & E). exists s. rewrite E, A. ring.
  - intros [s E]. exists (rmul g s). split; [exists s; reflexivity|rewrite E; ring].
Qed.
Lemma iprod_cancel f I J : ideal I -> ideal J -> ~ req f r0 -> ieq (iprod (prin f) I) (iprod (prin f) J) -> ieq I J.
Proof.
  assert (forall I J, ideal I -> ideal J -> ~ req f r0 -> ieq (iprod (prin f) I) (iprod (prin f) J) -> forall r, I r -> J r) as X.
  { intros I' J' HI HJ N [E] r A. assert (iprod (prin f) I' (rmul f r)) as A' by (apply iprod_prin; [assumption|exists r; split; [assumption|reflexivity]]).
    apply E, iprod_prin in A'; [|assumption]. destruct A' as (j & B & E'). apply (id_eq J' HJ j); [|exact B]. symmetry. apply (rcancel K b f); assumption. }
  intros HI HJ N E. constructor. intros r. split; apply X; auto. symmetry. exact E.
Qed.
Lemma prin_unit c : c <> 0 -> ieq (prin (rC c)) top.
Proof.
  intros H. constructor. intros r. split; [intros _; exact Logic.I|]. intros _. exists (rmul (rC (fV c)) r).
  transitivity (rmul (rC (c * fV c)) r); [|rewrite (rC_mul K b); ring]. replace (c * fV c) with (1 : K) by (field; exact H). rewrite (rC_1 K). ring.
Qed.

(** ** The ideal of a point *)
Definition xa (a : K) : R := rsub rX (rC a).
Definition ya (c : K) : R := rsub rY (rC c).
Definition idp P : rset := match P with Inf => top | Pt a c => fun r => exists s t, req r (radd (rmul (xa a) s) (rmul (ya c) t)) end.
Lemma idp_ideal P : ideal (idp P).
Proof.
  destruct P as [|a c]; [apply top_ideal|]. constructor; cbn.
  - intros u v E (s & t & H). exists s, t. rewrite <- E. exact H.
  - exists r0, r0. ring.
  - intros u v (s & t & H) (s' & t' & H'). exists (radd s s'), (radd t t'). rewrite H, H'. ring.
  - intros u v (s & t & H). exists (rmul s v), (rmul t v). rewrite H. ring.
Qed.
Hint Resolve idp_ideal : core.
Lemma idp_x a c : idp (Pt a c) (xa a). Proof. exists r1, r0. ring. Qed.
Lemma idp_y a c : idp (Pt a c) (ya c). Proof. exists r0, r1. ring. Qed.
Lemma idp_ev a c r : c * c = a * a * a + b -> idp (Pt a c) r -> ev K a c r = 0.
Proof.
  intros H (s & t & E). rewrite E, ev_add, !(ev_mul K b) by exact H. unfold xa, ya. rewrite !ev_sub, ev_X, ev_Y, !ev_C. ring.
Qed.
Lemma iprod_ev a c I J r : c * c = a * a * a + b -> (forall u, I u -> ev K a c u = 0) -> iprod I J r -> ev K a c r = 0.
Proof.
  intros H HI. induction 1 as [u v r A B E|s t r _ IH1 _ IH2 E].
  - rewrite E, (ev_mul K b), (HI u A) by exact H. ring.
  - rewrite E, ev_add, IH1, IH2. ring.
Qed.
(** an ideal contained in a principal one *)
Lemma ideal_lin2 I a c J : ideal J -> ideal I -> (forall u, idp (Pt a c) u -> True) ->
  (forall j, J j -> I (rmul (xa a) j)) -> (forall j, J j -> I (rmul (ya c) j)) -> forall r, iprod (idp (Pt a c)) J r -> I r.
Proof.
  intros HJ HI _ H1 H2 r. induction 1 as [u v r (s & t & A) B E|s t r _ IH1 _ IH2 E].
  - apply (id_eq I HI (radd (rmul (rmul (xa a) v) s) (rmul (rmul (ya c) v) t))); [rewrite E, A; ring|].
    apply id_add; [assumption|apply id_mul; auto|apply id_mul; auto].
  - apply (id_eq I HI (radd s t)); [symmetry; exact E|apply id_add; assumption].
Qed.
Lemma rC_two : req (rC two) (radd r1 r1). Proof. unfold two. rewrite (rC_add K). reflexivity. Qed.
Lemma rC_three : req (rC three) (radd (radd r1 r1) r1). Proof. unfold three. rewrite !(rC_add K). reflexivity. Qed.
Lemma idp_lin a c r : idp (Pt a c) r <-> exists s t, req r (radd (rmul (xa a) s) (rmul (ya c) t)). Proof. reflexivity. Qed.

Lemma idp_neg a c : c * c = a * a * a + b -> ieq (iprod (idp (Pt a c)) (idp (Pt a (- c)))) (prin (xa a)).
Proof.
  intros H.
  assert (req (rmul (rC c) (rC c)) (radd (rmul (rmul (rC a) (rC a)) (rC a)) (rC b))) as HC by (rewrite <- !(rC_mul K b), <- (rC_add K), H; reflexivity).
  assert (req (rmul (ya c) (ya (- c))) (rmul (xa a) (radd (rmul rX rX) (radd (rmul (rC a) rX) (rmul (rC a) (rC a)))))) as HY.
  { unfold ya, xa. rewrite (rC_opp K). transitivity (rsub (rmul rY rY) (rmul (rC c) (rC c))); [ring|]. rewrite (rY_sq K b), HC. ring. }
  constructor. intros r. split.
  - apply ideal_lin2; auto.
    + intros j _. exists j. reflexivity.
    + intros j (s & t & E). exists (radd (rmul (ya c) s) (rmul (radd (rmul rX rX) (radd (rmul (rC a) rX) (rmul (rC a) (rC a)))) t)).
      transitivity (radd (rmul (xa a) (rmul (ya c) s)) (rmul (rmul (ya c) (ya (- c))) t)); [rewrite E; ring|]. rewrite HY. ring.
  - intros [s E]. apply (id_eq _ (iprod_ideal _ _ (idp_ideal (Pt a c)) (idp_ideal (Pt a (- c)))) (rmul (xa a) s)); [symmetry; exact E|].
    apply id_mul; [auto|]. set (IJ := iprod (idp (Pt a c)) (idp (Pt a (- c)))).
    assert (ideal IJ) as HI by (unfold IJ; auto).
    assert (IJ (rmul (xa a) (xa a))) as G1 by (eapply ip_mul; [apply idp_x|apply idp_x|reflexivity]).
    destruct (fDec c 0) as [Hc|Hc].
    + (* 3a^2 (x-a) = (x-a)(x^2+ax+a^2) - (x-a)^2 (x+2a) *)
      assert (a <> 0) as Ha. { intros ->. apply b_ne. rewrite Hc in H. transitivity (0 * 0 * 0 + b); [ring|rewrite <- H; ring]. }
      assert (IJ (rmul (xa a) (rC (three * (a * a))))) as G2.
      { apply (id_eq IJ HI (radd (rmul (ya c) (ya (- c))) (rmul (rmul (xa a) (xa a)) (ropp (radd rX (radd (rC a) (rC a))))))).
        - rewrite HY. unfold xa. rewrite !(rC_mul K b), rC_three. ring.
        - apply id_add; [exact HI|eapply ip_mul; [apply idp_y|apply idp_y|reflexivity]|apply id_mul; assumption]. }
      apply (id_eq IJ HI (rmul (rmul (xa a) (rC (three * (a * a)))) (rC (fV (three * (a * a)))))).
      * transitivity (rmul (xa a) (rC (three * (a * a) * fV (three * (a * a))))); [rewrite (rC_mul K b (three * (a * a))); ring|].
        replace (three * (a * a) * fV (three * (a * a))) with (1 : K) by (field; auto). rewrite (rC_1 K). ring.
      * apply id_mul; assumption.
    + assert (IJ (rmul (xa a) (rC (two * c)))) as G2.
      { apply (id_eq IJ HI (radd (rmul (xa a) (ya (- c))) (rmul (rmul (xa a) (ya c)) (ropp r1)))).
        - unfold xa, ya. rewrite (rC_opp K), (rC_mul K b), rC_two. ring.
        - apply id_add; [exact HI|eapply ip_mul; [apply idp_x|apply idp_y|reflexivity]|]. apply id_mul; [exact HI|].
          eapply (ip_mul _ _ (ya c) (xa a)); [apply idp_y|apply idp_x|ring]. }
      apply (id_eq IJ HI (rmul (rmul (xa a) (rC (two * c))) (rC (fV (two * c))))).
      * transitivity (rmul (xa a) (rC (two * c * fV (two * c)))); [rewrite (rC_mul K b (two * c)); ring|].
        replace (two * c * fV (two * c)) with (1 : K) by (field; auto). rewrite (rC_1 K). ring.
      * apply id_mul; assumption.
Qed.
Lemma xa_nz a : ~ req (xa a) r0.
Proof. intros [E _]. apply (fld_1_ne_0 K). pose proof (peq_c _ _ _ E 1%nat) as E1. cbn in E1. exact E1. Qed.

(** ** Lines *)
Definition ln (l n : K) : R := rsub rY (radd (rmul (rC l) rX) (rC n)).
Lemma line_norm l n x1 x2 x3 :
  l * l = x1 + x2 + x3 -> two * (l * n) = - (x1 * x2 + x1 * x3 + x2 * x3) -> n * n - b = x1 * x2 * x3 ->
  req (rmul (xa x1) (rmul (xa x2) (xa x3))) (rmul (ln l n) (radd rY (radd (rmul (rC l) rX) (rC n)))).
Proof.
  intros H1 H2 H3.
  unfold ln. transitivity (rsub (rmul rY rY) (radd (rmul (rmul (rC l) (rC l)) (rmul rX rX)) (radd (rmul (rC two) (rmul (rmul (rC l) (rC n)) rX)) (rmul (rC n) (rC n))))).
    2:{ rewrite rC_two. ring. }
    rewrite (rY_sq K b). assert (req (rmul (rC n) (rC n)) (rC (x1 * x2 * x3 + b))) as ->. { rewrite <- (rC_mul K b), <- H3. replace (n * n - b + b) with (n * n) by ring. reflexivity. }
    transitivity (rsub (radd (rmul rX (rmul rX rX)) (rC b)) (radd (rmul (rC (l * l)) (rmul rX rX)) (radd (rmul (rC (two * (l * n))) rX) (rC (x1 * x2 * x3 + b))))).
    - rewrite H1, H2. unfold xa. rewrite ?(rC_opp K), ?(rC_add K), ?(rC_mul K b), ?(rC_add K), ?(rC_mul K b). ring.
    - rewrite !(rC_mul K b). ring. 
Qed.
Lemma line_sub l n x1 y1 x2 y2 x3 y3 :
  y1 = l * x1 + n -> y2 = l * x2 + n -> y3 = l * x3 + n ->
  l * l = x1 + x2 + x3 -> two * (l * n) = - (x1 * x2 + x1 * x3 + x2 * x3) -> n * n - b = x1 * x2 * x3 ->
  forall r, iprod (idp (Pt x1 y1)) (iprod (idp (Pt x2 y2)) (idp (Pt x3 y3))) r -> prin (ln l n) r.
Proof.
  intros E1 E2 E3 H1 H2 H3.
  assert (forall x y, y = l * x + n -> req (ya y) (radd (ln l n) (rmul (rC l) (xa x)))) as HY.
  { intros x y ->. unfold ya, ln, xa. rewrite (rC_add K), (rC_mul K b). ring. }
  assert (req (rmul (xa x1) (rmul (xa x2) (xa x3))) (rmul (ln l n) (radd rY (radd (rmul (rC l) rX) (rC n))))) as HN by (apply line_norm; assumption).
  assert (forall x y u, y = l * x + n -> idp (Pt x y) u -> exists s t, req u (radd (rmul (xa x) s) (rmul (ln l n) t))) as GA.
  { intros x y u E (s & t & Hu). exists (radd s (rmul (rC l) t)), t. rewrite Hu, (HY x y E). ring. }
  assert (forall u, iprod (idp (Pt x2 y2)) (idp (Pt x3 y3)) u -> exists s t, req u (radd (rmul (rmul (xa x2) (xa x3)) s) (rmul (ln l n) t))) as GB.
  { intros u. induction 1 as [u v r A B E|s t r _ (s1 & t1 & A) _ (s2 & t2 & B) E].
    - destruct (GA x2 y2 u E2 A) as (s & t & Hs), (GA x3 y3 v E3 B) as (s' & t' & Hs').
      exists (rmul s s'), (radd (rmul (rmul (xa x2) s) t') (radd (rmul t (rmul (xa x3) s')) (rmul (ln l n) (rmul t t')))). rewrite E, Hs, Hs'. ring.
    - exists (radd s1 s2), (radd t1 t2). rewrite E, A, B. ring. }
  intros r. induction 1 as [u v r A B E|s t r _ [s1 A] _ [s2 B] E].
  - destruct (GA x1 y1 u E1 A) as (s & t & Hs), (GB v B) as (s' & t' & Hs').
    exists (radd (rmul (radd rY (radd (rmul (rC l) rX) (rC n))) (rmul s s')) (radd (rmul (rmul (xa x1) s) t') (radd (rmul t (rmul (rmul (xa x2) (xa x3)) s')) (rmul (ln l n) (rmul t t'))))).
    transitivity (radd (rmul (rmul (xa x1) (rmul (xa x2) (xa x3))) (rmul s s')) (rmul (ln l n) (radd (rmul (rmul (xa x1) s) t') (radd (rmul t (rmul (rmul (xa x2) (xa x3)) s')) (rmul (ln l n) (rmul t t'))))));
      [rewrite E, Hs, Hs'; ring|rewrite HN; ring].
  - exists (radd s1 s2). rewrite E, A, B. ring.
Qed.
Lemma ideal_factor I f : ideal I -> (forall r, I r -> prin f r) -> exists J, ideal J /\ ieq I (iprod (prin f) J).
Proof.
  intros HI H. exists (fun j => I (rmul f j)). assert (ideal (fun j => I (rmul f j))) as HJ.
  { constructor.
    - intros u v E. apply (id_eq I HI). rewrite E. reflexivity.
    - apply (id_eq I HI r0); [ring|apply id_0, HI].
    - intros u v A B. apply (id_eq I HI (radd (rmul f u) (rmul f v))); [ring|apply id_add; auto].
    - intros u v A. apply (id_eq I HI (rmul (rmul f u) v)); [ring|apply id_mul; auto]. }
  split; [exact HJ|]. constructor. intros r. rewrite iprod_prin by exact HJ. split.
  - intros A. destruct (H r A) as [s E]. exists s. split; [apply (id_eq I HI r); assumption|exact E].
  - intros (j & A & E). apply (id_eq I HI (rmul f j)); [symmetry; exact E|exact A].
Qed.
Lemma ln_nz l n : ~ req (ln l n) r0.
Proof. intros [_ E]. apply (fld_1_ne_0 K). pose proof (peq_c _ _ _ E 0%nat) as E1. cbn in E1. rewrite <- E1. ring. Qed.
Lemma prin_eq f g : req f g -> ieq (prin f) (prin g).
Proof. intros E. constructor. intros r. split; intros [s H]; exists s; rewrite H, E; reflexivity. Qed.
Lemma prin_top f I : ideal I -> ieq (prin f) (iprod (prin f) I) -> ~ req f r0 -> ieq I top.
Proof.
  intros HI E H. symmetry. apply (iprod_cancel f); auto. rewrite <- E, (iprod_comm (prin f)). apply iprod_top. auto.
Qed.
(** the product of six ideals, paired with their conjugates *)
Lemma iprod_swap6 (A1 A2 A3 B1 B2 B3 : rset) :
  ieq (iprod (iprod A1 (iprod A2 A3)) (iprod B1 (iprod B2 B3))) (iprod (iprod A1 B1) (iprod (iprod A2 B2) (iprod A3 B3))).
Proof.
  rewrite <- !iprod_assoc. apply iprod_proper; [reflexivity|]. 
  rewrite (iprod_assoc A3 B1), (iprod_comm A3 B1), <- (iprod_assoc B1 A3), (iprod_assoc A2 B1), (iprod_comm A2 B1), <- (iprod_assoc B1 A2).
  apply iprod_proper; [reflexivity|]. apply iprod_proper; [reflexivity|].
  rewrite (iprod_assoc A3 B2), (iprod_comm A3 B2), <- (iprod_assoc B2 A3). reflexivity.
Qed.
Lemma iprod_swap4 (A1 A2 B1 B2 : rset) : ieq (iprod (iprod A1 A2) (iprod B1 B2)) (iprod (iprod A1 B1) (iprod A2 B2)).
Proof.
  rewrite <- !iprod_assoc. apply iprod_proper; [reflexivity|]. rewrite (iprod_assoc A2 B1), (iprod_comm A2 B1), <- (iprod_assoc B1 A2). reflexivity.
Qed.
Lemma line_eq l n x1 y1 x2 y2 x3 y3 :
  y1 * y1 = x1 * x1 * x1 + b -> y2 * y2 = x2 * x2 * x2 + b -> y3 * y3 = x3 * x3 * x3 + b ->
  y1 = l * x1 + n -> y2 = l * x2 + n -> y3 = l * x3 + n ->
  l * l = x1 + x2 + x3 -> two * (l * n) = - (x1 * x2 + x1 * x3 + x2 * x3) -> n * n - b = x1 * x2 * x3 ->
  ieq (iprod (idp (Pt x1 y1)) (iprod (idp (Pt x2 y2)) (idp (Pt x3 y3)))) (prin (ln l n)).
Proof.
  intros C1 C2 C3 E1 E2 E3 H1 H2 H3.
  destruct (ideal_factor (iprod (idp (Pt x1 y1)) (iprod (idp (Pt x2 y2)) (idp (Pt x3 y3)))) (ln l n)) as (J & HJ & EJ); [auto|apply line_sub; assumption|].
  destruct (ideal_factor (iprod (idp (Pt x1 (- y1))) (iprod (idp (Pt x2 (- y2))) (idp (Pt x3 (- y3))))) (ln (- l) (- n))) as (J' & HJ' & EJ'); [auto| |].
  { apply line_sub; rewrite ?E1, ?E2, ?E3; try ring; [rewrite <- H1; ring|rewrite <- H2; ring|rewrite <- H3; ring]. }
  assert (ieq (iprod J J') top) as T.
  { apply (prin_top (rmul (ln l n) (ln (- l) (- n)))); [auto| |apply rmul_nz; apply ln_nz].
    rewrite <- (prin_mul (ln l n)), (iprod_swap4 (prin (ln l n))), <- EJ, <- EJ', iprod_swap6, !idp_neg, !prin_mul by assumption.
    apply prin_eq. rewrite (line_norm l n x1 x2 x3 H1 H2 H3). apply rmul_proper; [reflexivity|]. unfold ln. rewrite !(rC_opp K). ring. }
  assert (ieq J top) as TJ.
  { constructor. intros r. split; [intros _; exact Logic.I|]. intros _. apply (id_eq J HJ (rmul r1 r)); [ring|]. apply id_mul; [exact HJ|].
    assert (iprod J J' r1) as O by (apply T; exact Logic.I). clear -O HJ. revert O. generalize r1. intros r. induction 1 as [u v r A B E|s t r _ IH1 _ IH2 E].
    - apply (id_eq J HJ (rmul u v)); [symmetry; exact E|apply id_mul; auto].
    - apply (id_eq J HJ (radd s t)); [symmetry; exact E|apply id_add; auto]. }
  rewrite EJ, TJ, iprod_comm. apply iprod_top. auto.
Qed.

(** ** Classes *)
Definition cls I J : Prop := exists f g, ~ req f r0 /\ ~ req g r0 /\ ieq (iprod (prin f) I) (iprod (prin g) J).
Lemma r1_nz : ~ req r1 r0.
Proof. intros [E _]. apply (fld_1_ne_0 K). exact (peq_c _ _ _ E 0%nat). Qed.
Lemma cls_ieq I J : ieq I J -> cls I J.
Proof. intros E. exists r1, r1. split; [exact r1_nz|]. split; [exact r1_nz|]. rewrite E. reflexivity. Qed.
Lemma cls_sym I J : cls I J -> cls J I.
Proof. intros (f & g & F & G & E). exists g, f. split; [exact G|]. split; [exact F|]. symmetry. exact E. Qed.
Lemma cls_trans I J L : cls I J -> cls J L -> cls I L.
Proof.
  intros (f & g & F & G & E) (f' & g' & F' & G' & E'). exists (rmul f' f), (rmul g g'). split; [apply rmul_nz; assumption|]. split; [apply rmul_nz; assumption|].
  rewrite <- !prin_mul, <- !iprod_assoc, E, <- E', !iprod_assoc, (iprod_comm (prin f')). reflexivity.
Qed.
Lemma cls_prod I J I' J' : cls I I' -> cls J J' -> cls (iprod I J) (iprod I' J').
Proof.
  intros (f & g & F & G & E) (f' & g' & F' & G' & E'). exists (rmul f f'), (rmul g g'). split; [apply rmul_nz; assumption|]. split; [apply rmul_nz; assumption|].
  rewrite <- !prin_mul, (iprod_swap4 (prin f) (prin f')), (iprod_swap4 (prin g) (prin g')), E, E'. reflexivity.
Qed.
(** On-curve closure and the class of a sum *)
Lemma on_chord x1 y1 x2 y2 : x1 <> x2 -> y1 * y1 = x1 * x1 * x1 + b -> y2 * y2 = x2 * x2 * x2 + b -> on (chord x1 y1 x2 ((y2 - y1) / (x2 - x1))).
Proof.
  intros N C1 C2. assert (x2 - x1 <> 0) as Hd by (apply fld_sub_ne; auto). unfold chord, on. set (l := (y2 - y1) / (x2 - x1)).
  assert (l * (x2 - x1) = y2 - y1) as L by (unfold l; field; exact Hd).
  assert (l * (y2 + y1) = x1 * x1 + x1 * x2 + x2 * x2) as L2.
  { apply (fld_cancel K (x2 - x1)); [exact Hd|]. transitivity ((l * (x2 - x1)) * (y2 + y1)); [ring|]. rewrite L. transitivity (y2 * y2 - y1 * y1); [ring|rewrite C1, C2; ring]. }
  clearbody l. assert (y2 = y1 + l * (x2 - x1)) as Ey by (rewrite L; ring).
  assert (l * (two * y1) = x1 * x1 + x1 * x2 + x2 * x2 - l * l * (x2 - x1)) as L3 by (rewrite <- L2, Ey; unfold two; ring).
  transitivity (l * l * (x1 - (l * l - x1 - x2)) * (x1 - (l * l - x1 - x2)) - (l * (two * y1)) * (x1 - (l * l - x1 - x2)) + y1 * y1); [unfold two; ring|].
  rewrite L3, C1. ring.
Qed.
Lemma on_tangent x1 y1 : y1 <> 0 -> y1 * y1 = x1 * x1 * x1 + b -> on (chord x1 y1 x1 (three * (x1 * x1) / (two * y1))).
Proof.
  intros N C1. unfold chord, on. set (l := three * (x1 * x1) / (two * y1)).
  assert (l * (two * y1) = three * (x1 * x1)) as L by (unfold l; field; auto). clearbody l.
  transitivity (l * l * (x1 - (l * l - x1 - x1)) * (x1 - (l * l - x1 - x1)) - (l * (two * y1)) * (x1 - (l * l - x1 - x1)) + y1 * y1); [unfold two; ring|].
  rewrite L, C1. unfold three. ring.
Qed.
Lemma on_pplus P Q : on P -> on Q -> on (pplus P Q).
Proof.
  destruct P as [|x1 y1], Q as [|x2 y2]; cbn [pplus]; auto. intros C1 C2.
  destruct (fDec x1 x2) as [<-|N]; [|apply on_chord; auto]. destruct (fDec y1 y2); [|exact Logic.I]. destruct (fDec y1 0); [exact Logic.I|]. apply on_tangent; assumption.
Qed.
Lemma on_pneg P : on P -> on (pneg P). Proof. destruct P; cbn; [auto|]. intros H. rewrite <- H. ring. Qed.

Lemma cls_line l x1 y1 x2 y2 : y1 * y1 = x1 * x1 * x1 + b -> y2 * y2 = x2 * x2 * x2 + b -> y2 = y1 + l * (x2 - x1) ->
  l * (y2 + y1) = x1 * x1 + x1 * x2 + x2 * x2 -> on (chord x1 y1 x2 l) ->
  cls (iprod (idp (Pt x1 y1)) (idp (Pt x2 y2))) (idp (chord x1 y1 x2 l)).
Proof.
  intros C1 C2 Ey L2 C3. unfold chord in *. set (x3 := l * l - x1 - x2) in *. set (y3 := l * (x1 - x3) - y1) in *. cbn [on] in C3.
  assert (ieq (iprod (idp (Pt x1 y1)) (iprod (idp (Pt x2 y2)) (idp (Pt x3 (- y3))))) (prin (ln l (y1 - l * x1)))) as E.
  { assert (l * (two * y1) = x1 * x1 + x1 * x2 + x2 * x2 - l * l * (x2 - x1)) as L3 by (rewrite <- L2, Ey; unfold two; ring).
    apply line_eq; auto; try (unfold y3; rewrite ?Ey; ring).
    - rewrite <- C3. ring.
    - unfold x3. ring.
    - transitivity (l * (two * y1) - l * l * (two * x1)); [unfold two; ring|]. rewrite L3. unfold x3, two. ring.
    - transitivity (y1 * y1 - l * (two * y1) * x1 + l * l * (x1 * x1) - b); [unfold two; ring|]. rewrite L3, C1. unfold x3. ring. }
  exists (xa x3), (ln l (y1 - l * x1)). split; [apply xa_nz|]. split; [apply ln_nz|].
  rewrite <- E, <- (idp_neg x3 y3 C3). rewrite <- !iprod_assoc.
  rewrite (iprod_comm (idp (Pt x3 y3))), <- !iprod_assoc.
  rewrite (iprod_comm (idp (Pt x3 (- y3))) (iprod _ _)), <- !iprod_assoc.
  apply iprod_proper; [reflexivity|]. apply iprod_proper; [reflexivity|]. apply iprod_comm.
Qed.
Lemma cls_plus P Q : on P -> on Q -> cls (iprod (idp P) (idp Q)) (idp (pplus P Q)).
Proof.
  destruct P as [|x1 y1]; [intros _ _; apply cls_ieq, iprod_top; auto|].
  destruct Q as [|x2 y2]; [intros _ _; apply cls_ieq; cbn [pplus]; rewrite iprod_comm; apply iprod_top; auto|].
  intros C1 C2. cbn [on] in C1, C2. cbn [pplus]. assert (y2 = - y1 -> x1 = x2 -> cls (iprod (idp (Pt x1 y1)) (idp (Pt x2 y2))) (idp Inf)) as X.
  { intros -> <-. exists r1, (xa x1). split; [apply r1_nz|]. split; [apply xa_nz|]. rewrite (prin_unit 1) by apply fld_1_ne_0. rewrite iprod_top by auto.
    rewrite idp_neg by exact C1. rewrite iprod_comm. symmetry. apply iprod_top. auto. }
  destruct (fDec x1 x2) as [Ex|N].
  - destruct (fDec y1 y2) as [Eyy|Ny]; [destruct (fDec y1 0) as [Z|NZ]|].
    + apply X; [rewrite <- Eyy, Z; ring|exact Ex].
    + subst x2 y2. assert (three * (x1 * x1) / (two * y1) * (two * y1) = three * (x1 * x1)) as L by (field; auto).
      apply cls_line; auto; [ring| |apply on_tangent; assumption]. transitivity (three * (x1 * x1)); [|unfold three; ring]. etransitivity; [|exact L]. generalize (three * (x1 * x1) / (two * y1)). intros l. unfold two. ring.
    + subst x2. destruct (fld_sq_eq K y1 y2) as [E|E]; [congruence|contradiction|]. apply X; [rewrite E; ring|reflexivity].
  - assert (x2 - x1 <> 0) as Hd by (apply fld_sub_ne; auto).
    apply cls_line; auto; [field; exact Hd| |apply on_chord; assumption].
    apply (fld_cancel K (x2 - x1)); [exact Hd|]. transitivity (y2 * y2 - y1 * y1); [field; exact Hd|rewrite C1, C2; ring].
Qed.

(** ** Injectivity *)
Lemma lead_xa a : lead (nrm K b (xa a)) 2 1.
Proof.
  assert (lead (psub pX (pC a)) 1 1) as L.
  { split; [reflexivity|]. split; [apply fld_1_ne_0|]. intros [|[|[|m]]] Hm; try lia; reflexivity. }
  pose proof (lead_mul K _ _ _ _ _ _ L L) as L2. replace (1 * 1) with (1 : K) in L2 by ring. eapply lead_proper; [|exact L2].
  constructor. intros n. unfold nrm, xa, EcIdeal.rsub, EcIdeal.rX, EcIdeal.rC. cbn [fst snd]. rewrite coef_sub.
  replace (coef (pmul (cw K b) (pmul (psub [] []) (psub [] []))) n) with (0 : K); [ring|]. destruct n as [|[|[|[|[|n]]]]]; cbn; ring.
Qed.
Lemma nrm_factor f g h n c : req f (rmul g h) -> lead (nrm K b f) n c ->
  exists i d j e, lead (nrm K b g) i d /\ lead (nrm K b h) j e /\ n = (i + j)%nat /\ i <> 1%nat /\ j <> 1%nat /\
   (i = 0%nat -> exists k, k <> 0 /\ req g (rC k)) /\ (j = 0%nat -> exists k, k <> 0 /\ req h (rC k)) /\
   (i = 2%nat -> exists k e, k <> 0 /\ req g (rmul (rC k) (rsub rX (rC e)))).
Proof.
  intros E L.
  assert (~ req f r0) as NF. { intros Z. apply (lead_nz _ _ _ _ L). rewrite Z. constructor. intros k. destruct k as [|[|[|[|k]]]]; cbn; ring. }
  destruct (nrm_cases K b g) as [Z|(i & d & Lg & I1 & I2 & I3)]; [exfalso; apply NF; rewrite E, Z; ring|].
  destruct (nrm_cases K b h) as [Z|(j & e & Lh & J1 & J2 & J3)]; [exfalso; apply NF; rewrite E, Z; ring|].
  exists i, d, j, e. split; [exact Lg|]. split; [exact Lh|]. split; [|auto].
  apply (lead_unique K (nrm K b f) n c (i + j) (d * e)); [exact L|]. eapply lead_proper; [|apply lead_mul; [exact Lg|exact Lh]]. rewrite E. symmetry. apply nrm_mul.
Qed.
(** y - c is not a multiple of x - a *)
Lemma ya_not_mul a c : ~ prin (xa a) (ya c).
Proof.
  intros [[f g] [_ E]]. cbn in E.
  assert (peq (psub (pC 1) []) (pmul (psub pX (pC a)) g)) as E2.
  { transitivity (padd (pmul (psub pX (pC a)) g) []); [|constructor; intros n; rewrite coef_add, coef_nil; ring]. exact E. }
  assert (lead (psub pX (pC a)) 1 1) as L. { split; [reflexivity|]. split; [apply fld_1_ne_0|]. intros [|[|[|m]]] Hm; try lia; reflexivity. }
  assert (lead (psub (pC 1) []) 0 (1 : K)) as L1. { split; [reflexivity|]. split; [apply fld_1_ne_0|]. intros [|[|m]] Hm; try lia; reflexivity. }
  destruct (lead_exists K g) as [Z|(m & d & G)].
  - apply (lead_nz _ _ _ _ L1). rewrite E2, Z. constructor. intros [|[|n]]; cbn; ring.
  - pose proof (lead_proper K _ _ _ _ (symmetry E2) (lead_mul K _ _ _ _ _ _ L G)) as L2. destruct (lead_unique K _ _ _ _ _ L1 L2). discriminate.
Qed.
Lemma idp_not_1 a c : c * c = a * a * a + b -> ~ idp (Pt a c) r1.
Proof. intros H X. apply idp_ev in X; [|exact H]. unfold EcIdeal.r1 in X. rewrite ev_C in X. exact (fld_1_ne_0 K X). Qed.
Lemma top_of_1 I : ideal I -> I r1 -> ieq I top.
Proof. intros H X. constructor. intros r. split; [intros _; exact Logic.I|]. intros _. apply (id_eq I H (rmul r1 r)); [ring|apply id_mul; auto]. Qed.

Lemma idp_inj_inf a c : c * c = a * a * a + b -> ~ cls top (idp (Pt a c)).
Proof.
  intros H (f & g & F & G & E).
  (* g I = (f) so f = g h and I = (h) *)
  assert (exists h, idp (Pt a c) h /\ req f (rmul g h)) as (h & Hh & Ef).
  { apply (iprod_prin g); [auto|]. apply E. apply iprod_prin; [auto|]. exists r1. split; [exact Logic.I|ring]. }
  assert (ieq (idp (Pt a c)) (prin h)) as EI.
  { apply (iprod_cancel g); auto. rewrite prin_mul, <- E, iprod_comm. rewrite iprod_top by auto. apply prin_eq, Ef. }
  assert (prin h (xa a)) as [k Ek] by (apply EI, idp_x).
  destruct (nrm_factor _ _ _ _ _ Ek (lead_xa a)) as (i & d & j & e & Li & Lj & S & I1 & J1 & I0 & J0 & I2).
  destruct i as [|[|[|i]]]; [| |assert (j = 0)%nat as J0' by lia|]; try lia.
  - destruct (I0 eq_refl) as (m & M & Em). apply (idp_not_1 a c H), EI.
    assert (ieq (prin h) top) as T by (rewrite (prin_eq _ _ Em); apply prin_unit, M). apply T. exact Logic.I.
  - destruct (J0 J0') as (m & M & Em). apply (ya_not_mul a c).
    assert (prin h (ya c)) as [s Es] by (apply EI, idp_y). exists (rmul (rC (fV m)) s).
    assert (req (rmul (rC m) (rC (fV m))) r1) as Hm. { rewrite <- (rC_mul K b). replace (m * fV m) with (1 : K) by (field; exact M). reflexivity. }
    rewrite Es, Ek, Em. transitivity (rmul (rmul (rmul (rC m) (rC (fV m))) h) s); [rewrite Hm; ring|ring].
Qed.
Theorem idp_inj P Q : on P -> on Q -> cls (idp P) (idp Q) -> P = Q.
Proof.
  destruct P as [|x1 y1], Q as [|x2 y2]; intros C1 C2 X.
  - reflexivity.
  - exfalso. exact (idp_inj_inf x2 y2 C2 X).
  - exfalso. exact (idp_inj_inf x1 y1 C1 (cls_sym _ _ X)).
  - destruct X as (f & g & F & G & E). cbn [on] in C1, C2.
    assert (ieq (iprod (prin f) (iprod (idp (Pt x1 y1)) (idp (Pt x2 (- y2))))) (prin (rmul g (xa x2)))) as E2.
    { rewrite iprod_assoc, E, <- iprod_assoc, idp_neg by exact C2. apply prin_mul. }
    assert (exists h, iprod (idp (Pt x1 y1)) (idp (Pt x2 (- y2))) h /\ req (rmul g (xa x2)) (rmul f h)) as (h & Hh & Ef).
    { apply (iprod_prin f); [auto|]. apply E2. exists r1. ring. }
    assert (ieq (iprod (idp (Pt x1 y1)) (idp (Pt x2 (- y2)))) (prin h)) as EI.
    { apply (iprod_cancel f); auto. rewrite prin_mul, E2. apply prin_eq, Ef. }
    assert (- y2 * - y2 = x2 * x2 * x2 + b) as C2' by (rewrite <- C2; ring).
    assert (ev K x1 y1 h = 0) as V1 by (eapply iprod_ev; [exact C1| |exact Hh]; intros u; apply idp_ev; exact C1).
    assert (ev K x2 (- y2) h = 0) as V2. { apply (iprod_comm) in Hh. eapply iprod_ev; [exact C2'| |exact Hh]; intros u; apply idp_ev; exact C2'. }
    assert (prin h (rmul (xa x1) (xa x2))) as [k Ek] by (apply EI; eapply ip_mul; [apply idp_x|apply idp_x|reflexivity]).
    assert (lead (nrm K b (rmul (xa x1) (xa x2))) (2 + 2) (1 * 1)) as L4.
    { eapply lead_proper; [symmetry; apply nrm_mul|]. apply lead_mul; apply lead_xa. }
    destruct (nrm_factor _ _ _ _ _ Ek L4) as (i & d & j & e & Li & Lj & S & I1 & J1 & I0 & J0 & I2).
    assert (i = 0 \/ i = 2 \/ j = 0)%nat as [Ei|[Ei|Ej]] by lia.
    + exfalso. destruct (I0 Ei) as (m & M & Em). apply M. rewrite Em, ev_C in V1. exact V1.
    + destruct (I2 Ei) as (m & z & M & Em). rewrite Em, (ev_mul K b), ev_sub, ev_X, !ev_C in V1 by exact C1. rewrite Em, (ev_mul K b), ev_sub, ev_X, !ev_C in V2 by exact C2'.
      assert (x1 = z) as Z1. { apply fld_sub_0. destruct (fld_integral K _ _ V1); [contradiction|assumption]. }
      assert (x2 = z) as Z2. { apply fld_sub_0. destruct (fld_integral K _ _ V2); [contradiction|assumption]. }
      subst x1 x2. f_equal. destruct (fld_sq_eq K y1 y2) as [?|Ey]; [rewrite C1, C2; reflexivity|assumption|].
      (* h ~ (x - z) contains (y - y1)^2 *)
      assert (prin h (rmul (ya y1) (ya (- y2)))) as [s Es] by (apply EI; eapply ip_mul; [apply idp_y|apply idp_y|reflexivity]).
      rewrite <- Ey in Es. destruct (fDec y1 0) as [Y0|Y0]; [rewrite Y0 in Ey |- *; transitivity (- - y2); [rewrite <- Ey; ring|ring]|exfalso].
      assert (req (rmul (ya y1) (ya y1)) (rsub (rmul (xa z) (radd (rmul rX rX) (radd (rmul (rC z) rX) (rmul (rC z) (rC z))))) (rmul (rC (two * y1)) (ya y1)))) as HY.
      { unfold ya, xa. transitivity (rsub (radd (rmul rY rY) (rmul (rC y1) (rC y1))) (rmul (radd (rC y1) (rC y1)) rY)); [ring|].
        rewrite (rY_sq K b). assert (req (rmul (rC y1) (rC y1)) (radd (rmul (rmul (rC z) (rC z)) (rC z)) (rC b))) as HC by (rewrite <- !(rC_mul K b), <- (rC_add K), C1; reflexivity).
        transitivity (rsub (rsub (radd (rmul rX (rmul rX rX)) (rC b)) (radd (rmul (rmul (rC z) (rC z)) (rC z)) (rC b))) (rsub (rmul (radd (rC y1) (rC y1)) rY) (radd (rmul (rC y1) (rC y1)) (rmul (rC y1) (rC y1))))); [rewrite HC; ring|].
        rewrite (rC_mul K b two), rC_two. ring. }
      apply (ya_not_mul z y1).
      assert (req (rmul (rC (two * y1)) (rC (fV (two * y1)))) r1) as Hm. { rewrite <- (rC_mul K b). replace (two * y1 * fV (two * y1)) with (1 : K) by (field; auto). reflexivity. }
      exists (rmul (rsub (radd (rmul rX rX) (radd (rmul (rC z) rX) (rmul (rC z) (rC z)))) (rmul (rC m) s)) (rC (fV (two * y1)))).
      transitivity (rmul (rmul (rC (two * y1)) (rC (fV (two * y1)))) (ya y1)); [rewrite Hm; ring|].
      transitivity (rmul (rsub (rmul (xa z) (radd (rmul rX rX) (radd (rmul (rC z) rX) (rmul (rC z) (rC z))))) (rmul (ya y1) (ya y1))) (rC (fV (two * y1)))); [rewrite HY; ring|].
      rewrite Es, Em. fold (xa z). ring.
    + exfalso. destruct (J0 Ej) as (m & M & Em). apply (ya_not_mul x2 (- y2)).
      assert (prin h (rmul (xa x1) (ya (- y2)))) as [s Es] by (apply EI; eapply ip_mul; [apply idp_x|apply idp_y|reflexivity]).
      assert (req (rmul (rC m) (rC (fV m))) r1) as Hm. { rewrite <- (rC_mul K b). replace (m * fV m) with (1 : K) by (field; exact M). reflexivity. }
      exists (rmul (rC (fV m)) s). apply (rcancel K b (xa x1)); [apply xa_nz|]. rewrite Es.
      transitivity (rmul (rmul (xa x1) (xa x2)) (rmul (rC (fV m)) s)); [|ring]. rewrite Ek, Em.
      transitivity (rmul (rmul h (rmul (rC m) (rC (fV m)))) s); [rewrite Hm; ring|ring].
Qed.

(** ** The group law *)
Theorem pplus_assoc P Q S : on P -> on Q -> on S -> pplus P (pplus Q S) = pplus (pplus P Q) S.
Proof.
  intros HP HQ HS. apply idp_inj; [repeat apply on_pplus; assumption..|].
  apply (cls_trans _ (iprod (idp P) (idp (pplus Q S)))); [apply cls_sym, cls_plus; auto using on_pplus|].
  apply (cls_trans _ (iprod (idp P) (iprod (idp Q) (idp S)))); [apply cls_prod; [apply cls_ieq; reflexivity|apply cls_sym, cls_plus; auto]|].
  apply (cls_trans _ (iprod (iprod (idp P) (idp Q)) (idp S))); [apply cls_ieq, iprod_assoc|].
  apply (cls_trans _ (iprod (idp (pplus P Q)) (idp S))); [apply cls_prod; [apply cls_plus; auto|apply cls_ieq; reflexivity]|].
  apply cls_plus; auto using on_pplus.
Qed.
Theorem pplus_comm P Q : on P -> on Q -> pplus P Q = pplus Q P.
Proof.
  intros HP HQ. apply idp_inj; [apply on_pplus; assumption..|].
  apply (cls_trans _ (iprod (idp P) (idp Q))); [apply cls_sym, cls_plus; auto|].
  apply (cls_trans _ (iprod (idp Q) (idp P))); [apply cls_ieq, iprod_comm|apply cls_plus; auto].
Qed.
Lemma pplus_inf_l P : pplus Inf P = P. Proof. reflexivity. Qed.
Lemma pplus_inf_r P : pplus P Inf = P. Proof. destruct P; reflexivity. Qed.
Lemma pneg_inv P : pneg (pneg P) = P. Proof. destruct P; cbn; [reflexivity|f_equal; ring]. Qed.
Lemma pplus_neg_r P : pplus P (pneg P) = Inf.
Proof.
  destruct P as [|x y]; cbn; [reflexivity|]. destruct (fDec x x) as [_|]; [|contradiction]. destruct (fDec y (- y)) as [E|]; [|reflexivity].
  destruct (fDec y 0) as [|N]; [reflexivity|]. exfalso. apply N. assert (two * y = 0) as Z by (transitivity (y - - y); [unfold two; ring|rewrite <- E; ring]).
  destruct (fld_integral K _ _ Z); [contradiction|assumption].
Qed.
End Law.
