(** Every function of the polymorphic model preserves relations between base-field implementations.
    Used twice: limbs versus residues (FqRel.v) and residues versus fast big numbers. *)
Require Import ZArith Lia Bool List.
From Verif Require Import Words ModelRepr ReprProofs ReprProofs2 ModelFq ModelFr ModelOps ModelTower ModelCurve ModelPairing ModelHash ModelBls Primality FqProofs.
Import ListNotations.
Open Scope Z_scope.

(** ** Relations on containers *)
Definition prodR {A A' B B'} (RA : A -> A' -> Prop) (RB : B -> B' -> Prop) (p : A * B) (p' : A' * B') : Prop :=
  RA (fst p) (fst p') /\ RB (snd p) (snd p').
Definition optR {A A'} (RA : A -> A' -> Prop) (o : option A) (o' : option A') : Prop :=
  match o, o' with Some a, Some a' => RA a a' | None, None => True | _, _ => False end.
Definition R2 {F F'} (R : F -> F' -> Prop) (a : FQ2 F) (a' : FQ2 F') : Prop := R (c0 a) (c0 a') /\ R (c1 a) (c1 a').
Definition R6 {F F'} (R : F -> F' -> Prop) (a : FQ6 F) (a' : FQ6 F') : Prop :=
  R2 R (d0 a) (d0 a') /\ R2 R (d1 a) (d1 a') /\ R2 R (d2 a) (d2 a').
Definition R12 {F F'} (R : F -> F' -> Prop) (a : FQ12 F) (a' : FQ12 F') : Prop := R6 R (e0 a) (e0 a') /\ R6 R (e1 a) (e1 a').
Definition RA {F F'} (R : F -> F' -> Prop) (a : Affine F) (a' : Affine F') : Prop :=
  R (ax a) (ax a') /\ R (ay a) (ay a') /\ ainf a = ainf a'.
Definition RP {F F'} (R : F -> F' -> Prop) (a : Proj F) (a' : Proj F') : Prop :=
  R (px a) (px a') /\ R (py a) (py a') /\ R (pz a) (pz a').

Lemma rel_let {A A' B B'} (RA : A -> A' -> Prop) (RB : B -> B' -> Prop) e e' k k' :
  RA e e' -> (forall x x', RA x x' -> RB (k x) (k' x')) -> RB (let x := e in k x) (let x := e' in k' x).
Proof. intros H1 H2. apply H2. exact H1. Qed.

Lemma R2_c0 {F F'} (R : F -> F' -> Prop) a a' : R2 R a a' -> R (c0 a) (c0 a'). Proof. intros H; apply H. Qed.
Lemma R2_c1 {F F'} (R : F -> F' -> Prop) a a' : R2 R a a' -> R (c1 a) (c1 a'). Proof. intros H; apply H. Qed.
Lemma R2_mk {F F'} (R : F -> F' -> Prop) a a' b b' : R a a' -> R b b' -> R2 R (mkFQ2 a b) (mkFQ2 a' b'). Proof. intros; split; assumption. Qed.
Lemma R6_d0 {F F'} (R : F -> F' -> Prop) a a' : R6 R a a' -> R2 R (d0 a) (d0 a'). Proof. intros H; apply H. Qed.
Lemma R6_d1 {F F'} (R : F -> F' -> Prop) a a' : R6 R a a' -> R2 R (d1 a) (d1 a'). Proof. intros H; apply H. Qed.
Lemma R6_d2 {F F'} (R : F -> F' -> Prop) a a' : R6 R a a' -> R2 R (d2 a) (d2 a'). Proof. intros H; apply H. Qed.
Lemma R6_mk {F F'} (R : F -> F' -> Prop) a a' b b' c c' : R2 R a a' -> R2 R b b' -> R2 R c c' -> R6 R (mkFQ6 a b c) (mkFQ6 a' b' c'). Proof. intros; repeat split; assumption || (match goal with H : R2 R ?a _ |- R _ _ => apply H end). Qed.
Lemma R12_e0 {F F'} (R : F -> F' -> Prop) a a' : R12 R a a' -> R6 R (e0 a) (e0 a'). Proof. intros H; apply H. Qed.
Lemma R12_e1 {F F'} (R : F -> F' -> Prop) a a' : R12 R a a' -> R6 R (e1 a) (e1 a'). Proof. intros H; apply H. Qed.
Lemma R12_mk {F F'} (R : F -> F' -> Prop) a a' b b' : R6 R a a' -> R6 R b b' -> R12 R (mkFQ12 a b) (mkFQ12 a' b'). Proof. intros H1 H2. split; assumption. Qed.
Lemma RA_ax {F F'} (R : F -> F' -> Prop) a a' : RA R a a' -> R (ax a) (ax a'). Proof. intros H; apply H. Qed.
Lemma RA_ay {F F'} (R : F -> F' -> Prop) a a' : RA R a a' -> R (ay a) (ay a'). Proof. intros H; apply H. Qed.
Lemma RA_inf {F F'} (R : F -> F' -> Prop) a a' : RA R a a' -> ainf a = ainf a'. Proof. intros H; apply H. Qed.
Lemma RA_mk {F F'} (R : F -> F' -> Prop) a a' b b' i i' : R a a' -> R b b' -> i = i' -> RA R (mkAff a b i) (mkAff a' b' i'). Proof. intros. split; [|split]; assumption. Qed.
Lemma RP_px {F F'} (R : F -> F' -> Prop) a a' : RP R a a' -> R (px a) (px a'). Proof. intros H; apply H. Qed.
Lemma RP_py {F F'} (R : F -> F' -> Prop) a a' : RP R a a' -> R (py a) (py a'). Proof. intros H; apply H. Qed.
Lemma RP_pz {F F'} (R : F -> F' -> Prop) a a' : RP R a a' -> R (pz a) (pz a'). Proof. intros H; apply H. Qed.
Lemma RP_mk {F F'} (R : F -> F' -> Prop) a a' b b' c c' : R a a' -> R b b' -> R c c' -> RP R (mkProj a b c) (mkProj a' b' c'). Proof. intros. split; [|split]; assumption. Qed.
Lemma prodR_fst {A A' B B'} (RA : A -> A' -> Prop) (RB : B -> B' -> Prop) p p' : prodR RA RB p p' -> RA (fst p) (fst p'). Proof. intros H; apply H. Qed.
Lemma prodR_snd {A A' B B'} (RA : A -> A' -> Prop) (RB : B -> B' -> Prop) p p' : prodR RA RB p p' -> RB (snd p) (snd p'). Proof. intros H; apply H. Qed.
Lemma prodR_mk {A A' B B'} (RA : A -> A' -> Prop) (RB : B -> B' -> Prop) a a' b b' : RA a a' -> RB b b' -> prodR RA RB (a, b) (a', b'). Proof. intros; split; assumption. Qed.
Lemma optR_some {A A'} (RA : A -> A' -> Prop) a a' : RA a a' -> optR RA (Some a) (Some a'). Proof. intros H; exact H. Qed.
Lemma optR_none {A A'} (RA : A -> A' -> Prop) : optR RA None None. Proof. exact I. Qed.
Lemma F2_nil {A A'} (RA : A -> A' -> Prop) : Forall2 RA [] []. Proof. constructor. Qed.
Lemma F2_cons {A A'} (RA : A -> A' -> Prop) a a' l l' : RA a a' -> Forall2 RA l l' -> Forall2 RA (a :: l) (a' :: l'). Proof. constructor; assumption. Qed.
Lemma F2_app {A A'} (RA : A -> A' -> Prop) a a' l l' : Forall2 RA a a' -> Forall2 RA l l' -> Forall2 RA (a ++ l) (a' ++ l'). Proof. apply Forall2_app. Qed.
Lemma F2_nth {A A'} (RA : A -> A' -> Prop) l l' n d d' : Forall2 RA l l' -> RA d d' -> RA (nth n l d) (nth n l' d').
Proof. intros H. revert n. induction H; intros [|n] Hd; cbn; auto. Qed.
Lemma F2_nth_error {A A'} (RA : A -> A' -> Prop) l l' n : Forall2 RA l l' -> optR RA (nth_error l n) (nth_error l' n).
Proof. intros H. revert n. induction H; intros [|n]; cbn; auto. Qed.
Lemma F2_map {A A' B B'} (RA : A -> A' -> Prop) (RB : B -> B' -> Prop) f f' l l' :
  (forall x x', RA x x' -> RB (f x) (f' x')) -> Forall2 RA l l' -> Forall2 RB (map f l) (map f' l').
Proof. intros Hf H. induction H; cbn; constructor; auto. Qed.
Lemma F2_rev {A A'} (RA : A -> A' -> Prop) l l' : Forall2 RA l l' -> Forall2 RA (rev l) (rev l').
Proof. intros H. induction H; cbn; [constructor|]. apply Forall2_app; [assumption|]. constructor; [assumption|constructor]. Qed.
Lemma F2_length {A A'} (RA : A -> A' -> Prop) l l' : Forall2 RA l l' -> length l = length l'.
Proof. intros H; induction H; cbn; congruence. Qed.
Lemma F2_combine {A A' B B'} (RA : A -> A' -> Prop) (RB : B -> B' -> Prop) l l' : Forall2 RA l l' -> forall m m', Forall2 RB m m' ->
  Forall2 (prodR RA RB) (combine l m) (combine l' m').
Proof. intros H. induction H; cbn; intros m m' Hm; [constructor|]. destruct Hm; constructor; auto. split; assumption. Qed.
Lemma fold_left_rel {A A' B B'} (RA : A -> A' -> Prop) (RB : B -> B' -> Prop) f f' l l' :
  (forall a a' b b', RA a a' -> RB b b' -> RA (f a b) (f' a' b')) -> Forall2 RB l l' -> forall a a', RA a a' ->
  RA (fold_left f l a) (fold_left f' l' a').
Proof. intros Hf H. induction H; cbn; auto. Qed.
Lemma fold_left_rel1 {A A' B} (RA : A -> A' -> Prop) (f : A -> B -> A) (f' : A' -> B -> A') l :
  (forall a a' b, RA a a' -> RA (f a b) (f' a' b)) -> forall a a', RA a a' -> RA (fold_left f l a) (fold_left f' l a').
Proof. intros Hf. induction l; cbn; auto. Qed.
Lemma F2_eq {A} (l : list A) : Forall2 eq l l.
Proof. induction l; constructor; auto. Qed.

(** [RelLem h]: the relation lemma of the (partially applied) function [h]. *)
Class RelLem {T : Type} (h : T) (P : Prop) : Prop := rel_lem : P.
#[global] Hint Mode RelLem ! ! - : typeclass_instances.
#[global] Instance rl_R2 F F' R : RelLem (@mkFQ2 F) _ := @R2_mk F F' R.
#[global] Instance rl_R6 F F' R : RelLem (@mkFQ6 F) _ := @R6_mk F F' R.
#[global] Instance rl_R12 F F' R : RelLem (@mkFQ12 F) _ := @R12_mk F F' R.
#[global] Instance rl_RA F F' R : RelLem (@mkAff F) _ := @RA_mk F F' R.
#[global] Instance rl_RP F F' R : RelLem (@mkProj F) _ := @RP_mk F F' R.
#[global] Instance rl_d0 F F' R : RelLem (@d0 F) _ := @R6_d0 F F' R.
#[global] Instance rl_d1 F F' R : RelLem (@d1 F) _ := @R6_d1 F F' R.
#[global] Instance rl_d2 F F' R : RelLem (@d2 F) _ := @R6_d2 F F' R.
#[global] Instance rl_e0 F F' R : RelLem (@e0 F) _ := @R12_e0 F F' R.
#[global] Instance rl_e1 F F' R : RelLem (@e1 F) _ := @R12_e1 F F' R.
#[global] Instance rl_pair A A' B B' RA RB : RelLem (@pair A B) _ := @prodR_mk A A' B B' RA RB.
#[global] Instance rl_some A A' RA : RelLem (@Some A) _ := @optR_some A A' RA.
#[global] Instance rl_none A A' RA : RelLem (@None A) _ := @optR_none A A' RA.
#[global] Instance rl_nil A A' RA : RelLem (@nil A) _ := @F2_nil A A' RA.
#[global] Instance rl_cons A A' RA : RelLem (@cons A) _ := @F2_cons A A' RA.
#[global] Instance rl_app A A' RA : RelLem (@app A) _ := @F2_app A A' RA.
#[global] Instance rl_nth_error A A' RA : RelLem (@nth_error A) _ := @F2_nth_error A A' RA.
#[global] Instance rl_rev A A' RA : RelLem (@rev A) _ := @F2_rev A A' RA.
#[global] Instance rl_combine A A' B B' RA RB : RelLem (@combine A B) _ := @F2_combine A A' B B' RA RB.

(** ** Related implementations *)
Record RelO {F F'} (O : Ops F) (O' : Ops F') (R : F -> F' -> Prop) : Prop := mkRelO {
  ro_zero : R (o_zero O) (o_zero O');
  ro_one : R (o_one O) (o_one O');
  ro_add : forall a a' b b', R a a' -> R b b' -> R (o_add O a b) (o_add O' a' b');
  ro_sub : forall a a' b b', R a a' -> R b b' -> R (o_sub O a b) (o_sub O' a' b');
  ro_mul : forall a a' b b', R a a' -> R b b' -> R (o_mul O a b) (o_mul O' a' b');
  ro_sq : forall a a', R a a' -> R (o_sq O a) (o_sq O' a');
  ro_dbl : forall a a', R a a' -> R (o_dbl O a) (o_dbl O' a');
  ro_neg : forall a a', R a a' -> R (o_neg O a) (o_neg O' a');
  ro_inv : forall a a', R a a' -> prodR R eq (o_inv O a) (o_inv O' a');
  ro_iszero : forall a a', R a a' -> o_iszero O a = o_iszero O' a';
  ro_equals : forall a a' b b', R a a' -> R b b' -> o_equals O a b = o_equals O' a' b';
  ro_cmp : forall a a' b b', R a a' -> R b b' -> o_cmp O a b = o_cmp O' a' b';
  ro_sqrt : forall a a', R a a' -> prodR R eq (o_sqrt O a) (o_sqrt O' a') }.

(** A raw limb vector is used only when it is a valid element. *)
Definition validb (n : FQRepr) : bool := forallb (fun w => (0 <=? w) && (w <? W)) (FQRepr_slice n) && (eval6 n <? q).
Lemma validb_spec n : validb n = true <-> wf6 n /\ eval6 n < q.
Proof.
  unfold validb, wf6. rewrite andb_true_iff, Z.ltb_lt, forallb_forall, Forall_forall. unfold isW.
  split; intros [H1 H2]; (split; [|assumption]); intros x Hx; specialize (H1 x Hx).
  - rewrite andb_true_iff, Z.leb_le, Z.ltb_lt in H1. exact H1.
  - rewrite andb_true_iff, Z.leb_le, Z.ltb_lt. exact H1.
Qed.

Definition wfb (n : FQRepr) : bool := forallb (fun w => (0 <=? w) && (w <? W)) (FQRepr_slice n).
Lemma wfb_spec n : wfb n = true -> wf6 n.
Proof.
  unfold wfb, wf6. rewrite forallb_forall, Forall_forall. unfold isW. intros H x Hx. specialize (H x Hx).
  rewrite andb_true_iff, Z.leb_le, Z.ltb_lt in H. exact H.
Qed.

Record RelB {F F'} (B : BOps F) (B' : BOps F') (R : F -> F' -> Prop) : Prop := mkRelB {
  rb_ops : RelO (b_ops B) (b_ops B') R;
  rb_raw : forall n, validb n = true -> R (b_raw B n) (b_raw B' n);
  rb_of : forall n, wf6 n -> R (b_of B n) (b_of B' n);
  rb_repr : forall a a', R a a' -> b_repr B a = b_repr B' a';
  rb_exp : forall a a' n, R a a' -> wf6 n -> R (b_exp B a n) (b_exp B' a' n);
  rb_legendre : forall a a', R a a' -> b_legendre B a = b_legendre B' a' }.

#[local] Hint Constants Opaque : typeclass_instances.

(** ** The proof script: follow the structure of the two terms *)
Ltac relof T :=
  lazymatch T with
  | FQ2 ?A => let r := relof A in constr:(@R2 _ _ r)
  | FQ6 ?A => let r := relof A in constr:(@R6 _ _ r)
  | FQ12 ?A => let r := relof A in constr:(@R12 _ _ r)
  | Affine ?A => let r := relof A in constr:(@RA _ _ r)
  | Proj ?A => let r := relof A in constr:(@RP _ _ r)
  | prod ?A ?B => let r := relof A in let s := relof B in constr:(@prodR _ _ _ _ r s)
  | option ?A => let r := relof A in constr:(@optR _ _ r)
  | list Z => constr:(@eq T)
  | list ?A => let r := relof A in constr:(@Forall2 _ _ r)
  | _ => lazymatch goal with
         | R : T -> ?T' -> Prop |- _ => constr:(R)
         | _ => constr:(@eq T)
         end
  end.

Ltac rel := idtac.
Ltac syn_assumption := match goal with H : ?P |- ?Q => constr_eq P Q; exact H end.
Ltac rel_proj :=
  lazymatch goal with
  | |- ?S (c0 _) (c0 _) => apply (R2_c0 S)
  | |- ?S (c1 _) (c1 _) => apply (R2_c1 S)
  | |- ?S (ax _) (ax _) => apply (RA_ax S)
  | |- ?S (ay _) (ay _) => apply (RA_ay S)
  | |- ?S (px _) (px _) => apply (RP_px S)
  | |- ?S (py _) (py _) => apply (RP_py S)
  | |- ?S (pz _) (pz _) => apply (RP_pz S)
  | |- Affine_IsZero ?a = Affine_IsZero _ => let T := type of a in let r := relof T in
       lazymatch r with @RA _ _ ?r' => apply (RA_inf r') end
  | |- ainf ?a = ainf _ => let T := type of a in let r := relof T in
       lazymatch r with @RA _ _ ?r' => apply (RA_inf r') end
  | |- ?S (fst ?e) (fst _) => let T := type of e in let r := relof T in
       lazymatch r with @prodR _ _ _ _ _ ?b => apply (prodR_fst S b) end
  | |- ?S (snd ?e) (snd _) => let T := type of e in let r := relof T in
       lazymatch r with @prodR _ _ _ _ ?a _ => apply (prodR_snd a S) end
  | |- ?S (nth _ _ _) (nth _ _ _) => apply (F2_nth S)
  | |- length ?e = length _ => let T := type of e in let r := relof T in
       lazymatch r with @Forall2 _ _ ?a => apply (F2_length a) end
  end.
Ltac rel_step :=
  cbv beta;
  lazymatch goal with
  | |- forall _, _ => intros
  | |- ?S (let x := ?e in @?k x) (let y := ?e' in @?k' y) =>
      let T := type of e in let r := relof T in
      apply (rel_let r S e e' k k'); [|let x := fresh "x" in let x' := fresh "x'" in let H := fresh "H" in intros x x' H; cbv beta; try subst x']
  | |- ?S (if ?b then _ else _) (if ?b' then _ else _) =>
      let H := fresh "Hif" in
      assert (H : b = b') by rel; try rewrite <- H; clear H; destruct b
  | |- ?S (match ?e with (_, _) => _ end) (match ?e' with (_, _) => _ end) =>
      let T := type of e in let r := relof T in let H := fresh "Hp" in
      assert (H : r e e') by rel; destruct e as [? ?], e' as [? ?]; destruct H; cbn [fst snd] in *; subst
  | |- ?S (match ?e with Some _ => _ | None => _ end) (match ?e' with Some _ => _ | None => _ end) =>
      first [constr_eq e e'; destruct e |
      let T := type of e in let r := relof T in let H := fresh "Ho" in
      assert (H : r e e') by rel; destruct e, e'; cbn [optR] in H; try contradiction; subst]
  | |- ?a = ?a => reflexivity
  | |- (?f ?a ?b) = (?f ?a' ?b') => apply (f_equal2 f)
  | |- (?f ?a) = (?f ?a') => apply (f_equal f)
  end.
Ltac rel_find e tac :=
  first [ let l := constr:(@rel_lem _ e _ _) in tac l
        | lazymatch e with ?f _ => rel_find f tac end ].
Ltac rel_hint := lazymatch goal with |- _ ?e _ => rel_find e ltac:(fun l => simple eapply l) end.
Ltac rel ::= cbv beta; first [syn_assumption | rel_hint; rel | rel_proj; rel | rel_step; rel].

(** ** The curve code over an operations record *)
Section CurveRel.
Context {F F' : Type} (O : Ops F) (O' : Ops F') (R : F -> F' -> Prop) (HO : RelO O O' R).
#[local] Instance li_zero : RelLem (o_zero O) _ := ro_zero _ _ _ HO.
#[local] Instance li_one : RelLem (o_one O) _ := ro_one _ _ _ HO.
#[local] Instance li_add : RelLem (o_add O) _ := ro_add _ _ _ HO.
#[local] Instance li_sub : RelLem (o_sub O) _ := ro_sub _ _ _ HO.
#[local] Instance li_mul : RelLem (o_mul O) _ := ro_mul _ _ _ HO.
#[local] Instance li_sq : RelLem (o_sq O) _ := ro_sq _ _ _ HO.
#[local] Instance li_dbl : RelLem (o_dbl O) _ := ro_dbl _ _ _ HO.
#[local] Instance li_neg : RelLem (o_neg O) _ := ro_neg _ _ _ HO.
#[local] Instance li_inv : RelLem (o_inv O) _ := ro_inv _ _ _ HO.
#[local] Instance li_iszero : RelLem (o_iszero O) _ := ro_iszero _ _ _ HO.
#[local] Instance li_equals : RelLem (o_equals O) _ := ro_equals _ _ _ HO.
#[local] Instance li_cmp : RelLem (o_cmp O) _ := ro_cmp _ _ _ HO.
#[local] Instance li_sqrt : RelLem (o_sqrt O) _ := ro_sqrt _ _ _ HO.

Lemma rel_AffineZero : RA R (AffineZero O) (AffineZero O'). Proof. unfold AffineZero. rel. Qed.
#[local] Instance li_AffineZero : RelLem (AffineZero O) _ := rel_AffineZero.
Lemma rel_ProjectiveZero : RP R (ProjectiveZero O) (ProjectiveZero O'). Proof. unfold ProjectiveZero. rel. Qed.
#[local] Instance li_ProjectiveZero : RelLem (ProjectiveZero O) _ := rel_ProjectiveZero.
Lemma rel_Affine_NegAssign g g' : RA R g g' -> RA R (Affine_NegAssign O g) (Affine_NegAssign O' g').
Proof. intros. cbv beta delta [Affine_NegAssign Affine_IsZero]. rel. Qed.
#[local] Instance li_Affine_NegAssign : RelLem (Affine_NegAssign O) _ := rel_Affine_NegAssign.
Lemma rel_Affine_ToProjective g g' : RA R g g' -> RP R (Affine_ToProjective O g) (Affine_ToProjective O' g').
Proof. intros. cbv beta delta [Affine_ToProjective Affine_IsZero]. rel. Qed.
#[local] Instance li_Affine_ToProjective : RelLem (Affine_ToProjective O) _ := rel_Affine_ToProjective.
Lemma rel_Proj_IsZero g g' : RP R g g' -> Proj_IsZero O g = Proj_IsZero O' g'.
Proof. intros. cbv beta delta [Proj_IsZero]. rel. Qed.
#[local] Instance li_Proj_IsZero : RelLem (Proj_IsZero O) _ := rel_Proj_IsZero.
Lemma rel_Proj_NegAssign g g' : RP R g g' -> RP R (Proj_NegAssign O g) (Proj_NegAssign O' g').
Proof. intros. cbv beta delta [Proj_NegAssign]. rel. Qed.
#[local] Instance li_Proj_NegAssign : RelLem (Proj_NegAssign O) _ := rel_Proj_NegAssign.
Lemma rel_Proj_Equal g g' h h' : RP R g g' -> RP R h h' -> Proj_Equal O g h = Proj_Equal O' g' h'.
Proof. intros. cbv beta delta [Proj_Equal]. rel. Qed.
#[local] Instance li_Proj_Equal : RelLem (Proj_Equal O) _ := rel_Proj_Equal.
Lemma rel_ToAffine_div g g' : RP R g g' -> RA R (ToAffine_div O g) (ToAffine_div O' g').
Proof. intros. cbv beta delta [ToAffine_div NewAffine]. rel. Qed.
#[local] Instance li_ToAffine_div : RelLem (ToAffine_div O) _ := rel_ToAffine_div.
Lemma rel_G1_ToAffine g g' : RP R g g' -> RA R (G1_ToAffine O g) (G1_ToAffine O' g').
Proof. intros. cbv beta delta [G1_ToAffine NewAffine]. rel. Qed.
#[local] Instance li_G1_ToAffine : RelLem (G1_ToAffine O) _ := rel_G1_ToAffine.
Lemma rel_G2_ToAffine g g' : RP R g g' -> RA R (G2_ToAffine O g) (G2_ToAffine O' g').
Proof. intros. cbv beta delta [G2_ToAffine NewAffine]. rel. Qed.
#[local] Instance li_G2_ToAffine : RelLem (G2_ToAffine O) _ := rel_G2_ToAffine.
Lemma rel_Double g g' : RP R g g' -> RP R (Double O g) (Double O' g').
Proof. intros. cbv beta delta [Double]. rel. Qed.
#[local] Instance li_Double : RelLem (Double O) _ := rel_Double.
Lemma rel_Add g g' h h' : RP R g g' -> RP R h h' -> RP R (Add O g h) (Add O' g' h').
Proof. intros. cbv beta delta [Add]. rel. Qed.
#[local] Instance li_Add : RelLem (Add O) _ := rel_Add.
Lemma rel_AddAffine g g' h h' : RP R g g' -> RA R h h' -> RP R (AddAffine O g h) (AddAffine O' g' h').
Proof. intros. cbv beta delta [AddAffine Affine_IsZero]. rel. Qed.
#[local] Instance li_AddAffine : RelLem (AddAffine O) _ := rel_AddAffine.
Lemma rel_MulLoop n bit (double : Proj F -> Proj F) (double' : Proj F' -> Proj F') addg addg' z z' :
  (forall x x', RP R x x' -> RP R (double x) (double' x')) -> (forall x x', RP R x x' -> RP R (addg x) (addg' x')) -> RP R z z' ->
  RP R (MulLoop n bit double addg z) (MulLoop n bit double' addg' z').
Proof.
  intros H1 H2 Hz. unfold MulLoop. apply fold_left_rel1; [|assumption].
  intros a a' b Ha. cbv zeta. destruct (bit _) as [[|]|]; auto.
Qed.
Lemma rel_Affine_Mul g g' n : RA R g g' -> RP R (Affine_Mul O g n) (Affine_Mul O' g' n).
Proof. intros. cbv beta delta [Affine_Mul]. apply rel_MulLoop; intros; rel. Qed.
#[local] Instance li_Affine_Mul : RelLem (Affine_Mul O) _ := rel_Affine_Mul.
Lemma rel_Affine_MulFR g g' n : RA R g g' -> RP R (Affine_MulFR O g n) (Affine_MulFR O' g' n).
Proof. intros. cbv beta delta [Affine_MulFR]. apply rel_MulLoop; intros; rel. Qed.
#[local] Instance li_Affine_MulFR : RelLem (Affine_MulFR O) _ := rel_Affine_MulFR.
Lemma rel_Affine_MulBig g g' n : RA R g g' -> RP R (Affine_MulBig O g n) (Affine_MulBig O' g' n).
Proof. intros. cbv beta delta [Affine_MulBig]. apply rel_MulLoop; intros; rel. Qed.
#[local] Instance li_Affine_MulBig : RelLem (Affine_MulBig O) _ := rel_Affine_MulBig.
Lemma rel_Proj_Mul g g' n : RP R g g' -> RP R (Proj_Mul O g n) (Proj_Mul O' g' n).
Proof. intros. cbv beta delta [Proj_Mul]. apply rel_MulLoop; intros; rel. Qed.
#[local] Instance li_Proj_Mul : RelLem (Proj_Mul O) _ := rel_Proj_Mul.
Lemma rel_Proj_MulFR g g' n : RP R g g' -> RP R (Proj_MulFR O g n) (Proj_MulFR O' g' n).
Proof. intros. cbv beta delta [Proj_MulFR]. apply rel_MulLoop; intros; rel. Qed.
#[local] Instance li_Proj_MulFR : RelLem (Proj_MulFR O) _ := rel_Proj_MulFR.
Lemma rel_G1Affine_Equals g g' h h' : RA R g g' -> RA R h h' -> G1Affine_Equals O g h = G1Affine_Equals O' g' h'.
Proof. intros. cbv beta delta [G1Affine_Equals]. rel. Qed.
#[local] Instance li_G1Affine_Equals : RelLem (G1Affine_Equals O) _ := rel_G1Affine_Equals.
Lemma rel_G2Affine_Equals g g' h h' : RA R g g' -> RA R h h' -> G2Affine_Equals O g h = G2Affine_Equals O' g' h'.
Proof. intros. cbv beta delta [G2Affine_Equals]. rel. Qed.
#[local] Instance li_G2Affine_Equals : RelLem (G2Affine_Equals O) _ := rel_G2Affine_Equals.
Lemma rel_IsOnCurve b b' g g' : R b b' -> RA R g g' -> IsOnCurve O b g = IsOnCurve O' b' g'.
Proof. intros. cbv beta delta [IsOnCurve]. rel. Qed.
#[local] Instance li_IsOnCurve : RelLem (IsOnCurve O) _ := rel_IsOnCurve.
Lemma rel_GetPointFromX b b' x x' gr : R b b' -> R x x' -> optR (RA R) (GetPointFromX O b x gr) (GetPointFromX O' b' x' gr).
Proof. intros. cbv beta delta [GetPointFromX NewAffine]. rel. Qed.
#[local] Instance li_GetPointFromX : RelLem (GetPointFromX O) _ := rel_GetPointFromX.
End CurveRel.
(** ** Global instances *)
Existing Class RelO.
Existing Class RelB.
#[global] Instance gi_zero F F' O O' R (HO : @RelO F F' O O' R) : RelLem (o_zero O) _ := ro_zero O O' R HO.
#[global] Instance gi_one F F' O O' R (HO : @RelO F F' O O' R) : RelLem (o_one O) _ := ro_one O O' R HO.
#[global] Instance gi_add F F' O O' R (HO : @RelO F F' O O' R) : RelLem (o_add O) _ := ro_add O O' R HO.
#[global] Instance gi_sub F F' O O' R (HO : @RelO F F' O O' R) : RelLem (o_sub O) _ := ro_sub O O' R HO.
#[global] Instance gi_mul F F' O O' R (HO : @RelO F F' O O' R) : RelLem (o_mul O) _ := ro_mul O O' R HO.
#[global] Instance gi_sq F F' O O' R (HO : @RelO F F' O O' R) : RelLem (o_sq O) _ := ro_sq O O' R HO.
#[global] Instance gi_dbl F F' O O' R (HO : @RelO F F' O O' R) : RelLem (o_dbl O) _ := ro_dbl O O' R HO.
#[global] Instance gi_neg F F' O O' R (HO : @RelO F F' O O' R) : RelLem (o_neg O) _ := ro_neg O O' R HO.
#[global] Instance gi_inv F F' O O' R (HO : @RelO F F' O O' R) : RelLem (o_inv O) _ := ro_inv O O' R HO.
#[global] Instance gi_iszero F F' O O' R (HO : @RelO F F' O O' R) : RelLem (o_iszero O) _ := ro_iszero O O' R HO.
#[global] Instance gi_equals F F' O O' R (HO : @RelO F F' O O' R) : RelLem (o_equals O) _ := ro_equals O O' R HO.
#[global] Instance gi_cmp F F' O O' R (HO : @RelO F F' O O' R) : RelLem (o_cmp O) _ := ro_cmp O O' R HO.
#[global] Instance gi_sqrt F F' O O' R (HO : @RelO F F' O O' R) : RelLem (o_sqrt O) _ := ro_sqrt O O' R HO.
#[global] Instance gi_AffineZero F F' O O' R (HO : @RelO F F' O O' R) : RelLem (AffineZero O) _ := rel_AffineZero O O' R HO.
#[global] Instance gi_ProjectiveZero F F' O O' R (HO : @RelO F F' O O' R) : RelLem (ProjectiveZero O) _ := rel_ProjectiveZero O O' R HO.
#[global] Instance gi_Affine_NegAssign F F' O O' R (HO : @RelO F F' O O' R) : RelLem (Affine_NegAssign O) _ := rel_Affine_NegAssign O O' R HO.
#[global] Instance gi_Affine_ToProjective F F' O O' R (HO : @RelO F F' O O' R) : RelLem (Affine_ToProjective O) _ := rel_Affine_ToProjective O O' R HO.
#[global] Instance gi_Proj_IsZero F F' O O' R (HO : @RelO F F' O O' R) : RelLem (Proj_IsZero O) _ := rel_Proj_IsZero O O' R HO.
#[global] Instance gi_Proj_NegAssign F F' O O' R (HO : @RelO F F' O O' R) : RelLem (Proj_NegAssign O) _ := rel_Proj_NegAssign O O' R HO.
#[global] Instance gi_Proj_Equal F F' O O' R (HO : @RelO F F' O O' R) : RelLem (Proj_Equal O) _ := rel_Proj_Equal O O' R HO.
#[global] Instance gi_ToAffine_div F F' O O' R (HO : @RelO F F' O O' R) : RelLem (ToAffine_div O) _ := rel_ToAffine_div O O' R HO.
#[global] Instance gi_G1_ToAffine F F' O O' R (HO : @RelO F F' O O' R) : RelLem (G1_ToAffine O) _ := rel_G1_ToAffine O O' R HO.
#[global] Instance gi_G2_ToAffine F F' O O' R (HO : @RelO F F' O O' R) : RelLem (G2_ToAffine O) _ := rel_G2_ToAffine O O' R HO.
#[global] Instance gi_Double F F' O O' R (HO : @RelO F F' O O' R) : RelLem (Double O) _ := rel_Double O O' R HO.
#[global] Instance gi_Add F F' O O' R (HO : @RelO F F' O O' R) : RelLem (Add O) _ := rel_Add O O' R HO.
#[global] Instance gi_AddAffine F F' O O' R (HO : @RelO F F' O O' R) : RelLem (AddAffine O) _ := rel_AddAffine O O' R HO.
#[global] Instance gi_Affine_Mul F F' O O' R (HO : @RelO F F' O O' R) : RelLem (Affine_Mul O) _ := rel_Affine_Mul O O' R HO.
#[global] Instance gi_Affine_MulFR F F' O O' R (HO : @RelO F F' O O' R) : RelLem (Affine_MulFR O) _ := rel_Affine_MulFR O O' R HO.
#[global] Instance gi_Affine_MulBig F F' O O' R (HO : @RelO F F' O O' R) : RelLem (Affine_MulBig O) _ := rel_Affine_MulBig O O' R HO.
#[global] Instance gi_Proj_Mul F F' O O' R (HO : @RelO F F' O O' R) : RelLem (Proj_Mul O) _ := rel_Proj_Mul O O' R HO.
#[global] Instance gi_Proj_MulFR F F' O O' R (HO : @RelO F F' O O' R) : RelLem (Proj_MulFR O) _ := rel_Proj_MulFR O O' R HO.
#[global] Instance gi_G1Affine_Equals F F' O O' R (HO : @RelO F F' O O' R) : RelLem (G1Affine_Equals O) _ := rel_G1Affine_Equals O O' R HO.
#[global] Instance gi_G2Affine_Equals F F' O O' R (HO : @RelO F F' O O' R) : RelLem (G2Affine_Equals O) _ := rel_G2Affine_Equals O O' R HO.
#[global] Instance gi_IsOnCurve F F' O O' R (HO : @RelO F F' O O' R) : RelLem (IsOnCurve O) _ := rel_IsOnCurve O O' R HO.
#[global] Instance gi_GetPointFromX F F' O O' R (HO : @RelO F F' O O' R) : RelLem (GetPointFromX O) _ := rel_GetPointFromX O O' R HO.
Lemma rel_Affine_IsZero F F' (R : F -> F' -> Prop) g g' : RA R g g' -> Affine_IsZero g = Affine_IsZero g'.
Proof. intros H. apply (RA_inf _ _ _ H). Qed.
Lemma rel_NewAffine F F' (R : F -> F' -> Prop) x x' y y' : R x x' -> R y y' -> RA R (NewAffine x y) (NewAffine x' y').
Proof. intros. apply RA_mk; auto. Qed.
#[global] Instance gi_NewAffine F F' R : RelLem (@NewAffine F) _ := rel_NewAffine F F' R.
#[global] Instance gi_ops F F' B B' R (HB : @RelB F F' B B' R) : RelO (b_ops B) (b_ops B') R := rb_ops B B' R HB.
#[global] Instance gi_raw F F' B B' R (HB : @RelB F F' B B' R) : RelLem (b_raw B) _ := rb_raw B B' R HB.
#[global] Instance gi_of F F' B B' R (HB : @RelB F F' B B' R) : RelLem (b_of B) _ := rb_of B B' R HB.
#[global] Instance gi_repr F F' B B' R (HB : @RelB F F' B B' R) : RelLem (b_repr B) _ := rb_repr B B' R HB.
#[global] Instance gi_exp F F' B B' R (HB : @RelB F F' B B' R) : RelLem (b_exp B) _ := rb_exp B B' R HB.
#[global] Instance gi_legendre F F' B B' R (HB : @RelB F F' B B' R) : RelLem (b_legendre B) _ := rb_legendre B B' R HB.

(** Unfolding that keeps the local definitions of the body. *)
Ltac strip t :=
  lazymatch t with
  | let x := b_ops ?b in @?k x => let t' := eval cbv beta in (k (b_ops b)) in strip t'
  | let x := FQ2O ?b in @?k x => let t' := eval cbv beta in (k (FQ2O b)) in strip t'
  | ?f ?x => let f' := strip f in eval cbv beta in (f' x)
  | _ => t
  end.
Tactic Notation "unf" reference(id) :=
  lazymatch goal with |- ?S ?a ?b =>
    let a1 := eval cbv beta delta [id] in a in let a2 := strip a1 in
    let b1 := eval cbv beta delta [id] in b in let b2 := strip b1 in
    change (S a2 b2) end.
Ltac rel_side :=
  lazymatch goal with
  | |- wf6 _ => apply wfb_spec; vm_compute; reflexivity
  | |- validb _ = true => vm_compute; reflexivity
  end.
Ltac rel ::= cbv beta; first [syn_assumption | rel_side | rel_hint; rel | rel_proj; rel | rel_step; rel].
