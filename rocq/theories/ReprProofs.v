(** Integer meaning of FQRepr / FRRepr and correctness of the limb-level code. *)
Require Import String Ascii ZArith Lia Bool List.
From Verif Require Import Words ModelRepr.
Import ListNotations.
Open Scope Z_scope.

(** Value of a little-endian list of words. *)
Fixpoint evalw (l : list Z) : Z :=
  match l with [] => 0 | x :: l' => x + W * evalw l' end.

Definition eval6 (f : FQRepr) : Z := evalw (FQRepr_slice f).
Definition eval4 (f : FRRepr) : Z := evalw (FRRepr_slice f).
Definition wf6 (f : FQRepr) : Prop := Forall isW (FQRepr_slice f).
Definition wf4 (f : FRRepr) : Prop := Forall isW (FRRepr_slice f).

Notation B384 := (2 ^ 384) (only parsing).
Notation B256 := (2 ^ 256) (only parsing).

Lemma evalw_bound l : Forall isW l -> 0 <= evalw l < 2 ^ (64 * Z.of_nat (length l)).
Proof.
  induction 1 as [|x l Hx Hl IH]; [simpl; lia|].
  cbn [length evalw]. rewrite Nat2Z.inj_succ, Z.mul_succ_r, Z.add_comm, Z.pow_add_r by lia.
  change (2^64) with W. unfold isW in Hx. nia.
Qed.

Lemma eval6_bound f : wf6 f -> 0 <= eval6 f < 2 ^ 384.
Proof. intros H. apply evalw_bound in H. exact H. Qed.
Lemma eval4_bound f : wf4 f -> 0 <= eval4 f < 2 ^ 256.
Proof. intros H. apply evalw_bound in H. exact H. Qed.

Lemma evalw_inj l : forall l', Forall isW l -> Forall isW l' -> length l = length l' -> evalw l = evalw l' -> l = l'.
Proof.
  induction l as [|x l IH]; intros [|y l'] H H' L E; try discriminate; [reflexivity|].
  inversion_clear H. inversion_clear H'. cbn [evalw] in E. unfold isW in *.
  assert (evalw l = evalw l') as E2 by lia.
  f_equal; [lia|]. apply IH; auto.
Qed.

Lemma FQRepr_slice_inj f g : FQRepr_slice f = FQRepr_slice g -> f = g.
Proof. destruct f, g. unfold FQRepr_slice. cbn. congruence. Qed.
Lemma FRRepr_slice_inj f g : FRRepr_slice f = FRRepr_slice g -> f = g.
Proof. destruct f, g. unfold FRRepr_slice. cbn. congruence. Qed.

Lemma eval6_inj f g : wf6 f -> wf6 g -> eval6 f = eval6 g -> f = g.
Proof. intros. apply FQRepr_slice_inj. apply evalw_inj; auto. Qed.
Lemma eval4_inj f g : wf4 f -> wf4 g -> eval4 f = eval4 g -> f = g.
Proof. intros. apply FRRepr_slice_inj. apply evalw_inj; auto. Qed.

Lemma wf6_intro a b c d e f : isW a -> isW b -> isW c -> isW d -> isW e -> isW f -> wf6 (mkFQRepr a b c d e f).
Proof. intros. unfold wf6, wf4, FQRepr_slice, FRRepr_slice. cbn. repeat (apply Forall_cons; [assumption|]). apply Forall_nil. Qed.
Lemma wf4_intro a b c d : isW a -> isW b -> isW c -> isW d -> wf4 (mkFRRepr a b c d).
Proof. intros. unfold wf6, wf4, FQRepr_slice, FRRepr_slice. cbn. repeat (apply Forall_cons; [assumption|]). apply Forall_nil. Qed.
Lemma wf6_elim f : wf6 f -> isW (w0 f) /\ isW (w1 f) /\ isW (w2 f) /\ isW (w3 f) /\ isW (w4 f) /\ isW (w5 f).
Proof. intros H. unfold wf6, FQRepr_slice in H. repeat (apply Forall_cons_iff in H; destruct H as [? H]). tauto. Qed.
Lemma wf4_elim f : wf4 f -> isW (v0 f) /\ isW (v1 f) /\ isW (v2 f) /\ isW (v3 f).
Proof. intros H. unfold wf4, FRRepr_slice in H. repeat (apply Forall_cons_iff in H; destruct H as [? H]). tauto. Qed.

Ltac unwf :=
  repeat match goal with
  | H : wf6 ?f |- _ => apply wf6_elim in H; cbn [w0 w1 w2 w3 w4 w5] in H; destruct H as (? & ? & ? & ? & ? & ?)
  | H : wf4 ?f |- _ => apply wf4_elim in H; cbn [v0 v1 v2 v3] in H; destruct H as (? & ? & ? & ?)
  end.
Ltac uneval := unfold eval6, eval4, FQRepr_slice, FRRepr_slice; cbn [evalw w0 w1 w2 w3 w4 w5 v0 v1 v2 v3].
Ltac unevalH := unfold eval6, eval4, FQRepr_slice, FRRepr_slice in *; cbn [evalw w0 w1 w2 w3 w4 w5 v0 v1 v2 v3] in *.

(** ** Carry primitives *)

Lemma AddWithCarry_spec a b c s k :
  isW a -> isW b -> isW c -> AddWithCarry a b c = (s, k) ->
  isW s /\ 0 <= k <= 2 /\ s + W * k = a + b + c.
Proof.
  intros Ha Hb Hc. unfold AddWithCarry.
  destruct (Add64 a b 0) as [o k1] eqn:E1. apply Add64_spec in E1; try assumption; try lia.
  destruct (Add64 o c 0) as [o2 k2] eqn:E2. apply Add64_spec in E2; try tauto; try lia.
  intros E; inversion E; subst; clear E.
  destruct E1 as (? & ? & ?), E2 as (? & ? & ?).
  unfold wadd. rewrite wlo_small by (unfold isW in *; lia). split; [assumption|]. unfold isW in *; lia.
Qed.

Lemma AddWithCarry_spec' a b c : isW a -> isW b -> isW c ->
  exists s k, AddWithCarry a b c = (s, k) /\ isW s /\ 0 <= k <= 2 /\ s + W * k = a + b + c.
Proof. intros. destruct (AddWithCarry a b c) as [s k] eqn:E. exists s, k. split; [reflexivity|]. eapply AddWithCarry_spec; eassumption. Qed.

Lemma SubWithBorrow_spec a b c s k :
  isW a -> isW b -> 0 <= c <= 1 -> SubWithBorrow a b c = (s, k) ->
  isW s /\ 0 <= k <= 1 /\ s - W * k = a - b - c.
Proof. unfold SubWithBorrow. apply Sub64_spec. Qed.

Lemma MACWithCarry_spec a b c k o k' :
  isW a -> isW b -> isW c -> isW k -> MACWithCarry a b c k = (o, k') ->
  isW o /\ isW k' /\ o + W * k' = a + b * c + k.
Proof.
  intros Ha Hb Hc Hk. unfold MACWithCarry.
  destruct (Mul64 b c) as [h l] eqn:E0. apply Mul64_spec in E0; try assumption. destruct E0 as (? & ? & ? & ?).
  destruct (Add64 l a 0) as [o1 k1] eqn:E1. apply Add64_spec in E1; try assumption; try lia. destruct E1 as (? & ? & ?).
  destruct (Add64 o1 k 0) as [o2 k2] eqn:E2. apply Add64_spec in E2; try assumption; try lia. destruct E2 as (? & ? & ?).
  intros E; inversion E; subst; clear E.
  unfold wadd. assert (b * c <= (W-1)*(W-1)) by (unfold isW in *; nia).
  rewrite (wlo_small (h + k1)) by (unfold isW in *; lia).
  rewrite wlo_small by (unfold isW in *; lia).
  split; [assumption|]. unfold isW in *; lia.
Qed.

(** Destruct one carry step in the goal. Each output [o] is replaced by its value. *)
Ltac isWs := first [assumption | apply isW_0 | apply wlo_isW | unfold isW in *; lia].
Ltac mac_step :=
  match goal with
  | |- context [MACWithCarry ?a ?b ?c ?k] =>
      let o := fresh "o" in let k' := fresh "k" in let E := fresh "E" in let H := fresh "Hmac" in
      destruct (MACWithCarry a b c k) as [o k'] eqn:E;
      apply MACWithCarry_spec in E; [| isWs | isWs | isWs | isWs];
      destruct E as (? & ? & H)
  | |- context [AddWithCarry ?a ?b ?c] =>
      let o := fresh "o" in let k' := fresh "k" in let E := fresh "E" in let H := fresh "Hadd" in
      destruct (AddWithCarry a b c) as [o k'] eqn:E;
      apply AddWithCarry_spec in E; [| isWs | isWs | isWs];
      destruct E as (? & ? & H)
  | |- context [SubWithBorrow ?a ?b ?c] =>
      let o := fresh "o" in let k' := fresh "k" in let E := fresh "E" in let H := fresh "Hsub" in
      destruct (SubWithBorrow a b c) as [o k'] eqn:E;
      apply SubWithBorrow_spec in E; [| isWs | isWs | lia];
      destruct E as (? & ? & H)
  end.

(** ** Addition and subtraction modulo 2^384 / 2^256 *)

Lemma AddNoCarry_wf a b : wf6 a -> wf6 b -> wf6 (AddNoCarry a b).
Proof.
  intros Ha Hb. destruct a as [a0 a1 a2 a3 a4 a5], b as [b0 b1 b2 b3 b4 b5]. unwf. unfold AddNoCarry. repeat mac_step. apply wf6_intro; assumption.
Qed.

Lemma AddNoCarry_eval a b : wf6 a -> wf6 b -> eval6 (AddNoCarry a b) = (eval6 a + eval6 b) mod 2 ^ 384.
Proof.
  intros Ha Hb. pose proof (eval6_bound _ (AddNoCarry_wf a b Ha Hb)) as Hr.
  destruct a as [a0 a1 a2 a3 a4 a5], b as [b0 b1 b2 b3 b4 b5]. unwf. revert Hr. unfold AddNoCarry. repeat mac_step.
  intros Hr.
  match goal with |- eval6 (mkFQRepr _ _ _ _ _ _) = _ => idtac end.
  match type of Hadd4 with _ + W * ?k = _ => idtac end.
  apply Z.mod_unique with k4; [left; exact Hr|].
  unevalH. change (2^384) with (W*W*W*W*W*W) in *. lia.
Qed.

Lemma SubNoBorrow_wf a b : wf6 a -> wf6 b -> wf6 (SubNoBorrow a b).
Proof.
  intros Ha Hb. destruct a as [a0 a1 a2 a3 a4 a5], b as [b0 b1 b2 b3 b4 b5]. unwf. unfold SubNoBorrow. repeat mac_step. apply wf6_intro; assumption.
Qed.

Lemma SubNoBorrow_eval a b : wf6 a -> wf6 b -> eval6 (SubNoBorrow a b) = (eval6 a - eval6 b) mod 2 ^ 384.
Proof.
  intros Ha Hb. pose proof (eval6_bound _ (SubNoBorrow_wf a b Ha Hb)) as Hr.
  destruct a as [a0 a1 a2 a3 a4 a5], b as [b0 b1 b2 b3 b4 b5]. unwf. revert Hr. unfold SubNoBorrow. repeat mac_step.
  intros Hr. apply Z.mod_unique with (-k4); [left; exact Hr|].
  unevalH. change (2^384) with (W*W*W*W*W*W) in *. lia.
Qed.

Lemma FRRepr_AddNoCarry_wf a b : wf4 a -> wf4 b -> wf4 (FRRepr_AddNoCarry a b).
Proof.
  intros Ha Hb. destruct a as [a0 a1 a2 a3], b as [b0 b1 b2 b3]. unwf. unfold FRRepr_AddNoCarry; cbn [v0 v1 v2 v3]. repeat mac_step. apply wf4_intro; assumption.
Qed.
Lemma FRRepr_AddNoCarry_eval a b : wf4 a -> wf4 b -> eval4 (FRRepr_AddNoCarry a b) = (eval4 a + eval4 b) mod 2 ^ 256.
Proof.
  intros Ha Hb. pose proof (eval4_bound _ (FRRepr_AddNoCarry_wf a b Ha Hb)) as Hr.
  destruct a as [a0 a1 a2 a3], b as [b0 b1 b2 b3]. unwf. revert Hr. unfold FRRepr_AddNoCarry; cbn [v0 v1 v2 v3]. repeat mac_step.
  intros Hr. apply Z.mod_unique with k2; [left; exact Hr|].
  unevalH. change (2^256) with (W*W*W*W) in *. lia.
Qed.
Lemma FRRepr_SubNoBorrow_wf a b : wf4 a -> wf4 b -> wf4 (FRRepr_SubNoBorrow a b).
Proof.
  intros Ha Hb. destruct a as [a0 a1 a2 a3], b as [b0 b1 b2 b3]. unwf. unfold FRRepr_SubNoBorrow; cbn [v0 v1 v2 v3]. repeat mac_step. apply wf4_intro; assumption.
Qed.
Lemma FRRepr_SubNoBorrow_eval a b : wf4 a -> wf4 b -> eval4 (FRRepr_SubNoBorrow a b) = (eval4 a - eval4 b) mod 2 ^ 256.
Proof.
  intros Ha Hb. pose proof (eval4_bound _ (FRRepr_SubNoBorrow_wf a b Ha Hb)) as Hr.
  destruct a as [a0 a1 a2 a3], b as [b0 b1 b2 b3]. unwf. revert Hr. unfold FRRepr_SubNoBorrow; cbn [v0 v1 v2 v3]. repeat mac_step.
  intros Hr. apply Z.mod_unique with (-k2); [left; exact Hr|].
  unevalH. change (2^256) with (W*W*W*W) in *. lia.
Qed.

(** ** The full product *)

Ltac solve_macs :=
  repeat match goal with
  | H : ?o + W * ?k = ?rhs |- _ =>
      is_var o; let E := fresh in assert (E : o = rhs - W * k) by lia; clear H; subst o
  end.

Lemma MultiplyFQRepr_spec a b hi lo :
  wf6 a -> wf6 b -> MultiplyFQRepr a b = (hi, lo) ->
  wf6 hi /\ wf6 lo /\ eval6 hi * 2 ^ 384 + eval6 lo = eval6 a * eval6 b.
Proof.
  intros Ha Hb. destruct a as [a0 a1 a2 a3 a4 a5], b as [b0 b1 b2 b3 b4 b5]. unwf.
  unfold MultiplyFQRepr. repeat mac_step. intros E. inversion E; subst hi lo; clear E.
  split; [apply wf6_intro; assumption|]. split; [apply wf6_intro; assumption|].
  uneval. change (2^384) with (W*W*W*W*W*W).
  repeat match goal with H : isW _ |- _ => clear H end.
  solve_macs. ring.
Qed.
