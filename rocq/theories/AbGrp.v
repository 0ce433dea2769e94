(** Abelian groups and integer multiples. *)
Require Import ZArith Lia Bool List Setoid Morphisms Znumtheory.
Open Scope Z_scope.

Record AbGrp := mkAbGrp {
  gT :> Type; gO : gT; gA : gT -> gT -> gT; gN : gT -> gT;
  gA_assoc : forall x y z, gA x (gA y z) = gA (gA x y) z;
  gA_comm : forall x y, gA x y = gA y x;
  gA_0_l : forall x, gA gO x = x;
  gA_N_r : forall x, gA x (gN x) = gO }.
Arguments gO {_}. Arguments gA {_}. Arguments gN {_}.
Arguments gA_assoc {_}. Arguments gA_comm {_}. Arguments gA_0_l {_}. Arguments gA_N_r {_}.

(** k-fold sum *)
Definition gm {G : AbGrp} (k : Z) (x : G) : G :=
  match k with Z0 => gO | Zpos p => Pos.iter (gA x) gO p | Zneg p => gN (Pos.iter (gA x) gO p) end.

Section Facts.
Context {G : AbGrp}.
Implicit Types x y z : G.
Lemma gA_0_r x : gA x gO = x. Proof. rewrite gA_comm. apply gA_0_l. Qed.
Lemma gA_N_l x : gA (gN x) x = gO. Proof. rewrite gA_comm. apply gA_N_r. Qed.
Lemma gA_cancel_l x y z : gA x y = gA x z -> y = z.
Proof. intros E. rewrite <- (gA_0_l y), <- (gA_N_l x), <- gA_assoc, E, gA_assoc, gA_N_l, gA_0_l. reflexivity. Qed.
Lemma gA_cancel_r x y z : gA y x = gA z x -> y = z.
Proof. rewrite !(gA_comm _ x). apply gA_cancel_l. Qed.
Lemma gN_unique x y : gA x y = gO -> y = gN x. Proof. intros E. apply (gA_cancel_l x). rewrite E, gA_N_r. reflexivity. Qed.
Lemma gN_0 : gN (@gO G) = gO. Proof. symmetry. apply gN_unique, gA_0_l. Qed.
Lemma gN_N x : gN (gN x) = x. Proof. symmetry. apply gN_unique, gA_N_l. Qed.
Lemma gA_swap a b c d : gA (gA a b) (gA c d) = gA (gA a c) (gA b d : G).
Proof. rewrite <- !gA_assoc. f_equal. rewrite !gA_assoc. f_equal. apply gA_comm. Qed.
Lemma gN_A x y : gN (gA x y) = gA (gN x) (gN y).
Proof. symmetry. apply gN_unique. rewrite gA_swap, !gA_N_r. apply gA_0_l. Qed.
Lemma gm_0 x : gm 0 x = gO. Proof. reflexivity. Qed.
Lemma gm_1 x : gm 1 x = x. Proof. cbn. apply gA_0_r. Qed.
Lemma gm_succ_nat n x : gm (Z.of_nat (S n)) x = gA x (gm (Z.of_nat n) x).
Proof.
  destruct n; [reflexivity|]. cbn [Z.of_nat gm]. cbn [Pos.of_succ_nat]. rewrite Pos.iter_succ. reflexivity.
Qed.
Lemma gm_opp k x : gm (- k) x = gN (gm k x).
Proof. destruct k; cbn [Z.opp gm]; [symmetry; apply gN_0|reflexivity|symmetry; apply gN_N]. Qed.
Lemma gm_succ k x : gm (k + 1) x = gA x (gm k x).
Proof.
  destruct (Z_le_gt_dec 0 k) as [H|H].
  - rewrite <- (Z2Nat.id k) by lia. replace (Z.of_nat (Z.to_nat k) + 1) with (Z.of_nat (S (Z.to_nat k))) by lia. apply gm_succ_nat.
  - replace k with (- Z.of_nat (S (Z.to_nat (- k - 1)))) at 2 by lia.
    rewrite gm_opp, gm_succ_nat, gN_A, gA_assoc, gA_N_r, gA_0_l, <- gm_opp. f_equal. lia.
Qed.
Lemma gm_pred k x : gm (k - 1) x = gA (gN x) (gm k x).
Proof. apply (gA_cancel_l x). rewrite <- gm_succ, gA_assoc, gA_N_r, gA_0_l. f_equal. lia. Qed.
Lemma gm_add k l x : gm (k + l) x = gA (gm k x) (gm l x).
Proof.
  revert l. assert (forall n l, gm (Z.of_nat n + l) x = gA (gm (Z.of_nat n) x) (gm l x)) as H.
  { induction n as [|n IH]; intros l; [symmetry; apply gA_0_l|]. rewrite gm_succ_nat, <- gA_assoc, <- IH, <- gm_succ. f_equal. lia. }
  intros l. destruct (Z_le_gt_dec 0 k) as [Hk|Hk]; [rewrite <- (Z2Nat.id k) by lia; apply H|].
  apply (gA_cancel_l (gm (Z.of_nat (Z.to_nat (- k))) x)). rewrite <- H, gA_assoc.
  replace (gm k x) with (gN (gm (Z.of_nat (Z.to_nat (- k))) x)) by (rewrite <- gm_opp; f_equal; lia).
  rewrite gA_N_r, gA_0_l. f_equal. lia.
Qed.
Lemma gm_sub k l x : gm (k - l) x = gA (gm k x) (gN (gm l x)).
Proof. replace (k - l) with (k + - l) by lia. rewrite gm_add, gm_opp. reflexivity. Qed.
Lemma gm_A k x y : gm k (gA x y) = gA (gm k x) (gm k y).
Proof.
  assert (forall n, gm (Z.of_nat n) (gA x y) = gA (gm (Z.of_nat n) x) (gm (Z.of_nat n) y)) as H.
  { induction n as [|n IH]; [symmetry; apply gA_0_l|]. rewrite !gm_succ_nat, IH. apply gA_swap. }
  destruct (Z_le_gt_dec 0 k) as [Hk|Hk]; [rewrite <- (Z2Nat.id k) by lia; apply H|].
  replace k with (- (Z.of_nat (Z.to_nat (- k)))) by lia. rewrite !gm_opp, H. apply gN_A.
Qed.
Lemma gm_O k : gm k (@gO G) = gO.
Proof. apply (gA_cancel_l (gm k gO)). rewrite <- gm_A, !gA_0_r. reflexivity. Qed.
Lemma gm_N k x : gm k (gN x) = gN (gm k x).
Proof. apply gN_unique. rewrite <- gm_A, gA_N_r. apply gm_O. Qed.
Lemma gm_mul k l x : gm (k * l) x = gm k (gm l x).
Proof.
  assert (forall n, gm (Z.of_nat n * l) x = gm (Z.of_nat n) (gm l x)) as H.
  { induction n as [|n IH]; [reflexivity|]. rewrite gm_succ_nat, <- IH, <- gm_add. f_equal. lia. }
  destruct (Z_le_gt_dec 0 k) as [Hk|Hk]; [rewrite <- (Z2Nat.id k) by lia; apply H|].
  replace k with (- (Z.of_nat (Z.to_nat (- k)))) by lia. rewrite Z.mul_opp_l, !gm_opp, H. reflexivity.
Qed.
Lemma gm_2 x : gm 2 x = gA x x. Proof. replace 2 with (1 + 1) by lia. rewrite gm_add, gm_1. reflexivity. Qed.
Lemma gm_mod n k x : gm n x = gO -> gm (k mod n) x = gm k x.
Proof.
  intros H. destruct (Z.eq_dec n 0) as [->|N]; [rewrite Zmod_0_r; reflexivity|].
  rewrite (Z.div_mod k n N) at 2. rewrite gm_add, (Z.mul_comm n), gm_mul, H, gm_O, gA_0_l. reflexivity.
Qed.
Lemma gm_cong n k l x : gm n x = gO -> k mod n = l mod n -> gm k x = gm l x.
Proof. intros H E. rewrite <- (gm_mod n k x H), <- (gm_mod n l x H), E. reflexivity. Qed.
Lemma gm_divide n k x : gm n x = gO -> (n | k) -> gm k x = gO.
Proof. intros H [c ->]. rewrite gm_mul, H. apply gm_O. Qed.
Lemma gm_gcd a b x : gm a x = gO -> gm b x = gO -> gm (Z.gcd a b) x = gO.
Proof.
  intros A B. destruct (Zis_gcd_bezout a b (Z.gcd a b) (Zgcd_is_gcd a b)) as [u v E]. rewrite <- E, gm_add, !gm_mul, A, B, !gm_O. apply gA_0_l.
Qed.
Lemma gm_coprime a b x : Z.gcd a b = 1 -> gm a x = gO -> gm b x = gO -> x = gO.
Proof. intros E A B. rewrite <- (gm_1 x), <- E. apply gm_gcd; assumption. Qed.
(** an element killed by a prime r and not zero has order exactly r *)
Lemma gm_prime_order r k x : prime r -> gm r x = gO -> x <> gO -> gm k x = gO -> (r | k).
Proof.
  intros P H N K. destruct (Zdivide_dec r k) as [D|D]; [exact D|exfalso].
  apply N. apply (gm_coprime r k); [|exact H|exact K]. apply Zgcd_1_rel_prime, prime_rel_prime; assumption.
Qed.
End Facts.

(** Homomorphisms *)
Record hom {G H : AbGrp} (f : G -> H) : Prop := { hom_A : forall x y, f (gA x y) = gA (f x) (f y) }.
Section Homs.
Context {G H : AbGrp} (f : G -> H) (Hf : hom f).
Lemma hom_O : f gO = gO.
Proof. apply (gA_cancel_l (f gO)). rewrite <- (hom_A f Hf), !gA_0_r. reflexivity. Qed.
Lemma hom_N x : f (gN x) = gN (f x).
Proof. apply gN_unique. rewrite <- (hom_A f Hf), gA_N_r. apply hom_O. Qed.
Lemma hom_gm k x : f (gm k x) = gm k (f x).
Proof.
  assert (forall n, f (gm (Z.of_nat n) x) = gm (Z.of_nat n) (f x)) as E.
  { induction n as [|n IH]; [apply hom_O|]. rewrite !gm_succ_nat, (hom_A f Hf), IH. reflexivity. }
  destruct (Z_le_gt_dec 0 k) as [Hk|Hk]; [rewrite <- (Z2Nat.id k) by lia; apply E|].
  replace k with (- (Z.of_nat (Z.to_nat (- k)))) by lia. rewrite !gm_opp, hom_N, E. reflexivity.
Qed.
End Homs.
