(** The screening of messages in VerifyAggregate: the sorted copy contains a repetition (or starts with the
    initial empty lastMsg) exactly when two messages are equal or one message is empty. *)
Require Import ZArith Lia Bool List Permutation Sorted.
From Verif Require Import Words ModelBls.
Import ListNotations.
Open Scope Z_scope.

Lemma bytes_Equal_iff a b : bytes_Equal a b = true <-> a = b.
Proof.
  revert b. induction a as [|x a IH]; intros [|y b]; cbn [bytes_Equal]; try (split; congruence).
  rewrite andb_true_iff, Z.eqb_eq, IH. split; [intros [-> ->]; reflexivity|intros [= -> ->]; auto].
Qed.
Lemma bcmp_refl a : bytes_Compare a a = 0.
Proof. induction a as [|x a IH]; cbn [bytes_Compare]; [reflexivity|]. rewrite Z.ltb_irrefl. exact IH. Qed.
Lemma bcmp_anti a b : bytes_Compare a b <> -1 -> bytes_Compare b a <> -1 -> a = b.
Proof.
  revert b. induction a as [|x a IH]; intros [|y b]; cbn [bytes_Compare]; try congruence.
  destruct (Z.ltb_spec x y), (Z.ltb_spec y x); try congruence; try lia. intros H1 H2. f_equal; [lia|apply IH; assumption].
Qed.
Lemma bcmp_total a b : bytes_Compare a b = -1 -> bytes_Compare b a <> -1.
Proof.
  revert b. induction a as [|x a IH]; intros [|y b]; cbn [bytes_Compare]; try (intros; congruence); try discriminate.
  destruct (Z.ltb_spec x y), (Z.ltb_spec y x); try congruence; try lia. apply IH.
Qed.
(** a <= b *)
Definition ble (a b : list Z) : Prop := bytes_Compare b a <> -1.
Lemma ble_trans a b c : ble a b -> ble b c -> ble a c.
Proof.
  unfold ble. revert b c. induction a as [|x a IH]; intros [|y b] [|z c]; cbn [bytes_Compare]; try congruence.
  destruct (Z.ltb_spec y x), (Z.ltb_spec x y), (Z.ltb_spec z y), (Z.ltb_spec y z), (Z.ltb_spec z x), (Z.ltb_spec x z); try congruence; try lia. apply IH.
Qed.
Lemma ble_nil a : ble [] a. Proof. unfold ble. destruct a; discriminate. Qed.
Lemma insert_perm m l : Permutation (insert_bytes m l) (m :: l).
Proof. induction l as [|x l IH]; cbn [insert_bytes]; [reflexivity|]. destruct (bytes_Compare x m =? -1); [rewrite IH; apply perm_swap|reflexivity]. Qed.
Lemma sort_perm l : Permutation (sortByteArrays l) l.
Proof. induction l as [|m l IH]; cbn; [reflexivity|]. rewrite insert_perm, IH. reflexivity. Qed.
Lemma insert_sorted m l : StronglySorted ble l -> StronglySorted ble (insert_bytes m l).
Proof.
  induction 1 as [|x l Hl IH Hx]; cbn [insert_bytes]; [repeat constructor|]. destruct (bytes_Compare x m =? -1) eqn:E.
  - apply Z.eqb_eq in E. constructor; [exact IH|]. apply Forall_forall. intros z Hz. apply (Permutation_in z (insert_perm m l)) in Hz. destruct Hz as [<-|Hz].
    + unfold ble. apply bcmp_total. exact E.
    + rewrite Forall_forall in Hx. apply Hx, Hz.
  - apply Z.eqb_neq in E. constructor; [constructor; assumption|]. constructor; [exact E|]. eapply Forall_impl; [|exact Hx]. intros z. apply ble_trans. exact E.
Qed.
Lemma sort_sorted l : StronglySorted ble (sortByteArrays l).
Proof. induction l as [|m l IH]; cbn; [constructor|]. apply insert_sorted, IH. Qed.
Lemma sort_perm_eq l l' : Permutation l l' -> sortByteArrays l = sortByteArrays l'.
Proof.
  intros P. assert (forall l l', StronglySorted ble l -> StronglySorted ble l' -> Permutation l l' -> l = l') as H.
  { clear. induction l as [|x l IH]; intros l' S S' P; [apply Permutation_nil in P; congruence|]. destruct l' as [|y l']; [symmetry in P; apply Permutation_nil in P; discriminate|].
    inversion_clear S as [|? ? Sl Hx]. inversion_clear S' as [|? ? Sl' Hy]. rewrite Forall_forall in Hx, Hy.
    assert (x = y) as <-.
    { apply bcmp_anti.
      - destruct (Permutation_in x P (or_introl eq_refl)) as [->|I]; [rewrite bcmp_refl; discriminate|]. apply (Hy x I).
      - destruct (Permutation_in y (Permutation_sym P) (or_introl eq_refl)) as [->|I]; [rewrite bcmp_refl; discriminate|]. apply (Hx y I). }
    f_equal. apply IH; [assumption|assumption|]. eapply Permutation_cons_inv, P. }
  apply H; try apply sort_sorted. rewrite !sort_perm. exact P.
Qed.
Lemma has_dup_sorted l : forall last, StronglySorted ble (last :: l) -> (has_duplicate last l = true <-> ~ NoDup (last :: l)).
Proof.
  induction l as [|m l IH]; intros last S; cbn [has_duplicate].
  - split; [discriminate|]. intros H. exfalso. apply H. repeat constructor. exact (fun x => x).
  - inversion_clear S as [|? ? Sl Hx]. destruct (bytes_Equal m last) eqn:E.
    + apply bytes_Equal_iff in E. subst m. split; [intros _ N; inversion_clear N as [|? ? N1 _]; apply N1; left; reflexivity|reflexivity].
    + assert (m <> last) as E' by (intros Z; apply bytes_Equal_iff in Z; congruence). rewrite (IH m Sl). split; intros H N; apply H.
      * inversion N; assumption.
      * constructor; [|exact N]. intros [Z|I]; [exact (E' Z)|]. inversion_clear Sl as [|? ? _ Hm]. rewrite Forall_forall in Hm, Hx. apply E'. apply bcmp_anti.
        -- exact (Hx m (or_introl eq_refl)).
        -- exact (Hm last I).
Qed.
Theorem screen_iff msgs : has_duplicate [] (sortByteArrays msgs) = true <-> In [] msgs \/ ~ NoDup msgs.
Proof.
  rewrite has_dup_sorted by (constructor; [apply sort_sorted|apply Forall_forall; intros; apply ble_nil]).
  pose proof (sort_perm msgs) as P. split.
  - intros H. destruct (in_dec (list_eq_dec Z.eq_dec) [] msgs) as [I|N]; [left; exact I|right]. intros D. apply H. constructor.
    + intros I. apply N. exact (Permutation_in _ P I).
    + exact (Permutation_NoDup (Permutation_sym P) D).
  - intros [I|D] N; inversion_clear N as [|? ? N1 N2].
    + apply N1. exact (Permutation_in _ (Permutation_sym P) I).
    + apply D. exact (Permutation_NoDup P N2).
Qed.
Lemma screen_perm msgs msgs' : Permutation msgs msgs' -> has_duplicate [] (sortByteArrays msgs) = has_duplicate [] (sortByteArrays msgs').
Proof. intros P. rewrite (sort_perm_eq _ _ P). reflexivity. Qed.
Lemma screen_clean msgs : ~ In [] msgs -> NoDup msgs -> has_duplicate [] (sortByteArrays msgs) = false.
Proof. intros H D. destruct (has_duplicate [] (sortByteArrays msgs)) eqn:E; [|reflexivity]. apply screen_iff in E. destruct E as [E|E]; contradiction. Qed.
