(** Keys and signatures change only as receivers of Aggregate. *)
Require Import ZArith Lia Bool List.
From Verif Require Import ModelRepr ModelFq ModelFr ModelOps ModelTower ModelCurve CurveLimb ModelObjHeap.
Import ListNotations.

Section P.
  Context {F : Type} (O : Ops F).
  Lemma set_nth_length {A} (l : list A) k a : length (set_nth l k a) = length l.
  Proof. revert k. induction l as [|x l IH]; intros [|k]; cbn; auto. Qed.
  Lemma set_nth_other {A} (l : list A) k a j d : j <> k -> nth j (set_nth l k a) d = nth j l d.
  Proof. revert k j. induction l as [|x l IH]; intros [|k] [|j] H; cbn [set_nth nth]; try reflexivity; [contradiction|]. apply IH. congruence. Qed.
  Lemma set_nth_same {A} (l : list A) k a d : (k < length l)%nat -> nth k (set_nth l k a) d = a.
  Proof. revert k. induction l as [|x l IH]; intros [|k] H; cbn [set_nth nth length] in *; try lia; [reflexivity|]. apply IH. lia. Qed.
  Lemma nth_last {A} (l : list A) a d : nth (length l) (l ++ [a]) d = a.
  Proof. rewrite app_nth2, Nat.sub_diag by lia. reflexivity. Qed.
  Lemma set_nth_in {A} (l : list A) k a x : In x (set_nth l k a) -> x = a \/ In x l.
  Proof. revert k. induction l as [|y l IH]; intros [|k]; cbn [set_nth In]; [tauto|tauto|intros [E|I]; auto|intros [E|I]; [auto|destruct (IH _ I); auto]]. Qed.
  (** object pointers are valid and are not among the pointers callers hold *)
  Definition good (s : @OState F) : Prop :=
    Forall (fun p => (p < length (points s))%nat) (objects s) /\ Forall (fun p => (p < length (points s))%nat) (exposed s) /\ (forall p, In p (objects s) -> ~ In p (exposed s)).
  Lemma lt_app (l : list (Proj F)) P k : Forall (fun p => (p < length l)%nat) k -> Forall (fun p => (p < length (l ++ [P]))%nat) k.
  Proof. intros H. refine (Forall_impl _ _ H). intros p L. rewrite app_length. cbn. lia. Qed.
  Lemma obj_lt s o : good s -> (o < length (objects s))%nat -> (nth o (objects s) 0 < length (points s))%nat.
  Proof. intros (H & _ & _) L. rewrite Forall_forall in H. apply H, nth_In, L. Qed.
  Lemma good_new s P : good s -> good (new_object s P).
  Proof.
    intros (A & B & C). unfold good, new_object. cbn [points objects exposed]. split; [apply Forall_app; split; [apply lt_app, A|constructor; [rewrite app_length; cbn; lia|constructor]]|].
    split; [apply lt_app, B|]. intros p Hp. apply in_app_or in Hp. destruct Hp as [Hp|[<-|[]]]; [exact (C p Hp)|]. intros I. rewrite Forall_forall in B. specialize (B _ I). lia.
  Qed.
  Lemma good_assign s o P : good s -> good (assign s o P).
  Proof.
    intros (A & B & C). unfold good, assign. cbn [points objects exposed]. split; [|split; [apply lt_app, B|]].
    - apply Forall_forall. intros p Hp. apply set_nth_in in Hp. rewrite app_length. cbn. destruct Hp as [->|Hp]; [lia|]. rewrite Forall_forall in A. specialize (A _ Hp). lia.
    - intros p Hp. apply set_nth_in in Hp. destruct Hp as [->|Hp]; [|exact (C p Hp)]. intros I. rewrite Forall_forall in B. specialize (B _ I). lia.
  Qed.
  Lemma value_new s P o : good s -> (o < length (objects s))%nat -> value O (new_object s P) o = value O s o.
  Proof. intros G L. unfold value, point, new_object. cbn [points objects]. rewrite (app_nth1 (objects s)) by exact L. apply app_nth1, obj_lt; assumption. Qed.
  Lemma value_new_self s P : value O (new_object s P) (length (objects s)) = P.
  Proof. unfold value, point, new_object. cbn [points objects]. rewrite nth_last, nth_last. reflexivity. Qed.
  Lemma value_assign_other s o P k : good s -> (k < length (objects s))%nat -> k <> o -> value O (assign s o P) k = value O s k.
  Proof. intros G L N. unfold value, point, assign. cbn [points objects]. rewrite set_nth_other by exact N. apply app_nth1, obj_lt; assumption. Qed.
  Lemma value_assign_self s o P : (o < length (objects s))%nat -> value O (assign s o P) o = P.
  Proof. intros L. unfold value, point, assign. cbn [points objects]. rewrite set_nth_same by exact L. apply nth_last. Qed.
  (** AggregateAll: a new object with the sum; everything else as before *)
  Lemma fold_spec os : forall s new, good s -> (new < length (objects s))%nat -> Forall (fun o => (o < length (objects s))%nat /\ o <> new) os ->
    let s' := fold_left (fun s o' => assign s new (Add O (value O s new) (value O s o'))) os s in
    good s' /\ length (objects s') = length (objects s) /\ (forall k, (k < length (objects s))%nat -> k <> new -> value O s' k = value O s k) /\
    value O s' new = fold_left (Add O) (map (value O s) os) (value O s new).
  Proof.
    induction os as [|o os IH]; intros s new G L H; cbn [fold_left map]; [auto|]. inversion H as [|? ? [Lo No] H']; subst.
    set (P := Add O (value O s new) (value O s o)). assert (length (objects (assign s new P)) = length (objects s)) as E by apply set_nth_length.
    destruct (IH (assign s new P) new) as (G' & L' & V' & S'); [apply good_assign, G|rewrite E; exact L|rewrite E; exact H'|].
    split; [exact G'|]. split; [congruence|]. split.
    - intros k Hk Nk. rewrite V' by (rewrite ?E; assumption). apply value_assign_other; assumption.
    - rewrite S', value_assign_self by exact L. f_equal. apply map_ext_in. intros k Hk. rewrite Forall_forall in H'. destruct (H' k Hk). apply value_assign_other; assumption.
  Qed.
  Lemma step_good s c : good s -> ook s c ->
    good (ostep O true s c) /\ (length (objects s) <= length (objects (ostep O true s c)))%nat /\
    forall k, (k < length (objects s))%nat -> receiver c <> Some k -> value O (ostep O true s c) k = value O s k.
  Proof.
    intros G. destruct c as [P|o|o o'|os|o|p]; cbn [ostep ook receiver].
    - intros _. split; [apply good_new, G|]. split; [cbn; rewrite app_length; lia|]. intros k Hk _. apply value_new; assumption.
    - intros _. split; [apply good_new, G|]. split; [cbn; rewrite app_length; lia|]. intros k Hk _. apply value_new; assumption.
    - intros _. split; [apply good_assign, G|]. split; [cbn; rewrite set_nth_length; lia|]. intros k Hk N. apply value_assign_other; [exact G|exact Hk|congruence].
    - intros H. set (s0 := new_object s (ProjectiveZero O)). assert (length (objects s0) = S (length (objects s))) as L0 by (cbn; rewrite app_length; cbn; lia).
      destruct (fold_spec os s0 (length (objects s))) as (G' & L' & V' & _); [apply good_new, G|lia| |].
      { refine (Forall_impl _ _ H). intros a Ha. cbn beta in Ha. lia. }
      split; [exact G'|]. split; [cbv zeta in L'; lia|]. intros k Hk _. rewrite V' by lia. apply value_new; assumption.
    - intros L. split; [|split; [cbn; lia|]].
      + destruct G as (A & B & C). unfold good. cbn [points objects exposed]. split; [apply lt_app, A|]. split; [constructor; [rewrite app_length; cbn; lia|apply lt_app, B]|].
        intros p Hp [<-|I]; [|exact (C p Hp I)]. rewrite Forall_forall in A. specialize (A _ Hp). lia.
      + intros k Hk _. unfold value, point. cbn [points objects]. apply app_nth1, obj_lt; assumption.
    - intros I. split; [|split; [cbn; lia|]].
      + destruct G as (A & B & C). unfold good. cbn [points objects exposed]. rewrite set_nth_length. auto.
      + intros k Hk _. unfold value, point. cbn [points objects]. apply set_nth_other. intros E. destruct G as (_ & _ & C). apply (C p); [rewrite <- E; apply nth_In, Hk|exact I].
  Qed.
  Lemma orun_app l l' : forall s, orun O true s (l ++ l') = orun O true (orun O true s l) l'.
  Proof. induction l as [|c l IH]; intros s; cbn [orun app]; auto. Qed.
  Lemma run_good l : forall s, good s -> ook_all O true s l -> good (orun O true s l) /\ (length (objects s) <= length (objects (orun O true s l)))%nat /\
    forall k, (k < length (objects s))%nat -> Forall (fun c => receiver c <> Some k) l -> value O (orun O true s l) k = value O s k.
  Proof.
    induction l as [|c l IH]; intros s G H; cbn [orun ook_all] in *; [auto|]. destruct H as [Hc H]. destruct (step_good s c G Hc) as (G' & L' & V').
    destruct (IH _ G' H) as (G2 & L2 & V2). split; [exact G2|]. split; [lia|]. intros k Hk HF. inversion HF; subst. rewrite V2 by (try assumption; lia). apply V'; assumption.
  Qed.
  Lemma good_init : good oinit. Proof. split; [constructor|]. split; [constructor|]. intros p []. Qed.
  (** an object keeps its value through any later history in which it is not the receiver of Aggregate *)
  Theorem objects_stable l l' k : ook_all O true oinit (l ++ l') -> (k < length (objects (orun O true oinit l)))%nat -> Forall (fun c => receiver c <> Some k) l' ->
    value O (orun O true oinit (l ++ l')) k = value O (orun O true oinit l) k.
  Proof.
    intros H Hk HF. assert (forall l s, ook_all O true s (l ++ l') -> ook_all O true s l /\ ook_all O true (orun O true s l) l') as K.
    { clear. induction l as [|c l IH]; intros s H; cbn [app ook_all orun] in *; [auto|]. destruct H as [A B]. destruct (IH _ B). auto. }
    destruct (K l _ H) as [H1 H2]. rewrite orun_app. destruct (run_good l oinit good_init H1) as (G & _ & _). destruct (run_good l' _ G H2) as (_ & _ & V). apply V; assumption.
  Qed.
  (** what the calls do *)
  Theorem object_results l : ook_all O true oinit l -> let s := orun O true oinit l in let n := length (objects s) in
    (forall P, value O (ostep O true s (ONew P)) n = P) /\
    (forall o, (o < n)%nat -> value O (ostep O true s (OCopy o)) n = value O s o) /\
    (forall o o', (o < n)%nat -> value O (ostep O true s (OAggregate o o')) o = Add O (value O s o) (value O s o')) /\
    (forall os, Forall (fun o => (o < n)%nat) os -> value O (ostep O true s (OAggregateAll os)) n = fold_left (Add O) (map (value O s) os) (ProjectiveZero O)).
  Proof.
    intros H s n. destruct (run_good l oinit good_init H) as (G & _ & _). fold s in G. split; [intros P; apply value_new_self|]. split; [intros o _; apply value_new_self|].
    split; [intros o o' L; apply value_assign_self, L|]. intros os Hos. cbn [ostep]. set (s0 := new_object s (ProjectiveZero O)).
    assert (length (objects s0) = S n) as L0 by (cbn; rewrite app_length; cbn; fold n; lia).
    destruct (fold_spec os s0 n) as (_ & _ & _ & V); [apply good_new, G|lia| |].
    { refine (Forall_impl _ _ Hos). intros a Ha. cbn beta in Ha. lia. }
    fold n. etransitivity; [exact V|]. unfold s0, n. rewrite value_new_self. f_equal. apply map_ext_in. intros k Hk. rewrite Forall_forall in Hos. apply value_new; [exact G|exact (Hos k Hk)].
  Qed.
End P.
(** the hypotheses are met; and without the copy in GetPoint the property fails *)
Definition obj_history : list (ocall FQ) := [ONew (G1ProjectiveOne FqB); OCopy 0%nat; OGetPoint 0%nat; OPointNeg 2%nat; OAggregate 1%nat 1%nat; OAggregateAll [0%nat; 1%nat]].
Example obj_history_ok : ook_all FqO true oinit obj_history /\ value FqO (orun FqO true oinit obj_history) 0%nat = G1ProjectiveOne FqB /\
  value FqO (orun FqO true oinit obj_history) 1%nat <> G1ProjectiveOne FqB /\ point FqO (orun FqO true oinit obj_history) 2%nat <> G1ProjectiveOne FqB.
Proof.
  split; [cbn -[G1ProjectiveOne]; repeat (apply Logic.conj || apply Forall_cons || apply Forall_nil || lia || (left; reflexivity)); exact I|].
  split; [reflexivity|]. split; intros H; apply (f_equal py) in H; vm_compute in H; discriminate H.
Qed.
Example getpoint_without_copy_refuted : exists l l' : list (ocall FQ), ook_all FqO false oinit (l ++ l') /\ Forall (fun c => receiver c <> Some 0%nat) l' /\
  value FqO (orun FqO false oinit (l ++ l')) 0%nat <> value FqO (orun FqO false oinit l) 0%nat.
Proof.
  exists [ONew (G1ProjectiveOne FqB)], [OGetPoint 0%nat; OPointNeg 0%nat]. split; [cbn -[G1ProjectiveOne]; repeat (apply Logic.conj || lia || (left; reflexivity)); exact I|].
  split; [repeat constructor; discriminate|]. intros H. apply (f_equal py) in H. vm_compute in H. discriminate H.
Qed.
