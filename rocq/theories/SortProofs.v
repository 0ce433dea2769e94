(** Less is a strict weak order, insertion sort ends sorted, and IsSorted is sortedness. *)
Require Import ZArith Lia Bool List Permutation Sorted.
From Verif Require Import Words ModelRepr ModelFq ModelFr ModelOps ModelTower ModelCurve ModelPairing ModelHash ModelBls MsgScreen ModelSlice SliceProofs ModelSort.
Import ListNotations.
Open Scope Z_scope.

(** ** bytes.Compare *)
Lemma bcmp_range a : forall b, bytes_Compare a b = -1 \/ bytes_Compare a b = 0 \/ bytes_Compare a b = 1.
Proof.
  induction a as [|x a IH]; intros [|y b]; cbn [bytes_Compare]; auto. destruct (x <? y); auto. destruct (y <? x); auto.
Qed.
Definition blt (a b : list Z) : Prop := bytes_Compare a b = -1.
Lemma blt_irrefl a : ~ blt a a. Proof. unfold blt. rewrite bcmp_refl. discriminate. Qed.
Lemma blt_trans a b c : blt a b -> blt b c -> blt a c.
Proof.
  unfold blt. intros H1 H2. destruct (Z.eq_dec (bytes_Compare a c) (-1)) as [|N]; [assumption|exfalso].
  (* c <= a and a < b, hence c <= b, against b < c *)
  assert (ble c b) as H by (apply (ble_trans c a b); [exact N|unfold ble; apply bcmp_total; exact H1]). exact (H H2).
Qed.
Lemma blt_incomparable a b : ~ blt a b -> ~ blt b a -> a = b.
Proof. apply bcmp_anti. Qed.

Definition buf (M : Mem) (p : nat) : list Z := nth p (bufs M) [].
Lemma Less_ok M o i j p q : nth_error (array M o) i = Some p -> nth_error (array M o) j = Some q ->
  exists b, Less M o i j = Some b /\ (b = true <-> blt (buf M p) (buf M q)).
Proof.
  intros Hi Hj. unfold Less. rewrite Hi, Hj. fold (buf M p) (buf M q). unfold blt.
  destruct (bcmp_range (buf M p) (buf M q)) as [E|[E|E]]; rewrite E; cbn; eexists; (split; [reflexivity|]); split; congruence.
Qed.
Lemma Less_contents M o i j a b : nth_error (contents M o) i = Some a -> nth_error (contents M o) j = Some b ->
  exists v, Less M o i j = Some v /\ (v = true <-> blt a b).
Proof.
  unfold contents. rewrite !nth_error_map. destruct (nth_error (array M o) i) as [p|] eqn:Hi; [|discriminate].
  destruct (nth_error (array M o) j) as [q|] eqn:Hj; [|discriminate]. intros [= <-] [= <-]. exact (Less_ok M o i j p q Hi Hj).
Qed.
Lemma Less_panic M o i j : Less M o i j = None <-> (length (contents M o) <= i \/ length (contents M o) <= j)%nat.
Proof.
  rewrite contents_length. split.
  - intros H. destruct (nth_error (array M o) i) as [p|] eqn:Hi; [|left; apply nth_error_None; exact Hi].
    destruct (nth_error (array M o) j) as [q|] eqn:Hj; [|right; apply nth_error_None; exact Hj].
    destruct (Less_ok M o i j p q Hi Hj) as (b & E & _). congruence.
  - unfold Less. intros [H|H].
    + rewrite (proj2 (nth_error_None _ _) H). reflexivity.
    + rewrite (proj2 (nth_error_None _ _) H). destruct (nth_error (array M o) i); reflexivity.
Qed.

(** ** Insertion into a sorted prefix, seen on the list of pointers *)
Section Ins.
Context (M0 : Mem).
Definition ltb (p q : nat) : bool := bytes_Compare (buf M0 p) (buf M0 q) =? -1.
Definition le (p q : nat) : Prop := ble (buf M0 p) (buf M0 q).
Fixpoint ins_rev (p : list nat) (x : nat) : list nat := (* the prefix reversed *)
  match p with
  | [] => [x]
  | y :: p' => if ltb x y then y :: ins_rev p' x else x :: y :: p'
  end.
Definition ins (p : list nat) (x : nat) : list nat := rev (ins_rev (rev p) x).
Lemma ins_snoc p y x : ins (p ++ [y]) x = if ltb x y then ins p x ++ [y] else p ++ [y; x].
Proof.
  unfold ins. rewrite rev_app_distr. cbn [rev app ins_rev]. destruct (ltb x y); cbn [rev]; [reflexivity|].
  rewrite rev_involutive, <- app_assoc. reflexivity.
Qed.
Lemma ins_perm p x : Permutation (ins p x) (p ++ [x]).
Proof.
  induction p as [|y p IH] using rev_ind; [reflexivity|]. rewrite ins_snoc. destruct (ltb x y).
  - rewrite IH, <- !app_assoc. apply Permutation_app_head. cbn. apply perm_swap.
  - rewrite <- app_assoc. reflexivity.
Qed.
Lemma snoc_sorted l a : StronglySorted le (l ++ [a]) <-> StronglySorted le l /\ Forall (fun z => le z a) l.
Proof.
  induction l as [|z l IH]; cbn.
  - split; [intros _; split; constructor|intros _; repeat constructor].
  - split.
    + intros H. inversion_clear H as [|? ? S F]. apply IH in S. destruct S as [S F']. apply Forall_app in F. destruct F as [F Fa]. inversion_clear Fa.
      split; [constructor; assumption|constructor; assumption].
    + intros [H F]. inversion_clear H as [|? ? S F']. inversion_clear F. constructor; [apply IH; split; assumption|].
      apply Forall_app. split; [assumption|]. constructor; [assumption|constructor].
Qed.
Lemma ins_sorted p x : StronglySorted le p -> StronglySorted le (ins p x).
Proof.
  induction p as [|y p IH] using rev_ind; intros H; [repeat constructor|]. rewrite ins_snoc. apply snoc_sorted in H. destruct H as [S F].
  unfold ltb. destruct (Z.eqb_spec (bytes_Compare (buf M0 x) (buf M0 y)) (-1)) as [E|N].
  - apply snoc_sorted. split; [apply IH; exact S|]. apply Forall_forall. intros z Hz. apply (Permutation_in z (ins_perm p x)) in Hz.
    apply in_app_iff in Hz. destruct Hz as [Hz|[<-|[]]].
    + exact (proj1 (Forall_forall _ _) F z Hz).
    + unfold le, ble. apply bcmp_total. exact E.
  - change (p ++ [y; x]) with (p ++ [y] ++ [x]). rewrite app_assoc. apply snoc_sorted. split; [apply snoc_sorted; split; assumption|].
    apply Forall_app. split; [|constructor; [exact N|constructor]].
    eapply Forall_impl; [|exact F]. intros z Hz. eapply ble_trans; [exact Hz|exact N].
Qed.

(** ** The loops on memory *)
Definition at_ (o : nat) (l : list nat) (M : Mem) : Mem := mkMem (bufs M) (set_nth o l (arrays M)).
Lemma at_array o l M : (o < length (arrays M))%nat -> array (at_ o l M) o = l.
Proof. intros L. unfold array, at_. cbn [arrays]. rewrite set_nth_nth, Nat.eqb_refl, (proj2 (Nat.ltb_lt _ _) L). reflexivity. Qed.
Lemma set_nth_twice {A} o (x y : A) l : set_nth o x (set_nth o y l) = set_nth o x l.
Proof. revert o. induction l as [|z l IH]; intros [|o]; cbn; auto. f_equal. apply IH. Qed.
Lemma set_nth_same {A} o (l : list A) d : (o < length l)%nat -> set_nth o (nth o l d) l = l.
Proof. revert o. induction l as [|z l IH]; intros [|o] L; cbn in *; try lia; auto. f_equal. apply IH. lia. Qed.
Lemma at_same o M : (o < length (arrays M))%nat -> at_ o (array M o) M = M.
Proof. intros L. unfold at_, array. rewrite set_nth_same by exact L. destruct M; reflexivity. Qed.
Lemma at_at o l l' M : at_ o l (at_ o l' M) = at_ o l M.
Proof. unfold at_. cbn [bufs arrays]. rewrite set_nth_twice. reflexivity. Qed.
Lemma at_len o l M : length (arrays (at_ o l M)) = length (arrays M).
Proof. apply set_nth_length. Qed.

Lemma swap_adjacent (p : list nat) y x rest : list_swap (p ++ y :: x :: rest) (S (length p)) (length p) = Some (p ++ x :: y :: rest).
Proof.
  unfold list_swap. rewrite !nth_error_app2 by lia. rewrite Nat.sub_diag. replace (S (length p) - length p)%nat with 1%nat by lia. cbn [nth_error].
  f_equal. induction p as [|z p IH]; [reflexivity|]. cbn [app length set_nth]. f_equal. exact IH.
Qed.
Lemma nth_mid {A} (p : list A) y x rest : nth_error (p ++ y :: x :: rest) (length p) = Some y /\ nth_error (p ++ y :: x :: rest) (S (length p)) = Some x.
Proof.
  rewrite !nth_error_app2 by lia. rewrite Nat.sub_diag. replace (S (length p) - length p)%nat with 1%nat by lia. split; reflexivity.
Qed.

Lemma sift_ok o p : forall M x rest, bufs M = bufs M0 -> (o < length (arrays M))%nat -> array M o = p ++ x :: rest ->
  sift M o (length p) = Some (at_ o (ins p x ++ rest) M) /\ exists s, run_swaps M o s = Some (at_ o (ins p x ++ rest) M).
Proof.
  induction p as [|y p IH] using rev_ind; intros M x rest EB L EA.
  - change (ins [] x ++ rest) with ([] ++ x :: rest). rewrite <- EA, at_same by exact L. split; [reflexivity|]. exists []. reflexivity.
  - rewrite app_length, Nat.add_1_r. cbn [sift]. rewrite <- app_assoc in EA. cbn [app] in EA.
    destruct (nth_mid p y x rest) as [Hy Hx]. rewrite <- EA in Hy, Hx. destruct (Less_ok M o (S (length p)) (length p) x y Hx Hy) as (b & Eb & Hb). rewrite Eb.
    rewrite ins_snoc. assert (ltb x y = b) as ->.
    { unfold ltb, buf. rewrite <- EB. fold (buf M x) (buf M y). unfold blt in Hb. destruct (Z.eqb_spec (bytes_Compare (buf M x) (buf M y)) (-1)) as [E|E]; destruct b; try reflexivity.
      - apply Hb in E. discriminate.
      - exfalso. apply E, Hb. reflexivity. }
    destruct b.
    + unfold Swap. rewrite EA, swap_adjacent. cbn [option_map]. change (mkMem (bufs M) (set_nth o (p ++ x :: y :: rest) (arrays M))) with (at_ o (p ++ x :: y :: rest) M).
      destruct (IH (at_ o (p ++ x :: y :: rest) M) x (y :: rest)) as (H1 & s & H2); [exact EB|rewrite at_len; exact L|apply at_array; exact L|].
      rewrite at_at in H1, H2. rewrite <- app_assoc. cbn [app]. split; [exact H1|]. exists ((S (length p), length p) :: s). cbn [run_swaps]. unfold Swap. rewrite EA, swap_adjacent. exact H2.
    + replace ((p ++ [y; x]) ++ rest) with (array M o) by (rewrite EA, <- app_assoc; reflexivity). rewrite at_same by exact L. split; [reflexivity|]. exists []. reflexivity.
Qed.
Lemma run_swaps_app o s1 : forall M M1 s2, run_swaps M o s1 = Some M1 -> run_swaps M o (s1 ++ s2) = run_swaps M1 o s2.
Proof.
  induction s1 as [|[i j] s1 IH]; intros M M1 s2 H; cbn [run_swaps app] in *; [injection H as ->; reflexivity|].
  destruct (Swap M o i j); [apply IH; exact H|discriminate].
Qed.
Lemma fold_sift o rest : forall M p, bufs M = bufs M0 -> (o < length (arrays M))%nat -> array M o = p ++ rest -> StronglySorted le p ->
  exists M2 s, fold_left (fun st i => match st with None => None | Some M => sift M o i end) (seq (length p) (length rest)) (Some M) = Some M2 /\
  run_swaps M o s = Some M2 /\ bufs M2 = bufs M0 /\ StronglySorted le (array M2 o).
Proof.
  induction rest as [|x rest IH]; intros M p EB L EA SP.
  - exists M, []. cbn. rewrite EA, app_nil_r. auto.
  - cbn [length seq fold_left]. destruct (sift_ok o p M x rest EB L EA) as (H1 & s1 & H2). rewrite H1.
    destruct (IH (at_ o (ins p x ++ rest) M) (ins p x)) as (M2 & s2 & A & C & D & E); [exact EB|rewrite at_len; exact L|apply at_array; exact L|apply ins_sorted; exact SP|].
    assert (length (ins p x) = S (length p)) as EL by (rewrite (Permutation_length (ins_perm p x)), app_length, Nat.add_1_r; reflexivity).
    rewrite EL in A. exists M2, (s1 ++ s2). split; [exact A|]. split; [rewrite (run_swaps_app o s1 _ _ s2 H2); exact C|]. split; assumption.
Qed.
End Ins.

Lemma sorted_map M l : StronglySorted (le M) l -> sorted_bytes (map (fun p => nth p (bufs M) []) l).
Proof.
  induction 1 as [|a l S IH F]; cbn [map]; constructor; [exact IH|]. apply Forall_map. exact F.
Qed.
Theorem insertionSort_ok M o : (o < length (arrays M))%nat ->
  exists M2 s, insertionSort M o = Some M2 /\ run_swaps M o s = Some M2 /\ sorted_bytes (contents M2 o).
Proof.
  intros L. unfold insertionSort, Len. destruct (array M o) as [|x rest] eqn:EA.
  - exists M, []. cbn. split; [reflexivity|]. split; [reflexivity|]. unfold contents. rewrite EA. constructor.
  - cbn [length]. replace (S (length rest) - 1)%nat with (length rest) by lia.
    destruct (fold_sift M o rest M [x] eq_refl L) as (M2 & s & A & C & D & E); [exact EA|repeat constructor|].
    exists M2, s. split; [exact A|]. split; [exact C|]. unfold contents. rewrite D. apply sorted_map. exact E.
Qed.

(** ** IsSorted *)
Lemma adj_sorted l : (forall i a b, nth_error l i = Some a -> nth_error l (S i) = Some b -> ble a b) <-> sorted_bytes l.
Proof.
  split.
  - induction l as [|a l IH]; intros H; [constructor|].
    assert (sorted_bytes l) as S by (apply IH; intros i x y Hx Hy; exact (H (Datatypes.S i) x y Hx Hy)).
    constructor; [exact S|]. destruct l as [|b l]; [constructor|]. pose proof (H 0%nat a b eq_refl eq_refl) as Hab.
    inversion_clear S as [|? ? S' F]. constructor; [exact Hab|]. eapply Forall_impl; [|exact F]. intros z Hz. exact (ble_trans a b z Hab Hz).
  - intros S. induction S as [|a l S IH F]; intros i x y Hx Hy; [destruct i; discriminate|].
    destruct i as [|i]; cbn [nth_error] in *.
    + injection Hx as <-. destruct l as [|b l]; [discriminate|]. cbn in Hy. injection Hy as <-. inversion_clear F. assumption.
    + exact (IH i x y Hx Hy).
Qed.
Lemma sorted_down_ok M o i : (i < Len M o)%nat -> exists b, sorted_down M o i = Some b /\
  (b = true <-> forall k a c, (k < i)%nat -> nth_error (contents M o) k = Some a -> nth_error (contents M o) (S k) = Some c -> ble a c).
Proof.
  unfold Len. rewrite <- contents_length. induction i as [|i IH]; intros L; cbn [sorted_down].
  - exists true. split; [reflexivity|]. split; [intros; lia|reflexivity].
  - destruct (nth_error (contents M o) (S i)) as [c|] eqn:Ec; [|apply nth_error_None in Ec; lia].
    destruct (nth_error (contents M o) i) as [a|] eqn:Ea; [|apply nth_error_None in Ea; lia].
    destruct (Less_contents M o (S i) i c a Ec Ea) as (v & Ev & Hv). rewrite Ev. destruct v.
    + exists false. split; [reflexivity|]. split; [discriminate|]. intros H. exfalso. apply (H i a c); [lia|exact Ea|exact Ec|]. apply Hv. reflexivity.
    + destruct IH as (b & Eb & Hb); [lia|]. exists b. split; [exact Eb|]. rewrite Hb. split.
      * intros H k x y Hk Hx Hy. destruct (Nat.eq_dec k i) as [->|N]; [|apply (H k); [lia|assumption|assumption]].
        rewrite Ea in Hx. rewrite Ec in Hy. injection Hx as <-. injection Hy as <-. intros B. apply Hv in B. discriminate.
      * intros H k x y Hk. apply H. lia.
Qed.
Theorem IsSorted_ok M o : exists b, IsSorted M o = Some b /\ (b = true <-> sorted_bytes (contents M o)).
Proof.
  unfold IsSorted. destruct (Nat.eq_dec (Len M o) 0) as [Z|N].
  - exists true. rewrite Z. split; [reflexivity|]. split; [intros _|reflexivity]. unfold Len in Z. unfold contents. destruct (array M o); [constructor|discriminate].
  - destruct (sorted_down_ok M o (Len M o - 1)) as (b & E & H); [lia|]. exists b. split; [exact E|]. rewrite H, <- adj_sorted. split.
    + intros X k a c Ha Hc. apply (X k); [|exact Ha|exact Hc]. assert (S k < length (contents M o))%nat by (apply nth_error_Some; congruence). rewrite contents_length in *. unfold Len. lia.
    + intros X k a c _. apply X.
Qed.

(** ** Sorting programs: what they do to a slice of pointers depends on the answers of Less only *)
Section Run.
Context {A : Type}.
(** the program on any list with any test *)
Definition swapA (l : list A) (i j : nat) : option (list A) :=
  match nth_error l i, nth_error l j with Some x, Some y => Some (set_nth i y (set_nth j x l)) | _, _ => None end.
Fixpoint runA (lt : A -> A -> bool) (P : prog) (l : list A) : option (list A) :=
  match P with
  | Done => Some l
  | AskLess i j k => match nth_error l i, nth_error l j with Some x, Some y => runA lt (k (lt x y)) l | _, _ => None end
  | DoSwap i j k => match swapA l i j with None => None | Some l' => runA lt k l' end
  end.
Lemma set_nth_in n (x z : A) l : In z (set_nth n x l) -> z = x \/ In z l.
Proof. revert n. induction l as [|y l IH]; intros [|n] H; cbn in *; auto; destruct H as [H|H]; auto. destruct (IH n H); auto. Qed.
Lemma swapA_in l i j l' : swapA l i j = Some l' -> forall z, In z l' -> In z l.
Proof.
  unfold swapA. destruct (nth_error l i) as [x|] eqn:Ei; [|discriminate]. destruct (nth_error l j) as [y|] eqn:Ej; [|discriminate].
  intros H. injection H as <-. intros z Hz. apply set_nth_in in Hz. destruct Hz as [->|Hz]; [exact (nth_error_In _ _ Ej)|].
  apply set_nth_in in Hz. destruct Hz as [->|Hz]; [exact (nth_error_In _ _ Ei)|exact Hz].
Qed.
End Run.
Lemma set_nth_map {A C} (f : A -> C) n x l : map f (set_nth n x l) = set_nth n (f x) (map f l).
Proof. revert n. induction l as [|y l IH]; intros [|n]; cbn; auto. f_equal. apply IH. Qed.
Lemma swapA_map {A C} (f : A -> C) l i j : swapA (map f l) i j = option_map (map f) (swapA l i j).
Proof.
  unfold swapA. rewrite !nth_error_map. destruct (nth_error l i); [|reflexivity]. destruct (nth_error l j); [|reflexivity].
  cbn [option_map]. rewrite !set_nth_map. reflexivity.
Qed.
Lemma runA_map {A C} (f : A -> C) lt lt' P : forall l, (forall x y, In x l -> In y l -> lt x y = lt' (f x) (f y)) ->
  runA lt' P (map f l) = option_map (map f) (runA lt P l).
Proof.
  induction P as [|i j k IH|i j k IH]; intros l H; cbn [runA].
  - reflexivity.
  - rewrite !nth_error_map. destruct (nth_error l i) as [x|] eqn:Ei; [|reflexivity]. destruct (nth_error l j) as [y|] eqn:Ej; [|reflexivity].
    cbn [option_map]. rewrite <- (H x y (nth_error_In _ _ Ei) (nth_error_In _ _ Ej)). apply IH. exact H.
  - rewrite swapA_map. destruct (swapA l i j) as [l'|] eqn:E; [|reflexivity]. cbn [option_map]. apply IH.
    intros x y Hx Hy. apply H; eapply swapA_in; eassumption.
Qed.
Lemma runA_in {A} (lt : A -> A -> bool) P : forall l l', runA lt P l = Some l' -> forall z, In z l' -> In z l.
Proof.
  induction P as [|i j k IH|i j k IH]; intros l l' H z Hz; cbn [runA] in H.
  - injection H as <-. exact Hz.
  - destruct (nth_error l i); [|discriminate]. destruct (nth_error l j); [|discriminate]. exact (IH _ l l' H z Hz).
  - destruct (swapA l i j) as [l1|] eqn:E; [|discriminate]. exact (swapA_in _ _ _ _ E z (IH l1 l' H z Hz)).
Qed.
Lemma run_ints_A P : forall l, run_ints P l = runA Nat.ltb P l.
Proof.
  induction P as [|i j k IH|i j k IH]; intros l; cbn [run_ints runA]; [reflexivity| |].
  - destruct (nth_error l i); [|reflexivity]. destruct (nth_error l j); [|reflexivity]. apply IH.
  - change (list_swap l i j) with (swapA l i j). destruct (swapA l i j); [apply IH|reflexivity].
Qed.
Lemma Less_eq M o i j : Less M o i j = match nth_error (array M o) i, nth_error (array M o) j with Some p, Some q => Some (ltb M p q) | _, _ => None end.
Proof.
  destruct (nth_error (array M o) i) as [p|] eqn:Hi; [|unfold Less; rewrite Hi; reflexivity].
  destruct (nth_error (array M o) j) as [q|] eqn:Hj; [|unfold Less; rewrite Hi, Hj; reflexivity].
  destruct (Less_ok M o i j p q Hi Hj) as (b & E & H). rewrite E. f_equal. unfold ltb. unfold blt in H.
  destruct (Z.eqb_spec (bytes_Compare (buf M p) (buf M q)) (-1)) as [e|e]; destruct b; try reflexivity; [apply H in e; discriminate|exfalso; apply e, H; reflexivity].
Qed.
Lemma run_prog_A P : forall M o, (o < length (arrays M))%nat ->
  run_prog P M o = option_map (fun l => at_ o l M) (runA (ltb M) P (array M o)).
Proof.
  induction P as [|i j k IH|i j k IH]; intros M o L; cbn [run_prog runA].
  - cbn [option_map]. rewrite at_same by exact L. reflexivity.
  - rewrite Less_eq. destruct (nth_error (array M o) i) as [p|]; [|reflexivity]. destruct (nth_error (array M o) j) as [q|]; [|reflexivity]. apply IH. exact L.
  - unfold Swap. change (list_swap (array M o) i j) with (swapA (array M o) i j). destruct (swapA (array M o) i j) as [l'|]; [|reflexivity].
    cbn [option_map]. change (mkMem (bufs M) (set_nth o l' (arrays M))) with (at_ o l' M).
    rewrite IH by (rewrite at_len; exact L). rewrite at_array by exact L. change (ltb (at_ o l' M)) with (ltb M).
    destruct (runA (ltb M) k l'); [|reflexivity]. cbn [option_map]. rewrite at_at. reflexivity.
Qed.
Lemma run_prog_swaps P : forall M o M2, run_prog P M o = Some M2 -> exists s, run_swaps M o s = Some M2.
Proof.
  induction P as [|i j k IH|i j k IH]; intros M o M2 H; cbn [run_prog] in H.
  - exists []. exact H.
  - destruct (Less M o i j) as [b|]; [|discriminate]. exact (IH b M o M2 H).
  - destruct (Swap M o i j) as [M'|] eqn:E; [|discriminate]. destruct (IH M' o M2 H) as [s Hs]. exists ((i, j) :: s). cbn [run_swaps]. rewrite E. exact Hs.
Qed.

(** ** A sorting algorithm right for integers is right for the messages: replace a pointer by the number of smaller ones *)
Definition sorts_ints (n : nat) (P : prog) : Prop :=
  forall l, length l = n -> exists l', run_ints P l = Some l' /\ StronglySorted Nat.le l'.
Section Rank.
Context (M : Mem) (l : list nat).
Definition rank (x : nat) : nat := length (filter (fun y => ltb M y x) l).
Lemma ltb_blt x y : ltb M x y = true <-> blt (buf M x) (buf M y).
Proof. unfold ltb, blt. apply Z.eqb_eq. Qed.
Lemma filter_le (f g : nat -> bool) k : (forall z, f z = true -> g z = true) -> (length (filter f k) <= length (filter g k))%nat.
Proof.
  intros H. induction k as [|z k IH]; cbn; [lia|]. destruct (f z) eqn:E; [rewrite (H z E); cbn; lia|]. destruct (g z); cbn; lia.
Qed.
Lemma filter_lt (f g : nat -> bool) k x : (forall z, f z = true -> g z = true) -> In x k -> f x = false -> g x = true -> (length (filter f k) < length (filter g k))%nat.
Proof.
  intros H. induction k as [|z k IH]; [intros []|]. intros [->|I] Fx Gx; cbn.
  - rewrite Fx, Gx. cbn. pose proof (filter_le f g k H). lia.
  - specialize (IH I Fx Gx). destruct (f z) eqn:E; [rewrite (H z E); cbn; lia|]. destruct (g z); cbn; lia.
Qed.
Lemma rank_lt x y : In x l -> ltb M x y = Nat.ltb (rank x) (rank y).
Proof.
  intros I. destruct (ltb M x y) eqn:E; symmetry.
  - apply Nat.ltb_lt. apply (filter_lt _ _ l x); [|exact I| |exact E].
    + intros z Hz. apply ltb_blt in Hz, E. apply ltb_blt. exact (blt_trans _ _ _ Hz E).
    + destruct (ltb M x x) eqn:N; [|reflexivity]. apply ltb_blt in N. destruct (blt_irrefl _ N).
  - apply Nat.ltb_ge. apply filter_le. intros z Hz. destruct (ltb M z x) eqn:N; [reflexivity|].
    (* x <= z < y *)
    apply ltb_blt in Hz. exfalso. assert (~ blt (buf M z) (buf M x)) as N1 by (intros B; apply ltb_blt in B; congruence).
    assert (~ blt (buf M x) (buf M y)) as N2 by (intros B; apply ltb_blt in B; congruence).
    (* ble y x -> ble x z -> ble y z, against z < y *)
    assert (ble (buf M y) (buf M z)) as Q.
    { apply (ble_trans _ (buf M x)); unfold ble.
      - exact N2.
      - exact N1. }
    exact (Q Hz).
Qed.
End Rank.
Theorem prog_sorts P M o : (o < length (arrays M))%nat -> sorts_ints (Len M o) P ->
  exists M2 s, run_prog P M o = Some M2 /\ run_swaps M o s = Some M2 /\ sorted_bytes (contents M2 o).
Proof.
  intros L H. set (l := array M o). specialize (H (map (rank M l) l)). rewrite map_length in H. destruct (H eq_refl) as (l' & R & S).
  rewrite run_ints_A in R. rewrite (runA_map (rank M l) (ltb M)) in R by (intros x y I _; apply rank_lt; exact I).
  destruct (runA (ltb M) P l) as [k|] eqn:E; [|discriminate]. cbn [option_map] in R. injection R as <-.
  assert (run_prog P M o = Some (at_ o k M)) as RP by (rewrite run_prog_A by exact L; fold l; rewrite E; reflexivity).
  destruct (run_prog_swaps P M o _ RP) as [s Hs]. exists (at_ o k M), s. split; [exact RP|]. split; [exact Hs|].
  unfold contents. rewrite at_array by exact L. change (bufs (at_ o k M)) with (bufs M). apply sorted_map.
  pose proof (runA_in _ _ _ _ E) as I. clear - S I. induction k as [|a k IH]; [constructor|]. cbn [map] in S. inversion_clear S as [|? ? S' F].
  constructor; [apply IH; [exact S'|intros z Hz; apply I; right; exact Hz]|]. apply Forall_forall. intros z Hz. rewrite Forall_map in F.
  pose proof (proj1 (Forall_forall _ _) F z Hz) as Q. cbv beta in Q. unfold le, ble. intros B. apply ltb_blt in B. rewrite (rank_lt M l z a) in B by (apply I; right; exact Hz). apply Nat.ltb_lt in B. unfold Nat.le in Q. lia.
Qed.
(** insertion sort is such an algorithm *)
Lemma sift_prog_run M o j : forall k, run_prog (sift_prog j k) M o = match sift M o j with None => None | Some M' => run_prog k M' o end.
Proof.
  revert M. induction j as [|j IH]; intros M k; cbn [sift_prog sift run_prog]; [reflexivity|].
  destruct (Less M o (S j) j) as [[|]|]; [|reflexivity|reflexivity]. cbn [run_prog]. destruct (Swap M o (S j) j) as [M'|]; [apply IH|reflexivity].
Qed.
Lemma insertion_fold o ks : forall M, run_prog (fold_right sift_prog Done ks) M o = fold_left (fun st i => match st with None => None | Some M => sift M o i end) ks (Some M).
Proof.
  induction ks as [|i ks IH]; intros M; cbn [fold_right fold_left]; [reflexivity|]. rewrite sift_prog_run.
  destruct (sift M o i) as [M'|]; [apply IH|]. clear. induction ks; cbn; auto.
Qed.
Lemma insertion_prog_run M o : run_prog (insertion_prog (Len M o)) M o = insertionSort M o.
Proof. apply insertion_fold. Qed.
(** integers as messages of that many zero bytes *)
Definition zmsg (x : nat) : list Z := repeat 0 x.
Lemma zmsg_cmp x : forall y, bytes_Compare (zmsg x) (zmsg y) = if Nat.ltb x y then -1 else if Nat.ltb y x then 1 else 0.
Proof. induction x as [|x IH]; intros [|y]; cbn; try reflexivity. exact (IH y). Qed.
Theorem insertion_sorts_ints n : sorts_ints n (insertion_prog n).
Proof.
  intros l EL. (* a memory whose message number i is as long as the i-th integer *)
  set (M := mkMem (map zmsg l) [seq 0 (length l)]).
  assert (array M 0 = seq 0 (length l)) as EA by reflexivity.
  assert (Len M 0 = n) as EN by (unfold Len; rewrite EA, seq_length; exact EL).
  destruct (insertionSort_ok M 0) as (M2 & s & R & Sw & S); [cbn; lia|]. rewrite <- insertion_prog_run, EN, run_prog_A in R by (cbn; lia). rewrite EA in R.
  destruct (runA (ltb M) (insertion_prog n) (seq 0 (length l))) as [k|] eqn:E; [|discriminate]. cbn [option_map] in R. injection R as <-.
  set (f := fun p => nth p l 0%nat).
  assert (map f (seq 0 (length l)) = l) as Fl.
  { clear. unfold f. induction l as [|a l IH]; [reflexivity|]. cbn [length seq map nth]. f_equal. rewrite <- seq_shift, map_map. exact IH. }
  assert (forall p, In p (seq 0 (length l)) -> buf M p = zmsg (f p)) as Bz.
  { intros p _. unfold buf, M, f. cbn [bufs]. change [] with (zmsg 0). apply map_nth. }
  exists (map f k). split.
  - rewrite run_ints_A. rewrite <- Fl at 1. rewrite (runA_map f (ltb M)); [rewrite E; reflexivity|].
    intros x y Hx Hy. unfold ltb. rewrite (Bz x Hx), (Bz y Hy), zmsg_cmp. destruct (f x <? f y)%nat; [reflexivity|]. destruct (f y <? f x)%nat; reflexivity.
  - pose proof (runA_in _ _ _ _ E) as I. unfold contents in S. rewrite at_array in S by (cbn; lia). change (bufs (at_ 0 k M)) with (bufs M) in S. clear - S I Bz.
    induction k as [|a k IH]; [constructor|]. cbn [map] in S |- *. inversion_clear S as [|? ? S' F].
    constructor; [apply IH; [exact S'|intros z Hz; apply I; right; exact Hz]|]. rewrite Forall_map in *. apply Forall_forall. intros z Hz.
    pose proof (proj1 (Forall_forall _ _) F z Hz) as Q. cbv beta in Q. change (ble (buf M a) (buf M z)) in Q. rewrite (Bz a), (Bz z) in Q by (apply I; cbn; auto). unfold ble in Q. rewrite zmsg_cmp in Q.
    destruct (Nat.ltb_spec (f z) (f a)); [congruence|]. assumption.
Qed.

(** ** VerifyAggregate with any sorting algorithm that is right for integers *)
Definition sorting (A : nat -> prog) : Prop := forall n, sorts_ints n (A n).
Lemma screen_with_ok A M o : sorting A -> (o < length (arrays M))%nat -> wfM M ->
  exists M2 s, screen_with A M o = screen M o s /\ screen M o s = Some (M2, has_duplicate [] (contents M2 (length (arrays M)))) /\ sorted_bytes (contents M2 (length (arrays M))).
Proof.
  intros H L W. pose proof (copy_msgs_spec M o W) as HC. unfold screen_with, screen. destruct (copy_msgs M o) as [M1 o1]. destruct HC as (X & E1 & LA & C & W1).
  destruct (prog_sorts (A (Len M1 o1)) M1 o1) as (M2 & s & R & Sw & S); [lia|apply H|]. rewrite R. exists M2, s. rewrite Sw. subst o1. split; [reflexivity|]. split; [reflexivity|exact S].
Qed.
Section Verify.
  Context {F : Type} (sha : list Z -> list Z) (B : BOps F).
  Theorem sort1 A sig pubs M o : sorting A -> wfM M -> (o < length (arrays M))%nat ->
    exists M2, g1pubs_VerifyAggregate_sort sha B A sig pubs M o = Some (M2, g1pubs_VerifyAggregate sha B sig pubs (contents M o)) /\ extends M M2 /\ contents M2 o = contents M o.
  Proof.
    intros H W L. destruct (screen_with_ok A M o H L W) as (M2 & s & E & Es & S).
    assert (g1pubs_VerifyAggregate_sort sha B A sig pubs M o = g1pubs_VerifyAggregate_mem sha B sig pubs M o s) as -> by (unfold g1pubs_VerifyAggregate_sort, g1pubs_VerifyAggregate_mem; rewrite E; reflexivity).
    destruct (g1pubs_VerifyAggregate_mem sha B sig pubs M o s) as [[M3 v]|] eqn:Q.
    - destruct (mem1 sha B sig pubs M o s M3 v W L Q) as (X & C & V). exists M3. split; [|split; assumption]. f_equal. f_equal. apply V. intros EQ.
      unfold g1pubs_VerifyAggregate_mem in Q. rewrite contents_length in EQ. rewrite EQ, Nat.eqb_refl in Q. cbn [negb] in Q. rewrite Es in Q.
      destruct (has_duplicate [] (contents M2 (length (arrays M)))); destruct (some_pair _ _ _ _ Q) as [<- _]; exact S.
    - exfalso. unfold g1pubs_VerifyAggregate_mem in Q. destruct (negb _); [discriminate|]. rewrite Es in Q. destruct (has_duplicate _ _); discriminate.
  Qed.
  Theorem sort2 A sig pubs M o : sorting A -> wfM M -> (o < length (arrays M))%nat ->
    exists M2, g2pubs_VerifyAggregate_sort sha B A sig pubs M o = Some (M2, g2pubs_VerifyAggregate sha B sig pubs (contents M o)) /\ extends M M2 /\ contents M2 o = contents M o.
  Proof.
    intros H W L. destruct (screen_with_ok A M o H L W) as (M2 & s & E & Es & S).
    assert (g2pubs_VerifyAggregate_sort sha B A sig pubs M o = g2pubs_VerifyAggregate_mem sha B sig pubs M o s) as -> by (unfold g2pubs_VerifyAggregate_sort, g2pubs_VerifyAggregate_mem; rewrite E; reflexivity).
    destruct (g2pubs_VerifyAggregate_mem sha B sig pubs M o s) as [[M3 v]|] eqn:Q.
    - destruct (mem2 sha B sig pubs M o s M3 v W L Q) as (X & C & V). exists M3. split; [|split; assumption]. f_equal. f_equal. apply V. intros EQ.
      unfold g2pubs_VerifyAggregate_mem in Q. rewrite contents_length in EQ. rewrite EQ, Nat.eqb_refl in Q. cbn [negb] in Q. rewrite Es in Q.
      destruct (has_duplicate [] (contents M2 (length (arrays M)))); destruct (some_pair _ _ _ _ Q) as [<- _]; exact S.
    - exfalso. unfold g2pubs_VerifyAggregate_mem in Q. destruct (negb _); [discriminate|]. rewrite Es in Q. destruct (has_duplicate _ _); discriminate.
  Qed.
End Verify.
Lemma insertion_sorting : sorting insertion_prog.
Proof. exact insertion_sorts_ints. Qed.
(** the example memory of SliceProofs.v, sorted; and an algorithm that does nothing, which does not sort *)
Example ex_insertion : exists M2, insertionSort ex_mem 0 = Some M2 /\ contents M2 0 = [[2]; [2; 9]; [3; 1]] /\ IsSorted ex_mem 0 = Some false /\ IsSorted M2 0 = Some true.
Proof. eexists. split; [vm_compute; reflexivity|]. vm_compute. repeat split. Qed.
Example ex_not_sorting : ~ sorting (fun _ => Done).
Proof. intros H. destruct (H 2%nat [1; 0]%nat eq_refl) as (l' & R & S). cbn in R. injection R as <-. inversion_clear S as [|? ? _ F]. inversion_clear F. unfold Nat.le in *. lia. Qed.
