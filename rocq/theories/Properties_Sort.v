(** Property C80: the sort.Interface of the packages, and VerifyAggregate with any sorting algorithm.
    - [Len], [Less], [Swap]: the methods of sortableByteArray on the memory of ModelSlice.v; None is a panic.
    - [blt a b]: a comes strictly before b in the order of bytes.Compare; [sorted_bytes]: each element is before or equal to all later ones.
    - [prog]: a sorting algorithm at one length, as a tree of questions to Less and calls of Swap.
    - [sorts_ints n P]: given any n integers, P ends without a panic with the integers in order; [sorting A]: A n does so for every n. *)
Require Import ZArith Lia Bool List Permutation Sorted.
From Verif Require Import Words ModelRepr ModelFq ModelFr ModelOps ModelTower ModelCurve ModelPairing ModelHash ModelBls MsgScreen FqRel ModelSlice SliceProofs ModelSort SortProofs.
Import ListNotations.
Open Scope Z_scope.

Theorem C80_order : (forall a, ~ blt a a) /\ (forall a b c, blt a b -> blt b c -> blt a c) /\ (forall a b, ~ blt a b -> ~ blt b a -> a = b).
Proof. exact (conj blt_irrefl (conj blt_trans blt_incomparable)). Qed.
Theorem C80_less M o i j a b : nth_error (contents M o) i = Some a -> nth_error (contents M o) j = Some b ->
  exists v, Less M o i j = Some v /\ (v = true <-> blt a b).
Proof. exact (Less_contents M o i j a b). Qed.
Theorem C80_less_panics M o i j : Less M o i j = None <-> (length (contents M o) <= i \/ length (contents M o) <= j)%nat.
Proof. exact (Less_panic M o i j). Qed.
Theorem C80_is_sorted M o : exists b, IsSorted M o = Some b /\ (b = true <-> sorted_bytes (contents M o)).
Proof. exact (IsSorted_ok M o). Qed.
Theorem C80_insertion_sort M o : (o < length (arrays M))%nat ->
  exists M2 s, insertionSort M o = Some M2 /\ run_swaps M o s = Some M2 /\ sorted_bytes (contents M2 o).
Proof. exact (insertionSort_ok M o). Qed.
Theorem C80_insertion_is_sorting : sorting insertion_prog /\ forall M o, run_prog (insertion_prog (Len M o)) M o = insertionSort M o.
Proof. exact (conj insertion_sorting insertion_prog_run). Qed.
Theorem C80_integers_suffice P M o : (o < length (arrays M))%nat -> sorts_ints (Len M o) P ->
  exists M2 s, run_prog P M o = Some M2 /\ run_swaps M o s = Some M2 /\ sorted_bytes (contents M2 o).
Proof. exact (prog_sorts P M o). Qed.
Theorem C80_g1pubs sha A sig pubs M o : sorting A -> wfM M -> (o < length (arrays M))%nat ->
  exists M2, g1pubs_VerifyAggregate_sort sha FqB A sig pubs M o = Some (M2, g1pubs_VerifyAggregate sha FqB sig pubs (contents M o)) /\ extends M M2 /\ contents M2 o = contents M o.
Proof. exact (sort1 sha FqB A sig pubs M o). Qed.
Theorem C80_g2pubs sha A sig pubs M o : sorting A -> wfM M -> (o < length (arrays M))%nat ->
  exists M2, g2pubs_VerifyAggregate_sort sha FqB A sig pubs M o = Some (M2, g2pubs_VerifyAggregate sha FqB sig pubs (contents M o)) /\ extends M M2 /\ contents M2 o = contents M o.
Proof. exact (sort2 sha FqB A sig pubs M o). Qed.

Example C80_nonvacuous : exists M2, insertionSort ex_mem 0 = Some M2 /\ contents M2 0 = [[2]; [2; 9]; [3; 1]] /\ IsSorted ex_mem 0 = Some false /\ IsSorted M2 0 = Some true.
Proof. exact ex_insertion. Qed.
(** insertion sort is a sorting algorithm (above); doing nothing is not *)
Example C80_not_sorting : ~ sorting (fun _ => Done).
Proof. exact ex_not_sorting. Qed.
Example C80_memory : wfM ex_mem /\ (0 < length (arrays ex_mem))%nat.
Proof. exact (conj (proj1 ex_screen) (le_S _ _ (le_n _))). Qed.

Print Assumptions C80_order.
Print Assumptions C80_less.
Print Assumptions C80_less_panics.
Print Assumptions C80_is_sorted.
Print Assumptions C80_insertion_sort.
Print Assumptions C80_insertion_is_sorting.
Print Assumptions C80_integers_suffice.
Print Assumptions C80_g1pubs.
Print Assumptions C80_g2pubs.
