(** sortableByteArray as sort.Interface, and insertionSort of package sort, on the memory of ModelSlice.v. *)
Require Import ZArith Bool List.
From Verif Require Import Words ModelRepr ModelFq ModelFr ModelOps ModelTower ModelCurve ModelPairing ModelHash ModelBls ModelSlice.
Import ListNotations.
Open Scope Z_scope.

(** g1pubs/bls.go:224-226 (g2pubs:212-214) Len *)
Definition Len (M : Mem) (o : nat) : nat := length (array M o).
(** g1pubs/bls.go:228-239 (g2pubs:216-227) Less: None is a panic, either from an index out of range or from
    the default branch of the switch *)
Definition Less (M : Mem) (o i j : nat) : option bool :=
  match nth_error (array M o) i, nth_error (array M o) j with
  | Some p, Some q =>
      let c := bytes_Compare (nth p (bufs M) []) (nth q (bufs M) []) in
      if c =? -1 then Some true
      else if (c =? 0) || (c =? 1) then Some false
      else None
  | _, _ => None
  end.

(** sort.insertionSort(data, 0, n), which sort.Sort uses for up to twelve elements:
      for i := a + 1; i < b; i++ { for j := i; j > a && data.Less(j, j-1); j-- { data.Swap(j, j-1) } } *)
Fixpoint sift (M : Mem) (o j : nat) : option Mem :=
  match j with
  | O => Some M
  | S k =>
      match Less M o (S k) k with
      | None => None
      | Some false => Some M
      | Some true => match Swap M o (S k) k with None => None | Some M' => sift M' o k end
      end
  end.
Definition insertionSort (M : Mem) (o : nat) : option Mem :=
  fold_left (fun st i => match st with None => None | Some M => sift M o i end) (seq 1 (Len M o - 1)) (Some M).

(** sort.IsSorted: for i := n - 1; i > 0; i-- { if data.Less(i, i-1) { return false } } *)
Fixpoint sorted_down (M : Mem) (o i : nat) : option bool :=
  match i with
  | O => Some true
  | S k => match Less M o (S k) k with None => None | Some true => Some false | Some false => sorted_down M o k end
  end.
Definition IsSorted (M : Mem) (o : nat) : option bool := sorted_down M o (Len M o - 1).

(** What sort.Sort may do with its argument, for a given Len: it asks Less and calls Swap, and what it does next
    depends on the answers only. One such program stands for the behaviour of one sorting algorithm at one length. *)
Inductive prog : Type :=
| Done
| AskLess (i j : nat) (k : bool -> prog)
| DoSwap (i j : nat) (k : prog).
Fixpoint run_prog (P : prog) (M : Mem) (o : nat) : option Mem :=
  match P with
  | Done => Some M
  | AskLess i j k => match Less M o i j with None => None | Some b => run_prog (k b) M o end
  | DoSwap i j k => match Swap M o i j with None => None | Some M' => run_prog k M' o end
  end.
(** the same program given a slice of integers (sort.IntSlice: Less is a[i] < a[j]) *)
Fixpoint run_ints (P : prog) (l : list nat) : option (list nat) :=
  match P with
  | Done => Some l
  | AskLess i j k =>
      match nth_error l i, nth_error l j with Some x, Some y => run_ints (k (Nat.ltb x y)) l | _, _ => None end
  | DoSwap i j k => match list_swap l i j with None => None | Some l' => run_ints k l' end
  end.
(** insertion sort of n elements as such a program *)
Fixpoint sift_prog (j : nat) (k : prog) : prog :=
  match j with
  | O => k
  | S j' => AskLess (S j') j' (fun b => if b then DoSwap (S j') j' (sift_prog j' k) else k)
  end.
Definition insertion_prog (n : nat) : prog := fold_right sift_prog Done (seq 1 (n - 1)).

(** The screening of messages and VerifyAggregate with the sorting algorithm A in the place of sort.Sort *)
Definition screen_with (A : nat -> prog) (M : Mem) (o : nat) : option (Mem * bool) :=
  let (M1, o1) := copy_msgs M o in
  match run_prog (A (Len M1 o1)) M1 o1 with
  | Some M2 => Some (M2, has_duplicate [] (contents M2 o1))
  | None => None
  end.
Section B.
  Context {F : Type} (sha : list Z -> list Z) (B : BOps F).
  (** g1pubs/bls.go:251-281 *)
  Definition g1pubs_VerifyAggregate_sort (A : nat -> prog) (sig : Proj (FQ2 F)) (pubKeys : list (Proj F)) (M : Mem) (o : nat) : option (Mem * option bool) :=
    if negb (Nat.eqb (length pubKeys) (length (array M o))) then Some (M, Some false)
    else match screen_with A M o with
      | None => None
      | Some (M2, true) => Some (M2, Some false)
      | Some (M2, false) => Some (M2,
          match Pairing B (G1ProjectiveOne B) sig with
          | None => None
          | Some lhs => match g1pubs_pairing_product sha B (FQ12One B) (combine pubKeys (contents M2 o)) with
                        | None => None | Some rhs => Some (FQ12_Equals B lhs rhs) end
          end)
      end.
  (** g2pubs/bls.go:239-270 *)
  Definition g2pubs_VerifyAggregate_sort (A : nat -> prog) (sig : Proj F) (pubKeys : list (Proj (FQ2 F))) (M : Mem) (o : nat) : option (Mem * option bool) :=
    if negb (Nat.eqb (length pubKeys) (length (array M o))) then Some (M, Some false)
    else match screen_with A M o with
      | None => None
      | Some (M2, true) => Some (M2, Some false)
      | Some (M2, false) => Some (M2,
          match Pairing B sig (G2ProjectiveOne B) with
          | None => None
          | Some lhs => match g2pubs_pairing_product sha B (FQ12One B) (combine pubKeys (contents M2 o)) with
                        | None => None | Some rhs => Some (FQ12_Equals B lhs rhs) end
          end)
      end.
End B.
