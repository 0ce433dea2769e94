(** Slices and the memory VerifyAggregate touches: byte buffers, and arrays of pointers to them ([][]byte).
    Only what the screening of messages needs: allocation, copying a buffer, swapping two entries of an array.
    Capacity and sub-slicing are left out: VerifyAggregate never appends to or re-slices its arguments. *)
Require Import ZArith Lia Bool List.
From Verif Require Import Words ModelRepr ModelFq ModelFr ModelOps ModelTower ModelCurve ModelPairing ModelHash ModelBls.
Import ListNotations.
Open Scope Z_scope.

(** buffers ([]byte contents) and arrays of pointers, both addressed by their index of allocation *)
Record Mem := mkMem { bufs : list (list Z); arrays : list (list nat) }.
Definition array (M : Mem) (o : nat) : list nat := nth o (arrays M) [].
(** what a caller sees through a [][]byte: the contents of the buffers it points to *)
Definition contents (M : Mem) (o : nat) : list (list Z) := map (fun p => nth p (bufs M) []) (array M o).
(** g1pubs/bls.go:259-262 (g2pubs:247-250): for each message, make a buffer of its length and copy the bytes into it *)
Fixpoint copy_loop (M : Mem) (ps : list nat) : Mem * list nat :=
  match ps with
  | [] => (M, [])
  | p :: ps => let (M', l) := copy_loop (mkMem (bufs M ++ [nth p (bufs M) []]) (arrays M)) ps in (M', length (bufs M) :: l)
  end.
(** g1pubs/bls.go:257-262 (g2pubs:245-250): the array msgsCopy and its filling.  Simplified: the array is entered in memory
    once filled (Go makes it first and fills it entry by entry; nobody else holds it meanwhile). *)
Definition copy_msgs (M : Mem) (o : nat) : Mem * nat :=
  let (M', l) := copy_loop M (array M o) in (mkMem (bufs M') (arrays M' ++ [l]), length (arrays M')).
(** g1pubs/bls.go:239-241 (g2pubs:227-229) Swap on the array itself; None: index out of range (panic) *)
Fixpoint set_nth {A} (n : nat) (x : A) (l : list A) : list A :=
  match l, n with [], _ => [] | _ :: l, O => x :: l | y :: l, S n => y :: set_nth n x l end.
Definition list_swap (l : list nat) (i j : nat) : option (list nat) :=
  match nth_error l i, nth_error l j with Some x, Some y => Some (set_nth i y (set_nth j x l)) | _, _ => None end.
Definition Swap (M : Mem) (o i j : nat) : option Mem :=
  option_map (fun l => mkMem (bufs M) (set_nth o l (arrays M))) (list_swap (array M o) i j).
(** sort.Sort changes the array only by calls of Swap: any sequence of them *)
Fixpoint run_swaps (M : Mem) (o : nat) (s : list (nat * nat)) : option Mem :=
  match s with [] => Some M | (i, j) :: s => match Swap M o i j with Some M => run_swaps M o s | None => None end end.
(** g1pubs/bls.go:252-273 (g2pubs:240-261), the part that works on memory: copy, sort, look for duplicates.
    The result is the memory afterwards and whether the screening answers false; None: panic. *)
Definition screen (M : Mem) (o : nat) (s : list (nat * nat)) : option (Mem * bool) :=
  let (M1, o1) := copy_msgs M o in
  match run_swaps M1 o1 s with
  | Some M2 => Some (M2, has_duplicate [] (contents M2 o1))
  | None => None
  end.
(** the same without the copy, sorting the caller's array; used to show that the copy matters *)
Definition screen_in_place (M : Mem) (o : nat) (s : list (nat * nat)) : option (Mem * bool) :=
  match run_swaps M o s with Some M2 => Some (M2, has_duplicate [] (contents M2 o)) | None => None end.
(** g1pubs/bls.go:252-283 VerifyAggregate on memory *)
Section B.
  Context {F : Type} (sha : list Z -> list Z) (B : BOps F).
  Definition g1pubs_VerifyAggregate_mem (sig : Proj (FQ2 F)) (pubKeys : list (Proj F)) (M : Mem) (o : nat) (s : list (nat * nat)) : option (Mem * option bool) :=
    if negb (Nat.eqb (length pubKeys) (length (array M o))) then Some (M, Some false)
    else match screen M o s with
      | None => None
      | Some (M2, true) => Some (M2, Some false)
      | Some (M2, false) => Some (M2,
          match Pairing B (G1ProjectiveOne B) sig with
          | None => None
          | Some lhs => match g1pubs_pairing_product sha B (FQ12One B) (combine pubKeys (contents M2 o)) with
                        | None => None | Some rhs => Some (FQ12_Equals B lhs rhs) end
          end)
      end.
  (** g2pubs/bls.go:240-270 *)
  Definition g2pubs_VerifyAggregate_mem (sig : Proj F) (pubKeys : list (Proj (FQ2 F))) (M : Mem) (o : nat) (s : list (nat * nat)) : option (Mem * option bool) :=
    if negb (Nat.eqb (length pubKeys) (length (array M o))) then Some (M, Some false)
    else match screen M o s with
      | None => None
      | Some (M2, true) => Some (M2, Some false)
      | Some (M2, false) => Some (M2,
          match Pairing B sig (G2ProjectiveOne B) with
          | None => None
          | Some lhs => match g2pubs_pairing_product sha B (FQ12One B) (combine pubKeys (contents M2 o)) with
                        | None => None | Some rhs => Some (FQ12_Equals B lhs rhs) end
          end)
      end.
End B.
