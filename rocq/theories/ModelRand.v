(** The random generators of the library on an io.Reader (fq.go:341-349, fq2.go:240-253, fq6.go:354-368,
    fq12.go:90-100, fr.go:337-344, g1.go:588-612, g2.go:804-828, bls.go RandKey), down to the bytes that
    the reader delivers. Modelled from the standard library: io.ReadFull and crypto/rand.Int.
    A reader is the list of chunks that it hands out: a Read with a buffer smaller than the chunk gets the
    beginning of it and leaves the rest; an empty chunk is a Read that returns (0, nil); after the last chunk
    Read returns an error and no data. Not modelled: readers that return data together with an error, or
    whose chunks depend on the size of the buffer. *)
Require Import ZArith Bool List.
From Verif Require Import Words ModelRepr ModelFq ModelFr ModelOps ModelTower ModelCurve ModelHash ModelBls.
Import ListNotations.
Open Scope Z_scope.

Definition Reader := list (list Z).

(** r.Read(buf) with len(buf) = n; None: error *)
Definition Read (r : Reader) (n : nat) : option (list Z) * Reader :=
  match r with
  | [] => (None, [])
  | c :: rest => if (length c <=? n)%nat then (Some c, rest) else (Some (firstn n c), skipn n c :: rest)
  end.
(** io.ReadFull(r, buf) with len(buf) = n: Read until the buffer is full *)
Fixpoint ReadFull (r : Reader) (n : nat) : option (list Z) * Reader :=
  match n with
  | O => (Some [], r)
  | S _ =>
      match r with
      | [] => (None, [])
      | c :: rest =>
          if (length c <=? n)%nat then
            match ReadFull rest (n - length c) with
            | (Some l, r') => (Some (c ++ l), r')
            | (None, r') => (None, r')
            end
          else (Some (firstn n c), skipn n c :: rest)
      end
  end.
(** the loop of crypto/rand.Int: k bytes, all but the low b bits of the first byte cleared, until the number
    is below max. Some (None, r): the reader failed. None: the fuel is used up. *)
Fixpoint rand_loop (fuel : nat) (r : Reader) (max : Z) (k : nat) (b : Z) : option (option Z * Reader) :=
  match fuel with
  | O => None
  | S fuel =>
      match ReadFull r k with
      | (None, r) => Some (None, r)
      | (Some bytes, r) =>
          let bytes := match bytes with [] => [] | x :: rest => wand x (wand (Z.shiftl 1 b - 1) 255) :: rest end in
          let n := big_SetBytes bytes in
          if n <? max then Some (Some n, r) else rand_loop fuel r max k b
      end
  end.
(** crypto/rand.Int; None: panic. The fuel is one more than the number of bytes left. *)
Definition rand_Int (r : Reader) (max : Z) : option (option Z * Reader) :=
  if max <=? 0 then None
  else
    let bitLen := big_BitLen (max - 1) in
    if bitLen =? 0 then Some (Some 0, r)
    else
      let k := (bitLen + 7) / 8 in
      let b := if bitLen mod 8 =? 0 then 8 else bitLen mod 8 in
      rand_loop (S (length (concat r))) r max (Z.to_nat k) b.

(** a call that returns (value, error), and the sequence `x, err := f(reader); if err != nil { return nil, err }` *)
Definition Draw (A : Type) := option (option A * Reader).
Definition draw_bind {A C : Type} (x : Draw A) (f : A -> Reader -> Draw C) : Draw C :=
  match x with
  | None => None
  | Some (None, r) => Some (None, r)
  | Some (Some a, r) => f a r
  end.

(** fr.go:337-344 RandFR; the pointer of FRReprToFR is an option *)
Definition read_FR (r : Reader) : Draw (option FR) :=
  draw_bind (rand_Int r (FRRepr_ToBig RFieldModulus)) (fun n r => Some (Some (RandFR n), r)).
(** g1pubs/bls.go:149-156, g2pubs/bls.go:143-150 RandKey *)
Definition read_Key (r : Reader) : Draw SecretKey := draw_bind (read_FR r) (fun k r => Some (Some k, r)).

Section Rand.
Context {F : Type} (B : BOps F).
(** fq.go:341-349 RandFQ *)
Definition read_FQ (r : Reader) : Draw F :=
  draw_bind (rand_Int r (FQRepr_ToBig QFieldModulus)) (fun n r => Some (Some (b_of B (FQRepr_const n)), r)).
(** fq2.go:240-253 RandFQ2 *)
Definition read_FQ2 (r : Reader) : Draw (FQ2 F) :=
  draw_bind (read_FQ r) (fun i0 r => draw_bind (read_FQ r) (fun i1 r => Some (Some (mkFQ2 i0 i1), r))).
(** fq6.go:354-368 RandFQ6 *)
Definition read_FQ6 (r : Reader) : Draw (FQ6 F) :=
  draw_bind (read_FQ2 r) (fun x0 r => draw_bind (read_FQ2 r) (fun x1 r => draw_bind (read_FQ2 r) (fun x2 r => Some (Some (mkFQ6 x0 x1 x2), r)))).
(** fq12.go:90-100 RandFQ12 *)
Definition read_FQ12 (r : Reader) : Draw (FQ12 F) :=
  draw_bind (read_FQ6 r) (fun a r => draw_bind (read_FQ6 r) (fun b r => Some (Some (mkFQ12 a b), r))).
(** `b := make([]byte, 1); _, err := r.Read(b)`: the number of bytes read is ignored *)
Definition read_byte (r : Reader) : Draw Z :=
  match Read r 1 with
  | (None, r) => Some (None, r)
  | (Some l, r) => Some (Some (hd 0 l), r)
  end.
(** g1.go:588-612 RandG1; an iteration uses at least 48 bytes, so that the fuel suffices *)
Fixpoint read_G1_loop (fuel : nat) (r : Reader) : Draw (Proj F) :=
  match fuel with
  | O => None
  | S fuel =>
      draw_bind (read_byte r) (fun byte r =>
      let greatest := byte mod 2 =? 0 in
      draw_bind (read_FQ r) (fun f r =>
      match GetG1PointFromX B f greatest with
      | None => read_G1_loop fuel r
      | Some p =>
          let p1 := G1_ScaleByCofactor B p in
          if negb (Affine_IsZero p) then Some (Some p1, r) else read_G1_loop fuel r
      end))
  end.
Definition read_G1 (r : Reader) : Draw (Proj F) := read_G1_loop (S (length (concat r))) r.
(** g2.go:804-828 RandG2 *)
Fixpoint read_G2_loop (fuel : nat) (r : Reader) : Draw (Proj (FQ2 F)) :=
  match fuel with
  | O => None
  | S fuel =>
      draw_bind (read_byte r) (fun byte r =>
      let greatest := byte mod 2 =? 0 in
      draw_bind (read_FQ2 r) (fun f r =>
      match GetG2PointFromX B f greatest with
      | None => read_G2_loop fuel r
      | Some p =>
          let p1 := G2_ScaleByCofactor B p in
          if negb (Affine_IsZero p) then Some (Some p1, r) else read_G2_loop fuel r
      end))
  end.
Definition read_G2 (r : Reader) : Draw (Proj (FQ2 F)) := read_G2_loop (S (length (concat r))) r.
End Rand.
