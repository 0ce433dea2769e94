(** Model of stub_fallback.go, bititerator.go, fqrepr.go and frrepr.go. *)
Require Import String Ascii ZArith Bool List.
From Verif Require Import Words.
Import ListNotations.
Open Scope Z_scope.

(** ** stub_fallback.go *)

(** stub_fallback.go:136-140 AddWithCarry *)
Definition AddWithCarry (a b carry : Z) : Z * Z :=
  let '(out, outCarry) := Add64 a b 0 in
  let '(out, outCarry2) := Add64 out carry 0 in
  (out, wadd outCarry outCarry2).

(** stub_fallback.go:144-147 SubWithBorrow *)
Definition SubWithBorrow (a b borrow : Z) : Z * Z := Sub64 a b borrow.

(** stub_fallback.go:149-155 MACWithCarry *)
Definition MACWithCarry (a b c carry : Z) : Z * Z :=
  let '(carryOut, bc) := Mul64 b c in
  let '(abc, carryOut2) := Add64 bc a 0 in
  let '(abcc, carryOut3) := Add64 abc carry 0 in
  (abcc, wadd (wadd carryOut carryOut2) carryOut3).

(** fqrepr.go:14 FQRepr, little-endian limbs *)
Record FQRepr := mkFQRepr { w0 : Z; w1 : Z; w2 : Z; w3 : Z; w4 : Z; w5 : Z }.

(** frrepr.go:12 FRRepr *)
Record FRRepr := mkFRRepr { v0 : Z; v1 : Z; v2 : Z; v3 : Z }.

(** stub_fallback.go:11-57 MultiplyFQRepr, line by line *)
Definition MultiplyFQRepr (a b : FQRepr) : FQRepr * FQRepr :=
  let '(mkFQRepr a0 a1 a2 a3 a4 a5) := a in
  let '(mkFQRepr b0 b1 b2 b3 b4 b5) := b in
  let '(lo0, carry) := MACWithCarry 0 a0 b0 0 in
  let '(lo1, carry) := MACWithCarry 0 a0 b1 carry in
  let '(lo2, carry) := MACWithCarry 0 a0 b2 carry in
  let '(lo3, carry) := MACWithCarry 0 a0 b3 carry in
  let '(lo4, carry) := MACWithCarry 0 a0 b4 carry in
  let '(lo5, carry) := MACWithCarry 0 a0 b5 carry in
  let hi0 := carry in
  let '(lo1, carry) := MACWithCarry lo1 a1 b0 0 in
  let '(lo2, carry) := MACWithCarry lo2 a1 b1 carry in
  let '(lo3, carry) := MACWithCarry lo3 a1 b2 carry in
  let '(lo4, carry) := MACWithCarry lo4 a1 b3 carry in
  let '(lo5, carry) := MACWithCarry lo5 a1 b4 carry in
  let '(hi0, carry) := MACWithCarry hi0 a1 b5 carry in
  let hi1 := carry in
  let '(lo2, carry) := MACWithCarry lo2 a2 b0 0 in
  let '(lo3, carry) := MACWithCarry lo3 a2 b1 carry in
  let '(lo4, carry) := MACWithCarry lo4 a2 b2 carry in
  let '(lo5, carry) := MACWithCarry lo5 a2 b3 carry in
  let '(hi0, carry) := MACWithCarry hi0 a2 b4 carry in
  let '(hi1, carry) := MACWithCarry hi1 a2 b5 carry in
  let hi2 := carry in
  let '(lo3, carry) := MACWithCarry lo3 a3 b0 0 in
  let '(lo4, carry) := MACWithCarry lo4 a3 b1 carry in
  let '(lo5, carry) := MACWithCarry lo5 a3 b2 carry in
  let '(hi0, carry) := MACWithCarry hi0 a3 b3 carry in
  let '(hi1, carry) := MACWithCarry hi1 a3 b4 carry in
  let '(hi2, carry) := MACWithCarry hi2 a3 b5 carry in
  let hi3 := carry in
  let '(lo4, carry) := MACWithCarry lo4 a4 b0 0 in
  let '(lo5, carry) := MACWithCarry lo5 a4 b1 carry in
  let '(hi0, carry) := MACWithCarry hi0 a4 b2 carry in
  let '(hi1, carry) := MACWithCarry hi1 a4 b3 carry in
  let '(hi2, carry) := MACWithCarry hi2 a4 b4 carry in
  let '(hi3, carry) := MACWithCarry hi3 a4 b5 carry in
  let hi4 := carry in
  let '(lo5, carry) := MACWithCarry lo5 a5 b0 0 in
  let '(hi0, carry) := MACWithCarry hi0 a5 b1 carry in
  let '(hi1, carry) := MACWithCarry hi1 a5 b2 carry in
  let '(hi2, carry) := MACWithCarry hi2 a5 b3 carry in
  let '(hi3, carry) := MACWithCarry hi3 a5 b4 carry in
  let '(hi4, carry) := MACWithCarry hi4 a5 b5 carry in
  let hi5 := carry in
  (mkFQRepr hi0 hi1 hi2 hi3 hi4 hi5, mkFQRepr lo0 lo1 lo2 lo3 lo4 lo5).

(** stub_fallback.go:59 *)
Definition montInvFQ : Z := 0x89f3fffcfffcfffd.

(** stub_fallback.go:119-126 AddNoCarry; the loop over i = 0..5 is unrolled *)
Definition AddNoCarry (a b : FQRepr) : FQRepr :=
  let '(mkFQRepr a0 a1 a2 a3 a4 a5) := a in
  let '(mkFQRepr b0 b1 b2 b3 b4 b5) := b in
  let '(o0, carry) := AddWithCarry a0 b0 0 in
  let '(o1, carry) := AddWithCarry a1 b1 carry in
  let '(o2, carry) := AddWithCarry a2 b2 carry in
  let '(o3, carry) := AddWithCarry a3 b3 carry in
  let '(o4, carry) := AddWithCarry a4 b4 carry in
  let '(o5, carry) := AddWithCarry a5 b5 carry in
  mkFQRepr o0 o1 o2 o3 o4 o5.

(** stub_fallback.go:128-134 SubNoBorrow; loop unrolled *)
Definition SubNoBorrow (a b : FQRepr) : FQRepr :=
  let '(mkFQRepr a0 a1 a2 a3 a4 a5) := a in
  let '(mkFQRepr b0 b1 b2 b3 b4 b5) := b in
  let '(o0, borrow) := SubWithBorrow a0 b0 0 in
  let '(o1, borrow) := SubWithBorrow a1 b1 borrow in
  let '(o2, borrow) := SubWithBorrow a2 b2 borrow in
  let '(o3, borrow) := SubWithBorrow a3 b3 borrow in
  let '(o4, borrow) := SubWithBorrow a4 b4 borrow in
  let '(o5, borrow) := SubWithBorrow a5 b5 borrow in
  mkFQRepr o0 o1 o2 o3 o4 o5.

(** ** bititerator.go *)

(** bititerator.go:4-7 BitIterator *)
Record BitIterator := mkBI { bi_arr : list Z; bi_n : Z }.

(** bititerator.go:10-12 NewBitIterator *)
Definition NewBitIterator (arr : list Z) : BitIterator := mkBI arr (Z.of_nat (length arr) * 64).

(** bititerator.go:16-24 Next: ((bit, done), new state). The out-of-range default 0
    of [nth] is never used: part < len(arr). *)
Definition BitIterator_Next (bi : BitIterator) : (bool * bool) * BitIterator :=
  if bi_n bi =? 0 then ((false, true), bi)
  else
    let n := bi_n bi - 1 in
    let part := n / 64 in
    let bit := n - part * 64 in
    ((0 <? wand (nth (Z.to_nat part) (bi_arr bi) 0) (wshl 1 bit), false), mkBI (bi_arr bi) n).

(** The loop `next, done := iter.Next(); for !done { ...; next, done = iter.Next() }`
    that all Exp/Mul functions use: fold a body over the delivered bits. *)
Fixpoint bits_loop {S : Type} (body : bool -> S -> S) (fuel : nat) (bi : BitIterator) (s : S) : S :=
  match fuel with
  | O => s
  | Datatypes.S k =>
      let '((next, done), bi') := BitIterator_Next bi in
      if done then s else bits_loop body k bi' (body next s)
  end.

(** Running the loop from a fresh iterator; the iterator stops by itself after
    64*len(arr) bits, the fuel 64*len(arr)+1 is one more than that. *)
Definition for_bits {S : Type} (arr : list Z) (body : bool -> S -> S) (s : S) : S :=
  bits_loop body (64 * length arr + 1) (NewBitIterator arr) s.

(** ** fqrepr.go *)

(** n[:] *)
Definition FQRepr_slice (f : FQRepr) : list Z := [w0 f; w1 f; w2 f; w3 f; w4 f; w5 f].

(** fqrepr.go:17-19 *)
Definition FQRepr_IsOdd (f : FQRepr) : bool := wand (w0 f) 1 =? 1.
(** fqrepr.go:22-24 *)
Definition FQRepr_IsEven (f : FQRepr) : bool := wand (w0 f) 1 =? 0.
(** fqrepr.go:27-34 *)
Definition FQRepr_IsZero (f : FQRepr) : bool := forallb (fun x => x =? 0) (FQRepr_slice f).
(** fqrepr.go:37-39 *)
Definition NewFQRepr (n : Z) : FQRepr := mkFQRepr n 0 0 0 0 0.

(** fqrepr.go:53-59: the loop `for n >= 64` of Rsh, moving limbs down by one.
    At most 5 iterations are possible after the guard n < 384. *)
Fixpoint FQRepr_Rsh_words (fuel : nat) (f : FQRepr) (n : Z) : FQRepr * Z :=
  match fuel with
  | O => (f, n)
  | S k => if 64 <=? n
           then FQRepr_Rsh_words k (mkFQRepr (w1 f) (w2 f) (w3 f) (w4 f) (w5 f) 0) (n - 64)
           else (f, n)
  end.

(** fqrepr.go:42-70 Rsh *)
Definition FQRepr_Rsh (f : FQRepr) (n : Z) : FQRepr :=
  if 64 * 6 <=? n then mkFQRepr 0 0 0 0 0 0
  else
    let '(f, n) := FQRepr_Rsh_words 6 f n in
    if 0 <? n then
      let t := 0 in
      let t2 := wshl (w5 f) (64 - n) in let o5 := wor (wshr (w5 f) n) t in let t := t2 in
      let t2 := wshl (w4 f) (64 - n) in let o4 := wor (wshr (w4 f) n) t in let t := t2 in
      let t2 := wshl (w3 f) (64 - n) in let o3 := wor (wshr (w3 f) n) t in let t := t2 in
      let t2 := wshl (w2 f) (64 - n) in let o2 := wor (wshr (w2 f) n) t in let t := t2 in
      let t2 := wshl (w1 f) (64 - n) in let o1 := wor (wshr (w1 f) n) t in let t := t2 in
      let o0 := wor (wshr (w0 f) n) t in
      mkFQRepr o0 o1 o2 o3 o4 o5
    else f.

(** fqrepr.go:73-81 Div2 *)
Definition FQRepr_Div2 (f : FQRepr) : FQRepr :=
  let t := 0 in
  let t2 := wshl (w5 f) 63 in let o5 := wor (wshr (w5 f) 1) t in let t := t2 in
  let t2 := wshl (w4 f) 63 in let o4 := wor (wshr (w4 f) 1) t in let t := t2 in
  let t2 := wshl (w3 f) 63 in let o3 := wor (wshr (w3 f) 1) t in let t := t2 in
  let t2 := wshl (w2 f) 63 in let o2 := wor (wshr (w2 f) 1) t in let t := t2 in
  let t2 := wshl (w1 f) 63 in let o1 := wor (wshr (w1 f) 1) t in let t := t2 in
  let o0 := wor (wshr (w0 f) 1) t in
  mkFQRepr o0 o1 o2 o3 o4 o5.

(** fqrepr.go:84-92 Mul2 *)
Definition FQRepr_Mul2 (f : FQRepr) : FQRepr :=
  let last := 0 in
  let tmp := wshr (w0 f) 63 in let o0 := wor (wshl (w0 f) 1) last in let last := tmp in
  let tmp := wshr (w1 f) 63 in let o1 := wor (wshl (w1 f) 1) last in let last := tmp in
  let tmp := wshr (w2 f) 63 in let o2 := wor (wshl (w2 f) 1) last in let last := tmp in
  let tmp := wshr (w3 f) 63 in let o3 := wor (wshl (w3 f) 1) last in let last := tmp in
  let tmp := wshr (w4 f) 63 in let o4 := wor (wshl (w4 f) 1) last in let last := tmp in
  let o5 := wor (wshl (w5 f) 1) last in
  mkFQRepr o0 o1 o2 o3 o4 o5.

(** fqrepr.go:106-112: the loop `for n >= 64` of Lsh, moving limbs up by one *)
Fixpoint FQRepr_Lsh_words (fuel : nat) (f : FQRepr) (n : Z) : FQRepr * Z :=
  match fuel with
  | O => (f, n)
  | S k => if 64 <=? n
           then FQRepr_Lsh_words k (mkFQRepr 0 (w0 f) (w1 f) (w2 f) (w3 f) (w4 f)) (n - 64)
           else (f, n)
  end.

(** fqrepr.go:95-123 Lsh *)
Definition FQRepr_Lsh (f : FQRepr) (n : Z) : FQRepr :=
  if 64 * 6 <=? n then mkFQRepr 0 0 0 0 0 0
  else
    let '(f, n) := FQRepr_Lsh_words 6 f n in
    if 0 <? n then
      let t := 0 in
      let t2 := wshr (w0 f) (64 - n) in let o0 := wor (wshl (w0 f) n) t in let t := t2 in
      let t2 := wshr (w1 f) (64 - n) in let o1 := wor (wshl (w1 f) n) t in let t := t2 in
      let t2 := wshr (w2 f) (64 - n) in let o2 := wor (wshl (w2 f) n) t in let t := t2 in
      let t2 := wshr (w3 f) (64 - n) in let o3 := wor (wshl (w3 f) n) t in let t := t2 in
      let t2 := wshr (w4 f) (64 - n) in let o4 := wor (wshl (w4 f) n) t in let t := t2 in
      let o5 := wor (wshl (w5 f) n) t in
      mkFQRepr o0 o1 o2 o3 o4 o5
    else f.

(** fqrepr.go:127-129, 133-135 *)
Definition FQRepr_AddNoCarry (f g : FQRepr) : FQRepr := AddNoCarry f g.
Definition FQRepr_SubNoBorrow (f g : FQRepr) : FQRepr := SubNoBorrow f g.

(** fqrepr.go:138-140 Equals *)
Definition FQRepr_Equals (f g : FQRepr) : bool :=
  (w0 f =? w0 g) && (w1 f =? w1 g) && (w2 f =? w2 g) && (w3 f =? w3 g) && (w4 f =? w4 g) && (w5 f =? w5 g).

(** The loop body of Cmp, from the top limb down. *)
Fixpoint cmp_limbs (l : list (Z * Z)) : Z :=
  match l with
  | [] => 0
  | (x, y) :: l' => if x =? y then cmp_limbs l' else if y <? x then 1 else if x <? y then -1 else cmp_limbs l'
  end.

(** fqrepr.go:143-155 Cmp *)
Definition FQRepr_Cmp (f g : FQRepr) : Z :=
  cmp_limbs [(w5 f, w5 g); (w4 f, w4 g); (w3 f, w3 g); (w2 f, w2 g); (w1 f, w1 g); (w0 f, w0 g)].

(** The loop of BitLen, from the top limb down: `ret -= leading; if leading != 64 break` *)
Fixpoint bitlen_limbs (ret : Z) (l : list Z) : Z :=
  match l with
  | [] => ret
  | x :: l' => let leading := LeadingZeros64 x in
               let ret := ret - leading in
               if negb (leading =? 64) then ret else bitlen_limbs ret l'
  end.

(** fqrepr.go:168-179 BitLen *)
Definition FQRepr_BitLen (f : FQRepr) : Z := bitlen_limbs (6 * 64) (rev (FQRepr_slice f)).

(** encoding/binary BigEndian.Uint64 / PutUint64 on 8 bytes *)
Definition be_uint64 (l : list Z) : Z := fold_left (fun a b => a * 256 + b) (firstn 8 l) 0.
Definition be_put64 (v : Z) : list Z :=
  map (fun s => wand (wshr v s) 255) [56; 48; 40; 32; 24; 16; 8; 0].

(** fqrepr.go:182-190 FQReprFromBytes. A [48]byte is a list of 48 bytes. *)
Definition FQReprFromBytes (b : list Z) : FQRepr :=
  let m0 := be_uint64 b in
  let m1 := be_uint64 (skipn 8 b) in
  let m2 := be_uint64 (skipn 16 b) in
  let m3 := be_uint64 (skipn 24 b) in
  let m4 := be_uint64 (skipn 32 b) in
  let m5 := be_uint64 (skipn 40 b) in
  mkFQRepr m5 m4 m3 m2 m1 m0.

(** fqrepr.go:193-202 Bytes *)
Definition FQRepr_Bytes (f : FQRepr) : list Z :=
  (be_put64 (w5 f) ++ be_put64 (w4 f) ++ be_put64 (w3 f) ++
   be_put64 (w2 f) ++ be_put64 (w1 f) ++ be_put64 (w0 f))%list.

(** fqrepr.go:205-207 Bit; None is the index-out-of-range panic *)
Definition FQRepr_Bit (f : FQRepr) (n : Z) : option bool :=
  match nth_error (FQRepr_slice f) (Z.to_nat (n / 64)) with
  | Some x => Some (negb (wand x (wshl 1 (n mod 64)) =? 0))
  | None => None
  end.

(** fqrepr.go:229-238 ToBig *)
Definition FQRepr_ToBig (f : FQRepr) : Z :=
  let out := 0 in
  let out := Z.shiftl (out + w5 f) 64 in
  let out := Z.shiftl (out + w4 f) 64 in
  let out := Z.shiftl (out + w3 f) 64 in
  let out := Z.shiftl (out + w2 f) 64 in
  let out := Z.shiftl (out + w1 f) 64 in
  out + w0 f.

(** The loop `for out != 0 { newf[i] = out & mask; i++; out >>= 64 }` writing words into
    an array of [n] zero words; None is the index-out-of-range panic. *)
Fixpoint words_of_big (n : nat) (out : Z) : option (list Z) :=
  match n with
  | O => if out =? 0 then Some [] else None
  | S k => if out =? 0 then Some (repeat 0 (S k))
           else match words_of_big k (Z.shiftr out 64) with
                | Some l => Some (Z.land out WMASK :: l)
                | None => None
                end
  end.

(** math/big BitLen: length of the absolute value *)
Definition big_BitLen (n : Z) : Z := bitlen (Z.abs n).

(** fqrepr.go:244-261 FQReprFromBigInt: None = panic, Some None = error *)
Definition FQReprFromBigInt (n : Z) : option (option FQRepr) :=
  if (384 <? big_BitLen n) || (Z.sgn n =? -1) then Some None
  else match words_of_big 6 n with
       | Some [a; b; c; d; e; f] => Some (Some (mkFQRepr a b c d e f))
       | _ => None
       end.

(** %x digits *)
Definition hexdigit (d : Z) : ascii :=
  nth (Z.to_nat d) ["0"; "1"; "2"; "3"; "4"; "5"; "6"; "7"; "8"; "9"; "a"; "b"; "c"; "d"; "e"; "f"]%char "?"%char.

(** fmt %016x of a uint64 *)
Definition hex016 (v : Z) : string :=
  string_of_list_ascii (map (fun s => hexdigit (wand (wshr v s) 15))
    [60; 56; 52; 48; 44; 40; 36; 32; 28; 24; 20; 16; 12; 8; 4; 0]).

(** fqrepr.go:163-165 String *)
Definition FQRepr_String (f : FQRepr) : string :=
  (hex016 (w5 f) ++ hex016 (w4 f) ++ hex016 (w3 f) ++ hex016 (w2 f) ++ hex016 (w1 f) ++ hex016 (w0 f))%string.

(** Value of one base-16 digit for math/big SetString *)
Definition hexval (c : ascii) : option Z :=
  let n := Z.of_nat (nat_of_ascii c) in
  if (48 <=? n) && (n <=? 57) then Some (n - 48)
  else if (97 <=? n) && (n <=? 102) then Some (n - 87)
  else if (65 <=? n) && (n <=? 70) then Some (n - 55)
  else None.

(** math/big SetString(s, 16) for strings without a sign (the only strings used with String) *)
Fixpoint hex_parse (acc : Z) (l : list ascii) : option Z :=
  match l with
  | [] => Some acc
  | c :: l' => match hexval c with Some d => hex_parse (acc * 16 + d) l' | None => None end
  end.
Definition big_SetString16 (s : string) : option Z :=
  match list_ascii_of_string s with [] => None | l => hex_parse 0 l end.

(** fqrepr.go:210-216 FQReprFromString at base 16 *)
Definition FQReprFromString16 (s : string) : option (option FQRepr) :=
  match big_SetString16 s with
  | None => Some None
  | Some n => FQReprFromBigInt n
  end.

(** fqrepr.go:264-277 fqReprFromBigIntUnchecked, used for the constants *)
Definition fqReprFromBigIntUnchecked (n : Z) : option FQRepr :=
  match words_of_big 6 n with
  | Some [a; b; c; d; e; f] => Some (mkFQRepr a b c d e f)
  | _ => None
  end.

(** Building constants: FQReprFromString("...") of a literal, ignoring the error as the Go
    source does (the returned value is then FQRepr{}). *)
Definition FQRepr_const (n : Z) : FQRepr :=
  match FQReprFromBigInt n with Some (Some f) => f | _ => mkFQRepr 0 0 0 0 0 0 end.

(** ** frrepr.go *)

Definition FRRepr_slice (f : FRRepr) : list Z := [v0 f; v1 f; v2 f; v3 f].

(** frrepr.go:15-17, 20-22, 25-32, 35-37 *)
Definition FRRepr_IsOdd (f : FRRepr) : bool := wand (v0 f) 1 =? 1.
Definition FRRepr_IsEven (f : FRRepr) : bool := wand (v0 f) 1 =? 0.
Definition FRRepr_IsZero (f : FRRepr) : bool := forallb (fun x => x =? 0) (FRRepr_slice f).
Definition NewFRRepr (n : Z) : FRRepr := mkFRRepr n 0 0 0.

(** frrepr.go:47-53 *)
Fixpoint FRRepr_Rsh_words (fuel : nat) (f : FRRepr) (n : Z) : FRRepr * Z :=
  match fuel with
  | O => (f, n)
  | S k => if 64 <=? n then FRRepr_Rsh_words k (mkFRRepr (v1 f) (v2 f) (v3 f) 0) (n - 64) else (f, n)
  end.

(** frrepr.go:40-64 Rsh *)
Definition FRRepr_Rsh (f : FRRepr) (n : Z) : FRRepr :=
  if 64 * 4 <=? n then NewFRRepr 0
  else
    let '(f, n) := FRRepr_Rsh_words 4 f n in
    if 0 <? n then
      let t := 0 in
      let t2 := wshl (v3 f) (64 - n) in let o3 := wor (wshr (v3 f) n) t in let t := t2 in
      let t2 := wshl (v2 f) (64 - n) in let o2 := wor (wshr (v2 f) n) t in let t := t2 in
      let t2 := wshl (v1 f) (64 - n) in let o1 := wor (wshr (v1 f) n) t in let t := t2 in
      let o0 := wor (wshr (v0 f) n) t in
      mkFRRepr o0 o1 o2 o3
    else f.

(** frrepr.go:67-75 Div2 *)
Definition FRRepr_Div2 (f : FRRepr) : FRRepr :=
  let t := 0 in
  let t2 := wshl (v3 f) 63 in let o3 := wor (wshr (v3 f) 1) t in let t := t2 in
  let t2 := wshl (v2 f) 63 in let o2 := wor (wshr (v2 f) 1) t in let t := t2 in
  let t2 := wshl (v1 f) 63 in let o1 := wor (wshr (v1 f) 1) t in let t := t2 in
  let o0 := wor (wshr (v0 f) 1) t in
  mkFRRepr o0 o1 o2 o3.

(** frrepr.go:78-86 Mul2 *)
Definition FRRepr_Mul2 (f : FRRepr) : FRRepr :=
  let last := 0 in
  let tmp := wshr (v0 f) 63 in let o0 := wor (wshl (v0 f) 1) last in let last := tmp in
  let tmp := wshr (v1 f) 63 in let o1 := wor (wshl (v1 f) 1) last in let last := tmp in
  let tmp := wshr (v2 f) 63 in let o2 := wor (wshl (v2 f) 1) last in let last := tmp in
  let o3 := wor (wshl (v3 f) 1) last in
  mkFRRepr o0 o1 o2 o3.

(** frrepr.go:96-102 *)
Fixpoint FRRepr_Lsh_words (fuel : nat) (f : FRRepr) (n : Z) : FRRepr * Z :=
  match fuel with
  | O => (f, n)
  | S k => if 64 <=? n then FRRepr_Lsh_words k (mkFRRepr 0 (v0 f) (v1 f) (v2 f)) (n - 64) else (f, n)
  end.

(** frrepr.go:89-113 Lsh *)
Definition FRRepr_Lsh (f : FRRepr) (n : Z) : FRRepr :=
  if 64 * 4 <=? n then NewFRRepr 0
  else
    let '(f, n) := FRRepr_Lsh_words 4 f n in
    if 0 <? n then
      let t := 0 in
      let t2 := wshr (v0 f) (64 - n) in let o0 := wor (wshl (v0 f) n) t in let t := t2 in
      let t2 := wshr (v1 f) (64 - n) in let o1 := wor (wshl (v1 f) n) t in let t := t2 in
      let t2 := wshr (v2 f) (64 - n) in let o2 := wor (wshl (v2 f) n) t in let t := t2 in
      let o3 := wor (wshl (v3 f) n) t in
      mkFRRepr o0 o1 o2 o3
    else f.

(** frrepr.go:117-122 AddNoCarry; loop unrolled *)
Definition FRRepr_AddNoCarry (f g : FRRepr) : FRRepr :=
  let '(o0, carry) := AddWithCarry (v0 f) (v0 g) 0 in
  let '(o1, carry) := AddWithCarry (v1 f) (v1 g) carry in
  let '(o2, carry) := AddWithCarry (v2 f) (v2 g) carry in
  let '(o3, carry) := AddWithCarry (v3 f) (v3 g) carry in
  mkFRRepr o0 o1 o2 o3.

(** frrepr.go:126-131 SubNoBorrow; loop unrolled *)
Definition FRRepr_SubNoBorrow (f g : FRRepr) : FRRepr :=
  let '(o0, borrow) := SubWithBorrow (v0 f) (v0 g) 0 in
  let '(o1, borrow) := SubWithBorrow (v1 f) (v1 g) borrow in
  let '(o2, borrow) := SubWithBorrow (v2 f) (v2 g) borrow in
  let '(o3, borrow) := SubWithBorrow (v3 f) (v3 g) borrow in
  mkFRRepr o0 o1 o2 o3.

(** frrepr.go:134-136 Equals *)
Definition FRRepr_Equals (f g : FRRepr) : bool :=
  (v0 f =? v0 g) && (v1 f =? v1 g) && (v2 f =? v2 g) && (v3 f =? v3 g).

(** frrepr.go:139-148 Cmp (no explicit equality test in this version) *)
Fixpoint cmp_limbs_fr (l : list (Z * Z)) : Z :=
  match l with
  | [] => 0
  | (x, y) :: l' => if y <? x then 1 else if x <? y then -1 else cmp_limbs_fr l'
  end.
Definition FRRepr_Cmp (f g : FRRepr) : Z :=
  cmp_limbs_fr [(v3 f, v3 g); (v2 f, v2 g); (v1 f, v1 g); (v0 f, v0 g)].

(** frrepr.go:159-161 String *)
Definition FRRepr_String (f : FRRepr) : string :=
  (hex016 (v3 f) ++ hex016 (v2 f) ++ hex016 (v1 f) ++ hex016 (v0 f))%string.

(** frrepr.go:164-175 BitLen *)
Definition FRRepr_BitLen (f : FRRepr) : Z := bitlen_limbs (4 * 64) (rev (FRRepr_slice f)).

(** frrepr.go:178-184 FRReprFromBytes *)
Definition FRReprFromBytes (b : list Z) : FRRepr :=
  let m0 := be_uint64 b in
  let m1 := be_uint64 (skipn 8 b) in
  let m2 := be_uint64 (skipn 16 b) in
  let m3 := be_uint64 (skipn 24 b) in
  mkFRRepr m3 m2 m1 m0.

(** frrepr.go:187-194 Bytes *)
Definition FRRepr_Bytes (f : FRRepr) : list Z :=
  (be_put64 (v3 f) ++ be_put64 (v2 f) ++ be_put64 (v1 f) ++ be_put64 (v0 f))%list.

(** frrepr.go:197-199 Bit *)
Definition FRRepr_Bit (f : FRRepr) (n : Z) : option bool :=
  match nth_error (FRRepr_slice f) (Z.to_nat (n / 64)) with
  | Some x => Some (negb (wand x (wshl 1 (n mod 64)) =? 0))
  | None => None
  end.

(** frrepr.go:211-220 ToBig *)
Definition FRRepr_ToBig (f : FRRepr) : Z :=
  let out := 0 in
  let out := Z.shiftl (out + v3 f) 64 in
  let out := Z.shiftl (out + v2 f) 64 in
  let out := Z.shiftl (out + v1 f) 64 in
  out + v0 f.

(** frrepr.go:223-240 FRReprFromBigInt: None = panic, Some None = error *)
Definition FRReprFromBigInt (n : Z) : option (option FRRepr) :=
  if (256 <? big_BitLen n) || (Z.sgn n =? -1) then Some None
  else match words_of_big 4 n with
       | Some [a; b; c; d] => Some (Some (mkFRRepr a b c d))
       | _ => None
       end.

(** frrepr.go:202-208 FRReprFromString at base 16 *)
Definition FRReprFromString16 (s : string) : option (option FRRepr) :=
  match big_SetString16 s with
  | None => Some None
  | Some n => FRReprFromBigInt n
  end.

Definition FRRepr_const (n : Z) : FRRepr :=
  match FRReprFromBigInt n with Some (Some f) => f | _ => mkFRRepr 0 0 0 0 end.

(** frrepr.go:243-249 ToFQ *)
Definition FRRepr_ToFQ (f : FRRepr) : FQRepr := mkFQRepr (v0 f) (v1 f) (v2 f) (v3 f) 0 0.
