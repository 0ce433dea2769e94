(** Text in and out: FQReprFromString, FRReprFromString and the unchecked variants of fqrepr.go
    and frrepr.go for every base but 0, and the String methods of all types. *)
Require Import String Ascii ZArith Bool List.
From Verif Require Import Words ModelRepr ModelFq ModelFr ModelOps ModelTower ModelCurve ModelBls.
Import ListNotations.
Open Scope Z_scope.

(** What a call does: [SBase0] stands for base 0, where math/big looks for a prefix such as 0x
    and accepts underscores; that case is not modelled. *)
Inductive sres (A : Type) := SPanic | SFail | SBase0 | SOk (a : A).
Arguments SPanic {A}. Arguments SFail {A}. Arguments SBase0 {A}. Arguments SOk {A} a.

(** math/big nat.scan, the switch over the character; [small] is base <= 36 *)
Definition raw_digit (small : bool) (c : ascii) : option Z :=
  let n := Z.of_nat (nat_of_ascii c) in
  if (48 <=? n) && (n <=? 57) then Some (n - 48)
  else if (97 <=? n) && (n <=? 122) then Some (n - 87)
  else if (65 <=? n) && (n <=? 90) then Some (if small then n - 55 else n - 29)
  else None.
Definition digit (b : Z) (c : ascii) : option Z :=
  match raw_digit (b <=? 36) c with
  | Some d => if d <? b then Some d else None
  | None => None
  end.

(** nat.scan over the whole rest of the string: a character that is no digit ends the scan, and
    SetString then fails because the string is not used up *)
Fixpoint scan (b : Z) (acc : Z) (l : list ascii) : option Z :=
  match l with
  | [] => Some acc
  | c :: l' => match digit b c with Some d => scan b (acc * b + d) l' | None => None end
  end.

Definition big_SetString (s : string) (base : Z) : sres Z :=
  match list_ascii_of_string s with
  | [] => SFail                                        (* scanSign meets the end of the input *)
  | c :: l =>
      let '(neg, ds) := if Ascii.eqb c "-"%char then (true, l)
                        else if Ascii.eqb c "+"%char then (false, l) else (false, c :: l) in
      if base =? 0 then SBase0
      else if (base <? 2) || (62 <? base) then SPanic    (* "invalid number base" *)
      else match ds with
           | [] => SFail                               (* errNoDigits *)
           | _ => match scan base 0 ds with
                  | Some n => SOk (if neg then - n else n)
                  | None => SFail
                  end
           end
  end.

(** int(b) of a uint *)
Definition int_of_uint (b : Z) : Z := if b <? 2 ^ 63 then b else b - 2 ^ 64.

(** fqrepr.go:210-216 *)
Definition FQReprFromString (s : string) (b : Z) : sres FQRepr :=
  match big_SetString s (int_of_uint b) with
  | SOk n => match FQReprFromBigInt n with Some (Some f) => SOk f | Some None => SFail | None => SPanic end
  | SFail => SFail | SPanic => SPanic | SBase0 => SBase0
  end.

(** fqrepr.go:223-226; an invalid string leaves a nil *big.Int, whose use panics *)
Definition fqReprFromStringUnchecked (s : string) (b : Z) : sres FQRepr :=
  match big_SetString s (int_of_uint b) with
  | SOk n => match fqReprFromBigIntUnchecked n with Some f => SOk f | None => SPanic end
  | SBase0 => SBase0
  | SFail | SPanic => SPanic
  end.
(** fqrepr.go:218-221 *)
Definition fqReprFromHexUnchecked (s : string) : sres FQRepr :=
  match big_SetString s 16 with
  | SOk n => match fqReprFromBigIntUnchecked n with Some f => SOk f | None => SPanic end
  | SBase0 => SBase0
  | SFail | SPanic => SPanic
  end.

(** frrepr.go:202-208 *)
Definition FRReprFromString (s : string) (b : Z) : sres FRRepr :=
  match big_SetString s (int_of_uint b) with
  | SOk n => match FRReprFromBigInt n with Some (Some f) => SOk f | Some None => SFail | None => SPanic end
  | SFail => SFail | SPanic => SPanic | SBase0 => SBase0
  end.

(** fr.go:161-163 *)
Definition FR_String (f : FR) : string := ("FR(0x" ++ FRRepr_String (FR_ToRepr f) ++ ")")%string.

Section Show.
Context {F : Type} (B : BOps F).
Open Scope string_scope.
(** fq.go:129-131 *)
Definition show_FQ (f : F) : string := "Fq(0x" ++ FQRepr_String (b_repr B f) ++ ")".
(** fq2.go:26-28 *)
Definition show_FQ2 (f : FQ2 F) : string :=
  "Fq2(" ++ show_FQ (c0 f) ++ " + " ++ show_FQ (c1 f) ++ " * u)".
(** fq6.go:24-26 *)
Definition show_FQ6 (f : FQ6 F) : string :=
  "Fq6(" ++ show_FQ2 (d0 f) ++ " + " ++ show_FQ2 (d1 f) ++ "*v + " ++ show_FQ2 (d2 f) ++ "*v^2)".
(** fq12.go:22-24 *)
Definition show_FQ12 (f : FQ12 F) : string :=
  "Fq12(" ++ show_FQ6 (e0 f) ++ " + " ++ show_FQ6 (e1 f) ++ " * w)".

(** g1.go:34-39 *)
Definition show_G1Affine (g : Affine F) : string :=
  if ainf g then "G1(infinity)" else "G1(x=" ++ show_FQ (ax g) ++ ", y=" ++ show_FQ (ay g) ++ ")".
(** g2.go:45-50 *)
Definition show_G2Affine (g : Affine (FQ2 F)) : string :=
  if ainf g then "G2(Infinity)" else "G2(x=" ++ show_FQ2 (ax g) ++ ", y=" ++ show_FQ2 (ay g) ++ ")".
(** g1.go:274-279; also g1pubs PublicKey.String (g1pubs/bls.go:57-59) and g2pubs Signature.String *)
Definition show_G1Projective (g : Proj F) : string :=
  if Proj_IsZero (b_ops B) g then "G1: Infinity" else show_G1Affine (G1_ToAffine (b_ops B) g).
(** g2.go:315-320; also g1pubs Signature.String (g1pubs/bls.go:22-24) and g2pubs PublicKey.String *)
Definition show_G2Projective (g : Proj (FQ2 F)) : string :=
  if Proj_IsZero (FQ2O B) g then "G2: Infinity" else show_G2Affine (G2_ToAffine (FQ2O B) g).
End Show.

(** g1pubs/bls.go:110-112, g2pubs/bls.go:110-112 SecretKey.String; a nil element panics *)
Definition SecretKey_String (s : SecretKey) : option string := option_map FR_String s.
