(** Model of g1pubs/bls.go and g2pubs/bls.go. A Signature or PublicKey is its point; a SecretKey is
    the FR it points to (None: nil pointer). A result None of a function that returns no error in Go
    means that the Go function panics. *)
Require Import ZArith Bool List.
From Verif Require Import Words ModelRepr ModelFq ModelFr ModelOps ModelTower ModelCurve ModelPairing ModelHash.
Import ListNotations.
Open Scope Z_scope.

(** bytes.Compare *)
Fixpoint bytes_Compare (a b : list Z) : Z :=
  match a, b with
  | [], [] => 0
  | [], _ :: _ => -1
  | _ :: _, [] => 1
  | x :: a, y :: b => if x <? y then -1 else if y <? x then 1 else bytes_Compare a b
  end.
(** bytes.Equal; nil and the empty slice are equal *)
Fixpoint bytes_Equal (a b : list Z) : bool :=
  match a, b with
  | [], [] => true
  | x :: a, y :: b => (x =? y) && bytes_Equal a b
  | _, _ => false
  end.

(** bls.go:222-249 (g1pubs), 210-237 (g2pubs) sortByteArrays. sort.Sort with the order of bytes.Compare,
    which is total and antisymmetric on contents, so that the sorted list does not depend on the algorithm. *)
Fixpoint insert_bytes (m : list Z) (l : list (list Z)) : list (list Z) :=
  match l with
  | [] => [m]
  | x :: rest => if bytes_Compare x m =? -1 then x :: insert_bytes m rest else m :: l
  end.
Definition sortByteArrays (src : list (list Z)) : list (list Z) := fold_right insert_bytes [] src.

(** bls.go:267-275 (g1pubs), 255-263 (g2pubs): the duplicate check; true = `return false` is reached *)
Fixpoint has_duplicate (lastMsg : list Z) (l : list (list Z)) : bool :=
  match l with
  | [] => false
  | m :: rest => if bytes_Equal m lastMsg then true else has_duplicate m rest
  end.

Definition SecretKey := option FR.

(** bls.go:115-117 Serialize; nil key: panic *)
Definition SecretKey_Serialize (s : SecretKey) : option (list Z) := option_map FR_Bytes s.
(** bls.go:121-123 DeserializeSecretKey *)
Definition DeserializeSecretKey (b : list Z) : SecretKey := FRReprToFR (FRReprFromBytes b).
(** bls.go:127-129 DeriveSecretKey *)
Definition DeriveSecretKey (sha : list Z -> list Z) (b : list Z) : SecretKey := HashSecretKey sha b.
(** g1pubs/bls.go:160-162 KeyFromFQRepr, g2pubs/bls.go:154-156 *)
Definition KeyFromFQRepr (i : FRRepr) : SecretKey := FRReprToFR i.
(** g1pubs/bls.go:149-156 RandKey, g2pubs/bls.go:143-150, given the integer returned by rand.Int *)
Definition RandKey (r : Z) : SecretKey := RandFR r.

Section Bls.
Context (sha : list Z -> list Z).
Context {F : Type} (B : BOps F).
Let O1 := b_ops B.
Let O2 := FQ2O B.

(** ** g1pubs: public keys in G1, signatures in G2 *)

(** g1pubs/bls.go:18-20, 33-35, 38-45 *)
Definition g1pubs_Signature_Serialize (s : Proj (FQ2 F)) : list Z := CompressG2 B (G2_ToAffine O2 s).
Definition g1pubs_NewSignatureFromG2 (g2 : Affine (FQ2 F)) : Proj (FQ2 F) := Affine_ToProjective O2 g2.
Definition g1pubs_DeserializeSignature (b : list Z) : option (Proj (FQ2 F)) := option_map (Affine_ToProjective O2) (DecompressG2 B b).
(** g1pubs/bls.go:67-69, 72-74, 85-87, 91-98 *)
Definition g1pubs_PublicKey_Serialize (p : Proj F) : list Z := CompressG1 B (G1_ToAffine O1 p).
Definition g1pubs_NewPublicKeyFromG1 (g1 : Affine F) : Proj F := Affine_ToProjective O1 g1.
Definition g1pubs_PublicKey_Equals (p other : Proj F) : bool := Proj_Equal O1 p other.
Definition g1pubs_DeserializePublicKey (b : list Z) : option (Proj F) := option_map (Affine_ToProjective O1) (DecompressG1 B b).

(** g1pubs/bls.go:132-135 Sign *)
Definition g1pubs_Sign (message : list Z) (key : SecretKey) : option (Proj (FQ2 F)) :=
  match HashG2 sha B message with
  | None => None
  | Some h => match key with None => None | Some k => Some (Affine_MulFR O2 h (FR_ToRepr k)) end
  end.
(** g1pubs/bls.go:138-141 SignWithDomain; fuel bounds the search of HashG2WithDomain *)
Definition g1pubs_SignWithDomain (fuel : nat) (message : list Z) (key : SecretKey) (domain : list Z) : option (Proj (FQ2 F)) :=
  match HashG2WithDomain_fuel sha B fuel message domain with
  | None => None
  | Some h => match key with None => None | Some k => Some (Proj_MulFR O2 h (FR_ToRepr k)) end
  end.
(** g1pubs/bls.go:144-146 PrivToPub *)
Definition g1pubs_PrivToPub (k : SecretKey) : option (Proj F) :=
  match k with None => None | Some k => Some (Affine_MulFR O1 (G1AffineOne B) (FR_ToRepr k)) end.
(** g1pubs/bls.go:165-168 Verify *)
Definition g1pubs_Verify (m : list Z) (pub : Proj F) (sig : Proj (FQ2 F)) : option bool :=
  match HashG2 sha B m with
  | None => None
  | Some h => CompareTwoPairings B (G1ProjectiveOne B) sig pub (Affine_ToProjective O2 h)
  end.
(** g1pubs/bls.go:171-174 VerifyWithDomain *)
Definition g1pubs_VerifyWithDomain (fuel : nat) (m : list Z) (pub : Proj F) (sig : Proj (FQ2 F)) (domain : list Z) : option bool :=
  match HashG2WithDomain_fuel sha B fuel m domain with
  | None => None
  | Some h => CompareTwoPairings B (G1ProjectiveOne B) sig pub (Affine_ToProjective O2 (G2_ToAffine O2 h))
  end.
(** g1pubs/bls.go:177-189, 192-204, 212-219 *)
Definition g1pubs_Signature_Aggregate (s other : Proj (FQ2 F)) : Proj (FQ2 F) := Add O2 s other.
Definition g1pubs_AggregateSignatures (s : list (Proj (FQ2 F))) : Proj (FQ2 F) :=
  fold_left g1pubs_Signature_Aggregate s (ProjectiveZero O2).
Definition g1pubs_PublicKey_Aggregate (p other : Proj F) : Proj F := Add O1 p other.
Definition g1pubs_AggregatePublicKeys (p : list (Proj F)) : Proj F :=
  fold_left g1pubs_PublicKey_Aggregate p (ProjectiveZero O1).
Definition g1pubs_NewAggregateSignature : Proj (FQ2 F) := ProjectiveZero O2.
Definition g1pubs_NewAggregatePubkey : Proj F := ProjectiveZero O1.

(** g1pubs/bls.go:278-281: the product of the pairings; None: panic *)
Fixpoint g1pubs_pairing_product (rhs : FQ12 F) (l : list (Proj F * list Z)) : option (FQ12 F) :=
  match l with
  | [] => Some rhs
  | (pub, msg) :: rest =>
      match HashG2 sha B msg with
      | None => None
      | Some h =>
          match Pairing B pub (Affine_ToProjective O2 h) with
          | None => None
          | Some e => g1pubs_pairing_product (FQ12_MulAssign B rhs e) rest
          end
      end
  end.
(** g1pubs/bls.go:252-283 VerifyAggregate *)
Definition g1pubs_VerifyAggregate (s : Proj (FQ2 F)) (pubKeys : list (Proj F)) (msgs : list (list Z)) : option bool :=
  if negb (Nat.eqb (length pubKeys) (length msgs)) then Some false
  else if has_duplicate [] (sortByteArrays msgs) then Some false
  else
    match Pairing B (G1ProjectiveOne B) s with
    | None => None
    | Some lhs =>
        match g1pubs_pairing_product (FQ12One B) (combine pubKeys msgs) with
        | None => None
        | Some rhs => Some (FQ12_Equals B lhs rhs)
        end
    end.
(** g1pubs/bls.go:287-290 VerifyAggregateCommon *)
Definition g1pubs_VerifyAggregateCommon (s : Proj (FQ2 F)) (pubKeys : list (Proj F)) (msg : list Z) : option bool :=
  let aggPub := g1pubs_AggregatePublicKeys pubKeys in
  g1pubs_Verify msg aggPub s.
(** g1pubs/bls.go:294-297 VerifyAggregateCommonWithDomain *)
Definition g1pubs_VerifyAggregateCommonWithDomain (fuel : nat) (s : Proj (FQ2 F)) (pubKeys : list (Proj F)) (msg domain : list Z) : option bool :=
  let aggPub := g1pubs_AggregatePublicKeys pubKeys in
  g1pubs_VerifyWithDomain fuel msg aggPub s domain.
(** g1pubs/bls.go:300-311 VerifyAggregateWithDomain (no duplicate check) *)
Fixpoint g1pubs_pairing_product_domain (fuel : nat) (domain : list Z) (rhs : FQ12 F) (l : list (Proj F * list Z)) : option (FQ12 F) :=
  match l with
  | [] => Some rhs
  | (pub, msg) :: rest =>
      match HashG2WithDomain_fuel sha B fuel msg domain with
      | None => None
      | Some h =>
          match Pairing B pub (Affine_ToProjective O2 (G2_ToAffine O2 h)) with
          | None => None
          | Some e => g1pubs_pairing_product_domain fuel domain (FQ12_MulAssign B rhs e) rest
          end
      end
  end.
Definition g1pubs_VerifyAggregateWithDomain (fuel : nat) (s : Proj (FQ2 F)) (pubKeys : list (Proj F)) (msgs : list (list Z)) (domain : list Z) : option bool :=
  if negb (Nat.eqb (length pubKeys) (length msgs)) then Some false
  else
    match Pairing B (G1ProjectiveOne B) s with
    | None => None
    | Some lhs =>
        match g1pubs_pairing_product_domain fuel domain (FQ12One B) (combine pubKeys msgs) with
        | None => None
        | Some rhs => Some (FQ12_Equals B lhs rhs)
        end
    end.

(** ** g2pubs: public keys in G2, signatures in G1 *)

(** g2pubs/bls.go:18-20, 28-30, 33-40 *)
Definition g2pubs_Signature_Serialize (s : Proj F) : list Z := CompressG1 B (G1_ToAffine O1 s).
Definition g2pubs_NewSignatureFromG1 (g1 : Affine F) : Proj F := Affine_ToProjective O1 g1.
Definition g2pubs_DeserializeSignature (b : list Z) : option (Proj F) := option_map (Affine_ToProjective O1) (DecompressG1 B b).
(** g2pubs/bls.go:67-69, 72-74, 85-87, 91-98 *)
Definition g2pubs_PublicKey_Serialize (p : Proj (FQ2 F)) : list Z := CompressG2 B (G2_ToAffine O2 p).
Definition g2pubs_NewPublicKeyFromG2 (g2 : Affine (FQ2 F)) : Proj (FQ2 F) := Affine_ToProjective O2 g2.
Definition g2pubs_PublicKey_Equals (p other : Proj (FQ2 F)) : bool := Proj_Equal O2 p other.
Definition g2pubs_DeserializePublicKey (b : list Z) : option (Proj (FQ2 F)) := option_map (Affine_ToProjective O2) (DecompressG2 B b).

(** g2pubs/bls.go:132-135 Sign *)
Definition g2pubs_Sign (message : list Z) (key : SecretKey) : option (Proj F) :=
  match HashG1 sha B message with
  | None => None
  | Some h => match key with None => None | Some k => Some (Affine_MulFR O1 h (FR_ToRepr k)) end
  end.
(** g2pubs/bls.go:138-140 PrivToPub *)
Definition g2pubs_PrivToPub (k : SecretKey) : option (Proj (FQ2 F)) :=
  match k with None => None | Some k => Some (Affine_MulFR O2 (G2AffineOne B) (FR_ToRepr k)) end.
(** g2pubs/bls.go:159-162 Verify *)
Definition g2pubs_Verify (m : list Z) (pub : Proj (FQ2 F)) (sig : Proj F) : option bool :=
  match HashG1 sha B m with
  | None => None
  | Some h => CompareTwoPairings B sig (G2ProjectiveOne B) (Affine_ToProjective O1 h) pub
  end.
(** g2pubs/bls.go:165-177, 180-192, 200-207 *)
Definition g2pubs_Signature_Aggregate (s other : Proj F) : Proj F := Add O1 s other.
Definition g2pubs_AggregateSignatures (s : list (Proj F)) : Proj F := fold_left g2pubs_Signature_Aggregate s (ProjectiveZero O1).
Definition g2pubs_PublicKey_Aggregate (p other : Proj (FQ2 F)) : Proj (FQ2 F) := Add O2 p other.
Definition g2pubs_AggregatePublicKeys (p : list (Proj (FQ2 F))) : Proj (FQ2 F) :=
  fold_left g2pubs_PublicKey_Aggregate p (ProjectiveZero O2).
Definition g2pubs_NewAggregateSignature : Proj F := ProjectiveZero O1.
Definition g2pubs_NewAggregatePubkey : Proj (FQ2 F) := ProjectiveZero O2.

(** g2pubs/bls.go:265-268 *)
Fixpoint g2pubs_pairing_product (rhs : FQ12 F) (l : list (Proj (FQ2 F) * list Z)) : option (FQ12 F) :=
  match l with
  | [] => Some rhs
  | (pub, msg) :: rest =>
      match HashG1 sha B msg with
      | None => None
      | Some h =>
          match Pairing B (Affine_ToProjective O1 h) pub with
          | None => None
          | Some e => g2pubs_pairing_product (FQ12_MulAssign B rhs e) rest
          end
      end
  end.
(** g2pubs/bls.go:240-271 VerifyAggregate *)
Definition g2pubs_VerifyAggregate (s : Proj F) (pubKeys : list (Proj (FQ2 F))) (msgs : list (list Z)) : option bool :=
  if negb (Nat.eqb (length pubKeys) (length msgs)) then Some false
  else if has_duplicate [] (sortByteArrays msgs) then Some false
  else
    match Pairing B s (G2ProjectiveOne B) with
    | None => None
    | Some lhs =>
        match g2pubs_pairing_product (FQ12One B) (combine pubKeys msgs) with
        | None => None
        | Some rhs => Some (FQ12_Equals B lhs rhs)
        end
    end.
(** g2pubs/bls.go:275-278 VerifyAggregateCommon *)
Definition g2pubs_VerifyAggregateCommon (s : Proj F) (pubKeys : list (Proj (FQ2 F))) (msg : list Z) : option bool :=
  let aggPub := g2pubs_AggregatePublicKeys pubKeys in
  g2pubs_Verify msg aggPub s.
End Bls.
