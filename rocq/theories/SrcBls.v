(** The packages g1pubs and g2pubs, run from their source text. *)
Require Import ZArith Bool String List Lia.
From Verif Require Import Words ModelRepr ModelFq ModelFr ModelOps ModelTower ModelCurve ModelPairing ModelHash ModelBls SrcAst SrcSem SrcCode SrcCall SrcTac.
Import ListNotations.
Open Scope Z_scope.
Local Open Scope string_scope.

Section S.
Context (sha : list Z -> list Z) (fuel : nat) {F : Type} (B : BOps F).
Notation V := (V F).
Notation res := ((list (nat * V) * list V -> outcome F) -> outcome F).

(** Signatures and keys are structs with one field; a secret key may hold nil. *)
Definition sigV2 (s : Proj (FQ2 F)) : V := VS "Signature" [("s", VP2 s)].
Definition sigV1 (s : Proj F) : V := VS "Signature" [("s", VP1 s)].
Definition pubV1 (p : Proj F) : V := VS "PublicKey" [("p", VP1 p)].
Definition pubV2 (p : Proj (FQ2 F)) : V := VS "PublicKey" [("p", VP2 p)].
Definition frV (k : option FR) : V := match k with Some x => VFR x | None => VN end.
Definition keyV (k : SecretKey) : V := VS "SecretKey" [("f", frV k)].
Definition pS2 (v : V) := match v with VS _ [(_, VP2 s)] => Some s | _ => None end.
Definition pS1 (v : V) := match v with VS _ [(_, VP1 s)] => Some s | _ => None end.
Definition pLB (v : V) := match v with VLB l => Some l | _ => None end.
Definition pLP1 (v : V) := match v with VLP1 _ _ l => Some l | _ => None end.
Definition pLP2 (v : V) := match v with VLP2 _ _ l => Some l | _ => None end.
(** a reader: nil fails, a number is what rand.Int makes of it *)
Definition pRd (v : V) := match v with VErr => Some None | VBig z => Some (Some z) | _ => None end.

(** Functions that the two packages call: hashing, pairings, FR, and the standard library. Pairing returns nil when FinalExponentiation does. *)
Definition t_lib : table := [
  ("HashG1", f1 pBy (fun m => orpanic VA1 (HashG1 sha B m)));
  ("HashG2", f1 pBy (fun m => orpanic VA2 (HashG2 sha B m)));
  ("HashG2WithDomain", f2 pBy pBy (fun m d => orpanic VP2 (HashG2WithDomain_fuel sha B fuel m d)));
  ("HashSecretKey", f1 pBy (fun b => ret_ornil VFR (HashSecretKey sha b)));
  ("Pairing", f2 pP1 pP2 (fun p q k =>
     match MillerLoop B [(G1_ToAffine (b_ops B) p, G2AffineToPrepared B (G2_ToAffine (FQ2O B) q))] with
     | Some f => ret_ornil V12 (FinalExponentiation B f) k
     | None => Panic
     end));
  ("CompareTwoPairings", f4 pP1 pP2 pP1 pP2 (fun p q r s => orpanic VB (CompareTwoPairings B p q r s)));
  ("FQ12.MulAssign", fun vs => match vs with
     | [V12 x; V12 y] => mut (V12 (FQ12_MulAssign B x y))
     | [V12 _; VN] => fun _ => Panic
     | _ => stuck
     end);
  ("FR.ToRepr", f1 pFR (fun x => ret (VRr (FR_ToRepr x))));
  ("FR.Bytes", f1 pFR (fun x => ret (VBy (FR_Bytes x))));
  ("FRReprToFR", f1 pRr (fun r => ret_ornil VFR (FRReprToFR r)));
  ("FRReprFromBytes", f1 pBy (fun b => ret (VRr (FRReprFromBytes b))));
  ("RandFR", f1 pRd (fun o k => match o with
     | Some z => match RandFR z with Some x => rets [VFR x; VN] k | None => rets [VN; VN] k end
     | None => rets [VN; VErr] k
     end));
  ("bytes.Compare", f2 pBy pBy (fun a b => ret (VI (bytes_Compare a b))));
  ("bytes.Equal", f2 pBy pBy (fun a b => ret (VB (bytes_Equal a b))));
  ("sort.Sort", f1 pLB (fun l => mut (VLB (sortByteArrays l))));
  ("sortByteArrays", f1 pLB (fun l => mutret (VLB (sortByteArrays l)) [VLB (sortByteArrays l)]))].
Definition t_g1pubs : table := ([
  ("Signature.Aggregate", f2 pS2 pS2 (fun s t => mut (sigV2 (g1pubs_Signature_Aggregate B s t))));
  ("PublicKey.Aggregate", f2 pS1 pS1 (fun s t => mut (pubV1 (g1pubs_PublicKey_Aggregate B s t))));
  ("AggregatePublicKeys", f1 pLP1 (fun l => ret (pubV1 (g1pubs_AggregatePublicKeys B l))));
  ("Verify", f3 pBy pS1 pS2 (fun m p s => orpanic VB (g1pubs_Verify sha B m p s)));
  ("VerifyWithDomain", f4 pBy pS1 pS2 pBy (fun m p s d => orpanic VB (g1pubs_VerifyWithDomain sha B fuel m p s d)))] ++ t_lib)%list.
Definition t_g2pubs : table := ([
  ("Signature.Aggregate", f2 pS1 pS1 (fun s t => mut (sigV1 (g2pubs_Signature_Aggregate B s t))));
  ("PublicKey.Aggregate", f2 pS2 pS2 (fun s t => mut (pubV2 (g2pubs_PublicKey_Aggregate B s t))));
  ("AggregatePublicKeys", f1 pLP2 (fun l => ret (pubV2 (g2pubs_AggregatePublicKeys B l))));
  ("Verify", f3 pBy pS2 pS1 (fun m p s => orpanic VB (g2pubs_Verify sha B m p s)))] ++ t_lib)%list.
Notation run1 := (runT B t_g1pubs).
Notation run2 := (runT B t_g2pubs).

Lemma compare_values a b : bytes_Compare a b = -1 \/ bytes_Compare a b = 0 \/ bytes_Compare a b = 1.
Proof. revert b. induction a as [|x a IH]; intros [|y b]; cbn [bytes_Compare]; auto. destruct (x <? y)%Z; auto. destruct (y <? x)%Z; auto. Qed.

(** ** g1pubs *)
Lemma src_g1pubs_Signature_Serialize_ok n s : run1 n src_g1pubs_Signature_Serialize [sigV2 s] = Done [sigV2 s] [VBy (g1pubs_Signature_Serialize B s)].
Proof. unfold g1pubs_Signature_Serialize. src. Qed.
Lemma src_g1pubs_Signature_GetPoint_ok n s : run1 n src_g1pubs_Signature_GetPoint [sigV2 s] = Done [sigV2 s] [VP2 s].
Proof. src. Qed.
Lemma src_g1pubs_NewSignatureFromG2_ok n p : run1 n src_g1pubs_NewSignatureFromG2 [VA2 p] = Done [VA2 p] [sigV2 (g1pubs_NewSignatureFromG2 B p)].
Proof. unfold g1pubs_NewSignatureFromG2. src. Qed.
Lemma src_g1pubs_DeserializeSignature_ok n b : run1 n src_g1pubs_DeserializeSignature [VBy b] = Done [] (orerr sigV2 (g1pubs_DeserializeSignature B b)).
Proof. unfold g1pubs_DeserializeSignature. src. Qed.
Lemma src_g1pubs_Signature_Copy_ok n s : run1 n src_g1pubs_Signature_Copy [sigV2 s] = Done [sigV2 s] [sigV2 s].
Proof. src. Qed.
Lemma src_g1pubs_PublicKey_GetPoint_ok n p : run1 n src_g1pubs_PublicKey_GetPoint [pubV1 p] = Done [pubV1 p] [VP1 p].
Proof. src. Qed.
Lemma src_g1pubs_PublicKey_Serialize_ok n p : run1 n src_g1pubs_PublicKey_Serialize [pubV1 p] = Done [] [VBy (g1pubs_PublicKey_Serialize B p)].
Proof. unfold g1pubs_PublicKey_Serialize. src. Qed.
Lemma src_g1pubs_NewPublicKeyFromG1_ok n p : run1 n src_g1pubs_NewPublicKeyFromG1 [VA1 p] = Done [VA1 p] [pubV1 (g1pubs_NewPublicKeyFromG1 B p)].
Proof. unfold g1pubs_NewPublicKeyFromG1. src. Qed.
Lemma src_g1pubs_PublicKey_Equals_ok n p q : run1 n src_g1pubs_PublicKey_Equals [pubV1 p; pubV1 q] = Done [] [VB (g1pubs_PublicKey_Equals B p q)].
Proof. unfold g1pubs_PublicKey_Equals. src. Qed.
Lemma src_g1pubs_DeserializePublicKey_ok n b : run1 n src_g1pubs_DeserializePublicKey [VBy b] = Done [] (orerr pubV1 (g1pubs_DeserializePublicKey B b)).
Proof. unfold g1pubs_DeserializePublicKey. src. Qed.
Lemma src_g1pubs_SecretKey_GetFRElement_ok n k : run1 n src_g1pubs_SecretKey_GetFRElement [keyV k] = Done [] [frV k].
Proof. destruct k; src. Qed.
Lemma src_g1pubs_SecretKey_Serialize_ok n k : run1 n src_g1pubs_SecretKey_Serialize [keyV k] = match SecretKey_Serialize k with Some b => Done [] [VBy b] | None => Panic end.
Proof. unfold SecretKey_Serialize. destruct k; src. Qed.
Lemma src_g1pubs_DeserializeSecretKey_ok n b : run1 n src_g1pubs_DeserializeSecretKey [VBy b] = Done [] [keyV (DeserializeSecretKey b)].
Proof. unfold DeserializeSecretKey. src. Qed.
Lemma src_g1pubs_DeriveSecretKey_ok n b : run1 n src_g1pubs_DeriveSecretKey [VBy b] = Done [] [keyV (DeriveSecretKey sha b)].
Proof. unfold DeriveSecretKey. src. Qed.
Lemma src_g1pubs_Sign_ok n m k : run1 n src_g1pubs_Sign [VBy m; keyV k] = match g1pubs_Sign sha B m k with Some s => Done [VBy m; keyV k] [sigV2 s] | None => Panic end.
Proof. unfold g1pubs_Sign. destruct k; src. Qed.
Lemma src_g1pubs_PrivToPub_ok n k : run1 n src_g1pubs_PrivToPub [keyV k] = match g1pubs_PrivToPub B k with Some p => Done [keyV k] [pubV1 p] | None => Panic end.
Proof. unfold g1pubs_PrivToPub. destruct k; src. Qed.
Lemma src_g1pubs_RandKey_ok n r : run1 n src_g1pubs_RandKey [match r with Some z => VBig z | None => VErr end] =
  Done [] (match r with Some z => [keyV (RandKey z); VN] | None => [VN; VErr] end).
Proof. unfold RandKey. destruct r; src. Qed.
Lemma src_g1pubs_KeyFromFQRepr_ok n r : run1 n src_g1pubs_KeyFromFQRepr [VRr r] = Done [VRr r] [keyV (KeyFromFQRepr r)].
Proof. unfold KeyFromFQRepr. src. Qed.
Lemma src_g1pubs_Verify_ok n m p s : run1 n src_g1pubs_Verify [VBy m; pubV1 p; sigV2 s] =
  match g1pubs_Verify sha B m p s with Some b => Done [VBy m; pubV1 p; sigV2 s] [VB b] | None => Panic end.
Proof. unfold g1pubs_Verify. src. Qed.
Lemma src_g1pubs_Signature_Aggregate_ok n s t : run1 n src_g1pubs_Signature_Aggregate [sigV2 s; sigV2 t] = Done [sigV2 (g1pubs_Signature_Aggregate B s t); sigV2 t] [].
Proof. unfold g1pubs_Signature_Aggregate. src. Qed.
Lemma src_g1pubs_PublicKey_Aggregate_ok n s t : run1 n src_g1pubs_PublicKey_Aggregate [pubV1 s; pubV1 t] = Done [pubV1 (g1pubs_PublicKey_Aggregate B s t); pubV1 t] [].
Proof. unfold g1pubs_PublicKey_Aggregate. src. Qed.
Lemma src_g1pubs_PublicKey_Copy_ok n p : run1 n src_g1pubs_PublicKey_Copy [pubV1 p] = Done [pubV1 p] [pubV1 p].
Proof. src. Qed.
Lemma src_g1pubs_NewAggregateSignature_ok n : run1 n src_g1pubs_NewAggregateSignature [] = Done [] [sigV2 (g1pubs_NewAggregateSignature B)].
Proof. unfold g1pubs_NewAggregateSignature. src. Qed.
Lemma src_g1pubs_NewAggregatePubkey_ok n : run1 n src_g1pubs_NewAggregatePubkey [] = Done [] [pubV1 (g1pubs_NewAggregatePubkey B)].
Proof. unfold g1pubs_NewAggregatePubkey. src. Qed.
Lemma src_g1pubs_sortableByteArray_Len_ok n l : run1 n src_g1pubs_sortableByteArray_Len [VLB l] = Done [VLB l] [VI (Z.of_nat (length l))].
Proof. src. Qed.
Lemma src_g1pubs_sortableByteArray_Less_ok n l i j : run1 n src_g1pubs_sortableByteArray_Less [VLB l; VI i; VI j] =
  if inr i l then if inr j l then Done [VLB l] [VB (bytes_Compare (nth (Z.to_nat i) l []) (nth (Z.to_nat j) l []) =? -1)%Z] else Panic else Panic.
Proof.
  etransitivity; [src_cbvs; reflexivity|]. destruct (inr i l); [|reflexivity]. destruct (inr j l); [|reflexivity].
  destruct (compare_values (nth (Z.to_nat i) l []) (nth (Z.to_nat j) l [])) as [E|[E|E]]; rewrite E; reflexivity.
Qed.

Lemma src_g1pubs_Signature_VerifyAggregateCommon_ok n s l m : run1 n src_g1pubs_Signature_VerifyAggregateCommon [sigV2 s; VLP1 "PublicKey" "p" l; VBy m] =
  match g1pubs_VerifyAggregateCommon sha B s l m with Some b => Done [sigV2 s; VLP1 "PublicKey" "p" l; VBy m] [VB b] | None => Panic end.
Proof. unfold g1pubs_VerifyAggregateCommon. src. Qed.

Lemma src_g1pubs_SignWithDomain_ok n m k d : run1 n src_g1pubs_SignWithDomain [VBy m; keyV k; VBy d] =
  match g1pubs_SignWithDomain sha B fuel m k d with Some s => Done [keyV k] [sigV2 s] | None => Panic end.
Proof. unfold g1pubs_SignWithDomain. destruct k; src. Qed.
Lemma src_g1pubs_VerifyWithDomain_ok n m p s d : run1 n src_g1pubs_VerifyWithDomain [VBy m; pubV1 p; sigV2 s; VBy d] =
  match g1pubs_VerifyWithDomain sha B fuel m p s d with Some b => Done [pubV1 p; sigV2 s] [VB b] | None => Panic end.
Proof. unfold g1pubs_VerifyWithDomain. src. Qed.
Lemma src_g1pubs_Signature_VerifyAggregateCommonWithDomain_ok n s l m d :
  run1 n src_g1pubs_Signature_VerifyAggregateCommonWithDomain [sigV2 s; VLP1 "PublicKey" "p" l; VBy m; VBy d] =
  match g1pubs_VerifyAggregateCommonWithDomain sha B fuel s l m d with Some b => Done [sigV2 s; VLP1 "PublicKey" "p" l] [VB b] | None => Panic end.
Proof. unfold g1pubs_VerifyAggregateCommonWithDomain. src. Qed.

(** ** g2pubs *)
Lemma src_g2pubs_Signature_Serialize_ok n s : run2 n src_g2pubs_Signature_Serialize [sigV1 s] = Done [sigV1 s] [VBy (g2pubs_Signature_Serialize B s)].
Proof. unfold g2pubs_Signature_Serialize. src. Qed.
Lemma src_g2pubs_Signature_GetPoint_ok n s : run2 n src_g2pubs_Signature_GetPoint [sigV1 s] = Done [sigV1 s] [VP1 s].
Proof. src. Qed.
Lemma src_g2pubs_NewSignatureFromG1_ok n p : run2 n src_g2pubs_NewSignatureFromG1 [VA1 p] = Done [VA1 p] [sigV1 (g2pubs_NewSignatureFromG1 B p)].
Proof. unfold g2pubs_NewSignatureFromG1. src. Qed.
Lemma src_g2pubs_DeserializeSignature_ok n b : run2 n src_g2pubs_DeserializeSignature [VBy b] = Done [] (orerr sigV1 (g2pubs_DeserializeSignature B b)).
Proof. unfold g2pubs_DeserializeSignature. src. Qed.
Lemma src_g2pubs_Signature_Copy_ok n s : run2 n src_g2pubs_Signature_Copy [sigV1 s] = Done [sigV1 s] [sigV1 s].
Proof. src. Qed.
Lemma src_g2pubs_PublicKey_GetPoint_ok n p : run2 n src_g2pubs_PublicKey_GetPoint [pubV2 p] = Done [pubV2 p] [VP2 p].
Proof. src. Qed.
Lemma src_g2pubs_PublicKey_Serialize_ok n p : run2 n src_g2pubs_PublicKey_Serialize [pubV2 p] = Done [] [VBy (g2pubs_PublicKey_Serialize B p)].
Proof. unfold g2pubs_PublicKey_Serialize. src. Qed.
Lemma src_g2pubs_NewPublicKeyFromG2_ok n p : run2 n src_g2pubs_NewPublicKeyFromG2 [VA2 p] = Done [VA2 p] [pubV2 (g2pubs_NewPublicKeyFromG2 B p)].
Proof. unfold g2pubs_NewPublicKeyFromG2. src. Qed.
Lemma src_g2pubs_PublicKey_Equals_ok n p q : run2 n src_g2pubs_PublicKey_Equals [pubV2 p; pubV2 q] = Done [] [VB (g2pubs_PublicKey_Equals B p q)].
Proof. unfold g2pubs_PublicKey_Equals. src. Qed.
Lemma src_g2pubs_DeserializePublicKey_ok n b : run2 n src_g2pubs_DeserializePublicKey [VBy b] = Done [] (orerr pubV2 (g2pubs_DeserializePublicKey B b)).
Proof. unfold g2pubs_DeserializePublicKey. src. Qed.
Lemma src_g2pubs_SecretKey_GetFRElement_ok n k : run2 n src_g2pubs_SecretKey_GetFRElement [keyV k] = Done [] [frV k].
Proof. destruct k; src. Qed.
Lemma src_g2pubs_SecretKey_Serialize_ok n k : run2 n src_g2pubs_SecretKey_Serialize [keyV k] = match SecretKey_Serialize k with Some b => Done [] [VBy b] | None => Panic end.
Proof. unfold SecretKey_Serialize. destruct k; src. Qed.
Lemma src_g2pubs_DeserializeSecretKey_ok n b : run2 n src_g2pubs_DeserializeSecretKey [VBy b] = Done [] [keyV (DeserializeSecretKey b)].
Proof. unfold DeserializeSecretKey. src. Qed.
Lemma src_g2pubs_DeriveSecretKey_ok n b : run2 n src_g2pubs_DeriveSecretKey [VBy b] = Done [] [keyV (DeriveSecretKey sha b)].
Proof. unfold DeriveSecretKey. src. Qed.
Lemma src_g2pubs_Sign_ok n m k : run2 n src_g2pubs_Sign [VBy m; keyV k] = match g2pubs_Sign sha B m k with Some s => Done [VBy m; keyV k] [sigV1 s] | None => Panic end.
Proof. unfold g2pubs_Sign. destruct k; src. Qed.
Lemma src_g2pubs_PrivToPub_ok n k : run2 n src_g2pubs_PrivToPub [keyV k] = match g2pubs_PrivToPub B k with Some p => Done [keyV k] [pubV2 p] | None => Panic end.
Proof. unfold g2pubs_PrivToPub. destruct k; src. Qed.
Lemma src_g2pubs_RandKey_ok n r : run2 n src_g2pubs_RandKey [match r with Some z => VBig z | None => VErr end] =
  Done [] (match r with Some z => [keyV (RandKey z); VN] | None => [VN; VErr] end).
Proof. unfold RandKey. destruct r; src. Qed.
Lemma src_g2pubs_KeyFromFQRepr_ok n r : run2 n src_g2pubs_KeyFromFQRepr [VRr r] = Done [VRr r] [keyV (KeyFromFQRepr r)].
Proof. unfold KeyFromFQRepr. src. Qed.
Lemma src_g2pubs_Verify_ok n m p s : run2 n src_g2pubs_Verify [VBy m; pubV2 p; sigV1 s] =
  match g2pubs_Verify sha B m p s with Some b => Done [VBy m; pubV2 p; sigV1 s] [VB b] | None => Panic end.
Proof. unfold g2pubs_Verify. src. Qed.
Lemma src_g2pubs_Signature_Aggregate_ok n s t : run2 n src_g2pubs_Signature_Aggregate [sigV1 s; sigV1 t] = Done [sigV1 (g2pubs_Signature_Aggregate B s t); sigV1 t] [].
Proof. unfold g2pubs_Signature_Aggregate. src. Qed.
Lemma src_g2pubs_PublicKey_Aggregate_ok n s t : run2 n src_g2pubs_PublicKey_Aggregate [pubV2 s; pubV2 t] = Done [pubV2 (g2pubs_PublicKey_Aggregate B s t); pubV2 t] [].
Proof. unfold g2pubs_PublicKey_Aggregate. src. Qed.
Lemma src_g2pubs_PublicKey_Copy_ok n p : run2 n src_g2pubs_PublicKey_Copy [pubV2 p] = Done [pubV2 p] [pubV2 p].
Proof. src. Qed.
Lemma src_g2pubs_NewAggregateSignature_ok n : run2 n src_g2pubs_NewAggregateSignature [] = Done [] [sigV1 (g2pubs_NewAggregateSignature B)].
Proof. unfold g2pubs_NewAggregateSignature. src. Qed.
Lemma src_g2pubs_NewAggregatePubkey_ok n : run2 n src_g2pubs_NewAggregatePubkey [] = Done [] [pubV2 (g2pubs_NewAggregatePubkey B)].
Proof. unfold g2pubs_NewAggregatePubkey. src. Qed.
Lemma src_g2pubs_sortableByteArray_Len_ok n l : run2 n src_g2pubs_sortableByteArray_Len [VLB l] = Done [VLB l] [VI (Z.of_nat (length l))].
Proof. src. Qed.
Lemma src_g2pubs_sortableByteArray_Less_ok n l i j : run2 n src_g2pubs_sortableByteArray_Less [VLB l; VI i; VI j] =
  if inr i l then if inr j l then Done [VLB l] [VB (bytes_Compare (nth (Z.to_nat i) l []) (nth (Z.to_nat j) l []) =? -1)%Z] else Panic else Panic.
Proof.
  etransitivity; [src_cbvs; reflexivity|]. destruct (inr i l); [|reflexivity]. destruct (inr j l); [|reflexivity].
  destruct (compare_values (nth (Z.to_nat i) l []) (nth (Z.to_nat j) l [])) as [E|[E|E]]; rewrite E; reflexivity.
Qed.

Lemma src_g2pubs_Signature_VerifyAggregateCommon_ok n s l m : run2 n src_g2pubs_Signature_VerifyAggregateCommon [sigV1 s; VLP2 "PublicKey" "p" l; VBy m] =
  match g2pubs_VerifyAggregateCommon sha B s l m with Some b => Done [sigV1 s; VLP2 "PublicKey" "p" l; VBy m] [VB b] | None => Panic end.
Proof. unfold g2pubs_VerifyAggregateCommon. src. Qed.
End S.
