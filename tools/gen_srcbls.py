HEAD=r'''(** The packages g1pubs and g2pubs, run from their source text. *)
Require Import ZArith Bool String List Lia.
From Verif Require Import Words ModelRepr ModelFq ModelFr ModelOps ModelTower ModelCurve ModelPairing ModelHash ModelBls SrcAst SrcSem SrcCode SrcCall SrcTac.
Import ListNotations.
Open Scope Z_scope.
Local Open Scope string_scope.

Section S.
Context (sha : list Z -> list Z) (fuel : nat) {F : Type} (B : BOps F).
Notation V := (V F).
Notation res := ((list (nat * V) * list V -> outcome F) -> outcome F).

(** Signatures and keys are structs with one field; a secret key may hold nil. *)
Definition sigV2 (s : Proj (FQ2 F)) : V := VS "Signature" [("s", VP2 s)].
Definition sigV1 (s : Proj F) : V := VS "Signature" [("s", VP1 s)].
Definition pubV1 (p : Proj F) : V := VS "PublicKey" [("p", VP1 p)].
Definition pubV2 (p : Proj (FQ2 F)) : V := VS "PublicKey" [("p", VP2 p)].
Definition frV (k : option FR) : V := match k with Some x => VFR x | None => VN end.
Definition keyV (k : SecretKey) : V := VS "SecretKey" [("f", frV k)].
Definition pS2 (v : V) := match v with VS _ [(_, VP2 s)] => Some s | _ => None end.
Definition pS1 (v : V) := match v with VS _ [(_, VP1 s)] => Some s | _ => None end.
Definition pLB (v : V) := match v with VLB l => Some l | _ => None end.
Definition pLP1 (v : V) := match v with VLP1 _ _ l => Some l | _ => None end.
Definition pLP2 (v : V) := match v with VLP2 _ _ l => Some l | _ => None end.
(** a reader: nil fails, a number is what rand.Int makes of it *)
Definition pRd (v : V) := match v with VErr => Some None | VBig z => Some (Some z) | _ => None end.

(** Functions that the two packages call: hashing, pairings, FR, and the standard library. Pairing returns nil when FinalExponentiation does. *)
Definition t_lib : table := [
  ("HashG1", f1 pBy (fun m => orpanic VA1 (HashG1 sha B m)));
  ("HashG2", f1 pBy (fun m => orpanic VA2 (HashG2 sha B m)));
  ("HashG2WithDomain", f2 pBy pBy (fun m d => orpanic VP2 (HashG2WithDomain_fuel sha B fuel m d)));
  ("HashSecretKey", f1 pBy (fun b => ret_ornil VFR (HashSecretKey sha b)));
  ("Pairing", f2 pP1 pP2 (fun p q k =>
     match MillerLoop B [(G1_ToAffine (b_ops B) p, G2AffineToPrepared B (G2_ToAffine (FQ2O B) q))] with
     | Some f => ret_ornil V12 (FinalExponentiation B f) k
     | None => Panic
     end));
  ("CompareTwoPairings", f4 pP1 pP2 pP1 pP2 (fun p q r s => orpanic VB (CompareTwoPairings B p q r s)));
  ("FQ12.MulAssign", fun vs => match vs with
     | [V12 x; V12 y] => mut (V12 (FQ12_MulAssign B x y))
     | [V12 _; VN] => fun _ => Panic
     | _ => stuck
     end);
  ("FR.ToRepr", f1 pFR (fun x => ret (VRr (FR_ToRepr x))));
  ("FR.Bytes", f1 pFR (fun x => ret (VBy (FR_Bytes x))));
  ("FRReprToFR", f1 pRr (fun r => ret_ornil VFR (FRReprToFR r)));
  ("FRReprFromBytes", f1 pBy (fun b => ret (VRr (FRReprFromBytes b))));
  ("RandFR", f1 pRd (fun o k => match o with
     | Some z => match RandFR z with Some x => rets [VFR x; VN] k | None => rets [VN; VN] k end
     | None => rets [VN; VErr] k
     end));
  ("bytes.Compare", f2 pBy pBy (fun a b => ret (VI (bytes_Compare a b))));
  ("bytes.Equal", f2 pBy pBy (fun a b => ret (VB (bytes_Equal a b))));
  ("sort.Sort", f1 pLB (fun l => mut (VLB (sortByteArrays l))));
  ("sortByteArrays", f1 pLB (fun l => mutret (VLB (sortByteArrays l)) [VLB (sortByteArrays l)]))].
Definition t_g1pubs : table := ([
  ("Signature.Aggregate", f2 pS2 pS2 (fun s t => mut (sigV2 (g1pubs_Signature_Aggregate B s t))));
  ("PublicKey.Aggregate", f2 pS1 pS1 (fun s t => mut (pubV1 (g1pubs_PublicKey_Aggregate B s t))));
  ("AggregatePublicKeys", f1 pLP1 (fun l => ret (pubV1 (g1pubs_AggregatePublicKeys B l))));
  ("Verify", f3 pBy pS1 pS2 (fun m p s => orpanic VB (g1pubs_Verify sha B m p s)));
  ("VerifyWithDomain", f4 pBy pS1 pS2 pBy (fun m p s d => orpanic VB (g1pubs_VerifyWithDomain sha B fuel m p s d)))] ++ t_lib)%list.
Definition t_g2pubs : table := ([
  ("Signature.Aggregate", f2 pS1 pS1 (fun s t => mut (sigV1 (g2pubs_Signature_Aggregate B s t))));
  ("PublicKey.Aggregate", f2 pS2 pS2 (fun s t => mut (pubV2 (g2pubs_PublicKey_Aggregate B s t))));
  ("AggregatePublicKeys", f1 pLP2 (fun l => ret (pubV2 (g2pubs_AggregatePublicKeys B l))));
  ("Verify", f3 pBy pS2 pS1 (fun m p s => orpanic VB (g2pubs_Verify sha B m p s)))] ++ t_lib)%list.
Notation run1 := (runT B t_g1pubs).
Notation run2 := (runT B t_g2pubs).

Lemma compare_values a b : bytes_Compare a b = -1 \/ bytes_Compare a b = 0 \/ bytes_Compare a b = 1.
Proof. revert b. induction a as [|x a IH]; intros [|y b]; cbn [bytes_Compare]; auto. destruct (x <? y)%Z; auto. destruct (y <? x)%Z; auto. Qed.
'''
PK=r'''
(** ** @P@ *)
Lemma src_@P@_Signature_Serialize_ok n s : @run@ n src_@P@_Signature_Serialize [@sig@ s] = Done [@sig@ s] [VBy (@P@_Signature_Serialize B s)].
Proof. unfold @P@_Signature_Serialize. src. Qed.
Lemma src_@P@_Signature_GetPoint_ok n s : @run@ n src_@P@_Signature_GetPoint [@sig@ s] = Done [@sig@ s] [@VPs@ s].
Proof. src. Qed.
Lemma src_@P@_NewSignatureFromG@gs@_ok n p : @run@ n src_@P@_NewSignatureFromG@gs@ [VA@gs@ p] = Done [VA@gs@ p] [@sig@ (@P@_NewSignatureFromG@gs@ B p)].
Proof. unfold @P@_NewSignatureFromG@gs@. src. Qed.
Lemma src_@P@_DeserializeSignature_ok n b : @run@ n src_@P@_DeserializeSignature [VBy b] = Done [] (orerr @sig@ (@P@_DeserializeSignature B b)).
Proof. unfold @P@_DeserializeSignature. src. Qed.
Lemma src_@P@_Signature_Copy_ok n s : @run@ n src_@P@_Signature_Copy [@sig@ s] = Done [@sig@ s] [@sig@ s].
Proof. src. Qed.
Lemma src_@P@_PublicKey_GetPoint_ok n p : @run@ n src_@P@_PublicKey_GetPoint [@pub@ p] = Done [@pub@ p] [@VPp@ p].
Proof. src. Qed.
Lemma src_@P@_PublicKey_Serialize_ok n p : @run@ n src_@P@_PublicKey_Serialize [@pub@ p] = Done [] [VBy (@P@_PublicKey_Serialize B p)].
Proof. unfold @P@_PublicKey_Serialize. src. Qed.
Lemma src_@P@_NewPublicKeyFromG@gp@_ok n p : @run@ n src_@P@_NewPublicKeyFromG@gp@ [VA@gp@ p] = Done [VA@gp@ p] [@pub@ (@P@_NewPublicKeyFromG@gp@ B p)].
Proof. unfold @P@_NewPublicKeyFromG@gp@. src. Qed.
Lemma src_@P@_PublicKey_Equals_ok n p q : @run@ n src_@P@_PublicKey_Equals [@pub@ p; @pub@ q] = Done [] [VB (@P@_PublicKey_Equals B p q)].
Proof. unfold @P@_PublicKey_Equals. src. Qed.
Lemma src_@P@_DeserializePublicKey_ok n b : @run@ n src_@P@_DeserializePublicKey [VBy b] = Done [] (orerr @pub@ (@P@_DeserializePublicKey B b)).
Proof. unfold @P@_DeserializePublicKey. src. Qed.
Lemma src_@P@_SecretKey_GetFRElement_ok n k : @run@ n src_@P@_SecretKey_GetFRElement [keyV k] = Done [] [frV k].
Proof. destruct k; src. Qed.
Lemma src_@P@_SecretKey_Serialize_ok n k : @run@ n src_@P@_SecretKey_Serialize [keyV k] = match SecretKey_Serialize k with Some b => Done [] [VBy b] | None => Panic end.
Proof. unfold SecretKey_Serialize. destruct k; src. Qed.
Lemma src_@P@_DeserializeSecretKey_ok n b : @run@ n src_@P@_DeserializeSecretKey [VBy b] = Done [] [keyV (DeserializeSecretKey b)].
Proof. unfold DeserializeSecretKey. src. Qed.
Lemma src_@P@_DeriveSecretKey_ok n b : @run@ n src_@P@_DeriveSecretKey [VBy b] = Done [] [keyV (DeriveSecretKey sha b)].
Proof. unfold DeriveSecretKey. src. Qed.
Lemma src_@P@_Sign_ok n m k : @run@ n src_@P@_Sign [VBy m; keyV k] = match @P@_Sign sha B m k with Some s => Done [VBy m; keyV k] [@sig@ s] | None => Panic end.
Proof. unfold @P@_Sign. destruct k; src. Qed.
Lemma src_@P@_PrivToPub_ok n k : @run@ n src_@P@_PrivToPub [keyV k] = match @P@_PrivToPub B k with Some p => Done [keyV k] [@pub@ p] | None => Panic end.
Proof. unfold @P@_PrivToPub. destruct k; src. Qed.
Lemma src_@P@_RandKey_ok n r : @run@ n src_@P@_RandKey [match r with Some z => VBig z | None => VErr end] =
  Done [] (match r with Some z => [keyV (RandKey z); VN] | None => [VN; VErr] end).
Proof. unfold RandKey. destruct r; src. Qed.
Lemma src_@P@_KeyFromFQRepr_ok n r : @run@ n src_@P@_KeyFromFQRepr [VRr r] = Done [VRr r] [keyV (KeyFromFQRepr r)].
Proof. unfold KeyFromFQRepr. src. Qed.
Lemma src_@P@_Verify_ok n m p s : @run@ n src_@P@_Verify [VBy m; @pub@ p; @sig@ s] =
  match @P@_Verify sha B m p s with Some b => Done [VBy m; @pub@ p; @sig@ s] [VB b] | None => Panic end.
Proof. unfold @P@_Verify. src. Qed.
Lemma src_@P@_Signature_Aggregate_ok n s t : @run@ n src_@P@_Signature_Aggregate [@sig@ s; @sig@ t] = Done [@sig@ (@P@_Signature_Aggregate B s t); @sig@ t] [].
Proof. unfold @P@_Signature_Aggregate. src. Qed.
Lemma src_@P@_PublicKey_Aggregate_ok n s t : @run@ n src_@P@_PublicKey_Aggregate [@pub@ s; @pub@ t] = Done [@pub@ (@P@_PublicKey_Aggregate B s t); @pub@ t] [].
Proof. unfold @P@_PublicKey_Aggregate. src. Qed.
Lemma src_@P@_PublicKey_Copy_ok n p : @run@ n src_@P@_PublicKey_Copy [@pub@ p] = Done [@pub@ p] [@pub@ p].
Proof. src. Qed.
Lemma src_@P@_NewAggregateSignature_ok n : @run@ n src_@P@_NewAggregateSignature [] = Done [] [@sig@ (@P@_NewAggregateSignature B)].
Proof. unfold @P@_NewAggregateSignature. src. Qed.
Lemma src_@P@_NewAggregatePubkey_ok n : @run@ n src_@P@_NewAggregatePubkey [] = Done [] [@pub@ (@P@_NewAggregatePubkey B)].
Proof. unfold @P@_NewAggregatePubkey. src. Qed.
Lemma src_@P@_sortableByteArray_Len_ok n l : @run@ n src_@P@_sortableByteArray_Len [VLB l] = Done [VLB l] [VI (Z.of_nat (length l))].
Proof. src. Qed.
Lemma src_@P@_sortableByteArray_Less_ok n l i j : @run@ n src_@P@_sortableByteArray_Less [VLB l; VI i; VI j] =
  if inr i l then if inr j l then Done [VLB l] [VB (bytes_Compare (nth (Z.to_nat i) l []) (nth (Z.to_nat j) l []) =? -1)%Z] else Panic else Panic.
Proof.
  etransitivity; [src_cbvs; reflexivity|]. destruct (inr i l); [|reflexivity]. destruct (inr j l); [|reflexivity].
  destruct (compare_values (nth (Z.to_nat i) l []) (nth (Z.to_nat j) l [])) as [E|[E|E]]; rewrite E; reflexivity.
Qed.
'''
COMMON=r'''
Lemma src_@P@_Signature_VerifyAggregateCommon_ok n s l m : @run@ n src_@P@_Signature_VerifyAggregateCommon [@sig@ s; @VLPp@ "PublicKey" "p" l; VBy m] =
  match @P@_VerifyAggregateCommon sha B s l m with Some b => Done [@sig@ s; @VLPp@ "PublicKey" "p" l; VBy m] [VB b] | None => Panic end.
Proof. unfold @P@_VerifyAggregateCommon. src. Qed.
'''
DOM=r'''
Lemma src_g1pubs_SignWithDomain_ok n m k d : run1 n src_g1pubs_SignWithDomain [VBy m; keyV k; VBy d] =
  match g1pubs_SignWithDomain sha B fuel m k d with Some s => Done [keyV k] [sigV2 s] | None => Panic end.
Proof. unfold g1pubs_SignWithDomain. destruct k; src. Qed.
Lemma src_g1pubs_VerifyWithDomain_ok n m p s d : run1 n src_g1pubs_VerifyWithDomain [VBy m; pubV1 p; sigV2 s; VBy d] =
  match g1pubs_VerifyWithDomain sha B fuel m p s d with Some b => Done [pubV1 p; sigV2 s] [VB b] | None => Panic end.
Proof. unfold g1pubs_VerifyWithDomain. src. Qed.
Lemma src_g1pubs_Signature_VerifyAggregateCommonWithDomain_ok n s l m d :
  run1 n src_g1pubs_Signature_VerifyAggregateCommonWithDomain [sigV2 s; VLP1 "PublicKey" "p" l; VBy m; VBy d] =
  match g1pubs_VerifyAggregateCommonWithDomain sha B fuel s l m d with Some b => Done [sigV2 s; VLP1 "PublicKey" "p" l] [VB b] | None => Panic end.
Proof. unfold g1pubs_VerifyAggregateCommonWithDomain. src. Qed.
'''
def inst(t,d):
    for k,v in d.items(): t=t.replace('@'+k+'@',v)
    assert '@' not in t.replace('@eq','').replace('@nil',''),t[t.index('@')-40:t.index('@')+40]
    return t
D1=dict(P='g1pubs',run='run1',sig='sigV2',pub='pubV1',VPs='VP2',VPp='VP1',gs='2',gp='1',VLPp='VLP1',VLPs='VLP2',t='t_g1pubs',Os='(FQ2O B)',Op='(b_ops B)',other_s='',)
D2=dict(P='g2pubs',run='run2',sig='sigV1',pub='pubV2',VPs='VP1',VPp='VP2',gs='1',gp='2',VLPp='VLP2',VLPs='VLP1',t='t_g2pubs',Os='(b_ops B)',Op='(FQ2O B)',)
if __name__=='__main__':
    out=HEAD+inst(PK,D1)+inst(COMMON,D1)+DOM+inst(PK,D2)+inst(COMMON,D2)+'End S.\n'
    open('SrcBls.v','w').write(out)
