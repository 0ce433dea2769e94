from gen_srcbls import inst,D1,D2
HEAD=r'''(** The packages g1pubs and g2pubs, run from their source text: the functions that go through slices. *)
Require Import ZArith Bool String List Lia.
From Verif Require Import Words ModelRepr ModelFq ModelFr ModelOps ModelTower ModelCurve ModelPairing ModelHash ModelBls SrcAst SrcSem SrcCode SrcCall SrcTac SrcPairing3 SrcBls.
Import ListNotations.
Open Scope Z_scope.
Local Open Scope string_scope.

Lemma len_upd {A} (l : list A) n a : length (upd l n a) = length l.
Proof. revert n. induction l as [|x l IH]; intros [|n]; cbn [upd length]; auto. Qed.
Lemma inr_upd {A} i (l : list A) n a : inr i (upd l n a) = inr i l.
Proof. unfold inr. rewrite len_upd. reflexivity. Qed.
Lemma less_len {A} (l : list A) : less (Z.of_nat (length l)) 0 = false.
Proof. rewrite less_ltb. apply Z.ltb_ge. lia. Qed.
Lemma go_copy_full (l : list Z) : go_copy (mkbytes (Z.of_nat (length l))) l = l.
Proof.
  unfold go_copy, mkbytes. rewrite Nat2Z.id, repeat_length, Nat.min_id, firstn_all.
  assert (E : forall m, skipn m (repeat 0%Z m) = []) by (induction m; [reflexivity|assumption]).
  rewrite E. apply app_nil_r.
Qed.
Lemma len_eqb {A C} (l : list A) (m : list C) : (Z.of_nat (length l) =? Z.of_nat (length m))%Z = Nat.eqb (length l) (length m).
Proof. destruct (Nat.eqb_spec (length l) (length m)) as [->|H]; [apply Z.eqb_refl|apply Z.eqb_neq; lia]. Qed.
Definition range1 (j : nat) (f : func) : list stmt := match nth_error (f_body f) j with Some (SRange _ _ _ b) => b | _ => [] end.

Section S.
Context (sha : list Z -> list Z) (fuel : nat) {F : Type} (B : BOps F).
Notation V := (V F).
Notation run1 := (runT B (t_g1pubs sha fuel B)).
Notation run2 := (runT B (t_g2pubs sha fuel B)).
Notation execX t := (exec (limbsB B) (zeroF B) (glob B) (callT B t)).
'''
PK=r'''
(** ** @P@ *)
Lemma src_@P@_sortableByteArray_Swap_ok n l i j : @run@ n src_@P@_sortableByteArray_Swap [VLB l; VI i; VI j] =
  if inr i l then if inr j l then Done [VLB (upd (upd l (Z.to_nat j) (nth (Z.to_nat i) l [])) (Z.to_nat i) (nth (Z.to_nat j) l []))] [] else Panic else Panic.
Proof.
  etransitivity; [src_cbvs; reflexivity|]. destruct (inr i l) eqn:Ei; [|reflexivity]. destruct (inr j l) eqn:Ej; [|reflexivity].
  rewrite !inr_upd, Ei. reflexivity.
Qed.
(** the slice of the caller is the one that is returned *)
Lemma src_@P@_sortByteArrays_ok n l : @run@ n src_@P@_sortByteArrays [VLB l] = Done [VMoved] [VLB (sortByteArrays l)].
Proof. src. Qed.

Definition @P@_cat_env (ls : list (list Z)) l : list (string * V) := [("tmp", VBy l); ("slices", VLB ls)].
Lemma @P@_cat_turn LOOP RANGE ls l m K kr kb kc :
  execX @t@ LOOP RANGE depth (range1 1 src_@P@_concatAppend) [[]; [("s", VBy m)]; @P@_cat_env ls l] K kr kb kc = K [[]; [("s", VBy m)]; @P@_cat_env ls (l ++ m)%list].
Proof. etransitivity; [src_cbvs; reflexivity|]. reflexivity. Qed.
Lemma @P@_cat_range n ls : forall ms i l kn kr,
  rangeT B @t@ (S n) "_" "s" i (map VBy ms) (range1 1 src_@P@_concatAppend) [@P@_cat_env ls l] kn kr = kn [@P@_cat_env ls (l ++ concat ms)%list].
Proof.
  induction ms as [|m ms IH]; intros i l kn kr; cbn [map concat].
  - rewrite rangeT_nil, app_nil_r. reflexivity.
  - rewrite rangeT_cons. refine (eq_trans (@P@_cat_turn _ _ ls l m _ kr _ _) _). cbn [pop]. rewrite IH, app_assoc. reflexivity.
Qed.
Lemma src_@P@_concatAppend_ok n ls : @run@ (S n) src_@P@_concatAppend [VLB ls] = Done [VLB ls] [VBy (concat ls)].
Proof. to_exec. step. step_range (@P@_cat_range n ls ls 0 []). reflexivity. Qed.

Definition @P@_sum_env ls (s : Proj @Fs@) : list (string * V) := [("newSig", @sig@ s); ("s", @VLPs@ "Signature" "s" ls)].
Lemma @P@_sum_turn LOOP RANGE ls s m K kr kb kc :
  execX @t@ LOOP RANGE depth (range1 1 src_@P@_AggregateSignatures) [[]; [("sig", @sig@ m)]; @P@_sum_env ls s] K kr kb kc =
  K [[]; [("sig", @sig@ m)]; @P@_sum_env ls (@P@_Signature_Aggregate B s m)].
Proof. etransitivity; [src_cbvs; reflexivity|]. reflexivity. Qed.
Lemma @P@_sum_range n ls : forall ms i s kn kr,
  rangeT B @t@ (S n) "_" "sig" i (map @sig@ ms) (range1 1 src_@P@_AggregateSignatures) [@P@_sum_env ls s] kn kr =
  kn [@P@_sum_env ls (fold_left (@P@_Signature_Aggregate B) ms s)].
Proof.
  induction ms as [|m ms IH]; intros i s kn kr; cbn [map fold_left].
  - apply rangeT_nil.
  - rewrite rangeT_cons. refine (eq_trans (@P@_sum_turn _ _ ls s m _ kr _ _) _). cbn [pop]. apply IH.
Qed.
Lemma src_@P@_AggregateSignatures_ok n ls : @run@ (S n) src_@P@_AggregateSignatures [@VLPs@ "Signature" "s" ls] =
  Done [@VLPs@ "Signature" "s" ls] [@sig@ (@P@_AggregateSignatures B ls)].
Proof. to_exec. step. step_range (@P@_sum_range n ls ls 0 (ProjectiveZero @Os@)). reflexivity. Qed.

Definition @P@_sumk_env ls (s : Proj @Fp@) : list (string * V) := [("newPub", @pub@ s); ("p", @VLPp@ "PublicKey" "p" ls)].
Lemma @P@_sumk_turn LOOP RANGE ls s m K kr kb kc :
  execX @t@ LOOP RANGE depth (range1 1 src_@P@_AggregatePublicKeys) [[]; [("pub", @pub@ m)]; @P@_sumk_env ls s] K kr kb kc =
  K [[]; [("pub", @pub@ m)]; @P@_sumk_env ls (@P@_PublicKey_Aggregate B s m)].
Proof. etransitivity; [src_cbvs; reflexivity|]. reflexivity. Qed.
Lemma @P@_sumk_range n ls : forall ms i s kn kr,
  rangeT B @t@ (S n) "_" "pub" i (map @pub@ ms) (range1 1 src_@P@_AggregatePublicKeys) [@P@_sumk_env ls s] kn kr =
  kn [@P@_sumk_env ls (fold_left (@P@_PublicKey_Aggregate B) ms s)].
Proof.
  induction ms as [|m ms IH]; intros i s kn kr; cbn [map fold_left].
  - apply rangeT_nil.
  - rewrite rangeT_cons. refine (eq_trans (@P@_sumk_turn _ _ ls s m _ kr _ _) _). cbn [pop]. apply IH.
Qed.
Lemma src_@P@_AggregatePublicKeys_ok n ls : @run@ (S n) src_@P@_AggregatePublicKeys [@VLPp@ "PublicKey" "p" ls] =
  Done [@VLPp@ "PublicKey" "p" ls] [@pub@ (@P@_AggregatePublicKeys B ls)].
Proof. to_exec. step. step_range (@P@_sumk_range n ls ls 0 (ProjectiveZero @Op@)). reflexivity. Qed.
'''
VA=r'''
(** VerifyAggregate of @P@: the copies *)
Notation @P@_arg s ks ms := [("s", @sig@ s); ("pubKeys", @VLPp@ "PublicKey" "p" ks); ("msgs", VLB ms)].
Lemma @P@_copy_turn LOOP RANGE s ks ms cs i m K kr kb kc :
  execX @t@ LOOP RANGE depth (range1 2 src_@P@_Signature_VerifyAggregate) [[]; [("i", VI i); ("m", VBy m)]; ("msgsCopy", VLB cs) :: @P@_arg s ks ms] K kr kb kc =
  if inr i cs then K [[]; [("i", VI i); ("m", VBy m)]; ("msgsCopy", VLB (upd (upd cs (Z.to_nat i) (mkbytes (Z.of_nat (length m)))) (Z.to_nat i)
    (go_copy (nth (Z.to_nat i) (upd cs (Z.to_nat i) (mkbytes (Z.of_nat (length m)))) []) m))) :: @P@_arg s ks ms] else Panic.
Proof.
  etransitivity; [src_cbvs; reflexivity|]. rewrite ?less_len.
  destruct (inr i cs) eqn:Ei; [|reflexivity]. rewrite !inr_upd, Ei. reflexivity.
Qed.
Lemma @P@_copy_range n s ks ms : forall l dn kn kr,
  rangeT B @t@ (S n) "i" "m" (Z.of_nat (length dn)) (map VBy l) (range1 2 src_@P@_Signature_VerifyAggregate)
    [("msgsCopy", VLB (dn ++ repeat [] (length l))%list) :: @P@_arg s ks ms] kn kr =
  kn [("msgsCopy", VLB (dn ++ l)%list) :: @P@_arg s ks ms].
Proof.
  induction l as [|m l IH]; intros dn kn kr; cbn [map length repeat].
  - apply rangeT_nil.
  - rewrite rangeT_cons. refine (eq_trans (@P@_copy_turn _ _ s ks ms _ _ m _ kr _ _) _).
    rewrite inr_mid, upd_mid, nth_mid, upd_mid, go_copy_full. cbn [pop].
    specialize (IH (dn ++ [m])%list kn kr). rewrite <- !app_assoc in IH. cbn [app] in IH.
    replace (Z.of_nat (length (dn ++ [m]))) with (Z.of_nat (length dn) + 1) in IH by (rewrite app_length; cbn [length]; lia). exact IH.
Qed.
(** the search for duplicates *)
Notation @P@_dup_env s ks ms cs ss last := (("lastMsg", VBy last) :: ("msgsSorted", VLB ss) :: ("msgsCopy", VLB cs) :: @P@_arg s ks ms).
Lemma @P@_dup_turn LOOP RANGE s ks ms cs ss last m K kr kb kc :
  execX @t@ LOOP RANGE depth (range1 5 src_@P@_Signature_VerifyAggregate) [[]; [("m", VBy m)]; @P@_dup_env s ks ms cs ss last] K kr kb kc =
  if bytes_Equal m last then kr [VB false] [[]; []; []; [("m", VBy m)]; @P@_dup_env s ks ms cs ss last]
  else K [[]; [("m", VBy m)]; @P@_dup_env s ks ms cs ss m].
Proof. etransitivity; [src_cbvs; reflexivity|]. destruct (bytes_Equal m last); reflexivity. Qed.
Fixpoint @P@_dup_stop s ks ms cs ss last l : list (list (string * V)) :=
  match l with
  | [] => []
  | m :: r => if bytes_Equal m last then [[]; []; []; [("m", VBy m)]; @P@_dup_env s ks ms cs ss last] else @P@_dup_stop s ks ms cs ss m r
  end.
Lemma @P@_dup_stop_ok s ks ms cs ss l : forall last, has_duplicate last l = true ->
  exists m last', @P@_dup_stop s ks ms cs ss last l = [[]; []; []; [("m", VBy m)]; @P@_dup_env s ks ms cs ss last'].
Proof.
  induction l as [|m l IH]; intros last H; cbn [has_duplicate @P@_dup_stop] in *; [discriminate|].
  destruct (bytes_Equal m last); [exists m, last; reflexivity|exact (IH m H)].
Qed.
Lemma @P@_dup_range n s ks ms cs ss : forall l i last kn kr,
  rangeT B @t@ (S n) "_" "m" i (map VBy l) (range1 5 src_@P@_Signature_VerifyAggregate) [@P@_dup_env s ks ms cs ss last] kn kr =
    if has_duplicate last l then kr [VB false] (@P@_dup_stop s ks ms cs ss last l) else kn [@P@_dup_env s ks ms cs ss (fold_left (fun _ m => m) l last)].
Proof.
  induction l as [|m l IH]; intros i last kn kr; cbn [map has_duplicate @P@_dup_stop fold_left].
  - apply rangeT_nil.
  - rewrite rangeT_cons. refine (eq_trans (@P@_dup_turn _ _ s ks ms cs ss last m _ kr _ _) _).
    destruct (bytes_Equal m last); [reflexivity|]. apply IH.
Qed.
'''
PROD=r'''
(** the product of the pairings in @N@ *)
Lemma @P@_@T@_turn LOOP RANGE s ks ms @vars@ lhs rhs i K kr kb kc :
  execX @t@ LOOP RANGE depth (range1 @j@ src_@P@_Signature_@N@) [[]; [("i", VI i)]; ("rhs", V12 rhs) :: ("lhs", lhs) :: @env@] K kr kb kc =
  if inr i ms then
    match @hash@ (nth (Z.to_nat i) ms []) @d@ with
    | None => Panic
    | Some h => if inr i ks then
        match Pairing B @pargs@ with
        | None => Panic
        | Some e => K [[("h", @Vh@ h)]; [("i", VI i)]; ("rhs", V12 (FQ12_MulAssign B rhs e)) :: ("lhs", lhs) :: @env@]
        end
        else Panic
    end
  else Panic.
Proof.
  unfold Pairing. etransitivity; [src_cbvs; reflexivity|]. destruct (inr i ms); [|reflexivity].
  match goal with |- _ = match ?h with _ => _ end => destruct h; [|reflexivity] end.
  destruct (inr i ks); [|reflexivity]. unfold zeroF.
  match goal with |- _ = match (match ?m with _ => _ end) with _ => _ end => destruct m as [f|]; [|reflexivity] end.
  destruct (FinalExponentiation B f); reflexivity.
Qed.
Lemma @P@_@T@_range n s ks ms @vars@ lhs : forall lk lm dk dm rhs kn kr, ks = (dk ++ lk)%list -> ms = (dm ++ lm)%list -> length dk = length dm -> length lk = length lm ->
  rangeT B @t@ (S n) "i" "_" (Z.of_nat (length dk)) (map @pub@ lk) (range1 @j@ src_@P@_Signature_@N@) [("rhs", V12 rhs) :: ("lhs", lhs) :: @env@] kn kr =
  match @prod@ rhs (combine lk lm) with None => Panic | Some r => kn [("rhs", V12 r) :: ("lhs", lhs) :: @env@] end.
Proof.
  induction lk as [|k lk IH]; intros [|m lm] dk dm rhs kn kr Hk Hm Hd Hl; try discriminate Hl; cbn [map combine].
  - apply rangeT_nil.
  - rewrite rangeT_cons. refine (eq_trans (@P@_@T@_turn _ _ s ks ms @vars@ lhs rhs _ _ kr _ _) _).
    assert (E1 : inr (Z.of_nat (length dk)) ms = true) by (rewrite Hm, Hd; apply inr_mid).
    assert (E2 : nth (Z.to_nat (Z.of_nat (length dk))) ms [] = m) by (rewrite Hm, Hd; apply nth_mid).
    assert (E3 : inr (Z.of_nat (length dk)) ks = true) by (rewrite Hk; apply inr_mid).
    assert (E4 : forall df, nth (Z.to_nat (Z.of_nat (length dk))) ks df = k) by (intros df; rewrite Hk; apply nth_mid).
    rewrite E1, E2, E3, E4. cbn [@prodname@].
    match goal with |- match ?h with _ => _ end = _ => destruct h as [h0|]; [|reflexivity] end.
    match goal with |- match ?h with _ => _ end = _ => destruct h as [e|]; [|reflexivity] end.
    cbn [pop].
    specialize (IH lm (dk ++ [k])%list (dm ++ [m])%list (FQ12_MulAssign B rhs e) kn kr).
    replace (Z.of_nat (length (dk ++ [k]))) with (Z.of_nat (length dk) + 1)%Z in IH by (rewrite app_length; cbn [length]; lia).
    apply IH; [rewrite <- app_assoc; exact Hk|rewrite <- app_assoc; exact Hm|rewrite !app_length; cbn [length]; lia|injection Hl; auto].
Qed.
'''
MAIN=r'''
Lemma src_@P@_Signature_VerifyAggregate_ok n s ks ms : @run@ (S n) src_@P@_Signature_VerifyAggregate [@sig@ s; @VLPp@ "PublicKey" "p" ks; VLB ms] =
  match @P@_VerifyAggregate sha B s ks ms with Some b => Done [@sig@ s; @VLPp@ "PublicKey" "p" ks; VLB ms] [VB b] | None => Panic end.
Proof.
  unfold @P@_VerifyAggregate.
  to_exec. step_open K HK. etransitivity; [src_cbvs; reflexivity|]. rewrite len_eqb.
  destruct (Nat.eqb (length ks) (length ms)) eqn:El; cbn [negb]; [|reflexivity]. apply Nat.eqb_eq in El.
  step_close K HK.
  step_open K HK. etransitivity; [src_cbvs; reflexivity|]. rewrite less_len. step_close K HK.
  replace (mkslices (Z.of_nat (length ms))) with (repeat (@nil Z) (length ms)) by (unfold mkslices; rewrite Nat2Z.id; reflexivity).
  step_range (@P@_copy_range n s ks ms ms []). cbn [app].
  step. step.
  step_range (@P@_dup_range n s ks ms (sortByteArrays ms) (sortByteArrays ms) (sortByteArrays ms) 0 []).
  destruct (has_duplicate [] (sortByteArrays ms)) eqn:Ed.
  { destruct (@P@_dup_stop_ok s ks ms (sortByteArrays ms) (sortByteArrays ms) _ _ Ed) as (m & last & ->). reflexivity. }
  generalize (fold_left (fun _ m : list Z => m) (sortByteArrays ms) []) as last. intros last.
  step_open K HK. etransitivity; [src_cbvs; reflexivity|]. unfold Pairing.
  match goal with |- match ?m with _ => _ end = _ => destruct m as [f|]; [|reflexivity] end.
  assert (Hp : forall o, K [("lhs", match o with Some l => V12 l | None => VN end) :: @P@_dup_env s ks ms (sortByteArrays ms) (sortByteArrays ms) last] =
    match @prod@ (FQ12One B) (combine ks ms) with
    | None => Panic
    | Some r => match o with Some l => Done [@sig@ s; @VLPp@ "PublicKey" "p" ks; VLB ms] [VB (FQ12_Equals B l r)] | None => Panic end
    end).
  { intros o. set (lhs := match o with Some l => V12 l | None => VN end). rewrite HK. clear K HK. cbv beta. step.
    step_range (fun kn kr => @P@_prod_range n s ks ms (sortByteArrays ms) (sortByteArrays ms) last lhs ks ms [] [] (FQ12One B) kn kr eq_refl eq_refl eq_refl El).
    destruct (@prod@ (FQ12One B) (combine ks ms)); [|reflexivity]. subst lhs. destruct o; reflexivity. }
  destruct (FinalExponentiation B f) as [l|]; [refine (eq_trans (Hp (Some l)) _)|refine (eq_trans (Hp None) _)]; destruct (@prod@ (FQ12One B) (combine ks ms)); reflexivity.
Qed.
'''
MAIND=r'''
Lemma src_g1pubs_Signature_VerifyAggregateWithDomain_ok n s ks ms d : run1 (S n) src_g1pubs_Signature_VerifyAggregateWithDomain [sigV2 s; VLP1 "PublicKey" "p" ks; VLB ms; VBy d] =
  match g1pubs_VerifyAggregateWithDomain sha B fuel s ks ms d with Some b => Done [sigV2 s; VLP1 "PublicKey" "p" ks; VLB ms] [VB b] | None => Panic end.
Proof.
  unfold g1pubs_VerifyAggregateWithDomain.
  to_exec. step_open K HK. etransitivity; [src_cbvs; reflexivity|]. rewrite len_eqb.
  destruct (Nat.eqb (length ks) (length ms)) eqn:El; cbn [negb]; [|reflexivity]. apply Nat.eqb_eq in El.
  step_close K HK.
  step_open K HK. etransitivity; [src_cbvs; reflexivity|]. unfold Pairing.
  match goal with |- match ?m with _ => _ end = _ => destruct m as [f|]; [|reflexivity] end.
  assert (Hp : forall o, K [("lhs", match o with Some l => V12 l | None => VN end) :: g1pubs_argd s ks ms d] =
    match g1pubs_pairing_product_domain sha B fuel d (FQ12One B) (combine ks ms) with
    | None => Panic
    | Some r => match o with Some l => Done [sigV2 s; VLP1 "PublicKey" "p" ks; VLB ms] [VB (FQ12_Equals B l r)] | None => Panic end
    end).
  { intros o. set (lhs := match o with Some l => V12 l | None => VN end). rewrite HK. clear K HK. cbv beta. step.
    step_range (fun kn kr => g1pubs_prodd_range n s ks ms d lhs ks ms [] [] (FQ12One B) kn kr eq_refl eq_refl eq_refl El).
    destruct (g1pubs_pairing_product_domain sha B fuel d (FQ12One B) (combine ks ms)); [|reflexivity]. subst lhs. destruct o; reflexivity. }
  destruct (FinalExponentiation B f) as [l|]; [refine (eq_trans (Hp (Some l)) _)|refine (eq_trans (Hp None) _)]; destruct (g1pubs_pairing_product_domain sha B fuel d (FQ12One B) (combine ks ms)); reflexivity.
Qed.
'''
DOMN='''Notation g1pubs_argd s ks ms d := [("s", sigV2 s); ("pubKeys", VLP1 "PublicKey" "p" ks); ("msgs", VLB ms); ("domain", VBy d)].
'''
PS=[(D1,'VerifyAggregate','prod',dict(j='8',vars='cs ss last',env='g1pubs_dup_env s ks ms cs ss last',hash='HashG2 sha B',d='',Vh='VA2',prod='g1pubs_pairing_product sha B',prodname='g1pubs_pairing_product',
   pargs='(nth (Z.to_nat i) ks (mkProj (zeroF B) (zeroF B) (zeroF B))) (Affine_ToProjective (FQ2O B) h)')),
 (D1,'VerifyAggregateWithDomain','prodd',dict(j='3',vars='d',env='g1pubs_argd s ks ms d',hash='HashG2WithDomain_fuel sha B fuel',d='d',Vh='VP2',prod='g1pubs_pairing_product_domain sha B fuel d',prodname='g1pubs_pairing_product_domain',
   pargs='(nth (Z.to_nat i) ks (mkProj (zeroF B) (zeroF B) (zeroF B))) (Affine_ToProjective (FQ2O B) (G2_ToAffine (FQ2O B) h))')),
 (D2,'VerifyAggregate','prod',dict(j='8',vars='cs ss last',env='g2pubs_dup_env s ks ms cs ss last',hash='HashG1 sha B',d='',Vh='VA1',prod='g2pubs_pairing_product sha B',prodname='g2pubs_pairing_product',
   pargs='(Affine_ToProjective (b_ops B) h) (nth (Z.to_nat i) ks (mkProj (mkFQ2 (zeroF B) (zeroF B)) (mkFQ2 (zeroF B) (zeroF B)) (mkFQ2 (zeroF B) (zeroF B))))'))]
def prod(k):
    D,N,T,x=PS[k]; d=dict(D); d.update(x); d.update(N=N,T=T); return inst(PROD,d)+(inst(MAIN,d) if T=='prod' else MAIND)
D1.update(Fs='(FQ2 F)',Fp='F',t='(t_g1pubs sha fuel B)'); D2.update(Fs='F',Fp='(FQ2 F)',t='(t_g2pubs sha fuel B)')
if __name__=='__main__':
    out=HEAD+inst(PK,D1)+inst(VA,D1)+prod(0)+DOMN+prod(1)+inst(PK,D2)+inst(VA,D2)+prod(2)+'End S.\n'
    open('SrcBls2.v','w').write(out)
