(** The packages g1pubs and g2pubs, run from their source text: the functions that go through slices. *)
Require Import ZArith Bool String List Lia.
From Verif Require Import Words ModelRepr ModelFq ModelFr ModelOps ModelTower ModelCurve ModelPairing ModelHash ModelBls SrcAst SrcSem SrcCode SrcCall SrcTac SrcPairing3 SrcBls.
Import ListNotations.
Open Scope Z_scope.
Local Open Scope string_scope.

Lemma len_upd {A} (l : list A) n a : length (upd l n a) = length l.
Proof. revert n. induction l as [|x l IH]; intros [|n]; cbn [upd length]; auto. Qed.
Lemma inr_upd {A} i (l : list A) n a : inr i (upd l n a) = inr i l.
Proof. unfold inr. rewrite len_upd. reflexivity. Qed.
Lemma less_len {A} (l : list A) : less (Z.of_nat (length l)) 0 = false.
Proof. rewrite less_ltb. apply Z.ltb_ge. lia. Qed.
Lemma go_copy_full (l : list Z) : go_copy (mkbytes (Z.of_nat (length l))) l = l.
Proof.
  unfold go_copy, mkbytes. rewrite Nat2Z.id, repeat_length, Nat.min_id, firstn_all.
  assert (E : forall m, skipn m (repeat 0%Z m) = []) by (induction m; [reflexivity|assumption]).
  rewrite E. apply app_nil_r.
Qed.
Lemma len_eqb {A C} (l : list A) (m : list C) : (Z.of_nat (length l) =? Z.of_nat (length m))%Z = Nat.eqb (length l) (length m).
Proof. destruct (Nat.eqb_spec (length l) (length m)) as [->|H]; [apply Z.eqb_refl|apply Z.eqb_neq; lia]. Qed.
Definition range1 (j : nat) (f : func) : list stmt := match nth_error (f_body f) j with Some (SRange _ _ _ b) => b | _ => [] end.

Section S.
Context (sha : list Z -> list Z) (fuel : nat) {F : Type} (B : BOps F).
Notation V := (V F).
Notation run1 := (runT B (t_g1pubs sha fuel B)).
Notation run2 := (runT B (t_g2pubs sha fuel B)).
Notation execX t := (exec (limbsB B) (zeroF B) (glob B) (callT B t)).

(** ** g1pubs *)
Lemma src_g1pubs_sortableByteArray_Swap_ok n l i j : run1 n src_g1pubs_sortableByteArray_Swap [VLB l; VI i; VI j] =
  if inr i l then if inr j l then Done [VLB (upd (upd l (Z.to_nat j) (nth (Z.to_nat i) l [])) (Z.to_nat i) (nth (Z.to_nat j) l []))] [] else Panic else Panic.
Proof.
  etransitivity; [src_cbvs; reflexivity|]. destruct (inr i l) eqn:Ei; [|reflexivity]. destruct (inr j l) eqn:Ej; [|reflexivity].
  rewrite !inr_upd, Ei. reflexivity.
Qed.
(** the slice of the caller is the one that is returned *)
Lemma src_g1pubs_sortByteArrays_ok n l : run1 n src_g1pubs_sortByteArrays [VLB l] = Done [VMoved] [VLB (sortByteArrays l)].
Proof. src. Qed.

Definition g1pubs_cat_env (ls : list (list Z)) l : list (string * V) := [("tmp", VBy l); ("slices", VLB ls)].
Lemma g1pubs_cat_turn LOOP RANGE ls l m K kr kb kc :
  execX (t_g1pubs sha fuel B) LOOP RANGE depth (range1 1 src_g1pubs_concatAppend) [[]; [("s", VBy m)]; g1pubs_cat_env ls l] K kr kb kc = K [[]; [("s", VBy m)]; g1pubs_cat_env ls (l ++ m)%list].
Proof. etransitivity; [src_cbvs; reflexivity|]. reflexivity. Qed.
Lemma g1pubs_cat_range n ls : forall ms i l kn kr,
  rangeT B (t_g1pubs sha fuel B) (S n) "_" "s" i (map VBy ms) (range1 1 src_g1pubs_concatAppend) [g1pubs_cat_env ls l] kn kr = kn [g1pubs_cat_env ls (l ++ concat ms)%list].
Proof.
  induction ms as [|m ms IH]; intros i l kn kr; cbn [map concat].
  - rewrite rangeT_nil, app_nil_r. reflexivity.
  - rewrite rangeT_cons. refine (eq_trans (g1pubs_cat_turn _ _ ls l m _ kr _ _) _). cbn [pop]. rewrite IH, app_assoc. reflexivity.
Qed.
Lemma src_g1pubs_concatAppend_ok n ls : run1 (S n) src_g1pubs_concatAppend [VLB ls] = Done [VLB ls] [VBy (concat ls)].
Proof. to_exec. step. step_range (g1pubs_cat_range n ls ls 0 []). reflexivity. Qed.

Definition g1pubs_sum_env ls (s : Proj (FQ2 F)) : list (string * V) := [("newSig", sigV2 s); ("s", VLP2 "Signature" "s" ls)].
Lemma g1pubs_sum_turn LOOP RANGE ls s m K kr kb kc :
  execX (t_g1pubs sha fuel B) LOOP RANGE depth (range1 1 src_g1pubs_AggregateSignatures) [[]; [("sig", sigV2 m)]; g1pubs_sum_env ls s] K kr kb kc =
  K [[]; [("sig", sigV2 m)]; g1pubs_sum_env ls (g1pubs_Signature_Aggregate B s m)].
Proof. etransitivity; [src_cbvs; reflexivity|]. reflexivity. Qed.
Lemma g1pubs_sum_range n ls : forall ms i s kn kr,
  rangeT B (t_g1pubs sha fuel B) (S n) "_" "sig" i (map sigV2 ms) (range1 1 src_g1pubs_AggregateSignatures) [g1pubs_sum_env ls s] kn kr =
  kn [g1pubs_sum_env ls (fold_left (g1pubs_Signature_Aggregate B) ms s)].
Proof.
  induction ms as [|m ms IH]; intros i s kn kr; cbn [map fold_left].
  - apply rangeT_nil.
  - rewrite rangeT_cons. refine (eq_trans (g1pubs_sum_turn _ _ ls s m _ kr _ _) _). cbn [pop]. apply IH.
Qed.
Lemma src_g1pubs_AggregateSignatures_ok n ls : run1 (S n) src_g1pubs_AggregateSignatures [VLP2 "Signature" "s" ls] =
  Done [VLP2 "Signature" "s" ls] [sigV2 (g1pubs_AggregateSignatures B ls)].
Proof. to_exec. step. step_range (g1pubs_sum_range n ls ls 0 (ProjectiveZero (FQ2O B))). reflexivity. Qed.

Definition g1pubs_sumk_env ls (s : Proj F) : list (string * V) := [("newPub", pubV1 s); ("p", VLP1 "PublicKey" "p" ls)].
Lemma g1pubs_sumk_turn LOOP RANGE ls s m K kr kb kc :
  execX (t_g1pubs sha fuel B) LOOP RANGE depth (range1 1 src_g1pubs_AggregatePublicKeys) [[]; [("pub", pubV1 m)]; g1pubs_sumk_env ls s] K kr kb kc =
  K [[]; [("pub", pubV1 m)]; g1pubs_sumk_env ls (g1pubs_PublicKey_Aggregate B s m)].
Proof. etransitivity; [src_cbvs; reflexivity|]. reflexivity. Qed.
Lemma g1pubs_sumk_range n ls : forall ms i s kn kr,
  rangeT B (t_g1pubs sha fuel B) (S n) "_" "pub" i (map pubV1 ms) (range1 1 src_g1pubs_AggregatePublicKeys) [g1pubs_sumk_env ls s] kn kr =
  kn [g1pubs_sumk_env ls (fold_left (g1pubs_PublicKey_Aggregate B) ms s)].
Proof.
  induction ms as [|m ms IH]; intros i s kn kr; cbn [map fold_left].
  - apply rangeT_nil.
  - rewrite rangeT_cons. refine (eq_trans (g1pubs_sumk_turn _ _ ls s m _ kr _ _) _). cbn [pop]. apply IH.
Qed.
Lemma src_g1pubs_AggregatePublicKeys_ok n ls : run1 (S n) src_g1pubs_AggregatePublicKeys [VLP1 "PublicKey" "p" ls] =
  Done [VLP1 "PublicKey" "p" ls] [pubV1 (g1pubs_AggregatePublicKeys B ls)].
Proof. to_exec. step. step_range (g1pubs_sumk_range n ls ls 0 (ProjectiveZero (b_ops B))). reflexivity. Qed.

(** VerifyAggregate of g1pubs: the copies *)
Notation g1pubs_arg s ks ms := [("s", sigV2 s); ("pubKeys", VLP1 "PublicKey" "p" ks); ("msgs", VLB ms)].
Lemma g1pubs_copy_turn LOOP RANGE s ks ms cs i m K kr kb kc :
  execX (t_g1pubs sha fuel B) LOOP RANGE depth (range1 2 src_g1pubs_Signature_VerifyAggregate) [[]; [("i", VI i); ("m", VBy m)]; ("msgsCopy", VLB cs) :: g1pubs_arg s ks ms] K kr kb kc =
  if inr i cs then K [[]; [("i", VI i); ("m", VBy m)]; ("msgsCopy", VLB (upd (upd cs (Z.to_nat i) (mkbytes (Z.of_nat (length m)))) (Z.to_nat i)
    (go_copy (nth (Z.to_nat i) (upd cs (Z.to_nat i) (mkbytes (Z.of_nat (length m)))) []) m))) :: g1pubs_arg s ks ms] else Panic.
Proof.
  etransitivity; [src_cbvs; reflexivity|]. rewrite ?less_len.
  destruct (inr i cs) eqn:Ei; [|reflexivity]. rewrite !inr_upd, Ei. reflexivity.
Qed.
Lemma g1pubs_copy_range n s ks ms : forall l dn kn kr,
  rangeT B (t_g1pubs sha fuel B) (S n) "i" "m" (Z.of_nat (length dn)) (map VBy l) (range1 2 src_g1pubs_Signature_VerifyAggregate)
    [("msgsCopy", VLB (dn ++ repeat [] (length l))%list) :: g1pubs_arg s ks ms] kn kr =
  kn [("msgsCopy", VLB (dn ++ l)%list) :: g1pubs_arg s ks ms].
Proof.
  induction l as [|m l IH]; intros dn kn kr; cbn [map length repeat].
  - apply rangeT_nil.
  - rewrite rangeT_cons. refine (eq_trans (g1pubs_copy_turn _ _ s ks ms _ _ m _ kr _ _) _).
    rewrite inr_mid, upd_mid, nth_mid, upd_mid, go_copy_full. cbn [pop].
    specialize (IH (dn ++ [m])%list kn kr). rewrite <- !app_assoc in IH. cbn [app] in IH.
    replace (Z.of_nat (length (dn ++ [m]))) with (Z.of_nat (length dn) + 1) in IH by (rewrite app_length; cbn [length]; lia). exact IH.
Qed.
(** the search for duplicates *)
Notation g1pubs_dup_env s ks ms cs ss last := (("lastMsg", VBy last) :: ("msgsSorted", VLB ss) :: ("msgsCopy", VLB cs) :: g1pubs_arg s ks ms).
Lemma g1pubs_dup_turn LOOP RANGE s ks ms cs ss last m K kr kb kc :
  execX (t_g1pubs sha fuel B) LOOP RANGE depth (range1 5 src_g1pubs_Signature_VerifyAggregate) [[]; [("m", VBy m)]; g1pubs_dup_env s ks ms cs ss last] K kr kb kc =
  if bytes_Equal m last then kr [VB false] [[]; []; []; [("m", VBy m)]; g1pubs_dup_env s ks ms cs ss last]
  else K [[]; [("m", VBy m)]; g1pubs_dup_env s ks ms cs ss m].
Proof. etransitivity; [src_cbvs; reflexivity|]. destruct (bytes_Equal m last); reflexivity. Qed.
Fixpoint g1pubs_dup_stop s ks ms cs ss last l : list (list (string * V)) :=
  match l with
  | [] => []
  | m :: r => if bytes_Equal m last then [[]; []; []; [("m", VBy m)]; g1pubs_dup_env s ks ms cs ss last] else g1pubs_dup_stop s ks ms cs ss m r
  end.
Lemma g1pubs_dup_stop_ok s ks ms cs ss l : forall last, has_duplicate last l = true ->
  exists m last', g1pubs_dup_stop s ks ms cs ss last l = [[]; []; []; [("m", VBy m)]; g1pubs_dup_env s ks ms cs ss last'].
Proof.
  induction l as [|m l IH]; intros last H; cbn [has_duplicate g1pubs_dup_stop] in *; [discriminate|].
  destruct (bytes_Equal m last); [exists m, last; reflexivity|exact (IH m H)].
Qed.
Lemma g1pubs_dup_range n s ks ms cs ss : forall l i last kn kr,
  rangeT B (t_g1pubs sha fuel B) (S n) "_" "m" i (map VBy l) (range1 5 src_g1pubs_Signature_VerifyAggregate) [g1pubs_dup_env s ks ms cs ss last] kn kr =
    if has_duplicate last l then kr [VB false] (g1pubs_dup_stop s ks ms cs ss last l) else kn [g1pubs_dup_env s ks ms cs ss (fold_left (fun _ m => m) l last)].
Proof.
  induction l as [|m l IH]; intros i last kn kr; cbn [map has_duplicate g1pubs_dup_stop fold_left].
  - apply rangeT_nil.
  - rewrite rangeT_cons. refine (eq_trans (g1pubs_dup_turn _ _ s ks ms cs ss last m _ kr _ _) _).
    destruct (bytes_Equal m last); [reflexivity|]. apply IH.
Qed.

(** the product of the pairings in VerifyAggregate *)
Lemma g1pubs_prod_turn LOOP RANGE s ks ms cs ss last lhs rhs i K kr kb kc :
  execX (t_g1pubs sha fuel B) LOOP RANGE depth (range1 8 src_g1pubs_Signature_VerifyAggregate) [[]; [("i", VI i)]; ("rhs", V12 rhs) :: ("lhs", lhs) :: g1pubs_dup_env s ks ms cs ss last] K kr kb kc =
  if inr i ms then
    match HashG2 sha B (nth (Z.to_nat i) ms [])  with
    | None => Panic
    | Some h => if inr i ks then
        match Pairing B (nth (Z.to_nat i) ks (mkProj (zeroF B) (zeroF B) (zeroF B))) (Affine_ToProjective (FQ2O B) h) with
        | None => Panic
        | Some e => K [[("h", VA2 h)]; [("i", VI i)]; ("rhs", V12 (FQ12_MulAssign B rhs e)) :: ("lhs", lhs) :: g1pubs_dup_env s ks ms cs ss last]
        end
        else Panic
    end
  else Panic.
Proof.
  unfold Pairing. etransitivity; [src_cbvs; reflexivity|]. destruct (inr i ms); [|reflexivity].
  match goal with |- _ = match ?h with _ => _ end => destruct h; [|reflexivity] end.
  destruct (inr i ks); [|reflexivity]. unfold zeroF.
  match goal with |- _ = match (match ?m with _ => _ end) with _ => _ end => destruct m as [f|]; [|reflexivity] end.
  destruct (FinalExponentiation B f); reflexivity.
Qed.
Lemma g1pubs_prod_range n s ks ms cs ss last lhs : forall lk lm dk dm rhs kn kr, ks = (dk ++ lk)%list -> ms = (dm ++ lm)%list -> length dk = length dm -> length lk = length lm ->
  rangeT B (t_g1pubs sha fuel B) (S n) "i" "_" (Z.of_nat (length dk)) (map pubV1 lk) (range1 8 src_g1pubs_Signature_VerifyAggregate) [("rhs", V12 rhs) :: ("lhs", lhs) :: g1pubs_dup_env s ks ms cs ss last] kn kr =
  match g1pubs_pairing_product sha B rhs (combine lk lm) with None => Panic | Some r => kn [("rhs", V12 r) :: ("lhs", lhs) :: g1pubs_dup_env s ks ms cs ss last] end.
Proof.
  induction lk as [|k lk IH]; intros [|m lm] dk dm rhs kn kr Hk Hm Hd Hl; try discriminate Hl; cbn [map combine].
  - apply rangeT_nil.
  - rewrite rangeT_cons. refine (eq_trans (g1pubs_prod_turn _ _ s ks ms cs ss last lhs rhs _ _ kr _ _) _).
    assert (E1 : inr (Z.of_nat (length dk)) ms = true) by (rewrite Hm, Hd; apply inr_mid).
    assert (E2 : nth (Z.to_nat (Z.of_nat (length dk))) ms [] = m) by (rewrite Hm, Hd; apply nth_mid).
    assert (E3 : inr (Z.of_nat (length dk)) ks = true) by (rewrite Hk; apply inr_mid).
    assert (E4 : forall df, nth (Z.to_nat (Z.of_nat (length dk))) ks df = k) by (intros df; rewrite Hk; apply nth_mid).
    rewrite E1, E2, E3, E4. cbn [g1pubs_pairing_product].
    match goal with |- match ?h with _ => _ end = _ => destruct h as [h0|]; [|reflexivity] end.
    match goal with |- match ?h with _ => _ end = _ => destruct h as [e|]; [|reflexivity] end.
    cbn [pop].
    specialize (IH lm (dk ++ [k])%list (dm ++ [m])%list (FQ12_MulAssign B rhs e) kn kr).
    replace (Z.of_nat (length (dk ++ [k]))) with (Z.of_nat (length dk) + 1)%Z in IH by (rewrite app_length; cbn [length]; lia).
    apply IH; [rewrite <- app_assoc; exact Hk|rewrite <- app_assoc; exact Hm|rewrite !app_length; cbn [length]; lia|injection Hl; auto].
Qed.

Lemma src_g1pubs_Signature_VerifyAggregate_ok n s ks ms : run1 (S n) src_g1pubs_Signature_VerifyAggregate [sigV2 s; VLP1 "PublicKey" "p" ks; VLB ms] =
  match g1pubs_VerifyAggregate sha B s ks ms with Some b => Done [sigV2 s; VLP1 "PublicKey" "p" ks; VLB ms] [VB b] | None => Panic end.
Proof.
  unfold g1pubs_VerifyAggregate.
  to_exec. step_open K HK. etransitivity; [src_cbvs; reflexivity|]. rewrite len_eqb.
  destruct (Nat.eqb (length ks) (length ms)) eqn:El; cbn [negb]; [|reflexivity]. apply Nat.eqb_eq in El.
  step_close K HK.
  step_open K HK. etransitivity; [src_cbvs; reflexivity|]. rewrite less_len. step_close K HK.
  replace (mkslices (Z.of_nat (length ms))) with (repeat (@nil Z) (length ms)) by (unfold mkslices; rewrite Nat2Z.id; reflexivity).
  step_range (g1pubs_copy_range n s ks ms ms []). cbn [app].
  step. step.
  step_range (g1pubs_dup_range n s ks ms (sortByteArrays ms) (sortByteArrays ms) (sortByteArrays ms) 0 []).
  destruct (has_duplicate [] (sortByteArrays ms)) eqn:Ed.
  { destruct (g1pubs_dup_stop_ok s ks ms (sortByteArrays ms) (sortByteArrays ms) _ _ Ed) as (m & last & ->). reflexivity. }
  generalize (fold_left (fun _ m : list Z => m) (sortByteArrays ms) []) as last. intros last.
  step_open K HK. etransitivity; [src_cbvs; reflexivity|]. unfold Pairing.
  match goal with |- match ?m with _ => _ end = _ => destruct m as [f|]; [|reflexivity] end.
  assert (Hp : forall o, K [("lhs", match o with Some l => V12 l | None => VN end) :: g1pubs_dup_env s ks ms (sortByteArrays ms) (sortByteArrays ms) last] =
    match g1pubs_pairing_product sha B (FQ12One B) (combine ks ms) with
    | None => Panic
    | Some r => match o with Some l => Done [sigV2 s; VLP1 "PublicKey" "p" ks; VLB ms] [VB (FQ12_Equals B l r)] | None => Panic end
    end).
  { intros o. set (lhs := match o with Some l => V12 l | None => VN end). rewrite HK. clear K HK. cbv beta. step.
    step_range (fun kn kr => g1pubs_prod_range n s ks ms (sortByteArrays ms) (sortByteArrays ms) last lhs ks ms [] [] (FQ12One B) kn kr eq_refl eq_refl eq_refl El).
    destruct (g1pubs_pairing_product sha B (FQ12One B) (combine ks ms)); [|reflexivity]. subst lhs. destruct o; reflexivity. }
  destruct (FinalExponentiation B f) as [l|]; [refine (eq_trans (Hp (Some l)) _)|refine (eq_trans (Hp None) _)]; destruct (g1pubs_pairing_product sha B (FQ12One B) (combine ks ms)); reflexivity.
Qed.
Notation g1pubs_argd s ks ms d := [("s", sigV2 s); ("pubKeys", VLP1 "PublicKey" "p" ks); ("msgs", VLB ms); ("domain", VBy d)].

(** the product of the pairings in VerifyAggregateWithDomain *)
Lemma g1pubs_prodd_turn LOOP RANGE s ks ms d lhs rhs i K kr kb kc :
  execX (t_g1pubs sha fuel B) LOOP RANGE depth (range1 3 src_g1pubs_Signature_VerifyAggregateWithDomain) [[]; [("i", VI i)]; ("rhs", V12 rhs) :: ("lhs", lhs) :: g1pubs_argd s ks ms d] K kr kb kc =
  if inr i ms then
    match HashG2WithDomain_fuel sha B fuel (nth (Z.to_nat i) ms []) d with
    | None => Panic
    | Some h => if inr i ks then
        match Pairing B (nth (Z.to_nat i) ks (mkProj (zeroF B) (zeroF B) (zeroF B))) (Affine_ToProjective (FQ2O B) (G2_ToAffine (FQ2O B) h)) with
        | None => Panic
        | Some e => K [[("h", VP2 h)]; [("i", VI i)]; ("rhs", V12 (FQ12_MulAssign B rhs e)) :: ("lhs", lhs) :: g1pubs_argd s ks ms d]
        end
        else Panic
    end
  else Panic.
Proof.
  unfold Pairing. etransitivity; [src_cbvs; reflexivity|]. destruct (inr i ms); [|reflexivity].
  match goal with |- _ = match ?h with _ => _ end => destruct h; [|reflexivity] end.
  destruct (inr i ks); [|reflexivity]. unfold zeroF.
  match goal with |- _ = match (match ?m with _ => _ end) with _ => _ end => destruct m as [f|]; [|reflexivity] end.
  destruct (FinalExponentiation B f); reflexivity.
Qed.
Lemma g1pubs_prodd_range n s ks ms d lhs : forall lk lm dk dm rhs kn kr, ks = (dk ++ lk)%list -> ms = (dm ++ lm)%list -> length dk = length dm -> length lk = length lm ->
  rangeT B (t_g1pubs sha fuel B) (S n) "i" "_" (Z.of_nat (length dk)) (map pubV1 lk) (range1 3 src_g1pubs_Signature_VerifyAggregateWithDomain) [("rhs", V12 rhs) :: ("lhs", lhs) :: g1pubs_argd s ks ms d] kn kr =
  match g1pubs_pairing_product_domain sha B fuel d rhs (combine lk lm) with None => Panic | Some r => kn [("rhs", V12 r) :: ("lhs", lhs) :: g1pubs_argd s ks ms d] end.
Proof.
  induction lk as [|k lk IH]; intros [|m lm] dk dm rhs kn kr Hk Hm Hd Hl; try discriminate Hl; cbn [map combine].
  - apply rangeT_nil.
  - rewrite rangeT_cons. refine (eq_trans (g1pubs_prodd_turn _ _ s ks ms d lhs rhs _ _ kr _ _) _).
    assert (E1 : inr (Z.of_nat (length dk)) ms = true) by (rewrite Hm, Hd; apply inr_mid).
    assert (E2 : nth (Z.to_nat (Z.of_nat (length dk))) ms [] = m) by (rewrite Hm, Hd; apply nth_mid).
    assert (E3 : inr (Z.of_nat (length dk)) ks = true) by (rewrite Hk; apply inr_mid).
    assert (E4 : forall df, nth (Z.to_nat (Z.of_nat (length dk))) ks df = k) by (intros df; rewrite Hk; apply nth_mid).
    rewrite E1, E2, E3, E4. cbn [g1pubs_pairing_product_domain].
    match goal with |- match ?h with _ => _ end = _ => destruct h as [h0|]; [|reflexivity] end.
    match goal with |- match ?h with _ => _ end = _ => destruct h as [e|]; [|reflexivity] end.
    cbn [pop].
    specialize (IH lm (dk ++ [k])%list (dm ++ [m])%list (FQ12_MulAssign B rhs e) kn kr).
    replace (Z.of_nat (length (dk ++ [k]))) with (Z.of_nat (length dk) + 1)%Z in IH by (rewrite app_length; cbn [length]; lia).
    apply IH; [rewrite <- app_assoc; exact Hk|rewrite <- app_assoc; exact Hm|rewrite !app_length; cbn [length]; lia|injection Hl; auto].
Qed.

Lemma src_g1pubs_Signature_VerifyAggregateWithDomain_ok n s ks ms d : run1 (S n) src_g1pubs_Signature_VerifyAggregateWithDomain [sigV2 s; VLP1 "PublicKey" "p" ks; VLB ms; VBy d] =
  match g1pubs_VerifyAggregateWithDomain sha B fuel s ks ms d with Some b => Done [sigV2 s; VLP1 "PublicKey" "p" ks; VLB ms] [VB b] | None => Panic end.
Proof.
  unfold g1pubs_VerifyAggregateWithDomain.
  to_exec. step_open K HK. etransitivity; [src_cbvs; reflexivity|]. rewrite len_eqb.
  destruct (Nat.eqb (length ks) (length ms)) eqn:El; cbn [negb]; [|reflexivity]. apply Nat.eqb_eq in El.
  step_close K HK.
  step_open K HK. etransitivity; [src_cbvs; reflexivity|]. unfold Pairing.
  match goal with |- match ?m with _ => _ end = _ => destruct m as [f|]; [|reflexivity] end.
  assert (Hp : forall o, K [("lhs", match o with Some l => V12 l | None => VN end) :: g1pubs_argd s ks ms d] =
    match g1pubs_pairing_product_domain sha B fuel d (FQ12One B) (combine ks ms) with
    | None => Panic
    | Some r => match o with Some l => Done [sigV2 s; VLP1 "PublicKey" "p" ks; VLB ms] [VB (FQ12_Equals B l r)] | None => Panic end
    end).
  { intros o. set (lhs := match o with Some l => V12 l | None => VN end). rewrite HK. clear K HK. cbv beta. step.
    step_range (fun kn kr => g1pubs_prodd_range n s ks ms d lhs ks ms [] [] (FQ12One B) kn kr eq_refl eq_refl eq_refl El).
    destruct (g1pubs_pairing_product_domain sha B fuel d (FQ12One B) (combine ks ms)); [|reflexivity]. subst lhs. destruct o; reflexivity. }
  destruct (FinalExponentiation B f) as [l|]; [refine (eq_trans (Hp (Some l)) _)|refine (eq_trans (Hp None) _)]; destruct (g1pubs_pairing_product_domain sha B fuel d (FQ12One B) (combine ks ms)); reflexivity.
Qed.

(** ** g2pubs *)
Lemma src_g2pubs_sortableByteArray_Swap_ok n l i j : run2 n src_g2pubs_sortableByteArray_Swap [VLB l; VI i; VI j] =
  if inr i l then if inr j l then Done [VLB (upd (upd l (Z.to_nat j) (nth (Z.to_nat i) l [])) (Z.to_nat i) (nth (Z.to_nat j) l []))] [] else Panic else Panic.
Proof.
  etransitivity; [src_cbvs; reflexivity|]. destruct (inr i l) eqn:Ei; [|reflexivity]. destruct (inr j l) eqn:Ej; [|reflexivity].
  rewrite !inr_upd, Ei. reflexivity.
Qed.
(** the slice of the caller is the one that is returned *)
Lemma src_g2pubs_sortByteArrays_ok n l : run2 n src_g2pubs_sortByteArrays [VLB l] = Done [VMoved] [VLB (sortByteArrays l)].
Proof. src. Qed.

Definition g2pubs_cat_env (ls : list (list Z)) l : list (string * V) := [("tmp", VBy l); ("slices", VLB ls)].
Lemma g2pubs_cat_turn LOOP RANGE ls l m K kr kb kc :
  execX (t_g2pubs sha fuel B) LOOP RANGE depth (range1 1 src_g2pubs_concatAppend) [[]; [("s", VBy m)]; g2pubs_cat_env ls l] K kr kb kc = K [[]; [("s", VBy m)]; g2pubs_cat_env ls (l ++ m)%list].
Proof. etransitivity; [src_cbvs; reflexivity|]. reflexivity. Qed.
Lemma g2pubs_cat_range n ls : forall ms i l kn kr,
  rangeT B (t_g2pubs sha fuel B) (S n) "_" "s" i (map VBy ms) (range1 1 src_g2pubs_concatAppend) [g2pubs_cat_env ls l] kn kr = kn [g2pubs_cat_env ls (l ++ concat ms)%list].
Proof.
  induction ms as [|m ms IH]; intros i l kn kr; cbn [map concat].
  - rewrite rangeT_nil, app_nil_r. reflexivity.
  - rewrite rangeT_cons. refine (eq_trans (g2pubs_cat_turn _ _ ls l m _ kr _ _) _). cbn [pop]. rewrite IH, app_assoc. reflexivity.
Qed.
Lemma src_g2pubs_concatAppend_ok n ls : run2 (S n) src_g2pubs_concatAppend [VLB ls] = Done [VLB ls] [VBy (concat ls)].
Proof. to_exec. step. step_range (g2pubs_cat_range n ls ls 0 []). reflexivity. Qed.

Definition g2pubs_sum_env ls (s : Proj F) : list (string * V) := [("newSig", sigV1 s); ("s", VLP1 "Signature" "s" ls)].
Lemma g2pubs_sum_turn LOOP RANGE ls s m K kr kb kc :
  execX (t_g2pubs sha fuel B) LOOP RANGE depth (range1 1 src_g2pubs_AggregateSignatures) [[]; [("sig", sigV1 m)]; g2pubs_sum_env ls s] K kr kb kc =
  K [[]; [("sig", sigV1 m)]; g2pubs_sum_env ls (g2pubs_Signature_Aggregate B s m)].
Proof. etransitivity; [src_cbvs; reflexivity|]. reflexivity. Qed.
Lemma g2pubs_sum_range n ls : forall ms i s kn kr,
  rangeT B (t_g2pubs sha fuel B) (S n) "_" "sig" i (map sigV1 ms) (range1 1 src_g2pubs_AggregateSignatures) [g2pubs_sum_env ls s] kn kr =
  kn [g2pubs_sum_env ls (fold_left (g2pubs_Signature_Aggregate B) ms s)].
Proof.
  induction ms as [|m ms IH]; intros i s kn kr; cbn [map fold_left].
  - apply rangeT_nil.
  - rewrite rangeT_cons. refine (eq_trans (g2pubs_sum_turn _ _ ls s m _ kr _ _) _). cbn [pop]. apply IH.
Qed.
Lemma src_g2pubs_AggregateSignatures_ok n ls : run2 (S n) src_g2pubs_AggregateSignatures [VLP1 "Signature" "s" ls] =
  Done [VLP1 "Signature" "s" ls] [sigV1 (g2pubs_AggregateSignatures B ls)].
Proof. to_exec. step. step_range (g2pubs_sum_range n ls ls 0 (ProjectiveZero (b_ops B))). reflexivity. Qed.

Definition g2pubs_sumk_env ls (s : Proj (FQ2 F)) : list (string * V) := [("newPub", pubV2 s); ("p", VLP2 "PublicKey" "p" ls)].
Lemma g2pubs_sumk_turn LOOP RANGE ls s m K kr kb kc :
  execX (t_g2pubs sha fuel B) LOOP RANGE depth (range1 1 src_g2pubs_AggregatePublicKeys) [[]; [("pub", pubV2 m)]; g2pubs_sumk_env ls s] K kr kb kc =
  K [[]; [("pub", pubV2 m)]; g2pubs_sumk_env ls (g2pubs_PublicKey_Aggregate B s m)].
Proof. etransitivity; [src_cbvs; reflexivity|]. reflexivity. Qed.
Lemma g2pubs_sumk_range n ls : forall ms i s kn kr,
  rangeT B (t_g2pubs sha fuel B) (S n) "_" "pub" i (map pubV2 ms) (range1 1 src_g2pubs_AggregatePublicKeys) [g2pubs_sumk_env ls s] kn kr =
  kn [g2pubs_sumk_env ls (fold_left (g2pubs_PublicKey_Aggregate B) ms s)].
Proof.
  induction ms as [|m ms IH]; intros i s kn kr; cbn [map fold_left].
  - apply rangeT_nil.
  - rewrite rangeT_cons. refine (eq_trans (g2pubs_sumk_turn _ _ ls s m _ kr _ _) _). cbn [pop]. apply IH.
Qed.
Lemma src_g2pubs_AggregatePublicKeys_ok n ls : run2 (S n) src_g2pubs_AggregatePublicKeys [VLP2 "PublicKey" "p" ls] =
  Done [VLP2 "PublicKey" "p" ls] [pubV2 (g2pubs_AggregatePublicKeys B ls)].
Proof. to_exec. step. step_range (g2pubs_sumk_range n ls ls 0 (ProjectiveZero (FQ2O B))). reflexivity. Qed.

(** VerifyAggregate of g2pubs: the copies *)
Notation g2pubs_arg s ks ms := [("s", sigV1 s); ("pubKeys", VLP2 "PublicKey" "p" ks); ("msgs", VLB ms)].
Lemma g2pubs_copy_turn LOOP RANGE s ks ms cs i m K kr kb kc :
  execX (t_g2pubs sha fuel B) LOOP RANGE depth (range1 2 src_g2pubs_Signature_VerifyAggregate) [[]; [("i", VI i); ("m", VBy m)]; ("msgsCopy", VLB cs) :: g2pubs_arg s ks ms] K kr kb kc =
  if inr i cs then K [[]; [("i", VI i); ("m", VBy m)]; ("msgsCopy", VLB (upd (upd cs (Z.to_nat i) (mkbytes (Z.of_nat (length m)))) (Z.to_nat i)
    (go_copy (nth (Z.to_nat i) (upd cs (Z.to_nat i) (mkbytes (Z.of_nat (length m)))) []) m))) :: g2pubs_arg s ks ms] else Panic.
Proof.
  etransitivity; [src_cbvs; reflexivity|]. rewrite ?less_len.
  destruct (inr i cs) eqn:Ei; [|reflexivity]. rewrite !inr_upd, Ei. reflexivity.
Qed.
Lemma g2pubs_copy_range n s ks ms : forall l dn kn kr,
  rangeT B (t_g2pubs sha fuel B) (S n) "i" "m" (Z.of_nat (length dn)) (map VBy l) (range1 2 src_g2pubs_Signature_VerifyAggregate)
    [("msgsCopy", VLB (dn ++ repeat [] (length l))%list) :: g2pubs_arg s ks ms] kn kr =
  kn [("msgsCopy", VLB (dn ++ l)%list) :: g2pubs_arg s ks ms].
Proof.
  induction l as [|m l IH]; intros dn kn kr; cbn [map length repeat].
  - apply rangeT_nil.
  - rewrite rangeT_cons. refine (eq_trans (g2pubs_copy_turn _ _ s ks ms _ _ m _ kr _ _) _).
    rewrite inr_mid, upd_mid, nth_mid, upd_mid, go_copy_full. cbn [pop].
    specialize (IH (dn ++ [m])%list kn kr). rewrite <- !app_assoc in IH. cbn [app] in IH.
    replace (Z.of_nat (length (dn ++ [m]))) with (Z.of_nat (length dn) + 1) in IH by (rewrite app_length; cbn [length]; lia). exact IH.
Qed.
(** the search for duplicates *)
Notation g2pubs_dup_env s ks ms cs ss last := (("lastMsg", VBy last) :: ("msgsSorted", VLB ss) :: ("msgsCopy", VLB cs) :: g2pubs_arg s ks ms).
Lemma g2pubs_dup_turn LOOP RANGE s ks ms cs ss last m K kr kb kc :
  execX (t_g2pubs sha fuel B) LOOP RANGE depth (range1 5 src_g2pubs_Signature_VerifyAggregate) [[]; [("m", VBy m)]; g2pubs_dup_env s ks ms cs ss last] K kr kb kc =
  if bytes_Equal m last then kr [VB false] [[]; []; []; [("m", VBy m)]; g2pubs_dup_env s ks ms cs ss last]
  else K [[]; [("m", VBy m)]; g2pubs_dup_env s ks ms cs ss m].
Proof. etransitivity; [src_cbvs; reflexivity|]. destruct (bytes_Equal m last); reflexivity. Qed.
Fixpoint g2pubs_dup_stop s ks ms cs ss last l : list (list (string * V)) :=
  match l with
  | [] => []
  | m :: r => if bytes_Equal m last then [[]; []; []; [("m", VBy m)]; g2pubs_dup_env s ks ms cs ss last] else g2pubs_dup_stop s ks ms cs ss m r
  end.
Lemma g2pubs_dup_stop_ok s ks ms cs ss l : forall last, has_duplicate last l = true ->
  exists m last', g2pubs_dup_stop s ks ms cs ss last l = [[]; []; []; [("m", VBy m)]; g2pubs_dup_env s ks ms cs ss last'].
Proof.
  induction l as [|m l IH]; intros last H; cbn [has_duplicate g2pubs_dup_stop] in *; [discriminate|].
  destruct (bytes_Equal m last); [exists m, last; reflexivity|exact (IH m H)].
Qed.
Lemma g2pubs_dup_range n s ks ms cs ss : forall l i last kn kr,
  rangeT B (t_g2pubs sha fuel B) (S n) "_" "m" i (map VBy l) (range1 5 src_g2pubs_Signature_VerifyAggregate) [g2pubs_dup_env s ks ms cs ss last] kn kr =
    if has_duplicate last l then kr [VB false] (g2pubs_dup_stop s ks ms cs ss last l) else kn [g2pubs_dup_env s ks ms cs ss (fold_left (fun _ m => m) l last)].
Proof.
  induction l as [|m l IH]; intros i last kn kr; cbn [map has_duplicate g2pubs_dup_stop fold_left].
  - apply rangeT_nil.
  - rewrite rangeT_cons. refine (eq_trans (g2pubs_dup_turn _ _ s ks ms cs ss last m _ kr _ _) _).
    destruct (bytes_Equal m last); [reflexivity|]. apply IH.
Qed.

(** the product of the pairings in VerifyAggregate *)
Lemma g2pubs_prod_turn LOOP RANGE s ks ms cs ss last lhs rhs i K kr kb kc :
  execX (t_g2pubs sha fuel B) LOOP RANGE depth (range1 8 src_g2pubs_Signature_VerifyAggregate) [[]; [("i", VI i)]; ("rhs", V12 rhs) :: ("lhs", lhs) :: g2pubs_dup_env s ks ms cs ss last] K kr kb kc =
  if inr i ms then
    match HashG1 sha B (nth (Z.to_nat i) ms [])  with
    | None => Panic
    | Some h => if inr i ks then
        match Pairing B (Affine_ToProjective (b_ops B) h) (nth (Z.to_nat i) ks (mkProj (mkFQ2 (zeroF B) (zeroF B)) (mkFQ2 (zeroF B) (zeroF B)) (mkFQ2 (zeroF B) (zeroF B)))) with
        | None => Panic
        | Some e => K [[("h", VA1 h)]; [("i", VI i)]; ("rhs", V12 (FQ12_MulAssign B rhs e)) :: ("lhs", lhs) :: g2pubs_dup_env s ks ms cs ss last]
        end
        else Panic
    end
  else Panic.
Proof.
  unfold Pairing. etransitivity; [src_cbvs; reflexivity|]. destruct (inr i ms); [|reflexivity].
  match goal with |- _ = match ?h with _ => _ end => destruct h; [|reflexivity] end.
  destruct (inr i ks); [|reflexivity]. unfold zeroF.
  match goal with |- _ = match (match ?m with _ => _ end) with _ => _ end => destruct m as [f|]; [|reflexivity] end.
  destruct (FinalExponentiation B f); reflexivity.
Qed.
Lemma g2pubs_prod_range n s ks ms cs ss last lhs : forall lk lm dk dm rhs kn kr, ks = (dk ++ lk)%list -> ms = (dm ++ lm)%list -> length dk = length dm -> length lk = length lm ->
  rangeT B (t_g2pubs sha fuel B) (S n) "i" "_" (Z.of_nat (length dk)) (map pubV2 lk) (range1 8 src_g2pubs_Signature_VerifyAggregate) [("rhs", V12 rhs) :: ("lhs", lhs) :: g2pubs_dup_env s ks ms cs ss last] kn kr =
  match g2pubs_pairing_product sha B rhs (combine lk lm) with None => Panic | Some r => kn [("rhs", V12 r) :: ("lhs", lhs) :: g2pubs_dup_env s ks ms cs ss last] end.
Proof.
  induction lk as [|k lk IH]; intros [|m lm] dk dm rhs kn kr Hk Hm Hd Hl; try discriminate Hl; cbn [map combine].
  - apply rangeT_nil.
  - rewrite rangeT_cons. refine (eq_trans (g2pubs_prod_turn _ _ s ks ms cs ss last lhs rhs _ _ kr _ _) _).
    assert (E1 : inr (Z.of_nat (length dk)) ms = true) by (rewrite Hm, Hd; apply inr_mid).
    assert (E2 : nth (Z.to_nat (Z.of_nat (length dk))) ms [] = m) by (rewrite Hm, Hd; apply nth_mid).
    assert (E3 : inr (Z.of_nat (length dk)) ks = true) by (rewrite Hk; apply inr_mid).
    assert (E4 : forall df, nth (Z.to_nat (Z.of_nat (length dk))) ks df = k) by (intros df; rewrite Hk; apply nth_mid).
    rewrite E1, E2, E3, E4. cbn [g2pubs_pairing_product].
    match goal with |- match ?h with _ => _ end = _ => destruct h as [h0|]; [|reflexivity] end.
    match goal with |- match ?h with _ => _ end = _ => destruct h as [e|]; [|reflexivity] end.
    cbn [pop].
    specialize (IH lm (dk ++ [k])%list (dm ++ [m])%list (FQ12_MulAssign B rhs e) kn kr).
    replace (Z.of_nat (length (dk ++ [k]))) with (Z.of_nat (length dk) + 1)%Z in IH by (rewrite app_length; cbn [length]; lia).
    apply IH; [rewrite <- app_assoc; exact Hk|rewrite <- app_assoc; exact Hm|rewrite !app_length; cbn [length]; lia|injection Hl; auto].
Qed.

Lemma src_g2pubs_Signature_VerifyAggregate_ok n s ks ms : run2 (S n) src_g2pubs_Signature_VerifyAggregate [sigV1 s; VLP2 "PublicKey" "p" ks; VLB ms] =
  match g2pubs_VerifyAggregate sha B s ks ms with Some b => Done [sigV1 s; VLP2 "PublicKey" "p" ks; VLB ms] [VB b] | None => Panic end.
Proof.
  unfold g2pubs_VerifyAggregate.
  to_exec. step_open K HK. etransitivity; [src_cbvs; reflexivity|]. rewrite len_eqb.
  destruct (Nat.eqb (length ks) (length ms)) eqn:El; cbn [negb]; [|reflexivity]. apply Nat.eqb_eq in El.
  step_close K HK.
  step_open K HK. etransitivity; [src_cbvs; reflexivity|]. rewrite less_len. step_close K HK.
  replace (mkslices (Z.of_nat (length ms))) with (repeat (@nil Z) (length ms)) by (unfold mkslices; rewrite Nat2Z.id; reflexivity).
  step_range (g2pubs_copy_range n s ks ms ms []). cbn [app].
  step. step.
  step_range (g2pubs_dup_range n s ks ms (sortByteArrays ms) (sortByteArrays ms) (sortByteArrays ms) 0 []).
  destruct (has_duplicate [] (sortByteArrays ms)) eqn:Ed.
  { destruct (g2pubs_dup_stop_ok s ks ms (sortByteArrays ms) (sortByteArrays ms) _ _ Ed) as (m & last & ->). reflexivity. }
  generalize (fold_left (fun _ m : list Z => m) (sortByteArrays ms) []) as last. intros last.
  step_open K HK. etransitivity; [src_cbvs; reflexivity|]. unfold Pairing.
  match goal with |- match ?m with _ => _ end = _ => destruct m as [f|]; [|reflexivity] end.
  assert (Hp : forall o, K [("lhs", match o with Some l => V12 l | None => VN end) :: g2pubs_dup_env s ks ms (sortByteArrays ms) (sortByteArrays ms) last] =
    match g2pubs_pairing_product sha B (FQ12One B) (combine ks ms) with
    | None => Panic
    | Some r => match o with Some l => Done [sigV1 s; VLP2 "PublicKey" "p" ks; VLB ms] [VB (FQ12_Equals B l r)] | None => Panic end
    end).
  { intros o. set (lhs := match o with Some l => V12 l | None => VN end). rewrite HK. clear K HK. cbv beta. step.
    step_range (fun kn kr => g2pubs_prod_range n s ks ms (sortByteArrays ms) (sortByteArrays ms) last lhs ks ms [] [] (FQ12One B) kn kr eq_refl eq_refl eq_refl El).
    destruct (g2pubs_pairing_product sha B (FQ12One B) (combine ks ms)); [|reflexivity]. subst lhs. destruct o; reflexivity. }
  destruct (FinalExponentiation B f) as [l|]; [refine (eq_trans (Hp (Some l)) _)|refine (eq_trans (Hp None) _)]; destruct (g2pubs_pairing_product sha B (FQ12One B) (combine ks ms)); reflexivity.
Qed.
End S.
