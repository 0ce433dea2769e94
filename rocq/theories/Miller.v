(** The Miller loop: which lines it consumes, its value, several pairs at once. *)
Require Import ZArith Lia Bool List Ring Field Znumtheory Permutation.
From Verif Require Import Words ModelRepr ReprProofs ReprProofs2 ModelFq ModelOps ModelTower ModelCurve ModelPairing NumTheory Primality Fp FpOps FqProofs FqProofs2 FqInverse FqRel FqMisc Loops OpsRel OpsRel2 ZInst TwoPow Ext ExtFrob TowerProofs Fld AbGrp EcGroup EcJac EcMul Curves FinExp.
Import ListNotations.
Open Scope Z_scope.

(** The bits of x/2 below the leading one, most significant first. *)
Definition headbits : list bool := Eval vm_compute in
  map (fun i => match FQRepr_Bit blsXRsh1 (FQRepr_BitLen blsXRsh1 - Z.of_nat i) with Some true => true | _ => false end) (seq 0 (S (Z.to_nat (FQRepr_BitLen blsXRsh1)))).
Definition loopbits : list bool := Eval vm_compute in
  (fix go l := match l with [] => [] | true :: l => l | false :: l => go l end) headbits.
Lemma loop_true {S} (body : bool -> S -> S) (f : nat -> bool) (l : list nat) s :
  fold_left (fun st i => let '(foundOne, s) := st : bool * S in let set := f i in if negb foundOne then (set, s) else (foundOne, body set s)) l (true, s)
  = (true, fold_left (fun s b => body b s) (map f l) s).
Proof. revert s. induction l as [|i l IH]; intros s; cbn [fold_left map negb]; [reflexivity|]. apply IH. Qed.
Lemma blsX_loop_bits {S} (body : bool -> S -> S) s : blsX_loop body s = fold_left (fun s b => body b s) loopbits s.
Proof.
  unfold blsX_loop.
  set (f := fun i => match FQRepr_Bit blsXRsh1 (FQRepr_BitLen blsXRsh1 - Z.of_nat i) with Some true => true | _ => false end).
  assert (map f (seq 0 (Datatypes.S (Z.to_nat (FQRepr_BitLen blsXRsh1)))) = false :: true :: loopbits) as E by (vm_compute; reflexivity).
  destruct (seq 0 (Datatypes.S (Z.to_nat (FQRepr_BitLen blsXRsh1)))) as [|i [|j l]]; try discriminate E.
  cbn [map] in E. injection E as E0 E1 E2. cbn [fold_left].
  change (match FQRepr_Bit blsXRsh1 (FQRepr_BitLen blsXRsh1 - Z.of_nat i) with Some true => true | _ => false end) with (f i).
  change (match FQRepr_Bit blsXRsh1 (FQRepr_BitLen blsXRsh1 - Z.of_nat j) with Some true => true | _ => false end) with (f j).
  rewrite E0, E1. cbn [negb]. rewrite <- E2. exact (f_equal snd (loop_true body f l s)).
Qed.
Lemma loopbits_value : fold_left (fun k (b : bool) => 2 * k + Z.b2z b) loopbits 1 * 2 = xT. Proof. vm_compute. reflexivity. Qed.

(** ** Number of coefficients *)
Definition cnt (bs : list bool) : nat := (length bs + length (filter (fun b => b) bs))%nat.
Definition nlines : nat := S (cnt loopbits).
Lemma nlines_68 : nlines = 68%nat. Proof. reflexivity. Qed.
Section Gen.
Context {F : Type} (B : BOps F).
Notation cf := (FQ2 F * FQ2 F * FQ2 F)%type.
Definition prep_step (q : Affine (FQ2 F)) (st : Proj (FQ2 F) * list cf) (set : bool) : Proj (FQ2 F) * list cf :=
  let '(r, cs) := st in
  let '(o, r) := doublingStep B r in
  let cs := cs ++ [o] in
  if set then let '(o, r) := additionStep B r q in (r, cs ++ [o]) else (r, cs).
Lemma fold_left_ext {A S} (f g : S -> A -> S) l s : (forall s a, f s a = g s a) -> fold_left f l s = fold_left g l s.
Proof. intros H. revert s. induction l; intros s; cbn; [reflexivity|]. rewrite H. apply IHl. Qed.
Lemma prep_unfold q : ainf q = false ->
  G2AffineToPrepared B q = let '(r, cs) := fold_left (prep_step q) loopbits (Affine_ToProjective (FQ2O B) q, []) in mkPrep (cs ++ [fst (doublingStep B r)]) false.
Proof.
  intros H. unfold G2AffineToPrepared, Affine_IsZero. rewrite H. cbv zeta. rewrite blsX_loop_bits.
  rewrite (fold_left_ext _ (prep_step q)) by (intros [] []; reflexivity).
  destruct (fold_left (prep_step q) loopbits _) as [r cs]. destruct (doublingStep B r) as [o r']. reflexivity.
Qed.
Lemma prep_length q bs st : length (snd (fold_left (prep_step q) bs st)) = (length (snd st) + cnt bs)%nat.
Proof.
  revert st. unfold cnt. induction bs as [|b bs IH]; intros [r cs]; cbn [fold_left filter length]; [cbn; lia|].
  rewrite IH. unfold prep_step. destruct (doublingStep B r) as [o r1]. destruct b.
  - destruct (additionStep B r1 q) as [o' r2]. cbn [snd length]. rewrite !app_length. cbn. lia.
  - cbn [snd length]. rewrite app_length. cbn. lia.
Qed.
Theorem prepared_length q : ainf q = false -> pinf (G2AffineToPrepared B q) = false /\ length (coeffs (G2AffineToPrepared B q)) = nlines.
Proof.
  intros H. rewrite prep_unfold by exact H. pose proof (prep_length q loopbits (Affine_ToProjective (FQ2O B) q, [])) as L.
  destruct (fold_left (prep_step q) loopbits _) as [r cs]. cbn [pinf coeffs snd length] in *. split; [reflexivity|].
  rewrite app_length, L. unfold nlines. cbn [length]. lia.
Qed.
Lemma prepared_inf q : ainf q = true -> G2AffineToPrepared B q = mkPrep [] true.
Proof. intros H. unfold G2AffineToPrepared, Affine_IsZero. rewrite H. reflexivity. Qed.

(** An item with a component at infinity makes the loop index an empty slice. *)
Lemma ell_all_empty f pairs pr : In pr pairs -> pi_q pr = [] -> ell_all B f pairs = None.
Proof.
  revert f. induction pairs as [|x l IH]; intros f; [intros []|]. intros [->|H] E; cbn [ell_all].
  - rewrite E. destruct (pi_i pr); reflexivity.
  - destruct (nth_error (pi_q x) (pi_i x)); [|reflexivity]. cbv zeta. rewrite (IH _ H E). reflexivity.
Qed.
Definition ml_step (st : option (FQ12 F * list pairingItem)) (set : bool) : option (FQ12 F * list pairingItem) :=
  match st with
  | None => None
  | Some (f, pairs) =>
      match ell_all B f pairs with
      | None => None
      | Some (f, pairs) =>
          match (if set : bool then ell_all B f pairs else Some (f, pairs)) with
          | None => None
          | Some (f, pairs) => Some (FQ12_SquareAssign B f, pairs)
          end
      end
  end.
Definition to_item (item : Affine F * G2Prepared F) : pairingItem :=
  let '(P, Q) := item in if negb (Affine_IsZero P) && negb (pinf Q) then mkPI P (coeffs Q) 0 else mkPI (AffineZero (b_ops B)) [] 0.
Lemma ml_unfold items : MillerLoop B items =
  match fold_left ml_step loopbits (Some (FQ12One B, map to_item items)) with
  | None => None
  | Some (f, pairs) => match ell_all B f pairs with None => None | Some (f, pairs) => Some (FQ12_ConjugateAssign B f) end
  end.
Proof. unfold MillerLoop. cbv zeta. rewrite blsX_loop_bits. reflexivity. Qed.
Lemma ml_none bs : fold_left ml_step bs None = None.
Proof. induction bs; [reflexivity|assumption]. Qed.
Theorem MillerLoop_infinity items P Q : In (P, Q) items -> ainf P = true \/ pinf Q = true -> MillerLoop B items = None.
Proof.
  intros Hin H. rewrite ml_unfold.
  assert (forall f, ell_all B f (map to_item items) = None) as E.
  { intros f. apply (ell_all_empty _ _ (to_item (P, Q))); [apply in_map, Hin|]. unfold to_item, Affine_IsZero.
    destruct H as [->| ->]; [reflexivity|rewrite andb_false_r; reflexivity]. }
  change loopbits with (hd false loopbits :: tl loopbits). cbn [fold_left]. unfold ml_step at 2. rewrite E, ml_none. reflexivity.
Qed.
End Gen.

(** ** The value *)
Definition lineval (cs : K2 * K2 * K2) (x y : Fq) : K12 :=
  let '(a, b, c) := cs in k12_014 c (k2_mul b (k2_emb x)) (k2_mul a (k2_emb y)).
Lemma m_ell f cs P : ell FpB f cs P = k12_mul f (lineval cs (ax P) (ay P)).
Proof.
  destruct cs as [[a b] c]. unfold ell, lineval. cbv zeta. rewrite m12_mulby014. f_equal. f_equal; apply k2_eq; cbn; ring.
Qed.
Definition mstep (L : nat -> K12) (st : K12 * nat) (b : bool) : K12 * nat :=
  let '(f, i) := st in
  let f := k12_mul f (L i) in
  let '(f, i) := if b then (k12_mul f (L (S i)), S (S i)) else (f, S i) in (k12_mul f f, i).
Definition mfold (L : nat -> K12) (bs : list bool) : K12 := let '(f, i) := fold_left (mstep L) bs (k12_1, O) in k12_mul f (L i).
Definition prodl (l : list K12) : K12 := fold_right k12_mul k12_1 l.
Notation itemT := (Affine Fq * G2Prepared Fq)%type.
Definition dline : K2 * K2 * K2 := (k2_0, k2_0, k2_0).
Definition Lof (it : itemT) (i : nat) : K12 := lineval (nth i (coeffs (snd it)) dline) (ax (fst it)) (ay (fst it)).
Definition fitem (it : itemT) : Prop := ainf (fst it) = false /\ pinf (snd it) = false /\ length (coeffs (snd it)) = nlines.
Definition at_i (i : nat) (it : itemT) : pairingItem := mkPI (fst it) (coeffs (snd it)) i.
Lemma to_item_fit it : fitem it -> to_item FpB it = at_i 0 it.
Proof. destruct it as [P Q]. intros (A & B & _). cbn [fst snd] in *. unfold to_item, Affine_IsZero. rewrite A, B. reflexivity. Qed.
Lemma ell_all_val f items i : (forall it, In it items -> fitem it) -> (i < nlines)%nat ->
  ell_all FpB f (map (at_i i) items) = Some (k12_mul f (prodl (map (fun it => Lof it i) items)), map (at_i (S i)) items).
Proof.
  intros H Hi. revert f. induction items as [|it items IH]; intros f; cbn [map ell_all prodl fold_right].
  - f_equal. f_equal. ring.
  - destruct (H it (or_introl eq_refl)) as (_ & _ & L). cbn [at_i pi_q pi_i pi_p].
    rewrite (nth_error_nth' _ dline) by lia. cbv zeta. rewrite IH by (intros; apply H; right; assumption). rewrite m_ell.
    f_equal. f_equal. fold (Lof it i). fold (prodl (map (fun it0 => Lof it0 i) items)). ring.
Qed.
Definition Ltot (items : list itemT) (i : nat) : K12 := prodl (map (fun it => Lof it i) items).
Lemma mstep_idx L bs st : snd (fold_left (mstep L) bs st) = (snd st + cnt bs)%nat.
Proof.
  revert st. unfold cnt. induction bs as [|b bs IH]; intros [f i]; cbn [fold_left filter length]; [cbn; lia|].
  rewrite IH. destruct b; cbn; lia.
Qed.
Lemma ml_steps items bs f i : (forall it, In it items -> fitem it) -> (i + cnt bs < nlines)%nat ->
  fold_left (ml_step FpB) bs (Some (f, map (at_i i) items)) =
  let '(f', i') := fold_left (mstep (Ltot items)) bs (f, i) in Some (f', map (at_i i') items).
Proof.
  intros H. revert f i. induction bs as [|b bs IH]; intros f i Hi; cbn [fold_left]; [reflexivity|].
  assert (Hc : (cnt (b :: bs) = 1 + (if b then 1 else 0) + cnt bs)%nat) by (unfold cnt; destruct b; cbn; lia).
  unfold ml_step at 2. rewrite ell_all_val by (assumption || lia). destruct b.
  - rewrite ell_all_val by (assumption || lia). rewrite m12_sq. rewrite IH by lia. unfold mstep at 3. reflexivity.
  - rewrite m12_sq, IH by lia. reflexivity.
Qed.
Theorem MillerLoop_val items : (forall it, In it items -> fitem it) ->
  MillerLoop FpB items = Some (k12_conj (mfold (Ltot items) loopbits)).
Proof.
  intros H. rewrite ml_unfold. rewrite m12_one. 
  replace (map (to_item FpB) items) with (map (at_i 0) items) by (apply map_ext_in; intros; symmetry; apply to_item_fit, H; assumption).
  assert (cnt loopbits = 67%nat) as E by reflexivity.
  rewrite ml_steps by (assumption || rewrite E; cbv; lia).
  unfold mfold. pose proof (mstep_idx (Ltot items) loopbits (k12_1, O)) as I. rewrite E in I. cbn [snd] in I.
  destruct (fold_left (mstep (Ltot items)) loopbits (k12_1, O)) as [f i]. cbn [snd] in I.
  rewrite ell_all_val by (assumption || rewrite I; cbv; lia). rewrite m12_conj. reflexivity.
Qed.

(** Multiplicativity *)
Lemma mfold_steps_mul L M bs f g i :
  let st1 := fold_left (mstep L) bs (f, i) in let st2 := fold_left (mstep M) bs (g, i) in
  fold_left (mstep (fun i => k12_mul (L i) (M i))) bs (k12_mul f g, i) = (k12_mul (fst st1) (fst st2), snd st1) /\ snd st1 = snd st2.
Proof.
  revert f g i. induction bs as [|b bs IH]; intros f g i; cbn [fold_left]; [split; reflexivity|].
  destruct b; unfold mstep at 2 4 6 8 10.
  - replace (k12_mul (k12_mul (k12_mul (k12_mul f g) (k12_mul (L i) (M i))) (k12_mul (L (S i)) (M (S i)))) (k12_mul (k12_mul (k12_mul f g) (k12_mul (L i) (M i))) (k12_mul (L (S i)) (M (S i)))))
      with (k12_mul (k12_mul (k12_mul (k12_mul f (L i)) (L (S i))) (k12_mul (k12_mul f (L i)) (L (S i)))) (k12_mul (k12_mul (k12_mul g (M i)) (M (S i))) (k12_mul (k12_mul g (M i)) (M (S i))))) by ring.
    apply IH.
  - replace (k12_mul (k12_mul (k12_mul f g) (k12_mul (L i) (M i))) (k12_mul (k12_mul f g) (k12_mul (L i) (M i))))
      with (k12_mul (k12_mul (k12_mul f (L i)) (k12_mul f (L i))) (k12_mul (k12_mul g (M i)) (k12_mul g (M i)))) by ring.
    apply IH.
Qed.
Lemma mfold_mul L M bs : mfold (fun i => k12_mul (L i) (M i)) bs = k12_mul (mfold L bs) (mfold M bs).
Proof.
  unfold mfold. pose proof (mfold_steps_mul L M bs k12_1 k12_1 O) as [E1 E2]. cbv zeta in *.
  assert (k12_mul k12_1 k12_1 = k12_1) as E by ring. rewrite E in E1. rewrite E1.
  destruct (fold_left (mstep L) bs (k12_1, O)) as [f i], (fold_left (mstep M) bs (k12_1, O)) as [g j]. cbn [fst snd] in *. subst j. ring.
Qed.
Lemma mfold_ext L M bs : (forall i, L i = M i) -> mfold L bs = mfold M bs.
Proof.
  intros H. unfold mfold. rewrite (fold_left_ext _ (mstep M)) by (intros [f i] b; unfold mstep; rewrite !H; reflexivity).
  destruct (fold_left (mstep M) bs (k12_1, O)) as [f i]. rewrite H. reflexivity.
Qed.
Lemma mfold_1 bs : mfold (fun _ => k12_1) bs = k12_1.
Proof.
  unfold mfold. assert (forall i, fst (fold_left (mstep (fun _ => k12_1)) bs (k12_1, i)) = k12_1) as H.
  { induction bs as [|b bs IH]; intros i; cbn [fold_left]; [reflexivity|]. unfold mstep at 2.
    destruct b; [replace (k12_mul (k12_mul (k12_mul k12_1 k12_1) k12_1) (k12_mul (k12_mul k12_1 k12_1) k12_1)) with k12_1 by ring
                |replace (k12_mul (k12_mul k12_1 k12_1) (k12_mul k12_1 k12_1)) with k12_1 by ring]; apply IH. }
  specialize (H O). destruct (fold_left _ bs _) as [f i]. cbn in H. rewrite H. ring.
Qed.
Definition mval (it : itemT) : K12 := mfold (Lof it) loopbits.
Lemma Ltot_prod items : mfold (Ltot items) loopbits = prodl (map mval items).
Proof.
  induction items as [|it items IH]; cbn [map prodl fold_right]; [apply mfold_1|].
  rewrite <- (mfold_ext (fun i => k12_mul (Lof it i) (Ltot items i))) by reflexivity. rewrite mfold_mul, IH. apply f_equal2; [unfold mval; apply mfold_ext; reflexivity|exact eq_refl].
Qed.
Lemma k12_conj_prod l : k12_conj (prodl l) = prodl (map k12_conj l).
Proof. induction l; cbn [prodl fold_right map]; [apply k12_eq; cbn; [reflexivity|apply k6_eq; cbn; ring]|]. rewrite k12_conj_mul. f_equal. exact IHl. Qed.
Lemma prodl_perm l l' : Permutation l l' -> prodl l = prodl l'.
Proof. induction 1; cbn [prodl fold_right]; unfold prodl in *; try congruence. ring. Qed.
Theorem MillerLoop_prod items : (forall it, In it items -> fitem it) ->
  MillerLoop FpB items = Some (prodl (map (fun it => k12_conj (mval it)) items)).
Proof. intros H. rewrite MillerLoop_val, Ltot_prod, k12_conj_prod, map_map by assumption. reflexivity. Qed.

(** ** Too few coefficients: the loop panics *)
Section Short.
Context {F : Type} (B : BOps F).
Lemma ell_one f p cs i : ell_all B f [mkPI p cs i] = match nth_error cs i with None => None | Some c => Some (ell B f c p, [mkPI p cs (S i)]) end.
Proof. cbn [ell_all pi_q pi_i pi_p]. destruct (nth_error cs i); reflexivity. Qed.
Lemma ml_one bs f p cs i : match fold_left (ml_step B) bs (Some (f, [mkPI p cs i])) with
  | None => True | Some (_, l) => l = [mkPI p cs (i + cnt bs)] /\ (bs = [] \/ (i + cnt bs <= length cs)%nat) end.
Proof.
  revert f i. induction bs as [|b bs IH]; intros f i; cbn [fold_left]; [split; [rewrite Nat.add_0_r; reflexivity|left; reflexivity]|].
  assert (Hc : (cnt (b :: bs) = 1 + (if b then 1 else 0) + cnt bs)%nat) by (unfold cnt; destruct b; cbn; lia).
  unfold ml_step at 2. rewrite ell_one. destruct (nth_error cs i) eqn:E1; [|rewrite ml_none; exact I].
  assert (i < length cs)%nat by (apply nth_error_Some; congruence). destruct b.
  - rewrite ell_one. destruct (nth_error cs (S i)) eqn:E2; [|rewrite ml_none; exact I].
    assert (S i < length cs)%nat by (apply nth_error_Some; congruence).
    match goal with |- context [fold_left _ bs (Some (?f, _))] => specialize (IH f (S (S i))) end.
    destruct (fold_left (ml_step B) bs _) as [[g l]|]; [|exact I]. destruct IH as [-> IH]. split; [f_equal; f_equal; lia|]. right. destruct IH as [->|]; [cbn in *|]; lia.
  - match goal with |- context [fold_left _ bs (Some (?f, _))] => specialize (IH f (S i)) end.
    destruct (fold_left (ml_step B) bs _) as [[g l]|]; [|exact I]. destruct IH as [-> IH]. split; [f_equal; f_equal; lia|]. right. destruct IH as [->|]; [cbn in *|]; lia.
Qed.
Theorem MillerLoop_short P cs : ainf P = false -> (length cs < nlines)%nat -> MillerLoop B [(P, mkPrep cs false)] = None.
Proof.
  intros H L. rewrite ml_unfold. cbn [map to_item]. unfold to_item, Affine_IsZero. rewrite H. cbn [pinf negb andb coeffs].
  pose proof (ml_one loopbits (FQ12One B) P cs 0) as M. destruct (fold_left (ml_step B) loopbits _) as [[g l]|]; [|reflexivity].
  destruct M as [-> _]. rewrite ell_one. rewrite (proj2 (nth_error_None cs _)); [reflexivity|]. unfold nlines in L. lia.
Qed.
End Short.
