(** MillerLoop, run from its source text. *)
Require Import ZArith Bool String List Lia.
From Verif Require Import Words ModelRepr ModelFq ModelFr ModelOps ModelTower ModelCurve ModelPairing ModelHash ModelBls SrcAst SrcSem SrcCode SrcCall SrcTac SrcLoops SrcPairing2 ReprProofs.
Import ListNotations.
Open Scope Z_scope.

Lemma less_ltb a b : less a b = (a <? b). Proof. unfold less, Z.ltb. reflexivity. Qed.
Lemma inr_nth {A} i (l : list A) : 0 <= i -> inr i l = match nth_error l (Z.to_nat i) with Some _ => true | None => false end.
Proof.
  intros H. unfold inr. rewrite !less_ltb. rewrite (proj2 (Z.ltb_ge i 0)) by lia. cbn [negb andb].
  destruct (nth_error l (Z.to_nat i)) eqn:E.
  - assert (Z.to_nat i < length l)%nat by (apply nth_error_Some; congruence). apply Z.ltb_lt. lia.
  - apply nth_error_None in E. apply Z.ltb_ge. lia.
Qed.
Lemma inr_mid {A} (a b : list A) x : inr (Z.of_nat (length a)) (a ++ x :: b)%list = true.
Proof. rewrite inr_nth by lia. rewrite Nat2Z.id, nth_error_app2, Nat.sub_diag by lia. reflexivity. Qed.
Lemma nth_mid {A} (a b : list A) x d : nth (Z.to_nat (Z.of_nat (length a))) (a ++ x :: b)%list d = x.
Proof. rewrite Nat2Z.id, app_nth2, Nat.sub_diag by lia. reflexivity. Qed.
Lemma upd_mid {A} (a b : list A) x y : upd (a ++ x :: b)%list (Z.to_nat (Z.of_nat (length a))) y = (a ++ y :: b)%list.
Proof. rewrite Nat2Z.id. induction a; cbn; [reflexivity|]. f_equal. exact IHa. Qed.

Section S.
Context {F : Type} (B : BOps F).
Notation coef := (FQ2 F * FQ2 F * FQ2 F)%type.
Notation item := (option (Affine F) * list coef)%type.
Definition at_ (c : Z) (x : item) : option (Affine F) * list coef * Z := (fst x, snd x, c).
Definition toPI (c : Z) (x : item) : pairingItem := mkPI (match fst x with Some p => p | None => AffineZero (b_ops B) end) (snd x) (Z.to_nat c).
Definition okitem (x : item) : Prop := fst x = None -> snd x = [].
Definition mil_env (its : list (Affine F * G2Prepared F)) found f (l : list (option (Affine F) * list coef * Z)) : list (string * V F) :=
  [("blsXRsh1", VR blsXRsh1); ("foundOne", VB found); ("f", V12 f); ("ell", clos src_MillerLoop 2); ("pairs", VPI l); ("items", VMI its)]%string.
Definition ell_src : list stmt := match nth_error (f_body src_MillerLoop) 8 with Some (SRange _ _ _ b) => b | _ => [] end.

Lemma ell_all_pairs c : 0 <= c -> forall l f f' ps, ell_all B f (map (toPI c) l) = Some (f', ps) -> ps = map (toPI (c + 1)) l.
Proof.
  intros Hc. induction l as [|x l IH]; intros f f' ps H; cbn [map ell_all] in H.
  - injection H as <- <-. reflexivity.
  - destruct (nth_error _ _); [|discriminate]. destruct (ell_all B _ _) as [[g qs]|] eqn:E; [|discriminate].
    injection H as <- <-. cbn [map]. f_equal; [|exact (IH _ _ _ E)]. unfold toPI; cbn [pi_p pi_q pi_i]; f_equal; lia.
Qed.

(** the scopes around the three loops over the pairs *)
Inductive okpre : list (list (string * V F)) -> Prop :=
| pre_top : okpre []
| pre_for b z : okpre [[("set"%string, VB b)]; [("q"%string, VU 64 z)]]
| pre_if b z : okpre [[]; []; [("set"%string, VB b)]; [("q"%string, VU 64 z)]].
Lemma ell_turn LOOP RANGE its found f p q c pl dl pre K kr kb kc : okpre pre ->
  exec (limbsB B) (zeroF B) (glob B) (callB B) LOOP RANGE depth ell_src
    ([] :: [("i"%string, VI dl); ("pair"%string, piV (Some p, q, c))] :: pre ++ [mil_env its found f pl])%list K kr kb kc =
  if inr c q then
    if inr dl pl then K ([] :: [("i"%string, VI dl); ("pair"%string, piV (Some p, q, c))] :: pre ++
      [mil_env its found (ell B f (nth (Z.to_nat c) q (mkFQ2 (zeroF B) (zeroF B), mkFQ2 (zeroF B) (zeroF B), mkFQ2 (zeroF B) (zeroF B))) p)
        (let it := nth (Z.to_nat dl) pl (None, [], 0) in upd pl (Z.to_nat dl) (fst (fst it), snd (fst it), snd it + 1))])%list
    else Panic
  else Panic.
Proof.
  unfold ell. intros [|b z|b z];
  destruct (nth (Z.to_nat c) q (mkFQ2 (zeroF B) (zeroF B), mkFQ2 (zeroF B) (zeroF B), mkFQ2 (zeroF B) (zeroF B))) as [[k0 k1] k2] eqn:E1;
  destruct (nth (Z.to_nat dl) pl (None, [], 0)) as [[p' q'] c'] eqn:E2;
  (etransitivity; [src_cbvl; reflexivity|]);
  repeat (match goal with |- context [nth ?a q ?d] => progress change (nth a q d) with (nth (Z.to_nat c) q (mkFQ2 (zeroF B) (zeroF B), mkFQ2 (zeroF B) (zeroF B), mkFQ2 (zeroF B) (zeroF B))) end); rewrite ?E1;
  repeat (match goal with |- context [nth ?a pl ?d] => progress change (nth a pl d) with (nth (Z.to_nat dl) pl (None, [], 0)) end); rewrite ?E2;
  (destruct (inr c q); [|reflexivity]); (destruct (inr dl pl); [|reflexivity]); destruct p'; reflexivity.
Qed.

Lemma ell_turn_nil LOOP RANGE its found f c pl dl pre K kr kb kc : okpre pre ->
  exec (limbsB B) (zeroF B) (glob B) (callB B) LOOP RANGE depth ell_src
    ([] :: [("i"%string, VI dl); ("pair"%string, piV (None, [], c))] :: pre ++ [mil_env its found f pl])%list K kr kb kc = Panic.
Proof. assert (E : inr c (@nil coef) = false) by (unfold inr; cbn [length Z.of_nat]; rewrite !less_ltb; destruct (c <? 0); reflexivity).
  intros [|b z|b z]; (etransitivity; [src_cbvl; reflexivity|]); rewrite E; reflexivity.
Qed.

Lemma ell_range its found n c pre (Hc : 0 <= c) (Hp : okpre pre) : forall l dn f kn kr, Forall okitem l ->
  rangeB B (S n) "i" "pair" (Z.of_nat (length dn)) (map piV (map (at_ c) l)) ell_src (pre ++ [mil_env its found f (map (at_ (c + 1)) dn ++ map (at_ c) l)])%list kn kr =
  match ell_all B f (map (toPI c) l) with
  | None => Panic
  | Some r => kn (pre ++ [mil_env its found (fst r) (map (at_ (c + 1)) (dn ++ l))])%list
  end.
Proof.
  induction l as [|[p q] l IH]; intros dn f kn kr Hl; inversion_clear Hl.
  - cbn [map ell_all]. rewrite rangeB_nil, app_nil_r. cbn [fst]. rewrite app_nil_r. reflexivity.
  - cbn [map]. rewrite rangeB_cons. cbn [ell_all toPI pi_q pi_i pi_p fst snd at_].
    unfold at_ at 1 2. cbn [fst snd].
    destruct p as [p|].
    + refine (eq_trans (ell_turn _ _ its found f p q c _ (Z.of_nat (length dn)) pre _ kr _ _ Hp) _).
      rewrite (inr_nth c q Hc).
      destruct (nth_error q (Z.to_nat c)) as [cs|] eqn:En; [|reflexivity].
      rewrite (nth_error_nth _ _ _ En).
      assert (Ed : length dn = length (map (at_ (c + 1)) dn)) by (rewrite map_length; reflexivity). rewrite !Ed.
      change ((Some p, q, c) :: map (at_ c) l) with (at_ c (Some p, q) :: map (at_ c) l).
      rewrite inr_mid, nth_mid. cbv zeta. rewrite upd_mid. cbn [at_ fst snd].
      replace (Z.of_nat (length (map (at_ (c + 1)) dn)) + 1) with (Z.of_nat (length (dn ++ [(Some p, q)]))) by (rewrite app_length, map_length; cbn [length]; lia).
      replace (map (at_ (c + 1)) dn ++ (Some p, q, c + 1) :: map (at_ c) l)%list with (map (at_ (c + 1)) (dn ++ [(Some p, q)]) ++ map (at_ c) l)%list by (rewrite map_app, <- app_assoc; reflexivity).
      specialize (IH (dn ++ [(Some p, q)])%list (ell B f cs p) kn kr H0).
      cbn [pop app]. etransitivity; [exact IH|].
      destruct (ell_all B (ell B f cs p) (map (toPI c) l)) as [[f' ps]|]; [|reflexivity].
      cbn [fst]. rewrite <- app_assoc. reflexivity.
    + assert (q = []) by exact (H eq_refl). subst q.
      refine (eq_trans (ell_turn_nil _ _ its found f c _ (Z.of_nat (length dn)) pre _ kr _ _ Hp) _).
      destruct (Z.to_nat c); reflexivity.
Qed.

(** the loop that makes the pairs *)
Definition fill_src : list stmt := match nth_error (f_body src_MillerLoop) 1 with Some (SRange _ _ _ b) => b | _ => [] end.
Definition mk (it : Affine F * G2Prepared F) : item :=
  if negb (Affine_IsZero (fst it)) && negb (pinf (snd it)) then (Some (fst it), coeffs (snd it)) else (None, []).
Lemma mk_ok l : Forall okitem (map mk l).
Proof. induction l as [|[P Q] l IH]; constructor; [|exact IH]. unfold okitem, mk. destruct (_ && _); cbn; congruence. Qed.
Definition fill_env its (pl : list (option (Affine F) * list coef * Z)) : list (string * V F) := [("pairs", VPI pl); ("items", VMI its)]%string.
Lemma fill_turn LOOP RANGE its it pl dl K kr kb kc :
  exec (limbsB B) (zeroF B) (glob B) (callB B) LOOP RANGE depth fill_src [[]; [("i"%string, VI dl); ("item"%string, itemV it)]; fill_env its pl] K kr kb kc =
  if negb (Affine_IsZero (fst it)) && negb (pinf (snd it)) then
    if inr dl pl then K [[]; [("i"%string, VI dl); ("item"%string, itemV it)]; fill_env its (upd pl (Z.to_nat dl) (Some (fst it), coeffs (snd it), 0))] else Panic
  else K [[]; [("i"%string, VI dl); ("item"%string, itemV it)]; fill_env its pl].
Proof.
  destruct it as [P [cs i]]. cbn [fst snd coeffs pinf]. etransitivity; [src_cbvl; reflexivity|]. destruct (Affine_IsZero P); [reflexivity|]. destruct i; [reflexivity|].
  cbn [negb andb]. destruct (inr dl pl); reflexivity.
Qed.
Lemma fill_range its n : forall l dn kn kr,
  rangeB B (S n) "i" "item" (Z.of_nat (length dn)) (map itemV l) fill_src [fill_env its (map (at_ 0) (map mk dn) ++ repeat (None, [], 0) (length l))%list] kn kr =
  kn [fill_env its (map (at_ 0) (map mk (dn ++ l)))].
Proof.
  induction l as [|it l IH]; intros dn kn kr.
  - cbn [map repeat length]. rewrite rangeB_nil, !app_nil_r. reflexivity.
  - cbn [map repeat length]. rewrite rangeB_cons.
    refine (eq_trans (fill_turn _ _ its it _ (Z.of_nat (length dn)) _ kr _ _) _).
    assert (Ed : length dn = length (map (at_ 0) (map mk dn))) by (rewrite !map_length; reflexivity).
    specialize (IH (dn ++ [it])%list kn kr). rewrite <- app_assoc in IH. cbn [app] in IH.
    replace (Z.of_nat (length (dn ++ [it]))) with (Z.of_nat (length dn) + 1) in IH by (rewrite app_length; cbn [length]; lia).
    rewrite !map_app, <- app_assoc in IH. cbn [map app] in IH. rewrite !map_app. cbn [map].
    destruct (negb _ && negb _) eqn:Em.
    + replace (at_ 0 (mk it)) with (Some (fst it), coeffs (snd it), 0) in IH |- * by (unfold mk; rewrite Em; reflexivity).
      rewrite Ed in IH |- *. rewrite inr_mid, upd_mid. exact IH.
    + replace (at_ 0 (mk it)) with (@None (Affine F), @nil coef, 0) in IH |- * by (unfold mk; rewrite Em; reflexivity). exact IH.
Qed.

(** one turn of the loop over the bits *)
Notation mcond := (fcond src_MillerLoop). Notation mpost := (fpost src_MillerLoop). Notation mbody := (fbody src_MillerLoop).
Definition qv (z : Z) : list (string * V F) := [("q"%string, VU 64 z)].
Definition mc : expr := match mcond with Some c => c | None => EI 0 end.
Lemma mil_cond n its found f pl z k : evalB B n mc [qv z; mil_env its found f pl] k = k (VB (z <=? 63)) [qv z; mil_env its found f pl].
Proof. etransitivity; [src_cbvl; reflexivity|]. rewrite blsX_len. reflexivity. Qed.
Lemma mil_S n e kn kr : loopB B (S n) mcond mpost mbody e kn kr =
  evalB B n mc e (fun v e => match v with
    | VB b =>
        if b then
          execB B n mbody ([] :: e) (fun e => execB B n mpost (pop e) (fun e => loopB B n mcond mpost mbody e kn kr) kr (fun _ => Stuck) (fun _ => Stuck)) kr
            (fun e => kn (pop e)) (fun e => execB B n mpost (pop e) (fun e => loopB B n mcond mpost mbody e kn kr) kr (fun _ => Stuck) (fun _ => Stuck))
        else kn e
    | _ => Stuck
    end).
Proof. exact_no_check (loopB_S B n mcond mpost mbody e kn kr). Qed.
Lemma mil_stop n its found f pl kn kr : loopB B (S n) mcond mpost mbody [qv 64; mil_env its found f pl] kn kr = kn [qv 64; mil_env its found f pl].
Proof. rewrite mil_S, mil_cond. reflexivity. Qed.
Lemma mil_turn n its l found f c z kn kr : 0 <= z <= 63 -> 0 <= c -> Forall okitem l ->
  loopB B (S (S n)) mcond mpost mbody [qv z; mil_env its found f (map (at_ c) l)] kn kr =
  if found then
    match ell_all B f (map (toPI c) l) with
    | None => Panic
    | Some (f, _) =>
        if bls_b z then
          match ell_all B f (map (toPI (c + 1)) l) with
          | None => Panic
          | Some (f, _) => loopB B (S n) mcond mpost mbody [qv (z + 1); mil_env its true (FQ12_SquareAssign B f) (map (at_ (c + 1 + 1)) l)] kn kr
          end
        else loopB B (S n) mcond mpost mbody [qv (z + 1); mil_env its true (FQ12_SquareAssign B f) (map (at_ (c + 1)) l)] kn kr
    end
  else loopB B (S n) mcond mpost mbody [qv (z + 1); mil_env its (bls_b z) f (map (at_ c) l)] kn kr.
Proof.
  intros Hz Hc Hl. rewrite mil_S, mil_cond, (proj2 (Z.leb_le z 63)) by lia. cbv iota.
  set (pl := map (at_ c) l).
  assert (Ew : wsub 63 z = 63 - z) by (unfold wsub; rewrite wlo_small by (unfold isW; lia); reflexivity).
  assert (Ea : wadd z 1 = z + 1) by (unfold wadd; rewrite wlo_small by (unfold isW; lia); lia).
  unfold execB at 1.
  refine (use_K (fun M => exec _ _ _ _ _ _ _ _ _ M _ _ M = _) _ _). intros M HM.
  assert (HM' : forall fd g q b, M [[("set"%string, VB b)]; qv z; mil_env its fd g q] = loopB B (S n) mcond mpost mbody [qv (z + 1); mil_env its fd g q] kn kr).
  { intros. rewrite HM. cbv beta. cbn [pop]. unfold execB. rewrite <- Ea. step. reflexivity. }
  step_open K HK. etransitivity; [src_lhs; rewrite blsX_len, Ew; rewrite (blsX_bit (63 - z)) by lia; reflexivity|]. fold (bls_b z). step_close K HK.
  destruct found.
  - step.
    step_range (fun kn kr => ell_range its true n c [[("set"%string, VB (bls_b z))]; qv z] Hc (pre_for _ _) l [] f kn kr Hl).
    destruct (ell_all B f (map (toPI c) l)) as [[f1 ps]|]; [|reflexivity]. cbn [fst app].
    destruct (bls_b z).
    + step_open K HK.
      match goal with |- exec1 _ _ _ _ _ _ _ _ _ _ ?kr _ _ = _ =>
        etransitivity; [match goal with |- _ = ?y => let h := constr:(ell_range its true n (c + 1) [[]; []; [("set"%string, VB true)]; qv z] ltac:(lia) (pre_if _ _) l [] f1 (fun en => K (pop (pop en))) kr Hl) in
           match type of h with _ = ?m => unify y m; exact_no_check h end end|] end.
      cbv beta. step_close K HK.
      destruct (ell_all B f1 (map (toPI (c + 1)) l)) as [[f2 ps2]|]; [|reflexivity]. cbn [fst app pop].
      step. exact (HM' true (FQ12_SquareAssign B f2) (map (at_ (c + 1 + 1)) l) true).
    + step. step. exact (HM' true (FQ12_SquareAssign B f1) (map (at_ (c + 1)) l) false).
  - step_open K HK. src_lhs. exact (HM' (bls_b z) f pl (bls_b z)).
Qed.

(** the loop *)
Definition mil_body (set : bool) (st : option (FQ12 F * list pairingItem)) : option (FQ12 F * list pairingItem) :=
  match st with
  | None => None
  | Some (f, pairs) =>
      match ell_all B f pairs with
      | None => None
      | Some (f, pairs) =>
          match (if set then ell_all B f pairs else Some (f, pairs)) with
          | None => None
          | Some (f, pairs) => Some (FQ12_SquareAssign B f, pairs)
          end
      end
  end.
Definition fromPI (l : list item) (ps : list (@pairingItem F)) : list (option (Affine F) * list coef * Z) :=
  map (fun xp => (fst (fst xp), snd (fst xp), Z.of_nat (pi_i (snd xp)))) (combine l ps).
Lemma fromPI_to c l : 0 <= c -> fromPI l (map (toPI c) l) = map (at_ c) l.
Proof. intros H. unfold fromPI. induction l as [|x l IH]; [reflexivity|]. cbn [map combine]. rewrite IH. unfold at_. cbn [fst snd toPI pi_i]. rewrite Z2Nat.id by exact H. reflexivity. Qed.
Lemma none_fold s : forall found, snd (fold_left (bls_step mil_body) s (found, None)) = None.
Proof. induction s as [|i s IH]; intros found; [reflexivity|]. cbn [fold_left]. rewrite bls_step_eq. destruct found; cbn [mil_body]; apply IH. Qed.
Lemma mil_loop its l (Hl : Forall okitem l) : forall k m i found f c kn kr, (i + k = 64)%nat -> 0 <= c ->
  loopB B (S (k + m)) mcond mpost mbody [qv (Z.of_nat i); mil_env its found f (map (at_ c) l)] kn kr =
  (let st := fold_left (bls_step mil_body) (seq i k) (found, Some (f, map (toPI c) l)) in
   match snd st with
   | None => Panic
   | Some r => kn [qv 64; mil_env its (fst st) (fst r) (fromPI l (snd r))]
   end).
Proof.
  induction k; intros m i found f c kn kr Hk Hc; cbv zeta.
  - assert (i = 64%nat) by lia. subst i. change (S (0 + m)) with (S m). change (Z.of_nat 64) with 64. rewrite mil_stop.
    cbn [seq fold_left fst snd]. rewrite fromPI_to by exact Hc. reflexivity.
  - change (S (S k + m)) with (S (S (k + m))). rewrite mil_turn by (assumption || lia). cbn [seq fold_left]. rewrite bls_step_eq.
    replace (Z.of_nat i + 1) with (Z.of_nat (S i)) by lia.
    destruct found; [|exact (IHk m (S i) _ f c kn kr ltac:(lia) Hc)].
    cbn [mil_body]. destruct (ell_all B f (map (toPI c) l)) as [[f1 ps]|] eqn:E1; [|rewrite none_fold; reflexivity].
    rewrite (ell_all_pairs c Hc _ _ _ _ E1).
    destruct (bls_b (Z.of_nat i)).
    + destruct (ell_all B f1 (map (toPI (c + 1)) l)) as [[f2 ps2]|] eqn:E2; [|rewrite none_fold; reflexivity].
      rewrite (ell_all_pairs (c + 1) ltac:(lia) _ _ _ _ E2).
      exact (IHk m (S i) true _ (c + 1 + 1) kn kr ltac:(lia) ltac:(lia)).
    + exact (IHk m (S i) true _ (c + 1) kn kr ltac:(lia) ltac:(lia)).
Qed.
Lemma mil_fold_ok l s : forall found f c, 0 <= c ->
  match snd (fold_left (bls_step mil_body) s (found, Some (f, map (toPI c) l))) with None => True | Some r => exists c', 0 <= c' /\ snd r = map (toPI c') l end.
Proof.
  induction s as [|i s IH]; intros found f c Hc; cbn [fold_left].
  - cbn [snd]. exists c. split; [exact Hc|reflexivity].
  - rewrite bls_step_eq. destruct found; [|exact (IH _ f c Hc)]. cbn [mil_body].
    destruct (ell_all B f (map (toPI c) l)) as [[f1 ps]|] eqn:E1; [|rewrite none_fold; exact I].
    rewrite (ell_all_pairs c Hc _ _ _ _ E1).
    destruct (bls_b (Z.of_nat i)).
    + destruct (ell_all B f1 (map (toPI (c + 1)) l)) as [[f2 ps2]|] eqn:E2; [|rewrite none_fold; exact I].
      rewrite (ell_all_pairs (c + 1) ltac:(lia) _ _ _ _ E2). apply IH. lia.
    + apply IH. lia.
Qed.

Lemma src_MillerLoop_ok n its : runB B (65 + n) src_MillerLoop [VMI its] =
  match MillerLoop B its with Some f => Done [VMI its] [V12 f] | None => Panic end.
Proof.
  assert (EM : MillerLoop B its =
    match snd (fold_left (bls_step mil_body) (seq 0 64) (false, Some (FQ12One B, map (toPI 0) (map mk its)))) with
    | None => None
    | Some (f, pairs) => match ell_all B f pairs with None => None | Some (f, _) => Some (FQ12_ConjugateAssign B f) end
    end).
  { unfold MillerLoop. rewrite blsX_loop_step.
    replace (map (fun item : Affine F * G2Prepared F => let '(P, Q) := item in
      if negb (Affine_IsZero P) && negb (pinf Q) then mkPI P (coeffs Q) 0 else mkPI (AffineZero (b_ops B)) [] 0) its)
      with (map (toPI 0) (map mk its)).
    2:{ rewrite map_map. apply map_ext. intros [P Q]. unfold mk, toPI. cbn [fst snd]. destruct (_ && _); reflexivity. }
    change (fun (set : bool) (st : option (FQ12 F * list pairingItem)) => _) with mil_body.
    destruct (snd _) as [[f ps]|]; reflexivity. }
  rewrite EM. clear EM.
  change (65 + n)%nat with (S (64 + n)).
  pose proof (mil_loop its (map mk its) (mk_ok its) 64 n 0 false (FQ12One B) 0) as HL. cbv zeta in HL.
  pose proof (mil_fold_ok (map mk its) (seq 0 64) false (FQ12One B) 0 (Z.le_refl 0)) as HF.
  destruct (fold_left (bls_step mil_body) (seq 0 64) (false, Some (FQ12One B, map (toPI 0) (map mk its)))) as [fd st]. cbn [fst snd] in *.
  unfold runB, runB_with. to_exec.
  step_open K HK.
  etransitivity; [transitivity (K [fill_env its (repeat (None, [], 0) (Z.to_nat (Z.of_nat (length its))))]); [destruct its; src_cbvl; reflexivity|rewrite Nat2Z.id; reflexivity]|].
  step_close K HK.
  step_range (fun kn kr => fill_range its (64 + n) its [] kn kr). cbn [app].
  step. step. step. step. step.
  step_loop (fun kn kr => HL kn kr eq_refl (Z.le_refl 0)).
  destruct st as [[f ps]|]; [|reflexivity]. destruct HF as [c [Hc Ep]]. cbn [fst snd pop] in *. subst ps. rewrite fromPI_to by exact Hc.
  step_range (fun kn kr => ell_range its fd (64 + n) c [] Hc pre_top (map mk its) [] f kn kr (mk_ok its)).
  destruct (ell_all B f (map (toPI c) (map mk its))) as [[f1 ps1]|]; [|reflexivity]. cbn [fst app].
  src.
Qed.
End S.
