(** The two loops over the bits of the parameter, run from their source text. *)
Require Import ZArith Bool String List Lia.
From Verif Require Import Words ModelRepr ModelFq ModelFr ModelOps ModelTower ModelCurve ModelPairing ModelHash ModelBls SrcAst SrcSem SrcCode SrcCall SrcTac SrcLoops ReprProofs.
Import ListNotations.
Open Scope Z_scope.

Lemma blsX_len : FQRepr_BitLen blsXRsh1 = 63. Proof. reflexivity. Qed.
Lemma blsX_bit j : 0 <= j < 384 -> FQRepr_Bit blsXRsh1 j = Some (match FQRepr_Bit blsXRsh1 j with Some true => true | _ => false end).
Proof. intros H. destruct (Bit6 blsXRsh1 j H) as [[] ->]; reflexivity. Qed.

(** The closures of a function. *)
Definition clos {F} (f : func) (j : nat) : V F := match nth_error (f_body f) j with Some (SDef _ [EFunc ps rs b]) => VFun ps rs b | _ => VN end.

Section S.
Context {F : Type} (B : BOps F).
Definition bls_step {S : Type} (body : bool -> S -> S) (st : bool * S) (i : nat) : bool * S :=
  let '(foundOne, s) := st in
  let set := match FQRepr_Bit blsXRsh1 (FQRepr_BitLen blsXRsh1 - Z.of_nat i) with Some true => true | _ => false end in
  if negb foundOne then (set, s) else (foundOne, body set s).
Lemma blsX_loop_step {S} (body : bool -> S -> S) s : blsX_loop body s = snd (fold_left (bls_step body) (seq 0 64) (false, s)).
Proof. reflexivity. Qed.

Definition bls_b (z : Z) : bool := match FQRepr_Bit blsXRsh1 (63 - z) with Some true => true | _ => false end.
Lemma bls_step_eq {S} (body : bool -> S -> S) found s i : bls_step body (found, s) i =
  if found then (true, body (bls_b (Z.of_nat i)) s) else (bls_b (Z.of_nat i), s).
Proof. unfold bls_step, bls_b. rewrite blsX_len. destruct found; reflexivity. Qed.

Definition prep_body (q : Affine (FQ2 F)) (set : bool) (st : Proj (FQ2 F) * list (FQ2 F * FQ2 F * FQ2 F)) :=
  let '(r, cs) := st in
  let '(o, r) := doublingStep B r in
  let cs := snoc cs o in
  if set then
    let '(o, r) := additionStep B r q in
    (r, snoc cs o)
  else (r, cs).
Definition prep_env q found r cs : list (string * V F) :=
  [("blsXRsh1", VR blsXRsh1); ("foundOne", VB found); ("r", VP2 r); ("coeffs", VL3 cs);
   ("additionStep", clos src_G2AffineToPrepared 2); ("doublingStep", clos src_G2AffineToPrepared 1); ("q", VA2 q)]%string.
Lemma prep_loop q : forall k m i found r cs kn kr, (i + k = 64)%nat ->
  loopB B (k + S m) (fcond src_G2AffineToPrepared) (fpost src_G2AffineToPrepared) (fbody src_G2AffineToPrepared)
    [[("i"%string, VU 64 (Z.of_nat i))]; prep_env q found r cs] kn kr =
  (let st := fold_left (bls_step (prep_body q)) (seq i k) (found, (r, cs)) in
   kn [[("i"%string, VU 64 64)]; prep_env q (fst st) (fst (snd st)) (snd (snd st))]).
Proof.
  induction k; intros m i found r cs kn kr Hk.
  - change (0 + S m)%nat with (S m). rewrite loopB_S. assert (i = 64%nat) by lia. subst i. cbn [seq fold_left].
    src_lhs. rewrite blsX_len. reflexivity.
  - change (S k + S m)%nat with (S (k + S m)). rewrite loopB_S. cbn [seq fold_left].
    assert (Hi : 0 <= Z.of_nat i <= 63) by lia. remember (Z.of_nat i) as z eqn:Ez.
    rewrite bls_step_eq, <- Ez.
    assert (Ew : wsub 63 z = 63 - z) by (unfold wsub; rewrite wlo_small by (unfold isW; lia); reflexivity).
    assert (Ea : wadd z 1 = Z.of_nat (S i)) by (unfold wadd; rewrite wlo_small by (unfold isW; lia); lia).
    destruct found; cbv iota; (etransitivity; [src_lhs; rewrite blsX_len, Ew, Ea; rewrite (proj2 (Z.leb_le z 63)) by lia; rewrite (blsX_bit (63 - z)) by lia; reflexivity|]); fold (bls_b z); destruct (bls_b z).
    + rewrite (surjective_pairing (prep_body q true (r, cs))).
      exact_no_check (IHk m (S i) true (fst (prep_body q true (r, cs))) (snd (prep_body q true (r, cs))) kn kr ltac:(lia)).
    + rewrite (surjective_pairing (prep_body q false (r, cs))).
      exact_no_check (IHk m (S i) true (fst (prep_body q false (r, cs))) (snd (prep_body q false (r, cs))) kn kr ltac:(lia)).
    + exact (IHk m (S i) true r cs kn kr ltac:(lia)).
    + exact (IHk m (S i) false r cs kn kr ltac:(lia)).
Qed.
Lemma prep_run LOOP RANGE x y found r st : let q := mkAff x y false in
  (forall kn kr, LOOP (fcond src_G2AffineToPrepared) (fpost src_G2AffineToPrepared) (fbody src_G2AffineToPrepared)
    [[("i"%string, VU 64 0)]; prep_env q false (Affine_ToProjective (FQ2O B) q) []] kn kr =
    kn [[("i"%string, VU 64 64)]; prep_env q found r st]) ->
  runB_with B LOOP RANGE src_G2AffineToPrepared [VA2 q] = Done [VA2 q] [prepV (mkPrep (snoc st (fst (doublingStep B r))) false)].
Proof. cbv zeta. intros H. to_exec. do 8 step. step_loop H. unfold doublingStep. src. Qed.
Lemma src_G2AffineToPrepared_ok n q : runB B (65 + n) src_G2AffineToPrepared [VA2 q] = Done [VA2 q] [prepV (G2AffineToPrepared B q)].
Proof.
  destruct q as [x y []]; [change (G2AffineToPrepared B (mkAff x y true)) with (@mkPrep F [] true); to_exec; step; cbn [Affine_IsZero ainf]; src|].
  assert (E : G2AffineToPrepared B (mkAff x y false) =
    (let st := fold_left (bls_step (prep_body (mkAff x y false))) (seq 0 64) (false, (Affine_ToProjective (FQ2O B) (mkAff x y false), [])) in
     mkPrep (snoc (snd (snd st)) (fst (doublingStep B (fst (snd st))))) false)).
  { unfold G2AffineToPrepared. cbn [Affine_IsZero ainf]. rewrite blsX_loop_step.
    change (fun (set : bool) (st : Proj (FQ2 F) * list (FQ2 F * FQ2 F * FQ2 F)) => _) with (prep_body (mkAff x y false)).
    cbv zeta. destruct (fold_left _ _ _) as [f [r cs]]. cbn [fst snd]. destruct (doublingStep B r). reflexivity. }
  rewrite E. cbv zeta. refine (prep_run _ _ x y _ _ _ _). intros kn kr. exact (prep_loop (mkAff x y false) 64 n 0 false _ _ kn kr eq_refl).
Qed.
End S.
