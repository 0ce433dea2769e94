(** FQ2.Exp, FQ6.Exp, FQ12.Exp, FQ2.MulBits, G2Affine.MulBig and the Frobenius maps, run from their source text. *)
Require Import ZArith Bool String List Lia.
From Verif Require Import Words ModelRepr ModelFq ModelFr ModelOps ModelTower ModelCurve ModelPairing ModelHash ModelBls SrcAst SrcSem SrcCode SrcCall SrcTac ReprProofs ReprProofs2 FqProofs SrcLoops.
Import ListNotations.
Open Scope Z_scope.

Lemma half_small z k : 0 <= z < 2 ^ Z.of_nat (S k) -> 0 <= z / 2 ^ 1 < 2 ^ Z.of_nat k.
Proof.
  rewrite Nat2Z.inj_succ, Z.pow_succ_r by lia. intros H. split; [apply Z.div_pos; lia|].
  change (2 ^ 1) with 2. apply Z.div_lt_upper_bound; lia.
Qed.
Lemma Cmp_bigZero n : wf6 n -> (FQRepr_Cmp n bigZero =? 0) = (eval6 n =? 0).
Proof.
  intros H. rewrite FQRepr_Cmp_eval by (assumption || apply bigZero_wf). change (eval6 bigZero) with 0. unfold zcmp.
  destruct (Z.compare_spec (eval6 n) 0); destruct (Z.eqb_spec (eval6 n) 0); try lia; reflexivity.
Qed.

Lemma bits_loop_S {A} (body : bool -> A -> A) k bi s : bits_loop body (S k) bi s =
  (let '((next, done), bi') := BitIterator_Next bi in if done then s else bits_loop body k bi' (body next s)).
Proof. reflexivity. Qed.

Section S.
Context {F : Type} (B : BOps F).
Lemma FQ12_Exp_loop f n : forall k m nCopy fi res, wf6 nCopy -> eval6 nCopy < 2 ^ Z.of_nat k -> exists fi' nCopy', forall kn kr,
  loopB B (S k + m) (fcond src_FQ12_Exp) (fpost src_FQ12_Exp) (fbody src_FQ12_Exp)
    [[]; [("fi", V12 fi); ("res", V12 res); ("nCopy", VR nCopy); ("f", V12 f); ("n", VR n)]]%string kn kr =
  kn [[]; [("fi", V12 fi'); ("res", V12 (ExpLoop (FQ12_MulAssign B) (fun x => FQ12_MulAssign B x x) (S k) nCopy fi res)); ("nCopy", VR nCopy'); ("f", V12 f); ("n", VR n)]]%string.
Proof.
  induction k; intros m nCopy fi res Wn Hn; cbn [Nat.add ExpLoop]; pose proof (Cmp_bigZero nCopy Wn) as C; pose proof (eval6_bound nCopy Wn).
  - destruct (Z.eqb_spec (eval6 nCopy) 0); [|change (2 ^ Z.of_nat 0) with 1 in Hn; lia]. exists fi, nCopy. intros. rewrite loopB_S. src_lhs. rewrite C. reflexivity.
  - destruct (Z.eqb_spec (eval6 nCopy) 0) as [E|E].
    + exists fi, nCopy. intros. rewrite loopB_S. src_lhs. rewrite C. reflexivity.
    + destruct (FQRepr_Rsh_spec nCopy 1 Wn ltac:(lia)) as [W' E'].
      destruct (IHk m (FQRepr_Rsh nCopy 1) (FQ12_MulAssign B fi fi) (if negb (isEven nCopy) then FQ12_MulAssign B res fi else res) W') as [fi' [n' IH]].
      { rewrite E'. apply half_small. lia. }
      exists fi', n'. intros kn kr. rewrite loopB_S. src_lhs. rewrite C. specialize (IH kn kr). destruct (isEven nCopy); exact IH.
Qed.
Lemma FQ12_Exp_run LOOP RANGE f n : (exists fi' nCopy', forall kn kr,
   LOOP (fcond src_FQ12_Exp) (fpost src_FQ12_Exp) (fbody src_FQ12_Exp)
    [[]; [("fi", V12 f); ("res", V12 (FQ12One B)); ("nCopy", VR n); ("f", V12 f); ("n", VR n)]]%string kn kr =
   kn [[]; [("fi", V12 fi'); ("res", V12 (FQ12_Exp B f n)); ("nCopy", VR nCopy'); ("f", V12 f); ("n", VR n)]]%string) ->
  runB_with B LOOP RANGE src_FQ12_Exp [V12 f; VR n] = Done [] [V12 (FQ12_Exp B f n)].
Proof. intros [fi' [n' H]]. run_loop H. src. Qed.
Lemma src_FQ12_Exp_ok k f n : wf6 n -> runB B (385 + k) src_FQ12_Exp [V12 f; VR n] = Done [] [V12 (FQ12_Exp B f n)].
Proof.
  intros W. apply FQ12_Exp_run. apply (FQ12_Exp_loop f n 384); [exact W|]. apply (eval6_bound n W).
Qed.

Lemma FQ6_Exp_loop f n : forall k m nCopy fi res, wf6 nCopy -> eval6 nCopy < 2 ^ Z.of_nat k -> exists fi' nCopy', forall kn kr,
  loopB B (S k + m) (fcond src_FQ6_Exp) (fpost src_FQ6_Exp) (fbody src_FQ6_Exp)
    [[]; [("fi", V6 fi); ("res", V6 res); ("nCopy", VR nCopy); ("f", V6 f); ("n", VR n)]]%string kn kr =
  kn [[]; [("fi", V6 fi'); ("res", V6 (ExpLoop (FQ6_MulAssign B) (FQ6_MulAssign_aliased B) (S k) nCopy fi res)); ("nCopy", VR nCopy'); ("f", V6 f); ("n", VR n)]]%string.
Proof.
  induction k; intros m nCopy fi res Wn Hn; cbn [Nat.add ExpLoop]; pose proof (Cmp_bigZero nCopy Wn) as C; pose proof (eval6_bound nCopy Wn).
  - destruct (Z.eqb_spec (eval6 nCopy) 0); [|change (2 ^ Z.of_nat 0) with 1 in Hn; lia]. exists fi, nCopy. intros. rewrite loopB_S. src_lhs. rewrite C. reflexivity.
  - destruct (Z.eqb_spec (eval6 nCopy) 0) as [E|E].
    + exists fi, nCopy. intros. rewrite loopB_S. src_lhs. rewrite C. reflexivity.
    + destruct (FQRepr_Rsh_spec nCopy 1 Wn ltac:(lia)) as [W' E'].
      destruct (IHk m (FQRepr_Rsh nCopy 1) (FQ6_MulAssign_aliased B fi) (if negb (isEven nCopy) then FQ6_MulAssign B res fi else res) W') as [fi' [n' IH]].
      { rewrite E'. apply half_small. lia. }
      exists fi', n'. intros kn kr. rewrite loopB_S. src_lhs. rewrite C. specialize (IH kn kr). destruct (isEven nCopy); exact IH.
Qed.
Lemma FQ6_Exp_run LOOP RANGE f n : (exists fi' nCopy', forall kn kr,
   LOOP (fcond src_FQ6_Exp) (fpost src_FQ6_Exp) (fbody src_FQ6_Exp)
    [[]; [("fi", V6 f); ("res", V6 (FQ6One B)); ("nCopy", VR n); ("f", V6 f); ("n", VR n)]]%string kn kr =
   kn [[]; [("fi", V6 fi'); ("res", V6 (FQ6_Exp B f n)); ("nCopy", VR nCopy'); ("f", V6 f); ("n", VR n)]]%string) ->
  runB_with B LOOP RANGE src_FQ6_Exp [V6 f; VR n] = Done [VR n] [V6 (FQ6_Exp B f n)].
Proof. intros [fi' [n' H]]. run_loop H. src. Qed.
Lemma src_FQ6_Exp_ok k f n : wf6 n -> runB B (385 + k) src_FQ6_Exp [V6 f; VR n] = Done [VR n] [V6 (FQ6_Exp B f n)].
Proof.
  intros W. apply FQ6_Exp_run. apply (FQ6_Exp_loop f n 384); [exact W|]. apply (eval6_bound n W).
Qed.

Lemma FQ2_Exp_loop f n : forall k m bi0 next done bi fo res, BitIterator_Next bi0 = ((next, done), bi) -> 0 <= bi_n bi0 <= Z.of_nat k ->
  exists bi' next' fo', forall kn kr,
  loopB B (S k + m) (fcond src_FQ2_Exp) (fpost src_FQ2_Exp) (fbody src_FQ2_Exp)
    [[]; [("done", VB done); ("next", VB next); ("foundOne", VB fo); ("res", V2 res); ("iter", VBI bi); ("f", V2 f); ("n", VR n)]]%string kn kr =
  kn [[]; [("done", VB true); ("next", VB next'); ("foundOne", VB fo'); 
    ("res", V2 (snd (bits_loop (fun next st => let '(foundOne, res) := st : bool * FQ2 F in
       let '(foundOne, res) := if foundOne then (foundOne, FQ2_SquareAssign B res) else (next, res) in
       (foundOne, if next then FQ2_MulAssign B res f else res)) (S k) bi0 (fo, res)))); ("iter", VBI bi'); ("f", V2 f); ("n", VR n)]]%string.
Proof.
  induction k; intros m bi0 next done bi fo res E Hn; cbn [Nat.add]; rewrite bits_loop_S, E.
  - assert (done = true) as -> by (unfold BitIterator_Next in E; destruct (Z.eqb_spec (bi_n bi0) 0); [congruence | lia]).
    exists bi, next, fo. intros. rewrite loopB_S. src_lhs. reflexivity.
  - destruct done.
    + exists bi, next, fo. intros. rewrite loopB_S. src_lhs. reflexivity.
    + destruct (BitIterator_Next bi) as [[next1 done1] bi1] eqn:E1.
      assert (bi_n bi = bi_n bi0 - 1) by (unfold BitIterator_Next in E; destruct (Z.eqb_spec (bi_n bi0) 0); inversion E; reflexivity).
      assert (0 <= bi_n bi) by (unfold BitIterator_Next in E; destruct (Z.eqb_spec (bi_n bi0) 0); [inversion E | lia]).
      destruct (IHk m bi next1 done1 bi1 (if fo then fo else next) (let r := if fo then FQ2_SquareAssign B res else res in if next then FQ2_MulAssign B r f else r) E1) as [bi' [next' [fo' IH]]]; [lia|].
      exists bi', next', fo'. intros kn kr. rewrite loopB_S. src_lhs. rewrite E1. cbn [fst snd].
      specialize (IH kn kr). destruct fo, next; exact IH.
Qed.
Lemma FQ2_Exp_run LOOP RANGE f n : (let nx := BitIterator_Next (NewBitIterator (FQRepr_slice n)) in exists bi' next' fo', forall kn kr,
   LOOP (fcond src_FQ2_Exp) (fpost src_FQ2_Exp) (fbody src_FQ2_Exp)
    [[]; [("done", VB (snd (fst nx))); ("next", VB (fst (fst nx))); ("foundOne", VB false); ("res", V2 (FQ2One B)); ("iter", VBI (snd nx)); ("f", V2 f); ("n", VR n)]]%string kn kr =
   kn [[]; [("done", VB true); ("next", VB next'); ("foundOne", VB fo'); ("res", V2 (FQ2_Exp B f n)); ("iter", VBI bi'); ("f", V2 f); ("n", VR n)]]%string) ->
  runB_with B LOOP RANGE src_FQ2_Exp [V2 f; VR n] = Done [] [V2 (FQ2_Exp B f n)].
Proof. intros [bi' [next' [fo' H]]]. run_loop H. src. Qed.
Lemma src_FQ2_Exp_ok k f n : runB B (385 + k) src_FQ2_Exp [V2 f; VR n] = Done [] [V2 (FQ2_Exp B f n)].
Proof.
  apply FQ2_Exp_run. cbv zeta. apply (FQ2_Exp_loop f n 384).
  - destruct (BitIterator_Next (NewBitIterator (FQRepr_slice n))) as [[next done] bi]. reflexivity.
  - cbn. lia.
Qed.

(** x.M(x): the body with the argument replaced by the receiver. *)
Lemma src_FQ6_MulAssign_alias_ok n f : runB B n (alias "other" "f" src_FQ6_MulAssign) [V6 f] = Done [V6 (FQ6_MulAssign_aliased B f)] [].
Proof. unfold FQ6_MulAssign_aliased. src. Qed.
Lemma src_FQ12_MulAssign_alias_ok n f : runB B n (alias "other" "f" src_FQ12_MulAssign) [V12 f] = Done [V12 (FQ12_MulAssign B f f)] [].
Proof. unfold FQ12_MulAssign. src. Qed.

(** Bits of a big.Int. *)
Lemma G2Affine_MulBig_loop g b : forall k m i res kn kr, 0 <= i -> big_BitLen b = i + Z.of_nat k ->
  loopB B (k + S m) (fcond src_G2Affine_MulBig) (fpost src_G2Affine_MulBig) (fbody src_G2Affine_MulBig)
    [[("i", VI i)]; [("res", VP2 res); ("g", VA2 g); ("b", VBig b)]]%string kn kr =
  kn [[("i", VI (big_BitLen b))]; [("res", VP2 (mul_from (big_BitLen b) (fun n => Some (Z.testbit b n)) (Double (FQ2O B)) (fun res => AddAffine (FQ2O B) res g) i k res)); ("g", VA2 g); ("b", VBig b)]]%string.
Proof.
  induction k; intros m i res kn kr Hi Hk.
  - cbn [Nat.add]. rewrite loopB_S. src_lhs. replace i with (big_BitLen b) by lia. rewrite ltb_no. reflexivity.
  - change (S k + S m)%nat with (S (k + S m)). rewrite loopB_S, mul_from_S by exact Hi.
    src_lhs. rewrite ltb_yes by lia. change (isub (isub (big_BitLen b) i) 1) with (big_BitLen b - i - 1).
    destruct (Z.testbit b (big_BitLen b - i - 1)); apply IHk; unfold iadd; lia.
Qed.
Lemma G2Affine_MulBig_run LOOP RANGE g b : (forall kn kr, LOOP (fcond src_G2Affine_MulBig) (fpost src_G2Affine_MulBig) (fbody src_G2Affine_MulBig)
    [[("i", VI 0)]; [("res", VP2 (ProjectiveZero (FQ2O B))); ("g", VA2 g); ("b", VBig b)]]%string kn kr =
  kn [[("i", VI (big_BitLen b))]; [("res", VP2 (mul_from (big_BitLen b) (fun n => Some (Z.testbit b n)) (Double (FQ2O B)) (fun res => AddAffine (FQ2O B) res g) 0 (Z.to_nat (big_BitLen b)) (ProjectiveZero (FQ2O B)))); ("g", VA2 g); ("b", VBig b)]]%string) ->
  runB_with B LOOP RANGE src_G2Affine_MulBig [VA2 g; VBig b] = Done [] [VP2 (Affine_MulBig (FQ2O B) g b)].
Proof. intros H. run_loop H. src. Qed.
Lemma big_BitLen_pos b : 0 <= big_BitLen b.
Proof. unfold big_BitLen, bitlen. destruct (Z.abs b =? 0); [lia|]. pose proof (Z.log2_nonneg (Z.abs b)). lia. Qed.
(** one turn per bit and the last test *)
Lemma src_G2Affine_MulBig_ok n g b : runB B (Z.to_nat (big_BitLen b) + S n) src_G2Affine_MulBig [VA2 g; VBig b] = Done [] [VP2 (Affine_MulBig (FQ2O B) g b)].
Proof. pose proof (big_BitLen_pos b). apply G2Affine_MulBig_run. intros. apply G2Affine_MulBig_loop; lia. Qed.

Definition bits_from (f : FQ2 F) b i k res :=
  fold_left (fun res i => let res := FQ2_DoubleAssign B res in if Z.testbit b (big_BitLen b - 1 - Z.of_nat i) then FQ2_AddAssign B res f else res) (seq (Z.to_nat i) k) res.
Lemma bits_from_S f b i k res : 0 <= i -> bits_from f b i (S k) res =
  bits_from f b (i + 1) k (if Z.testbit b (big_BitLen b - 1 - i) then FQ2_AddAssign B (FQ2_DoubleAssign B res) f else FQ2_DoubleAssign B res).
Proof.
  intros H. unfold bits_from. cbn [seq fold_left]. rewrite Z2Nat.id by exact H.
  replace (Z.to_nat (i + 1)) with (S (Z.to_nat i)) by lia. reflexivity.
Qed.
Lemma FQ2_MulBits_loop f b : forall k m i res kn kr, 0 <= i -> big_BitLen b = i + Z.of_nat k ->
  loopB B (k + S m) (fcond src_FQ2_MulBits) (fpost src_FQ2_MulBits) (fbody src_FQ2_MulBits)
    [[("i", VI i)]; [("res", V2 res); ("f", V2 f); ("b", VBig b)]]%string kn kr =
  kn [[("i", VI (big_BitLen b))]; [("res", V2 (bits_from f b i k res)); ("f", V2 f); ("b", VBig b)]]%string.
Proof.
  induction k; intros m i res kn kr Hi Hk.
  - cbn [Nat.add]. rewrite loopB_S. src_lhs. replace i with (big_BitLen b) by lia. rewrite ltb_no. reflexivity.
  - change (S k + S m)%nat with (S (k + S m)). rewrite loopB_S, bits_from_S by exact Hi.
    src_lhs. rewrite ltb_yes by lia. change (isub (isub (big_BitLen b) 1) i) with (big_BitLen b - 1 - i).
    destruct (Z.testbit b (big_BitLen b - 1 - i)); apply IHk; unfold iadd; lia.
Qed.
Lemma FQ2_MulBits_run LOOP RANGE f b : (forall kn kr, LOOP (fcond src_FQ2_MulBits) (fpost src_FQ2_MulBits) (fbody src_FQ2_MulBits)
    [[("i", VI 0)]; [("res", V2 (FQ2Zero B)); ("f", V2 f); ("b", VBig b)]]%string kn kr =
  kn [[("i", VI (big_BitLen b))]; [("res", V2 (FQ2_MulBits B f b)); ("f", V2 f); ("b", VBig b)]]%string) ->
  runB_with B LOOP RANGE src_FQ2_MulBits [V2 f; VBig b] = Done [VBig b] [V2 (FQ2_MulBits B f b)].
Proof. intros H. run_loop H. src. Qed.
Lemma src_FQ2_MulBits_ok n f b : runB B (Z.to_nat (big_BitLen b) + S n) src_FQ2_MulBits [V2 f; VBig b] = Done [VBig b] [V2 (FQ2_MulBits B f b)].
Proof. pose proof (big_BitLen_pos b). apply FQ2_MulBits_run. intros. rewrite (FQ2_MulBits_loop f b) by lia. reflexivity. Qed.

(** The tables of the Frobenius maps have an entry for every power. *)
Lemma inr_mod {A} (l : list A) p k : Z.of_nat (length l) = k -> 0 < k -> inr (p mod k) l = true.
Proof.
  intros L K. pose proof (Z.mod_pos_bound p k K). unfold inr, less.
  destruct (Z.compare_spec (p mod k) 0), (Z.compare_spec (p mod k) (Z.of_nat (length l))); try lia; reflexivity.
Qed.
Lemma nth_mod {A} (l : list A) p k d d' : Z.of_nat (length l) = k -> 0 < k -> nth (Z.to_nat (p mod k)) l d = nth (Z.to_nat (p mod k)) l d'.
Proof. intros L K. pose proof (Z.mod_pos_bound p k K). apply nth_indep. lia. Qed.
Lemma src_FQ2_FrobeniusMapAssign_ok n f p : runB B n src_FQ2_FrobeniusMapAssign [V2 f; VU 8 p] = Done [V2 (FQ2_FrobeniusMapAssign B f p)] [].
Proof.
  unfold FQ2_FrobeniusMapAssign. src_lhs. rewrite (inr_mod (frobeniusCoeffFQ2c1 B) p 2) by reflexivity.
  rewrite (nth_mod (frobeniusCoeffFQ2c1 B) p 2 _ (o_zero (b_ops B))) by reflexivity. reflexivity.
Qed.
Lemma src_FQ6_FrobeniusMapAssign_ok n f p : runB B n src_FQ6_FrobeniusMapAssign [V6 f; VU 8 p] = Done [V6 (FQ6_FrobeniusMapAssign B f p)] [].
Proof.
  unfold FQ6_FrobeniusMapAssign. src_lhs. rewrite (inr_mod (frobeniusCoeffFQ6c1 B) p 6), (inr_mod (frobeniusCoeffFQ6c2 B) p 6) by reflexivity.
  rewrite (nth_mod (frobeniusCoeffFQ6c1 B) p 6 _ (FQ2Zero B)), (nth_mod (frobeniusCoeffFQ6c2 B) p 6 _ (FQ2Zero B)) by reflexivity. reflexivity.
Qed.
Lemma src_FQ12_FrobeniusMapAssign_ok n f p : runB B n src_FQ12_FrobeniusMapAssign [V12 f; VU 8 p] = Done [V12 (FQ12_FrobeniusMapAssign B f p)] [].
Proof.
  unfold FQ12_FrobeniusMapAssign. src_lhs. rewrite (inr_mod (frobeniusCoeffFQ12c1 B) p 12) by reflexivity.
  rewrite (nth_mod (frobeniusCoeffFQ12c1 B) p 12 _ (FQ2Zero B)) by reflexivity. reflexivity.
Qed.
End S.
