(** The scalar multiplications of g1.go and g2.go, run from their source text. *)
Require Import ZArith Bool String List Lia.
From Verif Require Import Words ModelRepr ModelFq ModelFr ModelOps ModelTower ModelCurve ModelPairing ModelHash ModelBls SrcAst SrcSem SrcCode SrcCall SrcTac ReprProofs ReprProofs2.
Import ListNotations.
Open Scope Z_scope.

(** The loop of a multiplication from turn i on. *)
Definition mul_from {P} (bl : Z) (bit : Z -> option bool) (double addg : P -> P) (i : Z) (k : nat) (res : P) : P :=
  fold_left (fun res i => let o := bit (bl - Z.of_nat i - 1) in let res := double res in match o with Some true => addg res | _ => res end)
    (seq (Z.to_nat i) k) res.
Lemma mul_from_S {P} bl bit (double addg : P -> P) i k res : 0 <= i -> mul_from bl bit double addg i (S k) res =
  mul_from bl bit double addg (i + 1) k (match bit (bl - i - 1) with Some true => addg (double res) | _ => double res end).
Proof.
  intros H. unfold mul_from. cbn [seq fold_left]. rewrite Z2Nat.id by exact H.
  replace (Z.to_nat (i + 1)) with (S (Z.to_nat i)) by lia. reflexivity.
Qed.
Lemma wsub_bit bl i : 0 <= i < bl -> bl < 2 ^ 32 -> wsub (wsub bl i) 1 = bl - i - 1.
Proof. intros H H'. unfold wsub. rewrite (wlo_small (bl - i)), wlo_small by (unfold isW; lia). reflexivity. Qed.
Lemma wadd_1 bl i : 0 <= i < bl -> bl < 2 ^ 32 -> wadd i 1 = i + 1.
Proof. intros H H'. unfold wadd. rewrite wlo_small; unfold isW; lia. Qed.
Lemma ltb_yes i bl : i < bl -> (i <? bl) = true. Proof. apply Z.ltb_lt. Qed.
Lemma ltb_no i : (i <? i) = false. Proof. apply Z.ltb_irrefl. Qed.

(** The bits below the length can be read. *)
Lemma BitLen6 b : wf6 b -> 0 <= FQRepr_BitLen b <= 384.
Proof.
  intros H. rewrite FQRepr_BitLen_spec by exact H. pose proof (eval6_bound b H). unfold bitlen.
  destruct (Z.eqb_spec (eval6 b) 0); [lia|]. pose proof (Z.log2_nonneg (eval6 b)).
  assert (Z.log2 (eval6 b) < 384) by (apply Z.log2_lt_pow2; lia). lia.
Qed.
Lemma BitLen4 b : wf4 b -> 0 <= FRRepr_BitLen b <= 256.
Proof.
  intros H. rewrite FRRepr_BitLen_spec by exact H. pose proof (eval4_bound b H). unfold bitlen.
  destruct (Z.eqb_spec (eval4 b) 0); [lia|]. pose proof (Z.log2_nonneg (eval4 b)).
  assert (Z.log2 (eval4 b) < 256) by (apply Z.log2_lt_pow2; lia). lia.
Qed.
Lemma Bit6 b j : 0 <= j < 384 -> exists t, FQRepr_Bit b j = Some t.
Proof.
  intros H. unfold FQRepr_Bit. destruct (nth_error (FQRepr_slice b) (Z.to_nat (j / 64))) eqn:E; [eauto|].
  apply nth_error_None in E. cbn in E. exfalso.
  assert (j / 64 < 6) by (apply Z.div_lt_upper_bound; lia). lia.
Qed.
Lemma Bit4 b j : 0 <= j < 256 -> exists t, FRRepr_Bit b j = Some t.
Proof.
  intros H. unfold FRRepr_Bit. destruct (nth_error (FRRepr_slice b) (Z.to_nat (j / 64))) eqn:E; [eauto|].
  apply nth_error_None in E. cbn in E. exfalso.
  assert (j / 64 < 4) by (apply Z.div_lt_upper_bound; lia). lia.
Qed.


Section S.
Context {F : Type} (B : BOps F).
Lemma G1Affine_Mul_loop : forall g b, let bl := FQRepr_BitLen b in bl < 2 ^ 32 -> (forall j, 0 <= j < bl -> exists t, FQRepr_Bit b j = Some t) ->
  forall k m i res kn kr, 0 <= i -> bl = i + Z.of_nat k ->
  loopB B (k + S m) (fcond src_G1Affine_Mul) (fpost src_G1Affine_Mul) (fbody src_G1Affine_Mul)
    [[("i", VU 64 i)]; [("res", VP1 res); ("g", VA1 g); ("b", VR b)]]%string kn kr =
  kn [[("i", VU 64 bl)]; [("res", VP1 (mul_from (FQRepr_BitLen b) (FQRepr_Bit b) (Double (b_ops B)) (fun res => AddAffine (b_ops B) res g) i k res)); ("g", VA1 g); ("b", VR b)]]%string.
Proof.
  intros g b. cbv zeta. intros Hbl Hbit. induction k; intros m i res kn kr Hi Hk.
  - cbn [Nat.add]. rewrite loopB_S. src_lhs. replace i with (FQRepr_BitLen b) by lia. rewrite ltb_no. reflexivity.
  - change (S k + S m)%nat with (S (k + S m)). rewrite loopB_S, mul_from_S by exact Hi.
    destruct (Hbit (FQRepr_BitLen b - i - 1)) as [t Et]; [lia|]. rewrite Et.
    src_lhs. rewrite ltb_yes by lia. rewrite wsub_bit by lia. rewrite Et. rewrite (wadd_1 (FQRepr_BitLen b)) by lia.
    destruct t; apply IHk; lia.
Qed.
Lemma G1Affine_Mul_run LOOP RANGE g b : 
  (forall kn kr, LOOP (fcond src_G1Affine_Mul) (fpost src_G1Affine_Mul) (fbody src_G1Affine_Mul)
    [[("i", VU 64 0)]; [("res", VP1 (ProjectiveZero (b_ops B))); ("g", VA1 g); ("b", VR b)]]%string kn kr =
   kn [[("i", VU 64 (FQRepr_BitLen b))]; [("res", VP1 (mul_from (FQRepr_BitLen b) (FQRepr_Bit b) (Double (b_ops B)) (fun res => AddAffine (b_ops B) res g) 0 (Z.to_nat (FQRepr_BitLen b)) (ProjectiveZero (b_ops B)))); ("g", VA1 g); ("b", VR b)]]%string) ->
  runB_with B LOOP RANGE src_G1Affine_Mul [VA1 g; VR b] = Done [] [VP1 (Affine_Mul (b_ops B) g b)].
Proof. intros H. run_loop H. src. Qed.
Lemma src_G1Affine_Mul_ok n g b : wf6 b -> runB B (385 + n) src_G1Affine_Mul [VA1 g; VR b] = Done [] [VP1 (Affine_Mul (b_ops B) g b)].
Proof.
  intros W. pose proof (BitLen6 b W). apply G1Affine_Mul_run. intros.
  replace (385 + n)%nat with ((Z.to_nat (FQRepr_BitLen b)) + S (384 - (Z.to_nat (FQRepr_BitLen b)) + n))%nat by lia.
  apply G1Affine_Mul_loop; try lia. intros; apply Bit6; lia.
Qed.
Lemma G1Affine_MulFR_loop : forall g b, let bl := FRRepr_BitLen b in bl < 2 ^ 32 -> (forall j, 0 <= j < bl -> exists t, FRRepr_Bit b j = Some t) ->
  forall k m i res kn kr, 0 <= i -> bl = i + Z.of_nat k ->
  loopB B (k + S m) (fcond src_G1Affine_MulFR) (fpost src_G1Affine_MulFR) (fbody src_G1Affine_MulFR)
    [[("i", VU 64 i)]; [("res", VP1 res); ("g", VA1 g); ("b", VRr b)]]%string kn kr =
  kn [[("i", VU 64 bl)]; [("res", VP1 (mul_from (FRRepr_BitLen b) (FRRepr_Bit b) (Double (b_ops B)) (fun res => AddAffine (b_ops B) res g) i k res)); ("g", VA1 g); ("b", VRr b)]]%string.
Proof.
  intros g b. cbv zeta. intros Hbl Hbit. induction k; intros m i res kn kr Hi Hk.
  - cbn [Nat.add]. rewrite loopB_S. src_lhs. replace i with (FRRepr_BitLen b) by lia. rewrite ltb_no. reflexivity.
  - change (S k + S m)%nat with (S (k + S m)). rewrite loopB_S, mul_from_S by exact Hi.
    destruct (Hbit (FRRepr_BitLen b - i - 1)) as [t Et]; [lia|]. rewrite Et.
    src_lhs. rewrite ltb_yes by lia. rewrite wsub_bit by lia. rewrite Et. rewrite (wadd_1 (FRRepr_BitLen b)) by lia.
    destruct t; apply IHk; lia.
Qed.
Lemma G1Affine_MulFR_run LOOP RANGE g b : 
  (forall kn kr, LOOP (fcond src_G1Affine_MulFR) (fpost src_G1Affine_MulFR) (fbody src_G1Affine_MulFR)
    [[("i", VU 64 0)]; [("res", VP1 (ProjectiveZero (b_ops B))); ("g", VA1 g); ("b", VRr b)]]%string kn kr =
   kn [[("i", VU 64 (FRRepr_BitLen b))]; [("res", VP1 (mul_from (FRRepr_BitLen b) (FRRepr_Bit b) (Double (b_ops B)) (fun res => AddAffine (b_ops B) res g) 0 (Z.to_nat (FRRepr_BitLen b)) (ProjectiveZero (b_ops B)))); ("g", VA1 g); ("b", VRr b)]]%string) ->
  runB_with B LOOP RANGE src_G1Affine_MulFR [VA1 g; VRr b] = Done [VRr b] [VP1 (Affine_MulFR (b_ops B) g b)].
Proof. intros H. run_loop H. src. Qed.
Lemma src_G1Affine_MulFR_ok n g b : wf4 b -> runB B (257 + n) src_G1Affine_MulFR [VA1 g; VRr b] = Done [VRr b] [VP1 (Affine_MulFR (b_ops B) g b)].
Proof.
  intros W. pose proof (BitLen4 b W). apply G1Affine_MulFR_run. intros.
  replace (257 + n)%nat with ((Z.to_nat (FRRepr_BitLen b)) + S (256 - (Z.to_nat (FRRepr_BitLen b)) + n))%nat by lia.
  apply G1Affine_MulFR_loop; try lia. intros; apply Bit4; lia.
Qed.
Lemma G1Projective_Mul_loop : forall g b, let bl := FQRepr_BitLen b in bl < 2 ^ 32 -> (forall j, 0 <= j < bl -> exists t, FQRepr_Bit b j = Some t) ->
  forall k m i res kn kr, 0 <= i -> bl = i + Z.of_nat k ->
  loopB B (k + S m) (fcond src_G1Projective_Mul) (fpost src_G1Projective_Mul) (fbody src_G1Projective_Mul)
    [[("i", VU 64 i)]; [("res", VP1 res); ("g", VP1 g); ("b", VR b)]]%string kn kr =
  kn [[("i", VU 64 bl)]; [("res", VP1 (mul_from (FQRepr_BitLen b) (FQRepr_Bit b) (Double (b_ops B)) (fun res => Add (b_ops B) res g) i k res)); ("g", VP1 g); ("b", VR b)]]%string.
Proof.
  intros g b. cbv zeta. intros Hbl Hbit. induction k; intros m i res kn kr Hi Hk.
  - cbn [Nat.add]. rewrite loopB_S. src_lhs. replace i with (FQRepr_BitLen b) by lia. rewrite ltb_no. reflexivity.
  - change (S k + S m)%nat with (S (k + S m)). rewrite loopB_S, mul_from_S by exact Hi.
    destruct (Hbit (FQRepr_BitLen b - i - 1)) as [t Et]; [lia|]. rewrite Et.
    src_lhs. rewrite ltb_yes by lia. rewrite wsub_bit by lia. rewrite Et. rewrite (wadd_1 (FQRepr_BitLen b)) by lia.
    destruct t; apply IHk; lia.
Qed.
Lemma G1Projective_Mul_run LOOP RANGE g b : 
  (forall kn kr, LOOP (fcond src_G1Projective_Mul) (fpost src_G1Projective_Mul) (fbody src_G1Projective_Mul)
    [[("i", VU 64 0)]; [("res", VP1 (ProjectiveZero (b_ops B))); ("g", VP1 g); ("b", VR b)]]%string kn kr =
   kn [[("i", VU 64 (FQRepr_BitLen b))]; [("res", VP1 (mul_from (FQRepr_BitLen b) (FQRepr_Bit b) (Double (b_ops B)) (fun res => Add (b_ops B) res g) 0 (Z.to_nat (FQRepr_BitLen b)) (ProjectiveZero (b_ops B)))); ("g", VP1 g); ("b", VR b)]]%string) ->
  runB_with B LOOP RANGE src_G1Projective_Mul [VP1 g; VR b] = Done [] [VP1 (Proj_Mul (b_ops B) g b)].
Proof. intros H. run_loop H. src. Qed.
Lemma src_G1Projective_Mul_ok n g b : wf6 b -> runB B (385 + n) src_G1Projective_Mul [VP1 g; VR b] = Done [] [VP1 (Proj_Mul (b_ops B) g b)].
Proof.
  intros W. pose proof (BitLen6 b W). apply G1Projective_Mul_run. intros.
  replace (385 + n)%nat with ((Z.to_nat (FQRepr_BitLen b)) + S (384 - (Z.to_nat (FQRepr_BitLen b)) + n))%nat by lia.
  apply G1Projective_Mul_loop; try lia. intros; apply Bit6; lia.
Qed.
Lemma G1Projective_MulFR_loop : forall g b, let bl := FRRepr_BitLen b in bl < 2 ^ 32 -> (forall j, 0 <= j < bl -> exists t, FRRepr_Bit b j = Some t) ->
  forall k m i res kn kr, 0 <= i -> bl = i + Z.of_nat k ->
  loopB B (k + S m) (fcond src_G1Projective_MulFR) (fpost src_G1Projective_MulFR) (fbody src_G1Projective_MulFR)
    [[("i", VU 64 i)]; [("res", VP1 res); ("g", VP1 g); ("b", VRr b)]]%string kn kr =
  kn [[("i", VU 64 bl)]; [("res", VP1 (mul_from (FRRepr_BitLen b) (FRRepr_Bit b) (Double (b_ops B)) (fun res => Add (b_ops B) res g) i k res)); ("g", VP1 g); ("b", VRr b)]]%string.
Proof.
  intros g b. cbv zeta. intros Hbl Hbit. induction k; intros m i res kn kr Hi Hk.
  - cbn [Nat.add]. rewrite loopB_S. src_lhs. replace i with (FRRepr_BitLen b) by lia. rewrite ltb_no. reflexivity.
  - change (S k + S m)%nat with (S (k + S m)). rewrite loopB_S, mul_from_S by exact Hi.
    destruct (Hbit (FRRepr_BitLen b - i - 1)) as [t Et]; [lia|]. rewrite Et.
    src_lhs. rewrite ltb_yes by lia. rewrite wsub_bit by lia. rewrite Et. rewrite (wadd_1 (FRRepr_BitLen b)) by lia.
    destruct t; apply IHk; lia.
Qed.
Lemma G1Projective_MulFR_run LOOP RANGE g b : 
  (forall kn kr, LOOP (fcond src_G1Projective_MulFR) (fpost src_G1Projective_MulFR) (fbody src_G1Projective_MulFR)
    [[("i", VU 64 0)]; [("res", VP1 (ProjectiveZero (b_ops B))); ("g", VP1 g); ("b", VRr b)]]%string kn kr =
   kn [[("i", VU 64 (FRRepr_BitLen b))]; [("res", VP1 (mul_from (FRRepr_BitLen b) (FRRepr_Bit b) (Double (b_ops B)) (fun res => Add (b_ops B) res g) 0 (Z.to_nat (FRRepr_BitLen b)) (ProjectiveZero (b_ops B)))); ("g", VP1 g); ("b", VRr b)]]%string) ->
  runB_with B LOOP RANGE src_G1Projective_MulFR [VP1 g; VRr b] = Done [VRr b] [VP1 (Proj_MulFR (b_ops B) g b)].
Proof. intros H. run_loop H. src. Qed.
Lemma src_G1Projective_MulFR_ok n g b : wf4 b -> runB B (257 + n) src_G1Projective_MulFR [VP1 g; VRr b] = Done [VRr b] [VP1 (Proj_MulFR (b_ops B) g b)].
Proof.
  intros W. pose proof (BitLen4 b W). apply G1Projective_MulFR_run. intros.
  replace (257 + n)%nat with ((Z.to_nat (FRRepr_BitLen b)) + S (256 - (Z.to_nat (FRRepr_BitLen b)) + n))%nat by lia.
  apply G1Projective_MulFR_loop; try lia. intros; apply Bit4; lia.
Qed.
Lemma G2Affine_Mul_loop : forall g b, let bl := FQRepr_BitLen b in bl < 2 ^ 32 -> (forall j, 0 <= j < bl -> exists t, FQRepr_Bit b j = Some t) ->
  forall k m i res kn kr, 0 <= i -> bl = i + Z.of_nat k ->
  loopB B (k + S m) (fcond src_G2Affine_Mul) (fpost src_G2Affine_Mul) (fbody src_G2Affine_Mul)
    [[("i", VU 64 i)]; [("res", VP2 res); ("g", VA2 g); ("b", VR b)]]%string kn kr =
  kn [[("i", VU 64 bl)]; [("res", VP2 (mul_from (FQRepr_BitLen b) (FQRepr_Bit b) (Double (FQ2O B)) (fun res => AddAffine (FQ2O B) res g) i k res)); ("g", VA2 g); ("b", VR b)]]%string.
Proof.
  intros g b. cbv zeta. intros Hbl Hbit. induction k; intros m i res kn kr Hi Hk.
  - cbn [Nat.add]. rewrite loopB_S. src_lhs. replace i with (FQRepr_BitLen b) by lia. rewrite ltb_no. reflexivity.
  - change (S k + S m)%nat with (S (k + S m)). rewrite loopB_S, mul_from_S by exact Hi.
    destruct (Hbit (FQRepr_BitLen b - i - 1)) as [t Et]; [lia|]. rewrite Et.
    src_lhs. rewrite ltb_yes by lia. rewrite wsub_bit by lia. rewrite Et. rewrite (wadd_1 (FQRepr_BitLen b)) by lia.
    destruct t; apply IHk; lia.
Qed.
Lemma G2Affine_Mul_run LOOP RANGE g b : 
  (forall kn kr, LOOP (fcond src_G2Affine_Mul) (fpost src_G2Affine_Mul) (fbody src_G2Affine_Mul)
    [[("i", VU 64 0)]; [("res", VP2 (ProjectiveZero (FQ2O B))); ("g", VA2 g); ("b", VR b)]]%string kn kr =
   kn [[("i", VU 64 (FQRepr_BitLen b))]; [("res", VP2 (mul_from (FQRepr_BitLen b) (FQRepr_Bit b) (Double (FQ2O B)) (fun res => AddAffine (FQ2O B) res g) 0 (Z.to_nat (FQRepr_BitLen b)) (ProjectiveZero (FQ2O B)))); ("g", VA2 g); ("b", VR b)]]%string) ->
  runB_with B LOOP RANGE src_G2Affine_Mul [VA2 g; VR b] = Done [] [VP2 (Affine_Mul (FQ2O B) g b)].
Proof. intros H. run_loop H. src. Qed.
Lemma src_G2Affine_Mul_ok n g b : wf6 b -> runB B (385 + n) src_G2Affine_Mul [VA2 g; VR b] = Done [] [VP2 (Affine_Mul (FQ2O B) g b)].
Proof.
  intros W. pose proof (BitLen6 b W). apply G2Affine_Mul_run. intros.
  replace (385 + n)%nat with ((Z.to_nat (FQRepr_BitLen b)) + S (384 - (Z.to_nat (FQRepr_BitLen b)) + n))%nat by lia.
  apply G2Affine_Mul_loop; try lia. intros; apply Bit6; lia.
Qed.
Lemma G2Affine_MulFR_loop : forall g b, let bl := FRRepr_BitLen b in bl < 2 ^ 32 -> (forall j, 0 <= j < bl -> exists t, FRRepr_Bit b j = Some t) ->
  forall k m i res kn kr, 0 <= i -> bl = i + Z.of_nat k ->
  loopB B (k + S m) (fcond src_G2Affine_MulFR) (fpost src_G2Affine_MulFR) (fbody src_G2Affine_MulFR)
    [[("i", VU 64 i)]; [("res", VP2 res); ("g", VA2 g); ("b", VRr b)]]%string kn kr =
  kn [[("i", VU 64 bl)]; [("res", VP2 (mul_from (FRRepr_BitLen b) (FRRepr_Bit b) (Double (FQ2O B)) (fun res => AddAffine (FQ2O B) res g) i k res)); ("g", VA2 g); ("b", VRr b)]]%string.
Proof.
  intros g b. cbv zeta. intros Hbl Hbit. induction k; intros m i res kn kr Hi Hk.
  - cbn [Nat.add]. rewrite loopB_S. src_lhs. replace i with (FRRepr_BitLen b) by lia. rewrite ltb_no. reflexivity.
  - change (S k + S m)%nat with (S (k + S m)). rewrite loopB_S, mul_from_S by exact Hi.
    destruct (Hbit (FRRepr_BitLen b - i - 1)) as [t Et]; [lia|]. rewrite Et.
    src_lhs. rewrite ltb_yes by lia. rewrite wsub_bit by lia. rewrite Et. rewrite (wadd_1 (FRRepr_BitLen b)) by lia.
    destruct t; apply IHk; lia.
Qed.
Lemma G2Affine_MulFR_run LOOP RANGE g b : 
  (forall kn kr, LOOP (fcond src_G2Affine_MulFR) (fpost src_G2Affine_MulFR) (fbody src_G2Affine_MulFR)
    [[("i", VU 64 0)]; [("res", VP2 (ProjectiveZero (FQ2O B))); ("g", VA2 g); ("b", VRr b)]]%string kn kr =
   kn [[("i", VU 64 (FRRepr_BitLen b))]; [("res", VP2 (mul_from (FRRepr_BitLen b) (FRRepr_Bit b) (Double (FQ2O B)) (fun res => AddAffine (FQ2O B) res g) 0 (Z.to_nat (FRRepr_BitLen b)) (ProjectiveZero (FQ2O B)))); ("g", VA2 g); ("b", VRr b)]]%string) ->
  runB_with B LOOP RANGE src_G2Affine_MulFR [VA2 g; VRr b] = Done [VRr b] [VP2 (Affine_MulFR (FQ2O B) g b)].
Proof. intros H. run_loop H. src. Qed.
Lemma src_G2Affine_MulFR_ok n g b : wf4 b -> runB B (257 + n) src_G2Affine_MulFR [VA2 g; VRr b] = Done [VRr b] [VP2 (Affine_MulFR (FQ2O B) g b)].
Proof.
  intros W. pose proof (BitLen4 b W). apply G2Affine_MulFR_run. intros.
  replace (257 + n)%nat with ((Z.to_nat (FRRepr_BitLen b)) + S (256 - (Z.to_nat (FRRepr_BitLen b)) + n))%nat by lia.
  apply G2Affine_MulFR_loop; try lia. intros; apply Bit4; lia.
Qed.
Lemma G2Projective_Mul_loop : forall g b, let bl := FQRepr_BitLen b in bl < 2 ^ 32 -> (forall j, 0 <= j < bl -> exists t, FQRepr_Bit b j = Some t) ->
  forall k m i res kn kr, 0 <= i -> bl = i + Z.of_nat k ->
  loopB B (k + S m) (fcond src_G2Projective_Mul) (fpost src_G2Projective_Mul) (fbody src_G2Projective_Mul)
    [[("i", VU 64 i)]; [("res", VP2 res); ("g", VP2 g); ("b", VR b)]]%string kn kr =
  kn [[("i", VU 64 bl)]; [("res", VP2 (mul_from (FQRepr_BitLen b) (FQRepr_Bit b) (Double (FQ2O B)) (fun res => Add (FQ2O B) res g) i k res)); ("g", VP2 g); ("b", VR b)]]%string.
Proof.
  intros g b. cbv zeta. intros Hbl Hbit. induction k; intros m i res kn kr Hi Hk.
  - cbn [Nat.add]. rewrite loopB_S. src_lhs. replace i with (FQRepr_BitLen b) by lia. rewrite ltb_no. reflexivity.
  - change (S k + S m)%nat with (S (k + S m)). rewrite loopB_S, mul_from_S by exact Hi.
    destruct (Hbit (FQRepr_BitLen b - i - 1)) as [t Et]; [lia|]. rewrite Et.
    src_lhs. rewrite ltb_yes by lia. rewrite wsub_bit by lia. rewrite Et. rewrite (wadd_1 (FQRepr_BitLen b)) by lia.
    destruct t; apply IHk; lia.
Qed.
Lemma G2Projective_Mul_run LOOP RANGE g b : 
  (forall kn kr, LOOP (fcond src_G2Projective_Mul) (fpost src_G2Projective_Mul) (fbody src_G2Projective_Mul)
    [[("i", VU 64 0)]; [("res", VP2 (ProjectiveZero (FQ2O B))); ("g", VP2 g); ("b", VR b)]]%string kn kr =
   kn [[("i", VU 64 (FQRepr_BitLen b))]; [("res", VP2 (mul_from (FQRepr_BitLen b) (FQRepr_Bit b) (Double (FQ2O B)) (fun res => Add (FQ2O B) res g) 0 (Z.to_nat (FQRepr_BitLen b)) (ProjectiveZero (FQ2O B)))); ("g", VP2 g); ("b", VR b)]]%string) ->
  runB_with B LOOP RANGE src_G2Projective_Mul [VP2 g; VR b] = Done [] [VP2 (Proj_Mul (FQ2O B) g b)].
Proof. intros H. run_loop H. src. Qed.
Lemma src_G2Projective_Mul_ok n g b : wf6 b -> runB B (385 + n) src_G2Projective_Mul [VP2 g; VR b] = Done [] [VP2 (Proj_Mul (FQ2O B) g b)].
Proof.
  intros W. pose proof (BitLen6 b W). apply G2Projective_Mul_run. intros.
  replace (385 + n)%nat with ((Z.to_nat (FQRepr_BitLen b)) + S (384 - (Z.to_nat (FQRepr_BitLen b)) + n))%nat by lia.
  apply G2Projective_Mul_loop; try lia. intros; apply Bit6; lia.
Qed.
Lemma G2Projective_MulFR_loop : forall g b, let bl := FRRepr_BitLen b in bl < 2 ^ 32 -> (forall j, 0 <= j < bl -> exists t, FRRepr_Bit b j = Some t) ->
  forall k m i res kn kr, 0 <= i -> bl = i + Z.of_nat k ->
  loopB B (k + S m) (fcond src_G2Projective_MulFR) (fpost src_G2Projective_MulFR) (fbody src_G2Projective_MulFR)
    [[("i", VU 64 i)]; [("res", VP2 res); ("g", VP2 g); ("b", VRr b)]]%string kn kr =
  kn [[("i", VU 64 bl)]; [("res", VP2 (mul_from (FRRepr_BitLen b) (FRRepr_Bit b) (Double (FQ2O B)) (fun res => Add (FQ2O B) res g) i k res)); ("g", VP2 g); ("b", VRr b)]]%string.
Proof.
  intros g b. cbv zeta. intros Hbl Hbit. induction k; intros m i res kn kr Hi Hk.
  - cbn [Nat.add]. rewrite loopB_S. src_lhs. replace i with (FRRepr_BitLen b) by lia. rewrite ltb_no. reflexivity.
  - change (S k + S m)%nat with (S (k + S m)). rewrite loopB_S, mul_from_S by exact Hi.
    destruct (Hbit (FRRepr_BitLen b - i - 1)) as [t Et]; [lia|]. rewrite Et.
    src_lhs. rewrite ltb_yes by lia. rewrite wsub_bit by lia. rewrite Et. rewrite (wadd_1 (FRRepr_BitLen b)) by lia.
    destruct t; apply IHk; lia.
Qed.
Lemma G2Projective_MulFR_run LOOP RANGE g b : 
  (forall kn kr, LOOP (fcond src_G2Projective_MulFR) (fpost src_G2Projective_MulFR) (fbody src_G2Projective_MulFR)
    [[("i", VU 64 0)]; [("res", VP2 (ProjectiveZero (FQ2O B))); ("g", VP2 g); ("b", VRr b)]]%string kn kr =
   kn [[("i", VU 64 (FRRepr_BitLen b))]; [("res", VP2 (mul_from (FRRepr_BitLen b) (FRRepr_Bit b) (Double (FQ2O B)) (fun res => Add (FQ2O B) res g) 0 (Z.to_nat (FRRepr_BitLen b)) (ProjectiveZero (FQ2O B)))); ("g", VP2 g); ("b", VRr b)]]%string) ->
  runB_with B LOOP RANGE src_G2Projective_MulFR [VP2 g; VRr b] = Done [VRr b] [VP2 (Proj_MulFR (FQ2O B) g b)].
Proof. intros H. run_loop H. src. Qed.
Lemma src_G2Projective_MulFR_ok n g b : wf4 b -> runB B (257 + n) src_G2Projective_MulFR [VP2 g; VRr b] = Done [VRr b] [VP2 (Proj_MulFR (FQ2O B) g b)].
Proof.
  intros W. pose proof (BitLen4 b W). apply G2Projective_MulFR_run. intros.
  replace (257 + n)%nat with ((Z.to_nat (FRRepr_BitLen b)) + S (256 - (Z.to_nat (FRRepr_BitLen b)) + n))%nat by lia.
  apply G2Projective_MulFR_loop; try lia. intros; apply Bit4; lia.
Qed.
End S.
