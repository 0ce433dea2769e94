(** fqrepr.go, frrepr.go and bititerator.go: shifts, bits, conversions and the bit iterator, run from their source text. *)
Require Import ZArith Bool String Ascii List Lia.
From Verif Require Import Words ModelRepr ModelFq ModelFr ModelOps ModelTower ModelCurve ModelPairing ModelHash ModelBls ModelStr ReprProofs SrcAst SrcSem SrcCode SrcCall SrcTac SrcLimb.
Import ListNotations.
Open Scope Z_scope.
Local Open Scope string_scope.



(** Rsh and Lsh: the loop over whole words, then the shift by less than a word. *)
Lemma wsub_small x y : isW x -> 0 <= y <= x -> wsub x y = x - y.
Proof. intros Hx Hy. unfold wsub. apply wlo_small. unfold isW in *. lia. Qed.
Definition envSh (v : LV) (x : Z) : env := [[]; [("f", v); ("n", VU 64 x)]].
Lemma FQRepr_Rsh_loop : forall j m q f x kn kr, isW x -> 64 * Z.of_nat j <= x < 64 * (Z.of_nat j + 1) -> (j < q)%nat ->
  loopL (j + (9 + m)) (fcond src_FQRepr_Rsh) (fpost src_FQRepr_Rsh) (fbody src_FQRepr_Rsh) (envSh (VR f) x) kn kr =
  kn (envSh (VR (fst (FQRepr_Rsh_words q f x))) (snd (FQRepr_Rsh_words q f x))).
Proof.
  induction j as [|j IH]; intros m q f x kn kr Hx H Hq; (destruct q as [|q]; [lia|]); destruct f; cbn [FQRepr_Rsh_words].
  - change (0 + (9 + m))%nat with (S (8 + m)). limb_turn K HK. unfold wleb. destruct (Z.leb_spec 64 x); [lia|]. reflexivity.
  - replace (S j + (9 + m))%nat with (S (8 + (j + S m)))%nat by lia. limb_turn K HK. unfold wleb. destruct (Z.leb_spec 64 x); [|lia].
    rewrite wsub_small by (unfold isW in *; lia). subst K. replace (8 + (j + S m))%nat with (j + (9 + m))%nat by lia.
    apply IH; unfold isW in *; lia.
Qed.
Lemma FQRepr_Rsh_left : forall q f x, 0 <= x < 64 * Z.of_nat q -> 0 <= snd (FQRepr_Rsh_words q f x) < 64.
Proof. induction q as [|q IH]; intros f x H; [lia|]. cbn [FQRepr_Rsh_words]. destruct (Z.leb_spec 64 x); [apply IH; lia|cbn; lia]. Qed.
Lemma src_FQRepr_Rsh_ok n a x : isW x -> runL (15 + n) src_FQRepr_Rsh [VR a; VU 64 x] = Done [VR (FQRepr_Rsh a x)] [].
Proof.
  intros Hx. unfold FQRepr_Rsh. change (64 * 6) with 384. step_open K HK. destruct a as [f0 f1 f2 f3 f4 f5]. limb_lhs. unfold wleb. destruct (Z.leb_spec 384 x); [reflexivity|].
  step_close K HK.
  pose proof (Z.div_mod x 64 ltac:(lia)). pose proof (Z.mod_pos_bound x 64 ltac:(lia)). unfold isW in Hx. assert (0 <= x / 64 < 6) by lia.
  set (j := Z.to_nat (x / 64)). assert (Ej : (j + (9 + (6 - j + n)) = 15 + n)%nat) by lia.
  pose proof (fun kn kr => FQRepr_Rsh_loop j (6 - j + n) 6 (mkFQRepr f0 f1 f2 f3 f4 f5) x kn kr Hx ltac:(lia) ltac:(lia)) as HL.
  pose proof (FQRepr_Rsh_left 6 (mkFQRepr f0 f1 f2 f3 f4 f5) x ltac:(lia)) as Hy.
  rewrite Ej in HL. step_loop HL. clear HL.
  destruct (FQRepr_Rsh_words 6 _ x) as [[] y] eqn:E. unfold envSh. cbn [snd] in Hy. unfold fst, snd.
  limb_lhs. unfold wltb. destruct (0 <? y)%Z; [|reflexivity]. rewrite wsub_small by (unfold isW; lia). limb_const. reflexivity.
Qed.

Lemma FQRepr_Lsh_loop : forall j m q f x kn kr, isW x -> 64 * Z.of_nat j <= x < 64 * (Z.of_nat j + 1) -> (j < q)%nat ->
  loopL (j + (9 + m)) (fcond src_FQRepr_Lsh) (fpost src_FQRepr_Lsh) (fbody src_FQRepr_Lsh) (envSh (VR f) x) kn kr =
  kn (envSh (VR (fst (FQRepr_Lsh_words q f x))) (snd (FQRepr_Lsh_words q f x))).
Proof.
  induction j as [|j IH]; intros m q f x kn kr Hx H Hq; (destruct q as [|q]; [lia|]); destruct f; cbn [FQRepr_Lsh_words].
  - change (0 + (9 + m))%nat with (S (8 + m)). limb_turn K HK. unfold wleb. destruct (Z.leb_spec 64 x); [lia|]. reflexivity.
  - replace (S j + (9 + m))%nat with (S (8 + (j + S m)))%nat by lia. limb_turn K HK. unfold wleb. destruct (Z.leb_spec 64 x); [|lia].
    rewrite wsub_small by (unfold isW in *; lia). subst K. replace (8 + (j + S m))%nat with (j + (9 + m))%nat by lia.
    apply IH; unfold isW in *; lia.
Qed.
Lemma FQRepr_Lsh_left : forall q f x, 0 <= x < 64 * Z.of_nat q -> 0 <= snd (FQRepr_Lsh_words q f x) < 64.
Proof. induction q as [|q IH]; intros f x H; [lia|]. cbn [FQRepr_Lsh_words]. destruct (Z.leb_spec 64 x); [apply IH; lia|cbn; lia]. Qed.
Lemma src_FQRepr_Lsh_ok n a x : isW x -> runL (15 + n) src_FQRepr_Lsh [VR a; VU 64 x] = Done [VR (FQRepr_Lsh a x)] [].
Proof.
  intros Hx. unfold FQRepr_Lsh. change (64 * 6) with 384. step_open K HK. destruct a as [f0 f1 f2 f3 f4 f5]. limb_lhs. unfold wleb. destruct (Z.leb_spec 384 x); [reflexivity|].
  step_close K HK.
  pose proof (Z.div_mod x 64 ltac:(lia)). pose proof (Z.mod_pos_bound x 64 ltac:(lia)). unfold isW in Hx. assert (0 <= x / 64 < 6) by lia.
  set (j := Z.to_nat (x / 64)). assert (Ej : (j + (9 + (6 - j + n)) = 15 + n)%nat) by lia.
  pose proof (fun kn kr => FQRepr_Lsh_loop j (6 - j + n) 6 (mkFQRepr f0 f1 f2 f3 f4 f5) x kn kr Hx ltac:(lia) ltac:(lia)) as HL.
  pose proof (FQRepr_Lsh_left 6 (mkFQRepr f0 f1 f2 f3 f4 f5) x ltac:(lia)) as Hy.
  rewrite Ej in HL. step_loop HL. clear HL.
  destruct (FQRepr_Lsh_words 6 _ x) as [[] y] eqn:E. unfold envSh. cbn [snd] in Hy. unfold fst, snd.
  limb_lhs. unfold wltb. destruct (0 <? y)%Z; [|reflexivity]. rewrite wsub_small by (unfold isW; lia). limb_const. reflexivity.
Qed.

Lemma FRRepr_Rsh_loop : forall j m q f x kn kr, isW x -> 64 * Z.of_nat j <= x < 64 * (Z.of_nat j + 1) -> (j < q)%nat ->
  loopL (j + (9 + m)) (fcond src_FRRepr_Rsh) (fpost src_FRRepr_Rsh) (fbody src_FRRepr_Rsh) (envSh (VRr f) x) kn kr =
  kn (envSh (VRr (fst (FRRepr_Rsh_words q f x))) (snd (FRRepr_Rsh_words q f x))).
Proof.
  induction j as [|j IH]; intros m q f x kn kr Hx H Hq; (destruct q as [|q]; [lia|]); destruct f; cbn [FRRepr_Rsh_words].
  - change (0 + (9 + m))%nat with (S (8 + m)). limb_turn K HK. unfold wleb. destruct (Z.leb_spec 64 x); [lia|]. reflexivity.
  - replace (S j + (9 + m))%nat with (S (8 + (j + S m)))%nat by lia. limb_turn K HK. unfold wleb. destruct (Z.leb_spec 64 x); [|lia].
    rewrite wsub_small by (unfold isW in *; lia). subst K. replace (8 + (j + S m))%nat with (j + (9 + m))%nat by lia.
    apply IH; unfold isW in *; lia.
Qed.
Lemma FRRepr_Rsh_left : forall q f x, 0 <= x < 64 * Z.of_nat q -> 0 <= snd (FRRepr_Rsh_words q f x) < 64.
Proof. induction q as [|q IH]; intros f x H; [lia|]. cbn [FRRepr_Rsh_words]. destruct (Z.leb_spec 64 x); [apply IH; lia|cbn; lia]. Qed.
Lemma src_FRRepr_Rsh_ok n a x : isW x -> runL (15 + n) src_FRRepr_Rsh [VRr a; VU 64 x] = Done [VRr (FRRepr_Rsh a x)] [].
Proof.
  intros Hx. unfold FRRepr_Rsh. change (64 * 4) with 256. step_open K HK. destruct a as [f0 f1 f2 f3]. limb_lhs. unfold wleb. destruct (Z.leb_spec 256 x); [reflexivity|].
  step_close K HK.
  pose proof (Z.div_mod x 64 ltac:(lia)). pose proof (Z.mod_pos_bound x 64 ltac:(lia)). unfold isW in Hx. assert (0 <= x / 64 < 4) by lia.
  set (j := Z.to_nat (x / 64)). assert (Ej : (j + (9 + (6 - j + n)) = 15 + n)%nat) by lia.
  pose proof (fun kn kr => FRRepr_Rsh_loop j (6 - j + n) 4 (mkFRRepr f0 f1 f2 f3) x kn kr Hx ltac:(lia) ltac:(lia)) as HL.
  pose proof (FRRepr_Rsh_left 4 (mkFRRepr f0 f1 f2 f3) x ltac:(lia)) as Hy.
  rewrite Ej in HL. step_loop HL. clear HL.
  destruct (FRRepr_Rsh_words 4 _ x) as [[] y] eqn:E. unfold envSh. cbn [snd] in Hy. unfold fst, snd.
  limb_lhs. unfold wltb. destruct (0 <? y)%Z; [|reflexivity]. rewrite wsub_small by (unfold isW; lia). limb_const. reflexivity.
Qed.

Lemma FRRepr_Lsh_loop : forall j m q f x kn kr, isW x -> 64 * Z.of_nat j <= x < 64 * (Z.of_nat j + 1) -> (j < q)%nat ->
  loopL (j + (9 + m)) (fcond src_FRRepr_Lsh) (fpost src_FRRepr_Lsh) (fbody src_FRRepr_Lsh) (envSh (VRr f) x) kn kr =
  kn (envSh (VRr (fst (FRRepr_Lsh_words q f x))) (snd (FRRepr_Lsh_words q f x))).
Proof.
  induction j as [|j IH]; intros m q f x kn kr Hx H Hq; (destruct q as [|q]; [lia|]); destruct f; cbn [FRRepr_Lsh_words].
  - change (0 + (9 + m))%nat with (S (8 + m)). limb_turn K HK. unfold wleb. destruct (Z.leb_spec 64 x); [lia|]. reflexivity.
  - replace (S j + (9 + m))%nat with (S (8 + (j + S m)))%nat by lia. limb_turn K HK. unfold wleb. destruct (Z.leb_spec 64 x); [|lia].
    rewrite wsub_small by (unfold isW in *; lia). subst K. replace (8 + (j + S m))%nat with (j + (9 + m))%nat by lia.
    apply IH; unfold isW in *; lia.
Qed.
Lemma FRRepr_Lsh_left : forall q f x, 0 <= x < 64 * Z.of_nat q -> 0 <= snd (FRRepr_Lsh_words q f x) < 64.
Proof. induction q as [|q IH]; intros f x H; [lia|]. cbn [FRRepr_Lsh_words]. destruct (Z.leb_spec 64 x); [apply IH; lia|cbn; lia]. Qed.
Lemma src_FRRepr_Lsh_ok n a x : isW x -> runL (15 + n) src_FRRepr_Lsh [VRr a; VU 64 x] = Done [VRr (FRRepr_Lsh a x)] [].
Proof.
  intros Hx. unfold FRRepr_Lsh. change (64 * 4) with 256. step_open K HK. destruct a as [f0 f1 f2 f3]. limb_lhs. unfold wleb. destruct (Z.leb_spec 256 x); [reflexivity|].
  step_close K HK.
  pose proof (Z.div_mod x 64 ltac:(lia)). pose proof (Z.mod_pos_bound x 64 ltac:(lia)). unfold isW in Hx. assert (0 <= x / 64 < 4) by lia.
  set (j := Z.to_nat (x / 64)). assert (Ej : (j + (9 + (6 - j + n)) = 15 + n)%nat) by lia.
  pose proof (fun kn kr => FRRepr_Lsh_loop j (6 - j + n) 4 (mkFRRepr f0 f1 f2 f3) x kn kr Hx ltac:(lia) ltac:(lia)) as HL.
  pose proof (FRRepr_Lsh_left 4 (mkFRRepr f0 f1 f2 f3) x ltac:(lia)) as Hy.
  rewrite Ej in HL. step_loop HL. clear HL.
  destruct (FRRepr_Lsh_words 4 _ x) as [[] y] eqn:E. unfold envSh. cbn [snd] in Hy. unfold fst, snd.
  limb_lhs. unfold wltb. destruct (0 <? y)%Z; [|reflexivity]. rewrite wsub_small by (unfold isW; lia). limb_const. reflexivity.
Qed.

(** BitLen *)
Lemma lz_bound x : isW x -> 0 <= LeadingZeros64 x <= 64.
Proof.
  intros H. unfold LeadingZeros64, bitlen. unfold isW in H; change 18446744073709551616 with (2 ^ 64) in H. destruct (Z.eqb_spec x 0); [lia|].
  pose proof (Z.log2_nonneg x). pose proof (Z.log2_lt_pow2 x 64 ltac:(lia)). lia.
Qed.
Lemma src_FQRepr_BitLen_ok n a : wf6 a -> runL (7 + n) src_FQRepr_BitLen [VR a] = Done [] [VU 64 (FQRepr_BitLen a)].
Proof.
  intros Hw. destruct a. unfold wf6, FQRepr_slice in Hw. rewrite !Forall_cons_iff in Hw. cbn in Hw. decompose [and] Hw. clear Hw.
  repeat match goal with H : isW _ |- _ => apply lz_bound in H end.
  limb_lhs. limb_const. unfold FQRepr_BitLen, FQRepr_slice. cbn [rev app bitlen_limbs ModelRepr.w0 ModelRepr.w1 ModelRepr.w2 ModelRepr.w3 ModelRepr.w4 ModelRepr.w5]. change (6 * 64) with 384.
  repeat match goal with H : 0 <= LeadingZeros64 ?w <= 64 |- _ => revert H; generalize (LeadingZeros64 w); intros ? H end.
  rewrite !(wlo_small z), !(wlo_small z0), !(wlo_small z1), !(wlo_small z2), !(wlo_small z3), !(wlo_small z4) by (unfold isW; lia).
  unfold weqb, negb.
  repeat (rewrite wsub_small by (unfold isW; lia)). limb_ifs; reflexivity.
Qed.
Lemma src_FRRepr_BitLen_ok n a : wf4 a -> runL (7 + n) src_FRRepr_BitLen [VRr a] = Done [] [VU 64 (FRRepr_BitLen a)].
Proof.
  intros Hw. destruct a. unfold wf4, FRRepr_slice in Hw. rewrite !Forall_cons_iff in Hw. cbn in Hw. decompose [and] Hw. clear Hw.
  repeat match goal with H : isW _ |- _ => apply lz_bound in H end.
  limb_lhs. limb_const. unfold FRRepr_BitLen, FRRepr_slice. cbn [rev app bitlen_limbs ModelRepr.v0 ModelRepr.v1 ModelRepr.v2 ModelRepr.v3]. change (4 * 64) with 256.
  repeat match goal with H : 0 <= LeadingZeros64 ?w <= 64 |- _ => revert H; generalize (LeadingZeros64 w); intros ? H end.
  rewrite !(wlo_small z), !(wlo_small z0), !(wlo_small z1), !(wlo_small z2) by (unfold isW; lia).
  unfold weqb, negb.
  repeat (rewrite wsub_small by (unfold isW; lia)). limb_ifs; reflexivity.
Qed.

(** Bit *)
Lemma wshl_1 k : 0 <= k < 64 -> wshl 1 k = Z.shiftl 1 k.
Proof. intros H. unfold wshl. apply wlo_small. rewrite Z.shiftl_1_l. unfold isW. change 18446744073709551616 with (2 ^ 64). split; [apply Z.pow_nonneg; lia|apply Z.pow_lt_mono_r; lia]. Qed.
Lemma word_index x : isW x -> 0 <= x / 64 /\ 0 <= x mod 64 < 64.
Proof. intros [H _]. split; [apply Z.div_pos; lia|apply Z.mod_pos_bound; lia]. Qed.
Lemma src_FQRepr_Bit_ok n a x : isW x -> runL (1 + n) src_FQRepr_Bit [VR a; VU 64 x] = match FQRepr_Bit a x with Some b => Done [] [VB b] | None => Panic end.
Proof.
  intros Hx. destruct (word_index x Hx) as [Hd Hm]. unfold FQRepr_Bit. rewrite (wshl_1 (x mod 64)) by assumption. destruct a. 
  limb_lhs. revert Hd. generalize (x / 64). intros i Hi.
  destruct (Z_lt_le_dec i 6) as [H6|H6].
  - assert (D : i = 0 \/ i = 1 \/ i = 2 \/ i = 3 \/ i = 4 \/ i = 5) by lia.
    decompose [or] D; subst i; reflexivity.
  - replace (nth_error _ _) with (@None Z) by (symmetry; apply nth_error_None; cbn; lia).
    destruct i as [|p|p]; [lia| |lia]. destruct p as [[[p|p|]|[p|p|]|]|[[p|p|]|[p|p|]|]|]; try lia; reflexivity.
Qed.
Lemma src_FRRepr_Bit_ok n a x : isW x -> runL (1 + n) src_FRRepr_Bit [VRr a; VU 64 x] = match FRRepr_Bit a x with Some b => Done [] [VB b] | None => Panic end.
Proof.
  intros Hx. destruct (word_index x Hx) as [Hd Hm]. unfold FRRepr_Bit. rewrite (wshl_1 (x mod 64)) by assumption. destruct a. 
  limb_lhs. revert Hd. generalize (x / 64). intros i Hi.
  destruct (Z_lt_le_dec i 4) as [H4|H4].
  - assert (D : i = 0 \/ i = 1 \/ i = 2 \/ i = 3) by lia.
    decompose [or] D; subst i; reflexivity.
  - replace (nth_error _ _) with (@None Z) by (symmetry; apply nth_error_None; cbn; lia).
    destruct i as [|p|p]; [lia| |lia]. destruct p as [[[p|p|]|[p|p|]|]|[[p|p|]|[p|p|]|]|]; try lia; reflexivity.
Qed.

(** FromBytes; a [48]byte is a list of 48 bytes *)
Lemma src_FQReprFromBytes_ok n b : length b = 48%nat -> runL (7 + n) src_FQReprFromBytes [VBy b] = Done [] [VR (FQReprFromBytes b)].
Proof.
  intros H. do 48 (destruct b as [|? b]; [discriminate H|]). destruct b; [|discriminate H]. clear H.
  limb_lhs. reflexivity.
Qed.
Lemma src_FRReprFromBytes_ok n b : length b = 32%nat -> runL (7 + n) src_FRReprFromBytes [VBy b] = Done [] [VRr (FRReprFromBytes b)].
Proof.
  intros H. do 32 (destruct b as [|? b]; [discriminate H|]). destruct b; [|discriminate H]. clear H.
  limb_lhs. reflexivity.
Qed.

(** from a big.Int *)
Lemma cmp0_if {A} z (a b : A) : (if if match big_Cmp z 0 with 0 => true | _ => false end then false else true then a else b) = if (z =? 0)%Z then b else a.
Proof. unfold big_Cmp. destruct (Z.ltb_spec z 0), (Z.eqb_spec z 0); try reflexivity; lia. Qed.
Lemma wlo_mask z : wlo (Z.land z 18446744073709551615) = Z.land z WMASK.
Proof.
  change 18446744073709551615 with (Z.ones 64). change WMASK with (Z.ones 64). apply wlo_small. rewrite Z.land_ones by lia.
  unfold isW. apply Z.mod_pos_bound. lia.
Qed.
Lemma src_fqReprFromBigIntUnchecked_ok n z : runL (20 + n) src_fqReprFromBigIntUnchecked [VBig z] = match fqReprFromBigIntUnchecked z with Some r => Done [VBig z] [VR r] | None => Panic end.
Proof.
  limb_lhs. unfold fqReprFromBigIntUnchecked. cbn [words_of_big repeat]. rewrite !cmp0_if, !wlo_mask. limb_ifs; reflexivity.
Qed.
Lemma src_FQReprFromBigInt_ok n z : runL (20 + n) src_FQReprFromBigInt [VBig z] =
  match FQReprFromBigInt z with Some (Some r) => Done [VBig z] [VR r; VN] | Some None => Done [VBig z] [VR (mkFQRepr 0 0 0 0 0 0); VErr] | None => Panic end.
Proof.
  limb_lhs. unfold FQReprFromBigInt.
  match goal with |- (if ?c1 then _ else if ?c2 then _ else _) = _ => change c1 with (384 <? big_BitLen z)%Z; change c2 with (Z.sgn z =? -1)%Z end.
  destruct (384 <? big_BitLen z)%Z, (Z.sgn z =? -1)%Z; try reflexivity. cbn [orb].
  cbn [words_of_big repeat]. rewrite !cmp0_if, !wlo_mask. limb_ifs; reflexivity.
Qed.
Lemma src_FRReprFromBigInt_ok n z : runL (20 + n) src_FRReprFromBigInt [VBig z] =
  match FRReprFromBigInt z with Some (Some r) => Done [VBig z] [VRr r; VN] | Some None => Done [VBig z] [VN; VErr] | None => Panic end.
Proof.
  limb_lhs. unfold FRReprFromBigInt.
  match goal with |- (if ?c1 then _ else if ?c2 then _ else _) = _ => change c1 with (256 <? big_BitLen z)%Z; change c2 with (Z.sgn z =? -1)%Z end.
  destruct (256 <? big_BitLen z)%Z, (Z.sgn z =? -1)%Z; try reflexivity. cbn [orb].
  cbn [words_of_big repeat]. rewrite !cmp0_if, !wlo_mask. limb_ifs; reflexivity.
Qed.

(** from text: an error with the zero value, or a panic for a base that math/big refuses; base 0 is outside the model *)
Lemma int_of_uint_if b : (if if less b (2 ^ 63) then false else true then b - 2 ^ 64 else b) = int_of_uint b.
Proof. unfold less, int_of_uint, Z.ltb. destruct (b ?= 2 ^ 63)%Z; reflexivity. Qed.
Lemma src_fqReprFromHexUnchecked_ok n s : runL n src_fqReprFromHexUnchecked [VStr s] =
  match fqReprFromHexUnchecked s with SOk r => Done [] [VR r] | SFail => Panic | SPanic => Panic | SBase0 => Stuck end.
Proof.
  limb_lhs. unfold fqReprFromHexUnchecked, fqReprFromStringUnchecked. change (int_of_uint 16) with 16. destruct (big_SetString s 16); try reflexivity. destruct (fqReprFromBigIntUnchecked a); reflexivity.
Qed.
Lemma src_fqReprFromStringUnchecked_ok n s b : runL n src_fqReprFromStringUnchecked [VStr s; VU 64 b] =
  match fqReprFromStringUnchecked s b with SOk r => Done [] [VR r] | SFail => Panic | SPanic => Panic | SBase0 => Stuck end.
Proof.
  limb_lhso. rewrite int_of_uint_if. unfold fqReprFromStringUnchecked. destruct (big_SetString s (int_of_uint b)); try reflexivity. destruct (fqReprFromBigIntUnchecked a); reflexivity.
Qed.
Lemma src_FQReprFromString_ok n s b : runL n src_FQReprFromString [VStr s; VU 64 b] =
  match FQReprFromString s b with SOk r => Done [] [VR r; VN] | SFail => Done [] [VR (mkFQRepr 0 0 0 0 0 0); VErr] | SPanic => Panic | SBase0 => Stuck end.
Proof.
  limb_lhso. rewrite int_of_uint_if. unfold FQReprFromString. destruct (big_SetString s (int_of_uint b)); try reflexivity. destruct (FQReprFromBigInt a) as [[r|]|]; reflexivity.
Qed.
Lemma src_FRReprFromString_ok n s b : runL n src_FRReprFromString [VStr s; VU 64 b] =
  match FRReprFromString s b with SOk r => Done [] [VRr r; VN] | SFail => Done [] [VN; VErr] | SPanic => Panic | SBase0 => Stuck end.
Proof.
  limb_lhso. rewrite int_of_uint_if. unfold FRReprFromString. destruct (big_SetString s (int_of_uint b)); try reflexivity. destruct (FRReprFromBigInt a) as [[r|]|]; reflexivity.
Qed.

(** the bit iterator; its slice is a list of words *)
Lemma words_length vl : forall l, words (F := FQ) vl = Some l -> length vl = length l.
Proof.
  induction vl as [|v vl IH]; intros l H; [injection H as <-; reflexivity|].
  assert (D : exists z l', words (F := FQ) vl = Some l' /\ l = z :: l').
  { cbn [words] in H. destruct v; try discriminate H. repeat match type of H with match ?x with _ => _ end = _ => destruct x; try discriminate H end.
    destruct (words vl) as [l'|]; [|discriminate H]. injection H as <-. eauto. }
  destruct D as (z & l' & H1 & ->). cbn. f_equal. auto.
Qed.
Lemma words_map l : words (F := FQ) (map (VU 64) l) = Some l.
Proof. induction l as [|x l IH]; [reflexivity|]. cbn [map words]. rewrite IH. reflexivity. Qed.
Lemma src_NewBitIterator_words n l vl : words vl = Some l -> 64 * Z.of_nat (length l) < 2 ^ 64 -> runL n src_NewBitIterator [VL vl] = Done [VL vl] [VBI (NewBitIterator l)].
Proof.
  intros Hw Hl. limb_lhso. rewrite Hw. pose proof (words_length vl l Hw) as E. unfold length in E at 1. cbv beta. rewrite E. rewrite wlo_small by (unfold isW; lia). reflexivity.
Qed.
Lemma src_NewBitIterator_ok n l : 64 * Z.of_nat (length l) < 2 ^ 64 -> runL n src_NewBitIterator [VL (map (VU 64) l)] = Done [VL (map (VU 64) l)] [VBI (NewBitIterator l)].
Proof. apply src_NewBitIterator_words, words_map. Qed.
Lemma lnth_words l i : 0 <= i < Z.of_nat (length l) -> lnth (map (VU 64) l) i = Ok (VU (F := FQ) 64 (nth (Z.to_nat i) l 0)).
Proof.
  intros H. unfold lnth. replace (less i 0) with false by (unfold less; destruct (Z.compare_spec i 0); auto; lia).
  rewrite nth_error_map. rewrite (nth_error_nth' l 0) by lia. reflexivity.
Qed.
Lemma src_BitIterator_Next_ok n bi : isW (bi_n bi) -> bi_n bi <= 64 * Z.of_nat (length (bi_arr bi)) ->
  runL n src_BitIterator_Next [VBI bi] = Done [VBI (snd (BitIterator_Next bi))] [VB (fst (fst (BitIterator_Next bi))); VB (snd (fst (BitIterator_Next bi)))].
Proof.
  intros Hw Hl. destruct bi as [l m]. cbn [bi_n bi_arr] in *. limb_lhso. unfold BitIterator_Next, weqb. cbn [bi_n bi_arr].
  destruct (Z.eqb_spec m 0) as [->|Hm]; [reflexivity|]. pose proof Hw as [Hw0 Hw1].
  rewrite (wsub_small m 1) by (unfold isW; lia).
  assert (Hd : 0 <= (m - 1) / 64 < Z.of_nat (length l)) by (split; [apply Z.div_pos; lia|apply Z.div_lt_upper_bound; lia]).
  pose proof (Z.div_mod (m - 1) 64 ltac:(lia)). pose proof (Z.mod_pos_bound (m - 1) 64 ltac:(lia)).
  replace (wmul ((m - 1) / 64) 64) with ((m - 1) / 64 * 64) by (symmetry; unfold wmul; apply wlo_small; unfold isW; lia).
  rewrite wsub_small by (unfold isW; lia).
  rewrite <- wshl_1 by lia.
  pose proof (lnth_words l ((m - 1) / 64) Hd) as E. unfold map in E. rewrite E. reflexivity.
Qed.
