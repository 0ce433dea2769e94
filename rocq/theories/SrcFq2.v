(** The functions of fq.go and fr.go with loops whose number of turns is not fixed, run from their source text. *)
Require Import ZArith Bool String Ascii List Lia.
From Verif Require Import Words ModelRepr ModelFq ModelFr ModelOps ModelTower ModelCurve ModelPairing ModelHash ModelBls ModelStr ReprProofs ReprProofs2 SrcAst SrcSem SrcCode SrcCall SrcTac FqProofs FqInverse FrProofs SrcLoops SrcLimb SrcRepr2.
Import ListNotations.
Open Scope Z_scope.
Local Open Scope string_scope.

(** Exp of FQ *)
Definition envX (f : FQ) (n : FQRepr) (r : (bool * bool) * BitIterator) (fo : bool) (res : FQ) : env (F := FQ) :=
  [[]; [("done", VB (snd (fst r))); ("next", VB (fst (fst r))); ("foundOne", VB fo); ("res", VF res); ("iter", VBI (snd r)); ("f", VF f); ("n", VR n)]].
Definition exp_body (f : FQ) (next : bool) (st : bool * FQ) : bool * FQ :=
  let '(foundOne, res) := st : bool * FQ in
  let '(foundOne, res) := if foundOne then (foundOne, FQ_SquareAssign res) else (next, res) in
  (foundOne, if next then FQ_MulAssign res f else res).
Lemma FQ_Exp_loop f n : forall k m bi fo res, 0 <= bi_n bi < Z.of_nat k ->
  exists it fo', forall kn kr, loopL (k + m) (fcond src_FQ_Exp) (fpost src_FQ_Exp) (fbody src_FQ_Exp) (envX f n (BitIterator_Next bi) fo res) kn kr =
    kn (envX f n it fo' (snd (bits_loop (exp_body f) k bi (fo, res)))).
Proof.
  induction k as [|k IH]; intros m bi fo res H; [lia|]. cbn [bits_loop].
  destruct (BitIterator_Next bi) as [[next done] bi'] eqn:E. destruct done.
  - exists ((next, true), bi'), fo. intros. change (S k + m)%nat with (S (k + m)). unfold envX. cbn [fst snd]. limb_turn K HK. reflexivity.
  - assert (Hn : bi_n bi' = bi_n bi - 1 /\ bi_n bi <> 0).
    { unfold BitIterator_Next in E. destruct (Z.eqb_spec (bi_n bi) 0); [discriminate E|]. injection E as _ <-. cbn. lia. }
    destruct (IH m bi' (fst (exp_body f next (fo, res))) (snd (exp_body f next (fo, res))) ltac:(lia)) as (it & fo' & HL).
    exists it, fo'. intros. rewrite <- surjective_pairing in HL. rewrite <- (HL kn kr). change (S k + m)%nat with (S (k + m)). unfold envX. cbn [fst snd].
    destruct fo, next; limb_turn K HK; subst K; reflexivity.
Qed.
Lemma src_FQ_Exp_ok n f e : runL (385 + n) src_FQ_Exp [VF f; VR e] = Done [] [VF (FQ_Exp f e)].
Proof.
  destruct (FQ_Exp_loop f e 385 n (NewBitIterator (FQRepr_slice e)) false FQOne ltac:(cbn; lia)) as (it & fo & HL).
  unfold envX in HL. do 4 limb_step. step_loop HL. clear HL. limb_lhs. reflexivity.
Qed.

(** Exp of FR *)
Definition envY (f : FR) (n : FRRepr) (nc : FRRepr) (fi fNew : FR) : env (F := FQ) :=
  [[]; [("fNew", VFR fNew); ("fi", VFR fi); ("nCopy", VRr nc); ("f", VFR f); ("n", VRr n)]].
Lemma FRRepr_Cmp_zero n : wf4 n -> (FRRepr_Cmp n frZero =? 0)%Z = (eval4 n =? 0)%Z.
Proof.
  intros H. assert (Hz : wf4 frZero /\ eval4 frZero = 0) by (split; [repeat constructor; cbn; lia|reflexivity]). destruct Hz as [Hz Ez].
  rewrite FRRepr_Cmp_eval, Ez by assumption. unfold zcmp. destruct (Z.compare_spec (eval4 n) 0), (Z.eqb_spec (eval4 n) 0); cbn; auto; lia.
Qed.
Lemma FR_Exp_loop_run f n : forall k m nc fi fNew, wf4 nc -> eval4 nc < 2 ^ Z.of_nat k ->
  exists nc' fi', forall kn kr, loopL (S (k + m)) (fcond src_FR_Exp) (fpost src_FR_Exp) (fbody src_FR_Exp) (envY f n nc fi fNew) kn kr =
    kn (envY f n nc' fi' (FR_Exp_loop (S k) nc fi fNew)).
Proof.
  induction k as [|k IH]; intros m nc fi fNew W H; cbn [FR_Exp_loop]; pose proof (eval4_bound nc W).
  - pose proof (FRRepr_Cmp_zero nc W) as E. change (2 ^ Z.of_nat 0) with 1 in H. replace (eval4 nc =? 0)%Z with true in E by (symmetry; apply Z.eqb_eq; lia). rewrite E.
    exists nc, fi. intros. unfold envY. limb_turn K HK. apply Z.eqb_eq in E. rewrite E. reflexivity.
  - destruct (FRRepr_Cmp nc frZero =? 0)%Z eqn:E.
    + exists nc, fi. intros. unfold envY. limb_turn K HK. apply Z.eqb_eq in E. rewrite E. reflexivity.
    + destruct (FRRepr_Rsh_spec nc 1 W ltac:(lia)) as [W' E'].
      destruct (IH m (FRRepr_Rsh nc 1) (FR_SquareAssign fi) (if FRRepr_IsOdd nc then FR_MulAssign fNew fi else fNew) W') as (nc' & fi' & HL).
      { rewrite E'. change (2 ^ 1) with 2. apply Z.div_lt_upper_bound; [lia|]. replace (Z.of_nat (S k)) with (1 + Z.of_nat k) in H by lia. rewrite Z.pow_add_r in H by lia. exact H. }
      exists nc', fi'. intros. cbn [FR_Exp_loop] in HL. rewrite <- (HL kn kr). unfold envY. limb_turn K HK.
      destruct (FRRepr_Cmp nc frZero); [discriminate E| |]; destruct (FRRepr_IsOdd nc); subst K; reflexivity.
Qed.
Lemma src_FR_Exp_ok n f e : wf4 e -> runL (257 + n) src_FR_Exp [VFR f; VRr e] = Done [VFR f; VRr e] [VFR (FR_Exp f e)].
Proof.
  intros W. pose proof (eval4_bound e W).
  destruct (FR_Exp_loop_run f e 256 n e f bigOneFR W ltac:(change (Z.of_nat 256) with 256; lia)) as (it & fo & HL).
  change (S (256 + n)) with (257 + n)%nat in HL. unfold envY in HL. do 3 limb_step. step_loop HL. clear HL. limb_lhs. unfold FR_Exp, FR_Exp_with. reflexivity.
Qed.

(** the bit i of a slice of bytes *)
Lemma wlo_bytes (b : list Z) : Z.of_nat (length b) * 8 < 2 ^ 63 ->
  wlo (Z.of_nat ((fix length (l : list Z) : nat := match l with [] => 0%nat | _ :: l' => S (length l') end) b) * 8) = Z.of_nat (length b) * 8.
Proof. intros H. change (fix length (l : list Z) : nat := match l with [] => 0%nat | _ :: l' => S (length l') end) with (@length Z). apply wlo_small. unfold isW. lia. Qed.
Lemma byte_div i : 0 <= i -> (Z.to_nat i / 8)%nat = Z.to_nat (i / 8).
Proof. intros H. rewrite Z2Nat.inj_div by lia. reflexivity. Qed.
Lemma byte_mod i : 0 <= i -> Z.of_nat (Z.to_nat i mod 8) = i mod 8.
Proof. intros H. rewrite Nat2Z.inj_mod, Z2Nat.id by lia. reflexivity. Qed.
Lemma byte_bit i : 0 <= i -> wshl 1 (i mod 8) = Z.shiftl 1 (i mod 8).
Proof. intros H. apply wshl_1. pose proof (Z.mod_pos_bound i 8 ltac:(lia)). lia. Qed.
Lemma wadd_i i : 0 <= i < 2 ^ 63 -> wadd i 1 = i + 1.
Proof. intros H. unfold wadd. apply wlo_small. unfold isW. lia. Qed.
Lemma lnth_byte b i : 0 <= i < Z.of_nat (length b) * 8 -> lnth b (i / 8) = Ok (nth (Z.to_nat (i / 8)) b 0).
Proof.
  intros H. assert (0 <= i / 8 < Z.of_nat (length b)) by (split; [apply Z.div_pos; lia|apply Z.div_lt_upper_bound; lia]).
  unfold lnth. replace (less (i / 8) 0) with false by (unfold less; destruct (Z.compare_spec (i / 8) 0); auto; lia).
  rewrite (nth_error_nth' b 0) by lia. reflexivity.
Qed.

(** MulBits and MulBytes of FQ *)
Definition FQ_bits_from (f : FQ) (b : FQRepr) (i : Z) (k : nat) (res : FQ) : FQ :=
  fold_left (fun res i => let res := FQ_DoubleAssign res in match FQRepr_Bit b (Z.of_nat i) with Some true => FQ_AddAssign res f | _ => res end) (seq (Z.to_nat i) k) res.
Definition envQB (f : FQ) (b : LV) (i : Z) (res : FQ) : env (F := FQ) := [[("i", VU 64 i)]; [("res", VF res); ("f", VF f); ("b", b)]].
Lemma FQ_MulBits_loop : forall f b, let bl := FQRepr_BitLen b in bl <= 384 -> forall k m i res kn kr, 0 <= i -> bl = i + Z.of_nat k ->
  loopL (S (k + m)) (fcond src_FQ_MulBits) (fpost src_FQ_MulBits) (fbody src_FQ_MulBits) (envQB f (VR b) i res) kn kr =
  kn (envQB f (VR b) bl (FQ_bits_from f b i k res)).
Proof.
  intros f b. cbv zeta. intros Hbl. induction k as [|k IH]; intros m i res kn kr Hi Hk; unfold envQB.
  - limb_turn K HK. replace i with (FQRepr_BitLen b) by lia. unfold wltb. rewrite ltb_no. reflexivity.
  - destruct (Bit6 b i) as [t Et]; [lia|]. 
    replace (FQ_bits_from f b i (S k) res) with (FQ_bits_from f b (i + 1) k (match FQRepr_Bit b i with Some true => FQ_AddAssign (FQ_DoubleAssign res) f | _ => FQ_DoubleAssign res end)).
    2:{ unfold FQ_bits_from. cbn [seq fold_left]. rewrite Z2Nat.id by exact Hi. replace (Z.to_nat (i + 1)) with (S (Z.to_nat i)) by lia. reflexivity. }
    rewrite Et. limb_turn K HK. unfold wltb. rewrite ltb_yes by lia. rewrite Et. rewrite (wadd_1 (FQRepr_BitLen b)) by lia.
    destruct t; subst K; apply IH; lia.
Qed.
Lemma src_FQ_MulBits_ok n f b : wf6 b -> runL (385 + n) src_FQ_MulBits [VF f; VR b] = Done [VR b] [VF (FQ_MulBits f b)].
Proof.
  intros W. pose proof (BitLen6 b W) as B.
  pose proof (fun kn kr => FQ_MulBits_loop f b (proj2 B) (Z.to_nat (FQRepr_BitLen b)) (384 - Z.to_nat (FQRepr_BitLen b) + n) 0 FQZero kn kr ltac:(lia) ltac:(lia)) as HL.
  replace (S (Z.to_nat (FQRepr_BitLen b) + (384 - Z.to_nat (FQRepr_BitLen b) + n))) with (385 + n)%nat in HL by lia.
  unfold envQB in HL. limb_step. step_loop HL. clear HL. limb_lhs. reflexivity.
Qed.
Definition FQ_bytes_from (f : FQ) (b : list Z) (i : Z) (k : nat) (res : FQ) : FQ :=
  fold_left (fun res i => let res := FQ_DoubleAssign res in if negb (wand (nth (i / 8) b 0) (wshl 1 (Z.of_nat (i mod 8))) =? 0)%Z then FQ_AddAssign res f else res) (seq (Z.to_nat i) k) res.
Lemma FQ_MulBytes_loop : forall f b, let bl := Z.of_nat (length b) * 8 in bl < 2 ^ 63 -> forall k m i res kn kr, 0 <= i -> bl = i + Z.of_nat k ->
  loopL (S (k + m)) (fcond src_FQ_MulBytes) (fpost src_FQ_MulBytes) (fbody src_FQ_MulBytes) (envQB f (VBy b) i res) kn kr =
  kn (envQB f (VBy b) bl (FQ_bytes_from f b i k res)).
Proof.
  intros f b. cbv zeta. intros Hbl. induction k as [|k IH]; intros m i res kn kr Hi Hk; unfold envQB.
  - limb_turno K HK. rewrite wlo_bytes by exact Hbl. replace i with (Z.of_nat (length b) * 8) by lia. unfold wltb. rewrite ltb_no. reflexivity.
  - replace (FQ_bytes_from f b i (S k) res) with (FQ_bytes_from f b (i + 1) k
      (if negb (wand (nth (Z.to_nat (i / 8)) b 0) (Z.shiftl 1 (i mod 8)) =? 0)%Z then FQ_AddAssign (FQ_DoubleAssign res) f else FQ_DoubleAssign res)).
    2:{ unfold FQ_bytes_from. cbn [seq fold_left]. replace (Z.to_nat (i + 1)) with (S (Z.to_nat i)) by lia. rewrite byte_div, byte_mod, byte_bit by exact Hi. reflexivity. }
    limb_turno K HK. rewrite wlo_bytes by exact Hbl. unfold wltb. rewrite ltb_yes by lia. rewrite wadd_i by lia.
    rewrite lnth_byte by lia. unfold weqb. destruct (wand (nth (Z.to_nat (i / 8)) b 0) (Z.shiftl 1 (i mod 8)) =? 0)%Z; subst K; apply IH; lia.
Qed.
Lemma src_FQ_MulBytes_ok n f b : 8 * Z.of_nat (length b) < 2 ^ 63 -> runL (S (8 * length b + n)) src_FQ_MulBytes [VF f; VBy b] = Done [VBy b] [VF (FQ_MulBytes f b)].
Proof.
  intros W.
  pose proof (fun kn kr => FQ_MulBytes_loop f b ltac:(lia) (length b * 8) n 0 FQZero kn kr ltac:(lia) ltac:(lia)) as HL.
  rewrite (Nat.mul_comm 8). unfold envQB in HL. limb_step. step_loop HL. clear HL. limb_lhs. reflexivity.
Qed.


(** MulBits and MulBytes of FR *)
Definition FR_bits_from (f : FR) (b : FRRepr) (i : Z) (k : nat) (res : FR) : FR :=
  fold_left (fun res i => let res := FR_DoubleAssign res in match FRRepr_Bit b (Z.of_nat i) with Some true => FR_AddAssign res f | _ => res end) (seq (Z.to_nat i) k) res.
Definition envRB (f : FR) (b : LV) (i : Z) (res : FR) : env (F := FQ) := [[("i", VU 64 i)]; [("res", VFR res); ("f", VFR f); ("b", b)]].
Lemma FR_MulBits_loop : forall f b, let bl := FRRepr_BitLen b in bl <= 256 -> forall k m i res kn kr, 0 <= i -> bl = i + Z.of_nat k ->
  loopL (S (k + m)) (fcond src_FR_MulBits) (fpost src_FR_MulBits) (fbody src_FR_MulBits) (envRB f (VRr b) i res) kn kr =
  kn (envRB f (VRr b) bl (FR_bits_from f b i k res)).
Proof.
  intros f b. cbv zeta. intros Hbl. induction k as [|k IH]; intros m i res kn kr Hi Hk; unfold envRB.
  - limb_turn K HK. replace i with (FRRepr_BitLen b) by lia. unfold wltb. rewrite ltb_no. reflexivity.
  - destruct (Bit4 b i) as [t Et]; [lia|]. 
    replace (FR_bits_from f b i (S k) res) with (FR_bits_from f b (i + 1) k (match FRRepr_Bit b i with Some true => FR_AddAssign (FR_DoubleAssign res) f | _ => FR_DoubleAssign res end)).
    2:{ unfold FR_bits_from. cbn [seq fold_left]. rewrite Z2Nat.id by exact Hi. replace (Z.to_nat (i + 1)) with (S (Z.to_nat i)) by lia. reflexivity. }
    rewrite Et. limb_turn K HK. unfold wltb. rewrite ltb_yes by lia. rewrite Et. rewrite (wadd_1 (FRRepr_BitLen b)) by lia.
    destruct t; subst K; apply IH; lia.
Qed.
Lemma src_FR_MulBits_ok n f b : wf4 b -> runL (257 + n) src_FR_MulBits [VFR f; VRr b] = Done [VFR f; VRr b] [VFR (FR_MulBits f b)].
Proof.
  intros W. pose proof (BitLen4 b W) as B.
  pose proof (fun kn kr => FR_MulBits_loop f b (proj2 B) (Z.to_nat (FRRepr_BitLen b)) (256 - Z.to_nat (FRRepr_BitLen b) + n) 0 bigZeroFR kn kr ltac:(lia) ltac:(lia)) as HL.
  replace (S (Z.to_nat (FRRepr_BitLen b) + (256 - Z.to_nat (FRRepr_BitLen b) + n))) with (257 + n)%nat in HL by lia.
  unfold envRB in HL. limb_step. step_loop HL. clear HL. limb_lhs. reflexivity.
Qed.
Definition FR_bytes_from (f : FR) (b : list Z) (i : Z) (k : nat) (res : FR) : FR :=
  fold_left (fun res i => let res := FR_DoubleAssign res in if negb (wand (nth (i / 8) b 0) (wshl 1 (Z.of_nat (i mod 8))) =? 0)%Z then FR_AddAssign res f else res) (seq (Z.to_nat i) k) res.
Lemma FR_MulBytes_loop : forall f b, let bl := Z.of_nat (length b) * 8 in bl < 2 ^ 63 -> forall k m i res kn kr, 0 <= i -> bl = i + Z.of_nat k ->
  loopL (S (k + m)) (fcond src_FR_MulBytes) (fpost src_FR_MulBytes) (fbody src_FR_MulBytes) (envRB f (VBy b) i res) kn kr =
  kn (envRB f (VBy b) bl (FR_bytes_from f b i k res)).
Proof.
  intros f b. cbv zeta. intros Hbl. induction k as [|k IH]; intros m i res kn kr Hi Hk; unfold envRB.
  - limb_turno K HK. rewrite wlo_bytes by exact Hbl. replace i with (Z.of_nat (length b) * 8) by lia. unfold wltb. rewrite ltb_no. reflexivity.
  - replace (FR_bytes_from f b i (S k) res) with (FR_bytes_from f b (i + 1) k
      (if negb (wand (nth (Z.to_nat (i / 8)) b 0) (Z.shiftl 1 (i mod 8)) =? 0)%Z then FR_AddAssign (FR_DoubleAssign res) f else FR_DoubleAssign res)).
    2:{ unfold FR_bytes_from. cbn [seq fold_left]. replace (Z.to_nat (i + 1)) with (S (Z.to_nat i)) by lia. rewrite byte_div, byte_mod, byte_bit by exact Hi. reflexivity. }
    limb_turno K HK. rewrite wlo_bytes by exact Hbl. unfold wltb. rewrite ltb_yes by lia. rewrite wadd_i by lia.
    rewrite lnth_byte by lia. unfold weqb. destruct (wand (nth (Z.to_nat (i / 8)) b 0) (Z.shiftl 1 (i mod 8)) =? 0)%Z; subst K; apply IH; lia.
Qed.
Lemma src_FR_MulBytes_ok n f b : 8 * Z.of_nat (length b) < 2 ^ 63 -> runL (S (8 * length b + n)) src_FR_MulBytes [VFR f; VBy b] = Done [VFR f; VBy b] [VFR (FR_MulBytes f b)].
Proof.
  intros W.
  pose proof (fun kn kr => FR_MulBytes_loop f b ltac:(lia) (length b * 8) n 0 bigZeroFR kn kr ltac:(lia) ltac:(lia)) as HL.
  rewrite (Nat.mul_comm 8). unfold envRB in HL. limb_step. step_loop HL. clear HL. limb_lhs. reflexivity.
Qed.


Lemma src_HashFR_limb_ok n d : runL n src_HashFR [VS "hash" [("sum", VBy d)]] = Done [] [VFR (HashFR d)].
Proof. limb_lhs. reflexivity. Qed.

(** Inverse: a loop with two loops inside *)
Lemma loopL_test n c post body e kn kr r :
  (forall M G, M = (fun e => execL n post (pop e) (fun e => loopL n (Some c) post body e kn kr) kr (fun _ => Stuck) (fun _ => Stuck)) ->
    G = (fun e => execL n body ([] :: e) M kr (fun e => kn (pop e)) M) ->
    evalL n c e (fun v e => match v with VB b => if b then G e else kn e | _ => Stuck end) = r) ->
  loopL (S n) (Some c) post body e kn kr = r.
Proof. intros H. rewrite loopL_S. exact (H _ _ eq_refl eq_refl). Qed.
Definition in_loop (j : nat) (f : func) : stmt := nth j (fbody f) (SRet []).
Definition lcond (s : stmt) := match s with SFor _ c _ _ => c | _ => None end.
Definition lbody (s : stmt) := match s with SFor _ _ _ b => b | _ => [] end.
Definition envV (f : FQ) (u : FQRepr) (b : FQ) (v : FQRepr) (c : FQ) : list (string * LV) := [("c", VF c); ("b", VF b); ("v", VR v); ("u", VR u); ("f", VF f)].
Lemma FQ_halve_u f v c : forall k u b u' b', FQ_inv_halve k u b = Some (u', b') -> forall m kn kr,
  loopL (S (k + m)) (lcond (in_loop 0 src_FQ_Inverse)) [] (lbody (in_loop 0 src_FQ_Inverse)) [[]; []; []; envV f u b v c] kn kr =
  kn [[]; []; []; envV f u' b' v c].
Proof.
  induction k as [|k IH]; intros u b u' b' H m kn kr; cbn [FQ_inv_halve] in H; destruct (isEven u) eqn:E; try discriminate H.
  - injection H as <- <-. unfold envV. limb_turn K HK. rewrite E. reflexivity.
  - rewrite <- (IH _ _ _ _ H m kn kr). unfold envV. destruct b as [b]. cbn [fq_n]. limb_turn K HK. rewrite E. subst K. destruct (isEven b); reflexivity.
  - injection H as <- <-. unfold envV. limb_turn K HK. rewrite E. reflexivity.
Qed.
Lemma FQ_halve_v f u b : forall k v c v' c', FQ_inv_halve k v c = Some (v', c') -> forall m kn kr,
  loopL (S (k + m)) (lcond (in_loop 1 src_FQ_Inverse)) [] (lbody (in_loop 1 src_FQ_Inverse)) [[]; []; []; envV f u b v c] kn kr =
  kn [[]; []; []; envV f u b v' c'].
Proof.
  induction k as [|k IH]; intros v c v' c' H m kn kr; cbn [FQ_inv_halve] in H; destruct (isEven v) eqn:E; try discriminate H.
  - injection H as <- <-. unfold envV. limb_turn K HK. rewrite E. reflexivity.
  - rewrite <- (IH _ _ _ _ H m kn kr). unfold envV. destruct c as [c]. cbn [fq_n]. limb_turn K HK. rewrite E. subst K. destruct (isEven c); reflexivity.
  - injection H as <- <-. unfold envV. limb_turn K HK. rewrite E. reflexivity.
Qed.
Lemma inv_test {A} x y (a b : A) :
  (if if match x with 0 => true | _ => false end then false else true then if if match y with 0 => true | _ => false end then false else true then a else b else b) =
  if negb (x =? 0)%Z && negb (y =? 0)%Z then a else b.
Proof. destruct x, y; reflexivity. Qed.
Lemma inv_ge {A} x (a b : A) : (if match match x with 0 => Eq | Zpos _ => Gt | Zneg _ => Lt end with Lt => true | _ => false end then b else a) = if (0 <=? x)%Z then a else b.
Proof. destruct x; reflexivity. Qed.
Lemma FQ_inv_loop_run f q : forall k u b v c u' b' c', FQ_inv_loop q k u b v c = Some (u', b', c') -> forall m,
  exists v', forall kn kr, loopL (S (k + (S q + m))) (fcond src_FQ_Inverse) [] (fbody src_FQ_Inverse) [[]; envV f u b v c] kn kr = kn [[]; envV f u' b' v' c'].
Proof.
  induction k as [|k IH]; intros u b v c u' b' c' H m; cbn [FQ_inv_loop] in H; destruct (_ && _) eqn:E in H; try discriminate H.
  - injection H as <- <- <-. exists v. intros. apply loopL_test. intros M G HM HG. limb_lhs. rewrite inv_test, E. reflexivity.
  - destruct (FQ_inv_halve q u b) as [[u1 b1]|] eqn:E1; [|discriminate H]. destruct (FQ_inv_halve q v c) as [[v1 c1]|] eqn:E2; [|discriminate H].
    set (n := (S k + (S q + m))%nat).
    pose proof (FQ_halve_u f v c q u b u1 b1 E1 (S k + m)) as H1. replace (S (q + (S k + m))) with n in H1 by lia.
    pose proof (FQ_halve_v f u1 b1 q v c v1 c1 E2 (S k + m)) as H2. replace (S (q + (S k + m))) with n in H2 by lia.
    assert (HL : exists v', forall kn kr, loopL n (fcond src_FQ_Inverse) [] (fbody src_FQ_Inverse) [[]; if (0 <=? FQRepr_Cmp u1 v1)%Z then envV f (FQRepr_SubNoBorrow u1 v1) (FQ_SubAssign b1 c1) v1 c1 else envV f u1 b1 (FQRepr_SubNoBorrow v1 u1) (FQ_SubAssign c1 b1)] kn kr = kn [[]; envV f u' b' v' c']).
    { destruct (0 <=? FQRepr_Cmp u1 v1)%Z; exact (IH _ _ _ _ _ _ _ H m). }
    destruct HL as [v' HL]. exists v'. intros kn kr. rewrite <- (HL kn kr). clear HL IH H. clearbody n.
    apply loopL_test. intros M G HM HG. limb_lhs. rewrite inv_test, E. rewrite HG. clear G HG. cbv beta. unfold envV in *.
    unfold execL. step_loop H1. step_loop H2. limb_lhs. rewrite HM. destruct (FQRepr_Cmp u1 v1); reflexivity.
  - injection H as <- <- <-. exists v. intros. apply loopL_test. intros M G HM HG. limb_lhs. rewrite inv_test, E. reflexivity.
Qed.
Lemma src_FQ_Inverse_fuel_ok n q f r : FQ_Inverse_fuel q f = Some r -> runL (S (q + (S q + n))) src_FQ_Inverse [VF f] = Done [] [VF (fst r); VB (snd r)].
Proof.
  intros H. unfold FQ_Inverse_fuel in H. destruct (FQ_IsZero f) eqn:Z.
  - injection H as <-. step_open K HK. limb_lhs. rewrite Z. reflexivity.
  - destruct (FQ_inv_loop q q (fq_n f) (FQReprToFQRaw FQR2) QFieldModulus FQZero) as [[[u b] c]|] eqn:E; [|discriminate H].
    destruct (FQ_inv_loop_run f q q _ _ _ _ _ _ _ E n) as [v HL]. unfold envV in HL. destruct f as [f]. cbn [fq_n] in *.
    step_open K HK. limb_lhs. rewrite Z. step_close K HK. do 4 limb_step. step_loop HL. clear HL. limb_lhs.
    destruct (FQRepr_Cmp u bigOne); injection H as <-; reflexivity.
Qed.
Lemma src_FQ_Inverse_ok n f : canon f -> runL (1602 + n) src_FQ_Inverse [VF f] = Done [] [VF (fst (FQ_Inverse f)); VB (snd (FQ_Inverse f))].
Proof.
  intros C. assert (E : exists r, FQ_Inverse_fuel 800 f = Some r).
  { destruct (FQ_IsZero f) eqn:Z; [unfold FQ_Inverse_fuel; rewrite Z; eauto|]. destruct (FQ_Inverse_fuel_spec f 800 C Z ltac:(lia)) as (g & -> & _). eauto. }
  destruct E as [r E]. unfold FQ_Inverse. rewrite E. replace (1602 + n)%nat with (S (800 + (S 800 + n))) by lia. apply src_FQ_Inverse_fuel_ok, E.
Qed.

Definition envW (f : FR) (u : FRRepr) (b : FR) (v : FRRepr) (c : FR) : list (string * LV) := [("one", VRr fr_one); ("c", VFR c); ("b", VFR b); ("v", VRr v); ("u", VRr u); ("f", VFR f)].
Lemma FR_halve_u f v c : forall k u b u' b', FR_inv_halve k u b = Some (u', b') -> forall m kn kr,
  loopL (S (k + m)) (lcond (in_loop 0 src_FR_Inverse)) [] (lbody (in_loop 0 src_FR_Inverse)) [[]; []; []; envW f u b v c] kn kr =
  kn [[]; []; []; envW f u' b' v c].
Proof.
  induction k as [|k IH]; intros u b u' b' H m kn kr; cbn [FR_inv_halve] in H; destruct (FRRepr_IsEven u) eqn:E; try discriminate H.
  - injection H as <- <-. unfold envW. limb_turn K HK. rewrite E. reflexivity.
  - rewrite <- (IH _ _ _ _ H m kn kr). unfold envW. destruct b as [b]. cbn [fr_n]. limb_turn K HK. rewrite E. subst K. destruct (FRRepr_IsEven b); reflexivity.
  - injection H as <- <-. unfold envW. limb_turn K HK. rewrite E. reflexivity.
Qed.
Lemma FR_halve_v f u b : forall k v c v' c', FR_inv_halve k v c = Some (v', c') -> forall m kn kr,
  loopL (S (k + m)) (lcond (in_loop 1 src_FR_Inverse)) [] (lbody (in_loop 1 src_FR_Inverse)) [[]; []; []; envW f u b v c] kn kr =
  kn [[]; []; []; envW f u b v' c'].
Proof.
  induction k as [|k IH]; intros v c v' c' H m kn kr; cbn [FR_inv_halve] in H; destruct (FRRepr_IsEven v) eqn:E; try discriminate H.
  - injection H as <- <-. unfold envW. limb_turn K HK. rewrite E. reflexivity.
  - rewrite <- (IH _ _ _ _ H m kn kr). unfold envW. destruct c as [c]. cbn [fr_n]. limb_turn K HK. rewrite E. subst K. destruct (FRRepr_IsEven c); reflexivity.
  - injection H as <- <-. unfold envW. limb_turn K HK. rewrite E. reflexivity.
Qed.
Lemma FR_inv_loop_run f q : forall k u b v c u' b' c', FR_inv_loop q k u b v c = Some (u', b', c') -> forall m,
  exists v', forall kn kr, loopL (S (k + (S q + m))) (fcond src_FR_Inverse) [] (fbody src_FR_Inverse) [[]; envW f u b v c] kn kr = kn [[]; envW f u' b' v' c'].
Proof.
  induction k as [|k IH]; intros u b v c u' b' c' H m; cbn [FR_inv_loop] in H; destruct (_ && _) eqn:E in H; try discriminate H.
  - injection H as <- <- <-. exists v. intros. apply loopL_test. intros M G HM HG. limb_lhs. rewrite inv_test, E. reflexivity.
  - destruct (FR_inv_halve q u b) as [[u1 b1]|] eqn:E1; [|discriminate H]. destruct (FR_inv_halve q v c) as [[v1 c1]|] eqn:E2; [|discriminate H].
    set (n := (S k + (S q + m))%nat).
    pose proof (FR_halve_u f v c q u b u1 b1 E1 (S k + m)) as H1. replace (S (q + (S k + m))) with n in H1 by lia.
    pose proof (FR_halve_v f u1 b1 q v c v1 c1 E2 (S k + m)) as H2. replace (S (q + (S k + m))) with n in H2 by lia.
    assert (HL : exists v', forall kn kr, loopL n (fcond src_FR_Inverse) [] (fbody src_FR_Inverse) [[]; if (0 <=? FRRepr_Cmp u1 v1)%Z then envW f (FRRepr_SubNoBorrow u1 v1) (FR_SubAssign b1 c1) v1 c1 else envW f u1 b1 (FRRepr_SubNoBorrow v1 u1) (FR_SubAssign c1 b1)] kn kr = kn [[]; envW f u' b' v' c']).
    { destruct (0 <=? FRRepr_Cmp u1 v1)%Z; exact (IH _ _ _ _ _ _ _ H m). }
    destruct HL as [v' HL]. exists v'. intros kn kr. rewrite <- (HL kn kr). clear HL IH H. clearbody n.
    apply loopL_test. intros M G HM HG. limb_lhs. rewrite inv_test, E. rewrite HG. clear G HG. cbv beta. unfold envW in *.
    unfold execL. step_loop H1. step_loop H2. limb_lhs. rewrite HM. destruct (FRRepr_Cmp u1 v1); reflexivity.
  - injection H as <- <- <-. exists v. intros. apply loopL_test. intros M G HM HG. limb_lhs. rewrite inv_test, E. reflexivity.
Qed.
Lemma src_FR_Inverse_fuel_ok n q f r : FR_Inverse_fuel q f = Some r -> runL (S (q + (S q + n))) src_FR_Inverse [VFR f] = Done [VFR f] [match r with Some g => VFR g | None => VN end].
Proof.
  intros H. unfold FR_Inverse_fuel in H. destruct (FR_IsZero f) eqn:Z.
  - injection H as <-. step_open K HK. limb_lhs. rewrite Z. reflexivity.
  - destruct (FR_inv_loop q q (fr_n f) (mkFR FRR2) RFieldModulus bigZeroFR) as [[[u b] c]|] eqn:E; [|discriminate H].
    destruct (FR_inv_loop_run f q q _ _ _ _ _ _ _ E n) as [v HL]. unfold envW in HL. destruct f as [f]. cbn [fr_n] in *.
    step_open K HK. limb_lhs. rewrite Z. step_close K HK. do 5 limb_step. step_loop HL. clear HL. limb_lhs.
    destruct (FRRepr_Equals u fr_one); injection H as <-; reflexivity.
Qed.
Lemma src_FR_Inverse_ok n f : rcanon f -> runL (1202 + n) src_FR_Inverse [VFR f] = Done [VFR f] [match FR_Inverse f with Some g => VFR g | None => VN end].
Proof.
  intros C. assert (E : exists r, FR_Inverse_fuel 600 f = Some r).
  { destruct (FR_IsZero f) eqn:Z; [unfold FR_Inverse_fuel; rewrite Z; eauto|]. destruct (FR_Inverse_fuel_spec f 600 C Z ltac:(lia)) as (g & -> & _). eauto. }
  destruct E as [r E]. unfold FR_Inverse. rewrite E. replace (1202 + n)%nat with (S (600 + (S 600 + n))) by lia. apply src_FR_Inverse_fuel_ok, E.
Qed.
