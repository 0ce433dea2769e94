(** RandG1, RandG2 on readers; random keys. *)
Require Import ZArith Lia Bool List.
From Verif Require Import Words ModelRepr ReprProofs ReprProofs2 ModelFq ModelFr ModelOps ModelTower ModelCurve ModelPairing ModelHash ModelBls NumTheory Primality Fp FpOps FqProofs FqProofs2 FqMisc FqRel FrProofs OpsRel OpsRel2 FqTransfer Ext TowerProofs TowerLimb Fld AbGrp EcGroup EcJac EcMul Curves CurveLimb CurveMisc BlsProofs BlsProofs4 BlsProofs3 BlsKeys SwEnc SwuProofs RandEx HashProofs VerifyProofs ModelRand RandProofs RandProofs2.
Import CurveLimb ListNotations.
Open Scope Z_scope.

Local Notation bytes rd := (Forall isByte (concat rd)).
(** one attempt of RandG1: a byte, then a draw; of RandG2: a byte, then two draws *)
Inductive attempts1 : list Z -> list (Z * Z) -> list Z -> Prop :=
| at1_nil s : attempts1 s [] s
| at1_cons byte s v s' ds rest : next_q s v s' -> attempts1 s' ds rest -> attempts1 (byte :: s) ((byte, v) :: ds) rest.
Inductive attempts2 : list Z -> list (Z * (Z * Z)) -> list Z -> Prop :=
| at2_nil s : attempts2 s [] s
| at2_cons byte s v0 s0 v1 s1 ds rest : next_q s v0 s0 -> next_q s0 v1 s1 -> attempts2 s1 ds rest -> attempts2 (byte :: s) ((byte, (v0, v1)) :: ds) rest.

Lemma next_q_short s v s' : next_q s v s' -> (length s' + 48 <= length s)%nat.
Proof. induction 1; rewrite app_length; lia. Qed.
Lemma read_byte_ok rd : bytes rd -> match read_byte rd with
  | None => False
  | Some (Some b, rd') => bytes rd' /\ (length (concat rd') <= length (concat rd))%nat /\ (nonempty rd -> concat rd = b :: concat rd' /\ nonempty rd')
  | Some (None, rd') => rd = [] /\ rd' = [] end.
Proof.
  intros H. unfold read_byte. pose proof (Read1_ok rd) as R. destruct (Read rd 1) as [[l|] rd']; [|exact R]. destruct R as [[-> ->]|(x & -> & E & N)]; cbn [hd].
  - cbn [concat app] in *. split; [exact H|]. split; [lia|]. intros X. inversion_clear X as [|? ? Y _]. destruct Y. reflexivity.
  - rewrite E in *. inversion_clear H. split; [assumption|]. split; [cbn [length]; lia|]. intros X. split; [reflexivity|auto].
Qed.

Section Gen.
Context {F : Type} (B : BOps F).
Lemma read_FQ_gen rd : bytes rd -> match read_FQ B rd with
  | None => False
  | Some (Some f, rd') => bytes rd' /\ (nonempty rd -> nonempty rd') /\ exists v, f = b_of B (FQRepr_const v) /\ next_q (concat rd) v (concat rd')
  | Some (None, rd') => end_q (concat rd) end.
Proof.
  intros H. unfold read_FQ. pose proof (rand_q rd H) as Q. destruct (rand_Int rd (FQRepr_ToBig QFieldModulus)) as [[[v|] rd']|]; cbn [draw_bind]; [|exact (proj1 Q)|exact Q].
  destruct Q as (Q1 & Q2 & Q3). split; [exact Q3|]. split; [exact Q2|]. exists v. split; [reflexivity|exact Q1].
Qed.
Lemma read_G1_loop_ok fuel : forall rd, bytes rd -> (length (concat rd) < fuel)%nat -> match read_G1_loop B fuel rd with
  | None => False
  | Some (Some P, rd') => exists ds, Forall (fun d => 0 <= snd d < q) ds /\ RandG1 B ds = Some P /\ RandG1 B (removelast ds) = None /\ (nonempty rd -> attempts1 (concat rd) ds (concat rd'))
  | Some (None, _) => nonempty rd -> exists ds rest, attempts1 (concat rd) ds rest /\ RandG1 B ds = None /\ (rest = [] \/ exists b s, rest = b :: s /\ end_q s) end.
Proof.
  induction fuel as [|fuel IH]; intros rd H Lf; [lia|]. cbn [read_G1_loop]. pose proof (read_byte_ok rd H) as RB. destruct (read_byte rd) as [[[b|] rd1]|]; cbn [draw_bind]; [| |exact RB].
  2: { destruct RB as [-> ->]. intros _. exists [], []. split; [constructor|]. split; [reflexivity|left; reflexivity]. }
  destruct RB as (H1 & L1 & N1). pose proof (read_FQ_gen rd1 H1) as RQ. destruct (read_FQ B rd1) as [[[f|] rd2]|]; cbn [draw_bind]; [| |exact RQ].
  2: { intros N. destruct (N1 N) as [E _]. exists [], (concat rd). split; [constructor|]. split; [reflexivity|]. right. exists b, (concat rd1). split; [exact E|exact RQ]. }
  destruct RQ as (H2 & N2 & v & -> & Q). pose proof (next_q_short _ _ _ Q) as L2. pose proof (next_q_bound _ _ _ Q) as Bv.
  assert (match read_G1_loop B fuel rd2 with
    | None => False
    | Some (Some P, rd') => exists ds, Forall (fun d => 0 <= snd d < q) ds /\ RandG1 B ds = Some P /\ RandG1 B (removelast ds) = None /\ (nonempty rd -> attempts1 (concat rd) ((b, v) :: ds) (concat rd'))
    | Some (None, _) => nonempty rd -> exists ds rest, attempts1 (concat rd) ((b, v) :: ds) rest /\ RandG1 B ds = None /\ (rest = [] \/ exists b s, rest = b :: s /\ end_q s) end) as IH'.
  { specialize (IH rd2 H2 ltac:(lia)). destruct (read_G1_loop B fuel rd2) as [[[P|] rd']|]; [| |exact IH].
    - destruct IH as (ds & F1 & R & RL & A). exists ds. split; [exact F1|]. split; [exact R|]. split; [exact RL|]. intros N. destruct (N1 N) as [E N']. rewrite E. exact (at1_cons _ _ _ _ _ _ Q (A (N2 N'))).
    - intros N. destruct (N1 N) as [E N']. destruct (IH (N2 N')) as (ds & rest & A & R & T). exists ds, rest. split; [rewrite E; exact (at1_cons _ _ _ _ _ _ Q A)|]. split; [exact R|exact T]. }
  clear IH. destruct (GetG1PointFromX B (b_of B (FQRepr_const v)) (b mod 2 =? 0)) as [p|] eqn:EG; [destruct (negb (Affine_IsZero p)) eqn:EZ|].
  - exists [(b, v)]. split; [constructor; [exact Bv|constructor]|]. split.
    + cbn [RandG1]. cbv zeta. rewrite EG, EZ. reflexivity.
    + split; [reflexivity|]. intros N. destruct (N1 N) as [E _]. rewrite E. exact (at1_cons _ _ _ _ _ _ Q (at1_nil _)).
  - destruct (read_G1_loop B fuel rd2) as [[[P|] rd']|]; [| |exact IH'].
    + destruct IH' as (ds & F1 & R & RL & A). exists ((b, v) :: ds). split; [constructor; [exact Bv|exact F1]|]. split; [|split; [|exact A]].
      * cbn [RandG1]. cbv zeta. rewrite EG, EZ. exact R.
      * destruct ds as [|d ds]; [reflexivity|]. change (removelast ((b, v) :: d :: ds)) with ((b, v) :: removelast (d :: ds)). cbn [RandG1]. cbv zeta. rewrite EG, EZ. exact RL.
    + intros N. destruct (IH' N) as (ds & rest & A & R & T). exists ((b, v) :: ds), rest. split; [exact A|]. split; [|exact T]. cbn [RandG1]. cbv zeta. rewrite EG, EZ. exact R.
  - destruct (read_G1_loop B fuel rd2) as [[[P|] rd']|]; [| |exact IH'].
    + destruct IH' as (ds & F1 & R & RL & A). exists ((b, v) :: ds). split; [constructor; [exact Bv|exact F1]|]. split; [|split; [|exact A]].
      * cbn [RandG1]. cbv zeta. rewrite EG. exact R.
      * destruct ds as [|d ds]; [reflexivity|]. change (removelast ((b, v) :: d :: ds)) with ((b, v) :: removelast (d :: ds)). cbn [RandG1]. cbv zeta. rewrite EG. exact RL.
    + intros N. destruct (IH' N) as (ds & rest & A & R & T). exists ((b, v) :: ds), rest. split; [exact A|]. split; [|exact T]. cbn [RandG1]. cbv zeta. rewrite EG. exact R.
Qed.
Lemma read_FQ2_gen rd : bytes rd -> match read_FQ2 B rd with
  | None => False
  | Some (Some f, rd') => bytes rd' /\ (nonempty rd -> nonempty rd') /\ exists v0 s v1, f = mkFQ2 (b_of B (FQRepr_const v0)) (b_of B (FQRepr_const v1)) /\ next_q (concat rd) v0 s /\ next_q s v1 (concat rd')
  | Some (None, rd') => end_q (concat rd) \/ exists v0 s, next_q (concat rd) v0 s /\ end_q s end.
Proof.
  intros H. unfold read_FQ2. pose proof (read_FQ_gen rd H) as R0. destruct (read_FQ B rd) as [[[f0|] rd0]|]; cbn [draw_bind]; [|left; exact R0|exact R0].
  destruct R0 as (H0 & N0 & v0 & -> & Q0). pose proof (read_FQ_gen rd0 H0) as R1. destruct (read_FQ B rd0) as [[[f1|] rd1]|]; cbn [draw_bind]; [|right; exists v0, (concat rd0); split; [exact Q0|exact R1]|exact R1].
  destruct R1 as (H1 & N1 & v1 & -> & Q1). split; [exact H1|]. split; [auto|]. exists v0, (concat rd0), v1. split; [reflexivity|]. split; [exact Q0|exact Q1].
Qed.
Lemma read_G2_loop_ok fuel : forall rd, bytes rd -> (length (concat rd) < fuel)%nat -> match read_G2_loop B fuel rd with
  | None => False
  | Some (Some P, rd') => exists ds, Forall (fun d => 0 <= fst (snd d) < q /\ 0 <= snd (snd d) < q) ds /\ RandG2 B ds = Some P /\ RandG2 B (removelast ds) = None /\ (nonempty rd -> attempts2 (concat rd) ds (concat rd'))
  | Some (None, _) => nonempty rd -> exists ds rest, attempts2 (concat rd) ds rest /\ RandG2 B ds = None /\
      (rest = [] \/ exists b s, rest = b :: s /\ (end_q s \/ exists v s', next_q s v s' /\ end_q s')) end.
Proof.
  induction fuel as [|fuel IH]; intros rd H Lf; [lia|]. cbn [read_G2_loop]. pose proof (read_byte_ok rd H) as RB. destruct (read_byte rd) as [[[b|] rd1]|]; cbn [draw_bind]; [| |exact RB].
  2: { destruct RB as [-> ->]. intros _. exists [], []. split; [constructor|]. split; [reflexivity|left; reflexivity]. }
  destruct RB as (H1 & L1 & N1). pose proof (read_FQ2_gen rd1 H1) as RQ. destruct (read_FQ2 B rd1) as [[[f|] rd2]|]; cbn [draw_bind]; [| |exact RQ].
  2: { intros N. destruct (N1 N) as [E _]. exists [], (concat rd). split; [constructor|]. split; [reflexivity|]. right. exists b, (concat rd1). split; [exact E|exact RQ]. }
  destruct RQ as (H2 & N2 & v & s & v' & -> & Q & Q'). pose proof (next_q_short _ _ _ Q) as L2. pose proof (next_q_short _ _ _ Q') as L3. pose proof (Logic.conj (next_q_bound _ _ _ Q) (next_q_bound _ _ _ Q')) as Bv.
  assert (match read_G2_loop B fuel rd2 with
    | None => False
    | Some (Some P, rd') => exists ds, Forall (fun d => 0 <= fst (snd d) < q /\ 0 <= snd (snd d) < q) ds /\ RandG2 B ds = Some P /\ RandG2 B (removelast ds) = None /\ (nonempty rd -> attempts2 (concat rd) ((b, (v, v')) :: ds) (concat rd'))
    | Some (None, _) => nonempty rd -> exists ds rest, attempts2 (concat rd) ((b, (v, v')) :: ds) rest /\ RandG2 B ds = None /\
        (rest = [] \/ exists b s, rest = b :: s /\ (end_q s \/ exists v s', next_q s v s' /\ end_q s')) end) as IH'.
  { specialize (IH rd2 H2 ltac:(lia)). destruct (read_G2_loop B fuel rd2) as [[[P|] rd']|]; [| |exact IH].
    - destruct IH as (ds & F1 & R & RL & A). exists ds. split; [exact F1|]. split; [exact R|]. split; [exact RL|]. intros N. destruct (N1 N) as [E N']. rewrite E. exact (at2_cons _ _ _ _ _ _ _ _ Q Q' (A (N2 N'))).
    - intros N. destruct (N1 N) as [E N']. destruct (IH (N2 N')) as (ds & rest & A & R & T). exists ds, rest. split; [rewrite E; exact (at2_cons _ _ _ _ _ _ _ _ Q Q' A)|]. split; [exact R|exact T]. }
  clear IH. destruct (GetG2PointFromX B (mkFQ2 (b_of B (FQRepr_const v)) (b_of B (FQRepr_const v'))) (b mod 2 =? 0)) as [p|] eqn:EG; [destruct (negb (Affine_IsZero p)) eqn:EZ|].
  - exists [(b, (v, v'))]. split; [constructor; [exact Bv|constructor]|]. split.
    + cbn [RandG2]. cbv zeta. rewrite EG, EZ. reflexivity.
    + split; [reflexivity|]. intros N. destruct (N1 N) as [E _]. rewrite E. exact (at2_cons _ _ _ _ _ _ _ _ Q Q' (at2_nil _)).
  - destruct (read_G2_loop B fuel rd2) as [[[P|] rd']|]; [| |exact IH'].
    + destruct IH' as (ds & F1 & R & RL & A). exists ((b, (v, v')) :: ds). split; [constructor; [exact Bv|exact F1]|]. split; [|split; [|exact A]].
      * cbn [RandG2]. cbv zeta. rewrite EG, EZ. exact R.
      * destruct ds as [|d ds]; [reflexivity|]. change (removelast ((b, (v, v')) :: d :: ds)) with ((b, (v, v')) :: removelast (d :: ds)). cbn [RandG2]. cbv zeta. rewrite EG, EZ. exact RL.
    + intros N. destruct (IH' N) as (ds & rest & A & R & T). exists ((b, (v, v')) :: ds), rest. split; [exact A|]. split; [|exact T]. cbn [RandG2]. cbv zeta. rewrite EG, EZ. exact R.
  - destruct (read_G2_loop B fuel rd2) as [[[P|] rd']|]; [| |exact IH'].
    + destruct IH' as (ds & F1 & R & RL & A). exists ((b, (v, v')) :: ds). split; [constructor; [exact Bv|exact F1]|]. split; [|split; [|exact A]].
      * cbn [RandG2]. cbv zeta. rewrite EG. exact R.
      * destruct ds as [|d ds]; [reflexivity|]. change (removelast ((b, (v, v')) :: d :: ds)) with ((b, (v, v')) :: removelast (d :: ds)). cbn [RandG2]. cbv zeta. rewrite EG. exact RL.
    + intros N. destruct (IH' N) as (ds & rest & A & R & T). exists ((b, (v, v')) :: ds), rest. split; [exact A|]. split; [|exact T]. cbn [RandG2]. cbv zeta. rewrite EG. exact R.
Qed.
Lemma G1_hit fuel rd b rd1 v rd2 p : read_byte rd = Some (Some b, rd1) -> rand_Int rd1 (FQRepr_ToBig QFieldModulus) = Some (Some v, rd2) ->
  GetG1PointFromX B (b_of B (FQRepr_const v)) (b mod 2 =? 0) = Some p -> Affine_IsZero p = false -> read_G1_loop B (S fuel) rd = Some (Some (G1_ScaleByCofactor B p), rd2).
Proof. intros E1 E2 E3 E4. cbn [read_G1_loop]. rewrite E1. cbn [draw_bind]. unfold read_FQ. rewrite E2. cbn [draw_bind]. cbv zeta. rewrite E3, E4. reflexivity. Qed.
Lemma G1_end fuel rd b rd1 rd2 : read_byte rd = Some (Some b, rd1) -> rand_Int rd1 (FQRepr_ToBig QFieldModulus) = Some (None, rd2) -> read_G1_loop B (S fuel) rd = Some (None, rd2).
Proof. intros E1 E2. cbn [read_G1_loop]. rewrite E1. cbn [draw_bind]. unfold read_FQ. rewrite E2. reflexivity. Qed.
Lemma G2_hit fuel rd b rd1 v rd2 v' rd3 p : read_byte rd = Some (Some b, rd1) -> rand_Int rd1 (FQRepr_ToBig QFieldModulus) = Some (Some v, rd2) -> rand_Int rd2 (FQRepr_ToBig QFieldModulus) = Some (Some v', rd3) ->
  GetG2PointFromX B (mkFQ2 (b_of B (FQRepr_const v)) (b_of B (FQRepr_const v'))) (b mod 2 =? 0) = Some p -> Affine_IsZero p = false -> read_G2_loop B (S fuel) rd = Some (Some (G2_ScaleByCofactor B p), rd3).
Proof. intros E1 E2 E2' E3 E4. cbn [read_G2_loop]. rewrite E1. cbn [draw_bind]. unfold read_FQ2, read_FQ. rewrite E2. cbn [draw_bind]. rewrite E2'. cbn [draw_bind]. cbv zeta. rewrite E3, E4. reflexivity. Qed.
End Gen.

(** RandG1 and RandG2 return an error only when the reader is exhausted, and otherwise a point of the subgroup, that of the first
    successful attempt *)
Theorem read_G1_ok rd : bytes rd -> match read_G1 FqB rd with
  | None => False
  | Some (Some P, rd') => valid1 P /\ mul1 r (jac1 P) = Inf /\ exists ds, Forall (fun d => 0 <= snd d < q) ds /\ RandG1 FqB ds = Some P /\ RandG1 FqB (removelast ds) = None /\
      (nonempty rd -> attempts1 (concat rd) ds (concat rd'))
  | Some (None, _) => nonempty rd -> exists ds rest, attempts1 (concat rd) ds rest /\ RandG1 FqB ds = None /\ (rest = [] \/ exists b s, rest = b :: s /\ end_q s) end.
Proof.
  intros H. unfold read_G1. pose proof (read_G1_loop_ok FqB (S (length (concat rd))) rd H ltac:(lia)) as L. destruct (read_G1_loop FqB (S (length (concat rd))) rd) as [[[P|] rd']|]; [|exact L|exact L].
  destruct L as (ds & F1 & R & RL & A). destruct (RandG1_sound ds F1 P R) as (pre & byte & x & rest & y & _ & _ & _ & V & _ & O). split; [exact V|]. split; [exact O|]. exists ds. split; [exact F1|]. split; [exact R|]. split; [exact RL|exact A].
Qed.
Theorem read_G2_ok rd : bytes rd -> match read_G2 FqB rd with
  | None => False
  | Some (Some P, rd') => valid2 P /\ mul2 r (jac2 P) = Inf /\ exists ds, Forall (fun d => 0 <= fst (snd d) < q /\ 0 <= snd (snd d) < q) ds /\ RandG2 FqB ds = Some P /\ RandG2 FqB (removelast ds) = None /\
      (nonempty rd -> attempts2 (concat rd) ds (concat rd'))
  | Some (None, _) => nonempty rd -> exists ds rest, attempts2 (concat rd) ds rest /\ RandG2 FqB ds = None /\
      (rest = [] \/ exists b s, rest = b :: s /\ (end_q s \/ exists v s', next_q s v s' /\ end_q s')) end.
Proof.
  intros H. unfold read_G2. pose proof (read_G2_loop_ok FqB (S (length (concat rd))) rd H ltac:(lia)) as L. destruct (read_G2_loop FqB (S (length (concat rd))) rd) as [[[P|] rd']|]; [|exact L|exact L].
  destruct L as (ds & F1 & R & RL & A). destruct (RandG2_sound ds F1 P R) as (pre & byte & x & rest & y & _ & _ & _ & V & _ & O). split; [exact V|]. split; [exact O|]. exists ds. split; [exact F1|]. split; [exact R|]. split; [exact RL|exact A].
Qed.

(** RandG1 ignores how many bytes Read delivered: a Read of no bytes counts as the byte 0 *)
Definition zeros48 : list Z := repeat 0 48.
Theorem read_G1_chunks_refuted : exists rd1 rd2, bytes rd1 /\ concat rd1 = concat rd2 /\ (exists P rd', read_G1 FqB rd1 = Some (Some P, rd')) /\ read_G1 FqB rd2 = Some (None, []).
Proof.
  exists [[]; zeros48], [zeros48]. assert (Forall isByte zeros48) as Z48 by (apply Forall_forall; intros x Hx; apply repeat_spec in Hx; subst x; split; [discriminate|reflexivity]).
  split; [cbn [concat app]; rewrite app_nil_r; exact Z48|]. split; [reflexivity|]. split.
  - destruct (of_small 0 (Logic.conj (Z.le_refl 0) eq_refl)) as [C V]. destruct (g1_fromx (b_of FqB (FQRepr_const 0)) (0 mod 2 =? 0) C) as [_ GS]. rewrite V in GS.
    destruct GS as (y & EG & _); [exists (z2q 2); apply zof_inj; vm_compute; reflexivity|]. eexists _, _.
    exact (G1_hit FqB _ [[]; zeros48] 0 [zeros48] 0 [] _ eq_refl ltac:(vm_compute; reflexivity) EG eq_refl).
  - exact (G1_end FqB _ [zeros48] 0 [repeat 0 47] [] eq_refl ltac:(vm_compute; reflexivity)).
Qed.

(** RandKey can return the zero key, with which Verify panics *)
Theorem read_Key_zero_refuted : exists rd k, bytes rd /\ read_Key rd = Some (Some (Some k), []) /\ rcanon k /\ rval k = 0 /\
  (forall sha m h P S, HashG2 sha FqB m = Some h -> g1pubs_PrivToPub FqB (Some k) = Some P -> canonP2 S -> g1pubs_Verify sha FqB m P S = None) /\
  (forall sha m h P S, HashG1 sha FqB m = Some h -> g2pubs_PrivToPub FqB (Some k) = Some P -> canonP1 S -> g2pubs_Verify sha FqB m P S = None).
Proof.
  set (rd := [repeat 0 32]). assert (bytes rd) as Hb by (apply Forall_forall; intros x Hx; cbn [concat rd] in Hx; rewrite app_nil_r in Hx; apply repeat_spec in Hx; subst x; split; [discriminate|reflexivity]).
  assert (rand_Int rd (FRRepr_ToBig RFieldModulus) = Some (Some 0, [])) as E by (vm_compute; reflexivity). destruct (FR_of 0) as (k & Ek & C & V); [split; [lia|reflexivity]|].
  exists rd, k. split; [exact Hb|]. split; [rewrite read_Key_eq; unfold read_FR; rewrite E; cbn [draw_bind]; rewrite Ek; reflexivity|]. split; [exact C|]. split; [exact V|]. split.
  - intros sha m h P S Hh HP HS. destruct (pub_spec1 k C) as (P' & E' & (CP & _) & _ & I). rewrite HP in E'. apply some_inj' in E'. subst P'. exact (Verify_inf1 sha m h P S Hh CP HS (or_introl (proj2 I V))).
  - intros sha m h P S Hh HP HS. destruct (pub_spec2 k C) as (P' & E' & (CP & _) & _ & I). rewrite HP in E'. apply some_inj' in E'. subst P'. exact (Verify_inf2 sha m h P S Hh CP HS (or_introl (proj2 I V))).
Qed.

(** ** Concrete streams *)
(** two reads of ones (rejected: 2^381-1 is not below q), then 5; one byte is left *)
Definition stream5 : Reader := [repeat 255 20; repeat 255 28 ++ repeat 0 47; [5; 9]].
Lemma stream5_bytes : bytes stream5.
Proof. vm_compute. repeat constructor; discriminate. Qed.
Lemma stream5_FQ : exists f, read_FQ FqB stream5 = Some (Some f, [[9]]) /\ fval f = 5.
Proof.
  destruct (of_fval 5) as [_ V]; [split; [lia|reflexivity]|]. exists (b_of FqB (FQRepr_const 5)). split; [|exact V]. unfold read_FQ.
  assert (rand_Int stream5 (FQRepr_ToBig QFieldModulus) = Some (Some 5, [[9]])) as -> by (vm_compute; reflexivity). reflexivity.
Qed.
Lemma stream5_FR : exists k, read_Key stream5 = Some (Some (Some k), [[9]]) /\ rval k = 5.
Proof.
  destruct (FR_of 5) as (k & Ek & _ & V); [split; [lia|reflexivity]|]. exists k. split; [|exact V]. rewrite read_Key_eq. unfold read_FR.
  assert (rand_Int stream5 (FRRepr_ToBig RFieldModulus) = Some (Some 5, [[9]])) as -> by (vm_compute; reflexivity). cbn [draw_bind]. rewrite Ek. reflexivity.
Qed.
(** one byte, then the x-coordinate 2 in two chunks; two bytes are left *)
Definition stream2 : Reader := [[0] ++ repeat 0 47; [2] ++ repeat 0 48 ++ [7; 8]].
Lemma stream2_bytes : bytes stream2 /\ nonempty stream2.
Proof. split; [vm_compute; repeat constructor; discriminate|]. constructor; [discriminate|]. constructor; [discriminate|constructor]. Qed.
Lemma stream2_G2 : exists P, read_G2 FqB stream2 = Some (Some P, [[7; 8]]).
Proof.
  destruct (of_small 2) as [C0 V0]; [split; [lia|reflexivity]|]. destruct (of_small 0) as [C1 V1]; [split; [lia|reflexivity]|].
  destruct (g2_fromx (mkFQ2 (b_of FqB (FQRepr_const 2)) (b_of FqB (FQRepr_const 0))) (0 mod 2 =? 0) (Logic.conj C0 C1)) as [_ GS].
  assert (val2 (mkFQ2 (b_of FqB (FQRepr_const 2)) (b_of FqB (FQRepr_const 0))) = k2n 2) as V by (unfold val2; cbn [c0 c1]; rewrite V0, V1; apply k2_zof; vm_compute; reflexivity).
  rewrite V in GS. destruct (GS dom_sq) as (y & EG & _). eexists.
  exact (G2_hit FqB _ stream2 0 [repeat 0 47; [2] ++ repeat 0 48 ++ [7; 8]] 2 [repeat 0 48 ++ [7; 8]] 0 [[7; 8]] _ eq_refl ltac:(vm_compute; reflexivity) ltac:(vm_compute; reflexivity) EG eq_refl).
Qed.
Lemma stream2_G1 : exists P, read_G1 FqB [[0]; zeros48; [7]] = Some (Some P, [[7]]).
Proof.
  destruct (of_small 0 (Logic.conj (Z.le_refl 0) eq_refl)) as [C V]. destruct (g1_fromx (b_of FqB (FQRepr_const 0)) (0 mod 2 =? 0) C) as [_ GS]. rewrite V in GS.
  destruct GS as (y & EG & _); [exists (z2q 2); apply zof_inj; vm_compute; reflexivity|]. eexists.
  exact (G1_hit FqB _ [[0]; zeros48; [7]] 0 [zeros48; [7]] 0 [[7]] _ eq_refl ltac:(vm_compute; reflexivity) EG eq_refl).
Qed.
