(** The generators of the library on readers. *)
Require Import ZArith Lia Bool List.
From Verif Require Import Words ModelRepr ReprProofs ReprProofs2 ModelFq ModelFr ModelOps ModelTower ModelCurve ModelPairing ModelHash ModelBls NumTheory Primality Fp FpOps FqProofs FqProofs2 FqMisc FqRel FrProofs OpsRel OpsRel2 FqTransfer Ext TowerProofs TowerLimb Fld AbGrp EcGroup EcJac EcMul Curves CurveLimb CurveMisc BlsProofs BlsKeys SwEnc ModelRand RandProofs.
Import CurveLimb ListNotations.
Open Scope Z_scope.

Local Notation bytes rd := (Forall isByte (concat rd)).
(** the streams of the two fields: 48 bytes, 381 bits; 32 bytes, 255 bits *)
Definition next_q := first_below q 48 381.
Definition end_q := none_below q 48 381.
Definition next_r := first_below r 32 255.
Definition end_r := none_below r 32 255.

Lemma next_q_bound s v rest : next_q s v rest -> 0 <= v < q.
Proof. apply first_below_bound. discriminate. Qed.
Lemma next_r_bound s v rest : next_r s v rest -> 0 <= v < r.
Proof. apply first_below_bound. discriminate. Qed.
Lemma rand_q rd : bytes rd -> match rand_Int rd (FQRepr_ToBig QFieldModulus) with
  | None => False
  | Some (Some v, rd') => next_q (concat rd) v (concat rd') /\ (nonempty rd -> nonempty rd') /\ bytes rd'
  | Some (None, rd') => end_q (concat rd) /\ rd' = [] end.
Proof.
  intros H. assert (rand_Int rd (FQRepr_ToBig QFieldModulus) = rand_loop (S (length (concat rd))) rd q 48 5) as ->.
  { change (FQRepr_ToBig QFieldModulus) with q. unfold rand_Int. change (q <=? 0) with false. cbv iota zeta. change (big_BitLen (q - 1)) with 381. reflexivity. }
  exact (rand_loop_ok q 48 5 ltac:(lia) ltac:(lia) (S (length (concat rd))) rd H ltac:(lia)).
Qed.
Lemma rand_r rd : bytes rd -> match rand_Int rd (FRRepr_ToBig RFieldModulus) with
  | None => False
  | Some (Some v, rd') => next_r (concat rd) v (concat rd') /\ (nonempty rd -> nonempty rd') /\ bytes rd'
  | Some (None, rd') => end_r (concat rd) /\ rd' = [] end.
Proof.
  intros H. assert (rand_Int rd (FRRepr_ToBig RFieldModulus) = rand_loop (S (length (concat rd))) rd r 32 7) as ->.
  { change (FRRepr_ToBig RFieldModulus) with r. unfold rand_Int. change (r <=? 0) with false. cbv iota zeta. change (big_BitLen (r - 1)) with 255. reflexivity. }
  exact (rand_loop_ok r 32 7 ltac:(lia) ltac:(lia) (S (length (concat rd))) rd H ltac:(lia)).
Qed.

Lemma of_fval v : 0 <= v < q -> canon (b_of FqB (FQRepr_const v)) /\ fval (b_of FqB (FQRepr_const v)) = v.
Proof. intros H. destruct (field_hash v) as [C V]. change q_big with q in C, V. rewrite Z.mod_small in C, V by exact H. split; [exact C|exact V]. Qed.
Lemma FR_of v : 0 <= v < r -> exists k, RandFR v = Some k /\ rcanon k /\ rval k = v.
Proof.
  intros H. destruct (wf4_const v) as [W E]; [split; [lia|]; apply (Z.lt_le_trans _ r); [lia|vm_compute; discriminate]|].
  destruct (FRReprToFR_valid _ W) as (k & Ek & Ck & Vk); [lia|]. exists k. split; [exact Ek|]. split; [exact Ck|]. rewrite Vk, E. reflexivity.
Qed.

(** ** RandFQ, RandFR, RandKey *)
Theorem read_FQ_ok rd : bytes rd -> match read_FQ FqB rd with
  | None => False
  | Some (Some f, rd') => next_q (concat rd) (fval f) (concat rd') /\ canon f
  | Some (None, rd') => end_q (concat rd) /\ rd' = [] end.
Proof.
  intros H. unfold read_FQ. pose proof (rand_q rd H) as Q. destruct (rand_Int rd (FQRepr_ToBig QFieldModulus)) as [[[v|] rd']|]; cbn [draw_bind]; [|exact Q|exact Q].
  destruct Q as (Q1 & _). destruct (of_fval v (next_q_bound _ _ _ Q1)) as [C V]. rewrite V. split; assumption.
Qed.
Theorem read_FR_ok rd : bytes rd -> match read_FR rd with
  | Some (Some (Some k), rd') => next_r (concat rd) (rval k) (concat rd') /\ rcanon k
  | Some (None, rd') => end_r (concat rd) /\ rd' = []
  | _ => False end.
Proof.
  intros H. unfold read_FR. pose proof (rand_r rd H) as Q. destruct (rand_Int rd (FRRepr_ToBig RFieldModulus)) as [[[v|] rd']|]; cbn [draw_bind]; [|exact Q|exact Q].
  destruct Q as (Q1 & _). destruct (FR_of v (next_r_bound _ _ _ Q1)) as (k & -> & C & V). rewrite V. split; assumption.
Qed.
Lemma read_Key_eq rd : read_Key rd = read_FR rd.
Proof. unfold read_Key. destruct (read_FR rd) as [[[k|] rd']|]; reflexivity. Qed.

(** every field element comes from the same number of windows *)
Theorem read_FQ_uniform v : 0 <= v < q -> exists l, NoDup l /\ length l = 8%nat /\
  forall w, length w = 48%nat -> Forall isByte w -> (In w l <-> exists f rd', read_FQ FqB [w] = Some (Some f, rd') /\ fval f = v).
Proof.
  intros Hv. assert (q < 2 ^ 381) as Q381 by reflexivity. destruct (windows_ok 48 381 v) as (N & L & I); [lia|lia|]. exists (windows 48 381 v). split; [exact N|]. split; [rewrite L; reflexivity|].
  intros w Lw Bw. rewrite I. assert (concat [w] = w ++ []) as Ew by reflexivity. assert (bytes [w]) as Hb by (cbn [concat]; rewrite app_nil_r; exact Bw). pose proof (read_FQ_ok [w] Hb) as R. rewrite Ew in R.
  split.
  - intros (_ & _ & V). destruct (read_FQ FqB [w]) as [[[f|] rd']|]; [| |destruct R].
    + destruct R as [R _]. exists f, rd'. split; [reflexivity|]. destruct (fb_inv _ _ _ _ _ _ _ Lw R) as [(_ & -> & _)|(X & _)]; [exact V|lia].
    + destruct R as [R _]. destruct (nb_inv _ _ _ _ _ Lw R) as [X _]. lia.
  - intros (f & rd' & E & V). split; [exact Lw|]. split; [exact Bw|]. rewrite E in R. destruct R as [R _]. destruct (fb_inv _ _ _ _ _ _ _ Lw R) as [(_ & X & _)|(_ & X)]; [congruence|].
    exfalso. inversion X as [w' s' L' _ E'|w' s' v' r' L' _ _ E']; destruct w'; discriminate.
Qed.
Theorem read_FR_uniform v : 0 <= v < r -> exists l, NoDup l /\ length l = 2%nat /\
  forall w, length w = 32%nat -> Forall isByte w -> (In w l <-> exists k rd', read_FR [w] = Some (Some (Some k), rd') /\ rval k = v).
Proof.
  intros Hv. assert (r < 2 ^ 255) as R255 by reflexivity. destruct (windows_ok 32 255 v) as (N & L & I); [lia|lia|]. exists (windows 32 255 v). split; [exact N|]. split; [rewrite L; reflexivity|].
  intros w Lw Bw. rewrite I. assert (concat [w] = w ++ []) as Ew by reflexivity. assert (bytes [w]) as Hb by (cbn [concat]; rewrite app_nil_r; exact Bw). pose proof (read_FR_ok [w] Hb) as R. rewrite Ew in R.
  split.
  - intros (_ & _ & V). destruct (read_FR [w]) as [[[[f|]|] rd']|]; [|destruct R| |destruct R].
    + destruct R as [R _]. exists f, rd'. split; [reflexivity|]. destruct (fb_inv _ _ _ _ _ _ _ Lw R) as [(_ & -> & _)|(X & _)]; [exact V|lia].
    + destruct R as [R _]. destruct (nb_inv _ _ _ _ _ Lw R) as [X _]. lia.
  - intros (f & rd' & E & V). split; [exact Lw|]. split; [exact Bw|]. rewrite E in R. destruct R as [R _]. destruct (fb_inv _ _ _ _ _ _ _ Lw R) as [(_ & X & _)|(_ & X)]; [congruence|].
    exfalso. inversion X as [w' s' L' _ E'|w' s' v' r' L' _ _ E']; destruct w'; discriminate.
Qed.
(** the way the reader splits its bytes into chunks does not matter *)
Theorem read_FQ_chunks rd1 rd2 : bytes rd1 -> concat rd1 = concat rd2 ->
  match read_FQ FqB rd1, read_FQ FqB rd2 with
  | Some (o1, rd1'), Some (o2, rd2') => o1 = o2 /\ concat rd1' = concat rd2'
  | _, _ => False end.
Proof.
  intros H E. assert (bytes rd2) as H2 by (rewrite <- E; exact H). pose proof (read_FQ_ok rd1 H) as R1. pose proof (read_FQ_ok rd2 H2) as R2. rewrite <- E in R2.
  destruct (read_FQ FqB rd1) as [[[f1|] rd1']|]; [| |exact R1]; (destruct (read_FQ FqB rd2) as [[[f2|] rd2']|]; [| |exact R2]); destruct R1 as [A1 B1], R2 as [A2 B2].
  - destruct (first_below_fun _ _ _ _ _ _ A1 _ _ A2) as [V S]. split; [f_equal; apply fval_inj; assumption|exact S].
  - destruct (first_not_none _ _ _ _ _ _ A1 A2).
  - destruct (first_not_none _ _ _ _ _ _ A2 A1).
  - subst. split; reflexivity.
Qed.
Theorem read_FR_chunks rd1 rd2 : bytes rd1 -> concat rd1 = concat rd2 ->
  match read_FR rd1, read_FR rd2 with
  | Some (o1, rd1'), Some (o2, rd2') => o1 = o2 /\ concat rd1' = concat rd2'
  | _, _ => False end.
Proof.
  intros H E. assert (bytes rd2) as H2 by (rewrite <- E; exact H). pose proof (read_FR_ok rd1 H) as R1. pose proof (read_FR_ok rd2 H2) as R2. rewrite <- E in R2.
  destruct (read_FR rd1) as [[[[f1|]|] rd1']|]; [|destruct R1| |exact R1]; (destruct (read_FR rd2) as [[[[f2|]|] rd2']|]; [|destruct R2| |exact R2]); destruct R1 as [A1 B1], R2 as [A2 B2].
  - destruct (first_below_fun _ _ _ _ _ _ A1 _ _ A2) as [V S]. split; [do 2 f_equal; apply rval_inj; assumption|exact S].
  - destruct (first_not_none _ _ _ _ _ _ A1 A2).
  - destruct (first_not_none _ _ _ _ _ _ A2 A1).
  - subst. split; reflexivity.
Qed.

(** ** Several elements: consecutive draws *)
Inductive draws : list Z -> list Z -> list Z -> Prop :=
| dr_nil s : draws s [] s
| dr_cons s v s' vs rest : next_q s v s' -> draws s' vs rest -> draws s (v :: vs) rest.
Lemma draws_app s vs s' ws rest : draws s vs s' -> draws s' ws rest -> draws s (vs ++ ws) rest.
Proof. induction 1; [auto|]. intros D. cbn [app]. eapply dr_cons; [eassumption|]. auto. Qed.
Definition outcome {A} (n : nat) (P : A -> list Z -> Prop) (rd : Reader) (x : Draw A) : Prop :=
  match x with
  | None => False
  | Some (Some a, rd') => bytes rd' /\ exists vs, length vs = n /\ draws (concat rd) vs (concat rd') /\ P a vs
  | Some (None, rd') => rd' = [] /\ exists vs rest, (length vs < n)%nat /\ draws (concat rd) vs rest /\ end_q rest
  end.
Lemma outcome_FQ rd : bytes rd -> outcome 1 (fun f vs => vs = [fval f] /\ canon f) rd (read_FQ FqB rd).
Proof.
  intros H. unfold read_FQ. pose proof (rand_q rd H) as Q. destruct (rand_Int rd (FQRepr_ToBig QFieldModulus)) as [[[v|] rd']|]; cbn [draw_bind outcome]; [| |exact Q].
  - destruct Q as (Q1 & _ & Q3). destruct (of_fval v (next_q_bound _ _ _ Q1)) as [C V]. split; [exact Q3|]. exists [v]. split; [reflexivity|]. split; [exact (dr_cons _ _ _ _ _ Q1 (dr_nil _))|]. rewrite V. split; [reflexivity|exact C].
  - destruct Q as [Q ->]. split; [reflexivity|]. exists [], (concat rd). split; [cbn; lia|]. split; [constructor|exact Q].
Qed.
Lemma outcome_bind {A C} n m (P : A -> list Z -> Prop) (Q : C -> list Z -> Prop) rd (x : Draw A) f : outcome n P rd x ->
  (forall a vs rd', P a vs -> bytes rd' -> outcome m (fun c ws => Q c (vs ++ ws)) rd' (f a rd')) -> outcome (n + m) Q rd (draw_bind x f).
Proof.
  intros O K. destruct x as [[[a|] rd']|]; cbn [draw_bind outcome] in *; [| |exact O].
  - destruct O as (Hb & vs & L & D & HP). specialize (K a vs rd' HP Hb). destruct (f a rd') as [[[c|] rd'']|]; cbn [outcome] in *; [| |exact K].
    + destruct K as (Hb' & ws & L' & D' & HQ). split; [exact Hb'|]. exists (vs ++ ws). split; [rewrite app_length; lia|]. split; [exact (draws_app _ _ _ _ _ D D')|exact HQ].
    + destruct K as (-> & ws & rest & L' & D' & HE). split; [reflexivity|]. exists (vs ++ ws), rest. split; [rewrite app_length; lia|]. split; [exact (draws_app _ _ _ _ _ D D')|exact HE].
  - destruct O as (-> & vs & rest & L & D & HE). split; [reflexivity|]. exists vs, rest. split; [lia|]. split; assumption.
Qed.
Lemma outcome_ret {A} (P : A -> list Z -> Prop) rd a : bytes rd -> P a [] -> outcome 0 P rd (Some (Some a, rd)).
Proof. intros H HP. split; [exact H|]. exists []. split; [reflexivity|]. split; [constructor|exact HP]. Qed.

Definition coeffs2 (x : FQ2 FQ) : list FQ := [c0 x; c1 x].
Definition coeffs6 (x : FQ6 FQ) : list FQ := coeffs2 (d0 x) ++ coeffs2 (d1 x) ++ coeffs2 (d2 x).
Definition coeffs12 (x : FQ12 FQ) : list FQ := coeffs6 (e0 x) ++ coeffs6 (e1 x).
Definition from_draws {A} (co : A -> list FQ) (x : A) (vs : list Z) : Prop := map fval (co x) = vs /\ Forall canon (co x).
Lemma outcome_FQ2 rd : bytes rd -> outcome 2 (from_draws coeffs2) rd (read_FQ2 FqB rd).
Proof.
  intros H. apply (outcome_bind 1 1 _ _ _ _ _ (outcome_FQ rd H)). intros i0 vs rd' [-> C0] H'. apply (outcome_bind 1 0 _ _ _ _ _ (outcome_FQ rd' H')). intros i1 vs' rd'' [-> C1] H''.
  apply outcome_ret; [exact H''|]. split; [reflexivity|]. constructor; [exact C0|constructor; [exact C1|constructor]].
Qed.
Lemma outcome_FQ6 rd : bytes rd -> outcome 6 (from_draws coeffs6) rd (read_FQ6 FqB rd).
Proof.
  intros H. apply (outcome_bind 2 4 _ _ _ _ _ (outcome_FQ2 rd H)). intros x0 vs0 rd0 [<- C0] H0. apply (outcome_bind 2 2 _ _ _ _ _ (outcome_FQ2 rd0 H0)). intros x1 vs1 rd1 [<- C1] H1.
  apply (outcome_bind 2 0 _ _ _ _ _ (outcome_FQ2 rd1 H1)). intros x2 vs2 rd2 [<- C2] H2. apply outcome_ret; [exact H2|]. split.
  - unfold coeffs6. cbn [d0 d1 d2]. rewrite !map_app, app_nil_r. reflexivity.
  - unfold coeffs6. cbn [d0 d1 d2]. apply Forall_app. split; [exact C0|apply Forall_app; split; assumption].
Qed.
Lemma outcome_FQ12 rd : bytes rd -> outcome 12 (from_draws coeffs12) rd (read_FQ12 FqB rd).
Proof.
  intros H. apply (outcome_bind 6 6 _ _ _ _ _ (outcome_FQ6 rd H)). intros x0 vs0 rd0 [<- C0] H0. apply (outcome_bind 6 0 _ _ _ _ _ (outcome_FQ6 rd0 H0)). intros x1 vs1 rd1 [<- C1] H1.
  apply outcome_ret; [exact H1|]. split.
  - unfold coeffs12. cbn [e0 e1]. rewrite !map_app, app_nil_r. reflexivity.
  - unfold coeffs12. cbn [e0 e1]. apply Forall_app. split; assumption.
Qed.
Theorem streams_ok w s v rest : next_q = first_below q 48 381 /\ end_q = none_below q 48 381 /\ next_r = first_below r 32 255 /\ end_r = none_below r 32 255 /\
  (length w = 48%nat -> be_value w mod 2 ^ 381 < q -> next_q (w ++ s) (be_value w mod 2 ^ 381) s) /\
  (length w = 48%nat -> q <= be_value w mod 2 ^ 381 -> (next_q (w ++ s) v rest <-> next_q s v rest) /\ (end_q (w ++ s) <-> end_q s)) /\
  ((length s < 48)%nat -> end_q s).
Proof.
  split; [reflexivity|]. split; [reflexivity|]. split; [reflexivity|]. split; [reflexivity|]. split; [intros L H; apply fb_hit; assumption|]. split; [|intros L; apply nb_short; exact L].
  intros L H. split; split.
  - intros X. destruct (fb_inv _ _ _ _ _ _ _ L X) as [(Y & _)|(_ & Y)]; [lia|exact Y].
  - intros X. apply fb_skip; assumption.
  - intros X. exact (proj2 (nb_inv _ _ _ _ _ L X)).
  - intros X. apply nb_skip; assumption.
Qed.
