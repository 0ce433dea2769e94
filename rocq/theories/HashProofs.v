(** The hash functions of hash.go at limb level: the SWU maps, the isogenies, HashG1 and HashG2. *)
Require Import ZArith Lia Bool List Ring Field.
From Verif Require Import Words ModelRepr ReprProofs ReprProofs2 ModelFq ModelOps ModelTower ModelCurve ModelHash NumTheory Primality FqProofs FqProofs2 FqRel Fp FpOps FqMisc OpsRel OpsRel2 FqTransfer Ext TowerProofs TowerLimb Fld EcGroup AbGrp EcMul EcJac Curves CurveLimb UNat UInst PolyEval IsoProofs SwuProofs ClearCof CountFacts.
Import CurveLimb ListNotations.
Open Scope Z_scope.
Add Field Kq : Fq_field.
Add Field Kk2 : k2_field.

(** ** The chord through two points of the auxiliary curve *)
Section Sum.
Context (K : Fld) (A B : K).
Open Scope fld_scope.
Definition onA (P : pt K) : Prop := match P with Inf => False | Pt x y => (y * y = x * x * x + A * x + B)%F end.
Definition xdiff (P Q : pt K) : Prop := match P, Q with Pt x _, Pt x' _ => x <> x' | _, _ => False end.
Lemma sum_on P Q : onA P -> onA Q -> xdiff P Q -> onA (pplus K P Q).
Proof.
  destruct P as [|x1 y1], Q as [|x2 y2]; try (intros; contradiction). unfold xdiff. intros HP HQ N. unfold pplus. destruct (fDec x1 x2) as [E|_]; [contradiction|].
  exact (chord_alg K A B x1 y1 x2 y2 N HP HQ).
Qed.
Lemma onA_fin P : onA P -> exists x y, P = Pt x y /\ (y * y = x * x * x + A * x + B)%F.
Proof. destruct P as [|x y]; [intros []|]. intros H. exists x, y. auto. Qed.
Lemma onA_repa (p p' : Affine K) : p' = p -> ainf p' = false -> (ay p' * ay p' = ax p' * ax p' * ax p' + A * ax p' + B)%F -> onA (repa K p).
Proof. intros <- I H. unfold repa. rewrite I. exact H. Qed.
Lemma onA_inv (p : Affine K) : onA (repa K p) -> ainf p = false /\ (ay p * ay p = ax p * ax p * ax p + A * ax p + B)%F.
Proof. unfold repa. destruct (ainf p); [intros []|]. intros H. split; [reflexivity|exact H]. Qed.
Lemma repa_fin (p : Affine K) : ainf p = false -> repa K p = Pt (ax p) (ay p).
Proof. unfold repa. intros ->. reflexivity. Qed.
End Sum.
Section Kp.
Context (K : Fld).
Add Field KFk : (fTh K).
Lemma kp_one (x : K) : (1 + x * 0)%F = 1%F. Proof. ring. Qed.
Lemma kp_root (a x : K) : (- a + x * (1 + x * 0))%F = 0%F -> a = x. Proof. intros E. transitivity (a + (- a + x * (1 + x * 0)))%F; [rewrite E|]; ring. Qed.
End Kp.
Definition onaux1 : pt Fq -> Prop := onA FldQ A1' B1'.
Definition onaux2 : pt K2 -> Prop := onA FldQ2 A2' B2'.
Definition xdiff1 : pt Fq -> pt Fq -> Prop := xdiff FldQ.
Definition xdiff2 : pt K2 -> pt K2 -> Prop := xdiff FldQ2.

(** ** The kernel of the 11-isogeny *)
Definition kernel11 : list Z :=
  [ 0x1665a9c648e78314490a94f654d9b1039ab85847223bfaed9aa54f0f07736d122d1ceca1ac0e9123e753fde16e97c3d7;
    0x140d41735b10ce710727cd9356905701a2b866b803baa468948b7f423ddcc560c9a8f1cd5f8ed4297c37464fb8bfe4a7;
    0x10ef325dd1e98bdf0d97a4c6b7f968ed7f31f2fbff088acb39d5319cfc261ea18773405f325612742f0c5d90634bcf4;
    0x105249b4cac630ce5aa18e6c1189a18c82019b4e12e491fbac012c259ca3a67f638560b8bb416af02a4724385ed0fc8e;
    0xd7f2d0d03ae035321eed4c1479d13251abf0e9a96479623eb5380b575e319851fb5e5a8b43b9c1a46880f54bf2b2f7c ].
Definition kerpoly {C} (O : Ops C) (l : list C) : list C := fold_right (fun a acc => pmul O [o_neg O a; o_one O] acc) [o_one O] l.
Lemma rel_kerpoly {C C'} (O : Ops C) (O' : Ops C') R (HR : RelO O O' R) l l' : Forall2 R l l' -> Forall2 R (kerpoly O l) (kerpoly O' l').
Proof.
  intros H. induction H as [|a a' l l' Ha Hl IH]; cbn [kerpoly fold_right]; [constructor; [apply (ro_one _ _ _ HR)|constructor]|].
  apply (rel_pmul _ _ _ HR); [|exact IH]. constructor; [apply (ro_neg _ _ _ HR); exact Ha|]. constructor; [apply (ro_one _ _ _ HR)|constructor].
Qed.
Lemma pev_kerpoly (K : Fld) (O : Ops K) (HO : OpsFld K O) l x : pev K (kerpoly O l) x = 0%F -> In x l.
Proof.
  induction l as [|a l IH]; cbn [kerpoly fold_right].
  - rewrite pev_cons, pev_nil, (of_one K O HO). intros E. exfalso. apply (F_1_neq_0 (fTh K)). rewrite <- E. symmetry. apply kp_one.
  - fold (kerpoly O l). rewrite (pev_mul K O HO), !pev_cons, pev_nil, (of_one K O HO), (of_neg K O HO). intros E. destruct (fld_integral K _ _ E) as [H|H]; [left|right; exact (IH H)].
    exact (kp_root K a x H).
Qed.
Lemma chk_ker {F F'} (B : BOps F) (B' : BOps F') R {HB : RelB B B' R} l l' : Forall2 R l l' ->
  peq (b_ops B) (map (b_of B) xDen11_repr) (pmul (b_ops B) (kerpoly (b_ops B) l) (kerpoly (b_ops B) l)) = peq (b_ops B') (map (b_of B') xDen11_repr) (pmul (b_ops B') (kerpoly (b_ops B') l') (kerpoly (b_ops B') l')).
Proof.
  intros H. pose proof (rb_ops _ _ _ HB) as HO. pose proof (rel_kerpoly _ _ _ HO _ _ H) as HK. apply (rel_peq _ _ _ HO); [apply wf_map_of; [exact HB|exact (proj1 (proj2 wf11))]|].
  apply (rel_pmul _ _ _ HO); exact HK.
Qed.
Lemma RU_list l : Forall2 RU (map ofm l) (map z2q l).
Proof. induction l as [|z l IH]; cbn [map]; constructor; [apply RU_ofm|exact IH]. Qed.
Lemma ker_chk_ok : peq FpO (map (b_of FpB) xDen11_repr) (pmul FpO (kerpoly FpO (map z2q kernel11)) (kerpoly FpO (map z2q kernel11))) = true.
Proof. refine (eq_trans (eq_sym (chk_ker UB FpB RU _ _ (RU_list kernel11))) _). vm_compute. reflexivity. Qed.
Theorem xden11_root x : xden11 x = f0 q -> In x (map z2q kernel11).
Proof.
  unfold xden11. intros H. rewrite (horner_pev FldQ FpO FpO_ok), (peq_eq FldQ FpO FpO_ok _ _ ker_chk_ok), (pev_mul FldQ FpO FpO_ok) in H.
  exact (pev_kerpoly FldQ FpO FpO_ok _ x (fld_sq_0 FldQ _ H)).
Qed.
(** ** The field elements hashed to *)
Definition digest (sha : list Z -> list Z) (msg : list Z) (ctr i : Z) : Z :=
  big_SetBytes (sha (sha msg ++ [ctr; i; 1]) ++ sha (sha msg ++ [ctr; i; 2])).
Lemma of_limb z : canon (b_of FqB (FQRepr_const (z mod q_big))) /\ fqval (b_of FqB (FQRepr_const (z mod q_big))) = z2q z.
Proof.
  assert (q_big = q) as -> by (vm_compute; reflexivity). pose proof (Z.mod_pos_bound z q eq_refl) as Bd. pose proof q_lt_RQ as L. rewrite RQ_pow in L.
  destruct (FQRepr_const_spec (z mod q) ltac:(lia)) as [H1 H2]. destruct (FQReprToFQ_valid (FQRepr_const (z mod q)) H1 ltac:(lia)) as [C V].
  split; [exact C|]. unfold fqval. change (b_of FqB) with FQReprToFQ. rewrite V, H2. apply zof_inj. unfold z2q. rewrite !zof_zp. apply Zmod_mod.
Qed.
Theorem hp_limb sha msg ctr : canon (hp sha FqB msg ctr) /\ fqval (hp sha FqB msg ctr) = z2q (digest sha msg ctr 1).
Proof.
  unfold hp, digest. cbv zeta. destruct (of_limb (big_SetBytes (sha (sha msg ++ [ctr; 1; 1]) ++ sha (sha msg ++ [ctr; 1; 2])))) as [C V].
  rewrite <- !app_assoc. cbn [app]. split; [exact C|exact V].
Qed.
Theorem hp2_limb sha msg ctr : canon2 (hp2 sha FqB msg ctr) /\ val2 (hp2 sha FqB msg ctr) = mkFQ2 (z2q (digest sha msg ctr 1)) (z2q (digest sha msg ctr 2)).
Proof.
  unfold hp2, digest. cbv zeta. rewrite <- !app_assoc. cbn [app].
  destruct (of_limb (big_SetBytes (sha (sha msg ++ [ctr; 1; 1]) ++ sha (sha msg ++ [ctr; 1; 2])))) as [C V].
  destruct (of_limb (big_SetBytes (sha (sha msg ++ [ctr; 2; 1]) ++ sha (sha msg ++ [ctr; 2; 2])))) as [C' V'].
  split; [split; [exact C|exact C']|]. unfold val2. cbn [c0 c1]. rewrite V, V'. reflexivity.
Qed.
(** ** The SWU maps *)
Theorem swu1_limb t : canon t -> exists P, optimizedSWUMapHelper FqB t = Some P /\ canonA1 P /\ swu_spec1 (fqval t) (valA1 P) /\ onaux1 (aff1 P).
Proof.
  intros C. pose proof (rel_optimizedSWUMapHelper FqB FpB RFq t (fqval t) (RFq_fqval t C)) as H. destruct (swu1_ok (fqval t)) as (P' & E & S). rewrite E in H.
  destruct (optimizedSWUMapHelper FqB t) as [P|]; [|destruct H]. apply RA1_val in H. destruct H as [CP V]. exists P. rewrite <- V. split; [reflexivity|]. split; [exact CP|]. split; [exact S|].
  destruct S as (I & Y & _). exact (onA_repa FldQ A1' B1' (valA1 P) P' V I Y).
Qed.
Theorem swu2_limb t : canon2 t -> exists P, OptimizedSWU2MapHelper FqB t = Some (Some P) /\ canonA2 P /\ swu_spec2 (val2 t) (valA2 P) /\ onaux2 (aff2 P).
Proof.
  intros C. pose proof (rel_OptimizedSWU2MapHelper FqB FpB RFq t (val2 t) (R2v t C)) as H. destruct (swu2_ok (val2 t)) as (P' & E & S). rewrite E in H.
  destruct (OptimizedSWU2MapHelper FqB t) as [[P|]|]; [|destruct H|destruct H]. apply RA2_val in H. destruct H as [CP V]. exists P. rewrite <- V. split; [reflexivity|]. split; [exact CP|]. split; [exact S|].
  destruct S as (I & Y & _). exact (onA_repa FldQ2 A2' B2' (valA2 P) P' V I Y).
Qed.
(** ** The isogenies *)
Definition in_kernel1 (P : pt Fq) : Prop := match P with Inf => False | Pt x _ => In x (map z2q kernel11) end.
Theorem iso11_limb p : canonA1 p -> onaux1 (aff1 p) -> ~ in_kernel1 (aff1 p) -> canonA1 (iso11 FqB p) /\ ainf (iso11 FqB p) = false /\ on1 (aff1 (iso11 FqB p)).
Proof.
  intros C H N. pose proof (rel_iso11 FqB FpB RFq p (valA1 p) (proj2 (RA1_val _ _) (Logic.conj C eq_refl))) as R. apply RA1_val in R. destruct R as [CP V].
  split; [exact CP|]. split; [reflexivity|]. destruct (onA_inv FldQ A1' B1' (valA1 p) H) as [I Y]. unfold in_kernel1 in N. change (aff1 p) with (repa FldQ (valA1 p)) in N. rewrite (repa_fin FldQ (valA1 p) I) in N.
  assert (xden11 (ax (valA1 p)) <> f0 q) as X by (intros Z; exact (N (xden11_root _ Z))). pose proof (iso11_on (valA1 p) Y X) as G. rewrite V in G. exact G.
Qed.
Theorem iso3_limb p : canonA2 p -> onaux2 (aff2 p) -> canonA2 (iso3 FqB p) /\ ainf (iso3 FqB p) = false /\ on2 (aff2 (iso3 FqB p)).
Proof.
  intros C H. pose proof (rel_iso3 FqB FpB RFq p (valA2 p) (proj2 (RA2_val _ _) (Logic.conj C eq_refl))) as R. apply RA2_val in R. destruct R as [CP V].
  split; [exact CP|]. split; [reflexivity|]. destruct (onA_inv FldQ2 A2' B2' (valA2 p) H) as [I Y]. pose proof (iso3_on (valA2 p) Y (xden3_ne _ _ Y)) as G. rewrite V in G. exact G.
Qed.
(** ** HashG1 and HashG2 *)
Definition t1_of sha m ctr := hp sha FqB (1 :: m) ctr.
Definition t2_of sha m ctr := hp2 sha FqB (1 :: m) ctr.
Lemma HashG1_form sha m P Q : optimizedSWUMapHelper FqB (t1_of sha m 0) = Some P -> optimizedSWUMapHelper FqB (t1_of sha m 1) = Some Q ->
  HashG1 sha FqB m = Some (ClearH FqB (iso11 FqB (G1_ToAffine FqO (AddAffine FqO (Affine_ToProjective FqO P) Q)))).
Proof. unfold HashG1, optimizedSWUMap, t1_of, cipherSuite. intros -> ->. reflexivity. Qed.
Lemma HashG2_form sha m P Q : OptimizedSWU2MapHelper FqB (t2_of sha m 0) = Some (Some P) -> OptimizedSWU2MapHelper FqB (t2_of sha m 1) = Some (Some Q) ->
  HashG2 sha FqB m = Some (clearH2 FqB (iso3 FqB (G2_ToAffine FqO2 (AddAffine FqO2 (Affine_ToProjective FqO2 P) Q)))).
Proof. unfold HashG2, optimizedSWUMap2, t2_of, cipherSuite. intros -> ->. reflexivity. Qed.
Lemma sum1_limb P Q : canonA1 P -> canonA1 Q -> let S := G1_ToAffine FqO (AddAffine FqO (Affine_ToProjective FqO P) Q) in canonA1 S /\ aff1 S = plus1 (aff1 P) (aff1 Q).
Proof.
  intros CP CQ S. destruct (G1_toproj P CP) as [C1 J1]. destruct (G1_addaffine _ Q C1 CQ) as [C2 J2]. destruct (G1_toaffine _ C2) as [C3 J3].
  split; [exact C3|]. rewrite <- J1. exact (eq_trans J3 J2).
Qed.
Lemma sum2_limb P Q : canonA2 P -> canonA2 Q -> let S := G2_ToAffine FqO2 (AddAffine FqO2 (Affine_ToProjective FqO2 P) Q) in canonA2 S /\ aff2 S = plus2 (aff2 P) (aff2 Q).
Proof.
  intros CP CQ S. destruct (G2_toproj P CP) as [C1 J1]. destruct (G2_addaffine _ Q C1 CQ) as [C2 J2]. destruct (G2_toaffine _ C2) as [C3 J3].
  split; [exact C3|]. rewrite <- J1. exact (eq_trans J3 J2).
Qed.
Theorem HashG1_total sha m : exists h, HashG1 sha FqB m = Some h /\ canonA1 h.
Proof.
  pose proof (rel_HashG1 FqB FpB RFq sha m) as R. destruct (swu1_limb (t1_of sha m 0) (proj1 (hp_limb _ _ _))) as (P & EP & _). destruct (swu1_limb (t1_of sha m 1) (proj1 (hp_limb _ _ _))) as (Q & EQ & _).
  rewrite (HashG1_form sha m P Q EP EQ) in *. destruct (HashG1 sha FpB m) as [h'|]; [|destruct R]. apply RA1_val in R. eexists. split; [reflexivity|exact (proj1 R)].
Qed.
Theorem HashG2_total sha m : exists h, HashG2 sha FqB m = Some h /\ canonA2 h.
Proof.
  pose proof (rel_HashG2 FqB FpB RFq sha m) as R. destruct (swu2_limb (t2_of sha m 0) (proj1 (hp2_limb _ _ _))) as (P & EP & _). destruct (swu2_limb (t2_of sha m 1) (proj1 (hp2_limb _ _ _))) as (Q & EQ & _).
  rewrite (HashG2_form sha m P Q EP EQ) in *. destruct (HashG2 sha FpB m) as [h'|]; [|destruct R]. apply RA2_val in R. eexists. split; [reflexivity|exact (proj1 R)].
Qed.
Theorem HashG1_on sha m P Q : optimizedSWUMapHelper FqB (t1_of sha m 0) = Some P -> optimizedSWUMapHelper FqB (t1_of sha m 1) = Some Q ->
  xdiff1 (aff1 P) (aff1 Q) -> ~ in_kernel1 (plus1 (aff1 P) (aff1 Q)) ->
  exists h, HashG1 sha FqB m = Some h /\ canonA1 h /\ on1 (aff1 h) /\ mul1 r (aff1 h) = Inf.
Proof.
  intros EP EQ D N. destruct (swu1_limb (t1_of sha m 0) (proj1 (hp_limb _ _ _))) as (P' & EP' & CP & _ & OP). destruct (swu1_limb (t1_of sha m 1) (proj1 (hp_limb _ _ _))) as (Q' & EQ' & CQ & _ & OQ).
  assert (P' = P) as -> by congruence. assert (Q' = Q) as -> by congruence. rewrite (HashG1_form sha m P Q EP EQ). eexists. split; [reflexivity|].
  destruct (sum1_limb P Q CP CQ) as [CS JS]. pose proof (sum_on FldQ A1' B1' _ _ OP OQ D) as OS. rewrite <- JS in N. assert (onaux1 (aff1 (G1_ToAffine FqO (AddAffine FqO (Affine_ToProjective FqO P) Q)))) as OS' by exact (eq_ind_r onaux1 OS JS).
  destruct (iso11_limb _ CS OS' N) as (CI & _ & OI). destruct (ClearH_limb _ CI OI) as (C & O & _ & T). exact (Logic.conj C (Logic.conj O T)).
Qed.
Theorem HashG2_on sha m P Q : OptimizedSWU2MapHelper FqB (t2_of sha m 0) = Some (Some P) -> OptimizedSWU2MapHelper FqB (t2_of sha m 1) = Some (Some Q) ->
  xdiff2 (aff2 P) (aff2 Q) -> exists h, HashG2 sha FqB m = Some h /\ canonA2 h /\ on2 (aff2 h) /\ mul2 r (aff2 h) = Inf.
Proof.
  intros EP EQ D. destruct (swu2_limb (t2_of sha m 0) (proj1 (hp2_limb _ _ _))) as (P' & EP' & CP & _ & OP). destruct (swu2_limb (t2_of sha m 1) (proj1 (hp2_limb _ _ _))) as (Q' & EQ' & CQ & _ & OQ).
  assert (P' = P) as -> by congruence. assert (Q' = Q) as -> by congruence. rewrite (HashG2_form sha m P Q EP EQ). eexists. split; [reflexivity|].
  destruct (sum2_limb P Q CP CQ) as [CS JS]. pose proof (sum_on FldQ2 A2' B2' _ _ OP OQ D) as OS. assert (onaux2 (aff2 (G2_ToAffine FqO2 (AddAffine FqO2 (Affine_ToProjective FqO2 P) Q)))) as OS' by exact (eq_ind_r onaux2 OS JS).
  destruct (iso3_limb _ CS OS') as (CI & I & OI). destruct (clearH2_limb _ CI OI I) as (C & O & T). exact (Logic.conj C (Logic.conj O T)).
Qed.
