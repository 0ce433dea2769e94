(** Concrete cases to which the theorems of the Properties files apply. *)
Require Import ZArith Lia Bool List Permutation Znumtheory.
From Verif Require Import Words ModelRepr ReprProofs ReprProofs2 ModelFq ModelFr ModelOps ModelTower ModelCurve ModelPairing ModelHash ModelBls Primality Fp FpOps FqProofs FqProofs2 FqMisc FqRel FrProofs OpsRel OpsRel2 FqTransfer Ext Fld AbGrp EcGroup EcJac EcMul Curves CurveLimb CurveMisc Codec BlsProofs BlsProofs3 BlsProofs4 TowerLimb PairBasic PairLimb ClearCof PairTor VerifyProofs CountFacts SwEnc PolyEval IsoProofs SwuProofs HashProofs UInst HashEx RandEx HonestEx Sha256 KnownAnswer KnownHonest WireProofs WireEx.
Import CurveLimb ListNotations.
Open Scope Z_scope.

Local Notation G1 := (G1ProjectiveOne FqB).
Local Notation G2 := (G2ProjectiveOne FqB).
Local Notation dbl1 := (Double FqO (G1ProjectiveOne FqB)).
Local Notation dbl2 := (Double FqO2 (G2ProjectiveOne FqB)).
Lemma ndiv2 : ~ (r | 2). Proof. intros D. apply Z.divide_pos_le in D; [|reflexivity]. apply D; reflexivity. Qed.
Lemma ndiv3 : ~ (r | 3). Proof. intros D. apply Z.divide_pos_le in D; [|reflexivity]. apply D; reflexivity. Qed.
Lemma key_two1 : key_of1 dbl1 2.
Proof. destruct (G1_double _ G1pone_canon) as [C J]. apply key_mult1; [exact C| |exact ndiv2]. rewrite J, gp1_gen, mul1_gm, gm_2, <- epr_gen1, <- plus1_gA. reflexivity. Qed.
Lemma key_two2 : key_of2 dbl2 2.
Proof. destruct (G2_double _ G2pone_canon) as [C J]. apply key_mult2; [exact C| |exact ndiv2]. rewrite J, gp2_gen, mul2_gm, gm_2, <- epr_gen2, <- plus2_gA. reflexivity. Qed.
Lemma dbl1_ne : jac1 G1 <> jac1 dbl1.
Proof. rewrite (proj2 key_one1), (proj2 key_two1). exact ne21. Qed.
Lemma dbl2_ne : jac2 G2 <> jac2 dbl2.
Proof. rewrite (proj2 key_one2), (proj2 key_two2). exact ne22. Qed.
Lemma tor_valid1 P : tor1 P -> valid1 P. Proof. intros (C & O & _). exact (Logic.conj C O). Qed.
Lemma tor_valid2 P : tor2 P -> valid2 P. Proof. intros (C & O & _). exact (Logic.conj C O). Qed.
(** three points of each group *)
Lemma points1 : valid1 G1 /\ valid1 dbl1 /\ valid1 (ProjectiveZero FqO) /\ jac1 G1 <> jac1 dbl1 /\ jac1 G1 <> Inf /\ jac1 dbl1 <> Inf /\ jac1 (ProjectiveZero FqO) = Inf.
Proof.
  split; [exact (tor_valid1 _ (proj1 key_one1))|]. split; [exact (tor_valid1 _ (proj1 key_two1))|]. split; [|split; [exact dbl1_ne|split; [exact (proj2 (proj2 (proj2 (proj1 key_one1))))|split; [exact (proj2 (proj2 (proj2 (proj1 key_two1))))|]]]].
  - destruct G1_zero as [C J]. split; [exact C|]. rewrite J. exact I.
  - exact (proj2 G1_zero).
Qed.
Lemma points2 : valid2 G2 /\ valid2 dbl2 /\ valid2 (ProjectiveZero FqO2) /\ jac2 G2 <> jac2 dbl2 /\ jac2 G2 <> Inf /\ jac2 dbl2 <> Inf /\ jac2 (ProjectiveZero FqO2) = Inf.
Proof.
  split; [exact (tor_valid2 _ (proj1 key_one2))|]. split; [exact (tor_valid2 _ (proj1 key_two2))|]. split; [|split; [exact dbl2_ne|split; [exact (proj2 (proj2 (proj2 (proj1 key_one2))))|split; [exact (proj2 (proj2 (proj2 (proj1 key_two2))))|]]]].
  - destruct G2_zero as [C J]. split; [exact C|]. rewrite J. exact I.
  - exact (proj2 G2_zero).
Qed.
Section Idem. Context (K : Fld). Add Field KFidem : (fTh K).
Lemma idem_unit (a b : K) : (a * a = a)%F -> (b * a = 1)%F -> (a = 1)%F.
Proof. intros A B. transitivity (b * a * a)%F; [rewrite B; ring|]. transitivity (b * (a * a))%F; [ring|]. rewrite A. exact B. Qed.
Lemma sq_prod (a b : K) : (a * b * (a * b) = a * a * (b * b))%F. Proof. ring. Qed.
End Idem.
(** two pairings with different values, and two ways to write the same one *)
Lemma pairing_values : exists e1 e2 e3, Pairing FqB G1 G2 = Some e1 /\ Pairing FqB dbl1 G2 = Some e2 /\ Pairing FqB G1 dbl2 = Some e3 /\ e1 <> e2 /\ e2 = e3.
Proof.
  destruct key_one1 as [T1 _], key_one2 as [T2 _], key_two1 as [D1 _], key_two2 as [D2 _].
  destruct (pairing_add_l G1 G1 dbl1 G2 T1 T1 D1 T2 (proj2 (G1_double _ G1pone_canon))) as (e & e' & e2 & E1 & E1' & E2 & M). rewrite E1 in E1'. apply some_inj' in E1'. subst e'.
  destruct (pairing_add_r G1 G2 G2 dbl2 T1 T2 T2 D2 (proj2 (G2_double _ G2pone_canon))) as (f & f' & e3 & F1 & F1' & F3 & M'). rewrite E1 in F1, F1'. apply some_inj' in F1, F1'. subst f f'.
  exists e, e2, e3. split; [exact E1|]. split; [exact E2|]. split; [exact F3|]. split; [|congruence].
  destruct (pairing_nondegenerate G1 G2 T1 T2) as (g & Eg & C & N). rewrite E1 in Eg. apply some_inj' in Eg. subst g. intros E. apply N. clear N.
  assert (exists e', canon12 e' /\ FQ12_MulAssign FqB e' e = FQ12One FqB) as (e' & C' & Ie).
  { destruct (Pairing_neg_limb _ _ _ G1pone_canon G2pone_canon E1) as (e' & P' & Ie). exists e'. split; [|exact Ie].
    destruct (G1_neg _ G1pone_canon) as [CN _]. exact (proj1 (optR12_inv _ _ _ (Pairing_rel _ _ CN G2pone_canon) P')). }
  rewrite <- E in M. clear E1 E2 F3 M' E.
  destruct (L12_mul e e C C) as [_ V]. rewrite M in V. pose proof (rel_FQ12One FqB FpB RFq) as R1. apply R12_val in R1. destruct R1 as [CO VO]. apply val12_inj; [exact C|exact CO|].
  rewrite <- VO. destruct (L12_mul e' e C' C) as [_ V']. rewrite Ie in V'. rewrite <- VO in V'.
  exact (idem_unit FldQ12 (val12 e) (val12 e') (eq_sym V) (eq_sym V')).
Qed.

(** ** Scheme *)
Lemma keys_123 : exists k1 k2 k3, rcanon k1 /\ rcanon k2 /\ rcanon k3 /\ rval k1 = 1 /\ rval k2 = 2 /\ rval k3 = 3.
Proof.
  assert (forall z, 0 <= z < 100 -> exists k, rcanon k /\ rval k = z) as H.
  { intros z Hz. destruct (FRReprToFR_valid (NewFRRepr z)) as (k & _ & C & V).
    - unfold wf4, FRRepr_slice, NewFRRepr. cbn. repeat (apply Forall_cons || apply Forall_nil); unfold isW; lia.
    - assert (100 < r) as L by reflexivity. cbn. lia.
    - exists k. split; [exact C|]. rewrite V. cbn. lia. }
  destruct (H 1 ltac:(lia)) as (k1 & C1 & V1). destruct (H 2 ltac:(lia)) as (k2 & C2 & V2). destruct (H 3 ltac:(lia)) as (k3 & C3 & V3).
  exists k1, k2, k3. exact (Logic.conj C1 (Logic.conj C2 (Logic.conj C3 (Logic.conj V1 (Logic.conj V2 V3))))).
Qed.
Lemma split_key_example1 m : exists ks k Ps P Ss S h, HashG2 sha_two FqB m = Some h /\ hok2 h /\ length ks = 2%nat /\ Forall rcanon ks /\ rcanon k /\ rval k = fold_right Z.add 0 (map rval ks) mod r /\
  Forall2 (fun k P => g1pubs_PrivToPub FqB (Some k) = Some P) ks Ps /\ g1pubs_PrivToPub FqB (Some k) = Some P /\
  Forall2 (fun k S => g1pubs_Sign sha_two FqB m (Some k) = Some S) ks Ss /\ g1pubs_Sign sha_two FqB m (Some k) = Some S.
Proof.
  destruct (hok2_example m) as (h & Hh & K). destruct keys_123 as (k1 & k2 & k3 & C1 & C2 & C3 & V1 & V2 & V3).
  assert (forall k, rcanon k -> rval k <> 0 -> exists P S, g1pubs_PrivToPub FqB (Some k) = Some P /\ g1pubs_Sign sha_two FqB m (Some k) = Some S) as H.
  { intros k C N. destruct (honest1_example m k C N) as (P & S & (_ & _ & _ & EP & ES) & _). exists P, S. exact (Logic.conj EP ES). }
  destruct (H k1 C1) as (P1 & S1 & A1 & B1); [rewrite V1; discriminate|]. destruct (H k2 C2) as (P2 & S2 & A2 & B2); [rewrite V2; discriminate|]. destruct (H k3 C3) as (P3 & S3 & A3 & B3); [rewrite V3; discriminate|].
  exists [k1; k2], k3, [P1; P2], P3, [S1; S2], S3, h. split; [exact Hh|]. split; [exact K|]. split; [reflexivity|]. split; [constructor; [exact C1|constructor; [exact C2|constructor]]|]. split; [exact C3|].
  split; [cbn [map fold_right]; rewrite V1, V2, V3; reflexivity|]. split; [constructor; [exact A1|constructor; [exact A2|constructor]]|]. split; [exact A3|]. split; [constructor; [exact B1|constructor; [exact B2|constructor]]|exact B3].
Qed.
Lemma split_key_example2 m : exists ks k Ps P Ss S h, HashG1 sha_two FqB m = Some h /\ hok1 h /\ length ks = 2%nat /\ Forall rcanon ks /\ rcanon k /\ rval k = fold_right Z.add 0 (map rval ks) mod r /\
  Forall2 (fun k P => g2pubs_PrivToPub FqB (Some k) = Some P) ks Ps /\ g2pubs_PrivToPub FqB (Some k) = Some P /\
  Forall2 (fun k S => g2pubs_Sign sha_two FqB m (Some k) = Some S) ks Ss /\ g2pubs_Sign sha_two FqB m (Some k) = Some S.
Proof.
  destruct (hok1_example m) as (h & Hh & K). destruct keys_123 as (k1 & k2 & k3 & C1 & C2 & C3 & V1 & V2 & V3).
  assert (forall k, rcanon k -> rval k <> 0 -> exists P S, g2pubs_PrivToPub FqB (Some k) = Some P /\ g2pubs_Sign sha_two FqB m (Some k) = Some S) as H.
  { intros k C N. destruct (honest2_example m k C N) as (P & S & (_ & _ & _ & EP & ES) & _). exists P, S. exact (Logic.conj EP ES). }
  destruct (H k1 C1) as (P1 & S1 & A1 & B1); [rewrite V1; discriminate|]. destruct (H k2 C2) as (P2 & S2 & A2 & B2); [rewrite V2; discriminate|]. destruct (H k3 C3) as (P3 & S3 & A3 & B3); [rewrite V3; discriminate|].
  exists [k1; k2], k3, [P1; P2], P3, [S1; S2], S3, h. split; [exact Hh|]. split; [exact K|]. split; [reflexivity|]. split; [constructor; [exact C1|constructor; [exact C2|constructor]]|]. split; [exact C3|].
  split; [cbn [map fold_right]; rewrite V1, V2, V3; reflexivity|]. split; [constructor; [exact A1|constructor; [exact A2|constructor]]|]. split; [exact A3|]. split; [constructor; [exact B1|constructor; [exact B2|constructor]]|exact B3].
Qed.
(** two signers of distinct messages *)
Lemma signers_example1 : exists l, map s_msg1 l = [[1]; [2; 3]] /\ map s_pub1 l = [G1; dbl1] /\ Forall (signer_ok1 (hf1 sha_two)) l.
Proof.
  destruct (hok2_example [1]) as (h & Hh & K). destruct (hok2_example [2; 3]) as (h' & Hh' & K'). destruct (hf1_ok _ _ _ Hh K) as (E & T & _). destruct (hf1_ok _ _ _ Hh' K') as (E' & T' & _).
  exists [mkSigner1 G1 1 [1] (Affine_ToProjective FqO2 h); mkSigner1 dbl1 2 [2; 3] (Affine_ToProjective FqO2 h')]. split; [reflexivity|]. split; [reflexivity|].
  constructor; [exact (Logic.conj key_one1 (Logic.conj E T))|constructor; [exact (Logic.conj key_two1 (Logic.conj E' T'))|constructor]].
Qed.
Lemma signers_example2 : exists l, map s_msg2 l = [[1]; [2; 3]] /\ map s_pub2 l = [G2; dbl2] /\ Forall (signer_ok2 (hf2 sha_two)) l.
Proof.
  destruct (hok1_example [1]) as (h & Hh & K). destruct (hok1_example [2; 3]) as (h' & Hh' & K'). destruct (hf2_ok _ _ _ Hh K) as (E & T & _). destruct (hf2_ok _ _ _ Hh' K') as (E' & T' & _).
  exists [mkSigner2 G2 1 [1] (Affine_ToProjective FqO h); mkSigner2 dbl2 2 [2; 3] (Affine_ToProjective FqO h')]. split; [reflexivity|]. split; [reflexivity|].
  constructor; [exact (Logic.conj key_one2 (Logic.conj E T))|constructor; [exact (Logic.conj key_two2 (Logic.conj E' T'))|constructor]].
Qed.
(** with a domain, under SHA-256, on the test vector of hash_test.go *)
Lemma domain_example : exists h, HashG2WithDomain_fuel sha256 FqB 50 (repeat 0 32) (repeat 0 8) = Some h /\ tor2 h.
Proof.
  pose proof kat_HashG2WithDomain as H. destruct (HashG2WithDomain_fuel sha256 FqB 50 (repeat 0 32) (repeat 0 8)) as [h|] eqn:E; [|discriminate H]. exists h. split; [reflexivity|].
  destruct (HashG2WithDomain_sound sha256 50 _ _ h sha256_ok E) as (i & y & _ & _ & [C O] & _ & T). split; [exact C|]. split; [exact O|]. split; [exact T|]. intros I. cbn [option_map] in H. apply some_inj' in H.
  destruct (G2_toaffine h C) as [CA JA]. assert (ainf (G2_ToAffine FqO2 h) = true) as IA.
  { destruct (ainf (G2_ToAffine FqO2 h)) eqn:IA; [reflexivity|]. destruct (aff_fin2 _ IA). rewrite JA. exact I. }
  unfold CompressG2 in H. change (FQ2O FqB) with FqO2 in H. unfold Affine_IsZero in H. rewrite IA in H. discriminate H.
Qed.
Lemma signers_exampled : exists l, map s_msg1 l = [repeat 0 32; repeat 0 32] /\ map s_pub1 l = [G1; dbl1] /\ Forall (signer_ok1 (hfd sha256 50 (repeat 0 8))) l.
Proof.
  destruct domain_example as (h & E & T). destruct (hfd_ok sha256 50 (repeat 0 8) _ _ E T) as (Eh & Th & _).
  exists [mkSigner1 G1 1 (repeat 0 32) (Affine_ToProjective FqO2 (G2_ToAffine FqO2 h)); mkSigner1 dbl1 2 (repeat 0 32) (Affine_ToProjective FqO2 (G2_ToAffine FqO2 h))]. split; [reflexivity|]. split; [reflexivity|].
  constructor; [exact (Logic.conj key_one1 (Logic.conj Eh Th))|constructor; [exact (Logic.conj key_two1 (Logic.conj Eh Th))|constructor]].
Qed.
(** ** Hashing *)
Lemma iso11_example : exists p, canonA1 p /\ onaux1 (aff1 p) /\ ~ in_kernel1 (aff1 p).
Proof.
  destruct (HashG1_good []) as (P & Q & h & EP & EQ & D & N & _).
  destruct (swu1_limb (t1_of sha_two [] 0) (proj1 (hp_limb _ _ _))) as (P' & EP' & CP & _ & OP). destruct (swu1_limb (t1_of sha_two [] 1) (proj1 (hp_limb _ _ _))) as (Q' & EQ' & CQ & _ & OQ).
  rewrite EP in EP'. apply some_inj' in EP'. subst P'. rewrite EQ in EQ'. apply some_inj' in EQ'. subst Q'. destruct (sum1_limb P Q CP CQ) as [CS JS]. pose proof (sum_on FldQ A1' B1' _ _ OP OQ D) as OS.
  exists (G1_ToAffine FqO (AddAffine FqO (Affine_ToProjective FqO P) Q)). split; [exact CS|]. rewrite JS. exact (Logic.conj OS N).
Qed.
Lemma iso3_example : exists p, canonA2 p /\ onaux2 (aff2 p).
Proof. destruct (swu2_limb (t2_of sha_two [] 0) (proj1 (hp2_limb _ _ _))) as (P & _ & C & _ & O). exists P. exact (Logic.conj C O). Qed.
(** ** Points outside the subgroup of order r, and points accepted by RandG1 *)
Lemma outside_example1 : exists A, canonA1 A /\ on1 (aff1 A) /\ ainf A = false /\ mul1 r (aff1 A) <> Inf.
Proof.
  destruct (g1_fromx FQZero true FQZero_canon) as [_ H]. destruct H as (y & E & Cy & Hy & _).
  { exists (z2q 2). apply zof_inj. unfold fqval. rewrite FQZero_fval. unfold fmul, fadd, b1, z2q. rewrite !zof_zp. vm_compute. reflexivity. }
  exists (mkAff FQZero y false). split; [exact (Logic.conj FQZero_canon Cy)|]. change (aff1 (mkAff FQZero y false)) with (Pt (fqval FQZero) (fqval y)). split; [exact Hy|]. split; [reflexivity|].
  assert (fqval FQZero = (fO : E1)) as Z by (apply zof_inj; unfold fqval; rewrite FQZero_fval; reflexivity). rewrite Z in *. exact (ord3_not_r E1 _ Hy).
Qed.
Lemma outside_example2 : exists x y : K2, on2 (Pt x y) /\ mul2 r (Pt x y) <> Inf.
Proof.
  exists (k2q x13), (k2q y13). split; [exact on13|]. intros X. pose proof mul13 as M. pose (A := emk E2 (Pt (k2q x13) (k2q y13)) on13 : EC E2).
  assert (gm 13 A = gO) as M' by (apply ec_eq; rewrite epr_gm; exact M). assert (gm r A = gO) as X' by (apply ec_eq; rewrite epr_gm; exact X).
  pose proof (gm_coprime 13 r A ltac:(reflexivity) M' X') as Z. apply (f_equal (epr E2)) in Z. discriminate Z.
Qed.
(** a draw without a point, then a draw with one *)
Lemma rand1_example : exists P, RandG1 FqB [(1, q - 2); (0, 0)] = Some P.
Proof.
  assert (forall z, 0 <= z < q -> canon (b_of FqB (FQRepr_const z)) /\ fqval (b_of FqB (FQRepr_const z)) = z2q z) as OS by (intros z Hz; destruct (of_small z Hz) as [C V]; split; [exact C|exact V]).
  cbn [RandG1]. cbv zeta. destruct (OS (q - 2)) as [C V]; [split; [discriminate|reflexivity]|]. destruct (g1_fromx (b_of FqB (FQRepr_const (q - 2))) (1 mod 2 =? 0) C) as [GN _]. rewrite V in GN. rewrite GN.
  - destruct (OS 0) as [C0 V0]; [split; [discriminate|reflexivity]|]. destruct (g1_fromx (b_of FqB (FQRepr_const 0)) (0 mod 2 =? 0) C0) as [_ GS]. rewrite V0 in GS.
    destruct GS as (y & -> & _); [exists (z2q 2); zc|]. cbn [Affine_IsZero ainf negb]. eexists. reflexivity.
  - intros s Hs. apply neg1_nonsquare. exists (fmul s (z2q ((q + 1) / 2))). transitivity (fmul (fmul s s) (fmul (z2q ((q + 1) / 2)) (z2q ((q + 1) / 2)))); [|rewrite Hs; zc].
    exact (sq_prod FldQ s (z2q ((q + 1) / 2))).
Qed.
Lemma dbl1_z : o_equals FqO (pz dbl1) (o_one FqO) = false.
Proof.
  assert (o_equals (b_ops UB) (pz (Double (b_ops UB) (G1ProjectiveOne UB))) (o_one (b_ops UB)) = false) as H by (vm_compute; reflexivity).
  assert (forall F F' (B : BOps F) (B' : BOps F') R (HB : RelB B B' R), o_equals (b_ops B) (pz (Double (b_ops B) (G1ProjectiveOne B))) (o_one (b_ops B)) = o_equals (b_ops B') (pz (Double (b_ops B') (G1ProjectiveOne B'))) (o_one (b_ops B'))) as T.
  { intros F F' B B' R HB. pose proof (rb_ops B B' R HB) as HO. apply (ro_equals _ _ _ HO); [|apply (ro_one _ _ _ HO)]. exact (proj2 (proj2 (rel_Double _ _ _ HO _ _ (rel_G1ProjectiveOne B B' R)))). }
  rewrite (T _ _ UB FpB RU _) in H. rewrite <- (T _ _ FqB FpB RFq _) in H. exact H.
Qed.
Lemma dbl2_z : o_equals FqO2 (pz dbl2) (o_one FqO2) = false.
Proof.
  assert (o_equals (FQ2O UB) (pz (Double (FQ2O UB) (G2ProjectiveOne UB))) (o_one (FQ2O UB)) = false) as H by (vm_compute; reflexivity).
  assert (forall F F' (B : BOps F) (B' : BOps F') R (HB : RelB B B' R), o_equals (FQ2O B) (pz (Double (FQ2O B) (G2ProjectiveOne B))) (o_one (FQ2O B)) = o_equals (FQ2O B') (pz (Double (FQ2O B') (G2ProjectiveOne B'))) (o_one (FQ2O B'))) as T.
  { intros F F' B B' R HB. pose proof (rel_FQ2O B B' R) as HO. apply (ro_equals _ _ _ HO); [|apply (ro_one _ _ _ HO)]. exact (proj2 (proj2 (rel_Double _ _ _ HO _ _ (rel_G2ProjectiveOne B B' R)))). }
  rewrite (T _ _ UB FpB RU _) in H. rewrite <- (T _ _ FqB FpB RFq _) in H. exact H.
Qed.
Lemma dbl1_one : o_one FqO <> pz dbl1.
Proof. intros E. pose proof dbl1_z as Z. rewrite <- E in Z. assert (o_equals FqO (o_one FqO) (o_one FqO) = true) as T by exact (proj2 (FQ_Equals_spec FQOne FQOne FQOne_canon FQOne_canon) eq_refl). congruence. Qed.
Lemma dbl2_one : o_one FqO2 <> pz dbl2.
Proof.
  intros E. pose proof dbl2_z as Z. rewrite <- E in Z. assert (canon2 (o_one FqO2)) as C by exact (Logic.conj FQOne_canon FQZero_canon).
  assert (o_equals FqO2 (o_one FqO2) (o_one FqO2) = true) as T by exact (proj2 (L2_equals _ _ C C) eq_refl). congruence.
Qed.
Lemma aff_inf1 (h : Affine FQ) : Affine_IsZero h = true -> aff1 h = Inf.
Proof. unfold aff1, aff, repa, Affine_IsZero. cbn [ainf vA]. intros ->. reflexivity. Qed.
Lemma aff_inf2 (h : Affine (FQ2 FQ)) : Affine_IsZero h = true -> aff2 h = Inf.
Proof. unfold aff2, aff, repa, Affine_IsZero. cbn [ainf vA]. intros ->. reflexivity. Qed.
(** a point written with two different Z coordinates *)
Lemma two_reps1 : exists P, valid1 P /\ jac1 P = jac1 dbl1 /\ P <> dbl1.
Proof.
  destruct points1 as (_ & [C O] & _ & _ & _ & NI & _). destruct (G1_toaffine _ C) as [CA JA]. destruct (G1_toproj _ CA) as [CP JP]. exists (Affine_ToProjective FqO (G1_ToAffine FqO dbl1)).
  assert (jac1 (Affine_ToProjective FqO (G1_ToAffine FqO dbl1)) = jac1 dbl1) as J by exact (eq_trans JP JA). split; [split; [exact CP|rewrite J; exact O]|]. split; [exact J|].
  assert (Affine_IsZero (G1_ToAffine FqO dbl1) = false) as F.
  { destruct (Affine_IsZero (G1_ToAffine FqO dbl1)) eqn:F; [|reflexivity]. destruct NI. rewrite <- JA. exact (aff_inf1 _ F). }
  unfold Affine_ToProjective. rewrite F. intros E. exact (dbl1_one (f_equal pz E)).
Qed.
Lemma two_reps2 : exists P, valid2 P /\ jac2 P = jac2 dbl2 /\ P <> dbl2.
Proof.
  destruct points2 as (_ & [C O] & _ & _ & _ & NI & _). destruct (G2_toaffine _ C) as [CA JA]. destruct (G2_toproj _ CA) as [CP JP]. exists (Affine_ToProjective FqO2 (G2_ToAffine FqO2 dbl2)).
  assert (jac2 (Affine_ToProjective FqO2 (G2_ToAffine FqO2 dbl2)) = jac2 dbl2) as J by exact (eq_trans JP JA). split; [split; [exact CP|rewrite J; exact O]|]. split; [exact J|].
  assert (Affine_IsZero (G2_ToAffine FqO2 dbl2) = false) as F.
  { destruct (Affine_IsZero (G2_ToAffine FqO2 dbl2)) eqn:F; [|reflexivity]. destruct NI. rewrite <- JA. exact (aff_inf2 _ F). }
  unfold Affine_ToProjective. rewrite F. intros E. exact (dbl2_one (f_equal pz E)).
Qed.
