(** Messages with good hash points exist, and the honest-signer theorems apply to them. *)
Require Import ZArith Lia Bool List Ring Field.
From Verif Require Import Words ModelRepr ReprProofs ModelFq ModelFr ModelOps ModelTower ModelCurve ModelPairing ModelHash ModelBls Primality Fp FpOps FqProofs FqRel FrProofs OpsRel OpsRel2 FqTransfer Ext Fld AbGrp EcGroup EcJac EcMul Curves CurveLimb CurveMisc BlsProofs BlsProofs3 BlsProofs4 ClearCof PairTor VerifyProofs CountFacts PolyEval IsoProofs SwuProofs HashProofs HashEx.
Import CurveLimb ListNotations.
Open Scope Z_scope.

Lemma hok1_example m : exists h, HashG1 sha_two FqB m = Some h /\ hok1 h.
Proof.
  destruct (HashG1_good m) as (P & Q & h & EP & EQ & D & N & H & I). exists h. split; [exact H|].
  destruct (HashG1_on sha_two m P Q EP EQ D N) as (h' & H' & _ & O & T). rewrite H in H'. apply some_inj' in H'. subst h'. exact (Logic.conj O (Logic.conj T I)).
Qed.
Lemma hok2_example m : exists h, HashG2 sha_two FqB m = Some h /\ hok2 h.
Proof.
  destruct (HashG2_good m) as (P & Q & h & EP & EQ & D & H & I). exists h. split; [exact H|].
  destruct (HashG2_on sha_two m P Q EP EQ D) as (h' & H' & _ & O & T). rewrite H in H'. apply some_inj' in H'. subst h'. exact (Logic.conj O (Logic.conj T I)).
Qed.
Lemma honest1_some sha m h k : HashG2 sha FqB m = Some h -> hok2 h -> rcanon k -> rval k <> 0 -> exists P S, honest1 sha k m P S /\ g1pubs_Verify sha FqB m P S = Some true.
Proof.
  intros H K C N. assert (exists P, g1pubs_PrivToPub FqB (Some k) = Some P) as [P EP] by (eexists; reflexivity).
  assert (exists S, g1pubs_Sign sha FqB m (Some k) = Some S) as [S ES] by (unfold g1pubs_Sign; rewrite H; eexists; reflexivity).
  exists P, S. split; [|exact (honest_Verify1 sha m h k P S H K C N EP ES)].
  split; [exact C|]. split; [exact N|]. split; [exists h; exact (Logic.conj H K)|]. exact (Logic.conj EP ES).
Qed.
Lemma honest1_example m k : rcanon k -> rval k <> 0 -> exists P S, honest1 sha_two k m P S /\ g1pubs_Verify sha_two FqB m P S = Some true.
Proof. intros C N. destruct (hok2_example m) as (h & H & K). exact (honest1_some sha_two m h k H K C N). Qed.
Lemma honest2_some sha m h k : HashG1 sha FqB m = Some h -> hok1 h -> rcanon k -> rval k <> 0 -> exists P S, honest2 sha k m P S /\ g2pubs_Verify sha FqB m P S = Some true.
Proof.
  intros H K C N. assert (exists P, g2pubs_PrivToPub FqB (Some k) = Some P) as [P EP] by (eexists; reflexivity).
  assert (exists S, g2pubs_Sign sha FqB m (Some k) = Some S) as [S ES] by (unfold g2pubs_Sign; rewrite H; eexists; reflexivity).
  exists P, S. split; [|exact (honest_Verify2 sha m h k P S H K C N EP ES)].
  split; [exact C|]. split; [exact N|]. split; [exists h; exact (Logic.conj H K)|]. exact (Logic.conj EP ES).
Qed.
Lemma honest2_example m k : rcanon k -> rval k <> 0 -> exists P S, honest2 sha_two k m P S /\ g2pubs_Verify sha_two FqB m P S = Some true.
Proof. intros C N. destruct (hok1_example m) as (h & H & K). exact (honest2_some sha_two m h k H K C N). Qed.
Lemma hash_vocabulary :
  (forall P, onaux1 P <-> exists x y, P = Pt x y /\ fmul y y = fadd (fadd (fmul (fmul x x) x) (fmul A1' x)) B1') /\
  (forall P, onaux2 P <-> exists x y, P = Pt x y /\ k2_mul y y = k2_add (k2_add (k2_mul (k2_mul x x) x) (k2_mul A2' x)) B2') /\
  zof A1' = 0x144698a3b8e9433d693a02c96d4982b0ea985383ee66a8d8e8981aefd881ac98936f8da0e0f97f5cf428082d584c1d /\
  zof B1' = 0x12e2908d11688030018b12e8753eee3b2016c1f0f24f4070a0b9c14fcef35ef55a23215a316ceaa5d1cc48e98e172be0 /\
  A2' = mkFQ2 (z2q 0) (z2q 240) /\ B2' = mkFQ2 (z2q 1012) (z2q 1012) /\
  (forall x y x' y', xdiff1 (Pt x y) (Pt x' y') <-> x <> x') /\ (forall x y x' y', xdiff2 (Pt x y) (Pt x' y') <-> x <> x') /\
  (forall x y, in_kernel1 (Pt x y) <-> In (zof x) kernel11) /\ length kernel11 = 5%nat.
Proof.
  split; [|split]. 1-2: intros [|x y]; (split; [intros H; try contradiction H|intros (x' & y' & E & H); try discriminate E]).
  1,3: exists x, y; split; [reflexivity|exact H]. 1-2: inversion E; subst x' y'; exact H.
  split; [vm_compute; reflexivity|]. split; [vm_compute; reflexivity|]. split; [apply k2_zof; vm_compute; reflexivity|]. split; [apply k2_zof; vm_compute; reflexivity|].
  split; [intros; reflexivity|]. split; [intros; reflexivity|]. split; [|reflexivity].
  intros x y. unfold in_kernel1. rewrite in_map_iff. split.
  - intros (z & E & H). subst x. unfold z2q. rewrite zof_zp, Z.mod_small; [exact H|]. cbn in H. repeat (destruct H as [<-|H]; [split; [discriminate|reflexivity]|]). destruct H.
  - intros H. exists (zof x). split; [apply zof_inj; unfold z2q; rewrite zof_zp; apply Z.mod_small; apply (zof_bound q prime_q)|exact H].
Qed.
Section Op2. Context (K : Fld). Add Field KFo2 : (fTh K). Lemma op2 (y : K) : (- - y = y)%F. Proof. ring. Qed. End Op2.
Lemma fop2 (y : Fq) : fopp (fopp y) = y. Proof. exact (op2 FldQ y). Qed.
Lemma swu_unique1 t P Q : swu_spec1 t P -> swu_spec1 t Q -> P = Q.
Proof.
  intros (I & Y & S & x0 & HX & C) (I' & Y' & S' & x0' & HX' & C'). assert (x0' = x0) as -> by exact (is_x0_1_fun t x0' x0 HX' HX). destruct P as [px py pi], Q as [rx ry ri]. cbn [ax ay ainf] in *. subst pi ri.
  assert (px = rx) as ->. { destruct C as [[A ->]|[A ->]], C' as [[A' ->]|[A' ->]]; try contradiction; reflexivity. }
  f_equal. destruct (fld_sq_eq FldQ py ry) as [E|E]; [exact (eq_trans Y (eq_sym Y'))|exact E|].
  assert (py = fopp ry) as E' by exact E. destruct (Fp_dec ry (f0 q)) as [Z|N]; [assert (ry = f0 q) as Z' by exact Z; rewrite E', Z'; apply zof_inj; reflexivity|].
  assert (ry <> f0 q) as N' by exact N. destruct S' as [S'|S']; [contradiction|]. destruct S as [S|S]; [destruct N'; rewrite E' in S; rewrite <- (fop2 ry), S; apply zof_inj; reflexivity|].
  exfalso. rewrite E', big1_opp, S' in S by exact N'. destruct (big1 t); discriminate S.
Qed.
Lemma swu_unique2 t P Q : swu_spec2 t P -> swu_spec2 t Q -> P = Q.
Proof.
  intros (I & Y & S & x0 & HX & C) (I' & Y' & S' & x0' & HX' & C'). assert (x0' = x0) as -> by exact (is_x0_2_fun t x0' x0 HX' HX). destruct P as [px py pi], Q as [rx ry ri]. cbn [ax ay ainf] in *. subst pi ri.
  assert (px = rx) as ->. { destruct C as [[A ->]|[A ->]], C' as [[A' ->]|[A' ->]]; try contradiction; reflexivity. }
  f_equal. destruct (fld_sq_eq FldQ2 py ry) as [E|E]; [exact (eq_trans Y (eq_sym Y'))|exact E|].
  assert (py = k2_opp ry) as E' by exact E. destruct (k2_dec ry k2_0) as [Z|N]; [assert (ry = k2_0) as Z' by exact Z; rewrite E', Z'; apply k2_zof; reflexivity|].
  assert (ry <> k2_0) as N' by exact N. destruct S' as [S'|S']; [contradiction|]. destruct S as [S|S]; [destruct N'; rewrite E' in S; transitivity (k2_opp (k2_opp ry)); [ring|rewrite S; ring]|].
  exfalso. rewrite E', big2_opp, S' in S by exact N'. destruct (big2 t); discriminate S.
Qed.
