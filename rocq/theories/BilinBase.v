(** GF(q^12) as the field in which the lines of the code are evaluated: the map eps(z) = z^finE kills GF(q^6), the
    image of a point of E over GF(q) on the twist, the endomorphism psi. *)
Require Import ZArith Lia Bool List Ring Field Znumtheory.
From Verif Require Import Words ModelRepr ModelFq ModelOps ModelTower ModelCurve ModelPairing NumTheory Primality Fp FpOps FqProofs FqProofs2 FqInverse FqRel FqMisc Loops ZInst TwoPow Ext ExtFrob TowerProofs Fld AbGrp EcGroup EcJac EcMul Curves FinExp Miller PairBasic LineIdeal Cocycle Recip.
Import ListNotations.
Open Scope Z_scope.

#[global] Opaque gam.
Definition u12mk (z : K12) (H : z <> k12_0) : U12 := umk FldQ12 z H.
Definition eps (z : K12) : U12 := match k12_dec z k12_0 with left _ => gO | right H => gm finE (u12mk z H) end.
Lemma eps_u (u : U12) : eps (upr u) = gm finE u.
Proof. unfold eps. destruct (k12_dec (upr u) k12_0) as [E|N]; [exfalso; exact (upr_ne u E)|]. f_equal. apply u_eq. reflexivity. Qed.
Lemma eps_umk z (H : z <> k12_0) : eps z = gm finE (u12mk z H). Proof. exact (eps_u (u12mk z H)). Qed.
Lemma eps_mul a b : a <> k12_0 -> b <> k12_0 -> eps (k12_mul a b) = gA (eps a) (eps b).
Proof.
  intros Ha Hb. rewrite (eps_umk a Ha), (eps_umk b Hb), <- gm_A, <- eps_u. reflexivity.
Qed.
Lemma eps_r z : gm r (eps z) = gO.
Proof. unfold eps. destruct (k12_dec z k12_0); [apply gm_O|apply finE_root]. Qed.
Lemma eps_6 z : z <> k6_0 -> eps (k12_emb z) = gO.
Proof.
  intros H. assert (k12_emb z <> k12_0) as N by (intros E; apply H; exact (f_equal e0 E)).
  rewrite (eps_umk _ N), finE_split, gm_mul. set (u := u12mk (k12_emb z) N).
  assert (gm (q ^ 6) u = u) as E.
  { apply u_eq. rewrite <- u12_conj. change (upr u) with (k12_emb z). apply k12_eq; cbn [k12_conj k12_emb e0 e1]; [reflexivity|ring]. }
  rewrite gm_sub, gm_1, E, gA_N_r. apply gm_O.
Qed.
Definition phi2 (k : K2) : K12 := k12_emb (k6_emb k).
Lemma phi2_1 : phi2 k2_1 = k12_1. Proof. reflexivity. Qed.
Lemma phi2_add x y : phi2 (k2_add x y) = k12_add (phi2 x) (phi2 y). Proof. unfold phi2. rewrite k6_emb_add, k12_emb_add. reflexivity. Qed.
Lemma phi2_mul x y : phi2 (k2_mul x y) = k12_mul (phi2 x) (phi2 y). Proof. unfold phi2. rewrite k6_emb_mul, k12_emb_mul. reflexivity. Qed.
Lemma eps_2 k : k <> k2_0 -> eps (phi2 k) = gO.
Proof. intros H. apply eps_6. intros E. apply H. exact (f_equal d0 E). Qed.
Lemma eps_frob z : z <> k12_0 -> eps (k12_frob1 z) = gm q (eps z).
Proof.
  intros H. rewrite <- (k12_frob z). rewrite (eps_umk z H). change z with (upr (u12mk z H)) at 1. rewrite (u12_pow q) by (pose proof q_pos; lia).
  rewrite eps_u. rewrite <- !gm_mul, (Z.mul_comm q finE). reflexivity.
Qed.
(** ** frob is a ring homomorphism *)
Lemma frob_add a b : k12_frob1 (k12_add a b) = k12_add (k12_frob1 a) (k12_frob1 b).
Proof. rewrite <- (k12_frob (k12_add a b)), <- (k12_frob a), <- (k12_frob b). exact (k12_frob_add a b). Qed.
Lemma frob_1 : k12_frob1 k12_1 = k12_1.
Proof. rewrite <- (k12_frob k12_1). change k12_1 with (upr (gO : U12)). rewrite u12_pow, gm_O; [reflexivity|pose proof q_pos; lia]. Qed.
Lemma frob_mul a b : k12_frob1 (k12_mul a b) = k12_mul (k12_frob1 a) (k12_frob1 b).
Proof.
  assert (forall x, k12_frob1 k12_0 = k12_0 /\ k12_mul k12_0 x = k12_0 /\ k12_mul x k12_0 = k12_0) as Z.
  { intros x. split; [|split; ring]. assert (k12_0 = k12_add k12_0 k12_0) as E by ring. pose proof (frob_add k12_0 k12_0) as F. rewrite <- E in F.
    transitivity (k12_sub (k12_add (k12_frob1 k12_0) (k12_frob1 k12_0)) (k12_frob1 k12_0)); [ring|]. rewrite <- F. ring. }
  destruct (k12_dec a k12_0) as [->|Ha]; [destruct (Z b) as (F & A & _); rewrite A, F; ring|].
  destruct (k12_dec b k12_0) as [->|Hb]; [destruct (Z a) as (F & _ & A); rewrite A, F; ring|].
  rewrite <- (k12_frob (k12_mul a b)), <- (k12_frob a), <- (k12_frob b). change a with (upr (u12mk a Ha)). change b with (upr (u12mk b Hb)). pose proof q_pos as Q.
  rewrite u12_A, !u12_pow, u12_A, gm_A by lia. reflexivity.
Qed.
Lemma frob_phi k : k12_frob1 (phi2 k) = phi2 (k2_conj k).
Proof. unfold k12_frob1, phi2, k6_frob1, k12_emb, k6_emb. apply k12_eq; cbn [e0 e1]; apply k6_eq; cbn [d0 d1 d2 k6_0 k6_scale]; try ring; try (assert (k2_conj k2_0 = k2_0) as -> by k2; ring); assert (k2_conj k2_0 = k2_0) as -> by k2; ring. Qed.
(** ** The image of P *)
Definition pX (x : Fq) : K12 := k12_emb (mkFQ6 k2_0 (k2_emb x) k2_0).
Definition pY (y : Fq) : K12 := mkFQ12 k6_0 (mkFQ6 k2_0 (k2_emb y) k2_0).
Lemma conj_emb x : k2_conj (k2_emb x) = k2_emb x. Proof. k2. Qed.
Lemma conj_0 : k2_conj k2_0 = k2_0. Proof. k2. Qed.
Lemma conj_1 : k2_conj k2_1 = k2_1. Proof. k2. Qed.
Definition gX : K2 := k2_mul gam gam.
Definition gY : K2 := k2_mul gam gX.
Ltac cj := repeat match goal with |- context [k2_conj k2_0] => rewrite conj_0 | |- context [k2_conj (k2_emb ?z)] => rewrite (conj_emb z) end.
Ltac k12c := apply k12_eq; cbn [k12_frob1 k6_frob1 k12_mul k12_add k12_sub k12_emb k12_opp k12_0 k12_1 e0 e1]; apply k6_eq;
  cbn [k6_frob1 k6_mul k6_add k6_sub k6_opp k6_scale k6_emb k6_0 k6_1 k6_v d0 d1 d2].
Lemma frob_pX x : k12_frob1 (pX x) = k12_mul (phi2 gX) (pX x).
Proof. unfold pX, phi2, gX. k12c; cj; ring. Qed.
Lemma frob_pY y : k12_frob1 (pY y) = k12_mul (phi2 gY) (pY y).
Proof. unfold pY, phi2, gY, gX. k12c; cj; ring. Qed.
Lemma gam_ne : gam <> k2_0.
Proof.
  intros E. pose proof (frob_mul k12_w k12_w) as F. rewrite <- (k12_frob k12_w) in F. rewrite w_q, E in F.
  assert (k12_mul (k12_mul (k12_emb (k6_emb k2_0)) k12_w) (k12_mul (k12_emb (k6_emb k2_0)) k12_w) = k12_0) as Z by (change (k12_emb (k6_emb k2_0)) with k12_0; ring).
  rewrite Z in F. rewrite k12_w2 in F. clear Z.
  assert (k12_emb k6_v <> k12_0) as N. { intros X. apply k2_1_ne_0. exact (f_equal (fun z => d1 (e0 z)) X). }
  pose proof (frob_mul (k12_emb k6_v) (k12_inv (k12_emb k6_v))) as M. rewrite F in M.
  assert (k12_mul (k12_emb k6_v) (k12_inv (k12_emb k6_v)) = k12_1) as I. { transitivity (k12_mul (k12_inv (k12_emb k6_v)) (k12_emb k6_v)); [ring|apply k12_inv_l, N]. }
  rewrite I, frob_1 in M. apply k12_1_ne_0. rewrite M. ring.
Qed.
Lemma gX_ne : gX <> k2_0. Proof. apply k2_mul_ne; apply gam_ne. Qed.
Lemma gY_ne : gY <> k2_0. Proof. apply k2_mul_ne; [apply gam_ne|apply gX_ne]. Qed.
Lemma gXY : k2_mul gY gY = k2_mul (k2_mul gX gX) gX. Proof. unfold gY, gX. ring. Qed.
Lemma b2_xi : b2 = k2_mul (k2_emb (z2q 4)) k2_xi.
Proof. unfold b2. apply k2_eq; cbn [k2_mul k2_emb k2_xi c0 c1]; ring. Qed.
Lemma frob_cube g x V : phi2 x = k12_mul V (k12_mul V V) -> k12_frob1 V = k12_mul (phi2 g) V -> k12_frob1 (phi2 x) = phi2 (k2_mul (k2_mul (k2_mul g g) g) x).
Proof.
  intros E F. rewrite (phi2_mul (k2_mul (k2_mul g g) g) x), (phi2_mul (k2_mul g g) g), (phi2_mul g g), E.
  rewrite (frob_mul V (k12_mul V V)), (frob_mul V V), F. ring. Qed.
Lemma conj_xi : k2_conj k2_xi = k2_mul (k2_mul gY gY) k2_xi.
Proof.
  pose proof (frob_mul k12_w k12_w) as F. rewrite <- (k12_frob k12_w), w_q, k12_w2 in F.
  assert (k12_frob1 (k12_emb k6_v) = k12_mul (phi2 gX) (k12_emb k6_v)) as F2.
  { rewrite F. rewrite <- k12_w2. unfold gX. rewrite phi2_mul. unfold phi2. ring. }
  assert (phi2 k2_xi = k12_mul (k12_emb k6_v) (k12_mul (k12_emb k6_v) (k12_emb k6_v))) as E3 by (unfold phi2; rewrite <- k6_v3, !k12_emb_mul; reflexivity).
  assert (phi2 (k2_conj k2_xi) = phi2 (k2_mul (k2_mul gY gY) k2_xi)) as E.
  { transitivity (k12_frob1 (phi2 k2_xi)); [symmetry; apply frob_phi|]. rewrite gXY. exact (frob_cube _ _ _ E3 F2). }
  exact (f_equal (fun z => d0 (e0 z)) E).
Qed.
Lemma conj_b2 : k2_conj b2 = k2_mul (k2_mul gY gY) b2.
Proof. rewrite b2_xi, k2_conj_mul, (conj_emb (z2q 4)), conj_xi. ring. Qed.
(** points of E whose image is a good evaluation point *)
Lemma pXY x y : fmul y y = fadd (fmul (fmul x x) x) b1 -> k12_mul (pY y) (pY y) = k12_add (k12_mul (k12_mul (pX x) (pX x)) (pX x)) (phi2 b2).
Proof.
  intros H. assert (k2_mul (k2_emb y) (k2_emb y) = k2_add (k2_mul (k2_mul (k2_emb x) (k2_emb x)) (k2_emb x)) (k2_emb b1)) as H2 by (rewrite <- !k2_emb_mul, <- k2_emb_add, H; reflexivity).
  unfold pX, pY, phi2. rewrite b2_xi. fold b1. k12c; try ring.
  transitivity (k2_mul k2_xi (k2_mul (k2_emb y) (k2_emb y))); [ring|]. rewrite H2. ring.
Qed.
Lemma pX_ne x a : x <> q0 -> k12_sub (pX x) (phi2 a) <> k12_0.
Proof.
  intros Hx E. apply Hx. apply (f_equal e0) in E. apply (f_equal d1) in E. apply (f_equal c0) in E.
  change (fsub x q0 = q0) in E. rewrite <- E. ring.
Qed.
Lemma pX_emb x a : k12_sub (pX x) (phi2 a) = k12_emb (k6_sub (mkFQ6 k2_0 (k2_emb x) k2_0) (k6_emb a)).
Proof. unfold pX, phi2. k12c; ring. Qed.
Lemma pX_eps x a : x <> q0 -> eps (k12_sub (pX x) (phi2 a)) = gO.
Proof.
  intros Hx. rewrite (pX_emb x a). apply eps_6. intros E. apply Hx. apply (f_equal d1) in E. apply (f_equal c0) in E.
  change (fsub x q0 = q0) in E. rewrite <- E. ring.
Qed.
Definition lpt (x y : Fq) (l n : K2) : K12 := mkFQ12 (mkFQ6 (k2_opp n) (k2_opp (k2_mul l (k2_emb x))) k2_0) (mkFQ6 k2_0 (k2_emb y) k2_0).
Lemma lpt_eq x y l n : k12_sub (k12_sub (pY y) (k12_mul (phi2 l) (pX x))) (phi2 n) = lpt x y l n.
Proof. unfold pX, pY, phi2, lpt. k12c; ring. Qed.
Lemma lpt_ne x y l n : y <> q0 -> lpt x y l n <> k12_0.
Proof. intros Hy E. apply Hy. apply (f_equal e1) in E. apply (f_equal d1) in E. exact (f_equal c0 E). Qed.
Lemma good_of x y : fmul y y = fadd (fmul (fmul x x) x) b1 -> x <> q0 -> y <> q0 -> goodpt E2 FldQ12 phi2 U12 eps (pX x) (pY y).
Proof.
  intros H Hx Hy.
  exact (Build_goodpt E2 FldQ12 phi2 U12 eps (pX x) (pY y) (pXY x y H) (fun a => pX_ne x a Hx) (fun a => pX_eps x a Hx)
    (fun l n => eq_ind_r (fun z => z <> k12_0) (lpt_ne x y l n Hy) (lpt_eq x y l n))).
Qed.
