(** The pairing computed by the code is bilinear on the subgroups of prime order. *)
Require Import ZArith Lia Bool List Ring Field Znumtheory.
From Verif Require Import Words ModelRepr ModelFq ModelOps ModelTower ModelCurve ModelPairing NumTheory Primality Fp FpOps FqProofs FqProofs2 FqInverse FqRel FqMisc Loops ZInst TwoPow Ext ExtFrob TowerProofs Fld AbGrp EcGroup EcJac EcMul Curves FinExp Miller PairBasic LineIdeal Cocycle Recip BilinBase MillerVal.
Import ListNotations.
Open Scope Z_scope.
#[global] Opaque eps finE.

(** ** psi on the twist *)
Definition psi2 : EC E2 -> EC E2 := epsi E2 k2_conj gX gY k2_conj_add k2_conj_mul gX_ne gY_ne gXY conj_b2.
Lemma psi2_hom : hom psi2.
Proof. exact (epsi_hom E2 k2_conj gX gY conj_1 k2_conj_add k2_conj_mul gX_ne gY_ne gXY conj_b2). Qed.
(** the points Q of order dividing r with psi Q = -xT Q *)
Definition Q2 (A : EC E2) : Prop := gm r A = gO /\ gm xT A = gN (psi2 A).
Lemma Q2_O : Q2 gO. Proof. split; [apply gm_O|]. rewrite gm_O, (hom_O psi2 psi2_hom), gN_0. reflexivity. Qed.
Lemma Q2_A A B : Q2 A -> Q2 B -> Q2 (gA A B).
Proof. intros [A1 A2] [B1 B2]. split; [rewrite gm_A, A1, B1; apply gA_0_l|]. rewrite gm_A, A2, B2, (hom_A _ psi2_hom), gN_A. reflexivity. Qed.
Lemma Q2_N A : Q2 A -> Q2 (gN A).
Proof. intros [A1 A2]. split; [rewrite gm_N, A1; apply gN_0|]. rewrite gm_N, A2, (hom_N psi2 psi2_hom). reflexivity. Qed.
Lemma Q2_gm k A : Q2 A -> Q2 (gm k A).
Proof.
  intros [A1 A2]. split; [rewrite <- gm_mul, Z.mul_comm, gm_mul, A1; apply gm_O|].
  rewrite <- gm_mul, Z.mul_comm, gm_mul, A2, (hom_gm psi2 psi2_hom), gm_N. reflexivity.
Qed.
Lemma Q2_psi A : Q2 A -> Q2 (psi2 A).
Proof. intros H. pose proof (Q2_N _ (Q2_gm xT A H)) as Z. destruct H as [_ H]. rewrite H, gN_N in Z. exact Z. Qed.
(** ** A line of E, moved to the twist *)
Definition pL (l : Fq) : K12 := mkFQ12 k6_0 (mkFQ6 (k2_emb l) k2_0 k2_0).
Lemma emb_opp a : k2_emb (fopp a) = k2_opp (k2_emb a). Proof. k2. Qed.
Lemma c_line l n x y : y = fadd (fmul l x) n -> pY y = k12_add (k12_mul (pL l) (pX x)) (pY n).
Proof. intros ->. unfold pY, pL, pX. k12c; rewrite ?k2_emb_add, ?k2_emb_mul; ring. Qed.
Lemma c_s1 l x1 x2 x3 : fadd (fadd x1 x2) x3 = fmul l l -> k12_add (k12_add (pX x1) (pX x2)) (pX x3) = k12_mul (pL l) (pL l).
Proof.
  intros H. assert (k2_mul (k2_emb l) (k2_emb l) = k2_add (k2_add (k2_emb x1) (k2_emb x2)) (k2_emb x3)) as H2 by (rewrite <- !k2_emb_mul, <- !k2_emb_add, H; reflexivity).
  unfold pL, pX. k12c; try ring. transitivity (k2_mul (k2_emb l) (k2_emb l)); [rewrite H2; ring|ring].
Qed.
Lemma c_s2 l n x1 x2 x3 : fadd (fadd (fmul x1 x2) (fmul x1 x3)) (fmul x2 x3) = fopp (fmul (fadd q1 q1) (fmul l n)) ->
  k12_add (k12_add (k12_mul (pX x1) (pX x2)) (k12_mul (pX x1) (pX x3))) (k12_mul (pX x2) (pX x3)) = k12_opp (k12_mul (k12_add k12_1 k12_1) (k12_mul (pL l) (pY n))).
Proof.
  intros H. apply (f_equal k2_emb) in H. rewrite emb_opp, !k2_emb_add, !k2_emb_mul, k2_emb_add in H. change (k2_emb q1) with k2_1 in H.
  unfold pL, pX, pY. k12c; try ring.
  transitivity (k2_opp (k2_mul (k2_add k2_1 k2_1) (k2_mul (k2_emb l) (k2_emb n)))); [rewrite <- H; ring|ring].
Qed.
Lemma c_s3 n x1 x2 x3 : fmul (fmul x1 x2) x3 = fsub (fmul n n) b1 -> k12_mul (k12_mul (pX x1) (pX x2)) (pX x3) = k12_sub (k12_mul (pY n) (pY n)) (phi2 b2).
Proof.
  intros H. assert (k2_mul (k2_mul (k2_emb x1) (k2_emb x2)) (k2_emb x3) = k2_sub (k2_mul (k2_emb n) (k2_emb n)) (k2_emb b1)) as H2.
  { rewrite <- !k2_emb_mul, H. k2. }
  unfold pX, pY, phi2. rewrite b2_xi. fold b1. k12c; try ring.
  transitivity (k2_mul k2_xi (k2_mul (k2_mul (k2_emb x1) (k2_emb x2)) (k2_emb x3))); [ring|]. rewrite H2. ring.
Qed.
Lemma frob_pL l : k12_frob1 (pL l) = k12_mul (phi2 gam) (pL l).
Proof. unfold pL, phi2. k12c; cj; ring. Qed.
Lemma gYX : k2_div gY gX = gam.
Proof. unfold gY. unfold k2_div. transitivity (k2_mul gam (k2_mul (k2_inv gX) gX)); [ring|]. rewrite (k2_inv_l _ gX_ne). ring. Qed.
Lemma frob_pL' l : k12_frob1 (pL l) = k12_mul (phi2 (k2_div gY gX)) (pL l).
Proof. rewrite gYX. apply frob_pL. Qed.
(** its value at a point of the twist *)
Lemma h_ne x y l n : y <> k2_0 -> k12_sub (k12_sub (phi2 y) (k12_mul (pL l) (phi2 x))) (pY n) <> k12_0.
Proof.
  intros Hy E. apply Hy. apply (f_equal (fun z => d0 (e0 z))) in E. unfold phi2, pL, pY in E. cbn [k12_sub k12_mul k12_emb k12_0 e0 e1 k6_v k6_sub k6_mul k6_add k6_emb k6_0 d0 d1 d2] in E.
  etransitivity; [|exact E]. ring.
Qed.
Lemma h_v x y l n : let a := k12_add (k12_mul (pL l) (phi2 x)) (pY n) in
  k12_sub (k12_mul a a) (k12_mul (phi2 y) (phi2 y)) <> k12_0 -> eps (k12_sub (k12_mul a a) (k12_mul (phi2 y) (phi2 y))) = gO.
Proof.
  cbv zeta. set (s := k12_sub _ _). assert (s = k12_emb (e0 s)) as E.
  { unfold s, pL, pY, phi2. k12c; try ring. }
  clearbody s. intros N. rewrite E. apply eps_6. intros Z. apply N. rewrite E, Z. reflexivity.
Qed.
(** ** Three points on a line *)
Lemma r_xq : (r | xT + q). Proof. exists ((xT + q) / r). vm_compute. reflexivity. Qed.
Lemma eps_xq z : gm (xT + q) (eps z) = gO.
Proof. apply (gm_divide r); [apply eps_r|exact r_xq]. Qed.
Lemma ord1_y (E : Curve) (A : EC E) x y : gm r A = gO -> epr E A = Pt x y -> y <> 0%F.
Proof.
  intros HA EA. assert (A <> gO) as N by (intros ->; discriminate EA). pose proof r_gt as RG.
  destruct (ord_fin E A HA N 1 ltac:(lia)) as (x' & y' & E' & Ny). rewrite gm_1, EA in E'. injection E' as <- <-. exact Ny.
Qed.
Section Ord3.
Context (E : Curve) (P : EC E) (y : E).
Add Field KF10 : (fTh E).
Lemma ord3 : epr E P = Pt 0%F y -> y <> 0%F -> gm 3 P = gO.
Proof.
  intros EP Ny. replace 3 with (2 + 1) by lia. rewrite gm_add, gm_1. replace (gm 2 P) with (gN P); [apply gA_N_l|]. rewrite gm_2. apply ec_eq. rewrite epr_N, epr_A, EP.
  rewrite pplus_slope. unfold slope. destruct (fDec 0%F 0%F) as [_|]; [|congruence]. destruct (fDec y y) as [_|]; [|congruence]. destruct (fDec y 0%F); [contradiction|].
  pose proof (c2_ne E). cbn [pneg chord]. unfold chord. f_equal; field; split; assumption.
Qed.
End Ord3.
Lemma ord1_x (P : EC E1) x y : gm r P = gO -> epr E1 P = Pt x y -> x <> q0.
Proof.
  intros HP EP X0. pose proof (ord1_y E1 P x y HP EP) as Ny. assert (P <> gO) as N by (intros ->; discriminate EP).
  subst x. pose proof (ord3 E1 P y EP Ny) as Z3.
  apply (gm_prime_order r 3 P prime_r HP N) in Z3. apply Z.divide_pos_le in Z3; [|lia]. pose proof r_gt. lia.
Qed.
Lemma hval_ne l n A : Q2 A -> hval E2 FldQ12 phi2 (pL l) (pY n) (epr E2 A) <> k12_0.
Proof.
  intros [H _]. destruct (epr E2 A) as [|x y] eqn:EA; cbn [hval]; [exact k12_1_ne_0|].
  exact (h_ne x y l n (ord1_y E2 A x y H EA)).
Qed.
Definition on1 (x y : Fq) : Prop := fmul y y = fadd (fmul (fmul x x) x) b1.
Section Three.
Context (x1 y1 x2 y2 x3 y3 l n : Fq).
Context (C1 : on1 x1 y1) (C2 : on1 x2 y2) (C3 : on1 x3 y3) (X1 : x1 <> q0) (X2 : x2 <> q0) (X3 : x3 <> q0) (Y1 : y1 <> q0) (Y2 : y2 <> q0) (Y3 : y3 <> q0).
Context (L1 : y1 = fadd (fmul l x1) n) (L2 : y2 = fadd (fmul l x2) n) (L3 : y3 = fadd (fmul l x3) n).
Context (S1 : fadd (fadd x1 x2) x3 = fmul l l) (S2 : fadd (fadd (fmul x1 x2) (fmul x1 x3)) (fmul x2 x3) = fopp (fmul (fadd q1 q1) (fmul l n))) (S3 : fmul (fmul x1 x2) x3 = fsub (fmul n n) b1).
Lemma three_mil Q X Y : Q2 Q -> epr E2 Q = Pt X Y -> gA (eps (mval (it_of x1 y1 X Y))) (gA (eps (mval (it_of x2 y2 X Y))) (eps (mval (it_of x3 y3 X Y)))) = gO.
Proof.
  intros HQ EQ. assert (Q <> gO) as NQ by (intros ->; discriminate EQ). destruct HQ as [HQ1 HQ2].
  rewrite (proj2 (mval_mil x1 y1 C1 X1 Y1 Q HQ1 NQ X Y EQ)), (proj2 (mval_mil x2 y2 C2 X2 Y2 Q HQ1 NQ X Y EQ)), (proj2 (mval_mil x3 y3 C3 X3 Y3 Q HQ1 NQ X Y EQ)).
  exact (recip_mil_psi E2 FldQ12 phi2 U12 eps phi2_1 phi2_add phi2_mul eps_mul eps_2 k2_conj gX gY q k2_conj_add k2_conj_mul gX_ne gY_ne gXY conj_b2
    k12_frob1 frob_add frob_1 frob_mul frob_phi eps_frob (pX x1) (pY y1) (pX x2) (pY y2) (pX x3) (pY y3) (pL l) (pY n) _ _ _
    (c_line l n x1 y1 L1) (c_line l n x2 y2 L2) (c_line l n x3 y3 L3) (c_s1 l x1 x2 x3 S1) (c_s2 l n x1 x2 x3 S2) (c_s3 n x1 x2 x3 S3)
    Q2 Q2_A Q2_N (hval_ne l n) (fun x y => h_v x y l n) (frob_pL' l) (frob_pY n) Q2_O Q xT (conj HQ1 HQ2) (Q2_psi Q (conj HQ1 HQ2)) ltac:(discriminate) HQ2 (eps_xq _)).
Qed.
End Three.
(** ** The pairing on points *)
Definition epair (P : EC E1) (Q : EC E2) : U12 := match epr E1 P, epr E2 Q with Pt x y, Pt X Y => eps (pmil x y X Y) | _, _ => gO end.
Definition T1 (P : EC E1) : Prop := gm r P = gO.
Lemma eps_conj z : z <> k12_0 -> eps (k12_conj z) = gN (eps z).
Proof.
  intros H. rewrite (eps_umk z H). change z with (upr (u12mk z H)) at 1. rewrite u12_conj, eps_u, <- gm_mul, Z.mul_comm, gm_mul.
  apply gN_unique. rewrite <- gm_succ. apply finE_cyc.
Qed.
Lemma epr_on1 (P : EC E1) x y : epr E1 P = Pt x y -> on1 x y.
Proof. intros EP. pose proof (epr_on E1 P) as O. rewrite EP in O. exact O. Qed.
Lemma mval_ne (P : EC E1) (Q : EC E2) x y X Y : T1 P -> Q2 Q -> epr E1 P = Pt x y -> epr E2 Q = Pt X Y -> mval (it_of x y X Y) <> k12_0.
Proof.
  intros HP [HQ _] EP EQ. assert (Q <> gO) as NQ by (intros ->; discriminate EQ).
  exact (proj1 (mval_mil x y (epr_on1 P x y EP) (ord1_x P x y HP EP) (ord1_y E1 P x y HP EP) Q HQ NQ X Y EQ)).
Qed.
Lemma pmil_ne (P : EC E1) (Q : EC E2) x y X Y : T1 P -> Q2 Q -> epr E1 P = Pt x y -> epr E2 Q = Pt X Y -> pmil x y X Y <> k12_0.
Proof.
  intros HP HQ EP EQ E. apply (mval_ne P Q x y X Y HP HQ EP EQ). unfold pmil in E.
  assert (forall z, k12_conj (k12_conj z) = z) as CC by (intros z; apply k12_eq; cbn [k12_conj e0 e1]; [reflexivity|ring]).
  rewrite <- (CC (mval _)), E. apply k12_eq; cbn [k12_conj k12_0 e0 e1]; [reflexivity|ring].
Qed.
Lemma epair_eval P Q x y X Y : T1 P -> Q2 Q -> epr E1 P = Pt x y -> epr E2 Q = Pt X Y -> epair P Q = gN (eps (mval (it_of x y X Y))).
Proof. intros HP HQ EP EQ. unfold epair. rewrite EP, EQ. unfold pmil. apply eps_conj. exact (mval_ne P Q x y X Y HP HQ EP EQ). Qed.
Lemma epair_O_l Q : epair gO Q = gO. Proof. unfold epair. rewrite epr_O. reflexivity. Qed.
Lemma epair_O_r P : epair P gO = gO. Proof. unfold epair. rewrite epr_O. destruct (epr E1 P); reflexivity. Qed.
Lemma T1_A P P' : T1 P -> T1 P' -> T1 (gA P P'). Proof. unfold T1. intros H H'. rewrite gm_A, H, H'. apply gA_0_l. Qed.
Lemma T1_N P : T1 P -> T1 (gN P). Proof. unfold T1. intros H. rewrite gm_N, H. apply gN_0. Qed.
Lemma T1_O : T1 gO. Proof. apply gm_O. Qed.
Lemma T1_gm k P : T1 P -> T1 (gm k P). Proof. unfold T1. intros H. rewrite <- gm_mul, Z.mul_comm, gm_mul, H. apply gm_O. Qed.
Theorem epair_N_l P Q : T1 P -> Q2 Q -> epair (gN P) Q = gN (epair P Q).
Proof.
  intros HP HQ. destruct (epr E1 P) as [|x y] eqn:EP; [assert (P = gO) as -> by (apply ec_eq; exact EP); rewrite gN_0, epair_O_l, gN_0; reflexivity|].
  destruct (epr E2 Q) as [|X Y] eqn:EQ; [assert (Q = gO) as -> by (apply ec_eq; exact EQ); rewrite !epair_O_r, gN_0; reflexivity|].
  assert (epr E1 (gN P) = Pt x (fopp y)) as EN by (rewrite epr_N, EP; reflexivity).
  rewrite (epair_eval _ _ _ _ _ _ (T1_N P HP) HQ EN EQ), (epair_eval _ _ _ _ _ _ HP HQ EP EQ), (mval_conj x y X Y), eps_conj by exact (mval_ne P Q x y X Y HP HQ EP EQ). reflexivity.
Qed.
Lemma chord_alg (x1 y1 x2 y2 l : Fq) : y2 = fadd y1 (fmul l (fsub x2 x1)) ->
  fmul (fadd q1 q1) (fmul l (fsub y1 (fmul l x1))) = fopp (fadd (fadd (fmul x1 x2) (fmul x1 (fsub (fsub (fmul l l) x1) x2))) (fmul x2 (fsub (fsub (fmul l l) x1) x2))) ->
  fsub (fmul (fsub y1 (fmul l x1)) (fsub y1 (fmul l x1))) b1 = fmul (fmul x1 x2) (fsub (fsub (fmul l l) x1) x2) ->
  exists x3 n, y1 = fadd (fmul l x1) n /\ y2 = fadd (fmul l x2) n /\ fadd (fadd x1 x2) x3 = fmul l l /\
    fadd (fadd (fmul x1 x2) (fmul x1 x3)) (fmul x2 x3) = fopp (fmul (fadd q1 q1) (fmul l n)) /\ fmul (fmul x1 x2) x3 = fsub (fmul n n) b1 /\
    Pt (K := FldQ) (fsub (fsub (fmul l l) x1) x2) (fopp (fsub (fmul l (fsub x1 (fsub (fsub (fmul l l) x1) x2))) y1)) = Pt (K := FldQ) x3 (fadd (fmul l x3) n).
Proof.
  intros Ey R2 R3. exists (fsub (fsub (fmul l l) x1) x2), (fsub y1 (fmul l x1)). split; [ring|]. split; [rewrite Ey; ring|]. split; [ring|]. split; [rewrite R2; ring|]. split; [symmetry; exact R3|].
  f_equal. change (fopp (fsub (fmul l (fsub x1 (fsub (fsub (fmul l l) x1) x2))) y1) = fadd (fmul l (fsub (fsub (fmul l l) x1) x2)) (fsub y1 (fmul l x1))). ring.
Qed.
Local Strategy 1000 [fmul fadd fsub fopp].
Theorem epair_A_l P P' Q : T1 P -> T1 P' -> Q2 Q -> epair (gA P P') Q = gA (epair P Q) (epair P' Q).
Proof.
  intros HP HP' HQ.
  destruct (epr E2 Q) as [|X Y] eqn:EQ; [assert (Q = gO) as -> by (apply ec_eq; exact EQ); rewrite !epair_O_r, gA_0_l; reflexivity|].
  destruct (epr E1 P) as [|x1 y1] eqn:EP; [assert (P = gO) as -> by (apply ec_eq; exact EP); rewrite gA_0_l, epair_O_l, gA_0_l; reflexivity|].
  destruct (epr E1 P') as [|x2 y2] eqn:EP'; [assert (P' = gO) as -> by (apply ec_eq; exact EP'); rewrite gA_0_r, epair_O_l, gA_0_r; reflexivity|].
  pose proof (epr_on1 _ _ _ EP) as C1. pose proof (epr_on1 _ _ _ EP') as C2.
  destruct (slope FldQ x1 y1 x2 y2) as [l|] eqn:SL.
  - destruct (slope_some FldQ b1 (c2_ne E1) _ _ _ _ _ C1 C2 SL) as [Ey L2]. destruct (line_roots FldQ b1 l x1 y1 x2 y2 C1 Ey L2) as [R2 R3].
    change (fmul (fadd q1 q1) (fmul l (fsub y1 (fmul l x1))) = fopp (fadd (fadd (fmul x1 x2) (fmul x1 (fsub (fsub (fmul l l) x1) x2))) (fmul x2 (fsub (fsub (fmul l l) x1) x2)))) in R2.
    change (fsub (fmul (fsub y1 (fmul l x1)) (fsub y1 (fmul l x1))) b1 = fmul (fmul x1 x2) (fsub (fsub (fmul l l) x1) x2)) in R3.
    change (y2 = fadd y1 (fmul l (fsub x2 x1))) in Ey.
    pose proof (chord_alg x1 y1 x2 y2 l Ey R2 R3) as CA. clear Ey R2 R3 L2. destruct CA as (x3 & n & LL1 & LL2 & SS1 & SS2 & SS3 & PP).
    assert (epr E1 (gN (gA P P')) = Pt x3 (fadd (fmul l x3) n)) as EN.
    { assert (epr E1 (gA P P') = chord FldQ x1 y1 x2 l) as EA by (rewrite epr_A, EP, EP'; change (cK E1) with FldQ; rewrite pplus_slope, SL; reflexivity).
      rewrite epr_N, EA. exact PP. }
    pose proof (T1_N _ (T1_A _ _ HP HP')) as HN.
    pose proof (three_mil x1 y1 x2 y2 x3 (fadd (fmul l x3) n) l n C1 C2 (epr_on1 _ _ _ EN) (ord1_x _ _ _ HP EP) (ord1_x _ _ _ HP' EP') (ord1_x _ _ _ HN EN)
      (ord1_y E1 _ _ _ HP EP) (ord1_y E1 _ _ _ HP' EP') (ord1_y E1 _ _ _ HN EN) LL1 LL2 eq_refl SS1 SS2 SS3 Q X Y HQ EQ) as M.
    rewrite <- (gN_N (gA P P')), (epair_N_l _ _ HN HQ), (epair_eval _ _ _ _ _ _ HN HQ EN EQ), (epair_eval _ _ _ _ _ _ HP HQ EP EQ), (epair_eval _ _ _ _ _ _ HP' HQ EP' EQ), gN_N, <- gN_A.
    rewrite gA_assoc in M. apply gN_unique. exact M.
  - destruct (slope_none FldQ b1 _ _ _ _ C1 C2 SL) as [EX EY]. assert (P' = gN P) as -> by (apply ec_eq; rewrite epr_N, EP, EP', EX, EY; reflexivity).
    rewrite gA_N_r, epair_O_l, (epair_N_l _ _ HP HQ), gA_N_r. reflexivity.
Qed.
Local Strategy 0 [fmul fadd fsub fopp].
Theorem epair_A_r P Q Q' : T1 P -> Q2 Q -> Q2 Q' -> epair P (gA Q Q') = gA (epair P Q) (epair P Q').
Proof.
  intros HP HQ HQ'. destruct (epr E1 P) as [|x y] eqn:EP; [assert (P = gO) as -> by (apply ec_eq; exact EP); rewrite !epair_O_l, gA_0_l; reflexivity|].
  pose proof (epr_on1 _ _ _ EP) as C. pose proof (ord1_x _ _ _ HP EP) as Nx. pose proof (ord1_y E1 _ _ _ HP EP) as Ny.
  set (m := mil (cc E2 FldQ12 phi2 U12 eps (pX x) (pY y)) (gp_co E2 FldQ12 phi2 U12 eps phi2_1 phi2_add phi2_mul eps_mul eps_2 (pX x) (pY y) (good_of x y C Nx Ny)) xT).
  assert (forall A, Q2 A -> epair P A = gN (m A)) as EM.
  { intros A HA. destruct (epr E2 A) as [|X Y] eqn:EA; [assert (A = gO) as -> by (apply ec_eq; exact EA); rewrite epair_O_r; unfold m; rewrite mil_O, gN_0; reflexivity|].
    rewrite (epair_eval _ _ _ _ _ _ HP HA EP EA). assert (A <> gO) as NA by (intros ->; discriminate EA).
    rewrite (proj2 (mval_mil x y C Nx Ny A (proj1 HA) NA X Y EA)). reflexivity. }
  rewrite !EM by (try apply Q2_A; assumption). rewrite <- gN_A. apply f_equal. unfold m.
  exact (mil_psi_add E2 FldQ12 phi2 U12 eps phi2_1 phi2_add phi2_mul eps_mul eps_2 k2_conj gX gY q conj_1 k2_conj_add k2_conj_mul gX_ne gY_ne gXY conj_b2
    k12_frob1 frob_add frob_mul frob_phi eps_frob (pX x) (pY y) (good_of x y C Nx Ny) Q Q' xT (frob_pX x) (frob_pY y) (proj2 HQ) (proj2 HQ') (eps_xq _)).
Qed.
Lemma epair_N_r P Q : T1 P -> Q2 Q -> epair P (gN Q) = gN (epair P Q).
Proof. intros HP HQ. apply gN_unique. rewrite <- epair_A_r, gA_N_r, epair_O_r by (try apply Q2_N; assumption). reflexivity. Qed.
Theorem epair_gm_l k P Q : T1 P -> Q2 Q -> epair (gm k P) Q = gm k (epair P Q).
Proof.
  intros HP HQ. assert (forall n, epair (gm (Z.of_nat n) P) Q = gm (Z.of_nat n) (epair P Q)) as H.
  { induction n as [|n IH]; [apply epair_O_l|]. rewrite !gm_succ_nat, epair_A_l, IH by (try apply T1_gm; assumption). reflexivity. }
  destruct (Z_le_gt_dec 0 k) as [Hk|Hk]; [rewrite <- (Z2Nat.id k Hk); apply H|]. replace k with (- Z.of_nat (Z.to_nat (- k))) by lia.
  rewrite !gm_opp, epair_N_l, H by (try apply T1_gm; assumption). reflexivity.
Qed.
Theorem epair_gm_r k P Q : T1 P -> Q2 Q -> epair P (gm k Q) = gm k (epair P Q).
Proof.
  intros HP HQ. assert (forall n, epair P (gm (Z.of_nat n) Q) = gm (Z.of_nat n) (epair P Q)) as H.
  { induction n as [|n IH]; [apply epair_O_r|]. rewrite !gm_succ_nat, epair_A_r, IH by (try apply Q2_gm; assumption). reflexivity. }
  destruct (Z_le_gt_dec 0 k) as [Hk|Hk]; [rewrite <- (Z2Nat.id k Hk); apply H|]. replace k with (- Z.of_nat (Z.to_nat (- k))) by lia.
  rewrite !gm_opp, epair_N_r, H by (try apply Q2_gm; assumption). reflexivity.
Qed.
(** the code *)
Theorem Pairing_epair p Qc (P : EC E1) (Q : EC E2) : repj FldQ p = epr E1 P -> repj FldQ2 Qc = epr E2 Q -> T1 P -> Q2 Q -> P <> gO -> Q <> gO ->
  Pairing FpB p Qc = Some (upr (epair P Q)).
Proof.
  intros E1' E2' HP HQ NP NQ. destruct (epr E1 P) as [|x y] eqn:EP; [exfalso; apply NP, ec_eq; exact EP|].
  destruct (epr E2 Q) as [|X Y] eqn:EQ; [exfalso; apply NQ, ec_eq; exact EQ|].
  rewrite (Pairing_fin _ _ _ _ _ _ E1' E2'). pose proof (pmil_ne P Q x y X Y HP HQ EP EQ) as N.
  unfold epair. rewrite EP, EQ, (eps_umk _ N). exact (FinalExponentiation_spec (u12mk _ N)).
Qed.
