(** How the Miller functions of Cocycle.v behave under the Frobenius-twist endomorphism psi of E, and how they depend
    on the evaluation point (line reciprocity). *)
Require Import ZArith Lia Bool List Ring Field Setoid Morphisms.
From Verif Require Import Fp Fld Poly EcIdeal EcGroup AbGrp EcMul LineIdeal Cocycle.
Import ListNotations.
Open Scope Z_scope.

Section Psi.
Context (E : Curve) (L : Fld) (phi : E -> L) (G : AbGrp) (eps : L -> G).
Add Field KF7 : (fTh E).
Add Field LF7 : (fTh L).
Hypothesis phi_1 : (phi 1 = 1)%F.
Hypothesis phi_add : forall x y, (phi (x + y) = phi x + phi y)%F.
Hypothesis phi_mul : forall x y, (phi (x * y) = phi x * phi y)%F.
Hypothesis eps_mul : forall a b, a <> 0%F -> b <> 0%F -> eps (a * b)%F = gA (eps a) (eps b).
Hypothesis eps_K : forall k, k <> 0%F -> eps (phi k) = gO.
Notation b := (cb E).
(** points at which lines may be evaluated *)
Record goodpt (X Y : L) : Prop := { gp_on : (Y * Y = X * X * X + phi b)%F; gp_ne : forall a, (X - phi a)%F <> 0%F;
  gp_eps : forall a, eps (X - phi a)%F = gO; gp_L : forall l n, (Y - phi l * X - phi n)%F <> 0%F }.
Notation ccp X Y := (cc E L phi G eps X Y).
Lemma gp_co X Y : goodpt X Y -> cocycle (ccp X Y).
Proof. intros [H1 H2 H3 H4]. apply cc_cocycle; assumption. Qed.
Let p0 := phi_0 E L phi phi_add.
Let pN := phi_opp E L phi phi_add.
Let pS := phi_sub E L phi phi_add.
Let pne := phi_ne E L phi phi_1 phi_mul.

(** ** psi *)
Context (sigma : E -> E) (gx gy : E) (q : Z).
Hypothesis s_1 : (sigma 1 = 1)%F.
Hypothesis s_add : forall x y, (sigma (x + y) = sigma x + sigma y)%F.
Hypothesis s_mul : forall x y, (sigma (x * y) = sigma x * sigma y)%F.
Hypothesis gx_ne : gx <> 0%F.
Hypothesis gy_ne : gy <> 0%F.
Hypothesis gxy : (gy * gy = gx * gx * gx)%F.
Hypothesis s_b : (sigma b = gy * gy * b)%F.
Let s0 := phi_0 E E sigma s_add.
Let sN := phi_opp E E sigma s_add.
Let sS := phi_sub E E sigma s_add.
Let sne := phi_ne E E sigma s_1 s_mul.
Let sinj := phi_inj E E sigma s_1 s_add s_mul.
Definition psi (P : pt E) : pt E := match P with Inf => Inf | Pt x y => Pt (sigma x / gx)%F (sigma y / gy)%F end.
Lemma on_psi P : on E b P -> on E b (psi P).
Proof.
  destruct P as [|x y]; cbn [on psi]; [auto|]. intros H. apply (f_equal sigma) in H. rewrite s_add, !s_mul, s_b in H.
  transitivity ((sigma y * sigma y) / (gy * gy))%F; [field; auto|]. rewrite H. transitivity ((sigma x * sigma x * sigma x) / (gy * gy) + b)%F; [field; auto|]. rewrite gxy. field. auto.
Qed.
Definition epsi (P : EC E) : EC E := emk E (psi (epr E P)) (on_psi _ (epr_on E P)).
Lemma div_inj (x y g : E) : g <> 0%F -> (x / g = y / g)%F -> x = y.
Proof. intros Hg H. transitivity (x / g * g)%F; [field; exact Hg|]. rewrite H. field. exact Hg. Qed.
Lemma s_two : sigma (two E) = two E. Proof. unfold two. rewrite s_add, s_1. reflexivity. Qed.
Lemma s_three : sigma (three E) = three E. Proof. unfold three. rewrite !s_add, s_1. reflexivity. Qed.
Lemma slope_psi x1 y1 x2 y2 : slope E (sigma x1 / gx)%F (sigma y1 / gy)%F (sigma x2 / gx)%F (sigma y2 / gy)%F = option_map (fun l => (sigma l * gx / gy)%F) (slope E x1 y1 x2 y2).
Proof.
  pose proof (c2_ne E) as N2. unfold slope. destruct (fDec x1 x2) as [Ex|Nx].
  - subst x2. destruct (fDec (sigma x1 / gx)%F (sigma x1 / gx)%F) as [_|]; [|contradiction]. destruct (fDec y1 y2) as [Ey|Ny].
    + subst y2. destruct (fDec (sigma y1 / gy)%F (sigma y1 / gy)%F) as [_|]; [|contradiction]. destruct (fDec y1 0%F) as [Z|NZ].
      * destruct (fDec (sigma y1 / gy)%F 0%F) as [_|N]; [reflexivity|]. exfalso. apply N. rewrite Z, s0. field. exact gy_ne.
      * destruct (fDec (sigma y1 / gy)%F 0%F) as [Z|_].
        { exfalso. apply (sne _ NZ). transitivity (sigma y1 / gy * gy)%F; [field; exact gy_ne|]. rewrite Z. ring. }
        cbn [option_map]. f_equal. pose proof (sne _ NZ) as SNZ.
        rewrite (phi_div E E sigma s_1 s_mul) by (apply fld_mul_ne; assumption). rewrite !s_mul, s_two, s_three.
        apply (fld_cancel E (gx * gx * gx)%F); [repeat apply fld_mul_ne; assumption|].
        transitivity (gx * (three E * (sigma x1 * sigma x1) / (two E * sigma y1)) * gy)%F; [field; auto|].
        transitivity (gx * (three E * (sigma x1 * sigma x1) / (two E * sigma y1)) * (gx * gx * gx) / gy)%F; [rewrite <- gxy; field; auto|field; auto].
    + destruct (fDec (sigma y1 / gy)%F (sigma y2 / gy)%F) as [Z|_]; [|reflexivity]. exfalso. apply Ny, sinj, (div_inj _ _ gy gy_ne Z).
  - destruct (fDec (sigma x1 / gx)%F (sigma x2 / gx)%F) as [Z|_]; [exfalso; apply Nx, sinj, (div_inj _ _ gx gx_ne Z)|].
    cbn [option_map]. f_equal. assert ((x2 - x1)%F <> 0%F) as Hd by (apply fld_sub_ne; auto).
    assert ((sigma x2 - sigma x1)%F <> 0%F) as Hs by (rewrite <- sS; apply sne, Hd).
    rewrite (phi_div E E sigma s_1 s_mul) by exact Hd. rewrite !sS. field. repeat split; auto.
Qed.
Lemma psi_plus P Q : pplus E (psi P) (psi Q) = psi (pplus E P Q).
Proof.
  destruct P as [|x1 y1]; [reflexivity|]. destruct Q as [|x2 y2]; [reflexivity|]. cbn [psi]. rewrite !pplus_slope, slope_psi.
  destruct (slope E x1 y1 x2 y2) as [l|]; cbn [option_map psi]; [|reflexivity]. unfold chord. cbn [psi].
  assert ((sigma l * gx / gy) * (sigma l * gx / gy) = sigma l * sigma l / gx)%F as E2.
  { apply (fld_cancel E (gy * gy)%F); [apply fld_mul_ne; assumption|]. transitivity (sigma l * sigma l * (gx * gx))%F; [field; auto|]. rewrite gxy. field. auto. }
  rewrite E2. rewrite !sS, !s_mul, !sS, !s_mul. f_equal; field; auto.
Qed.
Lemma epsi_hom : hom (G := EC E) (H := EC E) epsi.
Proof. constructor. intros x y. apply ec_eq. cbn [epr epsi]. symmetry. apply psi_plus. Qed.

(** Frobenius of the big field *)
Context (frob : L -> L).
Hypothesis f_add : forall x y, (frob (x + y) = frob x + frob y)%F.
Hypothesis f_1 : (frob 1 = 1)%F.
Hypothesis f_mul : forall x y, (frob (x * y) = frob x * frob y)%F.
Hypothesis f_phi : forall k, frob (phi k) = phi (sigma k).
Hypothesis f_eps : forall z, z <> 0%F -> eps (frob z) = gm q (eps z).
Let fS := phi_sub L L frob f_add.
Let fne := phi_ne L L frob f_1 f_mul.
Lemma cc_psi X Y A B : goodpt X Y -> (frob X = phi gx * X)%F -> (frob Y = phi gy * Y)%F -> ccp X Y (epsi A) (epsi B) = gm q (ccp X Y A B).
Proof.
  intros [H1 H2 H3 H4] FX FY. unfold cc. cbn [epr epsi]. change (epr E (epsi A)) with (psi (epr E A)). change (epr E (epsi B)) with (psi (epr E B)).
  assert (forall A, eps (evL E L phi X Y (vert E A)) = gO) as V by (intros; eapply vval_eps; eassumption).
  destruct (epr E A) as [|x1 y1]; [cbn [psi lin]; rewrite !V, gm_O; reflexivity|].
  destruct (epr E B) as [|x2 y2]; [cbn [psi lin]; rewrite !V, gm_O; reflexivity|]. cbn [psi lin]. rewrite slope_psi.
  destruct (slope E x1 y1 x2 y2) as [l|]; cbn [option_map]; [|rewrite !evL_xa, !H3, gm_O by assumption; reflexivity].
  rewrite !evL_ln by assumption. rewrite <- f_eps by apply H4.
  transitivity (eps (phi gy * (Y - phi (sigma l * gx / gy) * X - phi (sigma y1 / gy - sigma l * gx / gy * (sigma x1 / gx))))%F).
  { rewrite eps_mul, eps_K, gA_0_l by (try apply H4; try apply pne; assumption). reflexivity. }
  f_equal. rewrite !fS, f_mul, !f_phi, FX, FY, !sS, !s_mul.
  transitivity (phi gy * Y - phi (gy * (sigma l * gx / gy)) * X - phi (gy * (sigma y1 / gy - sigma l * gx / gy * (sigma x1 / gx))))%F; [rewrite !phi_mul; ring|].
  f_equal; [f_equal|]; [|f_equal; field; auto]. transitivity (phi (sigma l * gx) * X)%F; [f_equal; f_equal; field; auto|rewrite phi_mul; ring].
Qed.

(** ** Reciprocity *)
Section Rec.
Context (X1 Y1 X2 Y2 X3 Y3 l' n' : L).
Hypothesis G1 : goodpt X1 Y1.
Hypothesis G2 : goodpt X2 Y2.
Hypothesis G3 : goodpt X3 Y3.
Hypothesis E1 : (Y1 = l' * X1 + n')%F.
Hypothesis E2 : (Y2 = l' * X2 + n')%F.
Hypothesis E3 : (Y3 = l' * X3 + n')%F.
Hypothesis S1 : (X1 + X2 + X3 = l' * l')%F.
Hypothesis S2 : (X1 * X2 + X1 * X3 + X2 * X3 = - ((1 + 1) * (l' * n')))%F.
Hypothesis S3 : (X1 * X2 * X3 = n' * n' - phi b)%F.
Lemma recip_alg l n x1 x2 x3 y1 y2 y3 (bb : L) :
  (X1 * X2 * X3 = n' * n' - bb)%F ->
  (y1 = l * x1 + n)%F -> (y2 = l * x2 + n)%F -> (y3 = l * x3 + n)%F ->
  (x1 + x2 + x3 = l * l)%F -> (x1 * x2 + x1 * x3 + x2 * x3 = - ((1 + 1) * (l * n)))%F -> (x1 * x2 * x3 = n * n - bb)%F ->
  ((Y1 - l * X1 - n) * ((Y2 - l * X2 - n) * (Y3 - l * X3 - n)) = - ((y1 - l' * x1 - n') * ((y2 - l' * x2 - n') * (y3 - l' * x3 - n'))))%F.
Proof.
  intros S3' e1 e2 e3 s1 s2 s3. rewrite E1, E2, E3, e1, e2, e3. clear E1 E2 E3 e1 e2 e3.
  set (a := (l' - l)%F). set (d := (n' - n)%F).
  transitivity (a * a * a * (X1 * X2 * X3) + a * a * d * (X1 * X2 + X1 * X3 + X2 * X3) + a * d * d * (X1 + X2 + X3) + d * d * d)%F; [unfold a, d; ring|].
  transitivity (a * a * a * (x1 * x2 * x3) + a * a * d * (x1 * x2 + x1 * x3 + x2 * x3) + a * d * d * (x1 + x2 + x3) + d * d * d)%F; [|unfold a, d; ring].
  rewrite S1, S2, S3', s1, s2, s3. unfold a, d. ring.
Qed.
(** the value of the line l' at a point of E *)
Definition hval (A : pt E) : L := match A with Inf => 1%F | Pt x y => (phi y - l' * phi x - n')%F end.
Definition hh (A : EC E) : G := eps (hval (epr E A)).
Context (S : EC E -> Prop).
Hypothesis S_add : forall A B, S A -> S B -> S (gA A B).
Hypothesis S_neg : forall A, S A -> S (gN A).
Hypothesis h_ne : forall A, S A -> hval (epr E A) <> 0%F.
Hypothesis h_v : forall x y, ((l' * phi x + n') * (l' * phi x + n') - phi y * phi y <> 0 -> eps ((l' * phi x + n') * (l' * phi x + n') - phi y * phi y) = gO)%F.
Lemma eps_neg z : z <> 0%F -> eps (- z)%F = eps z.
Proof.
  intros H. replace (- z)%F with (phi (- (1)) * z)%F by (rewrite pN, phi_1; ring). rewrite eps_mul, eps_K, gA_0_l; auto.
  - apply fld_opp_ne, fld_1_ne_0.
  - apply pne, fld_opp_ne, fld_1_ne_0.
Qed.
Lemma eps_1' : eps 1%F = gO. Proof. rewrite <- phi_1. apply eps_K, fld_1_ne_0. Qed.
Lemma hh_neg A : S A -> hh (gN A) = gN (hh A).
Proof.
  intros HA. apply gN_unique. pose proof (h_ne A HA) as N1. pose proof (h_ne _ (S_neg A HA)) as N2. unfold hh in *. rewrite epr_N in *.
  rewrite <- eps_mul by assumption. destruct (epr E A) as [|x y]; cbn [pneg hval] in *; [rewrite <- eps_1'; f_equal; ring|].
  transitivity (eps ((l' * phi x + n') * (l' * phi x + n') - phi y * phi y)%F); [f_equal; rewrite pN; ring|]. apply h_v.
  pose proof (fld_mul_ne L _ _ N1 N2) as M. intros Z. apply M. etransitivity; [|exact Z]. rewrite pN. ring.
Qed.
Lemma hh_O : hh gO = gO. Proof. unfold hh. rewrite epr_O. apply eps_1'. Qed.
Theorem recip A B : S A -> S B -> gA (ccp X1 Y1 A B) (gA (ccp X2 Y2 A B) (ccp X3 Y3 A B)) = gA (gA (hh A) (hh B)) (gN (hh (gA A B))).
Proof.
  intros HA HB. rewrite <- hh_neg by auto.
  destruct (epr E A) as [|x1 y1] eqn:EA.
  { assert (A = gO) as -> by (apply ec_eq; exact EA). rewrite !(co_0 _ _ _ (gp_co _ _ G1)), !(co_0 _ _ _ (gp_co _ _ G2)), !(co_0 _ _ _ (gp_co _ _ G3)), !gA_0_l, hh_O, gA_0_l.
    rewrite hh_neg, gA_N_r by auto. reflexivity. }
  destruct (epr E B) as [|x2 y2] eqn:EB.
  { assert (B = gO) as -> by (apply ec_eq; exact EB). rewrite (co_comm _ _ _ (gp_co _ _ G1)), (co_comm _ _ _ (gp_co _ _ G2)), (co_comm _ _ _ (gp_co _ _ G3)).
    rewrite !(co_0 _ _ _ (gp_co _ _ G1)), !(co_0 _ _ _ (gp_co _ _ G2)), !(co_0 _ _ _ (gp_co _ _ G3)), !gA_0_l, hh_O, !gA_0_r.
    rewrite hh_neg, gA_N_r by auto. reflexivity. }
  pose proof (epr_on E A) as CA. rewrite EA in CA. cbn [on] in CA. pose proof (epr_on E B) as CB. rewrite EB in CB. cbn [on] in CB.
  destruct (slope E x1 y1 x2 y2) as [l|] eqn:SL.
  - destruct (slope_some E b (c2_ne E) _ _ _ _ _ CA CB SL) as [Ey L2]. destruct (line_roots E b l x1 y1 x2 y2 CA Ey L2) as [R2 R3].
    set (n := (y1 - l * x1)%F) in *. set (x3 := (l * l - x1 - x2)%F) in *.
    destruct G1 as [A1 B1 C1 D1]. destruct G2 as [A2 B2 C2 D2]. destruct G3 as [A3 B3 C3 D3].
    rewrite (cc_line E L phi G eps phi_1 phi_add phi_mul X1 Y1 A1 x1 y1 x2 y2 l A B EA EB SL).
    rewrite (cc_line E L phi G eps phi_1 phi_add phi_mul X2 Y2 A2 x1 y1 x2 y2 l A B EA EB SL).
    rewrite (cc_line E L phi G eps phi_1 phi_add phi_mul X3 Y3 A3 x1 y1 x2 y2 l A B EA EB SL). fold n.
    rewrite <- !eps_mul by (try apply fld_mul_ne; auto).
    assert (epr E (gN (gA A B)) = Pt x3 (l * x3 + n)%F) as EC'.
    { rewrite epr_N, epr_A, EA, EB, pplus_slope, SL. unfold chord. cbn [pneg]. fold x3. f_equal. unfold n. ring. }
    pose proof (h_ne A HA) as NA. pose proof (h_ne B HB) as NB. pose proof (h_ne _ (S_neg _ (S_add _ _ HA HB))) as NC.
    unfold hh. rewrite EA, EB, EC' in *. cbn [hval] in *.
    rewrite <- gA_assoc. rewrite <- !eps_mul by (try apply fld_mul_ne; auto).
    rewrite <- (eps_neg (_ * (_ * _))%F) by (repeat apply fld_mul_ne; auto). f_equal. symmetry.
    etransitivity; [|apply (f_equal fN); symmetry; apply (recip_alg (phi l) (phi n) (phi x1) (phi x2) (phi x3) (phi y1) (phi y2) (phi (l * x3 + n)%F) (phi b))]; auto.
    + ring.
    + rewrite <- phi_mul, <- phi_add. f_equal. unfold n. ring.
    + rewrite <- phi_mul, <- phi_add. f_equal. rewrite Ey. unfold n. ring.
    + rewrite phi_add, phi_mul. reflexivity.
    + rewrite <- phi_mul, <- !phi_add. f_equal. unfold x3. ring.
    + rewrite <- !phi_mul, <- !phi_add. rewrite <- phi_1, <- phi_add, <- phi_mul, <- pN. f_equal. transitivity (- - (x1 * x2 + x1 * x3 + x2 * x3))%F; [ring|]. rewrite <- R2. unfold two. ring.
    + rewrite <- !phi_mul, <- pS. f_equal. symmetry. exact R3.
  - destruct (slope_none E b _ _ _ _ CA CB SL) as [-> ->]. assert (B = gN A) as -> by (apply ec_eq; rewrite epr_N, EA; exact EB).
    rewrite (co_N _ _ _ (gp_co _ _ G1)), (co_N _ _ _ (gp_co _ _ G2)), (co_N _ _ _ (gp_co _ _ G3)), !gA_0_l.
    rewrite (gA_N_r A), gN_0, hh_O, gA_0_r, hh_neg, gA_N_r by assumption. reflexivity.
Qed.
Lemma S_gm (S_O : S gO) A n : S A -> S (gm (Z.of_nat n) A).
Proof. intros HA. induction n as [|n IH]; [exact S_O|]. rewrite gm_succ_nat. auto. Qed.
Theorem recip_mil (S_O : S gO) A n : S A -> 0 <= n ->
  gA (mil (ccp X1 Y1) (gp_co _ _ G1) n A) (gA (mil (ccp X2 Y2) (gp_co _ _ G2) n A) (mil (ccp X3 Y3) (gp_co _ _ G3) n A)) = gA (gm n (hh A)) (gN (hh (gm n A))).
Proof.
  intros HA Hn. rewrite <- (Z2Nat.id n Hn). generalize (Z.to_nat n) as k. clear n Hn. induction k as [|k IH].
  - change (Z.of_nat 0) with 0. rewrite !mil_0, !gm_0, hh_O, gN_0, !gA_0_l. reflexivity.
  - replace (Z.of_nat (Datatypes.S k)) with (Z.of_nat k + 1) by lia. rewrite !mil_succ.
    rewrite (gA_swap (mil (ccp X2 Y2) _ _ _)), (gA_swap (mil (ccp X1 Y1) _ _ _)), IH, recip by (try apply S_gm; assumption).
    rewrite !gm_succ, (gA_comm A (gm _ A)), (gA_comm (hh A) (gm _ (hh A))). set (u := gm (Z.of_nat k) (hh A)). set (v := hh (gm (Z.of_nat k) A)). set (w := gN (hh (gA _ A))).
    rewrite <- !gA_assoc. f_equal. rewrite !gA_assoc. rewrite gA_N_l, gA_0_l. reflexivity.
Qed.
(** for a point on which n acts as -psi *)
Hypothesis FL : (frob l' = phi (gy / gx) * l')%F.
Hypothesis FN : (frob n' = phi gy * n')%F.
Lemma hh_psi A : S A -> S (epsi A) -> hh (epsi A) = gm q (hh A).
Proof.
  intros HA HB. pose proof (h_ne A HA) as N1. pose proof (h_ne _ HB) as N2. unfold hh. rewrite <- f_eps by exact N1.
  change (epr E (epsi A)) with (psi (epr E A)) in *. destruct (epr E A) as [|x y]; cbn [psi hval] in *; [rewrite f_1; reflexivity|].
  transitivity (eps (phi gy * (phi (sigma y / gy) - l' * phi (sigma x / gx) - n'))%F); [rewrite eps_mul, eps_K, gA_0_l by auto; reflexivity|].
  f_equal. rewrite !fS, f_mul, !f_phi, FL, FN.
  transitivity (phi (gy * (sigma y / gy)) - l' * phi (gy * (sigma x / gx)) - phi gy * n')%F; [rewrite !phi_mul; ring|].
  f_equal. f_equal; [f_equal; field; auto|]. transitivity (l' * phi (gy / gx * sigma x))%F; [f_equal; f_equal; field; auto|rewrite phi_mul; ring].
Qed.
Theorem recip_mil_psi (S_O : S gO) A n : S A -> S (epsi A) -> 0 <= n -> gm n A = gN (epsi A) -> gm (n + q) (hh A) = gO ->
  gA (mil (ccp X1 Y1) (gp_co _ _ G1) n A) (gA (mil (ccp X2 Y2) (gp_co _ _ G2) n A) (mil (ccp X3 Y3) (gp_co _ _ G3) n A)) = gO.
Proof.
  intros HA HB Hn EA Z. rewrite recip_mil by assumption. rewrite EA, hh_neg, gN_N, hh_psi, <- gm_add by assumption. exact Z.
Qed.
End Rec.
(** additivity in the curve argument, for points on which n acts as -psi *)
Theorem mil_psi_add X Y (HG : goodpt X Y) A B n : (frob X = phi gx * X)%F -> (frob Y = phi gy * Y)%F ->
  gm n A = gN (epsi A) -> gm n B = gN (epsi B) -> gm (n + q) (ccp X Y A B) = gO ->
  mil (ccp X Y) (gp_co _ _ HG) n (gA A B) = gA (mil (ccp X Y) (gp_co _ _ HG) n A) (mil (ccp X Y) (gp_co _ _ HG) n B).
Proof.
  intros FX FY EA EB Z. pose proof (mil_sum _ _ _ (gp_co _ _ HG) n A B) as M. rewrite EA, EB, (co_neg _ _ _ (gp_co _ _ HG)), cc_psi in M by assumption.
  apply (gA_cancel_r (gm n (ccp X Y A B))). rewrite <- M. f_equal.
  rewrite gm_add in Z. apply gN_unique in Z. rewrite Z, gN_N. reflexivity.
Qed.
(** negating the evaluation point *)
Theorem mil_negpt X Y (HG : goodpt X Y) (HN : goodpt X (- Y)%F) A n : 0 <= n ->
  mil (ccp X (- Y)%F) (gp_co _ _ HN) n A = gN (mil (ccp X Y) (gp_co _ _ HG) n A).
Proof.
  assert (forall A B, ccp X (- Y)%F A B = gN (ccp X Y A B)) as EC'.
  { intros P Q. rewrite <- (co_neg _ _ _ (gp_co _ _ HG)). destruct HG as [A1 B1 C1 D1], HN as [A2 B2 C2 D2]. unfold cc. rewrite !epr_N.
    pose proof (epr_on E P) as CP. pose proof (epr_on E Q) as CQ.
    destruct (epr E P) as [|x1 y1]; cbn [pneg lin].
    { destruct (epr E Q) as [|x2 y2]; cbn [pneg vert]; [unfold r1; rewrite !evL_C; reflexivity|rewrite !evL_xa by assumption; reflexivity]. }
    destruct (epr E Q) as [|x2 y2]; cbn [pneg lin vert]; [rewrite !evL_xa by assumption; reflexivity|].
    assert (slope E x1 (- y1)%F x2 (- y2)%F = option_map fN (slope E x1 y1 x2 y2)) as SN.
    { pose proof (c2_ne E) as N2. unfold slope. destruct (fDec x1 x2) as [Ex|Nx].
      - destruct (fDec y1 y2) as [Ey|Ny].
        + subst y2. destruct (fDec (- y1)%F (- y1)%F) as [_|]; [|contradiction]. destruct (fDec y1 0%F) as [Z|NZ].
          * destruct (fDec (- y1)%F 0%F) as [_|N]; [reflexivity|]. exfalso. apply N. rewrite Z. ring.
          * destruct (fDec (- y1)%F 0%F) as [Z|_]; [exfalso; exact (fld_opp_ne E _ NZ Z)|]. cbn. f_equal. field. split; auto using fld_opp_ne.
        + destruct (fDec (- y1)%F (- y2)%F) as [Z|_]; [|reflexivity]. exfalso. apply Ny. transitivity (- - y1)%F; [ring|]. rewrite Z. ring.
      - cbn. f_equal. field. apply fld_sub_ne. auto. }
    rewrite SN. destruct (slope E x1 y1 x2 y2) as [l|]; cbn [option_map]; [|rewrite !evL_xa by assumption; reflexivity].
    rewrite !evL_ln by assumption. rewrite <- eps_neg by apply D2. f_equal. rewrite ?pN, ?pS, ?pN, ?phi_mul, ?pN. ring. }
  intros Hn. rewrite <- (Z2Nat.id n Hn). generalize (Z.to_nat n) as k. clear n Hn. induction k as [|k IH].
  - change (Z.of_nat 0) with 0. rewrite !mil_0, gN_0. reflexivity.
  - replace (Z.of_nat (Datatypes.S k)) with (Z.of_nat k + 1) by lia. rewrite !mil_succ, IH, EC', gN_A. reflexivity.
Qed.
End Psi.
