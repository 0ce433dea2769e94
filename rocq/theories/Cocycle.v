(** Values of the lines of a curve E at a fixed point (X, Y) over an extension field, read through a map eps that
    kills constants and vertical lines, form a symmetric 2-cocycle on E.  The n-fold sum in the extension of E by this
    cocycle has the n-th Miller function as its second component. *)
Require Import ZArith Lia Bool List Ring Field Setoid Morphisms.
From Verif Require Import Fp Fld Poly EcIdeal EcGroup AbGrp EcMul LineIdeal.
Import ListNotations.
Open Scope Z_scope.

(** ** Extensions of abelian groups by symmetric cocycles *)
Section Ext.
Context (A G : AbGrp) (c : A -> A -> G).
Record cocycle : Prop := { co_comm : forall x y, c x y = c y x; co_0 : forall x, c gO x = gO; co_N : forall x, c x (gN x) = gO;
  co_assoc : forall x y z, gA (c x y) (c (gA x y) z) = gA (c y z) (c x (gA y z)) }.
Hypothesis Hc : cocycle.
Definition exA (u v : A * G) : A * G := (gA (fst u) (fst v), gA (gA (snd u) (snd v)) (c (fst u) (fst v))).
Definition exN (u : A * G) : A * G := (gN (fst u), gN (snd u)).
Definition ExtG : AbGrp.
Proof.
  refine (mkAbGrp (A * G) (gO, gO) exA exN _ _ _ _).
  - intros [x s] [y t] [z u]. unfold exA. cbn [fst snd]. f_equal; [apply gA_assoc|].
    rewrite <- !gA_assoc. f_equal. f_equal. rewrite (gA_assoc (c x y)), (gA_comm (c x y) u), <- gA_assoc. f_equal. symmetry. apply (co_assoc Hc).
  - intros [x s] [y t]. unfold exA. cbn [fst snd]. rewrite (gA_comm x y), (gA_comm s t), (co_comm Hc). reflexivity.
  - intros [x s]. unfold exA. cbn [fst snd]. rewrite !gA_0_l, (co_0 Hc), gA_0_r. reflexivity.
  - intros [x s]. unfold exA, exN. cbn [fst snd]. rewrite !gA_N_r, (co_N Hc), gA_0_l. reflexivity.
Defined.
Definition mil (n : Z) (x : A) : G := snd (gm (G := ExtG) n (x, gO)).
Lemma ext_fst n (u : ExtG) : fst (gm n u) = gm n (fst u).
Proof. apply (hom_gm (G := ExtG) (H := A) fst). constructor. reflexivity. Qed.
Lemma ext_in (s : G) n : gm (G := ExtG) n (gO, s) = (gO, gm n s).
Proof.
  symmetry. apply (hom_gm (G := G) (H := ExtG) (fun s => (gO, s))). constructor. intros x y. cbn. unfold exA. cbn [fst snd]. rewrite (co_0 Hc), gA_0_l, gA_0_r. reflexivity.
Qed.
Lemma ext_gm n x : gm (G := ExtG) n (x, gO) = (gm n x, mil n x).
Proof. rewrite (surjective_pairing (gm (G := ExtG) n (x, gO))). unfold mil. f_equal. apply (ext_fst n (x, gO)). Qed.
Lemma ext_split x s : ((x, s) : ExtG) = gA ((x, gO) : ExtG) (gO, s).
Proof. cbn. unfold exA. cbn [fst snd]. rewrite gA_0_r, gA_0_l. rewrite (co_comm Hc), (co_0 Hc), gA_0_r. reflexivity. Qed.
Lemma mil_add m n x : mil (m + n) x = gA (gA (mil m x) (mil n x)) (c (gm m x) (gm n x)).
Proof. unfold mil at 1. rewrite gm_add, !ext_gm. reflexivity. Qed.
Lemma mil_0 x : mil 0 x = gO. Proof. reflexivity. Qed.
Lemma mil_1 x : mil 1 x = gO. Proof. unfold mil. rewrite gm_1. reflexivity. Qed.
Lemma mil_succ n x : mil (n + 1) x = gA (mil n x) (c (gm n x) x).
Proof. rewrite mil_add, mil_1, gm_1, gA_0_r. reflexivity. Qed.
Lemma mil_double n x : mil (2 * n) x = gA (gm 2 (mil n x)) (c (gm n x) (gm n x)).
Proof. replace (2 * n) with (n + n) by lia. rewrite mil_add, gm_2. reflexivity. Qed.
Lemma mil_O n : mil n gO = gO.
Proof. unfold mil. change ((gO, gO) : A * G) with (gO : ExtG). rewrite gm_O. reflexivity. Qed.
Lemma mil_sum n x y : gA (gA (mil n x) (mil n y)) (c (gm n x) (gm n y)) = gA (mil n (gA x y)) (gm n (c x y)).
Proof.
  assert (gA ((x, gO) : ExtG) (y, gO) = gA ((gA x y, gO) : ExtG) (gO, c x y)) as E.
  { rewrite <- ext_split. cbn. unfold exA. cbn [fst snd]. rewrite !gA_0_l. reflexivity. }
  pose proof (f_equal (fun u : ExtG => snd (gm (G := ExtG) n u)) E) as F. cbn beta in F. rewrite !gm_A, !ext_gm, ext_in in F. cbn in F.
  rewrite (co_comm Hc (gm n (gA x y)) gO), (co_0 Hc), (gA_0_r (gA _ _)) in F. exact F.
Qed.
(** negation inverts the cocycle *)
Lemma co_cancel x y : c (gA x y) (gN y) = gN (c x y).
Proof. apply gN_unique. rewrite (co_assoc Hc), (co_N Hc), gA_N_r, gA_0_l, (co_comm Hc), (co_0 Hc). reflexivity. Qed.
Lemma co_neg x y : c (gN x) (gN y) = gN (c x y).
Proof.
  rewrite <- co_cancel. pose proof (co_assoc Hc (gA x y) (gN y) (gN x)) as E.
  rewrite <- (gA_assoc x y), gA_N_r, gA_0_r, (co_N Hc), gA_0_r in E. rewrite E, (gA_comm (gN y)), <- gN_A, (co_N Hc), gA_0_r. apply (co_comm Hc).
Qed.
Lemma mil_neg n x : mil n (gN x) = gN (mil n x).
Proof.
  unfold mil. replace ((gN x, gO) : ExtG) with (gN ((x, gO) : ExtG)); [rewrite gm_N; reflexivity|]. cbn. unfold exN. cbn. rewrite gN_0. reflexivity.
Qed.
End Ext.
Arguments cocycle {A G}. Arguments mil {A G}. Arguments ExtG {A G}.

(** ** The cocycle of lines *)
Section Coc.
Context (E : Curve) (L : Fld) (phi : E -> L) (G : AbGrp) (eps : L -> G).
Add Field KF6 : (fTh E).
Add Field LF6 : (fTh L).
Hypothesis phi_1 : (phi 1 = 1)%F.
Hypothesis phi_add : forall x y, (phi (x + y) = phi x + phi y)%F.
Hypothesis phi_mul : forall x y, (phi (x * y) = phi x * phi y)%F.
Hypothesis eps_mul : forall a b, a <> 0%F -> b <> 0%F -> eps (a * b)%F = gA (eps a) (eps b).
Hypothesis eps_K : forall k, k <> 0%F -> eps (phi k) = gO.
Notation b := (cb E).
Context (X Y : L).
Hypothesis XY : (Y * Y = X * X * X + phi b)%F.
Hypothesis X_ne : forall a, (X - phi a)%F <> 0%F.
Hypothesis X_eps : forall a, eps (X - phi a)%F = gO.
Hypothesis L_ne : forall l n, (Y - phi l * X - phi n)%F <> 0%F.
Notation lval A B := (evL E L phi X Y (lin E b A B)).
Notation vval A := (evL E L phi X Y (vert E A)).
Definition cc (A B : EC E) : G := eps (lval (epr E A) (epr E B)).
Lemma eps_1 : eps 1%F = gO. Proof. rewrite <- phi_1. apply eps_K, fld_1_ne_0. Qed.
Lemma vval_ne A : vval A <> 0%F.
Proof. destruct A as [|x y]; cbn [vert]; [unfold r1; rewrite evL_C, phi_1; apply fld_1_ne_0|]. rewrite evL_xa by assumption. apply X_ne. Qed.
Lemma vval_eps A : eps (vval A) = gO.
Proof. destruct A as [|x y]; cbn [vert]; [unfold r1; rewrite evL_C, phi_1; apply eps_1|]. rewrite evL_xa by assumption. apply X_eps. Qed.
Lemma lval_ne A B : lval A B <> 0%F.
Proof.
  destruct A as [|x1 y1]; [apply vval_ne|]. destruct B as [|x2 y2]; [apply (vval_ne (Pt x1 y1))|]. cbn [lin].
  destruct (slope E x1 y1 x2 y2); [rewrite evL_ln by assumption; apply L_ne|rewrite evL_xa by assumption; apply X_ne].
Qed.
Lemma cc_line x1 y1 x2 y2 l A B : epr E A = Pt x1 y1 -> epr E B = Pt x2 y2 -> slope E x1 y1 x2 y2 = Some l -> cc A B = eps (Y - phi l * X - phi (y1 - l * x1))%F.
Proof. intros EA EB S. unfold cc. rewrite EA, EB. cbn [lin]. rewrite S, evL_ln by assumption. reflexivity. Qed.
Lemma cc_cocycle : cocycle cc.
Proof.
  pose proof (c2_ne E) as N2. pose proof (c3_ne E) as N3. pose proof (cb_ne E) as Nb.
  constructor.
  - intros x y. destruct (lin_comm E b N2 N3 Nb (epr E x) (epr E y)) as (k & Hk & Ek); [apply epr_on..|].
    unfold cc. rewrite (evL_proper E L phi phi_add X Y _ _ Ek), (evL_mul E L b phi), evL_C by assumption.
    rewrite eps_mul, eps_K, gA_0_l; [reflexivity|exact Hk|apply (phi_ne E L phi); assumption|apply lval_ne].
  - intros x. unfold cc. rewrite epr_O. cbn [lin]. apply vval_eps.
  - intros x. unfold cc. rewrite epr_N. destruct (epr E x) as [|x1 y1] eqn:Ex; cbn [lin pneg]; [apply (vval_eps Inf)|].
    pose proof (pplus_neg_r E N2 (Pt x1 y1)) as Z. cbn [pneg] in Z. rewrite pplus_slope in Z.
    destruct (slope E x1 y1 x1 (- y1)%F); [discriminate Z|]. rewrite evL_xa by assumption. apply X_eps.
  - intros x y z. destruct (lin_assoc E b N2 N3 Nb (epr E x) (epr E y) (epr E z)) as (k & Hk & Ek); [apply epr_on..|].
    apply (evL_proper E L phi phi_add X Y) in Ek. rewrite !(evL_mul E L b phi), evL_C in Ek by assumption.
    apply (f_equal eps) in Ek. pose proof (phi_ne E L phi phi_1 phi_mul k Hk) as Hpk.
    assert (forall u v, u <> 0%F -> v <> 0%F -> (u * v)%F <> (0%F : L)) as ML by (intros; apply fld_mul_ne; assumption).
    rewrite !eps_mul in Ek by (repeat apply ML; try apply lval_ne; try apply vval_ne; assumption).
    rewrite !vval_eps, eps_K, gA_0_l, !gA_0_r in Ek by exact Hk. exact Ek.
Qed.
End Coc.
