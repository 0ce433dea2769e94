(** The Miller loop of the code computes, up to factors killed by the final exponentiation, the Miller function of the
    line cocycle. *)
Require Import ZArith Lia Bool List Ring Field Znumtheory.
From Verif Require Import Words ModelRepr ModelFq ModelOps ModelTower ModelCurve ModelPairing NumTheory Primality Fp FpOps FqProofs FqProofs2 FqInverse FqRel FqMisc Loops ZInst TwoPow Ext ExtFrob TowerProofs Fld AbGrp EcGroup EcJac EcMul Curves FinExp Miller PairBasic LineIdeal Cocycle Recip BilinBase.
Import ListNotations.
Open Scope Z_scope.

Section Steps.
Context (K : Fld).
Add Field KF8 : (fTh K).
Open Scope fld_scope.
Hypothesis two_ne : two K <> 0.
Definition t2 (x : K) := x + x.
Definition dstep (X Y Z : K) : (K * K * K) * Proj K :=
  let m := t2 (X * X) + X * X in let s := t2 (t2 (X * (Y * Y))) in let rx := m * m - t2 s in let rz := t2 (Y * Z) in
  ((t2 (rz * (Z * Z)), - t2 (m * (Z * Z)), t2 (m * X) - t2 (t2 (Y * Y))), mkProj rx ((s - rx) * m - t2 (t2 (t2 (Y * Y * (Y * Y))))) rz).
Definition astep (X Y Z x y : K) : (K * K * K) * Proj K :=
  let H := x * (Z * Z) - X in let R := t2 (y * (Z * (Z * Z))) - t2 Y in let V := t2 (t2 (H * H * X)) in let J := t2 (t2 (H * H * H)) in
  let rx := R * R - J - t2 V in let rz := t2 (Z * H) in
  ((t2 rz, - t2 R, t2 (R * x) - t2 (y * rz)), mkProj rx ((V - rx) * R - t2 (Y * J)) rz).
Lemma two_split x : x <> 0 -> t2 x <> 0.
Proof. intros H. unfold t2. replace (x + x) with (two K * x) by (unfold two; ring). apply fld_mul_ne; assumption. Qed.
(** the coefficients are s(1, -l, l x - y) for the tangent of slope l *)
Lemma dstep_spec X Y Z x y : Z <> 0 -> X = x * (Z * Z) -> Y = y * (Z * Z * Z) -> y <> 0 ->
  exists s l r', dstep X Y Z = ((s, - (s * l), s * (l * x - y)), r') /\ s <> 0 /\ slope K x y x y = Some l /\ repj K r' = pplus K (Pt x y) (Pt x y).
Proof.
  intros NZ -> -> Ny. assert (slope K x y x y = Some (three K * (x * x) / (two K * y))) as S.
  { unfold slope. destruct (fDec x x) as [_|]; [|congruence]. destruct (fDec y y) as [_|]; [|congruence]. destruct (fDec y 0); [contradiction|reflexivity]. }
  pose proof (fld_mul_ne K Z Z NZ NZ) as N2. pose proof (fld_mul_ne K _ _ N2 NZ) as N3.
  assert (two K * y <> 0) as N4 by (apply fld_mul_ne; assumption).
  eexists _, _, _. split; [|split; [|split; [exact S|]]].
  - unfold dstep. cbv zeta. apply f_equal2; [apply f_equal2; [apply f_equal2; [reflexivity|]|]|reflexivity]; unfold t2, three, two in *; field; auto.
  - apply two_split. apply fld_mul_ne; [|assumption]. apply two_split. apply fld_mul_ne; [|assumption]. apply fld_mul_ne; assumption.
  - rewrite pplus_slope, S. unfold chord. apply repj_ext; [apply two_split; apply fld_mul_ne; [apply fld_mul_ne; assumption|assumption]| |]; unfold t2, three, two in *; field; auto.
Qed.
Lemma astep_spec X Y Z x1 y1 x y : Z <> 0 -> X = x1 * (Z * Z) -> Y = y1 * (Z * Z * Z) -> x1 <> x ->
  exists s l r', astep X Y Z x y = ((s, - (s * l), s * (l * x1 - y1)), r') /\ s <> 0 /\ slope K x1 y1 x y = Some l /\ repj K r' = pplus K (Pt x1 y1) (Pt x y).
Proof.
  intros NZ -> -> Nx. assert (slope K x1 y1 x y = Some ((y - y1) / (x - x1))) as S.
  { unfold slope. destruct (fDec x1 x) as [|_]; [contradiction|reflexivity]. }
  pose proof (fld_mul_ne K Z Z NZ NZ) as N2. pose proof (fld_mul_ne K _ _ N2 NZ) as N3.
  assert (x - x1 <> 0) as N4 by (apply fld_sub_ne; auto).
  assert (x * (Z * Z) - x1 * (Z * Z) <> 0) as N5 by (replace (x * (Z * Z) - x1 * (Z * Z)) with ((x - x1) * (Z * Z)) by ring; apply fld_mul_ne; assumption).
  eexists _, _, _. split; [|split; [|split; [exact S|]]].
  - unfold astep. cbv zeta. apply f_equal2; [apply f_equal2; [apply f_equal2; [reflexivity|]|]|reflexivity]; unfold t2, three, two in *; field; auto.
  - apply two_split, two_split. apply fld_mul_ne; assumption.
  - rewrite pplus_slope, S. unfold chord. apply repj_ext; [apply two_split; apply fld_mul_ne; assumption| |]; unfold t2, three, two in *; field; auto.
Qed.
End Steps.

Lemma doublingStep_eq r : doublingStep FpB r = dstep FldQ2 (px r) (py r) (pz r).
Proof.
  unfold doublingStep. cbv zeta. r2. destruct r as [X Y Z]. cbn [px py pz].
  unfold dstep, t2. cbv zeta. change (@fA FldQ2) with k2_add. change (@fM FldQ2) with k2_mul. change (@fS FldQ2) with k2_sub. change (@fN FldQ2) with k2_opp.
  apply f_equal2; [apply f_equal2; [apply f_equal2|]|apply f_equal3]; ring.
Qed.
Lemma additionStep_eq r a : additionStep FpB r a = astep FldQ2 (px r) (py r) (pz r) (ax a) (ay a).
Proof.
  unfold additionStep. cbv zeta. r2. destruct r as [X Y Z]. destruct a as [x y i]. cbn [px py pz ax ay].
  unfold astep, t2. cbv zeta. change (@fA FldQ2) with k2_add. change (@fM FldQ2) with k2_mul. change (@fS FldQ2) with k2_sub. change (@fN FldQ2) with k2_opp.
  apply f_equal2; [apply f_equal2; [apply f_equal2|]|apply f_equal3]; ring.
Qed.

(** ** Lines *)
Lemma lineval_scale s l n x y : lineval (s, k2_opp (k2_mul s l), k2_opp (k2_mul s n)) x y = k12_mul (phi2 s) (lpt x y l n).
Proof. unfold lineval, k12_014, phi2, lpt. k12c; ring. Qed.
Lemma lineval_eps s l n x y : s <> k2_0 -> y <> q0 -> lineval (s, k2_opp (k2_mul s l), k2_opp (k2_mul s n)) x y <> k12_0 /\ eps (lineval (s, k2_opp (k2_mul s l), k2_opp (k2_mul s n)) x y) = eps (lpt x y l n).
Proof.
  intros Hs Hy. rewrite (lineval_scale s l n x y). assert (phi2 s <> k12_0) as N by (intros E; apply Hs; exact (f_equal (fun z => d0 (e0 z)) E)).
  pose proof (lpt_ne x y l n Hy) as N'. split; [apply k12_mul_ne; assumption|]. rewrite (eps_mul _ _ N N'), (eps_2 s Hs). apply gA_0_l.
Qed.
(** ** Points of order r *)
Lemma r_gt : 2 ^ 70 < r. Proof. vm_compute. reflexivity. Qed.
Section Ord.
Context (E : Curve) (Q : EC E) (HQ : gm r Q = gO) (NQ : Q <> gO).
Add Field KF9 : (fTh E).
Lemma ord_ne k : 0 < k < r -> gm k Q <> gO.
Proof. intros Hk Z. apply (gm_prime_order r k Q prime_r HQ NQ) in Z. apply Z.divide_pos_le in Z; lia. Qed.
Lemma ord_fin k : 0 < k < r -> exists x y, epr E (gm k Q) = Pt x y /\ y <> 0%F.
Proof.
  intros Hk. destruct (epr E (gm k Q)) as [|x y] eqn:EQ; [exfalso; apply (ord_ne k Hk), ec_eq; exact EQ|].
  exists x, y. split; [reflexivity|]. intros Y0.
  assert (gm (2 * k) Q = gO) as Z.
  { replace (2 * k) with (k + k) by lia. rewrite gm_add. apply ec_eq. rewrite epr_A, EQ, epr_O. replace (Pt x y) with (pneg E (Pt x y)) at 2.
    - apply pplus_neg_r, c2_ne.
    - cbn. f_equal. rewrite Y0. ring. }
  apply (gm_prime_order r _ Q prime_r HQ NQ) in Z. pose proof r_gt. apply (prime_mult r prime_r) in Z. destruct Z as [Z|Z]; apply Z.divide_pos_le in Z; lia.
Qed.
Lemma ord_x k l x1 y1 x2 y2 : epr E (gm k Q) = Pt x1 y1 -> epr E (gm l Q) = Pt x2 y2 -> 0 < k - l < r -> 0 < k + l < r -> x1 <> x2.
Proof.
  intros H1 H2 K1 K2 <-. pose proof (epr_on E (gm k Q)) as C1. pose proof (epr_on E (gm l Q)) as C2. rewrite H1 in C1. rewrite H2 in C2. cbn [on] in C1, C2.
  destruct (fld_sq_eq E y1 y2) as [EY|EY]; [congruence| |].
  - apply (ord_ne (k - l) K1). rewrite gm_sub. replace (gm k Q) with (gm l Q); [apply gA_N_r|]. apply ec_eq. rewrite H1, H2, EY. reflexivity.
  - apply (ord_ne (k + l) K2). rewrite gm_add. replace (gm k Q) with (gN (gm l Q)); [apply gA_N_l|]. apply ec_eq. rewrite H1, epr_N, H2, EY. reflexivity.
Qed.
End Ord.
(** ** The combined loop *)
Definition comb (x y : Fq) (a : Affine K2) (st : K12 * Proj K2) (b : bool) : K12 * Proj K2 :=
  let '(f, R) := st in
  let '(o, R1) := doublingStep FpB R in
  let f := k12_mul f (lineval o x y) in
  if b then let '(o', R2) := additionStep FpB R1 a in (k12_mul (k12_mul f (lineval o' x y)) (k12_mul f (lineval o' x y)), R2)
  else (k12_mul f f, R1).
Lemma prep_ext a bs R cs : exists t, snd (fold_left (prep_step FpB a) bs (R, cs)) = cs ++ t.
Proof.
  revert R cs. induction bs as [|b bs IH]; intros R cs; cbn [fold_left]; [exists []; rewrite app_nil_r; reflexivity|].
  unfold prep_step at 2. destruct (doublingStep FpB R) as [o R1]. destruct b.
  - destruct (additionStep FpB R1 a) as [o' R2]. destruct (IH R2 ((cs ++ [o]) ++ [o'])) as [t E]. exists (o :: o' :: t). rewrite E, <- !app_assoc. reflexivity.
  - destruct (IH R1 (cs ++ [o])) as [t E]. exists (o :: t). rewrite E, <- !app_assoc. reflexivity.
Qed.
Lemma nth_at {A} (l t : list A) o d : nth (length l) (l ++ o :: t) d = o.
Proof. rewrite app_nth2 by lia. rewrite Nat.sub_diag. reflexivity. Qed.
Lemma comb_fold x y a bs f R cs rest :
  let L i := lineval (nth i (snd (fold_left (prep_step FpB a) bs (R, cs)) ++ rest) dline) x y in
  fold_left (mstep L) bs (f, length cs) = (fst (fold_left (comb x y a) bs (f, R)), length (snd (fold_left (prep_step FpB a) bs (R, cs)))) /\
  fst (fold_left (prep_step FpB a) bs (R, cs)) = snd (fold_left (comb x y a) bs (f, R)).
Proof.
  revert f R cs. induction bs as [|b bs IH]; intros f R cs; cbn [fold_left]; [split; reflexivity|].
  unfold mstep at 2. destruct (doublingStep FpB R) as [o R1] eqn:D. destruct b.
  - destruct (additionStep FpB R1 a) as [o' R2] eqn:A.
    assert (prep_step FpB a (R, cs) true = (R2, (cs ++ [o]) ++ [o'])) as -> by (unfold prep_step; rewrite D, A; reflexivity).
    assert (comb x y a (f, R) true = (k12_mul (k12_mul (k12_mul f (lineval o x y)) (lineval o' x y)) (k12_mul (k12_mul f (lineval o x y)) (lineval o' x y)), R2)) as -> by (unfold comb; rewrite D, A; reflexivity).
    destruct (prep_ext a bs R2 ((cs ++ [o]) ++ [o'])) as [t E]. 
    assert (nth (length cs) (snd (fold_left (prep_step FpB a) bs (R2, (cs ++ [o]) ++ [o'])) ++ rest) dline = o) as E1.
    { rewrite E, <- !app_assoc. apply nth_at. }
    assert (nth (S (length cs)) (snd (fold_left (prep_step FpB a) bs (R2, (cs ++ [o]) ++ [o'])) ++ rest) dline = o') as E2.
    { rewrite E. replace (S (length cs)) with (length (cs ++ [o])) by (rewrite app_length; cbn; lia). rewrite <- !app_assoc, (app_assoc cs). apply nth_at. }
    rewrite E1, E2. replace (S (S (length cs))) with (length ((cs ++ [o]) ++ [o'])) by (rewrite !app_length; cbn; lia). apply IH.
  - assert (prep_step FpB a (R, cs) false = (R1, cs ++ [o])) as -> by (unfold prep_step; rewrite D; reflexivity).
    assert (comb x y a (f, R) false = (k12_mul (k12_mul f (lineval o x y)) (k12_mul f (lineval o x y)), R1)) as -> by (unfold comb; rewrite D; reflexivity).
    destruct (prep_ext a bs R1 (cs ++ [o])) as [t E]. 
    assert (nth (length cs) (snd (fold_left (prep_step FpB a) bs (R1, cs ++ [o])) ++ rest) dline = o) as E1.
    { rewrite E, <- !app_assoc. apply nth_at. }
    rewrite E1. replace (S (length cs)) with (length (cs ++ [o])) by (rewrite app_length; cbn; lia). apply IH.
Qed.
Lemma mval_comb x y X Y : mval (it_of x y X Y) =
  let '(f, R) := fold_left (comb x y (mkAff X Y false)) loopbits (k12_1, Affine_ToProjective (FQ2O FpB) (mkAff X Y false)) in
  k12_mul f (lineval (fst (doublingStep FpB R)) x y).
Proof.
  unfold mval, mfold, it_of. set (a := mkAff X Y false). set (R0 := Affine_ToProjective (FQ2O FpB) a).
  assert (coeffs (G2AffineToPrepared FpB a) = snd (fold_left (prep_step FpB a) loopbits (R0, [])) ++ [fst (doublingStep FpB (fst (fold_left (prep_step FpB a) loopbits (R0, []))))]) as EC'.
  { rewrite prep_unfold by reflexivity. fold R0. destruct (fold_left (prep_step FpB a) loopbits (R0, [])) as [R cs]. reflexivity. }
  destruct (comb_fold x y a loopbits k12_1 R0 [] [fst (doublingStep FpB (fst (fold_left (prep_step FpB a) loopbits (R0, []))))]) as [F1 F2].
  unfold Lof. cbn [fst snd ax ay]. rewrite EC'. cbv zeta in F1. cbn [length] in F1. rewrite F1. rewrite nth_at, F2.
  destruct (fold_left (comb x y a) loopbits (k12_1, R0)) as [f R]. reflexivity.
Qed.
(** ** The invariant *)
Lemma repj_inv (K : Fld) (R : Proj K) x y : repj K R = Pt x y -> pz R <> 0%F /\ px R = (x * (pz R * pz R))%F /\ py R = (y * (pz R * pz R * pz R))%F.
Proof.
  pose proof (fTh K) as FT. unfold repj. destruct (fDec (pz R) 0%F) as [|N]; [discriminate|]. intros [= <- <-]. split; [exact N|].
  assert (forall a b : K, b <> 0%F -> a = (a / b * b)%F) as D.
  { intros a b Hb. rewrite (Fdiv_def FT). transitivity (a * (fV b * b))%F; [rewrite (Finv_l FT) by exact Hb; symmetry; rewrite (Rmul_comm (F_R FT)); apply (Rmul_1_l (F_R FT))|apply (Rmul_assoc (F_R FT))]. }
  split; apply D; repeat apply fld_mul_ne; exact N.
Qed.
Section Inv.
Context (x y : Fq) (Hon : fmul y y = fadd (fmul (fmul x x) x) b1) (Hx : x <> q0) (Hy : y <> q0).
Context (Q : EC E2) (HQ : gm r Q = gO) (NQ : Q <> gO) (X Y : K2) (EQ : epr E2 Q = Pt X Y).
Let HG := good_of x y Hon Hx Hy.
Let c := cc E2 FldQ12 phi2 U12 eps (pX x) (pY y).
Let Hc : cocycle c := gp_co E2 FldQ12 phi2 U12 eps phi2_1 phi2_add phi2_mul eps_mul eps_2 (pX x) (pY y) HG.
Lemma line_val A B x1 y1 x2 y2 s l : epr E2 A = Pt x1 y1 -> epr E2 B = Pt x2 y2 -> slope FldQ2 x1 y1 x2 y2 = Some l -> s <> k2_0 ->
  lineval (s, k2_opp (k2_mul s l), k2_mul s (k2_sub (k2_mul l x1) y1)) x y <> k12_0 /\
  eps (lineval (s, k2_opp (k2_mul s l), k2_mul s (k2_sub (k2_mul l x1) y1)) x y) = c A B.
Proof.
  intros EA EB SL Hs. assert (k2_mul s (k2_sub (k2_mul l x1) y1) = k2_opp (k2_mul s (k2_sub y1 (k2_mul l x1)))) as -> by ring.
  destruct (lineval_eps s l (k2_sub y1 (k2_mul l x1)) x y Hs Hy) as [N EV]. split; [exact N|]. rewrite EV. unfold c.
  rewrite (cc_line E2 FldQ12 phi2 U12 eps phi2_1 phi2_add phi2_mul (pX x) (pY y) (gp_on _ _ _ _ _ _ _ HG) x1 y1 x2 y2 l A B EA EB SL).
  apply f_equal. symmetry. exact (lpt_eq x y l (k2_sub y1 (k2_mul l x1))).
Qed.
Lemma dbl_inv R k : repj FldQ2 R = epr E2 (gm k Q) -> 0 < k < r ->
  exists o R1, doublingStep FpB R = (o, R1) /\ lineval o x y <> k12_0 /\ eps (lineval o x y) = c (gm k Q) (gm k Q) /\ repj FldQ2 R1 = epr E2 (gm (2 * k) Q).
Proof.
  intros ER Hk. destruct (ord_fin E2 Q HQ NQ k Hk) as (x1 & y1 & E1' & Ny). pose proof ER as ER'. rewrite E1' in ER'.
  destruct (repj_inv FldQ2 R x1 y1 ER') as (NZ & IX & IY).
  destruct (dstep_spec FldQ2 (c2_ne E2) (px R) (py R) (pz R) x1 y1 NZ IX IY Ny) as (s & l & r' & ED & Hs & SL & ER1).
  exists (s, k2_opp (k2_mul s l), k2_mul s (k2_sub (k2_mul l x1) y1)), r'. split; [rewrite doublingStep_eq; exact ED|].
  destruct (line_val (gm k Q) (gm k Q) x1 y1 x1 y1 s l E1' E1' SL Hs) as [N EV]. split; [exact N|]. split; [exact EV|].
  rewrite ER1. replace (2 * k) with (k + k) by lia. rewrite gm_add, epr_A, E1'. reflexivity.
Qed.
Lemma add_inv R k : repj FldQ2 R = epr E2 (gm k Q) -> 1 < k -> k + 1 < r ->
  exists o R1, additionStep FpB R (mkAff X Y false) = (o, R1) /\ lineval o x y <> k12_0 /\ eps (lineval o x y) = c (gm k Q) Q /\ repj FldQ2 R1 = epr E2 (gm (k + 1) Q).
Proof.
  intros ER Hk Hk2. destruct (ord_fin E2 Q HQ NQ k ltac:(lia)) as (x1 & y1 & E1' & Ny). pose proof ER as ER'. rewrite E1' in ER'.
  destruct (repj_inv FldQ2 R x1 y1 ER') as (NZ & IX & IY).
  assert (x1 <> X) as NX. { refine (ord_x E2 Q HQ NQ k 1 x1 y1 X Y E1' _ _ _); [rewrite gm_1; exact EQ|lia|lia]. }
  destruct (astep_spec FldQ2 (c2_ne E2) (px R) (py R) (pz R) x1 y1 X Y NZ IX IY NX) as (s & l & r' & ED & Hs & SL & ER1).
  exists (s, k2_opp (k2_mul s l), k2_mul s (k2_sub (k2_mul l x1) y1)), r'. split; [rewrite additionStep_eq; exact ED|].
  destruct (line_val (gm k Q) Q x1 y1 X Y s l E1' EQ SL Hs) as [N EV]. split; [exact N|]. split; [exact EV|].
  rewrite ER1. rewrite gm_add, gm_1, epr_A, E1', EQ. reflexivity.
Qed.
Definition kfold (k : Z) (b : bool) : Z := 2 * k + Z.b2z b.
Definition minv (st : K12 * Proj K2) (k : Z) : Prop :=
  fst st <> k12_0 /\ eps (fst st) = gm 2 (mil c Hc k Q) /\ repj FldQ2 (snd st) = epr E2 (gm k Q).
Lemma comb_step st k b : minv st k -> 1 <= k -> 2 * k + 1 < r -> minv (comb x y (mkAff X Y false) st b) (kfold k b).
Proof.
  destruct st as [f R]. unfold minv. cbn [fst snd]. intros (Nf & Ef & ER) Hk Hk2. unfold comb, kfold.
  destruct (dbl_inv R k ER ltac:(lia)) as (o & R1 & -> & No & Eo & ER1).
  assert (forall a, a <> k12_0 -> eps (k12_mul a a) = gm 2 (eps a)) as SQ by (intros a Ha; rewrite (eps_mul a a Ha Ha), gm_2; reflexivity).
  pose proof (k12_mul_ne f _ Nf No) as N1. assert (eps (k12_mul f (lineval o x y)) = mil c Hc (2 * k) Q) as EV by (rewrite (eps_mul f _ Nf No), Ef, Eo, mil_double; reflexivity).
  destruct b; cbn [Z.b2z].
  - destruct (add_inv R1 (2 * k) ER1 ltac:(lia) Hk2) as (o' & R2 & -> & No' & Eo' & ER2). cbn [fst snd].
    pose proof (k12_mul_ne _ _ N1 No') as N2. split; [apply k12_mul_ne; exact N2|]. split; [|exact ER2].
    rewrite (SQ _ N2), (eps_mul _ _ N1 No'), EV, Eo', mil_succ. reflexivity.
  - rewrite Z.add_0_r. cbn [fst snd]. split; [apply k12_mul_ne; exact N1|]. split; [|exact ER1]. rewrite (SQ _ N1), EV. reflexivity.
Qed.
Lemma comb_inv bs st k : minv st k -> 1 <= k -> (k + 1) * 2 ^ Z.of_nat (length bs) < 2 ^ 70 -> minv (fold_left (comb x y (mkAff X Y false)) bs st) (fold_left kfold bs k).
Proof.
  revert st k. induction bs as [|b bs IH]; intros st k Hi Hk B; cbn [fold_left]; [exact Hi|].
  cbn [length] in B. rewrite Nat2Z.inj_succ, Z.pow_succ_r in B by lia. assert (0 < 2 ^ Z.of_nat (length bs)) as P by (apply Z.pow_pos_nonneg; lia). pose proof r_gt as RG.
  apply IH.
  - apply comb_step; [exact Hi|exact Hk|]. assert (2 * (k + 1) * 1 <= 2 * (k + 1) * 2 ^ Z.of_nat (length bs)) by (apply Z.mul_le_mono_nonneg_l; lia). lia.
  - unfold kfold. destruct b; cbn [Z.b2z]; lia.
  - eapply Z.le_lt_trans; [|exact B]. replace ((k + 1) * (2 * 2 ^ Z.of_nat (length bs))) with (2 * (k + 1) * 2 ^ Z.of_nat (length bs)) by ring.
    apply Z.mul_le_mono_nonneg_r; [lia|]. unfold kfold. destruct b; cbn [Z.b2z]; lia.
Qed.
Theorem mval_mil : mval (it_of x y X Y) <> k12_0 /\ eps (mval (it_of x y X Y)) = mil c Hc xT Q.
Proof.
  rewrite mval_comb. set (st0 := (k12_1, Affine_ToProjective (FQ2O FpB) (mkAff X Y false))).
  assert (minv st0 1) as I0.
  { unfold st0, minv. cbn [fst snd]. split; [exact k12_1_ne_0|]. split.
    - rewrite mil_1, gm_O, <- phi2_1. apply eps_2, k2_1_ne_0.
    - rewrite (repj_aff FldQ2 _ FpO2_ok), gm_1, EQ. reflexivity. }
  pose proof (comb_inv loopbits st0 1 I0 ltac:(lia) ltac:(vm_compute; reflexivity)) as I1.
  pose proof loopbits_value as LV. change (fun k (b : bool) => 2 * k + Z.b2z b) with kfold in LV. set (k := fold_left kfold loopbits 1) in *.
  destruct (fold_left (comb x y (mkAff X Y false)) loopbits st0) as [f R]. destruct I1 as (Nf & Ef & ER). cbn [fst snd] in *.
  assert (0 < k < r) as Hk. { clear -LV. clearbody k. assert (xT < r) by (vm_compute; reflexivity). assert (0 < xT) by (vm_compute; reflexivity). lia. }
  destruct (dbl_inv R k ER Hk) as (o & R1 & -> & No & Eo & _). cbn [fst]. split; [apply k12_mul_ne; assumption|].
  rewrite (eps_mul f _ Nf No), Ef, Eo, <- LV, (Z.mul_comm k 2), mil_double. reflexivity.
Qed.
End Inv.
