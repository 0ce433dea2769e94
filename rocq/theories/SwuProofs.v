(** The simplified SWU maps of g1.go and g2.go never panic and return a point of the auxiliary curve. *)
Require Import ZArith Lia Bool List Ring Field.
From Verif Require Import Words ModelRepr ReprProofs ReprProofs2 ModelFq ModelOps ModelTower ModelCurve ModelHash NumTheory Primality FqProofs FqProofs2 Fp FpOps FqMisc OpsRel OpsRel2 Ext TowerProofs Fld EcGroup EcMul EcJac Curves ZInst UNat UInst PolyEval IsoProofs.
Import ListNotations.
Open Scope Z_scope.
Add Field Kq : Fq_field.
Add Field Kk2 : k2_field.

(** ** Squares *)
Lemma nonsq_mul1 (a b : Fq) : ~ is_square fmul a -> ~ is_square fmul b -> is_square fmul (fmul a b).
Proof.
  intros Ha Hb. assert (a <> f0 q) as Na by (intros ->; apply Ha, Fq_is_square_0). assert (b <> f0 q) as Nb by (intros ->; apply Hb, Fq_is_square_0).
  destruct (Fq_euler_cases a Na) as [[S _]|[_ E1]]; [contradiction|]. destruct (Fq_euler_cases b Nb) as [[S _]|[_ E2]]; [contradiction|].
  apply Fq_square_euler; [apply Fq_mul_ne; assumption|]. rewrite (zpow_mul_l _ _ _ _ _ _ Fq_ring), E1, E2. ring.
Qed.
Lemma nonsq_mul2 (a b : K2) : ~ is_square k2_mul a -> ~ is_square k2_mul b -> is_square k2_mul (k2_mul a b).
Proof. intros Ha Hb. apply k2_norm_square. rewrite k2_norm_mul. apply nonsq_mul1; intros S; [apply Ha|apply Hb]; apply k2_norm_square; exact S. Qed.

(** ** Specification: x0 and the sign convention *)
Definition half : Z := (q - 1) / 2.
Definition D1 (t : Fq) : Fq := fsub (fmul (fmul t t) (fmul t t)) (fmul t t).
Definition is_x0_1 (t x0 : Fq) : Prop :=
  (D1 t = f0 q /\ fmul (fopp A1') x0 = B1') \/ (D1 t <> f0 q /\ fmul (fmul A1' (D1 t)) x0 = fmul (fopp B1') (fadd (D1 t) (f1 q))).
Definition big1 (y : Fq) : bool := half <? zof y.
Definition swu_spec1 (t : Fq) (P : Affine Fq) : Prop :=
  ainf P = false /\ fmul (ay P) (ay P) = aux1 (ax P) /\ (ay P = f0 q \/ big1 (ay P) = big1 t) /\
  exists x0, is_x0_1 t x0 /\ ((is_square fmul (aux1 x0) /\ ax P = x0) \/ (~ is_square fmul (aux1 x0) /\ ax P = fmul (fopp (fmul t t)) x0)).

Lemma big1_opp y : y <> f0 q -> big1 (fopp y) = negb (big1 y).
Proof.
  intros N. unfold big1, half, fopp. rewrite zof_zp. pose proof (zof_bound q prime_q y) as R. assert (zof y <> 0) as N0 by (intros E; apply N; apply zof_inj; rewrite E; reflexivity).
  pose proof q12_eq as Q. replace ((- zof y) mod q) with (q - zof y); [destruct (Z.ltb_spec ((q - 1) / 2) (zof y)), (Z.ltb_spec ((q - 1) / 2) (q - zof y)); cbn; auto; lia|].
  symmetry. rewrite Z.mod_opp_l_nz, Z.mod_small; rewrite ?Z.mod_small; lia.
Qed.
Lemma signFQ_val (f : Fq) : signFQ FpB f = if big1 f then fopp (f1 q) else f1 q.
Proof.
  unfold signFQ. rewrite negOne_val. cbn [b_ops FpB o_cmp FpO o_one]. assert (zof (b_of FpB qMinus1Over2) = half) as -> by (vm_compute; reflexivity).
  unfold big1, zcmp. destruct (Z.ltb_spec half (zof f)); destruct (Z.compare_spec (zof f) half); try lia; reflexivity.
Qed.
Lemma sign_fix1 (t y : Fq) : let y' := fmul y (fmul (signFQ FpB y) (signFQ FpB t)) in fmul y' y' = fmul y y /\ (y' = f0 q \/ big1 y' = big1 t).
Proof.
  cbv zeta. rewrite !signFQ_val. split; [destruct (big1 y), (big1 t); ring|]. destruct (Fp_dec y (f0 q)) as [->|N]; [left; ring|right].
  destruct (big1 y) eqn:Ey, (big1 t) eqn:Et.
  - replace (fmul y (fmul (fopp (f1 q)) (fopp (f1 q)))) with y by ring. exact Ey.
  - replace (fmul y (fmul (fopp (f1 q)) (f1 q))) with (fopp y) by ring. rewrite big1_opp, Ey by exact N. reflexivity.
  - replace (fmul y (fmul (f1 q) (fopp (f1 q)))) with (fopp y) by ring. rewrite big1_opp, Ey by exact N. reflexivity.
  - replace (fmul y (fmul (f1 q) (f1 q))) with y by ring. exact Ey.
Qed.
(** ** G1 *)
Lemma swu_alg1 (A B xi t x0 D x1 : Fq) : D = fadd (fmul (fmul xi xi) (fmul (fmul t t) (fmul t t))) (fmul xi (fmul t t)) -> A <> f0 q -> D <> f0 q -> fmul (fmul A D) x0 = fmul (fopp B) (fadd D (f1 q)) ->
  x1 = fmul (fmul xi (fmul t t)) x0 ->
  fadd (fadd (fmul (fmul x1 x1) x1) (fmul A x1)) B = fmul (fmul (fmul (fmul xi xi) xi) (fmul (fmul (fmul t t) t) (fmul (fmul t t) t))) (fadd (fadd (fmul (fmul x0 x0) x0) (fmul A x0)) B).
Proof.
  exact (swu_alg' FldQ A B xi t x0 D x1).
Qed.
Lemma alg_exc1 (A B : Fq) : A <> f0 q -> fmul (fopp (f1 q)) A <> f0 q /\ fmul (fopp A) (fmul B (finv (fmul (fopp (f1 q)) A))) = B.
Proof.
  intros NA. split; [intros H; apply NA; transitivity (fopp (fmul (fopp (f1 q)) A)); [ring|rewrite H; ring]|].
  assert (forall z : Fq, z <> f0 q -> fmul z (fmul B (finv z)) = B) as G by (intros z Nz; field; exact Nz).
  replace (fopp A) with (fmul (fopp (f1 q)) A) by ring. apply G. intros H; apply NA; transitivity (fopp (fmul (fopp (f1 q)) A)); [ring|rewrite H; ring].
Qed.
Lemma alg_x0 (A B D : Fq) : A <> f0 q -> D <> f0 q -> fmul (fmul A D) (fmul (fmul (fopp B) (fadd D (f1 q))) (finv (fmul A D))) = fmul (fopp B) (fadd D (f1 q)).
Proof. intros. field. auto. Qed.
Lemma alg_x0' (A B D x : Fq) : A <> f0 q -> D <> f0 q -> fmul (fmul A D) x = fmul (fopp B) (fadd D (f1 q)) -> x = fmul (fmul (fopp B) (fadd D (f1 q))) (finv (fmul A D)).
Proof. intros ? ? <-. field. auto. Qed.
Lemma alg_exc (A B w x : Fq) : A <> f0 q -> fmul w w = fopp (fmul A B) -> fmul (fopp A) x = B -> is_square fmul (fadd (fadd (fmul (fmul x x) x) (fmul A x)) B).
Proof.
  intros N E <-. assert (x = fmul (fmul w (finv A)) (fmul w (finv A))) as X.
  { transitivity (fmul (fmul w w) (fmul (finv A) (finv A))); [|ring]. rewrite E. field. exact N. }
  exists (fmul x (fmul w (finv A))).
  transitivity (fmul (fmul x x) (fmul (fmul w (finv A)) (fmul w (finv A)))); [ring|]. rewrite <- X. ring.
Qed.
Lemma alg_sq6 (t w g : Fq) : fmul w w = fmul (fopp (f1 q)) g -> is_square fmul (fmul (fmul (fmul (fmul (fopp (f1 q)) (fopp (f1 q))) (fopp (f1 q))) (fmul (fmul (fmul t t) t) (fmul (fmul t t) t))) g).
Proof.
  intros W. exists (fmul (fmul (fmul t t) t) w). transitivity (fmul (fmul (fmul (fmul t t) t) (fmul (fmul t t) t)) (fmul w w)); [ring|]. rewrite W. ring.
Qed.
Definition wAB : Z := 1623061961749657700585795342304524340930447668914321059078523813700399665232814378713616141381054816626064688618518.
Lemma wAB_ok : fmul (z2q wAB) (z2q wAB) = fopp (fmul A1' B1').
Proof. apply zof_inj. vm_compute. reflexivity. Qed.
Lemma A1'_ne : A1' <> f0 q. Proof. intros E. apply (f_equal zof) in E. vm_compute in E. discriminate E. Qed.
Lemma aux1_exc x0 : fmul (fopp A1') x0 = B1' -> is_square fmul (aux1 x0).
Proof. exact (alg_exc A1' B1' (z2q wAB) x0 A1'_ne wAB_ok). Qed.
Lemma sqrt1_cases (x : Fq) : (exists s, is_square fmul x /\ fq_sqrt x = (s, true) /\ fmul s s = x) \/ (~ is_square fmul x /\ fq_sqrt x = (f0 q, false)).
Proof. destruct (fq_sqrt_spec x) as [S N]. destruct (Fq_square_dec x) as [H|H]; [left; destruct (S H) as [s [E1 E2]]; exists s; auto|right; auto]. Qed.
(** the code with its field operations named *)
Definition x0_1 (t : Fq) : Fq :=
  if feqb (fadd (fmul (fmul (fopp (f1 q)) (fopp (f1 q))) (fmul (fmul t t) (fmul t t))) (fmul (fopp (f1 q)) (fmul t t))) (f0 q)
  then DivAssign1 FpB B1' (fmul (fopp (f1 q)) A1')
  else DivAssign1 FpB (fmul (fopp B1') (fadd (fadd (fmul (fmul (fopp (f1 q)) (fopp (f1 q))) (fmul (fmul t t) (fmul t t))) (fmul (fopp (f1 q)) (fmul t t))) (f1 q)))
         (fmul A1' (fadd (fmul (fmul (fopp (f1 q)) (fopp (f1 q))) (fmul (fmul t t) (fmul t t))) (fmul (fopp (f1 q)) (fmul t t)))).
Definition swu1_code (t : Fq) : option (Affine Fq) :=
  let x0 : Fq := x0_1 t in
  let '(s0, found) := fq_sqrt (aux1 x0) in
  let xy := if found : bool then Some (x0, s0)
    else let x1 := fmul (fmul (fopp (f1 q)) (fmul t t)) x0 in
         let '(s1, found) := fq_sqrt (fadd (fadd (fmul (fmul x1 x1) x1) (fmul A1' x1)) B1') in
         if negb found then None else Some (x1, s1) in
  match xy with
  | None => None
  | Some (x, y) => Some (NewAffine x (fmul y (fmul (signFQ FpB y) (signFQ FpB t))))
  end.
Lemma swu1_form t : optimizedSWUMapHelper FpB t = swu1_code t.
Proof. unfold optimizedSWUMapHelper, swu1_code, x0_1. rewrite negOne_val. reflexivity. Qed.
Lemma D1_form t : fadd (fmul (fmul (fopp (f1 q)) (fopp (f1 q))) (fmul (fmul t t) (fmul t t))) (fmul (fopp (f1 q)) (fmul t t)) = D1 t.
Proof. unfold D1. ring. Qed.
Lemma x0_1_ok t : is_x0_1 t (x0_1 t).
Proof.
  unfold x0_1. rewrite !D1_form. pose proof A1'_ne as NA. destruct (Fp_dec (D1 t) (f0 q)) as [E|N].
  - rewrite E, feqb_refl. left. split; [exact E|]. destruct (alg_exc1 A1' B1' NA) as [N2 EQ]. rewrite DivAssign1_val by exact N2. exact EQ.
  - rewrite feqb_ne by exact N. right. split; [exact N|]. rewrite DivAssign1_val by (apply Fq_mul_ne; assumption). exact (alg_x0 A1' B1' (D1 t) NA N).
Qed.
Theorem swu1_ok t : exists P, optimizedSWUMapHelper FpB t = Some P /\ swu_spec1 t P.
Proof.
  rewrite swu1_form. unfold swu1_code. cbv zeta. pose proof (x0_1_ok t) as HX. set (x0 := x0_1 t) in *. clearbody x0.
  destruct (sqrt1_cases (aux1 x0)) as [(s & S & -> & E)|[NS ->]].
  - eexists. split; [reflexivity|]. destruct (sign_fix1 t s) as [F1 F2]. split; [reflexivity|]. cbn [ax ay NewAffine]. split; [rewrite F1; exact E|]. split; [exact F2|].
    exists x0. split; [exact HX|]. left. auto.
  - set (x1 := fmul (fmul (fopp (f1 q)) (fmul t t)) x0). destruct HX as [[ED EX]|[ND EX]]; [destruct (NS (aux1_exc x0 EX))|].
    assert (aux1 x1 = fmul (fmul (fmul (fmul (fopp (f1 q)) (fopp (f1 q))) (fopp (f1 q))) (fmul (fmul (fmul t t) t) (fmul (fmul t t) t))) (aux1 x0)) as G.
    { exact (swu_alg1 A1' B1' (fopp (f1 q)) t x0 (D1 t) x1 (eq_sym (D1_form t)) A1'_ne ND EX eq_refl). }
    assert (is_square fmul (aux1 x1)) as S1.
    { destruct (nonsq_mul1 _ _ neg1_nonsquare NS) as [w W]. rewrite G. exact (alg_sq6 t w (aux1 x0) W). }
    change (fadd (fadd (fmul (fmul x1 x1) x1) (fmul A1' x1)) B1') with (aux1 x1).
    destruct (sqrt1_cases (aux1 x1)) as [(s & _ & -> & E)|[N _]]; [|contradiction]. cbn [negb].
    eexists. split; [reflexivity|]. destruct (sign_fix1 t s) as [F1 F2]. split; [reflexivity|]. cbn [ax ay NewAffine]. split; [rewrite F1; exact E|]. split; [exact F2|].
    exists x0. split; [right; auto|]. right. split; [exact NS|]. unfold x1. ring.
Qed.

(** ** G2 *)
Definition big2 (y : K2) : bool := (half <? zof (c1 y)) || ((zof (c1 y) =? 0) && (half <? zof (c0 y))).
Definition D2 (t : K2) : K2 := k2_add (k2_mul (k2_mul k2_xi k2_xi) (k2_mul (k2_mul t t) (k2_mul t t))) (k2_mul k2_xi (k2_mul t t)).
Definition is_x0_2 (t x0 : K2) : Prop :=
  (D2 t = k2_0 /\ k2_mul (k2_mul k2_xi A2') x0 = B2') \/ (D2 t <> k2_0 /\ k2_mul (k2_mul A2' (D2 t)) x0 = k2_mul (k2_opp B2') (k2_add (D2 t) k2_1)).
Definition swu_spec2 (t : K2) (P : Affine K2) : Prop :=
  ainf P = false /\ k2_mul (ay P) (ay P) = aux2 (ax P) /\ (ay P = k2_0 \/ big2 (ay P) = big2 t) /\
  exists x0, is_x0_2 t x0 /\ ((is_square k2_mul (aux2 x0) /\ ax P = x0) \/ (~ is_square k2_mul (aux2 x0) /\ ax P = k2_mul (k2_mul k2_xi (k2_mul t t)) x0)).
Lemma zof_opp (y : Fq) : zof (fopp y) = if zof y =? 0 then 0 else q - zof y.
Proof.
  unfold fopp. rewrite zof_zp. pose proof (zof_bound q prime_q y) as R. destruct (Z.eqb_spec (zof y) 0) as [->|N]; [reflexivity|].
  rewrite Z.mod_opp_l_nz, Z.mod_small; rewrite ?Z.mod_small; lia.
Qed.
Lemma big2_opp y : y <> k2_0 -> big2 (k2_opp y) = negb (big2 y).
Proof.
  intros N. unfold big2, k2_opp. cbn [c0 c1]. rewrite !zof_opp. pose proof (zof_bound q prime_q (c0 y)) as R0. pose proof (zof_bound q prime_q (c1 y)) as R1. pose proof q12_eq as Q. fold half in Q.
  assert (zof (c1 y) = 0 -> zof (c0 y) <> 0) as NZ. { intros E1 E0. apply N. apply k2_eq; apply zof_inj; assumption. }
  destruct (Z.eqb_spec (zof (c1 y)) 0) as [E|E]; destruct (Z.eqb_spec (zof (c0 y)) 0) as [E'|E']; try (destruct (NZ E E'));
  repeat match goal with |- context [?a =? ?b] => destruct (Z.eqb_spec a b) | |- context [?a <? ?b] => destruct (Z.ltb_spec a b) end; cbn; try reflexivity; lia.
Qed.
Lemma signFQ2_val (f : K2) : signFQ2 FpB f = if big2 f then -1 else 1.
Proof.
  unfold signFQ2. cbv zeta. cbn [b_ops FpB o_cmp FpO o_zero]. assert (zof (b_of FpB qMinus1Over2) = half) as -> by (vm_compute; reflexivity).
  change (zof (f0 q)) with 0. pose proof (zof_bound q prime_q (c0 f)) as R0. pose proof (zof_bound q prime_q (c1 f)) as R1. assert (0 < half) as H by reflexivity.
  unfold big2, zcmp. destruct (Z.ltb_spec half (zof (c1 f))), (Z.eqb_spec (zof (c1 f)) 0), (Z.ltb_spec half (zof (c0 f))), (Z.compare_spec (zof (c1 f)) half), (Z.compare_spec (zof (c1 f)) 0), (Z.compare_spec (zof (c0 f)) half), (Z.compare_spec (zof (c0 f)) 0); cbn; try reflexivity; lia.
Qed.
Lemma sign_fix2 (t y : K2) : let y' := if negb (signFQ2 FpB t =? signFQ2 FpB y) then FQ2_NegAssign FpB y else y in k2_mul y' y' = k2_mul y y /\ (y' = k2_0 \/ big2 y' = big2 t).
Proof.
  cbv zeta. rewrite !signFQ2_val, m2_neg. destruct (k2_dec y k2_0) as [->|N].
  { split; destruct (negb _); try (left; ring); ring. }
  destruct (big2 y) eqn:Ey, (big2 t) eqn:Et; cbn [negb Z.eqb Pos.eqb]; (split; [ring|right]); rewrite ?big2_opp, ?Ey by exact N; reflexivity.
Qed.
Lemma xi_val : fq2nqr FpB = k2_xi. Proof. reflexivity. Qed.
Lemma sqrt2_cases (x : K2) : (exists s, is_square k2_mul x /\ k2_sqrt x = (s, true) /\ k2_mul s s = x) \/ (~ is_square k2_mul x /\ k2_sqrt x = (k2_0, false)).
Proof. destruct (k2_sqrt_spec x) as [S N]. destruct (k2_square_dec x) as [H|H]; [left; destruct (S H) as [s [E1 E2]]; exists s; auto|right; auto]. Qed.
Lemma xi_nonsq : ~ is_square k2_mul k2_xi. Proof. intros [y E]. exact (xi_not_square y E). Qed.
Lemma A2'_ne : A2' <> k2_0. Proof. intros E. apply (f_equal c1) in E. apply (f_equal zof) in E. vm_compute in E. discriminate E. Qed.
Lemma alg_exc2 (A B xi : K2) : A <> k2_0 -> xi <> k2_0 -> k2_mul (k2_mul xi A) (k2_mul B (k2_inv (k2_mul xi A))) = B.
Proof. intros. field. auto. Qed.
Lemma alg_x02 (A B D : K2) : A <> k2_0 -> D <> k2_0 -> k2_mul (k2_mul A D) (k2_mul (k2_mul (k2_opp B) (k2_add D k2_1)) (k2_inv (k2_mul A D))) = k2_mul (k2_opp B) (k2_add D k2_1).
Proof. intros. field. auto. Qed.
Lemma alg_exc2' (A B xi w x : K2) : A <> k2_0 -> xi <> k2_0 ->
  k2_mul w w = k2_mul (k2_mul xi A) (k2_add (k2_add (k2_mul B (k2_mul B B)) (k2_mul (k2_mul A B) (k2_mul (k2_mul xi A) (k2_mul xi A)))) (k2_mul B (k2_mul (k2_mul xi A) (k2_mul (k2_mul xi A) (k2_mul xi A))))) ->
  k2_mul (k2_mul xi A) x = B -> is_square k2_mul (k2_add (k2_add (k2_mul (k2_mul x x) x) (k2_mul A x)) B).
Proof.
  intros NA NX W <-. set (z := k2_mul xi A) in *. assert (z <> k2_0) as Nz by (apply k2_mul_ne; assumption).
  exists (k2_mul w (k2_inv (k2_mul z z))). transitivity (k2_mul (k2_mul w w) (k2_mul (k2_inv (k2_mul z z)) (k2_inv (k2_mul z z)))); [ring|]. rewrite W. clearbody z. field. exact Nz.
Qed.
Definition w2 : FQ2 Z := mkFQ2 2093406976014538871708279760842543290285976098650482327568843868324823340096322865840638094958221168632273420810521 3882603684362569373569564459957205283848389276966311801839958935478105872021640673952859427992964432450124866526989.
Definition w2_rhs {F} (B : BOps F) : FQ2 F :=
  let mul := FQ2_MulAssign B in let add := FQ2_AddAssign B in let A := ell2pA B in let b := ell2pB B in let z := mul (fq2nqr B) A in
  mul z (add (add (mul b (mul b b)) (mul (mul A b) (mul z z))) (mul b (mul z (mul z z)))).
Lemma rel_w2_rhs {F F'} (B : BOps F) (B' : BOps F') R {HB : RelB B B' R} : R2 R (w2_rhs B) (w2_rhs B').
Proof.
  unfold w2_rhs. cbv zeta. pose proof (rel_ell2pA B B' R) as HA. pose proof (rel_ell2pB B B' R) as Hb. pose proof (rel_fq2nqr B B' R) as HX.
  pose proof (rel_FQ2_MulAssign B B' R) as HM. pose proof (rel_FQ2_AddAssign B B' R) as HP. repeat first [assumption|apply HM|apply HP].
Qed.
Definition w2k : K2 := mkFQ2 (z2q (c0 w2)) (z2q (c1 w2)).
Lemma w2_ok : k2_mul w2k w2k = w2_rhs FpB.
Proof. refine (R2Z_eq _ _ _ _ (zmul2_rel _ _ _ _ (R2Z_of (c0 w2) (c1 w2) _ _) (R2Z_of (c0 w2) (c1 w2) _ _)) (rel_w2_rhs ZB FpB RZ) _); vm_compute; try split; reflexivity || discriminate. Qed.
Lemma w2_rhs_form : w2_rhs FpB = k2_mul (k2_mul k2_xi A2') (k2_add (k2_add (k2_mul B2' (k2_mul B2' B2')) (k2_mul (k2_mul A2' B2') (k2_mul (k2_mul k2_xi A2') (k2_mul k2_xi A2')))) (k2_mul B2' (k2_mul (k2_mul k2_xi A2') (k2_mul (k2_mul k2_xi A2') (k2_mul k2_xi A2'))))).
Proof. unfold w2_rhs. cbv zeta. rewrite !m2_mul, !m2_add, xi_val. reflexivity. Qed.
Lemma aux2_exc x0 : k2_mul (k2_mul k2_xi A2') x0 = B2' -> is_square k2_mul (aux2 x0).
Proof. exact (alg_exc2' A2' B2' k2_xi w2k x0 A2'_ne k2_xi_ne (eq_trans w2_ok w2_rhs_form)). Qed.
Lemma swu_alg2 (A B xi t x0 D x1 : K2) : D = k2_add (k2_mul (k2_mul xi xi) (k2_mul (k2_mul t t) (k2_mul t t))) (k2_mul xi (k2_mul t t)) -> A <> k2_0 -> D <> k2_0 -> k2_mul (k2_mul A D) x0 = k2_mul (k2_opp B) (k2_add D k2_1) ->
  x1 = k2_mul (k2_mul xi (k2_mul t t)) x0 ->
  k2_add (k2_add (k2_mul (k2_mul x1 x1) x1) (k2_mul A x1)) B = k2_mul (k2_mul (k2_mul (k2_mul xi xi) xi) (k2_mul (k2_mul (k2_mul t t) t) (k2_mul (k2_mul t t) t))) (k2_add (k2_add (k2_mul (k2_mul x0 x0) x0) (k2_mul A x0)) B).
Proof. exact (swu_alg' FldQ2 A B xi t x0 D x1). Qed.
Lemma alg_sq62 (xi t w g : K2) : k2_mul w w = k2_mul xi g -> is_square k2_mul (k2_mul (k2_mul (k2_mul (k2_mul xi xi) xi) (k2_mul (k2_mul (k2_mul t t) t) (k2_mul (k2_mul t t) t))) g).
Proof.
  intros W. exists (k2_mul (k2_mul xi (k2_mul (k2_mul t t) t)) w). transitivity (k2_mul (k2_mul (k2_mul xi xi) (k2_mul (k2_mul (k2_mul t t) t) (k2_mul (k2_mul t t) t))) (k2_mul w w)); [ring|]. rewrite W. ring.
Qed.
Definition x0_2 (t : K2) : K2 :=
  if k2_dec (D2 t) k2_0 then FQ2_DivAssign FpB B2' (k2_mul k2_xi A2')
  else FQ2_DivAssign FpB (k2_mul (k2_opp B2') (k2_add (D2 t) k2_1)) (k2_mul A2' (D2 t)).
Lemma x0_2_ok t : is_x0_2 t (x0_2 t).
Proof.
  unfold x0_2, is_x0_2. pose proof A2'_ne as NA. pose proof k2_xi_ne as NX. destruct (k2_dec (D2 t) k2_0) as [E|N].
  - left. split; [exact E|]. rewrite DivAssign2_val by (apply k2_mul_ne; assumption). exact (alg_exc2 A2' B2' k2_xi NA NX).
  - right. split; [exact N|]. rewrite DivAssign2_val by (apply k2_mul_ne; assumption). exact (alg_x02 A2' B2' (D2 t) NA N).
Qed.
Definition swu2_code (t : K2) : option (option (Affine K2)) :=
  let x0 : K2 := x0_2 t in
  let gx0 := aux2 x0 in
  let '(s0, found) := k2_sqrt gx0 in
  if found && FQ2_Equals FpB (k2_mul s0 s0) gx0 then Some (Some (NewAffine x0 (if negb (signFQ2 FpB t =? signFQ2 FpB s0) then FQ2_NegAssign FpB s0 else s0)))
  else
    let gx1 := k2_mul (k2_mul (k2_mul (k2_mul k2_xi k2_xi) k2_xi) (k2_mul (k2_mul (k2_mul t t) t) (k2_mul (k2_mul t t) t))) gx0 in
    let '(y1, found) := k2_sqrt gx1 in
    if negb found then None
    else if FQ2_Equals FpB (k2_mul y1 y1) gx1 then Some (Some (NewAffine (k2_mul (k2_mul k2_xi (k2_mul t t)) x0) (if negb (signFQ2 FpB t =? signFQ2 FpB y1) then FQ2_NegAssign FpB y1 else y1)))
    else Some None.
Lemma swu2_form t : OptimizedSWU2MapHelper FpB t = swu2_code t.
Proof.
  unfold OptimizedSWU2MapHelper, swu2_code. cbv zeta. change (@FQ2_AddAssign Fq FpB) with k2_add. change (@FQ2_NegAssign Fq FpB) with k2_opp. rewrite xi_val, !m2_sq, !m2_mul. fold A2' B2'. rewrite m2_equals_dec.
  change (k2_add (k2_mul (k2_mul k2_xi k2_xi) (k2_mul (k2_mul t t) (k2_mul t t))) (k2_mul k2_xi (k2_mul t t))) with (D2 t).
  change (FQ2Zero FpB) with k2_0. change (FQ2One FpB) with k2_1.
  assert ((if if k2_dec (D2 t) k2_0 then true else false then FQ2_DivAssign FpB B2' (k2_mul k2_xi A2') else FQ2_DivAssign FpB (k2_mul (k2_opp B2') (k2_add (D2 t) k2_1)) (k2_mul A2' (D2 t))) = x0_2 t) as -> by (unfold x0_2; destruct (k2_dec (D2 t) k2_0); reflexivity).
  change (k2_add (k2_add (k2_mul (k2_mul (x0_2 t) (x0_2 t)) (x0_2 t)) (k2_mul A2' (x0_2 t))) B2') with (aux2 (x0_2 t)). rewrite !m2_sqrt. destruct (k2_sqrt (aux2 (x0_2 t))) as [s0 f0]. rewrite !m2_sq.
  destruct (f0 && _); [reflexivity|]. destruct (k2_sqrt _) as [y1 f1]. rewrite !m2_sq. reflexivity.
Qed.
Lemma eq_refl2 (a b : K2) : a = b -> FQ2_Equals FpB a b = true. Proof. intros ->. apply m2_equals. reflexivity. Qed.
Theorem swu2_ok t : exists P, OptimizedSWU2MapHelper FpB t = Some (Some P) /\ swu_spec2 t P.
Proof.
  rewrite swu2_form. unfold swu2_code. cbv zeta. pose proof (x0_2_ok t) as HX. set (x0 := x0_2 t) in *. clearbody x0.
  destruct (sqrt2_cases (aux2 x0)) as [(s & S & -> & E)|[NS ->]].
  - rewrite (eq_refl2 _ _ E). cbn [andb]. eexists. split; [reflexivity|]. destruct (sign_fix2 t s) as [F1 F2]. split; [reflexivity|]. cbn [ax ay NewAffine]. split; [rewrite F1; exact E|]. split; [exact F2|].
    exists x0. split; [exact HX|]. left. auto.
  - cbn [andb]. destruct HX as [[ED EX]|[ND EX]]; [destruct (NS (aux2_exc x0 EX))|].
    set (x1 := k2_mul (k2_mul k2_xi (k2_mul t t)) x0).
    pose proof (swu_alg2 A2' B2' k2_xi t x0 (D2 t) x1 eq_refl A2'_ne ND EX eq_refl) as G. fold (aux2 x1) (aux2 x0) in G. rewrite <- G.
    assert (is_square k2_mul (aux2 x1)) as S1.
    { destruct (nonsq_mul2 _ _ xi_nonsq NS) as [w W]. rewrite G. exact (alg_sq62 k2_xi t w (aux2 x0) W). }
    destruct (sqrt2_cases (aux2 x1)) as [(s & _ & -> & E)|[N _]]; [|contradiction]. cbn [negb]. rewrite (eq_refl2 _ _ E).
    eexists. split; [reflexivity|]. destruct (sign_fix2 t s) as [F1 F2]. split; [reflexivity|]. cbn [ax ay NewAffine]. split; [rewrite F1; exact E|]. split; [exact F2|].
    exists x0. split; [right; auto|]. right. split; [exact NS|reflexivity].
Qed.
(** no point of the auxiliary curve over GF(q^2) is in the kernel of the 3-isogeny *)
Definition ker3 : K2 := mkFQ2 (z2q 6) (fopp (z2q 6)).
Lemma k2_zof (a b : K2) : zof (c0 a) = zof (c0 b) -> zof (c1 a) = zof (c1 b) -> a = b.
Proof. intros H0 H1. apply k2_eq; apply zof_inj; assumption. Qed.
Lemma xDen3_list : map (of_pair FpB) xDen3_repr = [k2_mul ker3 ker3; k2_add ker3 ker3; k2_1].
Proof.
  change (map (of_pair FpB) xDen3_repr) with [of_pair FpB (nth 0 xDen3_repr (QFieldModulus, QFieldModulus)); of_pair FpB (nth 1 xDen3_repr (QFieldModulus, QFieldModulus)); of_pair FpB (nth 2 xDen3_repr (QFieldModulus, QFieldModulus))].
  apply f_equal2; [|apply f_equal2; [|apply f_equal2; [|reflexivity]]]; apply k2_zof; vm_compute; reflexivity.
Qed.
Lemma horner3 (a b c x : K2) : horner (FQ2O FpB) [a; b; c] x = k2_add (k2_mul (k2_add (k2_mul c x) b) x) a.
Proof. unfold horner. cbn [rev app fold_left]. cbn [FQ2O o_add o_mul]. rewrite !m2_mul. reflexivity. Qed.
Lemma sq_form (k x : K2) : k2_add (k2_mul (k2_add (k2_mul k2_1 x) (k2_add k k)) x) (k2_mul k k) = k2_mul (k2_add x k) (k2_add x k). Proof. ring. Qed.
Lemma xden3_form x : xden3 x = k2_mul (k2_add x ker3) (k2_add x ker3).
Proof. unfold xden3. rewrite xDen3_list, horner3. exact (sq_form ker3 x). Qed.
Lemma aux2_ker : aux2 (k2_opp ker3) = k2_mul (k2_mul (k2_add k2_1 k2_1) (k2_add k2_1 k2_1)) k2_xi.
Proof. apply k2_zof; vm_compute; reflexivity. Qed.
Lemma nonsq_4 (two xi y : K2) : two <> k2_0 -> k2_mul y y = k2_mul (k2_mul two two) xi -> is_square k2_mul xi.
Proof. intros N E. exists (k2_mul y (k2_inv two)). transitivity (k2_mul (k2_mul y y) (k2_mul (k2_inv two) (k2_inv two))); [ring|]. rewrite E. field. exact N. Qed.
Lemma two2_ne : k2_add k2_1 k2_1 <> k2_0. Proof. intros E. apply (f_equal c0) in E. apply (f_equal zof) in E. vm_compute in E. discriminate E. Qed.
Lemma add_opp0 (x k : K2) : k2_add x k = k2_0 -> x = k2_opp k. Proof. intros E. transitivity (k2_add (k2_add x k) (k2_opp k)); [ring|]. rewrite E. ring. Qed.
Theorem xden3_ne x y : k2_mul y y = aux2 x -> xden3 x <> k2_0.
Proof.
  intros H E. rewrite xden3_form in E. destruct (k2_dec (k2_add x ker3) k2_0) as [Z|N]; [|exact (k2_mul_ne _ _ N N E)].
  pose proof (add_opp0 _ _ Z) as EX. rewrite EX, aux2_ker in H. exact (xi_nonsq (nonsq_4 _ _ _ two2_ne H)).
Qed.
