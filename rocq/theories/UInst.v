(** The base-field operations on 28-bit machine limbs: an instance of the operations the model is generic in, related to
    [FpB].  It plays no role in the meaning of the model; it lets closed terms be evaluated quickly. *)
Require Import ZArith Lia Bool List Znumtheory Zpow_facts Uint63.
From Verif Require Import Words ModelRepr ReprProofs ReprProofs2 ModelFq ModelOps ModelTower NumTheory Primality Fp FpOps FqProofs FqProofs2 OpsRel OpsRel2 UNat.
Import ListNotations.
Open Scope Z_scope.

Definition UL := list int.
Definition ql : UL := Eval vm_compute in limbs 14 q.
Definition qn : int := 268238845%uint63.
Definition RI : Z := 2514128865546716520952785953976253554081406324674822213899145074122859742170541280619393841074214235878037313279475.
Definition RM : Z := 841507118384846930603904782286659577068546992854475957976608454345014266374498126479335845418930671003198667881656.
Lemma ql_eq : ql = limbs 14 q. Proof. vm_compute. reflexivity. Qed.
Lemma ql_ok : ev ql = q /\ bd (W - 1) ql /\ length ql = 14%nat.
Proof. rewrite ql_eq. apply limbs_spec. split; [discriminate|reflexivity]. Qed.
Lemma qn_ok : (to_Z (match ql with n0 :: _ => n0 | [] => 0%uint63 end) * to_Z qn) mod UNat.W = UNat.W - 1.
Proof. vm_compute. reflexivity. Qed.
Lemma pw14 : pw 14 mod q = RM. Proof. vm_compute. reflexivity. Qed.
Lemma RI_ok : (RI * RM) mod q = 1. Proof. vm_compute. reflexivity. Qed.
Notation wfu := (wf 14 q).
Definition umul : UL -> UL -> UL := mmul ql qn.
Definition uadd : UL -> UL -> UL := madd ql.
Definition usub : UL -> UL -> UL := msub ql.
Definition ofq (z : Z) : UL := limbs 14 ((z * RM) mod q).
Definition u0 : UL := Eval vm_compute in ofq 0.
Definition u1 : UL := Eval vm_compute in ofq 1.
Definition un : UL := Eval vm_compute in limbs 14 1.
Definition toq (u : UL) : Z := ev (umul u un).
Definition RU (u : UL) (x : Fq) : Prop := wfu u /\ ev u = (zof x * RM) mod q.
Definition N2q : 2 * q < pw 14. Proof. vm_compute. reflexivity. Qed.
Definition k16q : (1 <= 14 <= 24)%nat. Proof. lia. Qed.
Lemma umul_ok a b : wfu a -> wfu b -> wfu (umul a b) /\ (pw 14 * ev (umul a b)) mod q = (ev a * ev b) mod q.
Proof. exact (mmul_spec ql qn 14 q (proj1 (proj2 ql_ok)) (proj2 (proj2 ql_ok)) (proj1 ql_ok) k16q N2q q_pos qn_ok a b). Qed.
Lemma uadd_ok a b : wfu a -> wfu b -> wfu (uadd a b) /\ ev (uadd a b) = (ev a + ev b) mod q.
Proof. exact (madd_spec ql 14 q (proj1 (proj2 ql_ok)) (proj2 (proj2 ql_ok)) (proj1 ql_ok) k16q N2q q_pos a b). Qed.
Lemma usub_ok a b : wfu a -> wfu b -> wfu (usub a b) /\ ev (usub a b) = (ev a - ev b) mod q.
Proof. exact (msub_spec ql 14 q (proj1 (proj2 ql_ok)) (proj2 (proj2 ql_ok)) (proj1 ql_ok) k16q N2q q_pos a b). Qed.
Lemma R_cancel a b : (RM * a) mod q = (RM * b) mod q -> a mod q = b mod q.
Proof.
  pose proof q_pos as Q. intros H. assert (forall c, c mod q = (RI * ((RM * c) mod q)) mod q) as F.
  { intros c. rewrite Z.mul_mod_idemp_r, Z.mul_assoc, <- Z.mul_mod_idemp_l, RI_ok, Z.mul_1_l by lia. reflexivity. }
  rewrite (F a), (F b), H. reflexivity.
Qed.
Lemma RU_mul u v x y : RU u x -> RU v y -> RU (umul u v) (fmul x y).
Proof.
  pose proof q_pos as Q. intros [Wu Eu] [Wv Ev]. destruct (umul_ok u v Wu Wv) as [W E]. split; [exact W|].
  pose proof (proj2 (proj2 W)) as L. pose proof (ev_nonneg (umul u v)) as P. rewrite <- (Z.mod_small (ev (umul u v)) q) by lia. apply R_cancel.
  rewrite <- Z.mul_mod_idemp_l, pw14 in E by lia. rewrite E, Eu, Ev. unfold fmul. rewrite zof_zp.
  rewrite <- Z.mul_mod by lia. replace (RM * ((zof x * zof y) mod q * RM)) with (((zof x * zof y) mod q) * (RM * RM)) by ring. rewrite Z.mul_mod_idemp_l by lia. f_equal. ring.
Qed.
Lemma RU_add u v x y : RU u x -> RU v y -> RU (uadd u v) (fadd x y).
Proof.
  pose proof q_pos as Q. intros [Wu Eu] [Wv Ev]. destruct (uadd_ok u v Wu Wv) as [W E]. split; [exact W|]. rewrite E, Eu, Ev. unfold fadd. rewrite zof_zp.
  rewrite <- Z.add_mod, Z.mul_mod_idemp_l by lia. f_equal. ring.
Qed.
Lemma RU_sub u v x y : RU u x -> RU v y -> RU (usub u v) (fsub x y).
Proof.
  pose proof q_pos as Q. intros [Wu Eu] [Wv Ev]. destruct (usub_ok u v Wu Wv) as [W E]. split; [exact W|]. rewrite E, Eu, Ev. unfold fsub. rewrite zof_zp.
  rewrite <- Zminus_mod, Z.mul_mod_idemp_l by lia. f_equal. ring.
Qed.
Lemma RU_of z : RU (ofq z) (z2q z).
Proof.
  pose proof q_pos as Q. pose proof (Z.mod_pos_bound (z * RM) q Q) as B. destruct (limbs_spec 14 ((z * RM) mod q)) as (E & D & L); [pose proof N2q; lia|].
  unfold ofq. split; [split; [exact D|split; [exact L|lia]]|]. rewrite E. unfold z2q. rewrite zof_zp, Z.mul_mod_idemp_l by lia. reflexivity.
Qed.
Lemma RU_ofx x : RU (ofq (zof x)) x.
Proof. pose proof (RU_of (zof x)) as H. unfold z2q in H. rewrite zp_zof in H. exact H. Qed.
Lemma un_ok : wfu un /\ ev un = 1.
Proof. destruct (limbs_spec 14 1) as (E & D & L); [split; [discriminate|reflexivity]|]. change un with (limbs 14 1). pose proof q_gt_2. unfold wf. rewrite E. auto with zarith. Qed.
Lemma toq_ok u x : RU u x -> toq u = zof x.
Proof.
  pose proof q_pos as Q. intros [Wu Eu]. destruct un_ok as [W1 E1]. destruct (umul_ok u un Wu W1) as [W E]. unfold toq.
  pose proof (proj2 (proj2 W)) as L. pose proof (ev_nonneg (umul u un)) as P. rewrite <- (Z.mod_small (ev (umul u un)) q), <- (zof_mod x) by lia. apply R_cancel.
  rewrite <- Z.mul_mod_idemp_l, pw14 in E by lia. rewrite E, Eu, E1, Z.mul_1_r, Z.mod_mod by lia. f_equal. ring.
Qed.
Lemma RU_inj u x y : RU u x -> RU u y -> x = y.
Proof. intros H H'. apply Fp_eq. rewrite <- (toq_ok _ _ H). apply toq_ok, H'. Qed.
Lemma RU_inj_l u v x : RU u x -> RU v x -> u = v.
Proof. intros [(B & L & _) E] [(B' & L' & _) E']. apply ev_inj; congruence. Qed.
Lemma RU_eqb u v x y : RU u x -> RU v y -> leqb u v = feqb x y.
Proof.
  intros H H'. apply eq_true_iff_eq. rewrite leqb_spec. unfold feqb. rewrite Z.eqb_eq. split.
  - intros ->. rewrite <- (toq_ok _ _ H). apply toq_ok, H'.
  - intros E. apply Fp_eq in E. subst y. eapply RU_inj_l; eassumption.
Qed.
Fixpoint upow (a : UL) (e : positive) : UL :=
  match e with xH => a | xO e => let b := upow a e in umul b b | xI e => let b := upow a e in umul (umul b b) a end.
Definition upowz (a : UL) (e : Z) : UL := match e with Zpos e => upow a e | _ => u1 end.
Lemma RU_1 : RU u1 (f1 q). Proof. exact (RU_of 1). Qed.
Lemma RU_0 : RU u0 (f0 q). Proof. exact (RU_of 0). Qed.
Lemma RU_pow u x e : RU u x -> RU (upow u e) (pwq x (Zpos e)).
Proof.
  intros H. induction e as [e IH|e IH|]; cbn [upow].
  - change (Zpos e~1) with (2 * Zpos e + 1). rewrite (zpow_double1 _ _ _ _ _ _ Fq_ring) by lia. auto using RU_mul.
  - change (Zpos e~0) with (2 * Zpos e). rewrite (zpow_double _ _ _ _ _ _ Fq_ring) by lia. auto using RU_mul.
  - rewrite (zpow_1 _ _ _ _ _ _ Fq_ring). exact H.
Qed.
Lemma RU_powz u x e : 0 <= e -> RU u x -> RU (upowz u e) (pwq x e).
Proof. intros He H. destruct e as [|e|e]; [exact RU_1|apply RU_pow, H|lia]. Qed.
(** conversion by one Montgomery multiplication *)
Definition uRR : UL := Eval vm_compute in ofq RM.
Definition uRQ : UL := Eval vm_compute in ofq RQinv.
Definition ofm (z : Z) : UL := umul (limbs 14 (if (0 <=? z) && (z <? q) then z else z mod q)) uRR.
Lemma RU_ofm z : RU (ofm z) (z2q z).
Proof.
  pose proof q_pos as Q. unfold ofm. set (c := if _ && _ then z else z mod q).
  assert (0 <= c < q /\ c = z mod q) as [Hc Ec].
  { unfold c. destruct (Z.leb_spec 0 z) as [H1|H1], (Z.ltb_spec z q) as [H2|H2]; cbn [andb]; try (pose proof (Z.mod_pos_bound z q Q); lia). rewrite Z.mod_small by lia. lia. }
  clearbody c. destruct (limbs_spec 14 c) as (E & D & L); [pose proof N2q; lia|].
  assert (RU (limbs 14 c) (z2q (c * RI))) as H1.
  { split; [unfold wf; rewrite E; auto with zarith|]. rewrite E. unfold z2q. rewrite zof_zp, Z.mul_mod_idemp_l, <- Z.mul_assoc, <- Z.mul_mod_idemp_r, RI_ok, Z.mul_1_r, Z.mod_small by lia. reflexivity. }
  pose proof (RU_mul _ _ _ _ H1 (RU_of RM)) as H. change (ofq RM) with uRR in H. replace (z2q z) with (fmul (z2q (c * RI)) (z2q RM)); [exact H|].
  apply Fp_eq. unfold fmul, z2q. rewrite !zof_zp, <- Z.mul_mod, <- Z.mul_assoc, <- Z.mul_mod_idemp_r, RI_ok, Z.mul_1_r, Ec, Z.mod_mod by lia. reflexivity.
Qed.
Lemma RU_raw z : RU (umul (ofm z) uRQ) (z2q (z * RQinv)).
Proof.
  pose proof q_pos as Q. pose proof (RU_mul _ _ _ _ (RU_ofm z) (RU_of RQinv)) as H. change (ofq RQinv) with uRQ in H. replace (z2q (z * RQinv)) with (fmul (z2q z) (z2q RQinv)); [exact H|].
  apply Fp_eq. unfold fmul, z2q. rewrite !zof_zp, <- Z.mul_mod by lia. reflexivity.
Qed.
Definition UO : Ops UL := {|
  o_zero := u0; o_one := u1; o_add := uadd; o_sub := usub; o_mul := umul; o_sq := fun a => umul a a; o_dbl := fun a => uadd a a; o_neg := usub u0;
  o_inv := fun a => if leqb a u0 then (u0, false) else (upowz a (q - 2), true);
  o_iszero := fun a => leqb a u0; o_equals := leqb; o_cmp := fun a b => if leqb a b then 0 else zcmp (toq a) (toq b);
  o_sqrt := fun a => let a1 := upowz a ((q - 3) / 4) in if leqb (umul (umul a1 a1) a) (usub u0 u1) then (u0, false) else (umul a1 a, true) |}.
Definition UB : BOps UL := {|
  b_ops := UO;
  b_raw := fun n => umul (ofm (eval6 n)) uRQ;
  b_of := fun n => if eval6 n <? q then ofm (eval6 n) else u0;
  b_repr := fun a => FQRepr_const (toq a);
  b_exp := fun a n => upowz a (eval6 n);
  b_legendre := fun a => let o := upowz a ((q - 1) / 2) in if leqb o u0 then LegendreZero else if leqb o u1 then LegendreQuadraticResidue else LegendreQuadraticNonResidue |}.
Lemma finv_pow x : pwq x (q - 2) = finv x.
Proof. apply Fp_eq. pose proof q_gt_2. rewrite zpow_zof by lia. unfold finv. rewrite zof_zp, Zpow_mod_correct, Z.mod_mod by lia. reflexivity. Qed.
Lemma fneg_eq x : fsub (f0 q) x = fopp x. Proof. ring. Qed.
#[global] Instance RelO_U : RelO UO FpO RU.
Proof.
  constructor; cbn [UO FpO o_zero o_one o_add o_sub o_mul o_sq o_dbl o_neg o_inv o_iszero o_equals o_cmp o_sqrt]; intros; auto using RU_mul, RU_add, RU_sub, RU_0, RU_1, RU_eqb.
  - rewrite <- fneg_eq. auto using RU_sub, RU_0.
  - rewrite (RU_eqb _ _ _ _ H RU_0). destruct (feqb a' (f0 q)); split; cbn [fst snd]; auto using RU_0. rewrite <- finv_pow. apply RU_powz; [discriminate|exact H].
  - rewrite (toq_ok _ _ H), (toq_ok _ _ H0), (RU_eqb _ _ _ _ H H0). destruct (feqb a' b') eqn:E; [|reflexivity]. unfold feqb in E. apply Z.eqb_eq in E. unfold zcmp. rewrite E, Z.compare_refl. reflexivity.
  - unfold fq_sqrt. cbv zeta. pose proof (RU_powz _ _ _ q34_pos H) as P.
    assert (RU (usub u0 u1) (fopp (f1 q))) as N by (rewrite <- fneg_eq; auto using RU_sub, RU_0, RU_1).
    rewrite (RU_eqb _ _ _ _ (RU_mul _ _ _ _ (RU_mul _ _ _ _ P P) H) N). destruct (feqb _ _); split; cbn [fst snd]; auto using RU_0, RU_mul.
Qed.
#[global] Instance RelB_U : RelB UB FpB RU.
Proof.
  constructor; cbn [UB FpB b_ops b_raw b_of b_repr b_exp b_legendre]; intros.
  - exact RelO_U.
  - apply RU_raw.
  - destruct (eval6 n <? q); [apply RU_ofm|apply RU_0].
  - rewrite (toq_ok _ _ H). reflexivity.
  - apply RU_powz; [|exact H]. apply eval6_bound; assumption.
  - unfold fq_legendre. cbv zeta. pose proof (RU_powz _ _ _ q12_pos H) as P. rewrite (RU_eqb _ _ _ _ P RU_0), (RU_eqb _ _ _ _ P RU_1). reflexivity.
Qed.
