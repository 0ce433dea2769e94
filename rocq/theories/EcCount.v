(** The automorphism (x, y) -> (z x, y) of order 3, and a bound on the number of points of a curve over a finite field. *)
Require Import ZArith Lia Bool List Ring Field Znumtheory FinFun.
From Verif Require Import Words ModelOps ModelTower ModelCurve NumTheory Primality Fp FpOps FqProofs OpsRel2 Ext TowerProofs Fld EcIdeal EcGroup AbGrp EcMul EcJac Curves LineIdeal Cocycle Recip Span.
Import ListNotations.
Open Scope Z_scope.

Section Aut.
Context (E : Curve) (z : E).
Add Field KF11 : (fTh E).
Hypothesis z3 : (z * z + z + 1 = 0)%F.
Notation b := (cb E).
Lemma z_ne : z <> 0%F.
Proof. intros H. rewrite H in z3. apply (fld_1_ne_0 E). rewrite <- z3. ring. Qed.
Lemma z_cube : (1 * 1 = z * z * z)%F.
Proof. transitivity (1 + (z - 1) * (z * z + z + 1))%F; [rewrite z3; ring|ring]. Qed.
Lemma om_b : b = (1 * 1 * b)%F. Proof. ring. Qed.
Definition om : EC E -> EC E := epsi E (fun x => x) z 1%F (fun _ _ => eq_refl) (fun _ _ => eq_refl) z_ne (fld_1_ne_0 E) z_cube om_b.
Lemma om_hom : hom om.
Proof. exact (epsi_hom E (fun x => x) z 1%F eq_refl (fun _ _ => eq_refl) (fun _ _ => eq_refl) z_ne (fld_1_ne_0 E) z_cube om_b). Qed.
Lemma om_val A : epr E (om A) = match epr E A with Inf => Inf | Pt x y => Pt (x / z)%F (y / 1)%F end.
Proof. reflexivity. Qed.
Lemma chord0 (x1 x2 y : E) : x1 <> x2 \/ (x1 = 0 /\ x2 = 0 /\ y <> 0)%F -> pplus E (Pt x1 y) (Pt x2 y) = Pt (- x1 - x2)%F (- y)%F.
Proof.
  intros H. rewrite pplus_slope. unfold slope. destruct (fDec x1 x2) as [D|D].
  - destruct H as [H|(-> & -> & Ny)]; [contradiction|]. destruct (fDec y y) as [_|]; [|contradiction]. destruct (fDec y 0%F) as [|_]; [contradiction|]. pose proof (c2_ne E) as T. unfold chord. f_equal; field; auto.
  - unfold chord. assert ((x2 - x1)%F <> 0%F) by (apply fld_sub_ne; auto). f_equal; field; auto.
Qed.
Lemma om_sum A : gA (gA A (om A)) (om (om A)) = gO.
Proof.
  pose proof z_ne as Nz. apply ec_eq. rewrite !epr_A, !om_val. pose proof (epr_on E A) as HA. destruct (epr E A) as [|x y]; [reflexivity|]. cbn [on] in HA.
  assert ((1%F : E) <> 0%F) as N1 by apply fld_1_ne_0.
  assert ((y / 1)%F = y) as E1 by (field; auto). rewrite !E1.
  assert (x <> (x / z)%F \/ (x = 0 /\ x / z = 0 /\ y <> 0)%F) as C.
  { destruct (fDec x 0%F) as [->|Nx].
    - right. split; [reflexivity|]. split; [field; exact Nz|]. intros ->. apply (cb_ne E). transitivity ((0 * 0 - 0 * 0 * 0)%F : E); [rewrite HA; ring|ring].
    - left. intros H. assert (x * (z - 1) = 0)%F as Z. { transitivity (x * z - x / z * z)%F; [field; exact Nz|]. rewrite <- H. ring. }
      destruct (fld_integral E _ _ Z) as [X|X]; [contradiction|]. apply (proj1 (fld_sub_0 E z 1%F)) in X. rewrite X in z3. apply (c3_ne E). rewrite <- z3. unfold three. ring. }
  rewrite (chord0 _ _ _ C). assert ((- x - x / z)%F = (x / z / z)%F) as ->.
  { apply (fld_cancel E (z * z)%F); [apply fld_mul_ne; exact Nz|]. transitivity (x - x * (z * z + z + 1))%F; [field; exact Nz|]. rewrite z3. field. exact Nz. }
  assert (Pt (x / z / z)%F y = pneg E (Pt (x / z / z)%F (- y)%F)) as -> by (cbn [pneg]; f_equal; ring). exact (pplus_neg_r E (c2_ne E) _).
Qed.
End Aut.

(** ** counting points *)
Section Count.
Context (E : Curve) (O : Ops E) (lt : E -> E -> Prop) (HL : OpsOrd E O lt) (ks : list E) (ks_all : forall x : E, In x ks).
Add Field KF12 : (fTh E).
Definition above (x : E) : list (pt E) := let s := fst (o_sqrt O (x * x * x + cb E)%F) in [Pt x s; Pt x (- s)%F].
Definition allpts : list (pt E) := Inf :: flat_map above ks.
Lemma allpts_all P : on E (cb E) P -> In P allpts.
Proof.
  destruct P as [|x y]; [left; reflexivity|]. intros H. right. apply in_flat_map. exists x. split; [apply ks_all|]. cbn [on] in H.
  destruct (oo_sqrt_some _ _ _ HL _ _ H) as (t & Et & Ht). unfold above. rewrite Et. cbn [fst]. rewrite <- H in Ht.
  destruct (fld_sq_eq E t y Ht) as [->| ->]; [left; reflexivity|right; left]. f_equal. ring.
Qed.
Lemma allpts_len : length allpts = S (length ks * 2).
Proof. unfold allpts. cbn [length]. rewrite (flat_len above ks 2) by reflexivity. reflexivity. Qed.
Theorem ec_bound (l : list (EC E)) : NoDup l -> (length l <= S (length ks * 2))%nat.
Proof.
  intros H. rewrite <- allpts_len, <- (map_length (epr E)). apply NoDup_incl_length.
  - apply Injective_map_NoDup; [|exact H]. intros x y. apply ec_eq.
  - intros P HP. apply in_map_iff in HP. destruct HP as (A & <- & _). apply allpts_all, epr_on.
Qed.
End Count.
Definition ec_dec (E : Curve) (A B : EC E) : {A = B} + {A <> B}.
Proof. destruct (pdec E (epr E A) (epr E B)) as [H|H]; [left; apply ec_eq, H|right; intros ->; apply H; reflexivity]. Defined.

(** the fields *)
Section Zp.
Context (p : Z) (Hp : 0 < p).
Definition allp : list (Fp p) := map (fun n => zp p (Z.of_nat n)) (seq 0 (Z.to_nat p)).
Lemma allp_all x : In x allp.
Proof.
  unfold allp. apply in_map_iff. pose proof (Z.mod_pos_bound (zof x) p Hp) as B. rewrite zof_mod in B. exists (Z.to_nat (zof x)). split; [|apply in_seq; lia]. rewrite Z2Nat.id by lia. apply zp_zof.
Qed.
Lemma allp_len : Z.of_nat (length allp) = p.
Proof. unfold allp. rewrite map_length, seq_length, Z2Nat.id by lia. reflexivity. Qed.
Definition allp2 : list (FQ2 (Fp p)) := map (fun ab => mkFQ2 (fst ab) (snd ab)) (list_prod allp allp).
Lemma allp2_all x : In x allp2.
Proof. destruct x as [a b]. unfold allp2. apply in_map_iff. exists (a, b). split; [reflexivity|]. apply in_prod; apply allp_all. Qed.
Lemma allp2_len : Z.of_nat (length allp2) = p * p.
Proof. unfold allp2. rewrite map_length, prod_length, Nat2Z.inj_mul, allp_len. reflexivity. Qed.
End Zp.
Lemma bound_arith (a n : nat) m : (a <= S (n * 2))%nat -> Z.of_nat n = m -> Z.of_nat a <= 2 * m + 1.
Proof. lia. Qed.
Theorem E1_bound (l : list (EC E1)) : NoDup l -> Z.of_nat (length l) <= 2 * q + 1.
Proof. intros H. exact (bound_arith _ _ _ (ec_bound E1 FpO fq_lt FpO_ord (allp q) (allp_all q q_pos) l H) (allp_len q q_pos)). Qed.
Theorem E2_bound (l : list (EC E2)) : NoDup l -> Z.of_nat (length l) <= 2 * (q * q) + 1.
Proof. intros H. exact (bound_arith _ _ _ (ec_bound E2 (FQ2O FpB) k2_lt FpO2_ord (allp2 q) (allp2_all q q_pos) l H) (allp2_len q q_pos)). Qed.
