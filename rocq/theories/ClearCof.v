(** The cofactor clearing of the hash functions lands in the r-torsion. *)
Require Import ZArith Lia Bool List Znumtheory Field.
From Verif Require Import Words ModelRepr ReprProofs ModelFq ModelOps ModelTower ModelCurve ModelHash NumTheory Primality Fp FpOps FqProofs FqProofs2 FqRel OpsRel OpsRel2 FqTransfer Ext TowerProofs TowerLimb Fld EcIdeal EcGroup AbGrp EcMul EcJac Curves CurveLimb CurveMisc LineIdeal Cocycle Recip BilinBase Bilin ZInst UNat UInst GenFacts Span EcCount GenCheck Gens Torsion.
Import ListNotations.
Open Scope Z_scope.

Definition absx : Z := 0xd201000000010000.
Lemma absx_wf : wf6 (NewFQRepr absx). Proof. apply wf6_intro; cbn; unfold isW, absx; lia. Qed.
Lemma absx_eval : eval6 (NewFQRepr absx) = absx. Proof. reflexivity. Qed.
Lemma exp1_absx : exp1 = absx + 1. Proof. reflexivity. Qed.

Section ClH.
Context (E : Curve) (O : Ops E) (HO : OpsFld E O).
Lemma clear_mul (A : EC E) p : repa E p = epr E A -> repj E (Affine_Mul O p (NewFQRepr absx)) = epr E (gm absx A).
Proof. intros H. rewrite (repj_mul E O HO p (NewFQRepr absx)), absx_eval, epr_gm, H; [reflexivity|rewrite H; apply epr_on|apply absx_wf]. Qed.
Lemma clear_pmul (A : EC E) p : repj E p = epr E A -> repj E (Proj_Mul O p (NewFQRepr absx)) = epr E (gm absx A).
Proof. intros H. rewrite (repj_pmul E O HO p (NewFQRepr absx)), absx_eval, epr_gm, H; [reflexivity|rewrite H; apply epr_on|apply absx_wf]. Qed.
Lemma clear_add (A A' : EC E) p p' : repj E p = epr E A -> repa E p' = epr E A' -> repj E (AddAffine O p p') = epr E (gA A A').
Proof. intros H H'. rewrite (repj_addaffine E O HO (c2_ne E)), H, H'. reflexivity. Qed.
Lemma clear_neg (A : EC E) p : repa E p = epr E A -> repa E (Affine_NegAssign O p) = epr E (gN A).
Proof. intros H. rewrite (repa_neg E O HO), H. reflexivity. Qed.
End ClH.
Theorem ClearH_ok p (A : EC E1) : repa FldQ p = epr E1 A -> repa FldQ (ClearH FpB p) = epr E1 (gm exp1 A).
Proof.
  intros H. unfold ClearH. cbv zeta. rewrite (repa_G1_ToAffine FldQ FpO FpO_ok). rewrite exp1_absx, gm_add, gm_1.
  apply (clear_add E1 FpO FpO_ok); [|exact H]. apply (clear_mul E1 FpO FpO_ok). exact H.
Qed.

(** ** psi *)
(** the two constants of psi: psi(x,y) = (psx * conj x, psy * conj y) *)
Definition psx {F} (B : BOps F) : FQ2 F :=
  FQ2_MulAssign B (fq2nqr B) (mkFQ2 (o_mul (b_ops B) (c0 (iwsc B)) (kQiX B)) (o_neg (b_ops B) (o_mul (b_ops B) (c1 (iwsc B)) (kQiX B)))).
Definition psy {F} (B : BOps F) : FQ2 F :=
  FQ2_MulAssign B (fq2nqr B) (mkFQ2 (o_mul (b_ops B) (o_add (b_ops B) (c0 (iwsc B)) (c1 (iwsc B))) (kQiY B)) (o_mul (b_ops B) (o_sub (b_ops B) (c0 (iwsc B)) (c1 (iwsc B))) (kQiY B))).
Section RelPs.
Context {F F'} (B : BOps F) (B' : BOps F') (R : F -> F' -> Prop) {HB : RelB B B' R}.
Lemma rel_psx : R2 R (psx B) (psx B').
Proof.
  pose proof (rb_ops _ _ _ HB) as HO. destruct (rel_iwsc B B' R) as [I0 I1]. pose proof (rel_kQiX B B' R) as K.
  apply rel_FQ2_MulAssign; [exact HB|apply rel_fq2nqr; exact HB|]. split; cbn [c0 c1]; [|apply (ro_neg _ _ _ HO)]; apply (ro_mul _ _ _ HO); assumption.
Qed.
Lemma rel_psy : R2 R (psy B) (psy B').
Proof.
  pose proof (rb_ops _ _ _ HB) as HO. destruct (rel_iwsc B B' R) as [I0 I1]. pose proof (rel_kQiY B B' R) as K.
  apply rel_FQ2_MulAssign; [exact HB|apply rel_fq2nqr; exact HB|]. split; cbn [c0 c1]; apply (ro_mul _ _ _ HO); auto; [apply (ro_add _ _ _ HO)|apply (ro_sub _ _ _ HO)]; assumption.
Qed.
End RelPs.
Lemma psx_val : k2_mul (psx FpB) gX = k2_1.
Proof. refine (R2Z_eq _ _ _ _ (zmul2_rel _ _ _ _ (rel_psx ZB FpB RZ) zgam2_rel) (R2Z_of 1 0 _ _) _); vm_compute; try split; reflexivity || discriminate. Qed.
Lemma psy_val : k2_mul (psy FpB) gY = k2_1.
Proof. refine (R2Z_eq _ _ _ _ (zmul2_rel _ _ _ _ (rel_psy ZB FpB RZ) (zmul2_rel _ _ _ _ zgam_rel zgam2_rel)) (R2Z_of 1 0 _ _) _); vm_compute; try split; reflexivity || discriminate. Qed.
Lemma psi_algx (n w x : K2) (k : Fq) : let z := k2_mul w x in
  k2_mul n (mkFQ2 (fmul (c0 z) k) (fopp (fmul (c1 z) k))) = k2_mul (k2_mul n (mkFQ2 (fmul (c0 w) k) (fopp (fmul (c1 w) k)))) (k2_conj x).
Proof. cbv zeta. k2. Qed.
Lemma psi_algy (n w x : K2) (k : Fq) : let z := k2_mul w x in
  k2_mul n (mkFQ2 (fmul (fadd (c0 z) (c1 z)) k) (fmul (fsub (c0 z) (c1 z)) k)) = k2_mul (k2_mul n (mkFQ2 (fmul (fadd (c0 w) (c1 w)) k) (fmul (fsub (c0 w) (c1 w)) k))) (k2_conj x).
Proof. cbv zeta. k2. Qed.
Lemma psi_form {F} (B : BOps F) g : ModelHash.psi B g =
  let zx := FQ2_MulAssign B (iwsc B) (ax g) in let zy := FQ2_MulAssign B (iwsc B) (ay g) in
  NewAffine (FQ2_MulAssign B (fq2nqr B) (mkFQ2 (o_mul (b_ops B) (c0 zx) (kQiX B)) (o_neg (b_ops B) (o_mul (b_ops B) (c1 zx) (kQiX B)))))
    (FQ2_MulAssign B (fq2nqr B) (mkFQ2 (o_mul (b_ops B) (o_add (b_ops B) (c0 zy) (c1 zy)) (kQiY B)) (o_mul (b_ops B) (o_sub (b_ops B) (c0 zy) (c1 zy)) (kQiY B)))).
Proof. reflexivity. Qed.
Lemma psx_form : psx FpB = k2_mul (fq2nqr FpB) (mkFQ2 (fmul (c0 (iwsc FpB)) (kQiX FpB)) (fopp (fmul (c1 (iwsc FpB)) (kQiX FpB)))).
Proof. unfold psx. rewrite m2_mul. reflexivity. Qed.
Lemma psy_form : psy FpB = k2_mul (fq2nqr FpB) (mkFQ2 (fmul (fadd (c0 (iwsc FpB)) (c1 (iwsc FpB))) (kQiY FpB)) (fmul (fsub (c0 (iwsc FpB)) (c1 (iwsc FpB))) (kQiY FpB))).
Proof. unfold psy. rewrite m2_mul. reflexivity. Qed.
Lemma inv_div (s g c : K2) : k2_mul s g = k2_1 -> k2_mul s c = k2_div c g.
Proof.
  intros H. assert (g <> k2_0) as N. { intros ->. apply (f_equal c0) in H. unfold k2_mul, k2_0, k2_1 in H. cbn [c0 c1] in H. assert (f0 q = f1 q) as H' by (rewrite <- H; ring). apply (f_equal zof) in H'. vm_compute in H'. discriminate. }
  transitivity (k2_mul (k2_mul s g) (k2_div c g)); [field; exact N|]. rewrite H. field. exact N.
Qed.
Lemma psi_val g : ModelHash.psi FpB g = mkAff (k2_div (k2_conj (ax g)) gX) (k2_div (k2_conj (ay g)) gY) false.
Proof.
  rewrite psi_form. cbv zeta. unfold NewAffine. f_equal.
  - rewrite <- (inv_div _ _ _ psx_val), psx_form, !m2_mul. exact (psi_algx (fq2nqr FpB) (iwsc FpB) (ax g) (kQiX FpB)).
  - rewrite <- (inv_div _ _ _ psy_val), psy_form, !m2_mul. exact (psi_algy (fq2nqr FpB) (iwsc FpB) (ay g) (kQiY FpB)).
Qed.
Lemma psi_rep g (A : EC E2) : repa FldQ2 g = epr E2 A -> ainf g = false -> repa FldQ2 (ModelHash.psi FpB g) = epr E2 (psi2 A).
Proof.
  intros H I. change (epr E2 (psi2 A)) with (Recip.psi E2 k2_conj gX gY (epr E2 A)). rewrite <- H, psi_val. unfold repa. rewrite I. reflexivity.
Qed.
(** ** clearH2 *)
Definition ch2 (A : EC E2) : EC E2 :=
  gA (gA (gA (gm absx (gA (gA (gm absx A) A) (gN (psi2 A)))) (gN (psi2 A))) (gN A)) (psi2 (psi2 (gA A A))).
Section Homs.
Context {G : AbGrp}.
Lemma hom_add (f g : G -> G) : hom f -> hom g -> hom (fun x => gA (f x) (g x)).
Proof. intros Hf Hg. constructor. intros x y. rewrite (hom_A _ Hf), (hom_A _ Hg). apply gA_swap. Qed.
Lemma hom_neg (f : G -> G) : hom f -> hom (fun x => gN (f x)).
Proof. intros Hf. constructor. intros x y. rewrite (hom_A _ Hf). apply gN_A. Qed.
Lemma hom_mul k (f : G -> G) : hom f -> hom (fun x => gm k (f x)).
Proof. intros Hf. constructor. intros x y. rewrite (hom_A _ Hf). apply gm_A. Qed.
Lemma hom_comp (f g : G -> G) : hom f -> hom g -> hom (fun x => f (g x)).
Proof. intros Hf Hg. constructor. intros x y. rewrite (hom_A _ Hg). apply (hom_A _ Hf). Qed.
Lemma hom_id : hom (fun x : G => x). Proof. constructor. reflexivity. Qed.
Lemma hom_ch k (f : G -> G) : hom f -> hom (fun A => gA (gA (gA (gm k (gA (gA (gm k A) A) (gN (f A)))) (gN (f A))) (gN A)) (f (f (gA A A)))).
Proof.
  intros H. pose proof hom_id as I. pose proof (hom_neg _ H) as N. apply hom_add; [apply hom_add; [apply hom_add; [apply (hom_mul k); apply hom_add; [apply hom_add; [apply (hom_mul k _ I)|exact I]|exact N]|exact N]|apply (hom_neg _ I)]|].
  apply (hom_comp f _ H), (hom_comp f _ H), hom_add; exact I.
Qed.
Lemma spn_hom (f : G -> G) n (gs : list G) : hom f -> Forall (fun A : G => gm n (f A) = gO) gs -> forall A, spn gs A -> gm n (f A) = gO.
Proof.
  intros Hf H. induction H as [|g gs Hg _ IH]; intros A S.
  - cbn [spn] in S. subst. rewrite (hom_O _ Hf). apply gm_O.
  - destruct S as (k & y & Sy & ->). rewrite (hom_A _ Hf), gm_A, (IH y Sy), (hom_gm _ Hf), <- gm_mul, Z.mul_comm, gm_mul, Hg, gm_O. apply gA_0_l.
Qed.
End Homs.
Lemma ch2_hom : hom ch2. Proof. exact (hom_ch absx psi2 psi2_hom). Qed.
Lemma gcd_2r : Z.gcd (r * exp2) 2 = 1. Proof. vm_compute. reflexivity. Qed.
Lemma E2_no2 (A : EC E2) : gA A A = gO -> A = gO.
Proof. intros H. apply (gm_coprime _ _ A gcd_2r); [rewrite gm_mul; apply E2_clear|rewrite gm_2; exact H]. Qed.
Lemma rep_inf {E : Curve} (A : EC E) p : repa E p = epr E A -> (ainf p = true <-> A = gO).
Proof.
  intros H. split; [intros I|intros ->; rewrite epr_O in H; unfold repa in H; destruct (ainf p); [reflexivity|discriminate]].
  apply ec_eq. rewrite <- H, epr_O. unfold repa. rewrite I. reflexivity.
Qed.
Theorem clearH2_ok p (A : EC E2) : repa FldQ2 p = epr E2 A -> ainf p = false -> repa FldQ2 (clearH2 FpB p) = epr E2 (ch2 A).
Proof.
  intros H I. unfold clearH2. cbv zeta. rewrite (repa_G2_ToAffine FldQ2 (FQ2O FpB) FpO2_ok). unfold ch2. pose proof (psi_rep p A H I) as Hp.
  pose proof (clear_neg E2 (FQ2O FpB) FpO2_ok _ _ Hp) as Hn.
  assert (repa FldQ2 (G2_ToAffine (FQ2O FpB) (Double (FQ2O FpB) (Affine_ToProjective (FQ2O FpB) p))) = epr E2 (gA A A)) as Hd.
  { rewrite (repa_G2_ToAffine FldQ2 (FQ2O FpB) FpO2_ok), (repj_double FldQ2 (FQ2O FpB) FpO2_ok (c2_ne E2)), (repj_aff FldQ2 (FQ2O FpB) FpO2_ok), H. reflexivity. }
  assert (ainf (G2_ToAffine (FQ2O FpB) (Double (FQ2O FpB) (Affine_ToProjective (FQ2O FpB) p))) = false) as Id.
  { apply not_true_is_false. intros T. apply (rep_inf (E:=E2) _ _ Hd), E2_no2, (rep_inf (E:=E2) _ _ H) in T. exact (eq_true_false_abs _ T I). }
  apply (clear_add E2 (FQ2O FpB) FpO2_ok).
  2:{ apply psi_rep; [apply psi_rep; assumption|]. rewrite psi_val. reflexivity. }
  apply (clear_add E2 (FQ2O FpB) FpO2_ok); [|apply (clear_neg E2 (FQ2O FpB) FpO2_ok); exact H].
  apply (clear_add E2 (FQ2O FpB) FpO2_ok); [|exact Hn].
  apply (clear_pmul E2 (FQ2O FpB) FpO2_ok).
  apply (clear_add E2 (FQ2O FpB) FpO2_ok); [|exact Hn].
  apply (clear_add E2 (FQ2O FpB) FpO2_ok); [|exact H].
  apply (clear_mul E2 (FQ2O FpB) FpO2_ok). exact H.
Qed.
(** every generator outside the r-torsion is killed *)
Definition pts2 {F} (f : Z -> F) : list (Affine (FQ2 F)) := points (map (toitem (mk2 f)) data2).
Lemma rel_points {F F'} (R : F -> F' -> Prop) l l' : Forall2 (Ritem R) l l' -> Forall2 (RA R) (points l) (points l').
Proof.
  intros H. induction H as [|t t' l l' (_ & _ & Hg & Hh) _ IH]; cbn [points]; [constructor|]. destruct (i_h t), (i_h t'); try contradiction; repeat first [assumption|apply Forall2_cons].
Qed.
Lemma pts2_rel : Forall2 (RA (R2 RU)) (pts2 ofm) (pts2 z2q).
Proof. apply rel_points, rel_items. exact rel_mk2. Qed.
Lemma pts2_inf : Forall (fun p : Affine (FQ2 Fq) => ainf p = false) (pts2 z2q). Proof. repeat constructor. Qed.
Definition kill2 {F} (B : BOps F) (l : list (Affine (FQ2 F))) : bool := forallb (fun p => ainf (clearH2 B p)) l.
Lemma kill2_rel l l' : Forall2 (RA (R2 RU)) l l' -> kill2 UB l = kill2 FpB l'.
Proof. intros H. unfold kill2. induction H as [|p p' l l' Hp _ IH]; cbn [forallb]; [reflexivity|]. f_equal; [|exact IH]. apply (rel_clearH2 UB FpB RU _ _ Hp). Qed.
Lemma kill2_ok : kill2 FpB (pts2 z2q) = true.
Proof. rewrite <- (kill2_rel _ _ pts2_rel). vm_compute. reflexivity. Qed.
Lemma kill_all (E : Curve) (cl : Affine E -> Affine E) (ch : EC E -> EC E) n gs (l : list (Affine E)) : (forall p (A : EC E), repa E p = epr E A -> ainf p = false -> repa E (cl p) = epr E (ch A)) ->
  Forall2 (fun (A : EC E) (g : Affine E) => epr E A = repa E g) gs l -> Forall (fun p : Affine E => ainf p = false) l -> forallb (fun p => ainf (cl p)) l = true -> Forall (fun A : EC E => gm n (ch A) = gO) gs.
Proof.
  intros OK F2 I K. induction F2 as [|B g gs0 l HB _ IH]; [constructor|].
  cbn [forallb] in K. apply andb_true_iff in K. destruct K as [K1 K2]. inversion I as [|? ? I1 I2]; subst. constructor; [|exact (IH I2 K2)].
  rewrite (proj1 (rep_inf _ _ (OK g B (eq_sym HB) I1)) K1). apply gm_O.
Qed.
Lemma kill2_def {F} (B : BOps F) l : kill2 B l = forallb (fun p => ainf (clearH2 B p)) l. Proof. reflexivity. Qed.
Lemma kill2_ok' : forallb (fun p => ainf (clearH2 FpB p)) (pts2 z2q) = true. Proof. rewrite <- kill2_def. exact kill2_ok. Qed.
Theorem ch2_torsion (A : EC E2) : gm r (ch2 A) = gO.
Proof.
  destruct E2_gens as (gs & _ & _ & F2 & S). apply (spn_hom ch2 r (gen2 :: gs) ch2_hom); [|apply S]. constructor.
  - rewrite <- (hom_gm _ ch2_hom), gen2_r. apply (hom_O _ ch2_hom).
  - exact (kill_all E2 (clearH2 FpB) ch2 r gs _ clearH2_ok F2 pts2_inf kill2_ok').
Qed.
