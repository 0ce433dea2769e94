(** A decision procedure, generic in the field operations, for: these explicit points are on the curve and independent, of
    the given prime orders (one point of order p, or a pair A, om A). *)
Require Import ZArith Lia Bool List Ring Field Znumtheory.
From Verif Require Import Words ModelOps ModelTower ModelCurve NumTheory Fp FpOps OpsRel Fld EcIdeal EcGroup AbGrp EcMul EcJac LineIdeal Cocycle Recip Span EcCount.
Import ListNotations.
Open Scope Z_scope.

Record item (F : Type) := mkItem { i_p : Z; i_k : Z; i_g : Affine F; i_h : option (Affine F) }.
Arguments mkItem {F}. Arguments i_p {F}. Arguments i_k {F}. Arguments i_g {F}. Arguments i_h {F}.
Section Check.
Context {F : Type} (O : Ops F) (b z : F).
Definition chk_on (g : Affine F) : bool := negb (ainf g) && o_equals O (o_sq O (ay g)) (o_add O (o_mul O (o_sq O (ax g)) (ax g)) b).
Definition chk_kill (p : Z) (g : Affine F) : bool := Proj_IsZero O (Affine_MulBig O g p).
Definition chk_tie (g h : Affine F) : bool := o_equals O (o_mul O (ax h) z) (ax g) && o_equals O (ay h) (ay g).
Definition chk_neq (k : Z) (g h : Affine F) : bool := negb (Proj_Equal O (Affine_MulBig O g k) (Affine_ToProjective O h)).
Definition chk_item (t : item F) : bool :=
  let p := i_p t in let k := i_k t in let g := i_g t in
  chk_on g && (0 <? p) && chk_kill p g &&
  match i_h t with
  | None => true
  | Some h => chk_on h && chk_tie g h && ((p mod 3 =? 2) || (((k * k + k + 1) mod p =? 0) && (0 <=? k) && (k <? p) && chk_neq k g h && chk_neq (p - 1 - k) g h))
  end.
Fixpoint expo (l : list (item F)) : Z := match l with [] => 1 | t :: l => i_p t * expo l end.
Fixpoint size (l : list (item F)) : Z := match l with [] => 1 | t :: l => match i_h t with None => i_p t * size l | Some _ => i_p t * (i_p t * size l) end end.
Fixpoint points (l : list (item F)) : list (Affine F) := match l with [] => [] | t :: l => match i_h t with None => i_g t :: points l | Some h => h :: i_g t :: points l end end.
Fixpoint chk_all (l : list (item F)) : bool := match l with [] => true | t :: l => chk_item t && (Z.gcd (expo l) (i_p t) =? 1) && chk_all l end.
End Check.

(** the check gives the same answer for related operations *)
Section Rel.
Context {F F' : Type} (O : Ops F) (O' : Ops F') (R : F -> F' -> Prop) (HO : RelO O O' R).
Definition Ritem (t : item F) (t' : item F') : Prop := i_p t = i_p t' /\ i_k t = i_k t' /\ RA R (i_g t) (i_g t') /\ match i_h t, i_h t' with None, None => True | Some h, Some h' => RA R h h' | _, _ => False end.
Lemma r_on b b' g g' : R b b' -> RA R g g' -> chk_on O b g = chk_on O' b' g'.
Proof.
  intros Hb (Hx & Hy & Hi). unfold chk_on. rewrite Hi. f_equal. apply (ro_equals _ _ _ HO); [apply (ro_sq _ _ _ HO), Hy|]. apply (ro_add _ _ _ HO); [|exact Hb]. apply (ro_mul _ _ _ HO); [apply (ro_sq _ _ _ HO), Hx|exact Hx].
Qed.
Lemma r_kill p g g' : RA R g g' -> chk_kill O p g = chk_kill O' p g'.
Proof. intros H. apply (rel_Proj_IsZero O O' R HO). apply (rel_Affine_MulBig O O' R HO), H. Qed.
Lemma r_tie z z' g g' h h' : R z z' -> RA R g g' -> RA R h h' -> chk_tie O z g h = chk_tie O' z' g' h'.
Proof. intros Hz (Hx & Hy & _) (Gx & Gy & _). unfold chk_tie. f_equal; apply (ro_equals _ _ _ HO); auto. apply (ro_mul _ _ _ HO); auto. Qed.
Lemma r_neq k g g' h h' : RA R g g' -> RA R h h' -> chk_neq O k g h = chk_neq O' k g' h'.
Proof. intros H1 H2. unfold chk_neq. f_equal. apply (rel_Proj_Equal O O' R HO); [apply (rel_Affine_MulBig O O' R HO), H1|apply (rel_Affine_ToProjective O O' R HO), H2]. Qed.
Lemma r_item b b' z z' t t' : R b b' -> R z z' -> Ritem t t' -> chk_item O b z t = chk_item O' b' z' t'.
Proof.
  intros Hb Hz (Ep & Ek & Hg & Hh). unfold chk_item. cbv zeta. rewrite Ep, Ek, (r_on b b' _ _ Hb Hg), (r_kill (i_p t') _ _ Hg). f_equal.
  destruct (i_h t) as [h|], (i_h t') as [h'|]; try contradiction; [|reflexivity].
  rewrite (r_on b b' _ _ Hb Hh), (r_tie z z' _ _ _ _ Hz Hg Hh), (r_neq _ _ _ _ _ Hg Hh), (r_neq _ _ _ _ _ Hg Hh). reflexivity.
Qed.
Lemma r_expo l l' : Forall2 Ritem l l' -> expo l = expo l'.
Proof. induction 1 as [|t t' l l' (E & _) _ IH]; [reflexivity|]. cbn [expo]. rewrite E, IH. reflexivity. Qed.
Lemma r_all b b' z z' l l' : R b b' -> R z z' -> Forall2 Ritem l l' -> chk_all O b z l = chk_all O' b' z' l'.
Proof.
  intros Hb Hz. induction 1 as [|t t' l l' H F2 IH]; [reflexivity|]. cbn [chk_all]. rewrite (r_item b b' z z' _ _ Hb Hz H), IH, (r_expo _ _ F2). destruct H as (E & _). rewrite E. reflexivity.
Qed.
End Rel.

(** soundness over a field *)
Section Sound.
Context (E : Curve) (O : Ops E) (HO : OpsFld E O) (z : E) (z3 : (z * z + z + 1 = 0)%F).
Add Field KF13 : (fTh E).
Notation b := (cb E).
Lemma chk_on_ok g : chk_on O b g = true -> exists A : EC E, epr E A = repa E g /\ A <> gO.
Proof.
  unfold chk_on. rewrite andb_true_iff, negb_true_iff, (of_equals _ _ HO), (of_sq _ _ HO), (of_add _ _ HO), (of_mul _ _ HO), (of_sq _ _ HO). intros [Hi H].
  destruct (fDec _ _) as [Eq|] in H; [|discriminate]. assert (on E b (repa E g)) as On by (unfold repa; rewrite Hi; exact Eq). exists (emk E _ On). split; [reflexivity|].
  intros X. apply (f_equal (epr E)) in X. cbn in X. unfold repa in X. rewrite Hi in X. discriminate.
Qed.
Lemma mulbig_gm (A : EC E) g p : epr E A = repa E g -> 0 <= p -> repj E (Affine_MulBig O g p) = epr E (gm p A).
Proof. intros EA Hp. rewrite epr_gm, EA. apply repj_mulbig; [exact HO| |exact Hp]. rewrite <- EA. apply epr_on. Qed.
Lemma chk_kill_ok (A : EC E) g p : epr E A = repa E g -> 0 <= p -> chk_kill O p g = true -> gm p A = gO.
Proof. intros EA Hp H. apply ec_eq. rewrite <- (mulbig_gm A g p EA Hp). apply (proj_iszero_iff E O HO). exact H. Qed.
Lemma chk_tie_ok (A A' : EC E) g h : epr E A = repa E g -> epr E A' = repa E h -> A <> gO -> A' <> gO -> chk_tie O z g h = true -> A' = om E z z3 A.
Proof.
  intros EA EA' N N' H. unfold chk_tie in H. rewrite andb_true_iff, !(of_equals _ _ HO), (of_mul _ _ HO) in H. destruct H as [H1 H2]. destruct (fDec _ _) as [Ex|] in H1; [|discriminate]. destruct (fDec _ _) as [Ey|] in H2; [|discriminate].
  pose proof (z_ne E z z3) as Nz. assert ((1%F : E) <> 0%F) as N1 by apply fld_1_ne_0.
  apply ec_eq. rewrite om_val, EA, EA'. unfold repa. destruct (ainf g) eqn:Ig.
  { exfalso. apply N, ec_eq. rewrite EA. unfold repa. rewrite Ig. reflexivity. }
  destruct (ainf h) eqn:Ih. { exfalso. apply N', ec_eq. rewrite EA'. unfold repa. rewrite Ih. reflexivity. }
  rewrite <- Ex, Ey. f_equal; field; auto.
Qed.
Lemma chk_neq_ok (A A' : EC E) g h k : epr E A = repa E g -> epr E A' = repa E h -> 0 <= k -> chk_neq O k g h = true -> A' <> gm k A.
Proof.
  intros EA EA' Hk H X. unfold chk_neq in H. apply negb_true_iff in H. assert (Proj_Equal O (Affine_MulBig O g k) (Affine_ToProjective O h) = true) as Y; [|rewrite Y in H; discriminate].
  apply (repj_equal E O HO). rewrite (mulbig_gm A g k EA Hk), (repj_aff E O HO), <- EA', X. reflexivity.
Qed.
Theorem chk_all_ok l : Forall (fun t => prime (i_p t)) l -> chk_all O b z l = true ->
  exists gs : list (EC E), Forall2 (fun A g => epr E A = repa E g) gs (points l) /\ indep gs (size l) /\ Forall (fun A => gm (expo l) A = gO) gs.
Proof.
  induction 1 as [|t l Pp _ IH]; cbn [chk_all].
  - intros _. exists []. split; [constructor|]. split; constructor.
  - rewrite !andb_true_iff, Z.eqb_eq. intros [[Ht Hgcd] Hl]. destruct (IH Hl) as (gs & F2 & Ind & Kill). clear IH.
    unfold chk_item in Ht. cbv zeta in Ht. rewrite !andb_true_iff, Z.ltb_lt in Ht. destruct Ht as [[[Hon Hp] Hk] Hh]. destruct (chk_on_ok _ Hon) as (A & EA & NA).
    pose proof (chk_kill_ok A _ (i_p t) EA (Z.lt_le_incl _ _ Hp) Hk) as KA.
    assert (forall X : EC E, gm (i_p t) X = gO -> gm (i_p t * expo l) X = gO) as K1 by (intros X HX; rewrite Z.mul_comm, gm_mul, HX; apply gm_O).
    assert (Forall (fun A => gm (i_p t * expo l) A = gO) gs) as K2 by (eapply Forall_impl; [|exact Kill]; intros X HX; cbv beta in HX; rewrite gm_mul, HX; apply gm_O).
    cbn [size points expo]. destruct (i_h t) as [h|].
    + rewrite !andb_true_iff in Hh. destruct Hh as [[Hon' Htie] Hneq]. destruct (chk_on_ok _ Hon') as (A' & EA' & NA').
      pose proof (chk_tie_ok A A' _ _ EA EA' NA NA' Htie) as Eom.
      assert (gm (i_p t) A' = gO) as KA' by (rewrite Eom, <- (hom_gm (om E z z3) (om_hom E z z3)), KA; apply (hom_O _ (om_hom E z z3))).
      exists (A' :: A :: gs). split; [constructor; [exact EA'|constructor; [exact EA|exact F2]]|]. split; [|constructor; [auto|constructor; auto]].
      apply ind_cons; [apply ind_cons|..]; auto.
      * apply (new_gen (expo l) (i_p t)); auto.
      * apply (new_gen2 (expo l) (i_p t)); auto. rewrite Eom. apply orb_true_iff in Hneq. destruct Hneq as [H3|Hneq].
        -- apply Z.eqb_eq in H3. apply (no_eigen2 (i_p t)); auto using om_hom, om_sum.
        -- rewrite !andb_true_iff in Hneq. destruct Hneq as [[[[Hk1 Hk2] Hk3] N1] N2]. apply Z.eqb_eq in Hk1. apply Z.leb_le in Hk2. apply Z.ltb_lt in Hk3.
           apply (no_eigen1 (i_p t) (i_k t)); auto using om_hom, om_sum.
           ++ apply Z.mod_divide; [lia|exact Hk1].
           ++ rewrite <- Eom. exact (chk_neq_ok A A' _ _ _ EA EA' Hk2 N1).
           ++ rewrite <- Eom. rewrite (gm_cong (i_p t) (- 1 - i_k t) (i_p t - 1 - i_k t) A KA).
              ** apply (chk_neq_ok A A' (i_g t) h (i_p t - 1 - i_k t) EA EA'); [lia|exact N2].
              ** replace (i_p t - 1 - i_k t) with (- 1 - i_k t + 1 * i_p t) by ring. rewrite Z_mod_plus_full. reflexivity.
    + exists (A :: gs). split; [constructor; [exact EA|exact F2]|]. split; [|constructor; auto]. apply ind_cons; auto. apply (new_gen (expo l) (i_p t)); auto.
Qed.
End Sound.
