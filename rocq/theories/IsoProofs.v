(** The 11-isogeny and the 3-isogeny of hash.go land on the curves of G1 and G2. *)
Require Import ZArith Lia Bool List Ring Field.
From Verif Require Import Words ModelRepr ReprProofs ReprProofs2 ModelFq ModelOps ModelTower ModelCurve ModelHash NumTheory Primality FqProofs FqProofs2 Fp FpOps OpsRel OpsRel2 Ext TowerProofs Fld EcGroup EcMul EcJac Curves UNat UInst PolyEval.
Import ListNotations.
Open Scope Z_scope.

Definition A1' : Fq := ellPA FpB.
Definition B1' : Fq := ellPB FpB.
Definition A2' : K2 := ell2pA FpB.
Definition B2' : K2 := ell2pB FpB.
(** the auxiliary curves y^2 = aux x *)
Definition aux1 (x : Fq) : Fq := fadd (fadd (fmul (fmul x x) x) (fmul A1' x)) B1'.
Definition aux2 (x : K2) : K2 := k2_add (k2_add (k2_mul (k2_mul x x) x) (k2_mul A2' x)) B2'.

Notation chk11 B :=
  (iso_chk (b_ops B) (ellPA B) (ellPB B) (BCoeff B) (map (b_of B) xNum11_repr) (map (b_of B) xDen11_repr) (map (b_of B) yNum11_repr) (map (b_of B) yDen11_repr)).
Notation chk3 B :=
  (iso_chk (FQ2O B) (ell2pA B) (ell2pB B) (BCoeffFQ2 B) (map (of_pair B) xNum3_repr) (map (of_pair B) xDen3_repr) (map (of_pair B) yNum3_repr) (map (of_pair B) yDen3_repr)).
Lemma wf_map_of {F F'} (B : BOps F) (B' : BOps F') R {HB : RelB B B' R} l : forallb wfb l = true -> Forall2 R (map (b_of B) l) (map (b_of B') l).
Proof.
  induction l as [|n l IH]; cbn [map forallb]; intros H; constructor; apply andb_true_iff in H; destruct H as [H1 H2]; [|exact (IH H2)].
  apply (rb_of _ _ _ HB). apply wfb_spec. exact H1.
Qed.
Lemma wf_map_pair {F F'} (B : BOps F) (B' : BOps F') R {HB : RelB B B' R} l : forallb (fun p => wfb (fst p) && wfb (snd p)) l = true -> Forall2 (R2 R) (map (of_pair B) l) (map (of_pair B') l).
Proof.
  induction l as [|n l IH]; cbn [map forallb]; intros H; constructor; apply andb_true_iff in H; destruct H as [H1 H2]; [|exact (IH H2)].
  apply andb_true_iff in H1. destruct H1. split; apply (rb_of _ _ _ HB); apply wfb_spec; assumption.
Qed.
Lemma wf11 : forallb wfb xNum11_repr = true /\ forallb wfb xDen11_repr = true /\ forallb wfb yNum11_repr = true /\ forallb wfb yDen11_repr = true.
Proof. split; [|split; [|split]]; vm_compute; reflexivity. Qed.
Lemma wf3 : let f := forallb (fun p => wfb (fst p) && wfb (snd p)) in f xNum3_repr = true /\ f xDen3_repr = true /\ f yNum3_repr = true /\ f yDen3_repr = true.
Proof. cbv zeta. split; [|split; [|split]]; vm_compute; reflexivity. Qed.
Lemma rel_chk11 {F F'} (B : BOps F) (B' : BOps F') R {HB : RelB B B' R} : chk11 B = chk11 B'.
Proof. destruct wf11 as (W1 & W2 & W3 & W4). apply (rel_iso_chk _ _ R (rb_ops _ _ _ HB)); [apply rel_ellPA; exact HB|apply rel_ellPB; exact HB|apply rel_BCoeff; exact HB|..]; apply wf_map_of; assumption. Qed.
Lemma rel_chk3 {F F'} (B : BOps F) (B' : BOps F') R {HB : RelB B B' R} : chk3 B = chk3 B'.
Proof. destruct wf3 as (W1 & W2 & W3 & W4). apply (rel_iso_chk _ _ (R2 R) (rel_FQ2O B B' R)); [apply rel_ell2pA; exact HB|apply rel_ell2pB; exact HB|apply rel_BCoeffFQ2; exact HB|..]; apply wf_map_pair; assumption. Qed.
Lemma chk11_ok : chk11 FpB = true. Proof. rewrite <- (rel_chk11 UB FpB RU). vm_compute. reflexivity. Qed.
Lemma chk3_ok : chk3 FpB = true. Proof. rewrite <- (rel_chk3 UB FpB RU). vm_compute. reflexivity. Qed.

Definition xden11 (x : Fq) : Fq := horner FpO (map (b_of FpB) xDen11_repr) x.
Definition xden3 (x : K2) : K2 := horner (FQ2O FpB) (map (of_pair FpB) xDen3_repr) x.
Lemma DivAssign1_val (a b : Fq) : b <> f0 q -> DivAssign1 FpB a b = fmul a (finv b).
Proof. intros N. unfold DivAssign1. cbn [b_ops FpB o_inv o_mul FpO]. rewrite feqb_ne by exact N. reflexivity. Qed.
Lemma DivAssign2_val (a b : K2) : b <> k2_0 -> FQ2_DivAssign FpB a b = k2_mul a (k2_inv b).
Proof. intros N. rewrite m2_div. destruct (k2_dec b k2_0); [contradiction|reflexivity]. Qed.
Lemma iso11_shape p : DivAssign1 FpB (horner FpO (map (b_of FpB) xNum11_repr) (ax p)) (xden11 (ax p)) = ax (iso11 FpB p) /\
  DivAssign1 FpB (fmul (ay p) (horner FpO (map (b_of FpB) yNum11_repr) (ax p))) (horner FpO (map (b_of FpB) yDen11_repr) (ax p)) = ay (iso11 FpB p) /\ ainf (iso11 FpB p) = false.
Proof. split; [reflexivity|]. split; reflexivity. Qed.
Lemma iso3_shape p : FQ2_DivAssign FpB (horner (FQ2O FpB) (map (of_pair FpB) xNum3_repr) (ax p)) (xden3 (ax p)) = ax (iso3 FpB p) /\
  FQ2_DivAssign FpB (FQ2_MulAssign FpB (ay p) (horner (FQ2O FpB) (map (of_pair FpB) yNum3_repr) (ax p))) (horner (FQ2O FpB) (map (of_pair FpB) yDen3_repr) (ax p)) = ay (iso3 FpB p) /\ ainf (iso3 FpB p) = false.
Proof. split; [reflexivity|]. split; reflexivity. Qed.
Lemma on_fin (K : Fld) (b : K) (p : Affine K) x y : x = ax p -> y = ay p -> ainf p = false -> on K b (Pt x y) -> on K b (repa K p). Proof. unfold repa. intros -> -> -> H. exact H. Qed.
Theorem iso11_on p : fmul (ay p) (ay p) = aux1 (ax p) -> xden11 (ax p) <> f0 q -> on E1 (cb E1) (repa E1 (iso11 FpB p)).
Proof.
  intros H N. destruct (iso_ok FldQ FpO FpO_ok _ _ _ _ _ _ _ (ax p) (ay p) chk11_ok N H) as [Ny H3]. destruct (iso11_shape p) as (EX & EY & EI).
  rewrite DivAssign1_val in EX by exact N. rewrite DivAssign1_val in EY by exact Ny. rewrite BCoeff_val in H3.
  exact (on_fin E1 (cb E1) (iso11 FpB p) _ _ EX EY EI H3).
Qed.
Lemma iso3_eqn (x y : K2) : xden3 x <> k2_0 -> k2_mul y y = aux2 x ->
  horner (FQ2O FpB) (map (of_pair FpB) yDen3_repr) x <> k2_0 /\
  on FldQ2 (BCoeffFQ2 FpB) (Pt (k2_mul (horner (FQ2O FpB) (map (of_pair FpB) xNum3_repr) x) (k2_inv (xden3 x))) (k2_mul (k2_mul y (horner (FQ2O FpB) (map (of_pair FpB) yNum3_repr) x)) (k2_inv (horner (FQ2O FpB) (map (of_pair FpB) yDen3_repr) x)))).
Proof.
  exact (iso_ok FldQ2 (FQ2O FpB) FpO2_ok (ell2pA FpB) (ell2pB FpB) (BCoeffFQ2 FpB) (map (of_pair FpB) xNum3_repr) (map (of_pair FpB) xDen3_repr) (map (of_pair FpB) yNum3_repr) (map (of_pair FpB) yDen3_repr) x y chk3_ok).
Qed.
Lemma iso3_fin p X Y : xden3 (ax p) <> k2_0 -> horner (FQ2O FpB) (map (of_pair FpB) yDen3_repr) (ax p) <> k2_0 ->
  X = k2_mul (horner (FQ2O FpB) (map (of_pair FpB) xNum3_repr) (ax p)) (k2_inv (xden3 (ax p))) ->
  Y = k2_mul (k2_mul (ay p) (horner (FQ2O FpB) (map (of_pair FpB) yNum3_repr) (ax p))) (k2_inv (horner (FQ2O FpB) (map (of_pair FpB) yDen3_repr) (ax p))) ->
  X = ax (iso3 FpB p) /\ Y = ay (iso3 FpB p).
Proof. intros N Ny -> ->. destruct (iso3_shape p) as (<- & <- & _). rewrite m2_mul. split; symmetry; apply DivAssign2_val; assumption. Qed.
Theorem iso3_on p : k2_mul (ay p) (ay p) = aux2 (ax p) -> xden3 (ax p) <> k2_0 -> on E2 (cb E2) (repa E2 (iso3 FpB p)).
Proof.
  intros H N. destruct (iso3_eqn (ax p) (ay p) N H) as [Ny H3]. rewrite BCoeffFQ2_val in H3. destruct (iso3_fin p _ _ N Ny eq_refl eq_refl) as [EX EY].
  exact (on_fin E2 (cb E2) (iso3 FpB p) _ _ EX EY (proj2 (proj2 (iso3_shape p))) H3).
Qed.
