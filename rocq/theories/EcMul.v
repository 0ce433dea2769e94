(** The group of points, multiples of points, and the scalar multiplication loops. *)
Require Import ZArith Lia Bool List Ring Field Setoid Morphisms Eqdep_dec.
From Verif Require Import Words ModelRepr ReprProofs ReprProofs2 ModelOps ModelCurve Fp Fld AbGrp EcGroup EcJac.
Import ListNotations.

Record Curve := mkCurve { cK :> Fld; cb : cK; c2_ne : two cK <> 0%F; c3_ne : three cK <> 0%F; cb_ne : cb <> 0%F }.

Section EC.
Context (E : Curve).
Notation K := (cK E). Notation b := (cb E).
Definition onb (P : pt K) : bool := match P with Inf => true | Pt x y => if fDec (y * y)%F (x * x * x + b)%F then true else false end.
Lemma onb_on P : onb P = true <-> on K b P.
Proof. destruct P as [|x y]; cbn [onb on]; [split; auto|]. destruct (fDec (y * y) (x * x * x + b))%F; split; congruence. Qed.
Definition ecT : Type := { P : pt K | onb P = true }.
Definition epr (P : ecT) : pt K := proj1_sig P.
Lemma ec_eq (P Q : ecT) : epr P = epr Q -> P = Q.
Proof. destruct P as [P HP], Q as [Q HQ]. cbn. intros <-. f_equal. apply (UIP_dec bool_dec). Qed.
Lemma epr_on (P : ecT) : on K b (epr P). Proof. apply onb_on, (proj2_sig P). Qed.
Definition emk (P : pt K) (H : on K b P) : ecT := exist _ P (proj2 (onb_on P) H).
Lemma epr_emk P H : epr (emk P H) = P. Proof. reflexivity. Qed.
Definition ecA (P Q : ecT) : ecT := emk (pplus K (epr P) (epr Q)) (on_pplus K b (c2_ne E) _ _ (epr_on P) (epr_on Q)).
Definition ecN (P : ecT) : ecT := emk (pneg K (epr P)) (on_pneg K b _ (epr_on P)).
Definition ecO : ecT := emk Inf I.
Definition EC : AbGrp.
Proof.
  refine (mkAbGrp ecT ecO ecA ecN _ _ _ _); intros; apply ec_eq; unfold ecA, ecN, ecO; rewrite !epr_emk.
  - apply (pplus_assoc K b); try apply epr_on; [exact (c2_ne E)|exact (c3_ne E)|exact (cb_ne E)].
  - apply (pplus_comm K b); try apply epr_on; [exact (c2_ne E)|exact (c3_ne E)|exact (cb_ne E)].
  - reflexivity.
  - apply pplus_neg_r. exact (c2_ne E).
Defined.
(** k-fold sum of a point *)
Definition pk (k : Z) (P : pt K) : pt K :=
  match k with Z0 => Inf | Zpos p => Pos.iter (pplus K P) Inf p | Zneg p => pneg K (Pos.iter (pplus K P) Inf p) end.
Lemma epr_gm k (P : EC) : epr (gm k P) = pk k (epr P).
Proof.
  assert (forall p, epr (Pos.iter (gA P) gO p) = Pos.iter (pplus K (epr P)) Inf p) as H.
  { intros p. apply (Pos.iter_swap_gen _ _ epr). reflexivity. }
  destruct k; cbn [gm pk]; [reflexivity|apply H|]. change (pneg K (epr (Pos.iter (gA P) gO p)) = pneg K (Pos.iter (pplus K (epr P)) Inf p)). f_equal. apply H.
Qed.
Lemma epr_A (P Q : EC) : epr (gA P Q) = pplus K (epr P) (epr Q). Proof. reflexivity. Qed.
Lemma epr_N (P : EC) : epr (gN P) = pneg K (epr P). Proof. reflexivity. Qed.
Lemma epr_O : epr (gO : EC) = Inf. Proof. reflexivity. Qed.
Lemma pk_gm k P (H : on K b P) : pk k P = epr (gm (G := EC) k (emk P H)). Proof. rewrite epr_gm. reflexivity. Qed.
Lemma on_pk k P : on K b P -> on K b (pk k P). Proof. intros H. rewrite (pk_gm k P H). apply epr_on. Qed.
Lemma pk_add k l P : on K b P -> pk (k + l) P = pplus K (pk k P) (pk l P).
Proof. intros H. rewrite !(pk_gm _ P H), gm_add. reflexivity. Qed.
Lemma pk_mul k l P : on K b P -> pk (k * l) P = pk k (pk l P).
Proof. intros H. rewrite !(pk_gm _ P H), gm_mul, epr_gm. reflexivity. Qed.
Lemma pk_plus k P Q : on K b P -> on K b Q -> pk k (pplus K P Q) = pplus K (pk k P) (pk k Q).
Proof. intros H H'. rewrite (pk_gm k P H), (pk_gm k Q H'), <- epr_A, <- gm_A, epr_gm. reflexivity. Qed.
Lemma pk_neg k P : on K b P -> pk k (pneg K P) = pneg K (pk k P).
Proof. intros H. rewrite (pk_gm k P H), <- epr_N, <- gm_N, epr_gm. reflexivity. Qed.
Lemma pk_opp k P : on K b P -> pk (- k) P = pneg K (pk k P).
Proof. intros H. rewrite !(pk_gm _ P H), gm_opp. reflexivity. Qed.
Lemma pk_1 P : pk 1 P = P. Proof. cbn. apply pplus_inf_r. Qed.
Lemma pk_2 P : pk 2 P = pplus K P P. Proof. cbn. f_equal. apply pplus_inf_r. Qed.
Lemma pk_Inf k : pk k Inf = Inf. Proof. rewrite (pk_gm k Inf I). change (emk Inf I) with (gO : EC). rewrite gm_O. reflexivity. Qed.
Lemma pk_mod n k P : on K b P -> pk n P = Inf -> pk (k mod n) P = pk k P.
Proof. intros H Z. rewrite !(pk_gm _ P H). rewrite (gm_mod n); [reflexivity|]. apply ec_eq. rewrite <- pk_gm. exact Z. Qed.
End EC.

(** The double-and-add loop *)
Lemma MulLoop_spec {P} (R : P -> Z -> Prop) (dbl add : P -> P) (zero : P) L bit k :
  (0 <= L)%Z -> (0 <= k < 2 ^ L)%Z -> (forall i, (0 <= i < L)%Z -> bit i = Some (Z.testbit k i)) ->
  R zero 0%Z -> (forall x a, (0 <= a)%Z -> R x a -> R (dbl x) (2 * a)%Z) -> (forall x a, (0 <= a)%Z -> R x a -> R (add x) (a + 1)%Z) ->
  R (MulLoop L bit dbl add zero) k.
Proof.
  intros HL Hk Hb H0 HD HA. unfold MulLoop.
  assert (forall n, (n <= Z.to_nat L)%nat ->
    R (fold_left (fun res i => let o := bit (L - Z.of_nat i - 1)%Z in let res0 := dbl res in match o with Some true => add res0 | _ => res0 end) (seq 0 n) zero)
      (k / 2 ^ (L - Z.of_nat n))%Z) as Q.
  { induction n as [|n IH]; intros Hn.
    - cbn [seq fold_left]. rewrite Z.sub_0_r, Z.div_small by lia. exact H0.
    - rewrite seq_S, fold_left_app. cbn [fold_left]. rewrite Nat.add_0_l. specialize (IH ltac:(lia)).
      set (e := (L - Z.of_nat (S n))%Z). assert (L - Z.of_nat n = Z.succ e)%Z as F by (unfold e; lia). rewrite F in IH.
      assert (L - Z.of_nat n - 1 = e)%Z as -> by (unfold e; lia). assert (0 <= e < L)%Z as He by (unfold e; lia). cbv zeta. rewrite (Hb e He).
      assert (k / 2 ^ e = 2 * (k / 2 ^ Z.succ e) + Z.b2z (Z.testbit k e))%Z as ->.
      { rewrite Z.testbit_spec', Z.pow_succ_r, (Z.mul_comm 2 (2 ^ e)), <- Z.div_div by lia. apply Z.div_mod. lia. }
      assert (0 <= k / 2 ^ Z.succ e)%Z as Hp by (apply Z.div_pos; [lia|apply Z.pow_pos_nonneg; lia]).
      destruct (Z.testbit k e); cbn [Z.b2z]; [apply HA; [lia|]|rewrite Z.add_0_r]; (apply HD; [exact Hp|]); exact IH. }
  specialize (Q (Z.to_nat L) (Nat.le_refl _)). rewrite Z2Nat.id, Z.sub_diag, Z.div_1_r in Q by assumption. exact Q.
Qed.
Lemma bitlen_nonneg x : (0 <= x -> 0 <= bitlen x)%Z.
Proof. intros H. destruct (Z.eq_dec x 0) as [->|N]; [discriminate|]. pose proof (bitlen_pos x ltac:(lia)). lia. Qed.
Lemma bitlen_ub x : (0 <= x -> x < 2 ^ bitlen x)%Z.
Proof. intros H. apply bitlen_le; [apply bitlen_nonneg, H|exact H|apply Z.le_refl]. Qed.

Section Mul.
Context (E : Curve) (O : Ops E) (HO : OpsFld E O).
Let H2 := c2_ne E.
Lemma mulloop_rep A (add : Proj E -> Proj E) L bit k :
  on E (cb E) A -> (forall x, repj E (add x) = pplus E (repj E x) A) ->
  (0 <= L)%Z -> (0 <= k < 2 ^ L)%Z -> (forall i, (0 <= i < L)%Z -> bit i = Some (Z.testbit k i)) ->
  repj E (MulLoop L bit (Double O) add (ProjectiveZero O)) = pk E k A.
Proof.
  intros HA Hadd HL Hk Hb. apply (MulLoop_spec (fun x a => repj E x = pk E a A)); try assumption.
  - apply repj_zero, HO.
  - intros x a _ IH. rewrite (repj_double E O HO H2), IH, <- (pk_add E) by exact HA. f_equal. lia.
  - intros x a _ IH. rewrite Hadd, IH, (pk_add E) by exact HA. rewrite pk_1. reflexivity.
Qed.
Lemma wf6_bound n : wf6 n -> (0 <= eval6 n < 2 ^ 384)%Z. Proof. apply eval6_bound. Qed.
Lemma repj_mul g n : on E (cb E) (repa E g) -> wf6 n -> repj E (Affine_Mul O g n) = pk E (eval6 n) (repa E g).
Proof.
  intros HA W. pose proof (wf6_bound n W) as Hr. unfold Affine_Mul. rewrite FQRepr_BitLen_spec by exact W. apply mulloop_rep; auto.
  - intros x. apply (repj_addaffine E O HO H2).
  - apply bitlen_nonneg. lia.
  - split; [lia|apply bitlen_ub; lia].
  - intros i Hi. rewrite FQRepr_Bit_spec by (exact W || lia). assert (bitlen (eval6 n) <= 384)%Z by (apply bitlen_le; lia). destruct (Z.ltb_spec i 384); [reflexivity|lia].
Qed.
Lemma repj_pmul g n : on E (cb E) (repj E g) -> wf6 n -> repj E (Proj_Mul O g n) = pk E (eval6 n) (repj E g).
Proof.
  intros HA W. pose proof (wf6_bound n W) as Hr. unfold Proj_Mul. rewrite FQRepr_BitLen_spec by exact W. apply mulloop_rep; auto.
  - intros x. apply (repj_add E O HO H2).
  - apply bitlen_nonneg. lia.
  - split; [lia|apply bitlen_ub; lia].
  - intros i Hi. rewrite FQRepr_Bit_spec by (exact W || lia). assert (bitlen (eval6 n) <= 384)%Z by (apply bitlen_le; lia). destruct (Z.ltb_spec i 384); [reflexivity|lia].
Qed.
Lemma repj_mulfr g n : on E (cb E) (repa E g) -> wf4 n -> repj E (Affine_MulFR O g n) = pk E (eval4 n) (repa E g).
Proof.
  intros HA W. pose proof (eval4_bound n W) as Hr. unfold Affine_MulFR. rewrite FRRepr_BitLen_spec by exact W. apply mulloop_rep; auto.
  - intros x. apply (repj_addaffine E O HO H2).
  - apply bitlen_nonneg. lia.
  - split; [lia|apply bitlen_ub; lia].
  - intros i Hi. rewrite FRRepr_Bit_spec by (exact W || lia). assert (bitlen (eval4 n) <= 256)%Z by (apply bitlen_le; lia). destruct (Z.ltb_spec i 256); [reflexivity|lia].
Qed.
Lemma repj_pmulfr g n : on E (cb E) (repj E g) -> wf4 n -> repj E (Proj_MulFR O g n) = pk E (eval4 n) (repj E g).
Proof.
  intros HA W. pose proof (eval4_bound n W) as Hr. unfold Proj_MulFR. rewrite FRRepr_BitLen_spec by exact W. apply mulloop_rep; auto.
  - intros x. apply (repj_add E O HO H2).
  - apply bitlen_nonneg. lia.
  - split; [lia|apply bitlen_ub; lia].
  - intros i Hi. rewrite FRRepr_Bit_spec by (exact W || lia). assert (bitlen (eval4 n) <= 256)%Z by (apply bitlen_le; lia). destruct (Z.ltb_spec i 256); [reflexivity|lia].
Qed.
Lemma repj_mulbig g n : on E (cb E) (repa E g) -> (0 <= n)%Z -> repj E (Affine_MulBig O g n) = pk E n (repa E g).
Proof.
  intros HA W. unfold Affine_MulBig, big_BitLen. rewrite Z.abs_eq by exact W. apply mulloop_rep; auto.
  - intros x. apply (repj_addaffine E O HO H2).
  - apply bitlen_nonneg. lia.
  - split; [lia|apply bitlen_ub; lia].
Qed.
End Mul.
