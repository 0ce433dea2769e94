(** Point encodings (g1.go:157-249, g2.go:172-289): compressed encodings over residues modulo q. *)
Require Import ZArith Lia Bool List Znumtheory Ring Field.
From Verif Require Import Words ModelRepr ReprProofs ReprProofs2 ModelFq ModelOps ModelTower ModelCurve NumTheory Primality Fp FpOps FqProofs FqProofs2 FqInverse FqRel FqMisc OpsRel OpsRel2 FqTransfer Ext TowerProofs TowerLimb Fld AbGrp EcGroup EcJac EcMul Curves CurveLimb CurveMisc.
Import ListNotations.
Open Scope Z_scope.

Lemma some_inj {A} (x y : A) : Some x = Some y -> x = y. Proof. intros E. injection E. auto. Qed.

(** ** The flag bits of the first byte *)
Definition all_bytes : list Z := map Z.of_nat (seq 0 256).
Lemma byte_forall (f : Z -> bool) : forallb f all_bytes = true -> forall h, isByte h -> f h = true.
Proof.
  intros H h Hh. rewrite forallb_forall in H. apply H. unfold all_bytes. apply in_map_iff. exists (Z.to_nat h). unfold isByte in Hh.
  split; [apply Z2Nat.id; lia|]. apply in_seq. lia.
Qed.
Definition flagged (g : bool) (h : Z) : Z := wor (if g then wor h 32 else h) 128.
Lemma flag_write h g : 0 <= h < 32 ->
  isByte (flagged g h) /\ (wand (flagged g h) 128 =? 0) = false /\ (wand (flagged g h) 64 =? 0) = true /\ (wand (flagged g h) 32 =? 0) = negb g /\ wand (flagged g h) 31 = h.
Proof.
  intros Hh.
  assert (((32 <=? h) || ((0 <=? flagged g h) && (flagged g h <? 256) && negb (wand (flagged g h) 128 =? 0) && (wand (flagged g h) 64 =? 0) && eqb (wand (flagged g h) 32 =? 0) (negb g) && (wand (flagged g h) 31 =? h))) = true) as H.
  { destruct g; [revert h Hh|revert h Hh]; intros h Hh;
    (refine (byte_forall (fun h => _) _ h _); [vm_compute; reflexivity|unfold isByte; lia]). }
  apply orb_true_iff in H. destruct H as [H|H]; [apply Z.leb_le in H; lia|]. rewrite !andb_true_iff in H.
  destruct H as [[[[[H1 H2] H3] H4] H5] H6]. apply Z.leb_le in H1. apply Z.ltb_lt in H2. apply negb_true_iff in H3. apply eqb_prop in H5. apply Z.eqb_eq in H6.
  unfold isByte. auto.
Qed.
Lemma flag_read h : isByte h -> (wand h 128 =? 0) = false -> (wand h 64 =? 0) = true ->
  0 <= wand h 31 < 32 /\ flagged (negb (wand h 32 =? 0)) (wand h 31) = h.
Proof.
  intros Hh A B.
  assert ((wand h 128 =? 0) || negb (wand h 64 =? 0) || ((0 <=? wand h 31) && (wand h 31 <? 32) && (flagged (negb (wand h 32 =? 0)) (wand h 31) =? h)) = true) as H
   by (refine (byte_forall (fun h => _) _ h Hh); vm_compute; reflexivity).
  rewrite A, B in H. cbn [negb orb] in H. rewrite !andb_true_iff in H. destruct H as [[H1 H2] H3]. apply Z.leb_le in H1. apply Z.ltb_lt in H2. apply Z.eqb_eq in H3. auto.
Qed.
Lemma flag_inf h : isByte h -> (wand h 128 =? 0) = false -> (wand h 64 =? 0) = false -> wand h 63 = 0 -> h = 192.
Proof.
  intros Hh A B C. assert ((wand h 128 =? 0) || (wand h 64 =? 0) || negb (wand h 63 =? 0) || (h =? 192) = true) as H
   by (refine (byte_forall (fun h => _) _ h Hh); vm_compute; reflexivity).
  rewrite A, B, C in H. apply Z.eqb_eq. exact H.
Qed.
Lemma byte_lt32 h : 0 <= h < 32 -> isByte h. Proof. unfold isByte. lia. Qed.

(** ** Coordinates *)
Lemma q_top : q < 32 * 256 ^ 47. Proof. apply Z.ltb_lt. vm_compute. reflexivity. Qed.
Lemma q_384 : q < 2 ^ 384. Proof. apply Z.ltb_lt. vm_compute. reflexivity. Qed.
Definition xbytes (x : Fq) : list Z := FQRepr_Bytes (FQRepr_const (zof x)).
Lemma xbytes_spec x : length (xbytes x) = 48%nat /\ Forall isByte (xbytes x) /\ be_value (xbytes x) = zof x /\ FQReprFromBytes (xbytes x) = FQRepr_const (zof x).
Proof.
  pose proof (zof_bound q prime_q x) as B. pose proof q_384. destruct (FQRepr_const_spec (zof x)) as [Wx Vx]; [lia|].
  split; [apply FQRepr_Bytes_length|]. split; [apply FQRepr_Bytes_isByte|]. split; [unfold xbytes; rewrite FQRepr_Bytes_value by exact Wx; exact Vx|apply FQRepr_FromBytes_Bytes, Wx].
Qed.
Lemma xbytes_head x : exists h t, xbytes x = h :: t /\ 0 <= h < 32 /\ Forall isByte t /\ length t = 47%nat.
Proof.
  destruct (xbytes_spec x) as (L & F & V & _). destruct (xbytes x) as [|h t]; [discriminate|]. exists h, t. split; [reflexivity|].
  inversion_clear F as [|? ? Hh Ht]. injection L as L. change (h :: t) with ([h] ++ t) in V. rewrite be_value_app, L in V. change (be_value [h]) with (0 * 256 + h) in V.
  pose proof (be_value_bound t Ht) as Bt. pose proof (zof_bound q prime_q x). pose proof q_top. unfold isByte in Hh. change (Z.of_nat 47) with 47 in *. split; [nia|auto].
Qed.
(** the element a coordinate encoding is read as *)
Definition xread (l : list Z) : Fq := b_of FpB (FQReprFromBytes l).
Lemma xread_xbytes x : xread (xbytes x) = x.
Proof.
  destruct (xbytes_spec x) as (_ & _ & _ & E). unfold xread. rewrite E. pose proof (zof_bound q prime_q x) as B. pose proof q_384. destruct (FQRepr_const_spec (zof x)) as [Wx Vx]; [lia|].
  cbn [FpB b_of]. rewrite Vx. destruct (Z.ltb_spec (zof x) q); [apply zp_zof|lia].
Qed.
Lemma xbytes_xread l : length l = 48%nat -> Forall isByte l -> be_value l < q -> xbytes (xread l) = l.
Proof.
  intros L F V. destruct (FQReprFromBytes_spec l L F) as [Wl El]. unfold xread. cbn [FpB b_of]. rewrite El. destruct (Z.ltb_spec (be_value l) q); [|lia].
  destruct (xbytes_spec (z2q (be_value l))) as (L' & F' & V' & _). apply be_value_inj; [exact F'|exact F|rewrite L, L'; reflexivity|].
  rewrite V'. unfold z2q. rewrite zof_zp. apply Z.mod_small. pose proof (be_value_bound l F). lia.
Qed.
Lemma xread_noncanon l : length l = 48%nat -> Forall isByte l -> q <= be_value l -> xread l = f0 q.
Proof. intros L F V. destruct (FQReprFromBytes_spec l L F) as [Wl El]. unfold xread. cbn [FpB b_of]. rewrite El. destruct (Z.ltb_spec (be_value l) q); [lia|reflexivity]. Qed.

(** ** G1 *)
Definition pt1 (P : Affine Fq) : pt Fq := repa FldQ P.
Definition bigger1 (y : Fq) : bool := zof (fopp y) <? zof y.
Lemma compress1_inf : CompressG1 FpB (AffineZero FpO) = 192 :: repeat 0 47.
Proof. reflexivity. Qed.
Lemma bigger1_cmp y : (0 <? o_cmp FpO y (o_neg FpO y)) = bigger1 y.
Proof.
  unfold bigger1. cbn [FpO o_cmp o_neg]. unfold zcmp. generalize (zof (fopp y)) as m. intros m. destruct (Z.compare_spec (zof y) m); symmetry; [apply Z.ltb_ge; lia|apply Z.ltb_ge; lia|apply Z.ltb_lt; lia].
Qed.
Lemma compress1_fin x y h t : xbytes x = h :: t -> CompressG1 FpB (mkAff x y false) = flagged (bigger1 y) h :: t.
Proof.
  intros E. unfold CompressG1. cbn [Affine_IsZero ainf ax ay FpB b_repr b_ops]. rewrite bigger1_cmp. change (FQRepr_Bytes (FQRepr_const (zof x))) with (xbytes x). rewrite E.
  destruct (bigger1 y); reflexivity.
Qed.
Lemma decompress1_eq h t : DecompressG1Unchecked FpB (h :: t) =
  if wand h 128 =? 0 then None
  else if wand h 64 =? 0 then GetG1PointFromX FpB (xread (wand h 31 :: t)) (negb (wand h 32 =? 0))
  else if (wand h 63 =? 0) && forallb (fun x => x =? 0) t then Some (AffineZero FpO) else None.
Proof. unfold DecompressG1Unchecked. cbn [byte0 upd0 forallb]. destruct (wand h 128 =? 0); [reflexivity|]. destruct (wand h 64 =? 0); reflexivity. Qed.
Lemma zeros_repeat t n : length t = n -> forallb (fun x => x =? 0) t = true -> t = repeat 0 n.
Proof. intros <-. induction t as [|a t IH]; cbn; [reflexivity|]. rewrite andb_true_iff, Z.eqb_eq. intros [-> H]. f_equal. apply IH, H. Qed.
Lemma g1_get x y g : on1 (Pt x y) -> y <> f0 q -> (g = true <-> fq_lt (fopp y) y) -> GetG1PointFromX FpB x g = Some (mkAff x y false).
Proof. intros H N Hg. unfold GetG1PointFromX. rewrite BCoeff_val. exact (GetPointFromX_of FldQ FpO FpO_ok fq_lt FpO_ord b1 two_Q_ne x y H N g Hg). Qed.
Lemma g1_get_inv x g P : GetG1PointFromX FpB x g = Some P -> exists y, P = mkAff x y false /\ on1 (Pt x y) /\ (y <> f0 q -> (g = true <-> fq_lt (fopp y) y)).
Proof.
  unfold GetG1PointFromX. rewrite BCoeff_val. intros E. destruct (oo_dec FldQ FpO fq_lt FpO_ord (fadd (fmul (fmul x x) x) b1)) as [S|S].
  - destruct (GetPointFromX_some FldQ FpO FpO_ok fq_lt FpO_ord b1 two_Q_ne x g S) as (y & Ey & Hy & Hg).
    assert (GetPointFromX (b_ops FpB) b1 x g = Some (mkAff x y false)) as Ey' by exact Ey. rewrite Ey' in E. injection E as <-. exists y. split; [reflexivity|]. split; [exact Hy|exact Hg].
  - exfalso. assert (GetPointFromX (b_ops FpB) b1 x g = None) as EN by exact (GetPointFromX_none FldQ FpO FpO_ok fq_lt FpO_ord b1 x g S). rewrite EN in E. clear - E. discriminate E.
Qed.
Lemma bigger1_iff y : bigger1 y = true <-> fq_lt (fopp y) y.
Proof. unfold bigger1, fq_lt. apply Z.ltb_lt. Qed.
Lemma decompress1_compress x y : on1 (Pt x y) -> y <> f0 q -> DecompressG1Unchecked FpB (CompressG1 FpB (mkAff x y false)) = Some (mkAff x y false).
Proof.
  intros H N. destruct (xbytes_head x) as (h & t & E & Hh & _). rewrite (compress1_fin x y h t E), decompress1_eq.
  destruct (flag_write h (bigger1 y) Hh) as (_ & -> & -> & -> & ->). rewrite negb_involutive, <- E, xread_xbytes. apply g1_get; [exact H|exact N|apply bigger1_iff].
Qed.
Lemma compress1_decompress l P : length l = 48%nat -> Forall isByte l -> DecompressG1Unchecked FpB l = Some P ->
  (P = AffineZero FpO /\ l = 192 :: repeat 0 47) \/
  (exists x y, P = mkAff x y false /\ on1 (Pt x y) /\ (y = f0 q \/ x = f0 q \/ CompressG1 FpB P = l)).
Proof.
  intros L F. destruct l as [|h t]; [discriminate|]. injection L as L. inversion_clear F as [|? ? Hh Ht]. rewrite decompress1_eq.
  destruct (wand h 128 =? 0) eqn:A; [discriminate|]. destruct (wand h 64 =? 0) eqn:B.
  - intros E. right. apply g1_get_inv in E. destruct E as (y & -> & Hy & Hg). exists (xread (wand h 31 :: t)), y. split; [reflexivity|]. split; [exact Hy|].
    destruct (Fp_dec y (f0 q)) as [Z|N]; [left; exact Z|right]. destruct (flag_read h Hh A B) as [B31 Fl].
    assert (Forall isByte (wand h 31 :: t)) as F' by (constructor; [apply byte_lt32, B31|exact Ht]).
    assert (length (wand h 31 :: t) = 48%nat) as L' by (cbn [length]; rewrite L; reflexivity).
    destruct (Z.lt_ge_cases (be_value (wand h 31 :: t)) q) as [V|V].
    + right. rewrite (compress1_fin _ y _ _ (xbytes_xread _ L' F' V)). f_equal. rewrite <- Fl at 2. f_equal.
      apply eq_true_iff_eq. rewrite bigger1_iff. symmetry. exact (Hg N).
    + left. apply xread_noncanon; assumption.
  - destruct ((wand h 63 =? 0) && forallb (fun x => x =? 0) t) eqn:C; [|discriminate]. intros E. injection E as <-. left. split; [reflexivity|].
    apply andb_true_iff in C. destruct C as [C D]. apply Z.eqb_eq in C. rewrite (flag_inf h Hh A B C), (zeros_repeat t 47 L D). reflexivity.
Qed.
(** Points with y = 0 have order 2, points with x = 0 order 3: neither is in the subgroup of order r. *)
Lemma r_mod_2 : r mod 2 = 1. Proof. reflexivity. Qed.
Lemma r_mod_3 : r mod 3 = 1. Proof. reflexivity. Qed.
Lemma ord2_not_r (E : Curve) (x : E) : on E (cb E) (Pt x (fO : E)) -> pk E r (Pt x (fO : E)) <> Inf.
Proof.
  intros H X. rewrite <- (pk_mod E 2 r _ H) in X.
  - rewrite r_mod_2, pk_1 in X. discriminate.
  - rewrite pk_2. unfold pplus. destruct (fDec x x); [|contradiction]. destruct (fDec (fO : E) fO); [|contradiction]. destruct (fDec (fO : E) fO); [reflexivity|contradiction].
Qed.
Section Ord3.
Context (E : Curve).
Add Field KFo3 : (fTh E).
Lemma ord3_not_r (y : E) : on E (cb E) (Pt (fO : E) y) -> pk E r (Pt (fO : E) y) <> Inf.
Proof.
  intros H X. rewrite <- (pk_mod E 3 r _ H) in X.
  - rewrite r_mod_3, pk_1 in X. discriminate.
  - rewrite pk_3 by exact H.
    assert (y <> fO) as N.
    { intros ->. cbn [on] in H. apply (cb_ne E). transitivity (fA (fM (fM fO fO) fO) (cb E)); [ring|]. rewrite <- H. ring. }
    assert (pplus E (Pt fO y) (Pt fO y) = pneg E (Pt fO y)) as ->.
    { unfold pplus. destruct (fDec (fO : E) fO); [|contradiction]. destruct (fDec y y); [|contradiction]. destruct (fDec y fO); [contradiction|].
      assert (fM (two E) y <> fO) as N2 by (apply fld_mul_ne; [apply c2_ne|exact N]).
      unfold chord, pneg. cbv zeta. f_equal; field; (split; [exact N|apply c2_ne]) || (split; [apply c2_ne|exact N]) || exact N2. }
    pose proof (pplus_neg_r E (c2_ne E) (pneg E (Pt fO y))) as Y. rewrite pneg_inv in Y. exact Y.
Qed.
End Ord3.

(** ** G1 at the level of limbs *)
Lemma valA1_inj P Q : canonA1 P -> canonA1 Q -> valA1 P = valA1 Q -> P = Q.
Proof.
  destruct P as [x y i], Q as [x' y' i']. intros [C1 C2] [D1 D2]. unfold valA1. cbn [ax ay ainf] in *. intros X.
  pose proof (f_equal ax X) as Ex. pose proof (f_equal ay X) as Ey. pose proof (f_equal ainf X) as Ei. cbn [ax ay ainf] in *.
  apply fqval_inj in Ex; auto. apply fqval_inj in Ey; auto. congruence.
Qed.
Lemma aff1_pt1 P : aff1 P = pt1 (valA1 P). Proof. reflexivity. Qed.
Lemma compress1_val P : canonA1 P -> CompressG1 FqB P = CompressG1 FpB (valA1 P).
Proof. intros C. apply (rel_CompressG1 FqB FpB RFq). apply RA1_val. auto. Qed.
Lemma decompress1_val l : length l = 48%nat -> Forall isByte l ->
  match DecompressG1Unchecked FqB l with
  | None => DecompressG1Unchecked FpB l = None
  | Some P => canonA1 P /\ DecompressG1Unchecked FpB l = Some (valA1 P)
  end.
Proof.
  intros L F. pose proof (rel_DecompressG1Unchecked FqB FpB RFq l F L) as H. destruct (DecompressG1Unchecked FqB l), (DecompressG1Unchecked FpB l); cbn [optR] in H; try contradiction; auto.
  apply RA1_val in H. destruct H as [C ->]. auto.
Qed.
Lemma compress1_bytes P : canonA1 P -> length (CompressG1 FqB P) = 48%nat /\ Forall isByte (CompressG1 FqB P).
Proof.
  intros C. rewrite (compress1_val P C). destruct (valA1 P) as [x y [|]].
  - change (CompressG1 FpB {| ax := x; ay := y; ainf := true |}) with (192 :: repeat 0 47). split; [reflexivity|]. unfold isByte. repeat constructor; lia.
  - destruct (xbytes_head x) as (h & t & E & Hh & Ht & Lt). rewrite (compress1_fin x y h t E). split; [cbn [length]; rewrite Lt; reflexivity|].
    constructor; [apply flag_write, Hh|exact Ht].
Qed.
(** the points DecompressG1 may return: on the curve, of order dividing r, infinity only as AffineZero *)
Definition sub1 (P : Affine FQ) : Prop := canonA1 P /\ on1 (aff1 P) /\ mul1 r (aff1 P) = Inf /\ (ainf P = true -> P = AffineZero FqO).
Lemma sub1_y P : sub1 P -> ainf P = false -> fqval (ay P) <> f0 q.
Proof.
  intros (C & H & X & _) N E. unfold aff1, aff, repa, vA in H, X. cbn [ainf ax ay] in H, X. rewrite N, E in H, X. exact (ord2_not_r E1 _ H X).
Qed.
Lemma sub1_x P : sub1 P -> ainf P = false -> fqval (ax P) <> f0 q.
Proof.
  intros (C & H & X & _) N E. unfold aff1, aff, repa, vA in H, X. cbn [ainf ax ay] in H, X. rewrite N, E in H, X. exact (ord3_not_r E1 _ H X).
Qed.
Lemma azero1_val : valA1 (AffineZero FqO) = AffineZero FpO.
Proof. pose proof (rel_AffineZero FqO FpO RFq HR1) as H. apply RA1_val in H. destruct H as [_ H]. symmetry. exact H. Qed.
Lemma G1_decompress_some l P : length l = 48%nat -> Forall isByte l -> DecompressG1Unchecked FqB l = Some P ->
  canonA1 P /\ on1 (aff1 P) /\ (ainf P = true -> P = AffineZero FqO).
Proof.
  intros L F E. pose proof (decompress1_val l L F) as H. rewrite E in H. destruct H as [C H]. split; [exact C|].
  destruct (compress1_decompress l _ L F H) as [[X _]|(x & y & X & Hx & _)].
  - rewrite <- azero1_val in X. apply valA1_inj in X; [|exact C|apply G1_azero]. subst P. split; [|reflexivity]. rewrite (proj2 G1_azero). exact I.
  - rewrite aff1_pt1, X. split; [exact Hx|]. intros N. exfalso. apply (f_equal ainf) in X. cbn [valA1 ainf] in X. congruence.
Qed.
Lemma G1_decompress_checked l P : length l = 48%nat -> Forall isByte l -> (DecompressG1 FqB l = Some P <-> DecompressG1Unchecked FqB l = Some P /\ sub1 P).
Proof.
  intros L F. unfold DecompressG1. destruct (DecompressG1Unchecked FqB l) as [Q|] eqn:E; [|split; [discriminate|intros [X _]; discriminate]].
  destruct (G1_decompress_some l Q L F E) as (C & H & I). pose proof (g1_subgroup Q C H) as S.
  destruct (G1_IsInCorrectSubgroupAssumingOnCurve FqB Q); cbn [negb].
  - split; [intros X; injection X as <-; split; [reflexivity|]; split; [exact C|]; split; [exact H|]; split; [apply S; reflexivity|exact I]|intros [X _]; exact X].
  - split; [discriminate|]. intros [X (_ & _ & Y & _)]. injection X as ->. apply S in Y. discriminate.
Qed.
Lemma G1_roundtrip_unchecked P : canonA1 P -> on1 (aff1 P) -> ainf P = false -> fqval (ay P) <> f0 q -> DecompressG1Unchecked FqB (CompressG1 FqB P) = Some P.
Proof.
  intros C H N Y. destruct (compress1_bytes P C) as [L F]. pose proof (decompress1_val _ L F) as D.
  assert (DecompressG1Unchecked FpB (CompressG1 FqB P) = Some (valA1 P)) as R.
  { rewrite (compress1_val P C). rewrite aff1_pt1 in H. unfold pt1, repa, valA1 in H |- *. cbn [ainf ax ay] in H. rewrite N in H |- *. apply decompress1_compress; assumption. }
  rewrite R in D. destruct (DecompressG1Unchecked FqB (CompressG1 FqB P)) as [Q|]; [|discriminate]. destruct D as [CQ D]. apply some_inj in D. f_equal. symmetry. apply valA1_inj; assumption.
Qed.
Lemma G1_roundtrip_zero : DecompressG1 FqB (CompressG1 FqB (AffineZero FqO)) = Some (AffineZero FqO).
Proof.
  apply G1_decompress_checked; [apply compress1_bytes, G1_azero|apply compress1_bytes, G1_azero|]. split; [vm_compute; reflexivity|].
  destruct G1_azero as [C X]. split; [exact C|]. rewrite X. split; [exact I|]. split; [exact (pk_Inf E1 r)|reflexivity].
Qed.
Lemma G1_roundtrip_sub P : sub1 P -> DecompressG1 FqB (CompressG1 FqB P) = Some P.
Proof.
  intros S. destruct (ainf P) eqn:N.
  - destruct S as (_ & _ & _ & I). rewrite (I N). exact G1_roundtrip_zero.
  - apply G1_decompress_checked; [apply compress1_bytes, S|apply compress1_bytes, S|]. split; [|exact S]. apply G1_roundtrip_unchecked; try apply S; [exact N|]. apply sub1_y; assumption.
Qed.
Lemma G1_nonmalleable l P : length l = 48%nat -> Forall isByte l -> DecompressG1 FqB l = Some P -> sub1 P /\ CompressG1 FqB P = l.
Proof.
  intros L F E. apply (G1_decompress_checked l P L F) in E. destruct E as [E S]. split; [exact S|].
  pose proof (decompress1_val l L F) as H. rewrite E in H. destruct H as [C H].
  destruct (compress1_decompress l _ L F H) as [[X ->]|(x & y & X & Hx & D)].
  - rewrite <- azero1_val in X. apply valA1_inj in X; [|exact C|apply G1_azero]. subst P. vm_compute. reflexivity.
  - assert (ainf P = false) as N by (apply (f_equal ainf) in X; exact X). rewrite (compress1_val P C).
    pose proof (f_equal ax X) as Ex. pose proof (f_equal ay X) as Ey. unfold valA1 in Ex, Ey. cbn [ax ay] in Ex, Ey.
    destruct D as [D|[D|D]]; [| |exact D]; exfalso.
    + apply (sub1_y P S N). congruence.
    + apply (sub1_x P S N). congruence.
Qed.

(** ** G2 *)
Definition bigger2 (y : K2) : bool := 0 <? FQ2_Cmp FpB y (FQ2_NegAssign FpB y).
Lemma bigger2_iff y : bigger2 y = true <-> k2_lt (k2_opp y) y.
Proof.
  unfold bigger2. rewrite m2_neg, Z.ltb_lt. destruct (m2_cmp y (k2_opp y)) as [[X Y]|[[X Y]|[X Y]]]; rewrite X.
  - split; [lia|]. intros Z. exfalso. exact (oo_asym _ _ _ FpO2_ord _ _ Y Z).
  - split; [lia|]. rewrite <- Y. intros Z. exfalso. exact (oo_asym _ _ _ FpO2_ord _ _ Z Z).
  - split; [intros _; exact Y|lia].
Qed.
Lemma compress2_fin x y h t : xbytes (c1 x) = h :: t -> CompressG2 FpB (mkAff x y false) = flagged (bigger2 y) h :: t ++ xbytes (c0 x).
Proof.
  intros E. unfold CompressG2. cbn [Affine_IsZero ainf ax ay FpB b_repr b_ops]. fold FpB. fold (bigger2 y). 
  change (FQRepr_Bytes (FQRepr_const (zof (c1 x)))) with (xbytes (c1 x)). change (FQRepr_Bytes (FQRepr_const (zof (c0 x)))) with (xbytes (c0 x)). rewrite E.
  destruct (bigger2 y); reflexivity.
Qed.
Lemma decompress2_eq h t u : length t = 47%nat -> DecompressG2Unchecked FpB (h :: t ++ u) =
  if wand h 128 =? 0 then None
  else if wand h 64 =? 0 then GetG2PointFromX FpB (mkFQ2 (xread u) (xread (wand h 31 :: t))) (negb (wand h 32 =? 0))
  else if (wand h 63 =? 0) && forallb (fun x => x =? 0) (t ++ u) then Some (AffineZero (FQ2O FpB)) else None.
Proof.
  intros L. unfold DecompressG2Unchecked. cbn [byte0 upd0 forallb]. destruct (wand h 128 =? 0); [reflexivity|]. destruct (wand h 64 =? 0); [|reflexivity]. cbn [negb].
  change (wand h 31 :: t ++ u) with ((wand h 31 :: t) ++ u).
  assert (firstn 48 ((wand h 31 :: t) ++ u) = wand h 31 :: t) as ->.
  { replace 48%nat with (length (wand h 31 :: t) + 0)%nat by (cbn [length]; rewrite L; reflexivity). rewrite firstn_app_2. cbn [firstn]. apply app_nil_r. }
  rewrite (skipn_app_exact 48) by (cbn [length]; rewrite L; reflexivity). reflexivity.
Qed.
Lemma g2_get x y g : on2 (Pt x y) -> y <> k2_0 -> (g = true <-> k2_lt (k2_opp y) y) -> GetG2PointFromX FpB x g = Some (mkAff x y false).
Proof. intros H N Hg. unfold GetG2PointFromX. rewrite BCoeffFQ2_val. exact (GetPointFromX_of FldQ2 (FQ2O FpB) FpO2_ok k2_lt FpO2_ord b2 two_Q2_ne x y H N g Hg). Qed.
Lemma g2_get_inv x g P : GetG2PointFromX FpB x g = Some P -> exists y, P = mkAff x y false /\ on2 (Pt x y) /\ (y <> k2_0 -> (g = true <-> k2_lt (k2_opp y) y)).
Proof.
  intros E. destruct (oo_dec FldQ2 (FQ2O FpB) k2_lt FpO2_ord (k2_add (k2_mul (k2_mul x x) x) b2)) as [S|S].
  - destruct (g2_fromx_some x g S) as (y & Ey & Hy & Hg). rewrite Ey in E. apply some_inj in E. exists y. split; [symmetry; exact E|]. split; [exact Hy|exact Hg].
  - exfalso. rewrite (g2_fromx_none x g S) in E. clear - E. discriminate E.
Qed.
Lemma decompress2_compress x y : on2 (Pt x y) -> y <> k2_0 -> DecompressG2Unchecked FpB (CompressG2 FpB (mkAff x y false)) = Some (mkAff x y false).
Proof.
  intros H N. destruct (xbytes_head (c1 x)) as (h & t & E & Hh & _ & Lt). rewrite (compress2_fin x y h t E), decompress2_eq by exact Lt.
  destruct (flag_write h (bigger2 y) Hh) as (_ & -> & -> & -> & ->). rewrite negb_involutive, <- E, !xread_xbytes. destruct x as [x0 x1]. cbn [c0 c1].
  apply g2_get; [exact H|exact N|apply bigger2_iff].
Qed.
(** a compressed G2 encoding whose two coordinates are smaller than q (flag bits removed) *)
Definition canonical_enc2 (l : list Z) : Prop :=
  be_value (wand (byte0 l) 31 :: firstn 47 (skipn 1 l)) < q /\ be_value (skipn 48 l) < q.
Lemma compress2_decompress l P : length l = 96%nat -> Forall isByte l -> DecompressG2Unchecked FpB l = Some P ->
  (P = AffineZero (FQ2O FpB) /\ l = 192 :: repeat 0 95) \/
  (exists x y, P = mkAff x y false /\ on2 (Pt x y) /\ (y = k2_0 \/ ~ canonical_enc2 l \/ CompressG2 FpB P = l)).
Proof.
  intros L F. destruct l as [|h t']; [discriminate|]. injection L as L. inversion_clear F as [|? ? Hh Ht'].
  assert (exists t u, t' = t ++ u /\ length t = 47%nat /\ length u = 48%nat) as (t & u & -> & Lt & Lu).
  { exists (firstn 47 t'), (skipn 47 t'). rewrite firstn_skipn, firstn_length, skipn_length. repeat split; lia. }
  apply Forall_app in Ht'. destruct Ht' as [Ht Hu]. rewrite decompress2_eq by exact Lt.
  destruct (wand h 128 =? 0) eqn:A; [discriminate|]. destruct (wand h 64 =? 0) eqn:B.
  - intros E. right. apply g2_get_inv in E. destruct E as (y & -> & Hy & Hg). eexists _, y. split; [reflexivity|]. split; [exact Hy|].
    destruct (k2_dec y k2_0) as [Z|N]; [left; exact Z|right]. destruct (flag_read h Hh A B) as [B31 Fl].
    assert (Forall isByte (wand h 31 :: t)) as F' by (constructor; [apply byte_lt32, B31|exact Ht]).
    assert (length (wand h 31 :: t) = 48%nat) as L' by (cbn [length]; rewrite Lt; reflexivity).
    destruct (Z.lt_ge_cases (be_value (wand h 31 :: t)) q) as [V|V]; [destruct (Z.lt_ge_cases (be_value u) q) as [V'|V']|].
    + right. rewrite (compress2_fin _ y (wand h 31) t) by (cbn [c1]; apply xbytes_xread; assumption). cbn [c0]. rewrite xbytes_xread by assumption. f_equal. rewrite <- Fl at 2. f_equal.
      apply eq_true_iff_eq. rewrite bigger2_iff. symmetry. exact (Hg N).
    + left. intros [_ X]. change (h :: t ++ u) with ((h :: t) ++ u) in X. rewrite (skipn_app_exact 48) in X by (cbn [length]; rewrite Lt; reflexivity). lia.
    + left. intros [X _]. cbn [byte0 skipn] in X. rewrite <- Lt in X at 1. rewrite <- (Nat.add_0_r (length t)) in X. rewrite firstn_app_2 in X. cbn [firstn] in X. rewrite app_nil_r in X. lia.
  - destruct ((wand h 63 =? 0) && forallb (fun x => x =? 0) (t ++ u)) eqn:C; [|discriminate]. intros E. apply some_inj in E. subst P. left. split; [reflexivity|].
    apply andb_true_iff in C. destruct C as [C D]. apply Z.eqb_eq in C. rewrite (flag_inf h Hh A B C), (zeros_repeat (t ++ u) 95); [reflexivity|rewrite app_length; lia|exact D].
Qed.
Definition pt2 (P : Affine K2) : pt K2 := repa FldQ2 P.
(** ** G2 at the level of limbs *)
Lemma valA2_inj P Q : canonA2 P -> canonA2 Q -> valA2 P = valA2 Q -> P = Q.
Proof.
  destruct P as [x y i], Q as [x' y' i']. intros [C1 C2] [D1 D2]. unfold valA2. cbn [ax ay ainf] in *. intros X.
  pose proof (f_equal ax X) as Ex. pose proof (f_equal ay X) as Ey. pose proof (f_equal ainf X) as Ei. cbn [ax ay ainf] in *.
  apply val2_inj in Ex; auto. apply val2_inj in Ey; auto. congruence.
Qed.
Lemma aff2_pt2 P : aff2 P = pt2 (valA2 P). Proof. reflexivity. Qed.
Lemma compress2_val P : canonA2 P -> CompressG2 FqB P = CompressG2 FpB (valA2 P).
Proof. intros C. apply (rel_CompressG2 FqB FpB RFq). apply RA2_val. auto. Qed.
Lemma decompress2_val l : length l = 96%nat -> Forall isByte l ->
  match DecompressG2Unchecked FqB l with
  | None => DecompressG2Unchecked FpB l = None
  | Some P => canonA2 P /\ DecompressG2Unchecked FpB l = Some (valA2 P)
  end.
Proof.
  intros L F. pose proof (rel_DecompressG2Unchecked FqB FpB RFq l F L) as H. destruct (DecompressG2Unchecked FqB l), (DecompressG2Unchecked FpB l); cbn [optR] in H; try contradiction; auto.
  apply RA2_val in H. destruct H as [C ->]. auto.
Qed.
Lemma compress2_bytes P : canonA2 P -> length (CompressG2 FqB P) = 96%nat /\ Forall isByte (CompressG2 FqB P).
Proof.
  intros C. rewrite (compress2_val P C). destruct (valA2 P) as [x y [|]].
  - change (CompressG2 FpB {| ax := x; ay := y; ainf := true |}) with (192 :: repeat 0 95). split; [reflexivity|]. unfold isByte. repeat constructor; lia.
  - destruct (xbytes_head (c1 x)) as (h & t & E & Hh & Ht & Lt). destruct (xbytes_spec (c0 x)) as (L0 & F0 & _). rewrite (compress2_fin x y h t E). split; [cbn [length]; rewrite app_length, Lt, L0; reflexivity|].
    constructor; [apply flag_write, Hh|apply Forall_app; auto].
Qed.
(** the points DecompressG2 may return: on the curve, of order dividing r, infinity only as AffineZero *)
Definition sub2 (P : Affine (FQ2 FQ)) : Prop := canonA2 P /\ on2 (aff2 P) /\ mul2 r (aff2 P) = Inf /\ (ainf P = true -> P = AffineZero FqO2).
Lemma sub2_y P : sub2 P -> ainf P = false -> val2 (ay P) <> k2_0.
Proof.
  intros (C & H & X & _) N E. unfold aff2, aff, repa, vA in H, X. cbn [ainf ax ay] in H, X. rewrite N, E in H, X. exact (ord2_not_r E2 _ H X).
Qed.
Lemma azero2_val : valA2 (AffineZero FqO2) = AffineZero (FQ2O FpB).
Proof. pose proof (rel_AffineZero FqO2 (FQ2O FpB) (R2 RFq) HR2) as H. apply RA2_val in H. destruct H as [_ H]. symmetry. exact H. Qed.
Lemma G2_decompress_some l P : length l = 96%nat -> Forall isByte l -> DecompressG2Unchecked FqB l = Some P ->
  canonA2 P /\ on2 (aff2 P) /\ (ainf P = true -> P = AffineZero FqO2).
Proof.
  intros L F E. pose proof (decompress2_val l L F) as H. rewrite E in H. destruct H as [C H]. split; [exact C|].
  destruct (compress2_decompress l _ L F H) as [[X _]|(x & y & X & Hx & _)].
  - rewrite <- azero2_val in X. apply valA2_inj in X; [|exact C|apply G2_azero]. subst P. split; [|reflexivity]. rewrite (proj2 G2_azero). exact I.
  - rewrite aff2_pt2, X. split; [exact Hx|]. intros N. exfalso. apply (f_equal ainf) in X. cbn [valA2 ainf] in X. congruence.
Qed.
Lemma G2_decompress_checked l P : length l = 96%nat -> Forall isByte l -> (DecompressG2 FqB l = Some P <-> DecompressG2Unchecked FqB l = Some P /\ sub2 P).
Proof.
  intros L F. unfold DecompressG2. destruct (DecompressG2Unchecked FqB l) as [Q|] eqn:E; [|split; [discriminate|intros [X _]; discriminate]].
  destruct (G2_decompress_some l Q L F E) as (C & H & I). pose proof (g2_subgroup Q C H) as S.
  destruct (G2_IsInCorrectSubgroupAssumingOnCurve FqB Q); cbn [negb].
  - split; [intros X; injection X as <-; split; [reflexivity|]; split; [exact C|]; split; [exact H|]; split; [apply S; reflexivity|exact I]|intros [X _]; exact X].
  - split; [discriminate|]. intros [X (_ & _ & Y & _)]. injection X as ->. apply S in Y. discriminate.
Qed.
Lemma G2_roundtrip_unchecked P : canonA2 P -> on2 (aff2 P) -> ainf P = false -> val2 (ay P) <> k2_0 -> DecompressG2Unchecked FqB (CompressG2 FqB P) = Some P.
Proof.
  intros C H N Y. destruct (compress2_bytes P C) as [L F]. pose proof (decompress2_val _ L F) as D.
  assert (DecompressG2Unchecked FpB (CompressG2 FqB P) = Some (valA2 P)) as R.
  { rewrite (compress2_val P C). rewrite aff2_pt2 in H. unfold pt2, repa, valA2 in H |- *. cbn [ainf ax ay] in H. rewrite N in H |- *. apply decompress2_compress; assumption. }
  rewrite R in D. destruct (DecompressG2Unchecked FqB (CompressG2 FqB P)) as [Q|]; [|discriminate]. destruct D as [CQ D]. apply some_inj in D. f_equal. symmetry. apply valA2_inj; assumption.
Qed.
Lemma G2_roundtrip_zero : DecompressG2 FqB (CompressG2 FqB (AffineZero FqO2)) = Some (AffineZero FqO2).
Proof.
  apply G2_decompress_checked; [apply compress2_bytes, G2_azero|apply compress2_bytes, G2_azero|]. split; [vm_compute; reflexivity|].
  destruct G2_azero as [C X]. split; [exact C|]. rewrite X. split; [exact I|]. split; [exact (pk_Inf E2 r)|reflexivity].
Qed.
Lemma G2_roundtrip_sub P : sub2 P -> DecompressG2 FqB (CompressG2 FqB P) = Some P.
Proof.
  intros S. destruct (ainf P) eqn:N.
  - destruct S as (_ & _ & _ & I). rewrite (I N). exact G2_roundtrip_zero.
  - apply G2_decompress_checked; [apply compress2_bytes, S|apply compress2_bytes, S|]. split; [|exact S]. apply G2_roundtrip_unchecked; try apply S; [exact N|]. apply sub2_y; assumption.
Qed.
Lemma G2_nonmalleable l P : length l = 96%nat -> Forall isByte l -> DecompressG2 FqB l = Some P -> sub2 P /\ (canonical_enc2 l -> CompressG2 FqB P = l).
Proof.
  intros L F E. apply (G2_decompress_checked l P L F) in E. destruct E as [E S]. split; [exact S|]. intros CE.
  pose proof (decompress2_val l L F) as H. rewrite E in H. destruct H as [C H].
  destruct (compress2_decompress l _ L F H) as [[X ->]|(x & y & X & Hx & D)].
  - rewrite <- azero2_val in X. apply valA2_inj in X; [|exact C|apply G2_azero]. subst P. vm_compute. reflexivity.
  - assert (ainf P = false) as N by (apply (f_equal ainf) in X; exact X). rewrite (compress2_val P C).
    pose proof (f_equal ay X) as Ey. unfold valA2 in Ey. cbn [ay] in Ey.
    destruct D as [D|[D|D]]; [|contradiction|exact D]. exfalso. apply (sub2_y P S N). congruence.
Qed.

(** ** Non-canonical coordinates are accepted *)
Definition noncanon_enc1 : list Z := Eval vm_compute in upd0 (fun x => wor x 128) (FQRepr_Bytes (FQRepr_const q)).
Lemma decompress1_limb l x y : length l = 48%nat -> Forall isByte l -> DecompressG1Unchecked FpB l = Some (mkAff x y false) -> DecompressG1Unchecked FqB l <> None.
Proof. intros L F E X. pose proof (decompress1_val l L F) as D. rewrite X in D. clear X. rewrite E in D. discriminate D. Qed.
Lemma decompress2_limb l x y : length l = 96%nat -> Forall isByte l -> DecompressG2Unchecked FpB l = Some (mkAff x y false) -> DecompressG2Unchecked FqB l <> None.
Proof. intros L F E X. pose proof (decompress2_val l L F) as D. rewrite X in D. clear X. rewrite E in D. discriminate D. Qed.
Lemma noncanon1 : exists l, length l = 48%nat /\ Forall isByte l /\ (wand (byte0 l) 128 =? 0) = false /\ (wand (byte0 l) 64 =? 0) = true /\
  be_value (upd0 (fun x => wand x 31) l) = q /\ DecompressG1Unchecked FqB l <> None.
Proof.
  exists noncanon_enc1. assert (Forall isByte noncanon_enc1) as F by (unfold isByte; repeat constructor; lia).
  split; [reflexivity|]. split; [exact F|]. split; [reflexivity|]. split; [reflexivity|]. split; [vm_compute; reflexivity|].
  change noncanon_enc1 with (byte0 noncanon_enc1 :: skipn 1 noncanon_enc1) in *. set (h := byte0 noncanon_enc1) in *. set (t := skipn 1 noncanon_enc1) in *.
  apply (decompress1_limb _ (f0 q) (z2q 2)); [reflexivity|exact F|]. rewrite decompress1_eq. change (wand h 128 =? 0) with false. change (wand h 64 =? 0) with true. cbv iota.
  change (negb (wand h 32 =? 0)) with false.
  assert (xread (wand h 31 :: t) = f0 q) as ->.
  { apply xread_noncanon; [reflexivity|constructor; [unfold isByte; vm_compute; split; [discriminate|reflexivity]|inversion F; assumption]|]. apply Z.leb_le. vm_compute. reflexivity. }
  apply g1_get.
  - change (fmul (z2q 2) (z2q 2) = fadd (fmul (fmul (f0 q) (f0 q)) (f0 q)) b1). apply zof_inj. unfold fmul, fadd, f0, b1, z2q. rewrite !zof_zp. vm_compute. reflexivity.
  - apply z2q_ne_0. vm_compute. discriminate.
  - unfold fq_lt, fopp, z2q. rewrite !zof_zp. split; [discriminate|]. vm_compute. discriminate.
Qed.
Definition nc_h : Z := Eval vm_compute in byte0 noncanon_enc1.
Definition nc_t : list Z := Eval vm_compute in skipn 1 noncanon_enc1.
Definition nc_u : list Z := Eval vm_compute in repeat 0 47 ++ [2].
Definition nc2_y : FQ2 Z := mkFQ2 3813414062821088896965879244443358096636228247329175415943186029072982909461945441384695595240360445618611812101176 3568027680765585585945490907042741669558639753778547462314760963815399658271727325750766584361357481230047117262172.
Lemma noncanon2 : exists l, length l = 96%nat /\ Forall isByte l /\ (wand (byte0 l) 128 =? 0) = false /\ (wand (byte0 l) 64 =? 0) = true /\
  be_value (firstn 48 (upd0 (fun x => wand x 31) l)) = q /\ DecompressG2Unchecked FqB l <> None.
Proof.
  assert (length nc_t = 47%nat) as Lt by reflexivity. assert (length nc_u = 48%nat) as Lu by reflexivity.
  assert (Forall isByte nc_t) as Ft by (unfold isByte; repeat constructor; lia). assert (Forall isByte nc_u) as F2 by (unfold isByte; repeat constructor; lia).
  assert (isByte nc_h) as Fh by (unfold isByte, nc_h; lia). assert (Forall isByte (wand nc_h 31 :: nc_t)) as F1 by (constructor; [unfold isByte; vm_compute; split; [discriminate|reflexivity]|exact Ft]).
  assert (Forall isByte (nc_h :: nc_t ++ nc_u)) as F by (constructor; [exact Fh|apply Forall_app; auto]).
  assert (be_value (wand nc_h 31 :: nc_t) = q) as Vq by (vm_compute; reflexivity). assert (be_value nc_u = 2) as Vu by (vm_compute; reflexivity).
  exists (nc_h :: nc_t ++ nc_u).
  split; [cbn [length]; rewrite app_length, Lt, Lu; reflexivity|]. split; [exact F|]. split; [reflexivity|]. split; [reflexivity|]. split; [vm_compute; reflexivity|].
  set (h := nc_h) in *. assert ((wand h 128 =? 0) = false) as A by reflexivity. assert ((wand h 64 =? 0) = true) as B by reflexivity. clearbody h. revert Lt Lu Ft F2 F1 F Vq Vu. generalize nc_t nc_u. intros t u Lt Lu Ft F2 F1 F Vq Vu.
  intros X. pose proof (decompress2_val (h :: t ++ u) ltac:(cbn [length]; rewrite app_length, Lt, Lu; reflexivity) F) as D. rewrite X in D. clear X. revert D.
  rewrite decompress2_eq by exact Lt. rewrite A, B.
  assert (xread (wand h 31 :: t) = f0 q) as ->.
  { apply xread_noncanon; [cbn [length]; rewrite Lt; reflexivity|exact F1|]. rewrite Vq. apply Z.le_refl. }
  assert (xread u = z2q 2) as ->.
  { unfold xread. destruct (FQReprFromBytes_spec u Lu F2) as [_ Eu]. cbn [FpB b_of]. rewrite Eu. rewrite Vu. destruct (Z.ltb_spec 2 q) as [_|Y]; [reflexivity|]. exfalso. revert Y. vm_compute. intros Y; apply Y; reflexivity. }
  destruct (g2_fromx_some (mkFQ2 (z2q 2) (f0 q)) (negb (wand h 32 =? 0))) as (y & -> & _); [|discriminate].
  exists (mkFQ2 (z2q (c0 nc2_y)) (z2q (c1 nc2_y))). apply k2_eq; cbn [k2_mul k2_add b2 c0 c1]; apply zof_inj; unfold fmul, fadd, fsub, f0, z2q; rewrite !zof_zp; vm_compute; reflexivity.
Qed.

(** ** Uncompressed serialization *)
Lemma frombytes_of x l n : canon x -> firstn 48 (skipn n l) = FQRepr_Bytes (FQ_ToRepr x) -> FQReprFromBytes (firstn 48 (skipn n l)) = FQ_ToRepr x.
Proof. intros C ->. apply FQRepr_FromBytes_Bytes. apply FQ_ToRepr_spec, C. Qed.
Lemma firstn48 f l : firstn 48 (FQRepr_Bytes f ++ l) = FQRepr_Bytes f.
Proof. rewrite <- (FQRepr_Bytes_length f) at 1. rewrite <- (Nat.add_0_r (length (FQRepr_Bytes f))). rewrite firstn_app_2. cbn [firstn]. apply app_nil_r. Qed.
Lemma skipn48 f l n : skipn (48 + n) (FQRepr_Bytes f ++ l) = skipn n l.
Proof. apply skipn_app_more, FQRepr_Bytes_length. Qed.
Lemma firstn48_all f : firstn 48 (FQRepr_Bytes f) = FQRepr_Bytes f.
Proof. rewrite <- (app_nil_r (FQRepr_Bytes f)) at 1. apply firstn48. Qed.
Lemma G2_raw_roundtrip P g : canonA2 P -> length (G2_SerializeBytes FqB P) = 192%nat /\ Forall isByte (G2_SerializeBytes FqB P) /\
  G2_SetRawBytes FqB g (G2_SerializeBytes FqB P) = mkAff (ax P) (ay P) (ainf g).
Proof.
  intros [[Cx0 Cx1] [Cy0 Cy1]]. split; [|split].
  - unfold G2_SerializeBytes. rewrite !app_length, !FQRepr_Bytes_length. reflexivity.
  - unfold G2_SerializeBytes. rewrite !Forall_app. repeat split; apply FQRepr_Bytes_isByte.
  - unfold G2_SetRawBytes, G2_SerializeBytes. cbn [FqB b_repr b_of].
    change 144%nat with (48 + (48 + (48 + 0)))%nat. change 96%nat with (48 + (48 + 0))%nat. change (skipn 48) with (@skipn Z (48 + 0)%nat). rewrite !skipn48, !firstn48. cbn [skipn]. rewrite ?firstn48, ?firstn48_all.
    rewrite !FQRepr_FromBytes_Bytes by (apply FQ_ToRepr_spec; (apply Cx0 || apply Cx1 || apply Cy0 || apply Cy1)).
    rewrite !FQReprToFQ_FQ_ToRepr by assumption. destruct P as [[x0 x1] [y0 y1] i]. reflexivity.
Qed.
Lemma G1_raw_partial P g : canonA1 P -> length (G1_SerializeBytes FqB P) = 96%nat /\ Forall isByte (G1_SerializeBytes FqB P) /\
  (forall xb yb, G1_SerializeBytes FqB P = xb ++ yb -> length xb = 48%nat -> be_value xb = fval (ax P) /\ be_value yb = fval (ay P)) /\
  let P' := G1_SetRawBytes FqB g (G1_SerializeBytes FqB P) in
  canonA1 P' /\ fval (ax P') = (fval (ax P) * RQinv) mod q /\ fval (ay P') = (fval (ay P) * RQinv) mod q /\ ainf P' = ainf g.
Proof.
  intros [Cx Cy]. destruct (FQ_ToRepr_spec (ax P) (proj1 Cx)) as [Wx Ex]. destruct (FQ_ToRepr_spec (ay P) (proj1 Cy)) as [Wy Ey].
  pose proof (fval_bound (ax P)). pose proof (fval_bound (ay P)).
  split; [|split; [|split]].
  - unfold G1_SerializeBytes. rewrite !app_length, !FQRepr_Bytes_length. reflexivity.
  - unfold G1_SerializeBytes. rewrite !Forall_app. repeat split; apply FQRepr_Bytes_isByte.
  - unfold G1_SerializeBytes. intros xb yb E L. cbn [FqB b_repr] in E.
    assert (xb = FQRepr_Bytes (FQ_ToRepr (ax P))) as X.
    { apply (f_equal (firstn 48)) in E. rewrite firstn48 in E. rewrite E. rewrite <- L. rewrite <- (Nat.add_0_r (length xb)). rewrite firstn_app_2. cbn [firstn]. symmetry. apply app_nil_r. }
    rewrite X in *. apply app_inv_head in E. subst yb. rewrite !FQRepr_Bytes_value by assumption. auto.
  - cbv zeta. unfold G1_SetRawBytes, G1_SerializeBytes. cbn [FqB b_repr b_raw]. change (skipn 48) with (@skipn Z (48 + 0)%nat). rewrite skipn48, firstn48. cbn [skipn]. rewrite firstn48_all.
    rewrite !FQRepr_FromBytes_Bytes by assumption. unfold canonA1, canon. cbn [ax ay ainf FQReprToFQRaw fq_n]. split; [repeat split; try assumption; lia|]. split; [transitivity ((eval6 (FQ_ToRepr (ax P)) * RQinv) mod q); [reflexivity|rewrite Ex; reflexivity]|]. split; [transitivity ((eval6 (FQ_ToRepr (ay P)) * RQinv) mod q); [reflexivity|rewrite Ey; reflexivity]|reflexivity].
Qed.
Lemma G1_raw_refuted : exists P, canonA1 P /\ on1 (aff1 P) /\ ainf P = false /\
  ax (G1_SetRawBytes FqB P (G1_SerializeBytes FqB P)) <> ax P.
Proof.
  exists (G1AffineOne FqB). split; [exact G1one_canon|]. split; [exact G1one_on|]. split; [reflexivity|].
  intros X. apply (f_equal (fun a => FQRepr_Equals (fq_n a) (fq_n (ax (G1AffineOne FqB))))) in X. revert X. vm_compute. discriminate.
Qed.
Lemma G1one_y : fqval (ay (G1AffineOne FqB)) <> f0 q.
Proof. intros E. apply (f_equal zof) in E. rewrite (fqval_zof _ (proj2 G1one_canon)) in E. revert E. vm_compute. discriminate. Qed.
Lemma G2one_y : val2 (ay (G2AffineOne FqB)) <> k2_0.
Proof. intros E. apply (f_equal (fun a => zof (c0 a))) in E. unfold val2 in E. cbn [c0] in E. rewrite (fqval_zof _ (proj1 (proj2 G2one_canon))) in E. revert E. vm_compute. discriminate. Qed.
