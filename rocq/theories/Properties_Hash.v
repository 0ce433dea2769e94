(** Properties C47-C52: hashing to the curve and random points.  Everything is about the limb-level code ([FqB]); SHA-256 is an
    arbitrary function [sha] ([sha_ok sha]: it returns 32 bytes).
    - [A1'], [B1'] ([A2'], [B2']): the coefficients of the auxiliary curves; [onaux1 P] ([onaux2 P]): P is a finite point on it.
    - [in_kernel1 P]: the x-coordinate of P is one of the five roots [kernel11] of the denominator of the 11-isogeny.
    - [digest sha msg ctr i]: the integer mod q that hp (i = 1) and hp2 (i = 1, 2) derive from msg and the counter.
    - [swu_spec1 t P]: P is the point the simplified SWU map sends t to: x = x0 if x0^3 + A'x0 + B' is a square and -t^2 x0 (G1)
      resp. (1+u) t^2 x0 (G2) otherwise, and the sign of y is that of t.
    - [swenc_spec t P]: P is the Shallue-van de Woestijne encoding of t (Fouque-Tibouchi): first of three candidate
      x-coordinates that is on the curve, sign of y equal to the sign of t.
    - [t1_of], [t2_of]: the field elements HashG1 and HashG2 feed to the SWU map for counters 0 and 1. *)
Require Import ZArith Lia Bool List Permutation Znumtheory.
From Verif Require Import CasesEx.
From Verif Require Import Words ModelRepr ReprProofs ReprProofs2 ModelFq ModelFr ModelOps ModelTower ModelCurve ModelPairing ModelHash ModelBls NumTheory Primality Fp FpOps FqProofs FqProofs2 FqRel FrProofs OpsRel OpsRel2 FqTransfer Ext TowerProofs TowerLimb Fld AbGrp EcGroup EcJac EcMul Curves CurveLimb CurveMisc BlsProofs VerifyProofs CountFacts PolyEval IsoProofs SwuProofs HashProofs HashEx SwEnc RandEx HonestEx.
Import CurveLimb ListNotations.
Open Scope Z_scope.

Theorem hashing_vocabulary :
  (forall P, onaux1 P <-> exists x y, P = Pt x y /\ fmul y y = fadd (fadd (fmul (fmul x x) x) (fmul A1' x)) B1') /\
  (forall P, onaux2 P <-> exists x y, P = Pt x y /\ k2_mul y y = k2_add (k2_add (k2_mul (k2_mul x x) x) (k2_mul A2' x)) B2') /\
  zof A1' = 0x144698a3b8e9433d693a02c96d4982b0ea985383ee66a8d8e8981aefd881ac98936f8da0e0f97f5cf428082d584c1d /\
  zof B1' = 0x12e2908d11688030018b12e8753eee3b2016c1f0f24f4070a0b9c14fcef35ef55a23215a316ceaa5d1cc48e98e172be0 /\
  A2' = mkFQ2 (z2q 0) (z2q 240) /\ B2' = mkFQ2 (z2q 1012) (z2q 1012) /\
  (forall x y x' y', xdiff1 (Pt x y) (Pt x' y') <-> x <> x') /\ (forall x y x' y', xdiff2 (Pt x y) (Pt x' y') <-> x <> x') /\
  (forall x y, in_kernel1 (Pt x y) <-> In (zof x) kernel11) /\ length kernel11 = 5%nat.
Proof. exact hash_vocabulary. Qed.
Print Assumptions hashing_vocabulary.

(** * C47: the simplified SWU maps *)
Theorem C47_hp sha msg ctr : canon (hp sha FqB msg ctr) /\ fqval (hp sha FqB msg ctr) = z2q (digest sha msg ctr 1).
Proof. exact (hp_limb sha msg ctr). Qed.
Theorem C47_hp2 sha msg ctr : canon2 (hp2 sha FqB msg ctr) /\ val2 (hp2 sha FqB msg ctr) = mkFQ2 (z2q (digest sha msg ctr 1)) (z2q (digest sha msg ctr 2)).
Proof. exact (hp2_limb sha msg ctr). Qed.
Theorem C47_swu_G1 t : canon t -> exists P, optimizedSWUMapHelper FqB t = Some P /\ canonA1 P /\ swu_spec1 (fqval t) (valA1 P) /\ onaux1 (aff1 P).
Proof. exact (swu1_limb t). Qed.
Theorem C47_swu_G2 t : canon2 t -> exists P, OptimizedSWU2MapHelper FqB t = Some (Some P) /\ canonA2 P /\ swu_spec2 (val2 t) (valA2 P) /\ onaux2 (aff2 P).
Proof. exact (swu2_limb t). Qed.
(** the specification determines the point: two points meeting it for the same t are equal *)
Theorem C47_swu_G1_unique t P Q : swu_spec1 t P -> swu_spec1 t Q -> P = Q.
Proof. exact (swu_unique1 t P Q). Qed.
Theorem C47_swu_G2_unique t P Q : swu_spec2 t P -> swu_spec2 t Q -> P = Q.
Proof. exact (swu_unique2 t P Q). Qed.
Example C47_nonvacuous : canon FQOne /\ canon2 (FQ2One FqB) /\ (exists P, swu_spec1 (fqval FQOne) P) /\ (exists P, swu_spec2 (val2 (FQ2One FqB)) P).
Proof.
  assert (canon2 (FQ2One FqB)) as A by exact (Logic.conj FQOne_canon FQZero_canon). split; [exact FQOne_canon|]. split; [exact A|]. split.
  - destruct (swu1_limb FQOne FQOne_canon) as (P & _ & _ & S & _). exists (valA1 P). exact S.
  - destruct (swu2_limb (FQ2One FqB) A) as (P & _ & _ & S & _). exists (valA2 P). exact S.
Qed.

(** * C48: the isogenies *)
Theorem C48_iso11 p : canonA1 p -> onaux1 (aff1 p) -> ~ in_kernel1 (aff1 p) -> canonA1 (iso11 FqB p) /\ ainf (iso11 FqB p) = false /\ on1 (aff1 (iso11 FqB p)).
Proof. exact (iso11_limb p). Qed.
(** no point of the auxiliary curve over GF(q^2) is in the kernel of the 3-isogeny *)
Theorem C48_iso3 p : canonA2 p -> onaux2 (aff2 p) -> canonA2 (iso3 FqB p) /\ ainf (iso3 FqB p) = false /\ on2 (aff2 (iso3 FqB p)).
Proof. exact (iso3_limb p). Qed.
Example C48_nonvacuous : (exists p, canonA1 p /\ onaux1 (aff1 p) /\ ~ in_kernel1 (aff1 p)) /\ (exists p, canonA2 p /\ onaux2 (aff2 p)).
Proof. exact (Logic.conj iso11_example iso3_example). Qed.

(** * C49: HashG1 and HashG2 *)
Theorem C49_G1_never_panics sha m : exists h, HashG1 sha FqB m = Some h /\ canonA1 h.
Proof. exact (HashG1_total sha m). Qed.
Theorem C49_G2_never_panics sha m : exists h, HashG2 sha FqB m = Some h /\ canonA2 h.
Proof. exact (HashG2_total sha m). Qed.
(** On the curve and in the order-r subgroup, unless the two SWU points share their x-coordinate (then the code adds them with a
    doubling formula that is wrong on the auxiliary curve, see _refuted) or, for G1, their sum is in the kernel of the isogeny. *)
Theorem C49_G1_on_curve_partial sha m P Q :
  optimizedSWUMapHelper FqB (hp sha FqB (1 :: m) 0) = Some P -> optimizedSWUMapHelper FqB (hp sha FqB (1 :: m) 1) = Some Q ->
  xdiff1 (aff1 P) (aff1 Q) -> ~ in_kernel1 (plus1 (aff1 P) (aff1 Q)) ->
  exists h, HashG1 sha FqB m = Some h /\ canonA1 h /\ on1 (aff1 h) /\ mul1 r (aff1 h) = Inf.
Proof. exact (HashG1_on sha m P Q). Qed.
Theorem C49_G2_on_curve_partial sha m P Q :
  OptimizedSWU2MapHelper FqB (hp2 sha FqB (1 :: m) 0) = Some (Some P) -> OptimizedSWU2MapHelper FqB (hp2 sha FqB (1 :: m) 1) = Some (Some Q) ->
  xdiff2 (aff2 P) (aff2 Q) ->
  exists h, HashG2 sha FqB m = Some h /\ canonA2 h /\ on2 (aff2 h) /\ mul2 r (aff2 h) = Inf.
Proof. exact (HashG2_on sha m P Q). Qed.
Theorem C49_G1_on_curve_refuted : exists sha m h, sha_ok sha /\ HashG1 sha FqB m = Some h /\ canonA1 h /\ ~ on1 (aff1 h).
Proof. exact HashG1_bad. Qed.
Theorem C49_G2_on_curve_refuted : exists sha m h, sha_ok sha /\ HashG2 sha FqB m = Some h /\ canonA2 h /\ ~ on2 (aff2 h).
Proof. exact HashG2_bad. Qed.
Example C49_G1_nonvacuous m : exists P Q h, optimizedSWUMapHelper FqB (hp sha_two FqB (1 :: m) 0) = Some P /\ optimizedSWUMapHelper FqB (hp sha_two FqB (1 :: m) 1) = Some Q /\
  xdiff1 (aff1 P) (aff1 Q) /\ ~ in_kernel1 (plus1 (aff1 P) (aff1 Q)) /\ HashG1 sha_two FqB m = Some h /\ aff1 h <> Inf.
Proof. exact (HashG1_good m). Qed.
Example C49_G2_nonvacuous m : exists P Q h, OptimizedSWU2MapHelper FqB (hp2 sha_two FqB (1 :: m) 0) = Some (Some P) /\ OptimizedSWU2MapHelper FqB (hp2 sha_two FqB (1 :: m) 1) = Some (Some Q) /\
  xdiff2 (aff2 P) (aff2 Q) /\ HashG2 sha_two FqB m = Some h /\ aff2 h <> Inf.
Proof. exact (HashG2_good m). Qed.
(** the honest-signer theorems of C40 apply: with this hash, every nonzero key signs every message and the signature verifies *)
Example C40_g1pubs_nonvacuous m k : rcanon k -> rval k <> 0 -> exists P S, honest1 sha_two k m P S /\ g1pubs_Verify sha_two FqB m P S = Some true.
Proof. exact (honest1_example m k). Qed.
Example C40_g2pubs_nonvacuous m k : rcanon k -> rval k <> 0 -> exists P S, honest2 sha_two k m P S /\ g2pubs_Verify sha_two FqB m P S = Some true.
Proof. exact (honest2_example m k). Qed.

(** * C50: SWEncodeG2 *)
Theorem C50_SWEncodeG2 t : canon2 t -> exists P, SWEncodeG2 FqB t = Some P /\ canonA2 P /\ on2 (aff2 P) /\ swenc_spec (val2 t) (aff2 P).
Proof. exact (SWEncodeG2_limb t). Qed.
Example C50_nonvacuous : canon2 (FQ2One FqB) /\ canon2 (FQ2Zero FqB).
Proof. exact (Logic.conj (Logic.conj FQOne_canon FQZero_canon) (Logic.conj FQZero_canon FQZero_canon)). Qed.

(** * C51: HashG2WithDomain; [fuel] bounds the number of candidates tried, the code itself loops until it finds one *)
Theorem C51_sound sha fuel mh dom h : sha_ok sha -> HashG2WithDomain_fuel sha FqB fuel mh dom = Some h ->
  exists i y, (i < fuel)%nat /\ hd_spec (hd_start sha mh dom) i y /\ valid2 h /\ jac2 h = mul2 g2Cofactor (Pt (k2_add (hd_start sha mh dom) (k2n i)) y) /\ mul2 r (jac2 h) = Inf.
Proof. exact (HashG2WithDomain_sound sha fuel mh dom h). Qed.
Theorem C51_complete sha fuel mh dom i : sha_ok sha -> (i < fuel)%nat -> sqK (k2_add (hd_start sha mh dom) (k2n i)) -> exists h, HashG2WithDomain_fuel sha FqB fuel mh dom = Some h.
Proof. exact (HashG2WithDomain_complete sha fuel mh dom i). Qed.
Example C51_nonvacuous : exists h, HashG2WithDomain_fuel sha_zero FqB 3 [1; 2] [0] = Some h.
Proof. exact HashG2WithDomain_example. Qed.

(** * C52: RandG1 and RandG2; [draws]: the (sign byte, x) pairs read from the reader, x already reduced mod q *)
Theorem C52_G1_partial draws P : Forall (fun d => 0 <= snd d < q) draws -> RandG1 FqB draws = Some P ->
  exists pre byte x rest y, draws = pre ++ (byte, x) :: rest /\ Forall (fun d => ~ sq1 (z2q (snd d))) pre /\ on1 (Pt (z2q x) y) /\
    valid1 P /\ jac1 P = mul1 (eval6 g1Cofactor) (Pt (z2q x) y) /\ mul1 r (jac1 P) = Inf.
Proof. intros H. exact (RandG1_sound draws H P). Qed.
(** one draw without a point, then one with a point *)
Example C52_G1_nonvacuous : Forall (fun d => 0 <= snd d < q) [(1, q - 2); (0, 0)] /\ exists P, RandG1 FqB [(1, q - 2); (0, 0)] = Some P.
Proof. split; [|exact rand1_example]. constructor; [split; [discriminate|reflexivity]|]. constructor; [split; [discriminate|reflexivity]|constructor]. Qed.
Theorem C52_G2_partial draws P : Forall (fun d => 0 <= fst (snd d) < q /\ 0 <= snd (snd d) < q) draws -> RandG2 FqB draws = Some P ->
  exists pre byte x rest y, let X := mkFQ2 (z2q (fst x)) (z2q (snd x)) in draws = pre ++ (byte, x) :: rest /\ Forall (fun d => ~ sqK (mkFQ2 (z2q (fst (snd d))) (z2q (snd (snd d))))) pre /\ on2 (Pt X y) /\
    valid2 P /\ jac2 P = mul2 g2Cofactor (Pt X y) /\ mul2 r (jac2 P) = Inf.
Proof. intros H. exact (RandG2_sound draws H P). Qed.
(** the identity test looks at the point before the cofactor is applied, so points of small order yield the identity *)
Theorem C52_G1_refuted : exists draws P, Forall (fun d => 0 <= snd d < q) draws /\ RandG1 FqB draws = Some P /\ jac1 P = Inf.
Proof. exact RandG1_identity. Qed.
Theorem C52_G2_refuted : exists draws P, Forall (fun d => 0 <= fst (snd d) < q /\ 0 <= snd (snd d) < q) draws /\ RandG2 FqB draws = Some P /\ jac2 P = Inf.
Proof. exact RandG2_identity. Qed.

Print Assumptions C47_hp.
Print Assumptions C47_hp2.
Print Assumptions C47_swu_G1.
Print Assumptions C47_swu_G2.
Print Assumptions C47_swu_G1_unique.
Print Assumptions C47_swu_G2_unique.
Print Assumptions C48_iso11.
Print Assumptions C48_iso3.
Print Assumptions C49_G1_never_panics.
Print Assumptions C49_G2_never_panics.
Print Assumptions C49_G1_on_curve_partial.
Print Assumptions C49_G2_on_curve_partial.
Print Assumptions C49_G1_on_curve_refuted.
Print Assumptions C49_G2_on_curve_refuted.
Print Assumptions C50_SWEncodeG2.
Print Assumptions C51_sound.
Print Assumptions C51_complete.
Print Assumptions C52_G1_partial.
Print Assumptions C52_G2_partial.
Print Assumptions C52_G1_refuted.
Print Assumptions C52_G2_refuted.
