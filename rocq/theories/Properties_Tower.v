(** Properties C12 (FQ2, FQ12), C14/C15 (FQ2), C19-C24 and C54 (FQ2): the extension fields.
    The functions are the limb-level code (operations record [FqB]).
    [canon2/6/12]: all coordinates are canonical FQ elements.  [val2/6/12]: the element of GF(q^2),
    GF(q^6), GF(q^12) an object stands for (coordinates as residues modulo q).
    k2_*, k6_*, k12_* (Ext.v) are the textbook operations on coordinates: u^2 = -1, v^3 = 1+u, w^2 = v. *)
Require Import ZArith Lia Bool List Ring Field.
From Verif Require Import Words ModelRepr ReprProofs ReprProofs2 ModelFq ModelOps ModelTower NumTheory Primality Fp FpOps FqProofs FqProofs2 FqRel OpsRel OpsRel2 FqTransfer TwoPow Ext ExtFrob TowerProofs TowerLimb.
Import ListNotations.
Open Scope Z_scope.

(** The three extensions really are fields with the defining relations. *)
Theorem extension_fields :
  (field_theory k2_0 k2_1 k2_add k2_mul k2_sub k2_opp k2_div k2_inv eq /\ k2_mul k2_u k2_u = k2_opp k2_1 /\
   forall a, a = k2_add (k2_emb (c0 a)) (k2_mul (k2_emb (c1 a)) k2_u)) /\
  (field_theory k6_0 k6_1 k6_add k6_mul k6_sub k6_opp k6_div k6_inv eq /\ k6_mul k6_v (k6_mul k6_v k6_v) = k6_emb (k2_add k2_1 k2_u) /\
   forall a, a = k6_add (k6_emb (d0 a)) (k6_add (k6_mul (k6_emb (d1 a)) k6_v) (k6_mul (k6_emb (d2 a)) (k6_mul k6_v k6_v)))) /\
  (field_theory k12_0 k12_1 k12_add k12_mul k12_sub k12_opp k12_div k12_inv eq /\ k12_mul k12_w k12_w = k12_emb k6_v /\
   forall a, a = k12_add (k12_emb (e0 a)) (k12_mul (k12_emb (e1 a)) k12_w)).
Proof.
  split; [|split].
  - split; [exact k2_field|]. split; [k2|]. k2.
  - split; [exact k6_field|]. assert (k2_add k2_1 k2_u = k2_xi) as -> by k2. split; [k6|]. k6.
  - split; [exact k12_field|]. split; [k12|]. k12.
Qed.
Print Assumptions extension_fields.

Theorem C12_FQ2_Exp a n : canon2 a -> wf6 n -> canon2 (FQ2_Exp FqB a n) /\ val2 (FQ2_Exp FqB a n) = zpow k2_1 k2_mul (val2 a) (eval6 n).
Proof. exact (L2_exp a n). Qed.
Theorem C12_FQ12_Exp a n : canon12 a -> wf6 n -> canon12 (FQ12_Exp FqB a n) /\ val12 (FQ12_Exp FqB a n) = zpow k12_1 k12_mul (val12 a) (eval6 n).
Proof. exact (L12_exp a n). Qed.
Example C12_FQ2_nonvacuous : let u := mkFQ2 FQZero FQOne in canon2 u /\ FQ2_Exp FqB u (NewFQRepr 3) = FQ2_NegAssign FqB u.
Proof. split; [split; [exact FQZero_canon|exact FQOne_canon]|vm_compute; reflexivity]. Qed.
Print Assumptions C12_FQ2_Exp.
Print Assumptions C12_FQ12_Exp.

Theorem C14_FQ2_Legendre a : canon2 a ->
  (val2 a = k2_0 -> FQ2_Legendre FqB a = LegendreZero) /\
  (val2 a <> k2_0 -> (exists y, k2_mul y y = val2 a) -> FQ2_Legendre FqB a = LegendreQuadraticResidue) /\
  (~ (exists y, k2_mul y y = val2 a) -> FQ2_Legendre FqB a = LegendreQuadraticNonResidue).
Proof. exact (L2_legendre a). Qed.
Print Assumptions C14_FQ2_Legendre.

(** [k2_lt] is the lexicographic order on (c1, c0), both compared as integers in [0, q) *)
Theorem C15_FQ2_order a b : canon2 a -> canon2 b ->
  (FQ2_Cmp FqB a b = -1 /\ k2_lt (val2 a) (val2 b) \/ FQ2_Cmp FqB a b = 0 /\ a = b \/ FQ2_Cmp FqB a b = 1 /\ k2_lt (val2 b) (val2 a)) /\
  (FQ2_Equals FqB a b = true <-> a = b) /\
  (FQ2_Parity FqB a = true <-> k2_lt (k2_opp (val2 a)) (val2 a)) /\
  (val2 a <> k2_0 -> FQ2_Parity FqB (FQ2_NegAssign FqB a) = negb (FQ2_Parity FqB a)).
Proof. intros A B. exact (conj (L2_cmp a b A B) (conj (L2_equals a b A B) (L2_parity a A))). Qed.
Example C15_FQ2_nonvacuous : let u := mkFQ2 FQZero FQOne in FQ2_Cmp FqB u (FQ2One FqB) = 1 /\ FQ2_Parity FqB u = false /\ FQ2_Parity FqB (FQ2_NegAssign FqB u) = true.
Proof. split; [|split]; vm_compute; reflexivity. Qed.
Print Assumptions C15_FQ2_order.

Theorem C19_FQ2_arithmetic a b : canon2 a -> canon2 b ->
  (canon2 (FQ2_AddAssign FqB a b) /\ val2 (FQ2_AddAssign FqB a b) = k2_add (val2 a) (val2 b)) /\
  (canon2 (FQ2_SubAssign FqB a b) /\ val2 (FQ2_SubAssign FqB a b) = k2_sub (val2 a) (val2 b)) /\
  (canon2 (FQ2_MulAssign FqB a b) /\ val2 (FQ2_MulAssign FqB a b) = k2_mul (val2 a) (val2 b)) /\
  (canon2 (FQ2_SquareAssign FqB a) /\ val2 (FQ2_SquareAssign FqB a) = k2_mul (val2 a) (val2 a)) /\
  (canon2 (FQ2_NegAssign FqB a) /\ val2 (FQ2_NegAssign FqB a) = k2_opp (val2 a)) /\
  (canon2 (FQ2_DoubleAssign FqB a) /\ val2 (FQ2_DoubleAssign FqB a) = k2_add (val2 a) (val2 a)) /\
  (canon2 (FQ2_MultiplyByNonresidueAssign FqB a) /\ val2 (FQ2_MultiplyByNonresidueAssign FqB a) = k2_mul (k2_add k2_1 k2_u) (val2 a)) /\
  (canon (FQ2_Norm FqB a) /\ k2_emb (fqval (FQ2_Norm FqB a)) = k2_mul (val2 a) (k2_conj (val2 a))) /\
  (FQ2_IsZero FqB a = true <-> val2 a = k2_0).
Proof.
  intros A B. refine (conj (L2_add a b A B) (conj (L2_sub a b A B) (conj (L2_mul a b A B) (conj (L2_sq a A) (conj (L2_neg a A) (conj (L2_dbl a A) (conj _ (conj _ (L2_iszero a A))))))))).
  - destruct (L2_nr a A) as [C V]. split; [exact C|]. rewrite V. reflexivity.
  - destruct (L2_norm a A) as [C V]. split; [exact C|]. rewrite V. symmetry. apply k2_norm_conj.
Qed.
Theorem C19_FQ2_inverse a : canon2 a ->
  (val2 a = k2_0 -> FQ2_InverseAssign FqB a = (a, false)) /\
  (val2 a <> k2_0 -> exists b, FQ2_InverseAssign FqB a = (b, true) /\ canon2 b /\ k2_mul (val2 b) (val2 a) = k2_1).
Proof. exact (L2_inv a). Qed.
Theorem C19_FQ2_DivAssign a b : canon2 a -> canon2 b -> val2 b <> k2_0 -> canon2 (FQ2_DivAssign FqB a b) /\ k2_mul (val2 (FQ2_DivAssign FqB a b)) (val2 b) = val2 a.
Proof. exact (L2_div a b). Qed.
(** (1+2u)(3+4u) = -5+10u *)
Example C19_nonvacuous : let n k := FQReprToFQ (NewFQRepr k) in
  FQ2_MulAssign FqB (mkFQ2 (n 1) (n 2)) (mkFQ2 (n 3) (n 4)) = mkFQ2 (FQ_NegAssign (n 5)) (n 10).
Proof. vm_compute. reflexivity. Qed.
Print Assumptions C19_FQ2_arithmetic.
Print Assumptions C19_FQ2_inverse.
Print Assumptions C19_FQ2_DivAssign.

Theorem C20_FQ2_Sqrt a : canon2 a ->
  ((exists y, k2_mul y y = val2 a) -> exists s, FQ2_Sqrt FqB a = (s, true) /\ canon2 s /\ k2_mul (val2 s) (val2 s) = val2 a) /\
  (~ (exists y, k2_mul y y = val2 a) -> exists s, FQ2_Sqrt FqB a = (s, false)).
Proof. exact (L2_sqrt a). Qed.
(** both cases occur: -1 is a square in GF(q^2) (not in GF(q)), 1+u is not *)
Example C20_nonvacuous :
  (exists s, FQ2_Sqrt FqB (FQ2_NegAssign FqB (FQ2One FqB)) = (s, true) /\ k2_mul (val2 s) (val2 s) = k2_opp k2_1) /\
  (exists s, FQ2_Sqrt FqB (mkFQ2 FQOne FQOne) = (s, false)).
Proof.
  assert (canon2 (FQ2One FqB)) as C1 by (split; [exact FQOne_canon|exact FQZero_canon]).
  assert (forall f z, canon f -> fval f = z -> fqval f = z2q z) as FV by (intros f z _ <-; reflexivity).
  assert (val2 (FQ2One FqB) = k2_1) as V1 by (apply k2_eq; [exact (FV FQOne 1 FQOne_canon FQOne_fval)|exact (FV FQZero 0 FQZero_canon FQZero_fval)]).
  destruct (L2_neg _ C1) as [CN VN]. rewrite V1 in VN. split.
  - destruct (proj1 (L2_sqrt _ CN)) as (s & E & _ & S); [exists k2_u; rewrite VN; k2|]. exists s. rewrite <- VN. auto.
  - assert (canon2 (mkFQ2 FQOne FQOne)) as C by (split; exact FQOne_canon). apply (proj2 (L2_sqrt _ C)).
    assert (val2 (mkFQ2 FQOne FQOne) = k2_xi) as -> by (apply k2_eq; exact (FV FQOne 1 FQOne_canon FQOne_fval)).
    intros [y Y]. exact (xi_not_square y Y).
Qed.
Print Assumptions C20_FQ2_Sqrt.

Theorem C21_FQ6_arithmetic a b c d : canon6 a -> canon6 b -> canon2 c -> canon2 d ->
  (canon6 (FQ6_AddAssign FqB a b) /\ val6 (FQ6_AddAssign FqB a b) = k6_add (val6 a) (val6 b)) /\
  (canon6 (FQ6_SubAssign FqB a b) /\ val6 (FQ6_SubAssign FqB a b) = k6_sub (val6 a) (val6 b)) /\
  (canon6 (FQ6_MulAssign FqB a b) /\ val6 (FQ6_MulAssign FqB a b) = k6_mul (val6 a) (val6 b)) /\
  (canon6 (FQ6_SquareAssign FqB a) /\ val6 (FQ6_SquareAssign FqB a) = k6_mul (val6 a) (val6 a)) /\
  (canon6 (FQ6_NegAssign FqB a) /\ val6 (FQ6_NegAssign FqB a) = k6_opp (val6 a)) /\
  (canon6 (FQ6_DoubleAssign FqB a) /\ val6 (FQ6_DoubleAssign FqB a) = k6_add (val6 a) (val6 a)) /\
  (canon6 (FQ6_MulByNonresidueAssign FqB a) /\ val6 (FQ6_MulByNonresidueAssign FqB a) = k6_mul k6_v (val6 a)) /\
  (canon6 (FQ6_MulBy1Assign FqB a c) /\ val6 (FQ6_MulBy1Assign FqB a c) = k6_mul (val6 a) (mkFQ6 k2_0 (val2 c) k2_0)) /\
  (canon6 (FQ6_MulBy01Assign FqB a c d) /\ val6 (FQ6_MulBy01Assign FqB a c d) = k6_mul (val6 a) (mkFQ6 (val2 c) (val2 d) k2_0)) /\
  (FQ6_Equals FqB a b = true <-> a = b) /\ (FQ6_IsZero FqB a = true <-> val6 a = k6_0).
Proof.
  intros A B C D. exact (conj (L6_add a b A B) (conj (L6_sub a b A B) (conj (L6_mul a b A B) (conj (L6_sq a A) (conj (L6_neg a A) (conj (L6_dbl a A) (conj (L6_nr a A)
    (conj (L6_mulby1 a c A C) (conj (L6_mulby01 a c d A C D) (conj (L6_equals a b A B) (L6_iszero a A))))))))))).
Qed.
Theorem C21_FQ6_inverse a : canon6 a ->
  (val6 a = k6_0 -> FQ6_InverseAssign FqB a = (a, false)) /\
  (val6 a <> k6_0 -> exists b, FQ6_InverseAssign FqB a = (b, true) /\ canon6 b /\ k6_mul (val6 b) (val6 a) = k6_1).
Proof. exact (L6_inv a). Qed.
(** v * v^2 = 1 + u *)
Example C21_nonvacuous : let z := FQ2Zero FqB in let o := FQ2One FqB in
  FQ6_MulAssign FqB (mkFQ6 z o z) (mkFQ6 z z o) = mkFQ6 (mkFQ2 FQOne FQOne) z z.
Proof. vm_compute. reflexivity. Qed.
Print Assumptions C21_FQ6_arithmetic.
Print Assumptions C21_FQ6_inverse.

(** C22 is false for the code: f.MulAssign(f) with f = v does not give v^2, and f.Exp(2) uses it. *)
Theorem C22_FQ6_aliased_refuted : exists f, canon6 f /\
  val6 (FQ6_MulAssign_aliased FqB f) <> k6_mul (val6 f) (val6 f) /\
  val6 (FQ6_Exp FqB f (NewFQRepr 2)) <> k6_mul (val6 f) (val6 f).
Proof.
  exists (mkFQ6 (FQ2Zero FqB) (FQ2One FqB) (FQ2Zero FqB)).
  set (f := mkFQ6 (FQ2Zero FqB) (FQ2One FqB) (FQ2Zero FqB)).
  assert (canon6 f) as C by (split; [|split]; (split; [|]); exact FQOne_canon || exact FQZero_canon). split; [exact C|].
  destruct (L6_sq f C) as [CS <-]. split; intros E.
  - apply val6_inj in E; [|apply L6_aliased, C|exact CS]. assert ((eval6 (fq_n (c0 (d1 (FQ6_MulAssign_aliased FqB f)))) =? eval6 (fq_n (c0 (d1 (FQ6_SquareAssign FqB f))))) = false) as X by (vm_compute; reflexivity).
    rewrite E, Z.eqb_refl in X. discriminate X.
  - apply val6_inj in E; [|apply L6_exp_canon, C|exact CS]. assert ((eval6 (fq_n (c0 (d1 (FQ6_Exp FqB f (NewFQRepr 2))))) =? eval6 (fq_n (c0 (d1 (FQ6_SquareAssign FqB f))))) = false) as X by (vm_compute; reflexivity).
    rewrite E, Z.eqb_refl in X. discriminate X.
Qed.
(** The aliased call is the square exactly when the three coefficients have the same square. *)
Theorem C22_FQ6_aliased_exact a : canon6 a -> let x := val6 a in
  (val6 (FQ6_MulAssign_aliased FqB a) = k6_mul x x <-> k2_mul (d1 x) (d1 x) = k2_mul (d0 x) (d0 x) /\ k2_mul (d2 x) (d2 x) = k2_mul (d0 x) (d0 x)).
Proof. exact (L6_aliased_iff a). Qed.
(** both sides of the equivalence occur: 1 + v + v^2 and 1 *)
Example C22_nonvacuous : let o := FQ2One FqB in let z := FQ2Zero FqB in
  canon6 (mkFQ6 o o o) /\ canon6 (mkFQ6 o z z) /\
  (let x := val6 (mkFQ6 o o o) in k2_mul (d1 x) (d1 x) = k2_mul (d0 x) (d0 x) /\ k2_mul (d2 x) (d2 x) = k2_mul (d0 x) (d0 x)) /\
  (let x := val6 (mkFQ6 o z z) in k2_mul (d1 x) (d1 x) <> k2_mul (d0 x) (d0 x)).
Proof.
  cbv zeta. assert (canon2 (FQ2One FqB)) as A by exact (conj FQOne_canon FQZero_canon). assert (canon2 (FQ2Zero FqB)) as B by exact (conj FQZero_canon FQZero_canon).
  split; [exact (conj A (conj A A))|]. split; [exact (conj A (conj B B))|]. split; [split; reflexivity|]. intros E. apply (f_equal (fun x => zof (c0 x))) in E. vm_compute in E. discriminate E.
Qed.
Print Assumptions C22_FQ6_aliased_refuted.
Print Assumptions C22_FQ6_aliased_exact.

Theorem C23_FQ12_arithmetic a b x y z : canon12 a -> canon12 b -> canon2 x -> canon2 y -> canon2 z ->
  (canon12 (FQ12_AddAssign FqB a b) /\ val12 (FQ12_AddAssign FqB a b) = k12_add (val12 a) (val12 b)) /\
  (canon12 (FQ12_SubAssign FqB a b) /\ val12 (FQ12_SubAssign FqB a b) = k12_sub (val12 a) (val12 b)) /\
  (canon12 (FQ12_MulAssign FqB a b) /\ val12 (FQ12_MulAssign FqB a b) = k12_mul (val12 a) (val12 b)) /\
  (canon12 (FQ12_SquareAssign FqB a) /\ val12 (FQ12_SquareAssign FqB a) = k12_mul (val12 a) (val12 a)) /\
  (canon12 (FQ12_NegAssign FqB a) /\ val12 (FQ12_NegAssign FqB a) = k12_opp (val12 a)) /\
  (canon12 (FQ12_DoubleAssign FqB a) /\ val12 (FQ12_DoubleAssign FqB a) = k12_add (val12 a) (val12 a)) /\
  (canon12 (FQ12_ConjugateAssign FqB a) /\ val12 (FQ12_ConjugateAssign FqB a) = mkFQ12 (e0 (val12 a)) (k6_opp (e1 (val12 a)))) /\
  (canon12 (FQ12_MulBy014Assign FqB a x y z) /\
   val12 (FQ12_MulBy014Assign FqB a x y z) = k12_mul (val12 a) (mkFQ12 (mkFQ6 (val2 x) (val2 y) k2_0) (mkFQ6 k2_0 (val2 z) k2_0))) /\
  (FQ12_Equals FqB a b = true <-> a = b) /\ (FQ12_IsZero FqB a = true <-> val12 a = k12_0).
Proof.
  intros A B X Y Z0. exact (conj (L12_add a b A B) (conj (L12_sub a b A B) (conj (L12_mul a b A B) (conj (L12_sq a A) (conj (L12_neg a A) (conj (L12_dbl a A)
    (conj (L12_conj a A) (conj (L12_mulby014 a x y z A X Y Z0) (conj (L12_equals a b A B) (L12_iszero a A)))))))))).
Qed.
Theorem C23_FQ12_inverse a : canon12 a ->
  (val12 a = k12_0 -> FQ12_InverseAssign FqB a = (a, false)) /\
  (val12 a <> k12_0 -> exists b, FQ12_InverseAssign FqB a = (b, true) /\ canon12 b /\ k12_mul (val12 b) (val12 a) = k12_1).
Proof. exact (L12_inv a). Qed.
Theorem C23_FQ12_Exp a n : canon12 a -> wf6 n -> canon12 (FQ12_Exp FqB a n) /\ val12 (FQ12_Exp FqB a n) = zpow k12_1 k12_mul (val12 a) (eval6 n).
Proof. exact (L12_exp a n). Qed.
(** w * w = v *)
Example C23_nonvacuous : let z := FQ2Zero FqB in let o := FQ2One FqB in let w := mkFQ12 (mkFQ6 z z z) (mkFQ6 o z z) in
  FQ12_MulAssign FqB w w = mkFQ12 (mkFQ6 z o z) (mkFQ6 z z z).
Proof. vm_compute. reflexivity. Qed.
Print Assumptions C23_FQ12_arithmetic.
Print Assumptions C23_FQ12_inverse.
Print Assumptions C23_FQ12_Exp.

(** every power, in particular every uint8 *)
Theorem C24_Frobenius p a2 a6 a12 : 0 <= p -> canon2 a2 -> canon6 a6 -> canon12 a12 ->
  (canon2 (FQ2_FrobeniusMapAssign FqB a2 p) /\ val2 (FQ2_FrobeniusMapAssign FqB a2 p) = zpow k2_1 k2_mul (val2 a2) (q ^ p)) /\
  (canon6 (FQ6_FrobeniusMapAssign FqB a6 p) /\ val6 (FQ6_FrobeniusMapAssign FqB a6 p) = zpow k6_1 k6_mul (val6 a6) (q ^ p)) /\
  (canon12 (FQ12_FrobeniusMapAssign FqB a12 p) /\ val12 (FQ12_FrobeniusMapAssign FqB a12 p) = zpow k12_1 k12_mul (val12 a12) (q ^ p)).
Proof. intros Hp A B C. exact (conj (L2_frob a2 p A Hp) (conj (L6_frob a6 p B Hp) (L12_frob a12 p C Hp))). Qed.
Example C24_nonvacuous : let u := mkFQ2 FQZero FQOne in
  FQ2_FrobeniusMapAssign FqB u 1 = FQ2_NegAssign FqB u /\ FQ2_FrobeniusMapAssign FqB u 1 <> u /\ FQ2_FrobeniusMapAssign FqB u 254 = u.
Proof. split; [|split]; vm_compute; try reflexivity. discriminate. Qed.
Print Assumptions C24_Frobenius.

Theorem C54_FQ2_MulBits a b : canon2 a -> 0 <= b -> canon2 (FQ2_MulBits FqB a b) /\ val2 (FQ2_MulBits FqB a b) = k2_mul (k2_emb (z2q b)) (val2 a).
Proof. exact (L2_mulbits a b). Qed.
Example C54_FQ2_nonvacuous : FQ2_MulBits FqB (FQ2One FqB) 6 = mkFQ2 (FQReprToFQ (NewFQRepr 6)) FQZero.
Proof. vm_compute. reflexivity. Qed.
Print Assumptions C54_FQ2_MulBits.
