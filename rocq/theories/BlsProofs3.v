(** The verdicts of Verify, VerifyAggregate and VerifyAggregateCommon as functions of the points represented. *)
Require Import ZArith Lia Bool List ListDec Permutation Znumtheory Ring.
From Verif Require Import Words ModelRepr ReprProofs ReprProofs2 ModelFq ModelFr ModelOps ModelTower ModelCurve ModelPairing ModelHash ModelBls NumTheory Primality Fp FpOps FqProofs FqProofs2 FqRel FrProofs OpsRel OpsRel2 FqTransfer Ext TowerProofs TowerLimb Fld AbGrp EcGroup EcJac EcMul Curves CurveLimb CurveMisc Codec Miller PairBasic PairLimb GenFacts MsgScreen BlsProofs BlsProofs2.
Import ListNotations.
Open Scope Z_scope.

Lemma Pairing_dep P P' Q Q' : canonP1 P -> canonP1 P' -> canonP2 Q -> canonP2 Q' -> jac1 P = jac1 P' -> jac2 Q = jac2 Q' -> Pairing FqB P Q = Pairing FqB P' Q'.
Proof. intros C1 C2 C3 C4 E E'. unfold Pairing. change (b_ops FqB) with FqO. change (FQ2O FqB) with FqO2. rewrite (toaff1_eq P P' C1 C2 E), (toaff2_eq Q Q' C3 C4 E'). reflexivity. Qed.
Lemma Compare_dep P P' Q Q' S S' T T' : canonP1 P -> canonP1 P' -> canonP2 Q -> canonP2 Q' -> canonP1 S -> canonP1 S' -> canonP2 T -> canonP2 T' ->
  jac1 P = jac1 P' -> jac2 Q = jac2 Q' -> jac1 S = jac1 S' -> jac2 T = jac2 T' -> CompareTwoPairings FqB P Q S T = CompareTwoPairings FqB P' Q' S' T'.
Proof.
  intros C1 C2 C3 C4 C5 C6 C7 C8 EP EQ ES ET. unfold CompareTwoPairings. change (b_ops FqB) with FqO. change (FQ2O FqB) with FqO2. cbv zeta.
  destruct (G1_neg S C5) as [N1 N2]. destruct (G1_neg S' C6) as [N1' N2'].
  rewrite (toaff1_eq P P' C1 C2 EP), (toaff2_eq Q Q' C3 C4 EQ), (toaff2_eq T T' C7 C8 ET), (toaff1_eq _ _ N1 N1') by congruence. reflexivity.
Qed.
Lemma hash1_canon sha m h : HashG1 sha FqB m = Some h -> canonA1 h.
Proof. intros E. pose proof (rel_HashG1 FqB FpB RFq sha m) as H. rewrite E in H. destruct (HashG1 sha FpB m); [|contradiction]. apply RA1_val in H. apply H. Qed.
Lemma hash2_canon sha m h : HashG2 sha FqB m = Some h -> canonA2 h.
Proof. intros E. pose proof (rel_HashG2 FqB FpB RFq sha m) as H. rewrite E in H. destruct (HashG2 sha FpB m); [|contradiction]. apply RA2_val in H. apply H. Qed.

(** the product of a list of pairing values; None when one of them is missing *)
Definition prod12 (es : list (option (FQ12 FQ))) : option K12 :=
  fold_right (fun o acc => match o, acc with Some e, Some a => Some (k12_mul (val12 e) a) | _, _ => None end) (Some k12_1) es.
Lemma prod12_perm l l' : Permutation l l' -> prod12 l = prod12 l'.
Proof.
  induction 1 as [|x l l' P IH|x y l|l l1 l2 _ IH1 _ IH2]; [reflexivity| | |congruence].
  - cbn [prod12 fold_right]. fold (prod12 l). fold (prod12 l'). rewrite IH. reflexivity.
  - cbn [prod12 fold_right]. fold (prod12 l). destruct x, y, (prod12 l); try reflexivity. f_equal. ring.
Qed.
Lemma prod12_some es : prod12 (map Some es) = Some (fold_right k12_mul k12_1 (map val12 es)).
Proof. induction es as [|e es IH]; [reflexivity|]. cbn [map prod12 fold_right]. fold (prod12 (map Some es)). rewrite IH. reflexivity. Qed.
Lemma FQ12One_val : canon12 (FQ12One FqB) /\ val12 (FQ12One FqB) = k12_1.
Proof. pose proof (rel_FQ12One FqB FpB RFq) as R1. apply R12_val in R1. destruct R1 as [CO VO]. split; [exact CO|]. symmetry. exact VO. Qed.
Definition eq12 (a b : K12) : bool := if k12_dec a b then true else false.
Lemma eq12_iff a b : eq12 a b = true <-> a = b.
Proof. unfold eq12. destruct (k12_dec a b); split; congruence. Qed.
Lemma FQ12_Equals_val a b : canon12 a -> canon12 b -> FQ12_Equals FqB a b = eq12 (val12 a) (val12 b).
Proof.
  intros Ca Cb. apply eq_true_iff_eq. rewrite (L12_equals a b Ca Cb), eq12_iff. split; [intros ->; reflexivity|apply val12_inj; assumption].
Qed.
Lemma combine_split {A B} (l : list (A * B)) : combine (map fst l) (map snd l) = l.
Proof. induction l as [|[a b] l IH]; [reflexivity|]. cbn [map combine fst snd]. rewrite IH. reflexivity. Qed.

(** ** g1pubs *)
Section G1pubs.
Context (sha : list Z -> list Z).
Notation Verify := (g1pubs_Verify sha FqB). Notation VerifyAggregate := (g1pubs_VerifyAggregate sha FqB).
Theorem Verify_dep1 m P P' S S' : canonP1 P -> canonP1 P' -> canonP2 S -> canonP2 S' -> jac1 P = jac1 P' -> jac2 S = jac2 S' -> Verify m P S = Verify m P' S'.
Proof.
  intros C1 C2 C3 C4 E E'. unfold g1pubs_Verify. destruct (HashG2 sha FqB m) as [h|] eqn:H; [|reflexivity]. apply hash2_canon in H. destruct (G2_toproj h H) as [C _].
  pose proof G1pone_canon as C0. exact (Compare_dep _ _ S S' P P' _ _ C0 C0 C3 C4 C1 C2 C C eq_refl E' E eq_refl).
Qed.
Definition termB1 {F} (B : BOps F) (pm : Proj F * list Z) : option (FQ12 F) :=
  match HashG2 sha B (snd pm) with None => None | Some h => Pairing B (fst pm) (Affine_ToProjective (FQ2O B) h) end.
Lemma product_cons1 {F} (B : BOps F) rhs pm l : g1pubs_pairing_product sha B rhs (pm :: l) =
  match termB1 B pm with None => None | Some e => g1pubs_pairing_product sha B (FQ12_MulAssign B rhs e) l end.
Proof. destruct pm as [P m]. cbn [g1pubs_pairing_product]. unfold termB1. cbn [fst snd]. destruct (HashG2 sha B m); reflexivity. Qed.
Definition term1 : Proj FQ * list Z -> option (FQ12 FQ) := termB1 FqB.
Lemma product_step1 rhs pm l : g1pubs_pairing_product sha FqB rhs (pm :: l) =
  match term1 pm with None => None | Some e => g1pubs_pairing_product sha FqB (FQ12_MulAssign FqB rhs e) l end.
Proof. exact (product_cons1 FqB rhs pm l). Qed.
Lemma term1_canon pm e : canonP1 (fst pm) -> term1 pm = Some e -> canon12 e.
Proof.
  unfold term1, termB1. intros C. destruct (HashG2 sha FqB (snd pm)) as [h|] eqn:H; [|discriminate]. apply hash2_canon in H. destruct (G2_toproj h H) as [C' _].
  intros E. exact (proj1 (optR12_inv _ _ _ (Pairing_rel _ _ C C') E)).
Qed.
Lemma product1 l : Forall (fun pm => canonP1 (fst pm)) l -> forall rhs, canon12 rhs ->
  match prod12 (map term1 l) with
  | None => g1pubs_pairing_product sha FqB rhs l = None
  | Some v => exists f, g1pubs_pairing_product sha FqB rhs l = Some f /\ canon12 f /\ val12 f = k12_mul (val12 rhs) v
  end.
Proof.
  induction 1 as [|[P m] l HP Hl IH]; intros rhs Cr; cbn [map prod12 fold_right].
  - exists rhs. split; [reflexivity|]. split; [exact Cr|]. ring.
  - fold (prod12 (map term1 l)). rewrite product_step1. pose proof (term1_canon (P, m)) as Ct. cbn [fst] in HP, Ct.
    destruct (term1 (P, m)) as [e|]; [|reflexivity]. specialize (Ct e HP eq_refl). destruct (L12_mul rhs e Cr Ct) as [Cm Vm]. specialize (IH _ Cm).
    destruct (prod12 (map term1 l)) as [v|]; [|exact IH]. destruct IH as (f & E & Cf & Vf). exists f. split; [exact E|]. split; [exact Cf|]. rewrite Vf, Vm. ring.
Qed.
Theorem VerifyAggregate_screen1 s pubs msgs : length pubs <> length msgs \/ ~ NoDup msgs \/ In [] msgs -> VerifyAggregate s pubs msgs = Some false.
Proof.
  unfold g1pubs_VerifyAggregate. destruct (Nat.eqb_spec (length pubs) (length msgs)) as [L|L]; cbn [negb]; [|reflexivity].
  intros [H|H]; [contradiction|]. rewrite (proj2 (screen_iff msgs)) by (destruct H; auto). reflexivity.
Qed.
Theorem VerifyAggregate_eq1 s pubs msgs : length pubs = length msgs -> NoDup msgs -> ~ In [] msgs -> canonP2 s -> Forall canonP1 pubs ->
  VerifyAggregate s pubs msgs = match Pairing FqB (G1ProjectiveOne FqB) s, prod12 (map term1 (combine pubs msgs)) with Some l, Some v => Some (eq12 (val12 l) v) | _, _ => None end.
Proof.
  intros L D NE Cs Cp. unfold g1pubs_VerifyAggregate. rewrite L, Nat.eqb_refl, (screen_clean msgs NE D). cbn [negb].
  assert (Forall (fun pm => canonP1 (fst pm)) (combine pubs msgs)) as Cc.
  { apply Forall_forall. intros [P m] I. apply in_combine_l in I. rewrite Forall_forall in Cp. exact (Cp P I). }
  destruct (Pairing FqB (G1ProjectiveOne FqB) s) as [l|] eqn:E; [|reflexivity]. apply (optR12_inv _ _ _ (Pairing_rel _ _ G1pone_canon Cs)) in E. destruct E as [Cl _].
  destruct FQ12One_val as [C1 V1]. pose proof (product1 _ Cc _ C1) as P. destruct (prod12 _) as [v|]; [|rewrite P; reflexivity].
  destruct P as (f & -> & Cf & Vf). rewrite (FQ12_Equals_val l f Cl Cf), Vf, V1. f_equal. f_equal. ring.
Qed.
Theorem VerifyAggregate_perm1 s l l' : canonP2 s -> Forall (fun pm => canonP1 (fst pm)) l -> Permutation l l' ->
  VerifyAggregate s (map fst l) (map snd l) = VerifyAggregate s (map fst l') (map snd l').
Proof.
  intros Cs Cl P.
  assert (Forall canonP1 (map fst l)) as Cp by (apply Forall_map; exact Cl).
  assert (Forall canonP1 (map fst l')) as Cp' by (apply Forall_forall; intros z Hz; rewrite Forall_forall in Cp; apply Cp; exact (Permutation_in _ (Permutation_sym (Permutation_map fst P)) Hz)).
  pose proof (Permutation_map snd P) as Pm. destruct (has_duplicate [] (sortByteArrays (map snd l))) eqn:E.
  - pose proof E as E'. rewrite (screen_perm _ _ Pm) in E'. apply screen_iff in E. apply screen_iff in E'.
    rewrite !VerifyAggregate_screen1 by (destruct E, E'; auto). reflexivity.
  - assert (~ In [] (map snd l) /\ NoDup (map snd l)) as [N D].
    { split; [intros I|]; [|destruct (ListDec.NoDup_dec (list_eq_dec Z.eq_dec) (map snd l)) as [D|D]; [exact D|exfalso]]; assert (has_duplicate [] (sortByteArrays (map snd l)) = true) by (apply screen_iff; auto); congruence. }
    rewrite !VerifyAggregate_eq1; try assumption; try (rewrite !map_length; reflexivity).
    + rewrite !combine_split, (prod12_perm _ _ (Permutation_map term1 P)). reflexivity.
    + exact (Permutation_NoDup Pm D).
    + intros I. apply N. exact (Permutation_in _ (Permutation_sym Pm) I).
Qed.
Theorem Common1 s pubs m : g1pubs_VerifyAggregateCommon sha FqB s pubs m = Verify m (g1pubs_AggregatePublicKeys FqB pubs) s.
Proof. reflexivity. Qed.
Theorem Common_perm1 s pubs pubs' m : canonP2 s -> Forall valid1 pubs -> Permutation pubs pubs' ->
  g1pubs_VerifyAggregateCommon sha FqB s pubs m = g1pubs_VerifyAggregateCommon sha FqB s pubs' m.
Proof.
  intros Cs V P. assert (Forall valid1 pubs') as V' by (apply Forall_forall; intros z Hz; rewrite Forall_forall in V; apply V; exact (Permutation_in _ (Permutation_sym P) Hz)).
  apply Verify_dep1; [apply (agg1 pubs V)|apply (agg1 pubs' V')|exact Cs|exact Cs|exact (agg1_perm pubs pubs' V P)|reflexivity].
Qed.
End G1pubs.

(** ** g2pubs *)
Section G2pubs.
Context (sha : list Z -> list Z).
Notation Verify := (g2pubs_Verify sha FqB). Notation VerifyAggregate := (g2pubs_VerifyAggregate sha FqB).
Theorem Verify_dep2 m P P' S S' : canonP2 P -> canonP2 P' -> canonP1 S -> canonP1 S' -> jac2 P = jac2 P' -> jac1 S = jac1 S' -> Verify m P S = Verify m P' S'.
Proof.
  intros C1 C2 C3 C4 E E'. unfold g2pubs_Verify. destruct (HashG1 sha FqB m) as [h|] eqn:H; [|reflexivity]. apply hash1_canon in H. destruct (G1_toproj h H) as [C _].
  pose proof G2pone_canon as C0. exact (Compare_dep S S' _ _ _ _ P P' C3 C4 C0 C0 C C C1 C2 E' eq_refl eq_refl E).
Qed.
Definition termB2 {F} (B : BOps F) (pm : Proj (FQ2 F) * list Z) : option (FQ12 F) :=
  match HashG1 sha B (snd pm) with None => None | Some h => Pairing B (Affine_ToProjective (b_ops B) h) (fst pm) end.
Lemma product_cons2 {F} (B : BOps F) rhs pm l : g2pubs_pairing_product sha B rhs (pm :: l) =
  match termB2 B pm with None => None | Some e => g2pubs_pairing_product sha B (FQ12_MulAssign B rhs e) l end.
Proof. destruct pm as [P m]. cbn [g2pubs_pairing_product]. unfold termB2. cbn [fst snd]. destruct (HashG1 sha B m); reflexivity. Qed.
Definition term2 : Proj (FQ2 FQ) * list Z -> option (FQ12 FQ) := termB2 FqB.
Lemma product_step2 rhs pm l : g2pubs_pairing_product sha FqB rhs (pm :: l) =
  match term2 pm with None => None | Some e => g2pubs_pairing_product sha FqB (FQ12_MulAssign FqB rhs e) l end.
Proof. exact (product_cons2 FqB rhs pm l). Qed.
Lemma term2_canon pm e : canonP2 (fst pm) -> term2 pm = Some e -> canon12 e.
Proof.
  unfold term2, termB2. intros C. destruct (HashG1 sha FqB (snd pm)) as [h|] eqn:H; [|discriminate]. apply hash1_canon in H. destruct (G1_toproj h H) as [C' _].
  intros E. exact (proj1 (optR12_inv _ _ _ (Pairing_rel _ _ C' C) E)).
Qed.
Lemma product2 l : Forall (fun pm => canonP2 (fst pm)) l -> forall rhs, canon12 rhs ->
  match prod12 (map term2 l) with
  | None => g2pubs_pairing_product sha FqB rhs l = None
  | Some v => exists f, g2pubs_pairing_product sha FqB rhs l = Some f /\ canon12 f /\ val12 f = k12_mul (val12 rhs) v
  end.
Proof.
  induction 1 as [|[P m] l HP Hl IH]; intros rhs Cr; cbn [map prod12 fold_right].
  - exists rhs. split; [reflexivity|]. split; [exact Cr|]. ring.
  - fold (prod12 (map term2 l)). rewrite product_step2. pose proof (term2_canon (P, m)) as Ct. cbn [fst] in HP, Ct.
    destruct (term2 (P, m)) as [e|]; [|reflexivity]. specialize (Ct e HP eq_refl). destruct (L12_mul rhs e Cr Ct) as [Cm Vm]. specialize (IH _ Cm).
    destruct (prod12 (map term2 l)) as [v|]; [|exact IH]. destruct IH as (f & E & Cf & Vf). exists f. split; [exact E|]. split; [exact Cf|]. rewrite Vf, Vm. ring.
Qed.
Theorem VerifyAggregate_screen2 s pubs msgs : length pubs <> length msgs \/ ~ NoDup msgs \/ In [] msgs -> VerifyAggregate s pubs msgs = Some false.
Proof.
  unfold g2pubs_VerifyAggregate. destruct (Nat.eqb_spec (length pubs) (length msgs)) as [L|L]; cbn [negb]; [|reflexivity].
  intros [H|H]; [contradiction|]. rewrite (proj2 (screen_iff msgs)) by (destruct H; auto). reflexivity.
Qed.
Theorem VerifyAggregate_eq2 s pubs msgs : length pubs = length msgs -> NoDup msgs -> ~ In [] msgs -> canonP1 s -> Forall canonP2 pubs ->
  VerifyAggregate s pubs msgs = match Pairing FqB s (G2ProjectiveOne FqB), prod12 (map term2 (combine pubs msgs)) with Some l, Some v => Some (eq12 (val12 l) v) | _, _ => None end.
Proof.
  intros L D NE Cs Cp. unfold g2pubs_VerifyAggregate. rewrite L, Nat.eqb_refl, (screen_clean msgs NE D). cbn [negb].
  assert (Forall (fun pm => canonP2 (fst pm)) (combine pubs msgs)) as Cc.
  { apply Forall_forall. intros [P m] I. apply in_combine_l in I. rewrite Forall_forall in Cp. exact (Cp P I). }
  destruct (Pairing FqB s (G2ProjectiveOne FqB)) as [l|] eqn:E; [|reflexivity]. apply (optR12_inv _ _ _ (Pairing_rel _ _ Cs G2pone_canon)) in E. destruct E as [Cl _].
  destruct FQ12One_val as [C1 V1]. pose proof (product2 _ Cc _ C1) as P. destruct (prod12 _) as [v|]; [|rewrite P; reflexivity].
  destruct P as (f & -> & Cf & Vf). rewrite (FQ12_Equals_val l f Cl Cf), Vf, V1. f_equal. f_equal. ring.
Qed.
Theorem VerifyAggregate_perm2 s l l' : canonP1 s -> Forall (fun pm => canonP2 (fst pm)) l -> Permutation l l' ->
  VerifyAggregate s (map fst l) (map snd l) = VerifyAggregate s (map fst l') (map snd l').
Proof.
  intros Cs Cl P.
  assert (Forall canonP2 (map fst l)) as Cp by (apply Forall_map; exact Cl).
  assert (Forall canonP2 (map fst l')) as Cp' by (apply Forall_forall; intros z Hz; rewrite Forall_forall in Cp; apply Cp; exact (Permutation_in _ (Permutation_sym (Permutation_map fst P)) Hz)).
  pose proof (Permutation_map snd P) as Pm. destruct (has_duplicate [] (sortByteArrays (map snd l))) eqn:E.
  - pose proof E as E'. rewrite (screen_perm _ _ Pm) in E'. apply screen_iff in E. apply screen_iff in E'.
    rewrite !VerifyAggregate_screen2 by (destruct E, E'; auto). reflexivity.
  - assert (~ In [] (map snd l) /\ NoDup (map snd l)) as [N D].
    { split; [intros I|]; [|destruct (ListDec.NoDup_dec (list_eq_dec Z.eq_dec) (map snd l)) as [D|D]; [exact D|exfalso]]; assert (has_duplicate [] (sortByteArrays (map snd l)) = true) by (apply screen_iff; auto); congruence. }
    rewrite !VerifyAggregate_eq2; try assumption; try (rewrite !map_length; reflexivity).
    + rewrite !combine_split, (prod12_perm _ _ (Permutation_map term2 P)). reflexivity.
    + exact (Permutation_NoDup Pm D).
    + intros I. apply N. exact (Permutation_in _ (Permutation_sym Pm) I).
Qed.
Theorem Common2 s pubs m : g2pubs_VerifyAggregateCommon sha FqB s pubs m = Verify m (g2pubs_AggregatePublicKeys FqB pubs) s.
Proof. reflexivity. Qed.
Theorem Common_perm2 s pubs pubs' m : canonP1 s -> Forall valid2 pubs -> Permutation pubs pubs' ->
  g2pubs_VerifyAggregateCommon sha FqB s pubs m = g2pubs_VerifyAggregateCommon sha FqB s pubs' m.
Proof.
  intros Cs V P. assert (Forall valid2 pubs') as V' by (apply Forall_forall; intros z Hz; rewrite Forall_forall in V; apply V; exact (Permutation_in _ (Permutation_sym P) Hz)).
  apply Verify_dep2; [apply (agg2 pubs V)|apply (agg2 pubs' V')|exact Cs|exact Cs|exact (agg2_perm pubs pubs' V P)|reflexivity].
Qed.
End G2pubs.

(** ** g1pubs with a domain *)
Section G1domain.
Context (sha : list Z -> list Z) (Sh : sha_ok sha) (fuel : nat) (dom : list Z).
Lemma hashd_canon m h : HashG2WithDomain_fuel sha FqB fuel m dom = Some h -> canonP2 h.
Proof. intros E. pose proof (rel_HashG2WithDomain_fuel FqB FpB RFq sha fuel m dom Sh) as H. rewrite E in H. destruct (HashG2WithDomain_fuel sha FpB fuel m dom); [|contradiction]. apply RP2_val in H. apply H. Qed.
Lemma hashd_aff m h : HashG2WithDomain_fuel sha FqB fuel m dom = Some h -> canonP2 (Affine_ToProjective FqO2 (G2_ToAffine FqO2 h)).
Proof. intros E. apply hashd_canon in E. exact (proj1 (G2_toproj _ (proj1 (G2_toaffine h E)))). Qed.
Theorem Verifyd_dep m P P' S S' : canonP1 P -> canonP1 P' -> canonP2 S -> canonP2 S' -> jac1 P = jac1 P' -> jac2 S = jac2 S' ->
  g1pubs_VerifyWithDomain sha FqB fuel m P S dom = g1pubs_VerifyWithDomain sha FqB fuel m P' S' dom.
Proof.
  intros C1 C2 C3 C4 E E'. unfold g1pubs_VerifyWithDomain. destruct (HashG2WithDomain_fuel sha FqB fuel m dom) as [h|] eqn:H; [|reflexivity]. apply hashd_aff in H.
  pose proof G1pone_canon as C0. exact (Compare_dep _ _ S S' P P' _ _ C0 C0 C3 C4 C1 C2 H H eq_refl E' E eq_refl).
Qed.
Theorem Commond s pubs m : g1pubs_VerifyAggregateCommonWithDomain sha FqB fuel s pubs m dom = g1pubs_VerifyWithDomain sha FqB fuel m (g1pubs_AggregatePublicKeys FqB pubs) s dom.
Proof. reflexivity. Qed.
Theorem Commond_perm s pubs pubs' m : canonP2 s -> Forall valid1 pubs -> Permutation pubs pubs' ->
  g1pubs_VerifyAggregateCommonWithDomain sha FqB fuel s pubs m dom = g1pubs_VerifyAggregateCommonWithDomain sha FqB fuel s pubs' m dom.
Proof.
  intros Cs V P. assert (Forall valid1 pubs') as V' by (apply Forall_forall; intros z Hz; rewrite Forall_forall in V; apply V; exact (Permutation_in _ (Permutation_sym P) Hz)).
  apply Verifyd_dep; [apply (agg1 pubs V)|apply (agg1 pubs' V')|exact Cs|exact Cs|exact (agg1_perm pubs pubs' V P)|reflexivity].
Qed.
Definition termdB {F} (B : BOps F) (pm : Proj F * list Z) : option (FQ12 F) :=
  match HashG2WithDomain_fuel sha B fuel (snd pm) dom with None => None | Some h => Pairing B (fst pm) (Affine_ToProjective (FQ2O B) (G2_ToAffine (FQ2O B) h)) end.
Lemma productd_cons {F} (B : BOps F) rhs pm l : g1pubs_pairing_product_domain sha B fuel dom rhs (pm :: l) =
  match termdB B pm with None => None | Some e => g1pubs_pairing_product_domain sha B fuel dom (FQ12_MulAssign B rhs e) l end.
Proof. destruct pm as [P m]. cbn [g1pubs_pairing_product_domain]. unfold termdB. cbn [fst snd]. destruct (HashG2WithDomain_fuel sha B fuel m dom); reflexivity. Qed.
Definition termd : Proj FQ * list Z -> option (FQ12 FQ) := termdB FqB.
Lemma productd_step rhs pm l : g1pubs_pairing_product_domain sha FqB fuel dom rhs (pm :: l) =
  match termd pm with None => None | Some e => g1pubs_pairing_product_domain sha FqB fuel dom (FQ12_MulAssign FqB rhs e) l end.
Proof. exact (productd_cons FqB rhs pm l). Qed.
Lemma termd_canon pm e : canonP1 (fst pm) -> termd pm = Some e -> canon12 e.
Proof.
  unfold termd, termdB. intros C. destruct (HashG2WithDomain_fuel sha FqB fuel (snd pm) dom) as [h|] eqn:H; [|discriminate]. apply hashd_aff in H.
  intros E. exact (proj1 (optR12_inv _ _ _ (Pairing_rel _ _ C H) E)).
Qed.
Lemma productd l : Forall (fun pm => canonP1 (fst pm)) l -> forall rhs, canon12 rhs ->
  match prod12 (map termd l) with
  | None => g1pubs_pairing_product_domain sha FqB fuel dom rhs l = None
  | Some v => exists f, g1pubs_pairing_product_domain sha FqB fuel dom rhs l = Some f /\ canon12 f /\ val12 f = k12_mul (val12 rhs) v
  end.
Proof.
  induction 1 as [|[P m] l HP Hl IH]; intros rhs Cr; cbn [map prod12 fold_right].
  - exists rhs. split; [reflexivity|]. split; [exact Cr|]. ring.
  - fold (prod12 (map termd l)). rewrite productd_step. pose proof (termd_canon (P, m)) as Ct. cbn [fst] in HP, Ct.
    destruct (termd (P, m)) as [e|]; [|reflexivity]. specialize (Ct e HP eq_refl). destruct (L12_mul rhs e Cr Ct) as [Cm Vm]. specialize (IH _ Cm).
    destruct (prod12 (map termd l)) as [v|]; [|exact IH]. destruct IH as (f & E & Cf & Vf). exists f. split; [exact E|]. split; [exact Cf|]. rewrite Vf, Vm. ring.
Qed.
Theorem VerifyAggregated_eq s pubs msgs : canonP2 s -> Forall canonP1 pubs ->
  g1pubs_VerifyAggregateWithDomain sha FqB fuel s pubs msgs dom =
  if negb (Nat.eqb (length pubs) (length msgs)) then Some false
  else match Pairing FqB (G1ProjectiveOne FqB) s, prod12 (map termd (combine pubs msgs)) with Some l, Some v => Some (eq12 (val12 l) v) | _, _ => None end.
Proof.
  intros Cs Cp. unfold g1pubs_VerifyAggregateWithDomain. destruct (negb _); [reflexivity|].
  assert (Forall (fun pm => canonP1 (fst pm)) (combine pubs msgs)) as Cc.
  { apply Forall_forall. intros [P m] I. apply in_combine_l in I. rewrite Forall_forall in Cp. exact (Cp P I). }
  destruct (Pairing FqB (G1ProjectiveOne FqB) s) as [l|] eqn:E; [|reflexivity]. apply (optR12_inv _ _ _ (Pairing_rel _ _ G1pone_canon Cs)) in E. destruct E as [Cl _].
  destruct FQ12One_val as [C1 V1]. pose proof (productd _ Cc _ C1) as P. destruct (prod12 _) as [v|]; [|rewrite P; reflexivity].
  destruct P as (f & -> & Cf & Vf). rewrite (FQ12_Equals_val l f Cl Cf), Vf, V1. f_equal. f_equal. ring.
Qed.
Theorem VerifyAggregated_perm s l l' : canonP2 s -> Forall (fun pm => canonP1 (fst pm)) l -> Permutation l l' ->
  g1pubs_VerifyAggregateWithDomain sha FqB fuel s (map fst l) (map snd l) dom = g1pubs_VerifyAggregateWithDomain sha FqB fuel s (map fst l') (map snd l') dom.
Proof.
  intros Cs Cl P.
  assert (Forall canonP1 (map fst l)) as Cp by (apply Forall_map; exact Cl).
  assert (Forall canonP1 (map fst l')) as Cp' by (apply Forall_forall; intros z Hz; rewrite Forall_forall in Cp; apply Cp; exact (Permutation_in _ (Permutation_sym (Permutation_map fst P)) Hz)).
  rewrite !VerifyAggregated_eq, !map_length, !Nat.eqb_refl, !combine_split, (prod12_perm _ _ (Permutation_map termd P)) by assumption. reflexivity.
Qed.
End G1domain.
