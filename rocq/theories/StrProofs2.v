(** The String methods: they show the value, and different values print differently. *)
Require Import String Ascii ZArith Bool List Lia.
From Verif Require Import Words ModelRepr ReprProofs ReprProofs2 ReprProofs3 ModelFq ModelFr ModelOps ModelTower ModelCurve ModelStr NumTheory Primality Fp FpOps FqProofs FqProofs2 FqRel FrProofs OpsRel FqTransfer Fld EcGroup EcJac Curves CurveLimb.
Import ListNotations.
Open Scope Z_scope.

Lemma sapp_inj a : forall b c d, String.length a = String.length b -> (a ++ c = b ++ d)%string -> a = b /\ c = d.
Proof.
  induction a as [|x a IH]; intros [|y b] c d L E; cbn in L; try discriminate.
  - split; [reflexivity|exact E].
  - injection L as L. cbn in E. injection E as -> E. destruct (IH b c d L E) as [-> ->]. split; reflexivity.
Qed.
Lemma slen_app a b : String.length (a ++ b)%string = (String.length a + String.length b)%nat.
Proof. induction a; cbn; congruence. Qed.
Lemma spre_inj p : forall a b, (p ++ a = p ++ b)%string -> a = b.
Proof. induction p; cbn; intros a0 b E; [exact E|]. injection E as E. auto. Qed.

Lemma slen_list l : String.length (string_of_list_ascii l) = length l.
Proof. induction l; cbn; congruence. Qed.
Lemma hexstring_length k x : String.length (hexstring k x) = k.
Proof. unfold hexstring. rewrite slen_list, map_length. apply hexdigits_length. Qed.

Lemma show_FQ_value f : canon f -> show_FQ FqB f = ("Fq(0x" ++ hexstring 96 (fval f) ++ ")")%string.
Proof.
  intros C. unfold show_FQ. change (b_repr FqB f) with (FQ_ToRepr f). destruct (FQ_ToRepr_spec f (proj1 C)) as [W E].
  rewrite FQRepr_String_spec, E by exact W. reflexivity.
Qed.
Lemma FR_String_value f : rcanon f -> FR_String f = ("FR(0x" ++ hexstring 64 (rval f) ++ ")")%string.
Proof.
  intros C. unfold FR_String. destruct (FR_ToRepr_spec f (proj1 C)) as [W E].
  rewrite FRRepr_String_spec, E by exact W. reflexivity.
Qed.

Lemma hexstring_inj k x y : 0 <= x < 16 ^ Z.of_nat (S k) -> 0 <= y < 16 ^ Z.of_nat (S k) -> hexstring (S k) x = hexstring (S k) y -> x = y.
Proof.
  intros Hx Hy E. pose proof (big_SetString16_hexstring k x Hx) as P. pose proof (big_SetString16_hexstring k y Hy) as Q. congruence.
Qed.

Definition len_is {A} (P : A -> Prop) (sh : A -> string) (n : nat) : Prop := forall a, P a -> String.length (sh a) = n.
Definition sh_inj {A} (P : A -> Prop) (sh : A -> string) : Prop := forall a b, P a -> P b -> sh a = sh b -> a = b.

Lemma q_16 : q < 16 ^ Z.of_nat 96. Proof. vm_compute. reflexivity. Qed.
Lemma r_16 : r < 16 ^ Z.of_nat 64. Proof. vm_compute. reflexivity. Qed.

Lemma show_FQ_len : len_is canon (show_FQ FqB) 102.
Proof. intros f C. rewrite (show_FQ_value f C), !slen_app, hexstring_length. reflexivity. Qed.
Lemma show_FQ_inj : sh_inj canon (show_FQ FqB).
Proof.
  intros f g Cf Cg E. rewrite (show_FQ_value f Cf), (show_FQ_value g Cg) in E.
  apply spre_inj in E. apply sapp_inj in E; [|rewrite !hexstring_length; reflexivity]. destruct E as [E _].
  apply fval_inj; [assumption|assumption|]. destruct (fval_bound f) as [F1 F2]. destruct (fval_bound g) as [G1 G2].
  apply (hexstring_inj 95); [split; [exact F1|exact (Z.lt_trans _ _ _ F2 q_16)]|split; [exact G1|exact (Z.lt_trans _ _ _ G2 q_16)]|exact E].
Qed.
Lemma FR_String_inj : sh_inj rcanon FR_String.
Proof.
  intros f g Cf Cg E. rewrite (FR_String_value f Cf), (FR_String_value g Cg) in E.
  apply spre_inj in E. apply sapp_inj in E; [|rewrite !hexstring_length; reflexivity]. destruct E as [E _].
  apply rval_inj; [assumption|assumption|]. destruct (rval_bound f) as [F1 F2]. destruct (rval_bound g) as [G1 G2].
  apply (hexstring_inj 63); [split; [exact F1|exact (Z.lt_trans _ _ _ F2 r_16)]|split; [exact G1|exact (Z.lt_trans _ _ _ G2 r_16)]|exact E].
Qed.

(** Two fields of fixed length between fixed texts *)
Lemma show_two {A} (P : A -> Prop) sh n p1 p2 p3 : len_is P sh n -> sh_inj P sh -> forall a b a' b', P a -> P b -> P a' -> P b' ->
  (p1 ++ sh a ++ p2 ++ sh b ++ p3 = p1 ++ sh a' ++ p2 ++ sh b' ++ p3)%string -> a = a' /\ b = b'.
Proof.
  intros L I a b a' b' Pa Pb Pa' Pb' E. apply spre_inj in E.
  apply sapp_inj in E; [|rewrite (L a Pa), (L a' Pa'); reflexivity]. destruct E as [E1 E].
  apply spre_inj in E. apply sapp_inj in E; [|rewrite (L b Pb), (L b' Pb'); reflexivity]. destruct E as [E2 _].
  split; apply I; assumption.
Qed.
Lemma show_three {A} (P : A -> Prop) sh n p1 p2 p3 p4 : len_is P sh n -> sh_inj P sh -> forall a b c a' b' c', P a -> P b -> P c -> P a' -> P b' -> P c' ->
  (p1 ++ sh a ++ p2 ++ sh b ++ p3 ++ sh c ++ p4 = p1 ++ sh a' ++ p2 ++ sh b' ++ p3 ++ sh c' ++ p4)%string -> a = a' /\ b = b' /\ c = c'.
Proof.
  intros L I a b c a' b' c' Pa Pb Pc Pa' Pb' Pc' E. apply spre_inj in E.
  apply sapp_inj in E; [|rewrite (L a Pa), (L a' Pa'); reflexivity]. destruct E as [E1 E].
  apply spre_inj in E. apply sapp_inj in E; [|rewrite (L b Pb), (L b' Pb'); reflexivity]. destruct E as [E2 E].
  apply spre_inj in E. apply sapp_inj in E; [|rewrite (L c Pc), (L c' Pc'); reflexivity]. destruct E as [E3 _].
  split; [apply I; assumption|split; apply I; assumption].
Qed.

Lemma show_FQ2_len : len_is canon2 (show_FQ2 FqB) 216.
Proof. intros f [C0 C1]. unfold show_FQ2. rewrite !slen_app, (show_FQ_len _ C0), (show_FQ_len _ C1). reflexivity. Qed.
Lemma show_FQ2_inj : sh_inj canon2 (show_FQ2 FqB).
Proof.
  intros [a b] [a' b'] [Ca Cb] [Ca' Cb'] E.
  destruct (show_two canon _ _ _ _ _ show_FQ_len show_FQ_inj a b a' b' Ca Cb Ca' Cb' E) as [-> ->]. reflexivity.
Qed.
Lemma show_FQ6_len : len_is canon6 (show_FQ6 FqB) 665.
Proof. intros f (C0 & C1 & C2). unfold show_FQ6. rewrite !slen_app, (show_FQ2_len _ C0), (show_FQ2_len _ C1), (show_FQ2_len _ C2). reflexivity. Qed.
Lemma show_FQ6_inj : sh_inj canon6 (show_FQ6 FqB).
Proof.
  intros [a b c] [a' b' c'] (Ca & Cb & Cc) (Ca' & Cb' & Cc') E.
  destruct (show_three canon2 _ _ _ _ _ _ show_FQ2_len show_FQ2_inj a b c a' b' c' Ca Cb Cc Ca' Cb' Cc' E) as (-> & -> & ->). reflexivity.
Qed.
Lemma show_FQ12_inj : sh_inj canon12 (show_FQ12 FqB).
Proof.
  intros [a b] [a' b'] [Ca Cb] [Ca' Cb'] E.
  destruct (show_two canon6 _ _ _ _ _ show_FQ6_len show_FQ6_inj a b a' b' Ca Cb Ca' Cb' E) as [-> ->]. reflexivity.
Qed.

Lemma aff1_inf P : ainf P = true -> aff1 P = Inf. Proof. intros H. unfold aff1, aff, repa, vA. cbn [ainf]. rewrite H. reflexivity. Qed.
Lemma aff2_inf P : ainf P = true -> aff2 P = Inf. Proof. intros H. unfold aff2, aff, repa, vA. cbn [ainf]. rewrite H. reflexivity. Qed.
Lemma aff1_fin P : ainf P = false -> aff1 P <> Inf. Proof. intros H. unfold aff1, aff, repa, vA. cbn [ainf]. rewrite H. discriminate. Qed.
Lemma aff2_fin P : ainf P = false -> aff2 P <> Inf. Proof. intros H. unfold aff2, aff, repa, vA. cbn [ainf]. rewrite H. discriminate. Qed.

Lemma show_G1Affine_iff P Q : canonA1 P -> canonA1 Q -> show_G1Affine FqB P = show_G1Affine FqB Q <-> aff1 P = aff1 Q.
Proof.
  intros CP CQ. destruct (ainf P) eqn:IP; destruct (ainf Q) eqn:IQ.
  - rewrite (aff1_inf P IP), (aff1_inf Q IQ). unfold show_G1Affine. rewrite IP, IQ. split; reflexivity.
  - split; [unfold show_G1Affine; rewrite IP, IQ; intros X; discriminate|]. intros E. rewrite (aff1_inf P IP) in E.
    symmetry in E. destruct (aff1_fin Q IQ E).
  - split; [unfold show_G1Affine; rewrite IP, IQ; intros X; discriminate|]. intros E. rewrite (aff1_inf Q IQ) in E.
    destruct (aff1_fin P IP E).
  - split.
    + unfold show_G1Affine. rewrite IP, IQ. intros E. destruct P as [x y i], Q as [x' y' i']. cbn [ainf] in IP, IQ. subst i i'.
      destruct CP as [Cx Cy], CQ as [Cx' Cy']. cbn [ax ay] in *.
      destruct (show_two canon _ _ _ _ _ show_FQ_len show_FQ_inj x y x' y' Cx Cy Cx' Cy' E) as [-> ->]. reflexivity.
    + intros E. rewrite (G1_aff_inj P Q CP CQ IP E). reflexivity.
Qed.
Lemma show_G2Affine_iff P Q : canonA2 P -> canonA2 Q -> show_G2Affine FqB P = show_G2Affine FqB Q <-> aff2 P = aff2 Q.
Proof.
  intros CP CQ. destruct (ainf P) eqn:IP; destruct (ainf Q) eqn:IQ.
  - rewrite (aff2_inf P IP), (aff2_inf Q IQ). unfold show_G2Affine. rewrite IP, IQ. split; reflexivity.
  - split; [unfold show_G2Affine; rewrite IP, IQ; intros X; discriminate|]. intros E. rewrite (aff2_inf P IP) in E.
    symmetry in E. destruct (aff2_fin Q IQ E).
  - split; [unfold show_G2Affine; rewrite IP, IQ; intros X; discriminate|]. intros E. rewrite (aff2_inf Q IQ) in E.
    destruct (aff2_fin P IP E).
  - split.
    + unfold show_G2Affine. rewrite IP, IQ. intros E. destruct P as [x y i], Q as [x' y' i']. cbn [ainf] in IP, IQ. subst i i'.
      destruct CP as [Cx Cy], CQ as [Cx' Cy']. cbn [ax ay] in *.
      destruct (show_two canon2 _ _ _ _ _ show_FQ2_len show_FQ2_inj x y x' y' Cx Cy Cx' Cy' E) as [-> ->]. reflexivity.
    + intros E. rewrite (G2_aff_inj P Q CP CQ IP E). reflexivity.
Qed.

Lemma show1_head P s : show_G1Affine FqB P <> String "G" (String "1" (String ":" s)).
Proof. unfold show_G1Affine. destruct (ainf P); intros X; discriminate. Qed.
Lemma show2_head P s : show_G2Affine FqB P <> String "G" (String "2" (String ":" s)).
Proof. unfold show_G2Affine. destruct (ainf P); intros X; discriminate. Qed.

Lemma show_G1Projective_iff P Q : canonP1 P -> canonP1 Q -> show_G1Projective FqB P = show_G1Projective FqB Q <-> jac1 P = jac1 Q.
Proof.
  intros CP CQ. destruct (G1_toaffine P CP) as [AP EP]. destruct (G1_toaffine Q CQ) as [AQ EQ].
  pose proof (G1_iszero P CP) as ZP. pose proof (G1_iszero Q CQ) as ZQ. unfold show_G1Projective.
  change (b_ops FqB) with FqO. destruct (Proj_IsZero FqO P); destruct (Proj_IsZero FqO Q).
  - rewrite (proj1 ZP eq_refl), (proj1 ZQ eq_refl). split; reflexivity.
  - split; intros E; exfalso; [exact (show1_head _ _ (eq_sym E))|]. rewrite (proj1 ZP eq_refl) in E. symmetry in E. apply ZQ in E. discriminate.
  - split; intros E; exfalso; [exact (show1_head _ _ E)|]. rewrite (proj1 ZQ eq_refl) in E. apply ZP in E. discriminate.
  - rewrite <- EP, <- EQ. apply show_G1Affine_iff; assumption.
Qed.
Lemma show_G2Projective_iff P Q : canonP2 P -> canonP2 Q -> show_G2Projective FqB P = show_G2Projective FqB Q <-> jac2 P = jac2 Q.
Proof.
  intros CP CQ. destruct (G2_toaffine P CP) as [AP EP]. destruct (G2_toaffine Q CQ) as [AQ EQ].
  pose proof (G2_iszero P CP) as ZP. pose proof (G2_iszero Q CQ) as ZQ. unfold show_G2Projective.
  change (FQ2O FqB) with FqO2. destruct (Proj_IsZero FqO2 P); destruct (Proj_IsZero FqO2 Q).
  - rewrite (proj1 ZP eq_refl), (proj1 ZQ eq_refl). split; reflexivity.
  - split; intros E; exfalso; [exact (show2_head _ _ (eq_sym E))|]. rewrite (proj1 ZP eq_refl) in E. symmetry in E. apply ZQ in E. discriminate.
  - split; intros E; exfalso; [exact (show2_head _ _ E)|]. rewrite (proj1 ZQ eq_refl) in E. apply ZP in E. discriminate.
  - rewrite <- EP, <- EQ. apply show_G2Affine_iff; assumption.
Qed.
