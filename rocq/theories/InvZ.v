(** The binary extended-gcd loop used by FQ.Inverse and FR.Inverse, at the level of integers:
    it terminates within 2*log2(m)+2 outer iterations and returns the (scaled) modular inverse.
    Mathematics only; InvProofs.v links it to the limb-level code. *)
Require Import ZArith Lia Bool Znumtheory.
From Verif Require Import NumTheory.
Open Scope Z_scope.

Section Inv.
  Context (m : Z).

  Fixpoint zhalve (fuel : nat) (u b : Z) : option (Z * Z) :=
    if Z.even u then
      match fuel with
      | O => None
      | S k => zhalve k (u / 2) (if Z.even b then b / 2 else (b + m) / 2)
      end
    else Some (u, b).

  Definition zsubm (b c : Z) : Z := if b <? c then b + m - c else b - c.

  Fixpoint zinv_loop (fuel0 fuel : nat) (u b v c : Z) : option (Z * Z * Z) :=
    if negb (u =? 1) && negb (v =? 1) then
      match fuel with
      | O => None
      | S k =>
          match zhalve fuel0 u b with
          | None => None
          | Some (u, b) =>
              match zhalve fuel0 v c with
              | None => None
              | Some (v, c) =>
                  if v <=? u then zinv_loop fuel0 k (u - v) (zsubm b c) v c
                  else zinv_loop fuel0 k u b (v - u) (zsubm c b)
              end
          end
      end
    else Some (u, b, c).

  Hypothesis Hodd : Z.odd m = true.
  Hypothesis Hm : 1 < m.

  Definition cong (x y : Z) : Prop := (m | x - y).

  Lemma cong_cancel2 x y : cong (2 * x) (2 * y) -> cong x y.
  Proof.
    intros [k Hk]. exists (k / 2).
    assert (Z.even (k * m) = true) as Ev by (replace (k * m) with (2 * (x - y)) by lia; rewrite Z.even_mul; reflexivity).
    rewrite Z.even_mul in Ev. rewrite <- (Z.negb_odd m), Hodd in Ev. cbn in Ev. rewrite orb_false_r in Ev.
    apply Z.even_spec in Ev. destruct Ev as [j ->]. rewrite (Z.mul_comm 2 j), Z.div_mul by lia. lia.
  Qed.

  Lemma even_half u : Z.even u = true -> u = 2 * (u / 2).
  Proof. intros H. apply Z.even_spec in H. destruct H as [k ->]. rewrite (Z.mul_comm 2 k), Z.div_mul by lia. lia. Qed.

  Lemma halve_b_spec b : 0 <= b < m -> 
    let b' := if Z.even b then b / 2 else (b + m) / 2 in 0 <= b' < m /\ cong (2 * b') b.
  Proof.
    intros Hb b'. unfold b'. destruct (Z.even b) eqn:E.
    - apply even_half in E. split; [lia|]. exists 0. lia.
    - assert (Z.even (b + m) = true) as E2 by (rewrite Z.even_add, E, <- (Z.negb_odd m), Hodd; reflexivity).
      apply even_half in E2. split; [lia|]. exists 1. lia.
  Qed.

  (** n is the element being inverted, T the numerator. *)
  Context (n T : Z).
  Definition inv1 (u b : Z) : Prop := 0 <= b < m /\ cong (b * n) (u * T).

  Lemma zhalve_spec k : forall fuel u b, 0 < u < 2 ^ Z.of_nat k -> (k <= fuel)%nat -> inv1 u b ->
    exists u' b', zhalve fuel u b = Some (u', b') /\ Z.odd u' = true /\ (exists j, 0 <= j /\ u = u' * 2 ^ j) /\ inv1 u' b'.
  Proof.
    induction k as [|k IH]; intros fuel u b Hu Hf Hi; [change (2 ^ Z.of_nat 0) with 1 in Hu; lia|].
    destruct fuel as [|fuel]; [lia|]. cbn [zhalve].
    destruct (Z.even u) eqn:Ev.
    - pose proof (even_half u Ev) as Eu. rewrite Nat2Z.inj_succ, Z.pow_succ_r in Hu by lia.
      destruct Hi as [Hb Hc]. destruct (halve_b_spec b Hb) as [Hb' Hc']. set (b' := if Z.even b then b / 2 else (b + m) / 2) in *.
      destruct (IH fuel (u / 2) b') as (u'' & b'' & E & O & (j & Hj & Ej) & I); [lia|lia| |].
      { split; [exact Hb'|]. apply cong_cancel2.
        destruct Hc as [k1 H1], Hc' as [k2 H2]. exists (k1 + k2 * n).
        replace (2 * (b' * n)) with ((2 * b' - b) * n + b * n) by ring. rewrite H2.
        replace (2 * (u / 2 * T)) with (2 * (u / 2) * T) by ring. rewrite <- Eu.
        replace (b * n) with (k1 * m + u * T) by lia. ring. }
      exists u'', b''. split; [exact E|]. split; [exact O|]. split; [|exact I].
      exists (j + 1). split; [lia|]. rewrite Z.pow_add_r by lia. rewrite Eu, Ej. ring.
    - exists u, b. split; [reflexivity|]. split; [rewrite <- Z.negb_even, Ev; reflexivity|]. split; [|exact Hi].
      exists 0. split; lia.
  Qed.

  Lemma zsubm_spec u b v c : inv1 u b -> inv1 v c -> inv1 (u - v) (zsubm b c).
  Proof.
    intros [Hb [k1 H1]] [Hc [k2 H2]]. unfold zsubm. split; [destruct (Z.ltb_spec b c); lia|].
    destruct (Z.ltb_spec b c).
    - exists (k1 - k2 + n). replace ((b + m - c) * n) with (b * n - c * n + m * n) by ring.
      replace (b * n) with (k1 * m + u * T) by lia. replace (c * n) with (k2 * m + v * T) by lia. ring.
    - exists (k1 - k2). replace ((b - c) * n) with (b * n - c * n) by ring.
      replace (b * n) with (k1 * m + u * T) by lia. replace (c * n) with (k2 * m + v * T) by lia. ring.
  Qed.

  Lemma gcd_pow2_l u u' j v : 0 <= j -> u = u' * 2 ^ j -> Z.gcd u v = 1 -> Z.gcd u' v = 1.
  Proof.
    intros Hj -> H. apply Z.gcd_unique; [lia|apply Z.divide_1_l|apply Z.divide_1_l|].
    intros d D1 D2. rewrite <- H. apply Z.gcd_greatest; [|exact D2]. apply Z.divide_mul_l. exact D1.
  Qed.

  Lemma pow2_ge1 j : 0 <= j -> 1 <= 2 ^ j.
  Proof. intros. pose proof (Z.pow_pos_nonneg 2 j). lia. Qed.

  Lemma odd_pow2_pos u u' j : 0 < u -> u = u' * 2 ^ j -> 0 <= j -> 0 < u' /\ u' <= u.
  Proof. intros Hu E Hj. pose proof (pow2_ge1 j Hj). nia. Qed.

  (** The main loop. K bounds the size for the inner loops; the product u*v halves each turn once one of u, v is even. *)
  Lemma zinv_loop_spec K fuel0 : (K <= fuel0)%nat -> forall k fuel u b v c,
    (k <= fuel)%nat ->
    0 < u < 2 ^ Z.of_nat K -> 0 < v < 2 ^ Z.of_nat K -> Z.gcd u v = 1 -> inv1 u b -> inv1 v c ->
    (Z.even u = true \/ Z.even v = true) -> u * v < 2 ^ Z.of_nat k ->
    exists u' b' c', zinv_loop fuel0 fuel u b v c = Some (u', b', c') /\
      ((u' = 1 /\ inv1 1 b') \/ (u' <> 1 /\ inv1 1 c')).
  Proof.
    intros HK. induction k as [|k IH]; intros fuel u b v c Hf Hu Hv Hg Ib Ic Hev Hp;
      [change (2 ^ Z.of_nat 0) with 1 in Hp; nia|].
    destruct fuel as [|fuel]; [lia|]. cbn [zinv_loop].
    destruct (Z.eqb_spec u 1) as [->|Hu1]; [cbn [negb andb]; eexists 1, b, c; split; [reflexivity|left; split; [reflexivity|exact Ib]]|].
    destruct (Z.eqb_spec v 1) as [->|Hv1]; [cbn [negb andb]; eexists u, b, c; split; [reflexivity|right; split; [exact Hu1|exact Ic]]|].
    cbn [negb andb].
    destruct (zhalve_spec K fuel0 u b Hu HK Ib) as (u' & b' & -> & Ou & (j1 & Hj1 & Eu) & Ib').
    destruct (zhalve_spec K fuel0 v c Hv HK Ic) as (v' & c' & -> & Ov & (j2 & Hj2 & Ev) & Ic').
    destruct (odd_pow2_pos u u' j1) as [Pu Lu]; try assumption; try lia.
    destruct (odd_pow2_pos v v' j2) as [Pv Lv]; try assumption; try lia.
    assert (Z.gcd u' v' = 1) as Hg'.
    { apply (gcd_pow2_l u u' j1); [assumption|assumption|]. rewrite Z.gcd_comm. apply (gcd_pow2_l v v' j2); [assumption|assumption|]. rewrite Z.gcd_comm. exact Hg. }
    assert (2 * (u' * v') <= u * v) as Hhalf.
    { pose proof (pow2_ge1 j1 Hj1). pose proof (pow2_ge1 j2 Hj2).
      assert (u * v = (u' * v') * (2 ^ j1 * 2 ^ j2)) as Euv by (rewrite Eu, Ev; ring).
      assert (2 <= 2 ^ j1 * 2 ^ j2) as H2.
      { destruct (Z.eq_dec j1 0) as [->|], (Z.eq_dec j2 0) as [->|].
        - exfalso. rewrite Z.pow_0_r, Z.mul_1_r in Eu, Ev. subst u' v'. rewrite <- Z.negb_odd, Ou, <- Z.negb_odd, Ov in Hev. destruct Hev; discriminate.
        - assert (2 ^ 1 <= 2 ^ j2) by (apply Z.pow_le_mono_r; lia). lia.
        - assert (2 ^ 1 <= 2 ^ j1) by (apply Z.pow_le_mono_r; lia). lia.
        - assert (2 ^ 1 <= 2 ^ j1) by (apply Z.pow_le_mono_r; lia). nia. }
      rewrite Euv. nia. }
    assert (u' <> v') as Hne.
    { intros <-. rewrite Z.gcd_diag, Z.abs_eq in Hg' by lia. subst u'.
      rewrite Z.mul_1_l in Eu, Ev.
      assert (j1 <> 0) by (intros ->; rewrite Z.pow_0_r in Eu; lia). assert (j2 <> 0) by (intros ->; rewrite Z.pow_0_r in Ev; lia).
      assert (2 | Z.gcd u v) as D.
      { apply Z.gcd_greatest; [rewrite Eu|rewrite Ev].
        - exists (2 ^ (j1 - 1)). replace j1 with ((j1 - 1) + 1) at 1 by lia. rewrite Z.pow_add_r by lia. ring.
        - exists (2 ^ (j2 - 1)). replace j2 with ((j2 - 1) + 1) at 1 by lia. rewrite Z.pow_add_r by lia. ring. }
      rewrite Hg in D. apply Z.divide_pos_le in D; lia. }
    rewrite Nat2Z.inj_succ, Z.pow_succ_r in Hp by lia.
    assert (forall x y, Z.odd x = true -> Z.odd y = true -> Z.even (x - y) = true) as OE.
    { intros x y Ox Oy. rewrite Z.even_sub, <- !Z.negb_odd, Ox, Oy. reflexivity. }
    destruct (Z.leb_spec v' u') as [L|L].
    - apply IH; try exact Ic'; try lia.
      + rewrite Z.gcd_comm, Z.gcd_sub_diag_r, Z.gcd_comm. exact Hg'.
      + apply zsubm_spec; assumption.
      + left. apply OE; assumption.
    - apply IH; try lia.
      + rewrite Z.gcd_sub_diag_r. exact Hg'.
      + exact Ib'.
      + apply zsubm_spec; assumption.
      + right. apply OE; assumption.
  Qed.

  (** First turn: u = n, v = m (both may be odd). *)
  Theorem zinv_spec K fuel : m < 2 ^ Z.of_nat K -> (2 * K + 1 <= fuel)%nat -> 0 < n < m -> Z.gcd n m = 1 -> 0 <= T < m ->
    exists u' b' c', zinv_loop fuel fuel n T m 0 = Some (u', b', c') /\
      ((u' = 1 /\ inv1 1 b') \/ (u' <> 1 /\ inv1 1 c')).
  Proof.
    intros HK Hf Hn Hg HT. destruct fuel as [|fuel]; [lia|].
    assert (inv1 n T) as In by (split; [exact HT|exists 0; ring]).
    assert (inv1 m 0) as Im by (split; [lia|exists (- T); ring]).
    destruct (Z.eq_dec n 1) as [E1|E1].
    { exists n, T, 0. split; [|left; rewrite E1 in *; split; [reflexivity|exact In]]. rewrite E1. reflexivity. }
    assert (n * m < 2 ^ Z.of_nat (2 * K)) as HP.
    { replace (Z.of_nat (2 * K)) with (Z.of_nat K + Z.of_nat K) by lia. rewrite Z.pow_add_r by lia. nia. }
    destruct (Z.even n) eqn:Ev.
    - apply (zinv_loop_spec K (S fuel) ltac:(lia) (2 * K)); try assumption; try lia. left. exact Ev.
    - cbn [zinv_loop]. destruct (Z.eqb_spec n 1); [contradiction|]. destruct (Z.eqb_spec m 1); [lia|]. cbn [negb andb].
      assert (Z.even m = false) as Em by (rewrite <- Z.negb_odd, Hodd; reflexivity).
      assert (zhalve (S fuel) n T = Some (n, T)) as -> by (cbn [zhalve]; rewrite Ev; reflexivity).
      assert (zhalve (S fuel) m 0 = Some (m, 0)) as -> by (cbn [zhalve]; rewrite Em; reflexivity).
      destruct (Z.leb_spec m n); [lia|].
      apply (zinv_loop_spec K (S fuel) ltac:(lia) (2 * K)); try assumption; try lia.
      + rewrite Z.gcd_sub_diag_r. exact Hg.
      + apply zsubm_spec; assumption.
      + right. rewrite Z.even_sub, Em, Ev. reflexivity.
  Qed.
End Inv.
