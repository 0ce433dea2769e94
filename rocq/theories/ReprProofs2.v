(** Shifts, comparison, bits and codecs of FQRepr / FRRepr; the bit iterator. *)
Require Import String Ascii ZArith Lia Bool List.
From Verif Require Import Words ModelRepr ReprProofs.
Import ListNotations.
Open Scope Z_scope.

(** ** Comparison *)

Definition zcmp (x y : Z) : Z := match x ?= y with Eq => 0 | Lt => -1 | Gt => 1 end.

Lemma zcmp_lt x y : x < y -> zcmp x y = -1.
Proof. intros H. unfold zcmp. rewrite (proj2 (Z.compare_lt_iff x y) H). reflexivity. Qed.
Lemma zcmp_gt x y : y < x -> zcmp x y = 1.
Proof. intros H. unfold zcmp. rewrite (proj2 (Z.compare_gt_iff x y) H). reflexivity. Qed.
Lemma zcmp_eq x y : x = y -> zcmp x y = 0.
Proof. intros ->. unfold zcmp. rewrite Z.compare_refl. reflexivity. Qed.

Lemma zcmp_0 x y : zcmp x y = 0 <-> x = y.
Proof. unfold zcmp. destruct (Z.compare_spec x y); split; intros; lia. Qed.
Lemma zcmp_pos x y : 0 < zcmp x y <-> y < x.
Proof. unfold zcmp. destruct (Z.compare_spec x y); split; intros; lia. Qed.
Lemma zcmp_neg x y : zcmp x y < 0 <-> x < y.
Proof. unfold zcmp. destruct (Z.compare_spec x y); split; intros; lia. Qed.

Lemma FQRepr_Cmp_eval f g : wf6 f -> wf6 g -> FQRepr_Cmp f g = zcmp (eval6 f) (eval6 g).
Proof.
  intros Hf Hg. destruct f as [a0 a1 a2 a3 a4 a5], g as [b0 b1 b2 b3 b4 b5]. unwf. unfold isW in *.
  unfold FQRepr_Cmp; cbn [cmp_limbs w0 w1 w2 w3 w4 w5]. uneval.
  repeat (match goal with |- context [?x =? ?y] => destruct (Z.eqb_spec x y) end;
   [| match goal with |- context [?y <? ?x] => destruct (Z.ltb_spec y x) end;
      [ symmetry; apply zcmp_gt; lia
      | match goal with |- context [?y <? ?x] => destruct (Z.ltb_spec y x) end; [symmetry; apply zcmp_lt; lia | exfalso; lia]]]).
  symmetry; apply zcmp_eq; lia.
Qed.

Lemma FRRepr_Cmp_eval f g : wf4 f -> wf4 g -> FRRepr_Cmp f g = zcmp (eval4 f) (eval4 g).
Proof.
  intros Hf Hg. destruct f as [a0 a1 a2 a3], g as [b0 b1 b2 b3]. unwf. unfold isW in *.
  unfold FRRepr_Cmp; cbn [cmp_limbs_fr v0 v1 v2 v3]. uneval.
  repeat (match goal with |- context [?y <? ?x] => destruct (Z.ltb_spec y x) end;
      [ symmetry; apply zcmp_gt; lia
      | match goal with |- context [?y <? ?x] => destruct (Z.ltb_spec y x) end; [symmetry; apply zcmp_lt; lia | ]]).
  symmetry; apply zcmp_eq; lia.
Qed.

Lemma FQRepr_Equals_iff f g : FQRepr_Equals f g = true <-> f = g.
Proof.
  unfold FQRepr_Equals. destruct f, g; cbn. rewrite !andb_true_iff, !Z.eqb_eq. intuition congruence.
Qed.
Lemma FRRepr_Equals_iff f g : FRRepr_Equals f g = true <-> f = g.
Proof.
  unfold FRRepr_Equals. destruct f, g; cbn. rewrite !andb_true_iff, !Z.eqb_eq. intuition congruence.
Qed.
Lemma FQRepr_Equals_eval f g : wf6 f -> wf6 g -> (FQRepr_Equals f g = true <-> eval6 f = eval6 g).
Proof.
  intros Hf Hg. rewrite FQRepr_Equals_iff. split; [intros ->; reflexivity|]. apply eval6_inj; assumption.
Qed.
Lemma FRRepr_Equals_eval f g : wf4 f -> wf4 g -> (FRRepr_Equals f g = true <-> eval4 f = eval4 g).
Proof.
  intros Hf Hg. rewrite FRRepr_Equals_iff. split; [intros ->; reflexivity|]. apply eval4_inj; assumption.
Qed.

Lemma FQRepr_IsZero_eval f : wf6 f -> (FQRepr_IsZero f = true <-> eval6 f = 0).
Proof.
  intros Hf. destruct f as [a0 a1 a2 a3 a4 a5]. unwf. unfold isW in *.
  unfold FQRepr_IsZero, FQRepr_slice. uneval. cbn [forallb w0 w1 w2 w3 w4 w5 v0 v1 v2 v3]. rewrite !andb_true_iff, !Z.eqb_eq. split; [intros; lia | intros; repeat split; lia].
Qed.
Lemma FRRepr_IsZero_eval f : wf4 f -> (FRRepr_IsZero f = true <-> eval4 f = 0).
Proof.
  intros Hf. destruct f as [a0 a1 a2 a3]. unwf. unfold isW in *.
  unfold FRRepr_IsZero, FRRepr_slice. uneval. cbn [forallb w0 w1 w2 w3 w4 w5 v0 v1 v2 v3]. rewrite !andb_true_iff, !Z.eqb_eq. split; [intros; lia | intros; repeat split; lia].
Qed.

Lemma wand_1 x : wand x 1 = x mod 2.
Proof. unfold wand. change 1 with (Z.ones 1). rewrite Z.land_ones by lia. reflexivity. Qed.

Lemma evalw_parity x l : (x + W * evalw l) mod 2 = x mod 2.
Proof. replace (x + W * evalw l) with (x + (W / 2 * evalw l) * 2) by (change (W/2) with 9223372036854775808; lia). apply Z.mod_add. lia. Qed.

Lemma Z_odd_mod2 x : (x mod 2 =? 1) = Z.odd x.
Proof. rewrite Zmod_odd. destruct (Z.odd x); reflexivity. Qed.
Lemma Z_even_mod2 x : (x mod 2 =? 0) = Z.even x.
Proof. rewrite Zmod_even. destruct (Z.even x); reflexivity. Qed.

Lemma FQRepr_IsOdd_eval f : FQRepr_IsOdd f = Z.odd (eval6 f).
Proof. unfold FQRepr_IsOdd. rewrite wand_1, <- Z_odd_mod2. rewrite <- (evalw_parity (w0 f) [w1 f; w2 f; w3 f; w4 f; w5 f]). reflexivity. Qed.
Lemma FQRepr_IsEven_eval f : FQRepr_IsEven f = Z.even (eval6 f).
Proof. unfold FQRepr_IsEven. rewrite wand_1, <- Z_even_mod2. rewrite <- (evalw_parity (w0 f) [w1 f; w2 f; w3 f; w4 f; w5 f]). reflexivity. Qed.
Lemma FRRepr_IsOdd_eval f : FRRepr_IsOdd f = Z.odd (eval4 f).
Proof. unfold FRRepr_IsOdd. rewrite wand_1, <- Z_odd_mod2. rewrite <- (evalw_parity (v0 f) [v1 f; v2 f; v3 f]). reflexivity. Qed.
Lemma FRRepr_IsEven_eval f : FRRepr_IsEven f = Z.even (eval4 f).
Proof. unfold FRRepr_IsEven. rewrite wand_1, <- Z_even_mod2. rewrite <- (evalw_parity (v0 f) [v1 f; v2 f; v3 f]). reflexivity. Qed.

(** ** Shifts *)

Lemma wor_0_r x : wor x 0 = x.
Proof. apply Z.lor_0_r. Qed.

Lemma pow_split n : 0 < n < 64 -> W = 2 ^ n * 2 ^ (64 - n) /\ 0 < 2 ^ n /\ 0 < 2 ^ (64 - n).
Proof.
  intros Hn. split.
  - rewrite <- Z.pow_add_r by lia. replace (n + (64 - n)) with 64 by lia. reflexivity.
  - split; apply Z.pow_pos_nonneg; lia.
Qed.

Lemma wshr_div x n : 0 <= n -> wshr x n = x / 2 ^ n.
Proof. intros; unfold wshr; apply Z.shiftr_div_pow2; lia. Qed.

(** One right-shift step over six / four limbs, 0 < n < 64. *)
Lemma rsh_eval6 n a0 a1 a2 a3 a4 a5 : 0 < n < 64 -> isW a0 -> isW a1 -> isW a2 -> isW a3 -> isW a4 -> isW a5 ->
  let f := mkFQRepr (wor (wshr a0 n) (wshl a1 (64 - n))) (wor (wshr a1 n) (wshl a2 (64 - n)))
                    (wor (wshr a2 n) (wshl a3 (64 - n))) (wor (wshr a3 n) (wshl a4 (64 - n)))
                    (wor (wshr a4 n) (wshl a5 (64 - n))) (wor (wshr a5 n) 0) in
  wf6 f /\ eval6 f = eval6 (mkFQRepr a0 a1 a2 a3 a4 a5) / 2 ^ n.
Proof.
  intros Hn H0 H1 H2 H3 H4 H5 f. split.
  { unfold f. apply wf6_intro; apply isW_lor; try apply wshl_isW; try apply isW_0; apply wshr_isW; auto; lia. }
  unfold f. uneval. rewrite !shr_or_shl by assumption. rewrite wor_0_r, wshr_div by lia.
  destruct (pow_split n Hn) as (EW & P1 & P2).
  apply Z.div_unique with (a0 mod 2^n); [left; apply Z.mod_pos_bound; lia|].
  set (p := 2^n) in *. set (s := 2^(64-n)) in *.
  pose proof (Z.div_mod a0 p) as D0. pose proof (Z.div_mod a1 p) as D1. pose proof (Z.div_mod a2 p) as D2.
  pose proof (Z.div_mod a3 p) as D3. pose proof (Z.div_mod a4 p) as D4. pose proof (Z.div_mod a5 p) as D5.
  clearbody p s. clear f H0 H1 H2 H3 H4 H5. revert EW. generalize W. intros W0 EW. subst W0.
  rewrite D0 at 1 by lia. rewrite D1 at 1 by lia. rewrite D2 at 1 by lia. rewrite D3 at 1 by lia. rewrite D4 at 1 by lia. rewrite D5 at 1 by lia. ring.
Qed.

Lemma rsh_eval4 n a0 a1 a2 a3 : 0 < n < 64 -> isW a0 -> isW a1 -> isW a2 -> isW a3 ->
  let f := mkFRRepr (wor (wshr a0 n) (wshl a1 (64 - n))) (wor (wshr a1 n) (wshl a2 (64 - n)))
                    (wor (wshr a2 n) (wshl a3 (64 - n))) (wor (wshr a3 n) 0) in
  wf4 f /\ eval4 f = eval4 (mkFRRepr a0 a1 a2 a3) / 2 ^ n.
Proof.
  intros Hn H0 H1 H2 H3 f. split.
  { unfold f. apply wf4_intro; apply isW_lor; try apply wshl_isW; try apply isW_0; apply wshr_isW; auto; lia. }
  unfold f. uneval. rewrite !shr_or_shl by assumption. rewrite wor_0_r, wshr_div by lia.
  destruct (pow_split n Hn) as (EW & P1 & P2).
  apply Z.div_unique with (a0 mod 2^n); [left; apply Z.mod_pos_bound; lia|].
  set (p := 2^n) in *. set (s := 2^(64-n)) in *.
  pose proof (Z.div_mod a0 p) as D0. pose proof (Z.div_mod a1 p) as D1. pose proof (Z.div_mod a2 p) as D2.
  pose proof (Z.div_mod a3 p) as D3.
  clearbody p s. clear f H0 H1 H2 H3. revert EW. generalize W. intros W0 EW. subst W0.
  rewrite D0 at 1 by lia. rewrite D1 at 1 by lia. rewrite D2 at 1 by lia. rewrite D3 at 1 by lia. ring.
Qed.

(** One left-shift step, 0 < n < 64. *)
Lemma lsh_eval6 n a0 a1 a2 a3 a4 a5 : 0 < n < 64 -> isW a0 -> isW a1 -> isW a2 -> isW a3 -> isW a4 -> isW a5 ->
  let f := mkFQRepr (wor (wshl a0 n) 0) (wor (wshl a1 n) (wshr a0 (64 - n)))
                    (wor (wshl a2 n) (wshr a1 (64 - n))) (wor (wshl a3 n) (wshr a2 (64 - n)))
                    (wor (wshl a4 n) (wshr a3 (64 - n))) (wor (wshl a5 n) (wshr a4 (64 - n))) in
  wf6 f /\ eval6 f = (eval6 (mkFQRepr a0 a1 a2 a3 a4 a5) * 2 ^ n) mod 2 ^ 384.
Proof.
  intros Hn H0 H1 H2 H3 H4 H5 f.
  assert (wf6 f) as Hwf.
  { unfold f. apply wf6_intro; apply isW_lor; try apply wshl_isW; try apply isW_0; apply wshr_isW; auto; lia. }
  split; [exact Hwf|].
  apply eval6_bound in Hwf. apply Z.mod_unique with (a5 / 2^(64-n)); [left; exact Hwf|].
  clear Hwf. unfold f. clear f. change (2^384) with (W*W*W*W*W*W). uneval.
  pose proof (shl_or_shr a0 0 n Hn H0 isW_0) as S0.
  pose proof (shl_or_shr a1 a0 n Hn H1 H0) as S1.
  pose proof (shl_or_shr a2 a1 n Hn H2 H1) as S2.
  pose proof (shl_or_shr a3 a2 n Hn H3 H2) as S3.
  pose proof (shl_or_shr a4 a3 n Hn H4 H3) as S4.
  pose proof (shl_or_shr a5 a4 n Hn H5 H4) as S5.
  rewrite (wshr_div 0) in S0 by lia. rewrite Z.div_0_l in S0 by (destruct (pow_split n Hn); lia).
  clear H0 H1 H2 H3 H4 H5 Hn.
  repeat match goal with S : ?x + W * ?y = ?z |- _ => assert (x = z - W * y) as -> by lia; clear S end.
  ring.
Qed.

Lemma lsh_eval4 n a0 a1 a2 a3 : 0 < n < 64 -> isW a0 -> isW a1 -> isW a2 -> isW a3 ->
  let f := mkFRRepr (wor (wshl a0 n) 0) (wor (wshl a1 n) (wshr a0 (64 - n)))
                    (wor (wshl a2 n) (wshr a1 (64 - n))) (wor (wshl a3 n) (wshr a2 (64 - n))) in
  wf4 f /\ eval4 f = (eval4 (mkFRRepr a0 a1 a2 a3) * 2 ^ n) mod 2 ^ 256.
Proof.
  intros Hn H0 H1 H2 H3 f.
  assert (wf4 f) as Hwf.
  { unfold f. apply wf4_intro; apply isW_lor; try apply wshl_isW; try apply isW_0; apply wshr_isW; auto; lia. }
  split; [exact Hwf|].
  apply eval4_bound in Hwf. apply Z.mod_unique with (a3 / 2^(64-n)); [left; exact Hwf|].
  clear Hwf. unfold f. clear f. change (2^256) with (W*W*W*W). uneval.
  pose proof (shl_or_shr a0 0 n Hn H0 isW_0) as S0.
  pose proof (shl_or_shr a1 a0 n Hn H1 H0) as S1.
  pose proof (shl_or_shr a2 a1 n Hn H2 H1) as S2.
  pose proof (shl_or_shr a3 a2 n Hn H3 H2) as S3.
  rewrite (wshr_div 0) in S0 by lia. rewrite Z.div_0_l in S0 by (destruct (pow_split n Hn); lia).
  clear H0 H1 H2 H3 Hn.
  repeat match goal with S : ?x + W * ?y = ?z |- _ => assert (x = z - W * y) as -> by lia; clear S end.
  ring.
Qed.

Lemma FQRepr_Div2_spec f : wf6 f -> wf6 (FQRepr_Div2 f) /\ eval6 (FQRepr_Div2 f) = eval6 f / 2.
Proof. destruct f as [a0 a1 a2 a3 a4 a5]. intros H. unwf. apply (rsh_eval6 1); auto; lia. Qed.
Lemma FRRepr_Div2_spec f : wf4 f -> wf4 (FRRepr_Div2 f) /\ eval4 (FRRepr_Div2 f) = eval4 f / 2.
Proof. destruct f as [a0 a1 a2 a3]. intros H. unwf. apply (rsh_eval4 1); auto; lia. Qed.
Lemma FQRepr_Mul2_spec f : wf6 f -> wf6 (FQRepr_Mul2 f) /\ eval6 (FQRepr_Mul2 f) = (eval6 f * 2) mod 2 ^ 384.
Proof. destruct f as [a0 a1 a2 a3 a4 a5]. intros H. unwf. apply (lsh_eval6 1); auto; lia. Qed.
Lemma FRRepr_Mul2_spec f : wf4 f -> wf4 (FRRepr_Mul2 f) /\ eval4 (FRRepr_Mul2 f) = (eval4 f * 2) mod 2 ^ 256.
Proof. destruct f as [a0 a1 a2 a3]. intros H. unwf. apply (lsh_eval4 1); auto; lia. Qed.

Lemma wf6_0 : wf6 (mkFQRepr 0 0 0 0 0 0).
Proof. apply wf6_intro; apply isW_0. Qed.
Lemma wf4_0 : wf4 (mkFRRepr 0 0 0 0).
Proof. apply wf4_intro; apply isW_0. Qed.

Lemma FQRepr_Rsh_words_spec k : forall f n f' n', wf6 f -> 0 <= n < 64 * (Z.of_nat k + 1) -> FQRepr_Rsh_words k f n = (f', n') ->
  wf6 f' /\ 0 <= n' < 64 /\ eval6 f' / 2 ^ n' = eval6 f / 2 ^ n.
Proof.
  induction k as [|k IH]; intros f n f' n' Hf Hn E; cbn in E.
  - inversion E; subst. split; [assumption|split; [lia|reflexivity]].
  - destruct (Z.leb_spec 64 n); [|inversion E; subst; split; [assumption|split; [lia|reflexivity]]].
    destruct f as [a0 a1 a2 a3 a4 a5]; cbn [w0 w1 w2 w3 w4 w5] in E.
    pose proof Hf as Hf0. unwf.
    apply IH in E; [|apply wf6_intro; auto; apply isW_0|lia].
    destruct E as (? & ? & E). split; [assumption|split; [assumption|]]. rewrite E.
    replace (2^n) with (2^64 * 2^(n-64)) by (rewrite <- Z.pow_add_r by lia; f_equal; lia).
    rewrite <- Z.div_div by (try apply Z.pow_pos_nonneg; lia).
    f_equal. uneval. change (2^64) with W. unfold isW in *. apply Z.div_unique with a0; [left; lia|lia].
Qed.

Lemma FQRepr_Rsh_spec f n : wf6 f -> 0 <= n -> wf6 (FQRepr_Rsh f n) /\ eval6 (FQRepr_Rsh f n) = eval6 f / 2 ^ n.
Proof.
  intros Hf Hn. unfold FQRepr_Rsh. destruct (Z.leb_spec (64 * 6) n).
  - split; [apply wf6_0|]. change (eval6 (mkFQRepr 0 0 0 0 0 0)) with 0.
    symmetry. apply Z.div_small. pose proof (eval6_bound f Hf).
    assert (2^384 <= 2^n) by (apply Z.pow_le_mono_r; lia). lia.
  - destruct (FQRepr_Rsh_words 6 f n) as [f' n'] eqn:E. apply FQRepr_Rsh_words_spec in E; [|assumption|lia].
    destruct E as (Hf' & Hn' & E). rewrite <- E.
    destruct (Z.ltb_spec 0 n').
    + destruct f' as [a0 a1 a2 a3 a4 a5]. unwf. cbn [w0 w1 w2 w3 w4 w5]. apply (rsh_eval6 n'); auto; lia.
    + replace n' with 0 by lia. rewrite Z.pow_0_r, Z.div_1_r. auto.
Qed.

Lemma FRRepr_Rsh_words_spec k : forall f n f' n', wf4 f -> 0 <= n < 64 * (Z.of_nat k + 1) -> FRRepr_Rsh_words k f n = (f', n') ->
  wf4 f' /\ 0 <= n' < 64 /\ eval4 f' / 2 ^ n' = eval4 f / 2 ^ n.
Proof.
  induction k as [|k IH]; intros f n f' n' Hf Hn E; cbn in E.
  - inversion E; subst. split; [assumption|split; [lia|reflexivity]].
  - destruct (Z.leb_spec 64 n); [|inversion E; subst; split; [assumption|split; [lia|reflexivity]]].
    destruct f as [a0 a1 a2 a3]; cbn [v0 v1 v2 v3] in E.
    pose proof Hf as Hf0. unwf.
    apply IH in E; [|apply wf4_intro; auto; apply isW_0|lia].
    destruct E as (? & ? & E). split; [assumption|split; [assumption|]]. rewrite E.
    replace (2^n) with (2^64 * 2^(n-64)) by (rewrite <- Z.pow_add_r by lia; f_equal; lia).
    rewrite <- Z.div_div by (try apply Z.pow_pos_nonneg; lia).
    f_equal. uneval. change (2^64) with W. unfold isW in *. apply Z.div_unique with a0; [left; lia|lia].
Qed.

Lemma FRRepr_Rsh_spec f n : wf4 f -> 0 <= n -> wf4 (FRRepr_Rsh f n) /\ eval4 (FRRepr_Rsh f n) = eval4 f / 2 ^ n.
Proof.
  intros Hf Hn. unfold FRRepr_Rsh. destruct (Z.leb_spec (64 * 4) n).
  - split; [apply wf4_0|]. change (eval4 (NewFRRepr 0)) with 0.
    symmetry. apply Z.div_small. pose proof (eval4_bound f Hf).
    assert (2^256 <= 2^n) by (apply Z.pow_le_mono_r; lia). lia.
  - destruct (FRRepr_Rsh_words 4 f n) as [f' n'] eqn:E. apply FRRepr_Rsh_words_spec in E; [|assumption|lia].
    destruct E as (Hf' & Hn' & E). rewrite <- E.
    destruct (Z.ltb_spec 0 n').
    + destruct f' as [a0 a1 a2 a3]. unwf. cbn [v0 v1 v2 v3]. apply (rsh_eval4 n'); auto; lia.
    + replace n' with 0 by lia. rewrite Z.pow_0_r, Z.div_1_r. auto.
Qed.

Lemma FQRepr_Lsh_words_spec k : forall f n f' n', wf6 f -> 0 <= n < 64 * (Z.of_nat k + 1) -> FQRepr_Lsh_words k f n = (f', n') ->
  wf6 f' /\ 0 <= n' < 64 /\ (eval6 f' * 2 ^ n') mod 2 ^ 384 = (eval6 f * 2 ^ n) mod 2 ^ 384.
Proof.
  induction k as [|k IH]; intros f n f' n' Hf Hn E; cbn in E.
  - inversion E; subst. split; [assumption|split; [lia|reflexivity]].
  - destruct (Z.leb_spec 64 n); [|inversion E; subst; split; [assumption|split; [lia|reflexivity]]].
    destruct f as [a0 a1 a2 a3 a4 a5]; cbn [w0 w1 w2 w3 w4 w5] in E.
    pose proof Hf as Hf0. unwf.
    apply IH in E; [|apply wf6_intro; auto; apply isW_0|lia].
    destruct E as (? & ? & E). split; [assumption|split; [assumption|]]. rewrite E.
    replace (2^n) with (2^64 * 2^(n-64)) by (rewrite <- Z.pow_add_r by lia; f_equal; lia).
    set (x := 2^(n-64)).
    replace (eval6 (mkFQRepr a0 a1 a2 a3 a4 a5) * (2^64 * x)) with (eval6 (mkFQRepr 0 a0 a1 a2 a3 a4) * x + (a5 * x) * 2^384).
    + symmetry. apply Z.mod_add. lia.
    + uneval. change (2^64) with W. change (2^384) with (W*W*W*W*W*W). ring.
Qed.

Lemma FQRepr_Lsh_spec f n : wf6 f -> 0 <= n -> wf6 (FQRepr_Lsh f n) /\ eval6 (FQRepr_Lsh f n) = (eval6 f * 2 ^ n) mod 2 ^ 384.
Proof.
  intros Hf Hn. unfold FQRepr_Lsh. destruct (Z.leb_spec (64 * 6) n).
  - split; [apply wf6_0|]. change (eval6 (mkFQRepr 0 0 0 0 0 0)) with 0.
    replace n with (384 + (n - 384)) by lia. rewrite Z.pow_add_r by lia.
    replace (eval6 f * (2^384 * 2^(n-384))) with ((eval6 f * 2^(n-384)) * 2^384) by ring.
    symmetry. apply Z.mod_mul. lia.
  - destruct (FQRepr_Lsh_words 6 f n) as [f' n'] eqn:E. apply FQRepr_Lsh_words_spec in E; [|assumption|lia].
    destruct E as (Hf' & Hn' & E). rewrite <- E.
    destruct (Z.ltb_spec 0 n').
    + destruct f' as [a0 a1 a2 a3 a4 a5]. unwf. cbn [w0 w1 w2 w3 w4 w5]. apply (lsh_eval6 n'); auto; lia.
    + replace n' with 0 by lia. rewrite Z.pow_0_r, Z.mul_1_r. split; [auto|]. symmetry. apply Z.mod_small. apply eval6_bound; auto.
Qed.

Lemma FRRepr_Lsh_words_spec k : forall f n f' n', wf4 f -> 0 <= n < 64 * (Z.of_nat k + 1) -> FRRepr_Lsh_words k f n = (f', n') ->
  wf4 f' /\ 0 <= n' < 64 /\ (eval4 f' * 2 ^ n') mod 2 ^ 256 = (eval4 f * 2 ^ n) mod 2 ^ 256.
Proof.
  induction k as [|k IH]; intros f n f' n' Hf Hn E; cbn in E.
  - inversion E; subst. split; [assumption|split; [lia|reflexivity]].
  - destruct (Z.leb_spec 64 n); [|inversion E; subst; split; [assumption|split; [lia|reflexivity]]].
    destruct f as [a0 a1 a2 a3]; cbn [v0 v1 v2 v3] in E.
    pose proof Hf as Hf0. unwf.
    apply IH in E; [|apply wf4_intro; auto; apply isW_0|lia].
    destruct E as (? & ? & E). split; [assumption|split; [assumption|]]. rewrite E.
    replace (2^n) with (2^64 * 2^(n-64)) by (rewrite <- Z.pow_add_r by lia; f_equal; lia).
    set (x := 2^(n-64)).
    replace (eval4 (mkFRRepr a0 a1 a2 a3) * (2^64 * x)) with (eval4 (mkFRRepr 0 a0 a1 a2) * x + (a3 * x) * 2^256).
    + symmetry. apply Z.mod_add. lia.
    + uneval. change (2^64) with W. change (2^256) with (W*W*W*W). ring.
Qed.

Lemma FRRepr_Lsh_spec f n : wf4 f -> 0 <= n -> wf4 (FRRepr_Lsh f n) /\ eval4 (FRRepr_Lsh f n) = (eval4 f * 2 ^ n) mod 2 ^ 256.
Proof.
  intros Hf Hn. unfold FRRepr_Lsh. destruct (Z.leb_spec (64 * 4) n).
  - split; [apply wf4_0|]. change (eval4 (NewFRRepr 0)) with 0.
    replace n with (256 + (n - 256)) by lia. rewrite Z.pow_add_r by lia.
    replace (eval4 f * (2^256 * 2^(n-256))) with ((eval4 f * 2^(n-256)) * 2^256) by ring.
    symmetry. apply Z.mod_mul. lia.
  - destruct (FRRepr_Lsh_words 4 f n) as [f' n'] eqn:E. apply FRRepr_Lsh_words_spec in E; [|assumption|lia].
    destruct E as (Hf' & Hn' & E). rewrite <- E.
    destruct (Z.ltb_spec 0 n').
    + destruct f' as [a0 a1 a2 a3]. unwf. cbn [v0 v1 v2 v3]. apply (lsh_eval4 n'); auto; lia.
    + replace n' with 0 by lia. rewrite Z.pow_0_r, Z.mul_1_r. split; [auto|]. symmetry. apply Z.mod_small. apply eval4_bound; auto.
Qed.

(** ** Bits *)

Lemma testbit_evalw l : Forall isW l -> forall n, 0 <= n ->
  Z.testbit (evalw l) n = Z.testbit (nth (Z.to_nat (n / 64)) l 0) (n mod 64).
Proof.
  induction 1 as [|x l Hx Hl IH]; intros n Hn.
  - cbn [evalw]. rewrite Z.bits_0. destruct (Z.to_nat (n/64)); cbn [nth]; symmetry; apply Z.bits_0.
  - cbn [evalw]. destruct (Z.lt_ge_cases n 64).
    + rewrite Z.div_small, Z.mod_small by lia. cbn [nth Z.to_nat].
      rewrite <- (Z.mod_pow2_bits_low _ 64) by lia. change (2^64) with W.
      rewrite (Z.mul_comm W), Z.mod_add by lia. rewrite Z.mod_small by exact Hx. reflexivity.
    + replace n with ((n - 64) + 64) at 1 by lia. rewrite <- Z.div_pow2_bits by lia. change (2^64) with W.
      rewrite (Z.mul_comm W), Z.div_add by lia. rewrite Z.div_small by exact Hx. rewrite Z.add_0_l.
      rewrite IH by lia. replace n with ((n - 64) + 1 * 64) at 3 4 by lia.
      rewrite Z.div_add, Z.mod_add by lia.
      replace (Z.to_nat ((n - 64)/64 + 1)) with (S (Z.to_nat ((n-64)/64))) by (assert (0 <= (n-64)/64) by (apply Z.div_pos; lia); lia).
      reflexivity.
Qed.

Lemma land_pow2 x b : 0 <= b -> Z.land x (2 ^ b) = if Z.testbit x b then 2 ^ b else 0.
Proof.
  intros Hb. apply Z.bits_inj'. intros i Hi. rewrite Z.land_spec.
  destruct (Z.eq_dec i b) as [->|Hne].
  - rewrite Z.pow2_bits_true by lia. rewrite andb_true_r. destruct (Z.testbit x b) eqn:E; [symmetry; apply Z.pow2_bits_true; lia|symmetry; apply Z.bits_0].
  - rewrite Z.pow2_bits_false by lia. rewrite andb_false_r. destruct (Z.testbit x b); [symmetry; apply Z.pow2_bits_false; lia|symmetry; apply Z.bits_0].
Qed.

Lemma wshl_1 b : 0 <= b < 64 -> wshl 1 b = 2 ^ b.
Proof.
  intros Hb. unfold wshl. rewrite Z.shiftl_mul_pow2 by lia. rewrite Z.mul_1_l. apply wlo_small.
  unfold isW. change W with (2^64). split; [apply Z.pow_nonneg; lia| apply Z.pow_lt_mono_r; lia].
Qed.

Lemma wand_bit x b : 0 <= b < 64 -> wand x (wshl 1 b) = if Z.testbit x b then 2 ^ b else 0.
Proof. intros. rewrite wshl_1 by lia. apply land_pow2. lia. Qed.

Lemma FQRepr_Bit_spec f n : wf6 f -> 0 <= n -> FQRepr_Bit f n = if n <? 384 then Some (Z.testbit (eval6 f) n) else None.
Proof.
  intros Hf Hn. unfold FQRepr_Bit.
  pose proof (Z.mod_pos_bound n 64 ltac:(lia)). pose proof (Z.div_mod n 64 ltac:(lia)).
  assert (0 <= n/64) by (apply Z.div_pos; lia).
  destruct (nth_error (FQRepr_slice f) (Z.to_nat (n/64))) eqn:E.
  - assert (Z.to_nat (n/64) < 6)%nat by (apply (proj1 (nth_error_Some (FQRepr_slice f) _)); congruence).
    destruct (Z.ltb_spec n 384); [|lia]. f_equal.
    unfold eval6. rewrite testbit_evalw by assumption. rewrite (nth_error_nth _ _ 0 E).
    rewrite wand_bit by lia. destruct (Z.testbit z (n mod 64)); [|reflexivity].
    assert (0 < 2^(n mod 64)) by (apply Z.pow_pos_nonneg; lia).
    destruct (Z.eqb_spec (2^(n mod 64)) 0); [lia|reflexivity].
  - apply nth_error_None in E. cbn in E. destruct (Z.ltb_spec n 384); [lia|reflexivity].
Qed.

Lemma FRRepr_Bit_spec f n : wf4 f -> 0 <= n -> FRRepr_Bit f n = if n <? 256 then Some (Z.testbit (eval4 f) n) else None.
Proof.
  intros Hf Hn. unfold FRRepr_Bit.
  pose proof (Z.mod_pos_bound n 64 ltac:(lia)). pose proof (Z.div_mod n 64 ltac:(lia)).
  assert (0 <= n/64) by (apply Z.div_pos; lia).
  destruct (nth_error (FRRepr_slice f) (Z.to_nat (n/64))) eqn:E.
  - assert (Z.to_nat (n/64) < 4)%nat by (apply (proj1 (nth_error_Some (FRRepr_slice f) _)); congruence).
    destruct (Z.ltb_spec n 256); [|lia]. f_equal.
    unfold eval4. rewrite testbit_evalw by assumption. rewrite (nth_error_nth _ _ 0 E).
    rewrite wand_bit by lia. destruct (Z.testbit z (n mod 64)); [|reflexivity].
    assert (0 < 2^(n mod 64)) by (apply Z.pow_pos_nonneg; lia).
    destruct (Z.eqb_spec (2^(n mod 64)) 0); [lia|reflexivity].
  - apply nth_error_None in E. cbn in E. destruct (Z.ltb_spec n 256); [lia|reflexivity].
Qed.

Lemma evalw_app l1 l2 : evalw (l1 ++ l2) = evalw l1 + 2 ^ (64 * Z.of_nat (length l1)) * evalw l2.
Proof.
  induction l1 as [|x l IH]; [cbn; destruct (evalw l2); reflexivity|].
  cbn [app evalw length]. rewrite IH, Nat2Z.inj_succ, Z.mul_succ_r, Z.add_comm with (m := 64), Z.pow_add_r by lia.
  change (2^64) with W. ring.
Qed.

Lemma bitlen_bounds x : 0 < x -> 2 ^ (bitlen x - 1) <= x < 2 ^ bitlen x.
Proof.
  intros H. unfold bitlen. destruct (Z.eqb_spec x 0); [lia|].
  replace (Z.log2 x + 1 - 1) with (Z.log2 x) by lia. apply Z.log2_spec in H.
  replace (Z.log2 x + 1) with (Z.succ (Z.log2 x)) by lia. exact H.
Qed.

Lemma bitlen_unique x n : 1 <= n -> 2 ^ (n - 1) <= x < 2 ^ n -> bitlen x = n.
Proof.
  intros Hn H. assert (0 < 2^(n-1)) by (apply Z.pow_pos_nonneg; lia).
  unfold bitlen. destruct (Z.eqb_spec x 0); [lia|].
  rewrite (Z.log2_unique x (n - 1)); [lia|lia|]. replace (Z.succ (n-1)) with n by lia. exact H.
Qed.

Lemma bitlen_pos x : 0 < x -> 1 <= bitlen x.
Proof. intros. unfold bitlen. destruct (Z.eqb_spec x 0); [lia|]. pose proof (Z.log2_nonneg x). lia. Qed.

Lemma bitlen_le x n : 0 <= n -> 0 <= x -> (bitlen x <= n <-> x < 2 ^ n).
Proof.
  intros Hn Hx. unfold bitlen. destruct (Z.eqb_spec x 0) as [->|].
  - split; intros; [apply Z.pow_pos_nonneg; lia|lia].
  - split; intros.
    + apply Z.log2_lt_pow2; lia.
    + apply Z.log2_lt_pow2 in H; lia.
Qed.

Lemma bitlen_shift x y k : 0 < x -> 0 <= k -> 0 <= y < 2 ^ k -> bitlen (y + 2 ^ k * x) = bitlen x + k.
Proof.
  intros Hx Hk Hy. pose proof (bitlen_bounds x Hx) as Hb. pose proof (bitlen_pos x Hx).
  apply bitlen_unique; [lia|].
  replace (bitlen x + k - 1) with (bitlen x - 1 + k) by lia. rewrite !Z.pow_add_r by lia. nia.
Qed.

Lemma bitlen_limbs_spec l : Forall isW l -> bitlen_limbs (Z.of_nat (length l) * 64) l = bitlen (evalw (rev l)).
Proof.
  induction 1 as [|x l Hx Hl IH]; [reflexivity|].
  cbn [bitlen_limbs length rev]. rewrite evalw_app, rev_length. cbn [evalw].
  pose proof (evalw_bound (rev l) (proj2 (Forall_rev_iff _ _) Hl)) as Hb || pose proof (evalw_bound (rev l) (Forall_rev Hl)) as Hb.
  rewrite rev_length in Hb. unfold LeadingZeros64.
  destruct (Z.eq_dec x 0) as [->|Hx0].
  - change (bitlen 0) with 0. change (negb (64 - 0 =? 64)) with false. cbv iota.
    replace (Z.of_nat (S (length l)) * 64 - (64 - 0)) with (Z.of_nat (length l) * 64) by lia.
    rewrite IH. f_equal. lia.
  - pose proof (bitlen_pos x ltac:(unfold isW in Hx; lia)).
    destruct (Z.eqb_spec (64 - bitlen x) 64); [lia|]. cbn [negb].
    rewrite Z.mul_0_r, Z.add_0_r, bitlen_shift; [lia|unfold isW in Hx; lia|lia|exact Hb].
Qed.

Lemma FQRepr_BitLen_spec f : wf6 f -> FQRepr_BitLen f = bitlen (eval6 f).
Proof.
  intros H. unfold FQRepr_BitLen, eval6. rewrite <- (rev_involutive (FQRepr_slice f)) at 2.
  rewrite <- bitlen_limbs_spec; [reflexivity|]. apply Forall_rev. exact H.
Qed.
Lemma FRRepr_BitLen_spec f : wf4 f -> FRRepr_BitLen f = bitlen (eval4 f).
Proof.
  intros H. unfold FRRepr_BitLen, eval4. rewrite <- (rev_involutive (FRRepr_slice f)) at 2.
  rewrite <- bitlen_limbs_spec; [reflexivity|]. apply Forall_rev. exact H.
Qed.

(** ** Bit iterator *)

(** The bits of x from position n-1 down to 0. *)
Fixpoint msb_bits (n : nat) (x : Z) : list bool :=
  match n with O => [] | S k => Z.testbit x (Z.of_nat k) :: msb_bits k x end.

Lemma BitIterator_Next_spec arr n : Forall isW arr -> 0 < n <= Z.of_nat (length arr) * 64 ->
  BitIterator_Next (mkBI arr n) = ((Z.testbit (evalw arr) (n - 1), false), mkBI arr (n - 1)).
Proof.
  intros Ha Hn. unfold BitIterator_Next; cbn [bi_n bi_arr].
  destruct (Z.eqb_spec n 0); [lia|]. do 2 f_equal.
  rewrite testbit_evalw by (assumption || lia).
  replace (n - 1 - (n - 1) / 64 * 64) with ((n - 1) mod 64) by (pose proof (Z.div_mod (n-1) 64); lia).
  pose proof (Z.mod_pos_bound (n-1) 64 ltac:(lia)).
  rewrite wand_bit by lia. destruct (Z.testbit _ _); [|reflexivity].
  assert (0 < 2^((n-1) mod 64)) by (apply Z.pow_pos_nonneg; lia).
  destruct (Z.ltb_spec 0 (2^((n-1) mod 64))); [reflexivity|lia].
Qed.

Lemma BitIterator_Next_done arr : BitIterator_Next (mkBI arr 0) = ((false, true), mkBI arr 0).
Proof. reflexivity. Qed.

Lemma bits_loop_spec {S : Type} (body : bool -> S -> S) arr : Forall isW arr ->
  forall n fuel s, (n <= length arr * 64)%nat -> (n < fuel)%nat ->
  bits_loop body fuel (mkBI arr (Z.of_nat n)) s = fold_left (fun s b => body b s) (msb_bits n (evalw arr)) s.
Proof.
  intros Ha. induction n as [|n IH]; intros fuel s Hn Hf; (destruct fuel as [|fuel]; [lia|]); cbn [bits_loop].
  - rewrite BitIterator_Next_done. reflexivity.
  - rewrite BitIterator_Next_spec by (assumption || lia). cbn [msb_bits fold_left].
    replace (Z.of_nat (Datatypes.S n) - 1) with (Z.of_nat n) by lia. apply IH; lia.
Qed.

Lemma for_bits_spec {S : Type} arr (body : bool -> S -> S) s : Forall isW arr ->
  for_bits arr body s = fold_left (fun s b => body b s) (msb_bits (64 * length arr) (evalw arr)) s.
Proof.
  intros Ha. unfold for_bits, NewBitIterator.
  replace (Z.of_nat (length arr) * 64) with (Z.of_nat (64 * length arr)) by lia.
  apply bits_loop_spec; auto; lia.
Qed.

(** State of the iterator after k calls. *)
Fixpoint bi_after (k : nat) (bi : BitIterator) : BitIterator :=
  match k with O => bi | S j => snd (BitIterator_Next (bi_after j bi)) end.

Lemma bi_after_spec arr : Forall isW arr -> forall k,
  bi_after k (NewBitIterator arr) = mkBI arr (Z.max 0 (Z.of_nat (length arr) * 64 - Z.of_nat k)).
Proof.
  intros Ha. induction k as [|k IH]; cbn [bi_after].
  - unfold NewBitIterator. f_equal. lia.
  - rewrite IH. destruct (Z.le_gt_cases (Z.of_nat (length arr) * 64 - Z.of_nat k) 0).
    + rewrite Z.max_l by lia. rewrite BitIterator_Next_done. cbn. f_equal. lia.
    + rewrite Z.max_r by lia. rewrite BitIterator_Next_spec by (assumption || lia). cbn [snd]. f_equal. lia.
Qed.

(** ** Bytes *)

Definition isByte (b : Z) : Prop := 0 <= b < 256.

(** Big-endian value of a byte string. *)
Definition be_value (l : list Z) : Z := fold_left (fun a b => a * 256 + b) l 0.

Lemma be_value_app_acc l : forall a, fold_left (fun a b => a * 256 + b) l a = a * 256 ^ Z.of_nat (length l) + be_value l.
Proof.
  unfold be_value. induction l as [|x l IH]; intros a; [cbn; lia|].
  cbn [fold_left length]. rewrite IH. rewrite (IH (0 * 256 + x)). rewrite Nat2Z.inj_succ, Z.pow_succ_r by lia. ring.
Qed.
Lemma be_value_app l1 l2 : be_value (l1 ++ l2) = be_value l1 * 256 ^ Z.of_nat (length l2) + be_value l2.
Proof. unfold be_value at 1. rewrite fold_left_app. apply be_value_app_acc. Qed.

Lemma be_value_bound l : Forall isByte l -> 0 <= be_value l < 256 ^ Z.of_nat (length l).
Proof.
  induction 1 as [|x l Hx Hl IH]; [cbn; lia|].
  change (x :: l) with ([x] ++ l). rewrite be_value_app, app_length. cbn [length plus].
  rewrite Nat2Z.inj_succ, Z.pow_succ_r by lia. change (be_value [x]) with (0 * 256 + x). unfold isByte in Hx. nia.
Qed.

Lemma be_value_inj l : forall l', Forall isByte l -> Forall isByte l' -> length l = length l' -> be_value l = be_value l' -> l = l'.
Proof.
  induction l as [|x l IH]; intros [|y l'] H H' L E; try discriminate; [reflexivity|].
  inversion_clear H. inversion_clear H'.
  change (x :: l) with ([x] ++ l) in E. change (y :: l') with ([y] ++ l') in E. rewrite !be_value_app in E.
  pose proof (be_value_bound l H1). pose proof (be_value_bound l' H2). injection L as L. rewrite L in *.
  change (be_value [x]) with (0 * 256 + x) in E. change (be_value [y]) with (0 * 256 + y) in E.
  assert (x = y) by nia. subst. f_equal. apply IH; auto. nia.
Qed.

Lemma wand_255 x s : 0 <= s -> wand (wshr x s) 255 = (x / 2 ^ s) mod 256.
Proof. intros. unfold wand. change 255 with (Z.ones 8). rewrite Z.land_ones by lia. rewrite wshr_div by lia. reflexivity. Qed.

Lemma be_put64_length v : length (be_put64 v) = 8%nat.
Proof. reflexivity. Qed.
Lemma be_put64_bytes v : Forall isByte (be_put64 v).
Proof. unfold be_put64. apply Forall_forall. intros x Hx. apply in_map_iff in Hx. destruct Hx as (s & <- & Hs).
  cbn in Hs. assert (0 <= s) by lia. rewrite wand_255 by lia. apply Z.mod_pos_bound; lia. Qed.

Lemma div_step v s : 0 <= s -> v / 2 ^ s = 256 * (v / 2 ^ (s + 8)) + (v / 2 ^ s) mod 256.
Proof.
  intros Hs. rewrite Z.pow_add_r by lia. assert (0 < 2^s) by (apply Z.pow_pos_nonneg; lia).
  rewrite <- Z.div_div by lia. pose proof (Z.div_mod (v/2^s) 256). change (2^8) with 256. lia.
Qed.

Lemma be_put64_value v : isW v -> be_value (be_put64 v) = v.
Proof.
  intros Hv. unfold be_put64, be_value. cbn [map fold_left]. rewrite !wand_255 by lia.
  pose proof (div_step v 0 ltac:(lia)). pose proof (div_step v 8 ltac:(lia)). pose proof (div_step v 16 ltac:(lia)).
  pose proof (div_step v 24 ltac:(lia)). pose proof (div_step v 32 ltac:(lia)). pose proof (div_step v 40 ltac:(lia)).
  pose proof (div_step v 48 ltac:(lia)). pose proof (div_step v 56 ltac:(lia)).
  assert (v / 2^(56+8) = 0) by (apply Z.div_small; exact Hv).
  cbn [Z.add Pos.add Pos.succ] in *. change (v / 2^0) with (v / 1) in *. rewrite Z.div_1_r in *. lia.
Qed.

Lemma be_uint64_app l1 l2 : length l1 = 8%nat -> be_uint64 (l1 ++ l2) = be_value l1.
Proof. intros H. unfold be_uint64. rewrite <- H, firstn_app, Nat.sub_diag, firstn_all. cbn. rewrite app_nil_r. reflexivity. Qed.

Lemma skipn_app_exact {A} n (l1 l2 : list A) : length l1 = n -> skipn n (l1 ++ l2) = l2.
Proof. intros <-. rewrite skipn_app, Nat.sub_diag, skipn_all. reflexivity. Qed.

Lemma skipn_app_more {A} n m (l1 l2 : list A) : length l1 = n -> skipn (n + m) (l1 ++ l2) = skipn m l2.
Proof. intros <-. rewrite skipn_app, skipn_all2 by lia. replace (length l1 + m - length l1)%nat with m by lia. reflexivity. Qed.

Lemma split8 (l : list Z) k : length l = (8 + k)%nat -> exists l1 l2, l = l1 ++ l2 /\ length l1 = 8%nat /\ length l2 = k.
Proof. intros H. exists (firstn 8 l), (skipn 8 l). rewrite firstn_skipn, firstn_length, skipn_length. repeat split; lia. Qed.

Lemma be_value_isW l : length l = 8%nat -> Forall isByte l -> isW (be_value l).
Proof. intros H Hl. apply be_value_bound in Hl. rewrite H in Hl. exact Hl. Qed.

Ltac skipn8 := 
  rewrite ?(skipn_app_more 8 40), ?(skipn_app_more 8 32), ?(skipn_app_more 8 24), ?(skipn_app_more 8 16), ?(skipn_app_more 8 8) by assumption.

Lemma FQReprFromBytes_app l0 l1 l2 l3 l4 l5 :
  length l0 = 8%nat -> length l1 = 8%nat -> length l2 = 8%nat -> length l3 = 8%nat -> length l4 = 8%nat -> length l5 = 8%nat ->
  FQReprFromBytes (l0 ++ l1 ++ l2 ++ l3 ++ l4 ++ l5) =
  mkFQRepr (be_value l5) (be_value l4) (be_value l3) (be_value l2) (be_value l1) (be_value l0).
Proof.
  intros H0 H1 H2 H3 H4 H5. unfold FQReprFromBytes.
  assert (forall a b : list Z, length a = 8%nat -> skipn 16 (a ++ b) = skipn 8 b) as K16 by (intros; apply (skipn_app_more 8 8); auto).
  assert (forall a b : list Z, length a = 8%nat -> skipn 24 (a ++ b) = skipn 16 b) as K24 by (intros; apply (skipn_app_more 8 16); auto).
  assert (forall a b : list Z, length a = 8%nat -> skipn 32 (a ++ b) = skipn 24 b) as K32 by (intros; apply (skipn_app_more 8 24); auto).
  assert (forall a b : list Z, length a = 8%nat -> skipn 40 (a ++ b) = skipn 32 b) as K40 by (intros; apply (skipn_app_more 8 32); auto).
  assert (forall a b : list Z, length a = 8%nat -> skipn 8 (a ++ b) = b) as K8 by (intros; apply skipn_app_exact; auto).
  repeat first [rewrite K40 by assumption | rewrite K32 by assumption | rewrite K24 by assumption | rewrite K16 by assumption | rewrite K8 by assumption].
  rewrite <- (app_nil_r l5). rewrite !be_uint64_app by assumption. rewrite app_nil_r. reflexivity.
Qed.

Lemma FRReprFromBytes_app l0 l1 l2 l3 :
  length l0 = 8%nat -> length l1 = 8%nat -> length l2 = 8%nat -> length l3 = 8%nat ->
  FRReprFromBytes (l0 ++ l1 ++ l2 ++ l3) =
  mkFRRepr (be_value l3) (be_value l2) (be_value l1) (be_value l0).
Proof.
  intros H0 H1 H2 H3. unfold FRReprFromBytes.
  assert (forall a b : list Z, length a = 8%nat -> skipn 16 (a ++ b) = skipn 8 b) as K16 by (intros; apply (skipn_app_more 8 8); auto).
  assert (forall a b : list Z, length a = 8%nat -> skipn 24 (a ++ b) = skipn 16 b) as K24 by (intros; apply (skipn_app_more 8 16); auto).
  assert (forall a b : list Z, length a = 8%nat -> skipn 8 (a ++ b) = b) as K8 by (intros; apply skipn_app_exact; auto).
  repeat first [rewrite K24 by assumption | rewrite K16 by assumption | rewrite K8 by assumption].
  rewrite <- (app_nil_r l3). rewrite !be_uint64_app by assumption. rewrite app_nil_r. reflexivity.
Qed.

Lemma FQReprFromBytes_spec b : length b = 48%nat -> Forall isByte b ->
  wf6 (FQReprFromBytes b) /\ eval6 (FQReprFromBytes b) = be_value b.
Proof.
  intros L H.
  destruct (split8 b 40 L) as (l0 & r0 & -> & L0 & R0).
  destruct (split8 r0 32 R0) as (l1 & r1 & -> & L1 & R1).
  destruct (split8 r1 24 R1) as (l2 & r2 & -> & L2 & R2).
  destruct (split8 r2 16 R2) as (l3 & r3 & -> & L3 & R3).
  destruct (split8 r3 8 R3) as (l4 & l5 & -> & L4 & L5).
  rewrite FQReprFromBytes_app by assumption.
  rewrite !Forall_app in H. destruct H as (? & ? & ? & ? & ? & ?).
  split.
  - apply wf6_intro; apply be_value_isW; assumption.
  - rewrite !be_value_app, !app_length, L1, L2, L3, L4, L5. uneval. change (256^Z.of_nat 8) with W.
    change (256 ^ Z.of_nat (8 + (8 + (8 + (8 + 8))))) with (W*W*W*W*W).
    change (256 ^ Z.of_nat (8 + (8 + (8 + 8)))) with (W*W*W*W).
    change (256 ^ Z.of_nat (8 + (8 + 8))) with (W*W*W).
    change (256 ^ Z.of_nat (8 + 8)) with (W*W). ring.
Qed.

Lemma FRReprFromBytes_spec b : length b = 32%nat -> Forall isByte b ->
  wf4 (FRReprFromBytes b) /\ eval4 (FRReprFromBytes b) = be_value b.
Proof.
  intros L H.
  destruct (split8 b 24 L) as (l0 & r0 & -> & L0 & R0).
  destruct (split8 r0 16 R0) as (l1 & r1 & -> & L1 & R1).
  destruct (split8 r1 8 R1) as (l2 & l3 & -> & L2 & L3).
  rewrite FRReprFromBytes_app by assumption.
  rewrite !Forall_app in H. destruct H as (? & ? & ? & ?).
  split.
  - apply wf4_intro; apply be_value_isW; assumption.
  - rewrite !be_value_app, !app_length, L1, L2, L3. uneval. change (256^Z.of_nat 8) with W.
    change (256 ^ Z.of_nat (8 + (8 + 8))) with (W*W*W).
    change (256 ^ Z.of_nat (8 + 8)) with (W*W). ring.
Qed.

Lemma FQRepr_Bytes_length f : length (FQRepr_Bytes f) = 48%nat.
Proof. reflexivity. Qed.
Lemma FRRepr_Bytes_length f : length (FRRepr_Bytes f) = 32%nat.
Proof. reflexivity. Qed.
Lemma FQRepr_Bytes_isByte f : Forall isByte (FQRepr_Bytes f).
Proof. unfold FQRepr_Bytes. rewrite !Forall_app. repeat split; apply be_put64_bytes. Qed.
Lemma FRRepr_Bytes_isByte f : Forall isByte (FRRepr_Bytes f).
Proof. unfold FRRepr_Bytes. rewrite !Forall_app. repeat split; apply be_put64_bytes. Qed.

Lemma FQRepr_FromBytes_Bytes f : wf6 f -> FQReprFromBytes (FQRepr_Bytes f) = f.
Proof.
  intros H. destruct f as [a0 a1 a2 a3 a4 a5]. unwf. unfold FQRepr_Bytes. cbn [w0 w1 w2 w3 w4 w5].
  rewrite FQReprFromBytes_app by apply be_put64_length. rewrite !be_put64_value by assumption. reflexivity.
Qed.
Lemma FRRepr_FromBytes_Bytes f : wf4 f -> FRReprFromBytes (FRRepr_Bytes f) = f.
Proof.
  intros H. destruct f as [a0 a1 a2 a3]. unwf. unfold FRRepr_Bytes. cbn [v0 v1 v2 v3].
  rewrite FRReprFromBytes_app by apply be_put64_length. rewrite !be_put64_value by assumption. reflexivity.
Qed.
Lemma FQRepr_Bytes_value f : wf6 f -> be_value (FQRepr_Bytes f) = eval6 f.
Proof.
  intros H. destruct (FQReprFromBytes_spec (FQRepr_Bytes f)) as [_ E]; [reflexivity|apply FQRepr_Bytes_isByte|].
  rewrite <- E, FQRepr_FromBytes_Bytes by assumption. reflexivity.
Qed.
Lemma FRRepr_Bytes_value f : wf4 f -> be_value (FRRepr_Bytes f) = eval4 f.
Proof.
  intros H. destruct (FRReprFromBytes_spec (FRRepr_Bytes f)) as [_ E]; [reflexivity|apply FRRepr_Bytes_isByte|].
  rewrite <- E, FRRepr_FromBytes_Bytes by assumption. reflexivity.
Qed.
Lemma FQRepr_Bytes_FromBytes b : length b = 48%nat -> Forall isByte b -> FQRepr_Bytes (FQReprFromBytes b) = b.
Proof.
  intros L H. destruct (FQReprFromBytes_spec b L H) as [Hwf E].
  apply be_value_inj; [apply FQRepr_Bytes_isByte|assumption|rewrite L; reflexivity|].
  rewrite FQRepr_Bytes_value by assumption. exact E.
Qed.
Lemma FRRepr_Bytes_FromBytes b : length b = 32%nat -> Forall isByte b -> FRRepr_Bytes (FRReprFromBytes b) = b.
Proof.
  intros L H. destruct (FRReprFromBytes_spec b L H) as [Hwf E].
  apply be_value_inj; [apply FRRepr_Bytes_isByte|assumption|rewrite L; reflexivity|].
  rewrite FRRepr_Bytes_value by assumption. exact E.
Qed.

(** ** big.Int *)

Lemma FQRepr_ToBig_spec f : FQRepr_ToBig f = eval6 f.
Proof. unfold FQRepr_ToBig. uneval. rewrite !Z.shiftl_mul_pow2 by lia. change (2^64) with W. ring. Qed.
Lemma FRRepr_ToBig_spec f : FRRepr_ToBig f = eval4 f.
Proof. unfold FRRepr_ToBig. uneval. rewrite !Z.shiftl_mul_pow2 by lia. change (2^64) with W. ring. Qed.

Lemma words_of_big_spec n : forall x, 0 <= x < 2 ^ (64 * Z.of_nat n) ->
  exists l, words_of_big n x = Some l /\ length l = n /\ Forall isW l /\ evalw l = x.
Proof.
  induction n as [|n IH]; intros x Hx; cbn [words_of_big].
  - assert (x = 0) by (cbn in Hx; lia). subst. exists []. repeat split; auto.
  - destruct (Z.eqb_spec x 0) as [->|Hx0].
    + exists (repeat 0 (S n)). rewrite repeat_length. split; [reflexivity|]. split; [reflexivity|]. split.
      * apply Forall_forall. intros y Hy. apply repeat_spec in Hy. subst; apply isW_0.
      * clear. induction (S n); cbn [repeat evalw]; lia.
    + destruct (IH (Z.shiftr x 64)) as (l & E & L & F & V).
      { rewrite Z.shiftr_div_pow2 by lia. rewrite Nat2Z.inj_succ, Z.mul_succ_r, Z.pow_add_r in Hx by lia.
        split; [apply Z.div_pos; lia|]. apply Z.div_lt_upper_bound; [lia|]. lia. }
      exists (Z.land x WMASK :: l). rewrite E. split; [reflexivity|]. split; [cbn; lia|]. split.
      * constructor; [apply (wlo_isW x)|assumption].
      * cbn [evalw]. rewrite V. apply (wlo_whi x).
Qed.

Lemma list_len6 {A} (l : list A) : length l = 6%nat -> exists a b c d e f, l = [a; b; c; d; e; f].
Proof. intros H. do 7 (destruct l; try discriminate). repeat eexists. Qed.
Lemma list_len4 {A} (l : list A) : length l = 4%nat -> exists a b c d, l = [a; b; c; d].
Proof. intros H. do 5 (destruct l; try discriminate). repeat eexists. Qed.

Lemma FQReprFromBigInt_ok n : 0 <= n < 2 ^ 384 -> exists f, FQReprFromBigInt n = Some (Some f) /\ wf6 f /\ eval6 f = n.
Proof.
  intros Hn. unfold FQReprFromBigInt, big_BitLen. rewrite Z.abs_eq by lia.
  destruct (Z.ltb_spec 384 (bitlen n)) as [Hb|_].
  { assert (bitlen n <= 384) by (apply bitlen_le; lia). lia. }
  destruct (Z.eqb_spec (Z.sgn n) (-1)) as [Hs|_]; [lia|]. cbn [orb].
  destruct (words_of_big_spec 6 n Hn) as (l & E & L & F & V). rewrite E.
  destruct (list_len6 l L) as (a & b & c & d & e & f & ->). eexists. repeat split; eassumption.
Qed.
Lemma FQReprFromBigInt_err n : n < 0 \/ 2 ^ 384 <= n -> FQReprFromBigInt n = Some None.
Proof.
  intros Hn. unfold FQReprFromBigInt, big_BitLen.
  destruct (Z.ltb_spec 384 (bitlen (Z.abs n))) as [|Hb]; [reflexivity|].
  apply bitlen_le in Hb; [|lia|lia].
  destruct (Z.eqb_spec (Z.sgn n) (-1)); [reflexivity|]. lia.
Qed.
Lemma FRReprFromBigInt_ok n : 0 <= n < 2 ^ 256 -> exists f, FRReprFromBigInt n = Some (Some f) /\ wf4 f /\ eval4 f = n.
Proof.
  intros Hn. unfold FRReprFromBigInt, big_BitLen. rewrite Z.abs_eq by lia.
  destruct (Z.ltb_spec 256 (bitlen n)) as [Hb|_].
  { assert (bitlen n <= 256) by (apply bitlen_le; lia). lia. }
  destruct (Z.eqb_spec (Z.sgn n) (-1)) as [Hs|_]; [lia|]. cbn [orb].
  destruct (words_of_big_spec 4 n Hn) as (l & E & L & F & V). rewrite E.
  destruct (list_len4 l L) as (a & b & c & d & ->). eexists. repeat split; eassumption.
Qed.
Lemma FRReprFromBigInt_err n : n < 0 \/ 2 ^ 256 <= n -> FRReprFromBigInt n = Some None.
Proof.
  intros Hn. unfold FRReprFromBigInt, big_BitLen.
  destruct (Z.ltb_spec 256 (bitlen (Z.abs n))) as [|Hb]; [reflexivity|].
  apply bitlen_le in Hb; [|lia|lia].
  destruct (Z.eqb_spec (Z.sgn n) (-1)); [reflexivity|]. lia.
Qed.

Lemma FQReprFromBigInt_ToBig f : wf6 f -> FQReprFromBigInt (FQRepr_ToBig f) = Some (Some f).
Proof.
  intros H. rewrite FQRepr_ToBig_spec. destruct (FQReprFromBigInt_ok (eval6 f)) as (g & E & Hg & V).
  { apply eval6_bound; assumption. } rewrite E. do 2 f_equal. apply eval6_inj; assumption.
Qed.
Lemma FRReprFromBigInt_ToBig f : wf4 f -> FRReprFromBigInt (FRRepr_ToBig f) = Some (Some f).
Proof.
  intros H. rewrite FRRepr_ToBig_spec. destruct (FRReprFromBigInt_ok (eval4 f)) as (g & E & Hg & V).
  { apply eval4_bound; assumption. } rewrite E. do 2 f_equal. apply eval4_inj; assumption.
Qed.

Lemma FQRepr_const_spec n : 0 <= n < 2 ^ 384 -> wf6 (FQRepr_const n) /\ eval6 (FQRepr_const n) = n.
Proof. intros H. unfold FQRepr_const. destruct (FQReprFromBigInt_ok n H) as (f & -> & ?). assumption. Qed.

Lemma FRRepr_ToFQ_spec f : wf4 f -> wf6 (FRRepr_ToFQ f) /\ eval6 (FRRepr_ToFQ f) = eval4 f.
Proof.
  intros H. destruct f as [a0 a1 a2 a3]. unwf. unfold FRRepr_ToFQ. cbn [v0 v1 v2 v3]. split.
  - apply wf6_intro; auto; apply isW_0.
  - uneval. ring.
Qed.
