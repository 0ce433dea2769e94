(** Multi-limb arithmetic on machine integers: 14 limbs of 28 bits, Montgomery form with R = 2^392.  Used only to
    evaluate closed terms (orders of the generators, value of the pairing); it is proved to agree with GF(q). *)
Require Import ZArith Lia Bool List Uint63.
Import ListNotations.
Open Scope Z_scope.

Notation "⟦ x ⟧" := (to_Z x) (at level 0).
Definition W : Z := 2 ^ 28.
Lemma W_val : W = 268435456. Proof. reflexivity. Qed.
Definition wi : int := Eval vm_compute in of_Z W.
Definition mask : int := Eval vm_compute in of_Z (W - 1).
Definition sh : int := Eval vm_compute in of_Z 28.
Lemma wB_val : wB = 9223372036854775808. Proof. reflexivity. Qed.
Lemma t_add x y : ⟦x⟧ + ⟦y⟧ < wB -> ⟦(x + y)%uint63⟧ = ⟦x⟧ + ⟦y⟧.
Proof. intros H. rewrite add_spec. apply Z.mod_small. pose proof (to_Z_bounded x). pose proof (to_Z_bounded y). lia. Qed.
Lemma t_mul x y : ⟦x⟧ * ⟦y⟧ < wB -> ⟦(x * y)%uint63⟧ = ⟦x⟧ * ⟦y⟧.
Proof. intros H. rewrite mul_spec. apply Z.mod_small. pose proof (to_Z_bounded x). pose proof (to_Z_bounded y). nia. Qed.
Lemma t_sub x y : ⟦y⟧ <= ⟦x⟧ -> ⟦(x - y)%uint63⟧ = ⟦x⟧ - ⟦y⟧.
Proof. intros H. rewrite sub_spec. apply Z.mod_small. pose proof (to_Z_bounded x). pose proof (to_Z_bounded y). lia. Qed.
Lemma t_lo x : ⟦(x land mask)%uint63⟧ = ⟦x⟧ mod W.
Proof. rewrite land_spec'. replace ⟦mask⟧ with (Z.ones 28) by reflexivity. rewrite Z.land_ones by lia. reflexivity. Qed.
Lemma t_hi x : ⟦(x >> sh)%uint63⟧ = ⟦x⟧ / W.
Proof. rewrite lsr_spec. reflexivity. Qed.
Lemma t_pos x : 0 <= ⟦x⟧. Proof. apply to_Z_bounded. Qed.

Fixpoint ev (l : list int) : Z := match l with [] => 0 | x :: l => ⟦x⟧ + W * ev l end.
Definition bd (B : Z) (l : list int) : Prop := Forall (fun x => ⟦x⟧ <= B) l.
Definition pw (n : nat) : Z := W ^ Z.of_nat n.
Lemma pw_S n : pw (S n) = W * pw n. Proof. unfold pw. rewrite Nat2Z.inj_succ, Z.pow_succ_r by lia. reflexivity. Qed.
Lemma pw_pos n : 0 < pw n. Proof. apply Z.pow_pos_nonneg; [reflexivity|lia]. Qed.
Lemma ev_nonneg l : 0 <= ev l.
Proof. induction l as [|x l IH]; cbn [ev]; [lia|]. pose proof (t_pos x). rewrite W_val. lia. Qed.
Lemma ev_lt l : bd (W - 1) l -> ev l < pw (length l).
Proof. induction 1 as [|x l H _ IH]; cbn [ev length]; [reflexivity|]. rewrite pw_S. rewrite W_val in *. nia. Qed.
Lemma bd_weaken B B' l : B <= B' -> bd B l -> bd B' l.
Proof. intros H. apply Forall_impl. intros. lia. Qed.
Lemma ev_inj l l' : bd (W - 1) l -> bd (W - 1) l' -> length l = length l' -> ev l = ev l' -> l = l'.
Proof.
  revert l'. induction l as [|x l IH]; intros [|y l'] H H'; cbn [length ev]; try discriminate; [reflexivity|]. intros L E. apply Forall_inv in H as Hx. apply Forall_inv in H' as Hy.
  pose proof (t_pos x). pose proof (t_pos y). rewrite W_val in *. assert (⟦x⟧ = ⟦y⟧ /\ ev l = ev l') as [E1 E2] by lia.
  f_equal; [apply to_Z_inj, E1|]. apply IH; [apply Forall_inv_tail in H; exact H|apply Forall_inv_tail in H'; exact H'|congruence|exact E2].
Qed.

(** acc + a * b, limb by limb *)
Fixpoint addmul (a : int) (b acc : list int) : list int :=
  match b, acc with y :: b, x :: acc => (x + a * y)%uint63 :: addmul a b acc | _, _ => acc end.
Lemma addmul_spec a b acc A B : ⟦a⟧ <= W - 1 -> bd (W - 1) b -> bd B acc -> length b = length acc -> 0 <= B -> B + (W - 1) * (W - 1) < wB -> A = B + (W - 1) * (W - 1) ->
  ev (addmul a b acc) = ev acc + ⟦a⟧ * ev b /\ bd A (addmul a b acc) /\ length (addmul a b acc) = length acc.
Proof.
  intros Ha Hb. revert acc. induction Hb as [|y b Hy _ IH]; intros [|x acc] Hacc L HB HW HA; cbn [addmul ev length] in *; try discriminate; [split; [lia|split; [constructor|reflexivity]]|].
  apply Forall_inv in Hacc as Hx. apply Forall_inv_tail in Hacc. injection L as L.
  destruct (IH acc Hacc L HB HW HA) as (E & D & LL). pose proof (t_pos a). pose proof (t_pos x). pose proof (t_pos y).
  assert (⟦a⟧ * ⟦y⟧ <= (W - 1) * (W - 1)) as M by (apply Z.mul_le_mono_nonneg; lia).
  assert (⟦(x + a * y)%uint63⟧ = ⟦x⟧ + ⟦a⟧ * ⟦y⟧) as EX by (rewrite t_add; rewrite t_mul; lia).
  split; [|split; [constructor; [lia|exact D]|congruence]]. rewrite E, EX. ring.
Qed.
(** carry propagation *)
Fixpoint carry (c : int) (l : list int) : list int * int :=
  match l with [] => ([], c) | x :: l => let s := (x + c)%uint63 in let '(l, c) := carry (s >> sh)%uint63 l in ((s land mask)%uint63 :: l, c) end.
Lemma carry_spec c l B : bd B l -> ⟦c⟧ <= B -> B + B < wB -> 
  ev (fst (carry c l)) + pw (length l) * ⟦snd (carry c l)⟧ = ev l + ⟦c⟧ /\ bd (W - 1) (fst (carry c l)) /\ length (fst (carry c l)) = length l.
Proof.
  intros H. revert c. induction H as [|x l Hx _ IH]; intros c Hc HB; cbn [carry ev length].
  - cbn [fst snd ev]. split; [change (pw 0) with 1; lia|split; [constructor|reflexivity]].
  - pose proof (t_pos x). pose proof (t_pos c). pose proof (t_add x c ltac:(lia)) as ES.
    assert (⟦((x + c) >> sh)%uint63⟧ <= B) as Hc'. { rewrite t_hi, ES. rewrite W_val. apply Z.div_le_upper_bound; lia. }
    destruct (IH _ Hc' HB) as (E & D & L). destruct (carry ((x + c) >> sh)%uint63 l) as [l' c']. cbn [fst snd ev length] in *.
    pose proof (t_lo (x + c)) as EL. rewrite ES in EL. rewrite t_hi, ES in E. pose proof (Z.div_mod (⟦x⟧ + ⟦c⟧) W ltac:(discriminate)) as DM.
    pose proof (Z.mod_pos_bound (⟦x⟧ + ⟦c⟧) W ltac:(reflexivity)). split; [|split; [constructor; [rewrite EL; lia|exact D]|congruence]].
    rewrite pw_S, EL. transitivity ((⟦x⟧ + ⟦c⟧) mod W + W * (ev l' + pw (length l) * ⟦c'⟧)); [ring|]. rewrite E. lia.
Qed.
(** subtraction with borrow *)
Fixpoint subb (w : int) (a b : list int) : list int * int :=
  match a, b with
  | x :: a, y :: b => let s := (x + wi - y - w)%uint63 in let '(l, c) := subb (1 - (s >> sh))%uint63 a b in ((s land mask)%uint63 :: l, c)
  | _, _ => ([], w)
  end.
Lemma subb_spec w a b : ⟦w⟧ <= 1 -> bd (W - 1) a -> bd (W - 1) b -> length a = length b ->
  ev (fst (subb w a b)) - pw (length a) * ⟦snd (subb w a b)⟧ = ev a - ev b - ⟦w⟧ /\ bd (W - 1) (fst (subb w a b)) /\ length (fst (subb w a b)) = length a /\ ⟦snd (subb w a b)⟧ <= 1.
Proof.
  intros Hw Ha. revert w Hw b. induction Ha as [|x a Hx _ IH]; intros w Hw [|y b] Hb L; cbn [subb ev length] in *; try discriminate.
  - cbn [fst snd ev]. split; [change (pw 0) with 1; lia|split; [constructor|split; [reflexivity|exact Hw]]].
  - apply Forall_inv in Hb as Hy. apply Forall_inv_tail in Hb. injection L as L. pose proof (t_pos x). pose proof (t_pos y). pose proof (t_pos w).
    assert (⟦wi⟧ = W) as EW by reflexivity.
    assert (⟦(x + wi - y - w)%uint63⟧ = ⟦x⟧ + W - ⟦y⟧ - ⟦w⟧) as ES.
    { assert (⟦(x + wi)%uint63⟧ = ⟦x⟧ + W) as E1 by (rewrite t_add; rewrite EW; rewrite ?wB_val, ?W_val in *; lia).
      assert (⟦(x + wi - y)%uint63⟧ = ⟦x⟧ + W - ⟦y⟧) as E2 by (rewrite t_sub; rewrite E1; lia).
      rewrite t_sub; rewrite E2; lia. }
    set (s := (x + wi - y - w)%uint63) in *. 
    assert (0 <= ⟦s⟧ / W <= 1) as HH. { rewrite ES. split; [apply Z.div_pos; [lia|reflexivity]|]. apply Z.lt_succ_r, Z.div_lt_upper_bound; [reflexivity|]. rewrite W_val in *. lia. }
    assert (⟦(1 - (s >> sh))%uint63⟧ = 1 - ⟦s⟧ / W) as EB. { rewrite t_sub; rewrite t_hi; change ⟦1⟧ with 1; [reflexivity|lia]. }
    destruct (IH (1 - (s >> sh))%uint63 ltac:(rewrite EB; lia) b Hb L) as (E & D & LL & C).
    destruct (subb (1 - (s >> sh))%uint63 a b) as [l c]. cbn [fst snd ev length] in *.
    pose proof (t_lo s) as EL. pose proof (Z.div_mod ⟦s⟧ W ltac:(discriminate)) as DM. pose proof (Z.mod_pos_bound ⟦s⟧ W ltac:(reflexivity)).
    split; [|split; [constructor; [rewrite EL; lia|exact D]|split; [congruence|exact C]]].
    rewrite pw_S, EL. transitivity (⟦s⟧ mod W + W * (ev l - pw (length a) * ⟦c⟧)); [ring|]. rewrite E, EB. lia.
Qed.
Fixpoint addl (a b : list int) : list int := match a, b with x :: a, y :: b => (x + y)%uint63 :: addl a b | _, _ => a end.
Lemma addl_spec a b : bd (W - 1) a -> bd (W - 1) b -> length a = length b -> ev (addl a b) = ev a + ev b /\ bd (2 * W) (addl a b) /\ length (addl a b) = length a.
Proof.
  intros Ha. revert b. induction Ha as [|x a Hx _ IH]; intros [|y b] Hb L; cbn [addl ev length] in *; try discriminate; [split; [lia|split; [constructor|reflexivity]]|].
  apply Forall_inv in Hb as Hy. apply Forall_inv_tail in Hb. injection L as L. destruct (IH b Hb L) as (E & D & LL).
  pose proof (t_pos x). pose proof (t_pos y). assert (⟦(x + y)%uint63⟧ = ⟦x⟧ + ⟦y⟧) as EX by (apply t_add; rewrite wB_val, W_val in *; lia).
  split; [|split; [constructor; [lia|exact D]|congruence]]. rewrite E, EX. ring.
Qed.
Fixpoint leqb (a b : list int) : bool := match a, b with [], [] => true | x :: a, y :: b => (x =? y)%uint63 && leqb a b | _, _ => false end.
Lemma leqb_spec a b : leqb a b = true <-> a = b.
Proof.
  revert b. induction a as [|x a IH]; intros [|y b]; cbn [leqb]; try (split; congruence). rewrite andb_true_iff, IH, eqb_spec. split; [intros [-> ->]; reflexivity|intros [= -> ->]; auto].
Qed.
(** limbs of an integer *)
Fixpoint limbs (n : nat) (z : Z) : list int := match n with O => [] | S n => of_Z (z mod W) :: limbs n (z / W) end.
Lemma limbs_spec n z : 0 <= z < pw n -> ev (limbs n z) = z /\ bd (W - 1) (limbs n z) /\ length (limbs n z) = n.
Proof.
  revert z. induction n as [|n IH]; intros z Hz; cbn [limbs ev length].
  - change (pw 0) with 1 in Hz. split; [lia|split; [constructor|reflexivity]].
  - rewrite pw_S in Hz. pose proof (Z.mod_pos_bound z W ltac:(reflexivity)) as HM. pose proof (Z.div_mod z W ltac:(discriminate)) as DM.
    destruct (IH (z / W)) as (E & D & L). { split; [apply Z.div_pos; [lia|reflexivity]|apply Z.div_lt_upper_bound; [reflexivity|lia]]. }
    assert (⟦of_Z (z mod W)⟧ = z mod W) as EZ by (rewrite of_Z_spec; apply Z.mod_small; rewrite wB_val, W_val in *; lia).
    split; [rewrite EZ, E; lia|]. split; [constructor; [rewrite EZ; lia|exact D]|congruence].
Qed.

(** ** Montgomery multiplication *)
Fixpoint addmul0 (a : int) (b acc : list int) : list int :=
  match b, acc with y :: b, x :: acc => (x + a * y)%uint63 :: addmul0 a b acc | _, _ => [0%uint63] end.
Lemma addmul0_eq a b acc : length b = length acc -> addmul0 a b acc = addmul a b acc ++ [0%uint63].
Proof. revert acc. induction b as [|y b IH]; intros [|x acc]; cbn; try discriminate; [reflexivity|]. intros [= L]. rewrite IH by exact L. reflexivity. Qed.
Lemma ev_app0 l : ev (l ++ [0%uint63]) = ev l.
Proof. induction l as [|x l IH]; cbn [ev app]; [reflexivity|]. rewrite IH. reflexivity. Qed.
Section Mont.
Context (nl : list int) (ninv : int).
Definition mstep1 (x : int) (b acc : list int) : list int :=
  let acc := addmul x b acc in
  match nl, acc with
  | n0 :: nt, y :: t => let m := ((y * ninv) land mask)%uint63 in
      match addmul0 m nt t with z :: t => (z + ((y + m * n0) >> sh))%uint63 :: t | [] => [] end
  | _, _ => [] end.
Fixpoint mloop (a b acc : list int) : list int := match a with [] => acc | x :: a => mloop a b (mstep1 x b acc) end.
Definition csub (a : list int) : list int := let '(d, w) := subb 0%uint63 a nl in if (w =? 0)%uint63 then d else a.
Definition zeros : list int := map (fun _ => 0%uint63) nl.
Definition mmul (a b : list int) : list int := csub (fst (carry 0%uint63 (mloop a b zeros))).
Definition madd (a b : list int) : list int := csub (fst (carry 0%uint63 (addl a b))).
Definition msub (a b : list int) : list int := let '(d, w) := subb 0%uint63 a b in if (w =? 0)%uint63 then d else fst (carry 0%uint63 (addl d nl)).

Context (k : nat) (N : Z).
Hypothesis Hnl : bd (W - 1) nl.
Hypothesis Hk : length nl = k.
Hypothesis HN : ev nl = N.
Hypothesis k16 : (1 <= k <= 24)%nat.
Hypothesis N2 : 2 * N < pw k.
Hypothesis Npos : 0 < N.
Hypothesis Hinv : ⟦ match nl with n0 :: _ => n0 | [] => 0%uint63 end ⟧ * ⟦ninv⟧ mod W = W - 1.
Definition wf (a : list int) : Prop := bd (W - 1) a /\ length a = k /\ ev a < N.
Definition D1 : Z := 2 * ((W - 1) * (W - 1)) + 2 ^ 35.
Lemma C2_val : (W - 1) * (W - 1) = 72057593501057025. Proof. reflexivity. Qed.
Lemma D1_val : D1 = 144115221361852418. Proof. reflexivity. Qed.
Lemma mstep1_spec x b acc B : ⟦x⟧ <= W - 1 -> bd (W - 1) b -> length b = k -> bd B acc -> length acc = k -> 0 <= B -> B + D1 < wB ->
  exists m, 0 <= m < W /\ W * ev (mstep1 x b acc) = ev acc + ⟦x⟧ * ev b + m * N /\ bd (B + D1) (mstep1 x b acc) /\ length (mstep1 x b acc) = k.
Proof.
  intros Hx Hb Lb Ha La HB HW. pose proof C2_val as EC. rewrite D1_val, wB_val in *.
  destruct (addmul_spec x b acc _ B Hx Hb Ha ltac:(congruence) HB ltac:(rewrite wB_val; lia) eq_refl) as (E1 & B1 & L1). unfold mstep1. clear Ha.
  set (acc1 := addmul x b acc) in *. clearbody acc1. rewrite La in L1.
  pose proof Hk as Hk'. pose proof Hnl as Hnl'. pose proof HN as HN'. pose proof Hinv as Hinv'.
  destruct nl as [|n0 nt]; [cbn in Hk'; lia|]. destruct acc1 as [|y t]; [cbn in L1; lia|]. cbn [length ev] in *. cbv zeta.
  set (m := ((y * ninv) land mask)%uint63).
  assert (⟦m⟧ = (⟦y⟧ * ⟦ninv⟧) mod W) as Em. { unfold m. rewrite t_lo, mul_spec. symmetry. apply (Znumtheory.Zmod_div_mod W wB); [reflexivity|reflexivity|exists (2 ^ 35); reflexivity]. }
  pose proof (Z.mod_pos_bound (⟦y⟧ * ⟦ninv⟧) W ltac:(reflexivity)) as Bm. rewrite <- Em in Bm. clearbody m.
  apply Forall_inv in B1 as By. apply Forall_inv_tail in B1. apply Forall_inv in Hnl' as Bn0. apply Forall_inv_tail in Hnl'.
  assert (length nt = length t) as Lt by congruence. rewrite addmul0_eq by exact Lt.
  destruct (addmul_spec m nt t _ _ ltac:(lia) Hnl' B1 Lt ltac:(lia) ltac:(rewrite wB_val; lia) eq_refl) as (E2 & B2 & L2).
  pose proof (t_pos y). pose proof (t_pos n0). pose proof (t_pos m).
  assert (⟦m⟧ * ⟦n0⟧ <= 72057593501057025) as M by (rewrite <- EC; apply Z.mul_le_mono_nonneg; lia).
  assert (⟦(y + m * n0)%uint63⟧ = ⟦y⟧ + ⟦m⟧ * ⟦n0⟧) as ES by (rewrite t_add; rewrite t_mul; rewrite ?wB_val; lia).
  assert (⟦((y + m * n0) >> sh)%uint63⟧ = (⟦y⟧ + ⟦m⟧ * ⟦n0⟧) / W) as EH by (rewrite t_hi, ES; reflexivity).
  assert ((⟦y⟧ + ⟦m⟧ * ⟦n0⟧) mod W = 0) as Z0.
  { rewrite Z.add_mod, (Z.mul_mod ⟦m⟧ ⟦n0⟧), Em, Z.mod_mod, <- Z.mul_mod, <- Z.add_mod by discriminate.
    replace (⟦y⟧ + ⟦y⟧ * ⟦ninv⟧ * ⟦n0⟧) with (⟦y⟧ * (1 + ⟦n0⟧ * ⟦ninv⟧)) by ring.
    rewrite Z.mul_mod, (Z.add_mod 1), Hinv' by discriminate. change ((1 mod W + (W - 1)) mod W) with 0. rewrite Z.mul_0_r. reflexivity. }
  pose proof (Z.div_mod (⟦y⟧ + ⟦m⟧ * ⟦n0⟧) W ltac:(discriminate)) as DM. rewrite Z0, Z.add_0_r in DM. rewrite <- EH in DM.
  assert (0 <= ⟦((y + m * n0) >> sh)%uint63⟧ <= 2 ^ 35) as BH.
  { split; [apply t_pos|]. rewrite EH. apply Z.div_le_upper_bound; [reflexivity|]. rewrite W_val. change (268435456 * 2 ^ 35) with 9223372036854775808. lia. }
  set (h := ((y + m * n0) >> sh)%uint63) in *. clearbody h. change (2 ^ 35) with 34359738368 in BH.
  exists ⟦m⟧. split; [lia|].
  assert (ev (addmul m nt t ++ [0%uint63]) = ev t + ⟦m⟧ * ev nt) as E3 by (rewrite ev_app0; exact E2).
  assert (bd (B + 144115187002114050) (addmul m nt t ++ [0%uint63])) as B3.
  { apply Forall_app. split; [eapply bd_weaken; [|exact B2]; lia|constructor; [|constructor]]. change ⟦0⟧ with 0. lia. }
  assert (length (addmul m nt t ++ [0%uint63]) = k) as L3 by (rewrite app_length, L2; cbn; lia).
  destruct (addmul m nt t ++ [0%uint63]) as [|z u]; [cbn in L3; lia|]. cbn [ev length] in *.
  apply Forall_inv in B3 as Bz. apply Forall_inv_tail in B3. pose proof (t_pos z).
  assert (⟦(z + h)%uint63⟧ = ⟦z⟧ + ⟦h⟧) as EZ by (apply t_add; rewrite wB_val; lia).
  split; [|split; [constructor; [rewrite EZ; lia|eapply bd_weaken; [|exact B3]; lia]|exact L3]].
  rewrite EZ, <- HN'. transitivity (W * ⟦h⟧ + W * (⟦z⟧ + W * ev u)); [ring|]. rewrite E3, <- DM. rewrite <- E1. ring.
Qed.
Lemma mloop_spec a b acc (i : nat) : bd (W - 1) a -> bd (W - 1) b -> length b = k -> bd (Z.of_nat i * D1) acc -> length acc = k -> (i + length a <= 24)%nat -> ev b < N -> ev acc < 2 * N ->
  exists M, pw (length a) * ev (mloop a b acc) = ev acc + ev a * ev b + M * N /\ ev (mloop a b acc) < 2 * N /\ bd (24 * D1) (mloop a b acc) /\ length (mloop a b acc) = k.
Proof.
  intros Ha Hb Lb. revert acc i. induction Ha as [|x a Hx _ IH]; intros acc i Hacc La Hi Hlt Hacc2; cbn [mloop length ev] in *.
  - exists 0. split; [change (pw 0) with 1; ring|]. split; [exact Hacc2|]. split; [|exact La]. eapply bd_weaken; [|exact Hacc]. rewrite D1_val. lia.
  - destruct (mstep1_spec x b acc (Z.of_nat i * D1) Hx Hb Lb Hacc La) as (m & Hm & E & Bn & Ln); [rewrite D1_val; lia|rewrite D1_val, wB_val; lia|].
    pose proof (ev_nonneg b). pose proof (t_pos x).
    destruct (IH (mstep1 x b acc) (S i)) as (M & E2 & B2 & B3 & L2).
    + eapply bd_weaken; [|exact Bn]. lia.
    + exact Ln.
    + lia.
    + exact Hlt.
    + assert (⟦x⟧ * ev b <= (W - 1) * N) by (apply Z.mul_le_mono_nonneg; lia). assert (m * N <= (W - 1) * N) by (apply Z.mul_le_mono_nonneg_r; lia).
      assert (W * ev (mstep1 x b acc) < W * (2 * N)); [|rewrite W_val in *; lia]. rewrite E, W_val in *. lia.
    + exists (m + W * M). split; [|split; [exact B2|split; [exact B3|exact L2]]]. rewrite pw_S.
      transitivity (W * (pw (length a) * ev (mloop a b (mstep1 x b acc)))); [ring|]. rewrite E2. transitivity (W * ev (mstep1 x b acc) + W * (ev a * ev b) + W * M * N); [ring|]. rewrite E. ring.
Qed.
Lemma csub_spec a : bd (W - 1) a -> length a = k -> ev a < 2 * N -> wf (csub a) /\ ev (csub a) mod N = ev a mod N.
Proof.
  intros Ha La Hlt. unfold csub. destruct (subb_spec 0%uint63 a nl ltac:(discriminate) Ha Hnl ltac:(congruence)) as (E & B & L & C).
  destruct (subb 0%uint63 a nl) as [d w]. cbn [fst snd] in *. change ⟦0⟧ with 0 in E. pose proof (ev_lt _ B) as Ld. pose proof (ev_nonneg d). rewrite L in Ld. rewrite HN in E.
  destruct (w =? 0)%uint63 eqn:Ew.
  - apply eqb_spec in Ew. subst w. change ⟦0⟧ with 0 in E. split; [split; [exact B|split; [congruence|lia]]|]. replace (ev d) with (ev a + (-1) * N) by lia. apply Z.mod_add. lia.
  - assert (⟦w⟧ = 1) as W1. { pose proof (t_pos w). destruct (Z.eq_dec ⟦w⟧ 0) as [Z|]; [|lia]. assert (w = 0%uint63) as -> by (apply to_Z_inj; exact Z). discriminate Ew. }
    rewrite W1 in E. split; [split; [exact Ha|split; [exact La|lia]]|reflexivity].
Qed.
Lemma ev_zeros : ev zeros = 0 /\ bd 0 zeros /\ length zeros = k.
Proof.
  unfold zeros. rewrite map_length. split; [|split; [|exact Hk]]; clear; induction nl as [|x l IH]; cbn [map ev]; [reflexivity| |constructor|constructor; [discriminate|exact IH]].
  change ⟦0⟧ with 0. lia.
Qed.
Lemma carry0 l B : bd B l -> length l = k -> 0 <= B -> B + B < wB -> ev l < pw k -> bd (W - 1) (fst (carry 0%uint63 l)) /\ length (fst (carry 0%uint63 l)) = k /\ ev (fst (carry 0%uint63 l)) = ev l.
Proof.
  intros Hl Ll HB HW Hlt. destruct (carry_spec 0%uint63 l B Hl HB HW) as (E & Bd & L). change ⟦0⟧ with 0 in E. rewrite Ll in *. split; [exact Bd|]. split; [exact L|].
  pose proof (ev_nonneg (fst (carry 0%uint63 l))). pose proof (t_pos (snd (carry 0%uint63 l))). pose proof (pw_pos k).
  destruct (Z.eq_dec ⟦snd (carry 0%uint63 l)⟧ 0) as [Z|NZ]; [rewrite Z in E; lia|].
  assert (pw k * 1 <= pw k * ⟦snd (carry 0%uint63 l)⟧) by (apply Z.mul_le_mono_nonneg_l; lia). lia.
Qed.
Theorem mmul_spec a b : wf a -> wf b -> wf (mmul a b) /\ (pw k * ev (mmul a b)) mod N = (ev a * ev b) mod N.
Proof.
  intros (Ba & La & Ha) (Bb & Lb & Hb). destruct ev_zeros as (Z0 & ZB & ZL).
  destruct (mloop_spec a b zeros 0 Ba Bb Lb) as (M & E & B & BD & L); try assumption; [lia|lia|]. rewrite Z0, La in E.
  destruct (carry0 _ _ BD L) as (CB & CL & CE); [discriminate|reflexivity|lia|].
  destruct (csub_spec _ CB CL ltac:(lia)) as [Wf Em]. split; [exact Wf|]. unfold mmul. rewrite <- Z.mul_mod_idemp_r, Em, CE, Z.mul_mod_idemp_r, E by lia.
  replace (0 + ev a * ev b + M * N) with (ev a * ev b + M * N) by ring. apply Z.mod_add. lia.
Qed.
Theorem madd_spec a b : wf a -> wf b -> wf (madd a b) /\ ev (madd a b) = (ev a + ev b) mod N.
Proof.
  intros (Ba & La & Ha) (Bb & Lb & Hb). destruct (addl_spec a b Ba Bb ltac:(congruence)) as (E & B & L).
  destruct (carry0 _ _ B ltac:(congruence)) as (CB & CL & CE); [discriminate|reflexivity|lia|].
  destruct (csub_spec _ CB CL ltac:(lia)) as [Wf Em]. split; [exact Wf|]. unfold madd. destruct Wf as (_ & _ & Wl). pose proof (ev_nonneg (csub (fst (carry 0%uint63 (addl a b))))).
  rewrite <- E, <- CE, <- Em. symmetry. apply Z.mod_small. lia.
Qed.
Theorem msub_spec a b : wf a -> wf b -> wf (msub a b) /\ ev (msub a b) = (ev a - ev b) mod N.
Proof.
  intros (Ba & La & Ha) (Bb & Lb & Hb). unfold msub. destruct (subb_spec 0%uint63 a b ltac:(discriminate) Ba Bb ltac:(congruence)) as (E & B & L & C).
  destruct (subb 0%uint63 a b) as [d w]. cbn [fst snd] in *. change ⟦0⟧ with 0 in E. pose proof (ev_lt _ B) as Ld. pose proof (ev_nonneg d). rewrite L, La in Ld. rewrite La in *.
  pose proof (ev_nonneg a). pose proof (ev_nonneg b).
  destruct (w =? 0)%uint63 eqn:Ew.
  - apply eqb_spec in Ew. subst w. change ⟦0⟧ with 0 in E. split; [split; [exact B|split; [congruence|lia]]|]. rewrite Z.mod_small; lia.
  - assert (⟦w⟧ = 1) as W1. { pose proof (t_pos w). destruct (Z.eq_dec ⟦w⟧ 0) as [Z|]; [|lia]. assert (w = 0%uint63) as -> by (apply to_Z_inj; exact Z). discriminate Ew. }
    rewrite W1 in E. destruct (addl_spec d nl B Hnl ltac:(congruence)) as (E2 & B2 & L2). rewrite HN in E2.
    destruct (carry_spec 0%uint63 (addl d nl) _ B2) as (E3 & B3 & L3); [discriminate|reflexivity|]. change ⟦0⟧ with 0 in E3. rewrite L2, L in E3.
    set (c := snd (carry 0%uint63 (addl d nl))) in *. set (u := fst (carry 0%uint63 (addl d nl))) in *. pose proof (ev_lt _ B3) as Lu. rewrite L3, L2, L in Lu. pose proof (ev_nonneg u). pose proof (t_pos c). pose proof (pw_pos k).
    assert (⟦c⟧ = 1) as C1.
    { destruct (Z.eq_dec ⟦c⟧ 0) as [Z|NZ]; [rewrite Z in E3; lia|]. destruct (Z_le_gt_dec 2 ⟦c⟧) as [G2|]; [|lia].
      assert (pw k * 2 <= pw k * ⟦c⟧) by (apply Z.mul_le_mono_nonneg_l; lia). lia. } rewrite C1 in E3. assert (ev u = ev a - ev b + N) as EU by lia.
    split; [split; [exact B3|split; [congruence|lia]]|]. rewrite EU. rewrite <- (Z.mod_add (ev a - ev b) 1 N) by lia. symmetry. rewrite Z.mul_1_l. apply Z.mod_small. lia.
Qed.
End Mont.
