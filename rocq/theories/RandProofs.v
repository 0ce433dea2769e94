(** Random generators on readers: what they return for every sequence of chunks. *)
Require Import ZArith Lia Bool List.
From Verif Require Import Words ModelRepr ReprProofs2 ModelFq ModelFr ModelOps ModelTower ModelRand.
Import ListNotations.
Open Scope Z_scope.

(** ** Specification: the stream cut into windows of k bytes; the first window whose low [bits] bits are a
    number below max *)
Inductive first_below (max : Z) (k : nat) (bits : Z) : list Z -> Z -> list Z -> Prop :=
| fb_hit w s : length w = k -> be_value w mod 2 ^ bits < max -> first_below max k bits (w ++ s) (be_value w mod 2 ^ bits) s
| fb_skip w s v rest : length w = k -> max <= be_value w mod 2 ^ bits -> first_below max k bits s v rest -> first_below max k bits (w ++ s) v rest.
Inductive none_below (max : Z) (k : nat) (bits : Z) : list Z -> Prop :=
| nb_short s : (length s < k)%nat -> none_below max k bits s
| nb_skip w s : length w = k -> max <= be_value w mod 2 ^ bits -> none_below max k bits s -> none_below max k bits (w ++ s).

Lemma app_len_inv {A} (a b c d : list A) : length a = length c -> a ++ b = c ++ d -> a = c /\ b = d.
Proof. revert c. induction a as [|x a IH]; intros [|y c] L E; try discriminate; [split; [reflexivity|exact E]|]. injection L as L. injection E as -> E. destruct (IH c L E) as [-> ->]. split; reflexivity. Qed.
Lemma first_below_bound max k bits s v rest : 0 <= bits -> first_below max k bits s v rest -> 0 <= v < max.
Proof. intros Hb. induction 1; [|assumption]. split; [|assumption]. apply Z.mod_pos_bound. apply Z.pow_pos_nonneg; lia. Qed.
Lemma fb_inv max k bits w s v rest : length w = k -> first_below max k bits (w ++ s) v rest ->
  (be_value w mod 2 ^ bits < max /\ v = be_value w mod 2 ^ bits /\ rest = s) \/ (max <= be_value w mod 2 ^ bits /\ first_below max k bits s v rest).
Proof.
  intros L F. remember (w ++ s) as t eqn:Et. destruct F as [w' s' L' H|w' s' v rest L' H F].
  - destruct (app_len_inv w' s' w s) as [-> ->]; [congruence|exact Et|]. left. auto.
  - destruct (app_len_inv w' s' w s) as [-> ->]; [congruence|exact Et|]. right. auto.
Qed.
Lemma nb_inv max k bits w s : length w = k -> none_below max k bits (w ++ s) -> max <= be_value w mod 2 ^ bits /\ none_below max k bits s.
Proof.
  intros L N. remember (w ++ s) as t eqn:Et. destruct N as [s' L'|w' s' L' H N].
  - subst s'. rewrite app_length in L'. lia.
  - destruct (app_len_inv w' s' w s) as [-> ->]; [congruence|exact Et|]. auto.
Qed.
Lemma first_below_fun max k bits s v rest : first_below max k bits s v rest -> forall v' rest', first_below max k bits s v' rest' -> v = v' /\ rest = rest'.
Proof.
  induction 1 as [w s L H|w s v rest L H F IH]; intros v' rest' F'; destruct (fb_inv _ _ _ _ _ _ _ L F') as [(H' & -> & ->)|(H' & F'')]; try lia; [split; reflexivity|apply IH; exact F''].
Qed.
Lemma first_not_none max k bits s v rest : first_below max k bits s v rest -> ~ none_below max k bits s.
Proof. induction 1 as [w s L H|w s v rest L H F IH]; intros N; destruct (nb_inv _ _ _ _ _ L N) as [H' N']; [lia|exact (IH N')]. Qed.

(** ** Readers *)
Definition nonempty (r : Reader) : Prop := Forall (fun c => c <> []) r.
Lemma ReadFull_ok r : forall n, match ReadFull r n with
  | (Some l, r') => concat r = l ++ concat r' /\ length l = n /\ (nonempty r -> nonempty r')
  | (None, r') => (length (concat r) < n)%nat /\ r' = [] end.
Proof.
  induction r as [|c rest IH]; intros n; (destruct n as [|n]; [cbn [ReadFull]; split; [reflexivity|]; split; [reflexivity|auto]|]).
  - cbn. split; [lia|reflexivity].
  - cbn [ReadFull concat]. destruct (Nat.leb_spec (length c) (S n)) as [L|L].
    + specialize (IH (S n - length c)%nat). destruct (ReadFull rest (S n - length c)) as [[l|] r'].
      * destruct IH as (E & Ll & K). split; [rewrite E, app_assoc; reflexivity|]. split; [rewrite app_length; lia|]. intros N. inversion_clear N. auto.
      * destruct IH as [E ->]. split; [rewrite app_length; lia|reflexivity].
    + cbn [concat]. split; [rewrite app_assoc, firstn_skipn; reflexivity|]. split; [apply firstn_length_le; lia|]. intros N. inversion_clear N. constructor; [|assumption].
      intros X. apply (f_equal (@length Z)) in X. rewrite skipn_length in X. cbn in X. lia.
Qed.
Lemma Read1_ok r : match Read r 1 with
  | (None, r') => r = [] /\ r' = []
  | (Some l, r') => (l = [] /\ r = [] :: r') \/ (exists x, l = [x] /\ concat r = x :: concat r' /\ (nonempty r -> nonempty r')) end.
Proof.
  destruct r as [|c rest]; cbn [Read]; [split; reflexivity|]. destruct c as [|x [|y c]]; cbn [length Nat.leb firstn skipn].
  - left. split; reflexivity.
  - right. exists x. split; [reflexivity|]. split; [reflexivity|]. intros N. inversion_clear N. assumption.
  - right. exists x. split; [reflexivity|]. split; [reflexivity|]. intros N. inversion_clear N. constructor; [discriminate|assumption].
Qed.

(** ** rand.Int *)
Lemma mask_value x rest b : isByte x -> Forall isByte rest -> 1 <= b <= 8 ->
  big_SetBytes (wand x (wand (Z.shiftl 1 b - 1) 255) :: rest) = be_value (x :: rest) mod 2 ^ (8 * Z.of_nat (length rest) + b).
Proof.
  intros Hx Hr Hb. change (big_SetBytes (wand x (wand (Z.shiftl 1 b - 1) 255) :: rest)) with (be_value ([wand x (wand (Z.shiftl 1 b - 1) 255)] ++ rest)).
  change (x :: rest) with ([x] ++ rest). rewrite !be_value_app. change (be_value [?a]) with (0 * 256 + a).
  assert (wand x (wand (Z.shiftl 1 b - 1) 255) = x mod 2 ^ b) as E.
  { unfold wand. assert (Z.land (Z.shiftl 1 b - 1) 255 = Z.ones b) as ->.
    { assert (b = 1 \/ b = 2 \/ b = 3 \/ b = 4 \/ b = 5 \/ b = 6 \/ b = 7 \/ b = 8) as D by lia. repeat (destruct D as [->|D]; [reflexivity|]). subst b. reflexivity. }
    apply Z.land_ones. lia. }
  change (be_value [wand x (wand (Z.shiftl 1 b - 1) 255)]) with (0 * 256 + wand x (wand (Z.shiftl 1 b - 1) 255)). change (be_value [x]) with (0 * 256 + x).
  rewrite E, !Z.add_0_l. set (n := Z.of_nat (length rest)). pose proof (be_value_bound rest Hr) as Bv. fold n in Bv. assert (0 <= n) by (unfold n; lia).
  replace (256 ^ n) with (2 ^ (8 * n)) in * by (change 256 with (2 ^ 8); rewrite <- Z.pow_mul_r by lia; reflexivity).
  rewrite Z.pow_add_r by lia. set (M := 2 ^ (8 * n)) in *. assert (0 < 2 ^ b) by (apply Z.pow_pos_nonneg; lia).
  apply (Z.mod_unique_pos _ _ (x / 2 ^ b)).
  - pose proof (Z.mod_pos_bound x (2 ^ b)). nia.
  - pose proof (Z.div_mod x (2 ^ b)). nia.
Qed.
Lemma rand_loop_ok max k b : (0 < k)%nat -> 1 <= b <= 8 -> forall fuel r, Forall isByte (concat r) -> (length (concat r) < fuel)%nat ->
  match rand_loop fuel r max k b with
  | None => False
  | Some (Some v, r') => first_below max k (8 * (Z.of_nat k - 1) + b) (concat r) v (concat r') /\ (nonempty r -> nonempty r') /\ Forall isByte (concat r')
  | Some (None, r') => none_below max k (8 * (Z.of_nat k - 1) + b) (concat r) /\ r' = [] end.
Proof.
  intros Hk Hb. induction fuel as [|fuel IH]; intros r Hr Hf; [lia|]. cbn [rand_loop]. pose proof (ReadFull_ok r k) as RF. destruct (ReadFull r k) as [[bytes|] r'].
  - destruct RF as (E & L & N). destruct bytes as [|x rest]; [cbn in L; lia|]. rewrite E in Hr. apply Forall_app in Hr. destruct Hr as [Hw Hr']. inversion_clear Hw as [|? ? Hx Hrest].
    cbv zeta. rewrite (mask_value x rest b Hx Hrest Hb). assert (Z.of_nat (length rest) = Z.of_nat k - 1) as -> by (cbn [length] in L; lia).
    destruct (Z.ltb_spec (be_value (x :: rest) mod 2 ^ (8 * (Z.of_nat k - 1) + b)) max) as [Lt|Ge].
    + rewrite E. split; [apply fb_hit; assumption|]. split; assumption.
    + assert (length (concat r') < fuel)%nat as Hf' by (rewrite E, app_length in Hf; cbn [length] in *; lia). specialize (IH r' Hr' Hf'). destruct (rand_loop fuel r' max k b) as [[[v|] r'']|]; [| |exact IH].
      * destruct IH as (I1 & I2 & I3). rewrite E. split; [apply fb_skip; assumption|]. split; [auto|assumption].
      * destruct IH as (I1 & I2). rewrite E. split; [apply nb_skip; assumption|assumption].
  - destruct RF as [L ->]. split; [apply nb_short; exact L|reflexivity].
Qed.
(** the width of a number below max: [bits] bits in [k] bytes *)
Theorem rand_Int_ok max r : 1 < max -> Forall isByte (concat r) -> exists k bits, (0 < k)%nat /\ 8 * (Z.of_nat k - 1) < bits <= 8 * Z.of_nat k /\ 2 ^ (bits - 1) <= max - 1 < 2 ^ bits /\
  match rand_Int r max with
  | None => False
  | Some (Some v, r') => first_below max k bits (concat r) v (concat r') /\ (nonempty r -> nonempty r') /\ Forall isByte (concat r')
  | Some (None, r') => none_below max k bits (concat r) /\ r' = [] end.
Proof.
  intros Hm Hr. unfold rand_Int. destruct (Z.leb_spec max 0) as [X|_]; [lia|]. cbv zeta. unfold big_BitLen. rewrite Z.abs_eq by lia.
  pose proof (bitlen_bounds (max - 1) ltac:(lia)) as BB. pose proof (bitlen_pos (max - 1) ltac:(lia)) as BP. set (n := bitlen (max - 1)) in *. destruct (Z.eqb_spec n 0) as [X|_]; [lia|].
  set (b := if n mod 8 =? 0 then 8 else n mod 8). set (k := Z.to_nat ((n + 7) / 8)).
  assert (1 <= b <= 8 /\ n = 8 * (Z.of_nat k - 1) + b /\ (0 < k)%nat) as (Hb & En & Hk).
  { assert (0 <= (n + 7) / 8) by (apply Z.div_pos; lia). assert (Z.of_nat k = (n + 7) / 8) as Ek by (unfold k; rewrite Z2Nat.id by lia; reflexivity). pose proof (Z.mod_pos_bound n 8 ltac:(lia)) as M. pose proof (Z.div_mod n 8 ltac:(lia)) as D.
    pose proof (Z.div_mod (n + 7) 8 ltac:(lia)) as D7. pose proof (Z.mod_pos_bound (n + 7) 8 ltac:(lia)) as M7. unfold b. destruct (Z.eqb_spec (n mod 8) 0); lia. }
  exists k, n. split; [exact Hk|]. split; [lia|]. split; [exact BB|]. pose proof (rand_loop_ok max k b Hk Hb (S (length (concat r))) r Hr ltac:(lia)) as H. rewrite <- En in H. exact H.
Qed.

(** ** Windows and their values: every value comes from the same number of windows *)
Fixpoint be_bytes (k : nat) (v : Z) : list Z := match k with O => [] | S k => be_bytes k (v / 256) ++ [v mod 256] end.
Lemma be_bytes_ok k : forall v, 0 <= v < 256 ^ Z.of_nat k -> length (be_bytes k v) = k /\ Forall isByte (be_bytes k v) /\ be_value (be_bytes k v) = v.
Proof.
  induction k as [|k IH]; intros v Hv; [cbn in *; split; [reflexivity|]; split; [constructor|lia]|]. cbn [be_bytes]. rewrite Nat2Z.inj_succ, Z.pow_succ_r in Hv by lia.
  pose proof (Z.mod_pos_bound v 256 ltac:(lia)) as M. pose proof (Z.div_mod v 256 ltac:(lia)) as D. destruct (IH (v / 256)) as (L & F & V); [split; [apply Z.div_pos; lia|apply Z.div_lt_upper_bound; lia]|].
  split; [rewrite app_length, L; cbn; lia|]. split; [apply Forall_app; split; [exact F|constructor; [exact M|constructor]]|]. rewrite be_value_app, V. cbn [length]. change (256 ^ Z.of_nat 1) with 256. change (be_value [v mod 256]) with (0 * 256 + v mod 256). lia.
Qed.
Definition windows (k : nat) (bits v : Z) : list (list Z) := map (fun j => be_bytes k (v + 2 ^ bits * Z.of_nat j)) (seq 0 (Z.to_nat (2 ^ (8 * Z.of_nat k - bits)))).
Theorem windows_ok k bits v : 0 <= bits <= 8 * Z.of_nat k -> 0 <= v < 2 ^ bits ->
  NoDup (windows k bits v) /\ length (windows k bits v) = Z.to_nat (2 ^ (8 * Z.of_nat k - bits)) /\
  forall w, In w (windows k bits v) <-> length w = k /\ Forall isByte w /\ be_value w mod 2 ^ bits = v.
Proof.
  intros Hb Hv. set (N := 2 ^ (8 * Z.of_nat k - bits)). assert (0 < N) by (apply Z.pow_pos_nonneg; lia). assert (0 < 2 ^ bits) by (apply Z.pow_pos_nonneg; lia).
  assert (256 ^ Z.of_nat k = 2 ^ bits * N) as EN. { unfold N. rewrite <- Z.pow_add_r by lia. change 256 with (2 ^ 8). rewrite <- Z.pow_mul_r by lia. f_equal. lia. }
  assert (forall j, In j (seq 0 (Z.to_nat N)) -> 0 <= v + 2 ^ bits * Z.of_nat j < 256 ^ Z.of_nat k) as HJ. { intros j Hj. apply in_seq in Hj. rewrite EN. assert (Z.of_nat j < N) by lia. nia. }
  unfold windows. fold N. split; [|split].
  - apply NoDup_nth_error. intros i j Hi E. rewrite map_length, seq_length in Hi. rewrite !nth_error_map in E. destruct (nth_error (seq 0 (Z.to_nat N)) i) as [a|] eqn:Ea; [|apply nth_error_None in Ea; rewrite seq_length in Ea; lia].
    destruct (nth_error (seq 0 (Z.to_nat N)) j) as [b|] eqn:Eb; [|discriminate E]. cbn [option_map] in E. apply (f_equal (fun o => match o with Some l => be_value l | None => 0 end)) in E.
    rewrite (proj2 (proj2 (be_bytes_ok k _ (HJ _ (nth_error_In _ _ Ea))))), (proj2 (proj2 (be_bytes_ok k _ (HJ _ (nth_error_In _ _ Eb))))) in E. assert (a = b) as X by nia. subst b.
    assert (forall m a, nth_error (seq 0 (Z.to_nat N)) m = Some a -> m = a) as HS. { intros m c Hm. assert (m < Z.to_nat N)%nat as Lm by (rewrite <- (seq_length (Z.to_nat N) 0); apply nth_error_Some; rewrite Hm; discriminate). pose proof (seq_nth 0 0%nat Lm) as S. rewrite (nth_error_nth _ _ 0%nat Hm) in S. cbn in S. symmetry. exact S. }
    rewrite (HS i a Ea), (HS j a Eb). reflexivity.
  - rewrite map_length, seq_length. reflexivity.
  - intros w. rewrite in_map_iff. split.
    + intros (j & <- & Hj). destruct (be_bytes_ok k _ (HJ j Hj)) as (L & F & V). split; [exact L|]. split; [exact F|]. rewrite V, Z.mul_comm, Z.mod_add by lia. apply Z.mod_small. exact Hv.
    + intros (L & F & V). pose proof (be_value_bound w F) as Bw. rewrite L, EN in Bw. pose proof (Z.div_mod (be_value w) (2 ^ bits) ltac:(lia)) as D. assert (0 <= be_value w / 2 ^ bits < N) as Hq by (split; [apply Z.div_pos; lia|apply Z.div_lt_upper_bound; lia]).
      exists (Z.to_nat (be_value w / 2 ^ bits)). assert (In (Z.to_nat (be_value w / 2 ^ bits)) (seq 0 (Z.to_nat N))) as Hj by (apply in_seq; lia). split; [|exact Hj].
      destruct (be_bytes_ok k _ (HJ _ Hj)) as (L' & F' & V'). apply be_value_inj; [exact F'|exact F|congruence|]. rewrite V', Z2Nat.id by lia. lia.
Qed.
