(** Elementary number theory used by the proofs: the binomial theorem in a commutative ring,
    Fermat's little theorem, and Pocklington's primality criterion. Nothing here is about the Go code. *)
Require Import ZArith Lia Bool List Znumtheory Zpow_facts Ring.
Import ListNotations.
Open Scope Z_scope.

(** ** Binomial coefficients *)

Fixpoint binom (n k : nat) : nat :=
  match n, k with
  | _, O => 1
  | O, S _ => 0
  | S n', S k' => binom n' k' + binom n' (S k')
  end%nat.

Lemma binom_0_r n : binom n 0 = 1%nat.
Proof. destruct n; reflexivity. Qed.
Lemma binom_gt n : forall k, (n < k)%nat -> binom n k = 0%nat.
Proof. induction n; intros [|k] H; try lia; cbn; [reflexivity|]. rewrite !IHn by lia. reflexivity. Qed.
Lemma binom_diag n : binom n n = 1%nat.
Proof. induction n; cbn; [reflexivity|]. rewrite IHn, binom_gt by lia. reflexivity. Qed.
Lemma binom_absorb n : forall k, (S k * binom (S n) (S k) = S n * binom n k)%nat.
Proof.
  induction n; intros k.
  - destruct k; cbn; [reflexivity|]. destruct k; cbn; lia.
  - destruct k as [|k].
    + pose proof (IHn 0%nat) as H. cbn [binom] in *. rewrite binom_0_r in *. nia.
    + pose proof (IHn k) as H1. pose proof (IHn (S k)) as H2.
      change (binom (S (S n)) (S (S k))) with (binom (S n) (S k) + binom (S n) (S (S k)))%nat.
      rewrite Nat.mul_add_distr_l, H2.
      change (binom (S n) (S k)) with (binom n k + binom n (S k))%nat in *. nia.
Qed.

Lemma prime_binom p k : prime p -> 0 < Z.of_nat k < p -> (p | Z.of_nat (binom (Z.to_nat p) k)).
Proof.
  intros Hp Hk. destruct k as [|k]; [lia|].
  destruct (Z.to_nat p) as [|n] eqn:E; [lia|].
  assert (p = Z.of_nat (S n)) as Ep by lia.
  pose proof (binom_absorb n k) as H. apply (f_equal Z.of_nat) in H. rewrite !Nat2Z.inj_mul in H.
  assert (p | Z.of_nat (S k) * Z.of_nat (binom (S n) (S k))) as D by (rewrite H, <- Ep; apply Z.divide_factor_l).
  apply Gauss with (Z.of_nat (S k)); [exact D|].
  apply rel_prime_sym, rel_prime_le_prime; [exact Hp|lia].
Qed.

(** ** Powers and the binomial theorem in a commutative ring *)

Section CommRing.
  Context {R : Type} (rO rI : R) (radd rmul rsub : R -> R -> R) (ropp : R -> R).
  Hypothesis Rth : ring_theory rO rI radd rmul rsub ropp (@eq R).
  Add Ring RRing : Rth.
  Notation "0r" := rO. Notation "1r" := rI.
  Infix "+r" := radd (at level 50, left associativity).
  Infix "*r" := rmul (at level 40, left associativity).

  Fixpoint rpow (x : R) (n : nat) : R := match n with O => rI | S k => rmul x (rpow x k) end.
  Fixpoint nmul (n : nat) (x : R) : R := match n with O => rO | S k => radd x (nmul k x) end.
  Fixpoint rsum (f : nat -> R) (n : nat) : R := match n with O => rO | S k => radd (rsum f k) (f k) end.

  Lemma rpow_add x m n : rpow x (m + n) = rpow x m *r rpow x n.
  Proof. induction m; cbn [rpow plus]; [ring|]. rewrite IHm. ring. Qed.
  Lemma rpow_1_l n : rpow rI n = rI.
  Proof. induction n; cbn; [reflexivity|]. rewrite IHn. ring. Qed.
  Lemma rpow_mul_l x y n : rpow (x *r y) n = rpow x n *r rpow y n.
  Proof. induction n; cbn; [ring|]. rewrite IHn. ring. Qed.
  Lemma rpow_mul x m n : rpow x (m * n) = rpow (rpow x m) n.
  Proof. induction n; [rewrite Nat.mul_0_r; reflexivity|]. rewrite Nat.mul_succ_r, Nat.add_comm, rpow_add. cbn. rewrite IHn. reflexivity. Qed.
  Lemma rpow_0_l n : (0 < n)%nat -> rpow rO n = rO.
  Proof. destruct n; [lia|]. intros _. cbn. ring. Qed.

  Lemma nmul_add m n x : nmul (m + n) x = nmul m x +r nmul n x.
  Proof. induction m; cbn; [ring|]. rewrite IHm. ring. Qed.
  Lemma nmul_distr n x y : nmul n (x +r y) = nmul n x +r nmul n y.
  Proof. induction n; cbn; [ring|]. rewrite IHn. ring. Qed.
  Lemma nmul_0_r n : nmul n rO = rO.
  Proof. induction n; cbn; [reflexivity|]. rewrite IHn. ring. Qed.
  Lemma nmul_mul m n x : nmul (m * n) x = nmul m (nmul n x).
  Proof. induction m; cbn; [reflexivity|]. rewrite nmul_add, IHm. reflexivity. Qed.
  Lemma nmul_rmul n x y : nmul n x *r y = nmul n (x *r y).
  Proof. induction n; cbn; [ring|]. rewrite <- IHn. ring. Qed.
  Lemma nmul_1 x : nmul 1 x = x.
  Proof. cbn. ring. Qed.

  Lemma rsum_ext f g n : (forall i, (i < n)%nat -> f i = g i) -> rsum f n = rsum g n.
  Proof. induction n; intros H; cbn; [reflexivity|]. rewrite IHn, (H n) by auto with arith. reflexivity. Qed.
  Lemma rsum_add f g n : rsum (fun i => f i +r g i) n = rsum f n +r rsum g n.
  Proof. induction n; cbn; [ring|]. rewrite IHn. ring. Qed.
  Lemma rsum_mul f c n : c *r rsum f n = rsum (fun i => c *r f i) n.
  Proof. induction n; cbn; [ring|]. rewrite <- IHn. ring. Qed.
  Lemma rsum_S_left f n : rsum f (S n) = f O +r rsum (fun i => f (S i)) n.
  Proof. induction n; [cbn; ring|]. change (rsum f (S (S n))) with (rsum f (S n) +r f (S n)). rewrite IHn. cbn. ring. Qed.

  Lemma binomial x y n : rpow (x +r y) n = rsum (fun i => nmul (binom n i) (rpow x i *r rpow y (n - i))) (S n).
  Proof.
    induction n; [cbn; ring|].
    change (rpow (x +r y) (S n)) with ((x +r y) *r rpow (x +r y) n). rewrite IHn.
    rewrite (rsum_S_left _ (S n)). rewrite binom_0_r.
    rewrite (rsum_ext (fun i => nmul (binom (S n) (S i)) (rpow x (S i) *r rpow y (S n - S i))) (fun i => nmul (binom n i) (rpow x (S i) *r rpow y (n - i)) +r nmul (binom n (S i)) (rpow x (S i) *r rpow y (n - i)))).
    2:{ intros i Hi. change (binom (S n) (S i)) with (binom n i + binom n (S i))%nat. change (S n - S i)%nat with (n - i)%nat. rewrite nmul_add. reflexivity. }
    rewrite rsum_add.
    replace ((x +r y) *r rsum (fun i => nmul (binom n i) (rpow x i *r rpow y (n - i))) (S n))
      with (x *r rsum (fun i => nmul (binom n i) (rpow x i *r rpow y (n - i))) (S n) +r
            y *r rsum (fun i => nmul (binom n i) (rpow x i *r rpow y (n - i))) (S n)) by ring.
    rewrite (rsum_mul _ x).
    rewrite (rsum_ext (fun i => x *r nmul (binom n i) (rpow x i *r rpow y (n - i))) (fun i => nmul (binom n i) (rpow x (S i) *r rpow y (n - i)))).
    2:{ intros i _. cbn [rpow].
        transitivity (nmul (binom n i) (rpow x i *r rpow y (n - i)) *r x); [ring|]. rewrite nmul_rmul. f_equal. ring. }
    assert (y *r rsum (fun i => nmul (binom n i) (rpow x i *r rpow y (n - i))) (S n) =
      nmul 1 (rpow x 0 *r rpow y (S n - 0)) +r rsum (fun i => nmul (binom n (S i)) (rpow x (S i) *r rpow y (n - i))) (S n)) as E.
    { rewrite (rsum_S_left _ n). rewrite binom_0_r.
      change (rsum (fun i => nmul (binom n (S i)) (rpow x (S i) *r rpow y (n - i))) (S n))
        with (rsum (fun i => nmul (binom n (S i)) (rpow x (S i) *r rpow y (n - i))) n +r nmul (binom n (S n)) (rpow x (S n) *r rpow y (n - n))).
      rewrite (binom_gt n (S n)) by lia. cbn [nmul].
      replace (y *r (rpow x 0 *r rpow y (n - 0) +r 0r +r rsum (fun i => nmul (binom n (S i)) (rpow x (S i) *r rpow y (n - S i))) n))
        with (y *r (rpow x 0 *r rpow y (n - 0)) +r y *r rsum (fun i => nmul (binom n (S i)) (rpow x (S i) *r rpow y (n - S i))) n) by ring.
      rewrite rsum_mul.
      rewrite (rsum_ext (fun i => y *r nmul (binom n (S i)) (rpow x (S i) *r rpow y (n - S i))) (fun i => nmul (binom n (S i)) (rpow x (S i) *r rpow y (n - i)))).
      2:{ intros i Hi. replace (n - i)%nat with (S (n - S i)) by lia. cbn [rpow].
          transitivity (nmul (binom n (S i)) (x *r rpow x i *r rpow y (n - S i)) *r y); [ring|]. rewrite nmul_rmul. f_equal. ring. }
      rewrite !Nat.sub_0_r. cbn [rpow]. ring. }
    rewrite E. ring.
  Qed.

  (** The "freshman's dream" up to a multiple of p. *)
  Lemma frobenius_mod p x y : prime p ->
    exists z, rpow (x +r y) (Z.to_nat p) = rpow x (Z.to_nat p) +r rpow y (Z.to_nat p) +r nmul (Z.to_nat p) z.
  Proof.
    intros Hp. pose proof (prime_ge_2 p Hp) as H2.
    set (P := Z.to_nat p). rewrite binomial.
    assert (exists k, P = S k) as [k EP] by (exists (P - 1)%nat; lia).
    change (rsum (fun i => nmul (binom P i) (rpow x i *r rpow y (P - i))) (S P))
      with (rsum (fun i => nmul (binom P i) (rpow x i *r rpow y (P - i))) P +r nmul (binom P P) (rpow x P *r rpow y (P - P))).
    rewrite binom_diag, Nat.sub_diag. cbn [rpow].
    assert (exists z, rsum (fun i => nmul (binom P i) (rpow x i *r rpow y (P - i))) P = rpow y P +r nmul P z) as [z Ez].
    { replace (rsum (fun i => nmul (binom P i) (rpow x i *r rpow y (P - i))) P) with
        (rsum (fun i => nmul (binom P i) (rpow x i *r rpow y (P - i))) (S k)) by (rewrite <- EP; reflexivity).
      rewrite rsum_S_left. rewrite binom_0_r, Nat.sub_0_r.
      assert (forall j, (j <= k)%nat -> exists z, rsum (fun i => nmul (binom P (S i)) (rpow x (S i) *r rpow y (P - S i))) j = nmul P z) as A.
      { induction j; intros Hj.
        - exists rO. cbn. symmetry. apply nmul_0_r.
        - destruct IHj as [z Hz]; [lia|]. cbn [rsum]. rewrite Hz.
          destruct (prime_binom p (S j) Hp ltac:(lia)) as [c Hc]. fold P in Hc.
          assert (0 <= c) by nia.
          assert (binom P (S j) = P * Z.to_nat c)%nat as -> by (apply Nat2Z.inj; rewrite Nat2Z.inj_mul, Hc; unfold P; rewrite !Z2Nat.id by lia; lia).
          rewrite nmul_mul, <- nmul_distr. eexists. reflexivity. }
      destruct (A k (le_n k)) as [z Hz]. exists z. rewrite Hz. cbn [nmul rpow]. ring. }
    rewrite Ez. exists z. rewrite nmul_1. ring.
  Qed.

  (** In characteristic p the p-th power map is additive. *)
  Lemma frobenius_add p x y : prime p -> (forall z, nmul (Z.to_nat p) z = rO) ->
    rpow (x +r y) (Z.to_nat p) = rpow x (Z.to_nat p) +r rpow y (Z.to_nat p).
  Proof. intros Hp Hc. destruct (frobenius_mod p x y Hp) as [z ->]. rewrite Hc. ring. Qed.
End CommRing.

(** ** Fermat's little theorem *)

Lemma Zrpow a n : rpow 1 Z.mul a n = a ^ Z.of_nat n.
Proof. induction n; [reflexivity|]. cbn [rpow]. rewrite IHn, Nat2Z.inj_succ, Z.pow_succ_r by lia. reflexivity. Qed.
Lemma Znmul n z : nmul 0 Z.add n z = Z.of_nat n * z.
Proof. induction n; [reflexivity|]. cbn [nmul]. rewrite IHn. lia. Qed.

Lemma fermat_nat p : prime p -> forall a : nat, (p | Z.of_nat a ^ p - Z.of_nat a).
Proof.
  intros Hp. pose proof (prime_ge_2 p Hp). induction a as [|a IH].
  - change (Z.of_nat 0) with 0. rewrite Z.pow_0_l by lia. exists 0. lia.
  - destruct (frobenius_mod 0 1 Z.add Z.mul Z.sub Z.opp Zth p (Z.of_nat a) 1 Hp) as [z Hz].
    rewrite !Zrpow, Znmul, !Z2Nat.id in Hz by lia. rewrite Z.pow_1_l in Hz by lia.
    destruct IH as [k Hk]. exists (k + z). rewrite Nat2Z.inj_succ. unfold Z.succ. rewrite Hz. lia.
Qed.

Lemma mod_eq_divide a b m : m <> 0 -> (a mod m = b mod m <-> (m | a - b)).
Proof.
  intros Hm. split; intros H.
  - apply Z.mod_divide; [assumption|]. rewrite Zminus_mod, H, Z.sub_diag. apply Z.mod_0_l; assumption.
  - destruct H as [k Hk]. replace a with (b + k * m) by lia. apply Z.mod_add; assumption.
Qed.

Lemma mod_1_divide a m : 1 < m -> (a mod m = 1 <-> (m | a - 1)).
Proof. intros H. rewrite <- mod_eq_divide by lia. rewrite (Z.mod_small 1 m) by lia. reflexivity. Qed.

Lemma fermat_full p a : prime p -> a ^ p mod p = a mod p.
Proof.
  intros Hp. pose proof (prime_ge_2 p Hp).
  rewrite Zpower_mod by lia.
  pose proof (Z.mod_pos_bound a p ltac:(lia)) as Hb. set (b := a mod p) in *.
  replace b with (b mod p) at 2 by (apply Z.mod_small; lia).
  apply mod_eq_divide; [lia|]. rewrite <- (Z2Nat.id b) by lia. apply fermat_nat. assumption.
Qed.

Lemma fermat p a : prime p -> ~ (p | a) -> a ^ (p - 1) mod p = 1.
Proof.
  intros Hp Ha. pose proof (prime_ge_2 p Hp).
  pose proof (fermat_full p a Hp) as F. apply mod_eq_divide in F; [|lia].
  replace (a ^ p) with (a ^ Z.succ (p - 1)) in F by (f_equal; lia). rewrite Z.pow_succ_r in F by lia.
  replace (a * a ^ (p-1) - a) with (a * (a^(p-1) - 1)) in F by ring.
  destruct (prime_mult p Hp _ _ F) as [D|D]; [contradiction|].
  apply mod_1_divide; [lia|exact D].
Qed.

(** ** Prime divisors *)

Lemma prime_divisor_exists n : 1 < n -> exists p, prime p /\ (p | n).
Proof.
  intros Hn. assert (0 <= n) as H0 by lia. revert Hn. pattern n. apply Z_lt_induction; [|assumption]. clear n H0.
  intros n IH Hn. destruct (prime_dec n) as [P|P]; [exists n; split; [assumption|apply Z.divide_refl]|].
  apply not_prime_divide in P; [|assumption]. destruct P as (m & Hm & D).
  destruct (IH m) as (p & Hp & Dp); [lia|lia|]. exists p. split; [assumption|]. eapply Z.divide_trans; eassumption.
Qed.

Lemma small_prime_divisor n : 1 < n -> ~ prime n -> exists p, prime p /\ (p | n) /\ p * p <= n.
Proof.
  intros Hn P. apply not_prime_divide in P; [|assumption]. destruct P as (m & Hm & [k Hk]).
  assert (1 < k) by nia.
  destruct (Z.le_gt_cases m k).
  - destruct (prime_divisor_exists m) as (p & Hp & D); [lia|]. exists p. split; [assumption|].
    pose proof (prime_ge_2 p Hp). assert (p <= m) by (apply Z.divide_pos_le; [lia|assumption]).
    split; [eapply Z.divide_trans; [exact D|exists k; lia]|nia].
  - destruct (prime_divisor_exists k) as (p & Hp & D); [lia|]. exists p. split; [assumption|].
    pose proof (prime_ge_2 p Hp). assert (p <= k) by (apply Z.divide_pos_le; [lia|assumption]).
    split; [eapply Z.divide_trans; [exact D|exists m; lia]|nia].
Qed.

(** Trial division. *)
Fixpoint no_divisor (k : nat) (d n : Z) : bool :=
  match k with O => true | S k' => negb (n mod d =? 0) && no_divisor k' (d + 1) n end.

Lemma no_divisor_spec k : forall d n, 0 < d -> no_divisor k d n = true -> forall e, d <= e < d + Z.of_nat k -> ~ (e | n).
Proof.
  induction k as [|k IH]; intros d n Hd H e He; [lia|].
  cbn in H. apply andb_true_iff in H. destruct H as [H1 H2].
  destruct (Z.eq_dec e d) as [->|].
  - intros D. apply Z.mod_divide in D; [|lia]. rewrite D in H1. discriminate.
  - apply (IH (d + 1) n); [lia|assumption|lia].
Qed.

Definition trial_prime (n : Z) : bool := (1 <? n) && no_divisor (Z.to_nat (Z.sqrt n)) 2 n.

Lemma trial_prime_spec n : trial_prime n = true -> prime n.
Proof.
  unfold trial_prime. rewrite andb_true_iff, Z.ltb_lt. intros [Hn H].
  destruct (prime_dec n) as [P|P]; [assumption|exfalso].
  destruct (small_prime_divisor n Hn P) as (p & Hp & D & Hs). pose proof (prime_ge_2 p Hp).
  pose proof (Z.sqrt_nonneg n).
  apply (no_divisor_spec _ 2 n eq_refl H p); [|assumption]. 
  assert (p <= Z.sqrt n) by (apply Z.sqrt_le_square; lia). lia.
Qed.

(** ** Pocklington *)

Lemma pow_mod_1_mul a m d k : 1 < m -> 0 <= d -> 0 <= k -> a ^ d mod m = 1 -> a ^ (d * k) mod m = 1.
Proof.
  intros Hm Hd Hk H. rewrite Z.pow_mul_r by assumption. rewrite Zpower_mod, H by lia.
  rewrite Z.pow_1_l by assumption. apply Z.mod_small; lia.
Qed.

Lemma pow_mod_gcd l x : 1 < l -> forall n m, 0 <= m -> 0 <= n -> x ^ m mod l = 1 -> x ^ n mod l = 1 -> x ^ Z.gcd m n mod l = 1.
Proof.
  intros Hl n m Hm Hn. revert m Hm. pattern n. apply Z_lt_induction; [|assumption]. clear n Hn.
  intros n IH m Hm H1 H2. destruct (Z.lt_ge_cases 0 n) as [Hn|Hn].
  - rewrite Z.gcd_comm, <- Z.gcd_mod by lia. rewrite Z.gcd_comm.
    pose proof (Z.mod_pos_bound m n Hn). pose proof (Z.div_pos m n Hm Hn).
    apply IH; [lia|lia|assumption|].
    pose proof (Z.div_mod m n ltac:(lia)) as E. rewrite E in H1.
    rewrite Z.pow_add_r in H1 by nia. rewrite Zmult_mod, pow_mod_1_mul in H1 by (assumption || lia).
    rewrite Z.mul_1_l, Z.mod_mod in H1 by lia. exact H1.
  - destruct (Z.eq_dec n 0) as [->|]; [rewrite Z.gcd_0_r, Z.abs_eq by lia; assumption|].
    rewrite Z.pow_neg_r in H2 by lia. rewrite Z.mod_0_l in H2 by lia. discriminate.
Qed.

(** One prime power of n-1. *)
Lemma pock_step n a p e l : 1 < n -> prime p -> 0 <= e -> (p ^ e | n - 1) -> (p | n - 1) ->
  a ^ (n - 1) mod n = 1 -> Z.gcd (a ^ ((n - 1) / p) - 1) n = 1 ->
  prime l -> (l | n) -> (p ^ e | l - 1).
Proof.
  intros Hn Hp He Dpe Dp H1 H2 Hl Dl. pose proof (prime_ge_2 l Hl). pose proof (prime_ge_2 p Hp).
  assert (a ^ (n-1) mod l = 1) as H1l.
  { apply mod_1_divide in H1; [|lia]. apply mod_1_divide; [lia|]. eapply Z.divide_trans; eassumption. }
  assert (~ (l | a)) as Hla.
  { intros D. apply Z.mod_divide in D; [|lia]. rewrite Zpower_mod, D in H1l by lia. rewrite Z.pow_0_l in H1l by lia. rewrite Z.mod_0_l in H1l by lia. discriminate. }
  pose proof (fermat l a Hl Hla) as Hf.
  set (d := Z.gcd (n - 1) (l - 1)).
  assert (a ^ d mod l = 1) as Hd by (apply pow_mod_gcd; (assumption || lia)).
  pose proof (Z.gcd_nonneg (n-1) (l-1)) as Hd0. fold d in Hd0.
  destruct (Z.gcd_divide_l (n-1) (l-1)) as [k Hk]. fold d in Hk.
  assert (0 < d) by (destruct (Z.eq_dec d 0) as [E|]; [rewrite E in Hk; lia|lia]). assert (0 < k) by nia.
  destruct (Zdivide_dec p k) as [[j Hj]|Hpk].
  - exfalso. assert ((n - 1)/p = d * j) as E by (rewrite Hk, Hj; replace (j * p * d) with (d * j * p) by ring; apply Z.div_mul; lia).
    assert (a ^ ((n-1)/p) mod l = 1) as Hx by (rewrite E; apply pow_mod_1_mul; (assumption || nia)).
    apply mod_1_divide in Hx; [|lia].
    assert (l | 1) as D1 by (rewrite <- H2; apply Z.gcd_greatest; assumption).
    apply Z.divide_pos_le in D1; lia.
  - apply Z.divide_trans with d; [|apply Z.gcd_divide_r].
    apply Gauss with k; [rewrite <- Hk; assumption|].
    apply rel_prime_sym. apply rel_prime_Zpower_r; [assumption|]. apply rel_prime_sym. apply prime_rel_prime; assumption.
Qed.

(** Certificate: a base and the list of (prime, exponent) pairs used. *)
Definition cert_F (l : list (Z * Z)) : Z := fold_right (fun pe acc => fst pe ^ snd pe * acc) 1 l.

(** Powers of two modulo n, with the reduction quotients supplied as hints (any hint is sound; good hints
    keep the numbers small). An entry (b, k) means "square, multiply by 2 if b, subtract k*n". *)
Fixpoint chain (n x : Z) (l : list (bool * Z)) : Z :=
  match l with
  | [] => x
  | (b, k) :: l' => chain n ((if b : bool then 2 * (x * x) else x * x) - k * n) l'
  end.
Fixpoint chain_exp (e : Z) (l : list (bool * Z)) : Z :=
  match l with [] => e | (b, _) :: l' => chain_exp (if b : bool then 2 * e + 1 else 2 * e) l' end.

Lemma chain_exp_nonneg l : forall e, 0 <= e -> 0 <= chain_exp e l.
Proof. induction l as [|[[|] k] l IH]; intros e He; cbn [chain_exp]; [assumption| |]; apply IH; lia. Qed.

Lemma chain_spec n l : 1 < n -> forall x e, 0 <= e -> x mod n = 2 ^ e mod n -> chain n x l mod n = 2 ^ chain_exp e l mod n.
Proof.
  intros Hn. induction l as [|[b k] l IH]; intros x e He H; cbn [chain chain_exp]; [assumption|].
  apply IH; [destruct b; lia|].
  rewrite Zminus_mod, Z.mod_mul, Z.sub_0_r, Z.mod_mod by lia.
  assert ((x * x) mod n = 2 ^ (2 * e) mod n) as E.
  { rewrite Zmult_mod, H, <- Zmult_mod. f_equal. rewrite <- Z.pow_add_r by lia. f_equal. lia. }
  destruct b; [|exact E].
  rewrite Z.pow_add_r, Z.mul_comm, Zmult_mod, E, <- Zmult_mod by lia. reflexivity.
Qed.

(** Certificate: for each prime power p^e, a chain for 2^((n-1)/p) and a modular inverse (z, k) of that power minus 1. *)
Definition pcert : Type := Z * Z * list (bool * Z) * Z * Z.
Definition pc_pe (c : pcert) : Z * Z := let '(p, e, _, _, _) := c in (p, e).

Definition pock_check (n : Z) (main : list (bool * Z)) (l : list pcert) : bool :=
  (1 <? n) && (chain_exp 0 main =? n - 1) && (chain n 1 main =? 1) &&
  forallb (fun c : pcert => let '(p, e, ch, z, k) := c in
             (0 <? e) && (chain_exp 0 ch * p =? n - 1) && ((chain n 1 ch - 1) * z =? k * n + 1)) l &&
  ((n - 1) mod cert_F (map pc_pe l) =? 0) && (n <? cert_F (map pc_pe l) * cert_F (map pc_pe l)).

Fixpoint pairwise_neq (l : list Z) : bool :=
  match l with [] => true | x :: l' => forallb (fun y => negb (x =? y)) l' && pairwise_neq l' end.

Lemma cert_F_divide l d : pairwise_neq (map fst l) = true -> Forall (fun pe => prime (fst pe) /\ 0 <= snd pe /\ (fst pe ^ snd pe | d)) l ->
  (cert_F l | d).
Proof.
  induction l as [|[p e] l IH]; intros Hn H; [apply Z.divide_1_l|].
  apply Forall_cons_iff in H. destruct H as [(Hp & He & Hd) Hl]. cbn in Hn. apply andb_true_iff in Hn. destruct Hn as [Hn1 Hn2].
  cbn [cert_F fold_right fst snd] in *. fold (cert_F l).
  destruct (IH Hn2 Hl) as [k Hk].
  assert (rel_prime (p ^ e) (cert_F l)) as RP.
  { apply rel_prime_sym. apply rel_prime_Zpower_r; [assumption|]. apply rel_prime_sym.
    clear - Hp Hn1 Hl. induction l as [|[p' e'] l IH]; [apply rel_prime_sym, rel_prime_1|].
    apply Forall_cons_iff in Hl. destruct Hl as [(Hp' & He' & _) Hl]. cbn in *. apply andb_true_iff in Hn1. destruct Hn1 as [N1 N2].
    apply rel_prime_mult.
    - apply rel_prime_Zpower_r; [assumption|]. apply prime_rel_prime; [assumption|]. intros D.
      apply prime_div_prime in D; [|assumption|assumption]. subst. rewrite Z.eqb_refl in N1. discriminate.
    - apply IH; assumption. }
  rewrite Hk in Hd |- *. rewrite Z.mul_comm. 
  assert (p ^ e | k) as [j ->] by (apply Gauss with (cert_F l); [rewrite Z.mul_comm; exact Hd|exact RP]).
  exists j. ring.
Qed.

Theorem pocklington n main l : pairwise_neq (map fst (map pc_pe l)) = true -> Forall (fun c => prime (fst (pc_pe c))) l ->
  pock_check n main l = true -> prime n.
Proof.
  intros Hpn Hpr H. unfold pock_check in H. rewrite !andb_true_iff in H. destruct H as [[[[[Hn He1] H1] Hl] HF] HF2].
  apply Z.ltb_lt in Hn. apply Z.eqb_eq in H1, He1, HF. apply Z.ltb_lt in HF2.
  assert (2 ^ (n - 1) mod n = 1) as Hmain.
  { rewrite <- He1, <- (chain_spec n main Hn 1 0), H1; [apply Z.mod_small; lia|lia|reflexivity]. }
  destruct (prime_dec n) as [P|P]; [assumption|exfalso].
  destruct (small_prime_divisor n Hn P) as (p & Hp & D & Hs). pose proof (prime_ge_2 p Hp).
  set (F := cert_F (map pc_pe l)) in *.
  assert (F <> 0) as Fne by lia.
  apply Z.mod_divide in HF; [|assumption].
  assert (F | p - 1) as DF.
  { apply cert_F_divide; [assumption|]. apply Forall_map.
    apply Forall_forall. intros [[[[r e] ch] z] k] Hin.
    rewrite Forall_forall in Hpr. pose proof (Hpr _ Hin) as Hr. cbn in Hr |- *.
    rewrite forallb_forall in Hl. specialize (Hl _ Hin). cbn beta iota in Hl. rewrite !andb_true_iff in Hl. destruct Hl as [[He Hd] Hg].
    apply Z.ltb_lt in He. apply Z.eqb_eq in Hd, Hg. pose proof (prime_ge_2 r Hr).
    pose proof (chain_exp_nonneg ch 0 ltac:(lia)) as Hce.
    assert ((n - 1) / r = chain_exp 0 ch) as Ediv by (rewrite <- Hd; apply Z.div_mul; lia).
    split; [assumption|]. split; [lia|].
    apply (pock_step n 2 r e p); try assumption; try lia.
    - apply Z.divide_trans with F; [|assumption]. unfold F. clear - Hin. induction l as [|x l IH]; [destruct Hin|].
      cbn [map cert_F fold_right]. destruct Hin as [->|Hin]; [apply Z.divide_factor_l|]. apply Z.divide_mul_r. apply IH; assumption.
    - exists (chain_exp 0 ch). lia.
    - rewrite Ediv. pose proof (chain_spec n ch Hn 1 0 ltac:(lia) eq_refl) as E.
      assert (forall x, Z.gcd x n = Z.gcd (x mod n) n) as GM by (intros x; rewrite Z.gcd_mod by lia; apply Z.gcd_comm).
      rewrite GM, Zminus_mod, <- E, <- Zminus_mod, <- GM.
      set (w := chain n 1 ch - 1) in *. 
      apply Z.gcd_unique; [lia|apply Z.divide_1_l|apply Z.divide_1_l|].
      intros d [a Da] [b Db]. exists (a * z - k * b). rewrite Z.mul_sub_distr_r.
      replace (a * z * d) with ((a * d) * z) by ring. replace (k * b * d) with (k * (b * d)) by ring. rewrite <- Da, <- Db. lia. }
  apply Z.divide_pos_le in DF; [|lia].
  assert (0 <= F).
  { unfold F. clear - Hpr. induction l as [|c l IH]; [cbn; lia|]. apply Forall_cons_iff in Hpr. destruct Hpr as [Hr Hl].
    cbn [map cert_F fold_right]. pose proof (prime_ge_2 _ Hr). apply Z.mul_nonneg_nonneg; [apply Z.pow_nonneg; lia|apply IH; assumption]. }
  nia.
Qed.
