(** Pocklington's criterion with modular powers computed on machine integers (UNat.v). *)
Require Import ZArith Lia Bool List Znumtheory Uint63.
From Verif Require Import NumTheory UNat.
Import ListNotations.
Open Scope Z_scope.

Theorem pocklington_pow n (l : list (Z * Z)) : 1 < n -> pairwise_neq (map fst l) = true -> 2 ^ (n - 1) mod n = 1 ->
  Forall (fun pe => prime (fst pe) /\ 0 < snd pe /\ (fst pe | n - 1) /\ Z.gcd (2 ^ ((n - 1) / fst pe) - 1) n = 1) l ->
  (n - 1) mod cert_F l = 0 -> n < cert_F l * cert_F l -> prime n.
Proof.
  intros Hn Hpn Hmain Hl HF HF2.
  destruct (prime_dec n) as [P|P]; [assumption|exfalso].
  destruct (small_prime_divisor n Hn P) as (p & Hp & D & Hs). pose proof (prime_ge_2 p Hp).
  set (F := cert_F l) in *. assert (F <> 0) as Fne by lia. apply Z.mod_divide in HF; [|assumption].
  assert (F | p - 1) as DF.
  { apply cert_F_divide; [assumption|]. apply Forall_forall. intros [r e] Hin. rewrite Forall_forall in Hl. destruct (Hl _ Hin) as (Hr & He & Hd & Hg). cbn [fst snd] in *.
    split; [exact Hr|]. split; [lia|]. apply (pock_step n 2 r e p); try assumption; try lia.
    apply Z.divide_trans with F; [|assumption]. unfold F. clear - Hin. induction l as [|x l IH]; [destruct Hin|].
    cbn [cert_F fold_right]. destruct Hin as [->|Hin]; [apply Z.divide_factor_l|]. apply Z.divide_mul_r. apply IH; assumption. }
  apply Z.divide_pos_le in DF; [|lia].
  assert (0 <= F).
  { unfold F. clear - Hl. induction l as [|c l IH]; [cbn; lia|]. apply Forall_cons_iff in Hl. destruct Hl as [(Hr & _) Hl].
    cbn [cert_F fold_right]. pose proof (prime_ge_2 _ Hr). apply Z.mul_nonneg_nonneg; [apply Z.pow_nonneg; lia|apply IH; assumption]. }
  nia.
Qed.

Section Pow.
Context (n : Z) (k : nat) (ninv : int) (Ri : Z).
Definition nl : list int := limbs k n.
Definition pok : bool := (1 <? n) && (2 * n <? pw k) && ((1 <=? k) && (k <=? 24))%nat && (⟦match nl with n0 :: _ => n0 | [] => 0%uint63 end⟧ * ⟦ninv⟧ mod W =? W - 1) && ((Ri * (pw k mod n)) mod n =? 1).
Definition one : list int := limbs k (pw k mod n).
Definition unit : list int := limbs k 1.
Fixpoint pow2 (nl one : list int) (e : positive) : list int :=
  match e with
  | xH => madd nl one one
  | xO e => let x := pow2 nl one e in mmul nl ninv x x
  | xI e => let x := pow2 nl one e in let y := mmul nl ninv x x in madd nl y y
  end.
Definition out (e : positive) : Z := let nl := nl in ev (mmul nl ninv (pow2 nl one e) unit).
Lemma out_ok e : pok = true -> out e = 2 ^ Zpos e mod n.
Proof.
  unfold pok. rewrite !andb_true_iff, !Z.eqb_eq, !Z.ltb_lt, !Nat.leb_le. intros [[[[Hn H2n] Hk] Hinv] HR].
  assert (0 < n) as Np by lia. destruct (limbs_spec k n) as (E & B & L); [lia|].
  pose proof (mmul_spec nl ninv k n B L E Hk H2n Np Hinv) as MM. pose proof (madd_spec nl k n B L E Hk H2n Np) as MA.
  pose proof (Z.mod_pos_bound (pw k) n Np) as Bp. destruct (limbs_spec k (pw k mod n)) as (E1 & B1 & L1); [lia|]. destruct (limbs_spec k 1) as (E0 & B0 & L0); [lia|].
  assert (wf k n one) as W1 by (unfold one; split; [exact B1|split; [exact L1|lia]]).
  assert (wf k n unit) as W0 by (unfold unit; split; [exact B0|split; [exact L0|lia]]).
  assert (forall a b, (pw k * a) mod n = (pw k * b) mod n -> a mod n = b mod n) as C.
  { intros a b H. assert (forall c, c mod n = (Ri * ((pw k * c) mod n)) mod n) as F.
    { intros c. rewrite Z.mul_mod_idemp_r, Z.mul_assoc by lia. rewrite <- Z.mul_mod_idemp_l, <- (Z.mul_mod_idemp_r Ri), HR, Z.mul_1_l by lia. reflexivity. }
    rewrite (F a), (F b), H. reflexivity. }
  assert (forall x, wf k n x -> ev x mod n = ev x) as S by (intros x (_ & _ & H); apply Z.mod_small; pose proof (ev_nonneg x); lia).
  assert (forall x, wf k n x -> forall a, (ev x) mod n = (a * pw k) mod n -> let y := mmul nl ninv x x in wf k n y /\ ev y mod n = (a * a * pw k) mod n) as SQ.
  { intros x Wx a Ex. cbv zeta. destruct (MM x x Wx Wx) as [Wy Ey]. split; [exact Wy|]. apply C. rewrite Ey, Z.mul_mod, Ex, <- Z.mul_mod by lia. f_equal. ring. }
  assert (forall x, wf k n x -> forall a, (ev x) mod n = (a * pw k) mod n -> let y := madd nl x x in wf k n y /\ ev y mod n = (2 * a * pw k) mod n) as DB.
  { intros x Wx a Ex. cbv zeta. destruct (MA x x Wx Wx) as [Wy Ey]. split; [exact Wy|]. rewrite Ey, Z.mod_mod, Z.add_mod, Ex, <- Z.add_mod by lia. f_equal. ring. }
  assert (forall e, wf k n (pow2 nl one e) /\ ev (pow2 nl one e) mod n = (2 ^ Zpos e * pw k) mod n) as P.
  { clear e. induction e as [e [IW IE]|e [IW IE]|]; cbn [pow2].
    - destruct (SQ _ IW _ IE) as [W2 E2]. destruct (DB _ W2 _ E2) as [W3 E3]. split; [exact W3|]. rewrite E3. f_equal. rewrite (Pos2Z.inj_xI e), Z.pow_add_r, Z.pow_1_r, (Z.mul_comm 2 (Zpos e)), Z.pow_mul_r, Z.pow_2_r by lia. ring.
    - destruct (SQ _ IW _ IE) as [W2 E2]. split; [exact W2|]. rewrite E2. f_equal. rewrite (Pos2Z.inj_xO e), (Z.mul_comm 2 (Zpos e)), Z.pow_mul_r, Z.pow_2_r by lia. ring.
    - replace (2 ^ 1 * pw k) with (2 * 1 * pw k) by ring. apply DB; [exact W1|]. unfold one. rewrite E1, Z.mod_mod, Z.mul_1_l by lia. reflexivity. }
  destruct (P e) as [We Ee]. unfold out. cbv zeta. destruct (MM _ _ We W0) as [Wo Eo]. rewrite <- (S _ Wo). apply C. rewrite Eo. unfold unit. rewrite E0, Z.mul_1_r, Ee. f_equal. ring.
Qed.
End Pow.
Definition ucert : Type := Z * Z * Z * Z.
Definition uc_pe (c : ucert) : Z * Z := let '(p, e, _, _) := c in (p, e).
Definition upock (n : Z) (k : nat) (ninv : int) (Ri : Z) (l : list ucert) : bool :=
  pok n k ninv Ri && (out n k ninv (Z.to_pos (n - 1)) =? 1) && pairwise_neq (map fst (map uc_pe l)) &&
  forallb (fun c : ucert => let '(p, e, z, c) := c in (0 <? e) && (1 <? p) && (1 <=? (n - 1) / p) && ((n - 1) / p * p =? n - 1) && ((out n k ninv (Z.to_pos ((n - 1) / p)) - 1) * z =? c * n + 1)) l &&
  ((n - 1) mod cert_F (map uc_pe l) =? 0) && (n <? cert_F (map uc_pe l) * cert_F (map uc_pe l)).
Theorem upock_prime n k ninv Ri l : Forall (fun c => prime (fst (uc_pe c))) l -> upock n k ninv Ri l = true -> prime n.
Proof.
  intros Hp H. unfold upock in H. rewrite !andb_true_iff in H. destruct H as [[[[[Hok H1] Hpn] Hl] HF] HF2]. apply Z.eqb_eq in H1, HF. apply Z.ltb_lt in HF2.
  assert (1 < n) as Hn by (unfold pok in Hok; rewrite !andb_true_iff, Z.ltb_lt in Hok; tauto).
  apply (pocklington_pow n (map uc_pe l) Hn Hpn); auto.
  - rewrite (out_ok n k ninv Ri _ Hok), Z2Pos.id in H1 by lia. exact H1.
  - apply Forall_map, Forall_forall. intros [[[p e] z] c] Hin. cbn [uc_pe fst snd]. rewrite Forall_forall in Hp. split; [exact (Hp _ Hin)|].
    rewrite forallb_forall in Hl. specialize (Hl _ Hin). cbv beta iota in Hl. rewrite !andb_true_iff, !Z.eqb_eq, !Z.ltb_lt, Z.leb_le in Hl. destruct Hl as [[[[He Hp1] Hq1] Hq] Hz].
    split; [exact He|]. split; [exists ((n - 1) / p); lia|]. rewrite (out_ok n k ninv Ri _ Hok), Z2Pos.id in Hz by lia.
    assert (forall x, Z.gcd x n = Z.gcd (x mod n) n) as GM by (intros x; rewrite Z.gcd_mod by lia; apply Z.gcd_comm).
    rewrite GM, <- Zminus_mod_idemp_l, <- GM. set (w := _ - 1) in *.
    apply Z.gcd_unique; [lia|apply Z.divide_1_l|apply Z.divide_1_l|].
    intros d [a Da] [b Db]. exists (a * z - c * b). rewrite Z.mul_sub_distr_r.
    replace (a * z * d) with ((a * d) * z) by ring. replace (c * b * d) with (c * (b * d)) by ring. rewrite <- Da, <- Db. lia.
Qed.
