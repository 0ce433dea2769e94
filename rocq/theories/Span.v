(** Finite abelian groups given by generators: counting, and when explicit elements generate the whole group. *)
Require Import ZArith Lia Bool List Znumtheory FinFun.
From Verif Require Import NumTheory AbGrp.
Import ListNotations.
Open Scope Z_scope.

Section Span.
Context {G : AbGrp}.
Implicit Types x y z g : G.

Lemma sub_add x y : gA (gA x (gN y)) y = x. Proof. rewrite <- gA_assoc, gA_N_l. apply gA_0_r. Qed.
Lemma diff_eq a b x y : gA b y = gA a x -> gA a (gN b) = gA y (gN x).
Proof.
  intros E. apply (gA_cancel_r b). rewrite sub_add. apply (gA_cancel_r x). rewrite <- E. rewrite <- !gA_assoc, (gA_comm b x), (gA_assoc (gN x)), gA_N_l, gA_0_l. apply gA_comm.
Qed.
(** integer combinations of a list *)
Fixpoint spn (gs : list G) (x : G) : Prop := match gs with [] => x = gO | g :: gs => exists k y, spn gs y /\ x = gA (gm k g) y end.
Lemma spn_O gs : spn gs gO.
Proof. induction gs as [|g gs IH]; [reflexivity|]. exists 0, gO. split; [exact IH|]. rewrite gm_0, gA_0_l. reflexivity. Qed.
Lemma spn_A gs x y : spn gs x -> spn gs y -> spn gs (gA x y).
Proof.
  revert x y. induction gs as [|g gs IH]; intros x y; cbn [spn].
  - intros -> ->. apply gA_0_l.
  - intros (k & u & Hu & ->) (l & v & Hv & ->). exists (k + l), (gA u v). split; [apply IH; assumption|]. rewrite gm_add. apply gA_swap.
Qed.
Lemma spn_N gs x : spn gs x -> spn gs (gN x).
Proof.
  revert x. induction gs as [|g gs IH]; intros x; cbn [spn].
  - intros ->. apply gN_0.
  - intros (k & u & Hu & ->). exists (- k), (gN u). split; [apply IH; assumption|]. rewrite gN_A, gm_opp. reflexivity.
Qed.
Lemma spn_gm gs k x : spn gs x -> spn gs (gm k x).
Proof.
  intros H. assert (forall n : nat, spn gs (gm (Z.of_nat n) x)) as N.
  { induction n as [|n IH]; [apply spn_O|]. rewrite gm_succ_nat. apply spn_A; assumption. }
  destruct (Z.le_gt_cases 0 k) as [P|P].
  - rewrite <- (Z2Nat.id k P). apply N.
  - replace k with (- (- k)) by lia. rewrite gm_opp. apply spn_N. rewrite <- (Z2Nat.id (- k)) by lia. apply N.
Qed.
Lemma spn_cons gs g x : spn gs x -> spn (g :: gs) x.
Proof. intros H. exists 0, x. split; [exact H|]. rewrite gm_0, gA_0_l. reflexivity. Qed.
(** a property closed under sums and multiples holds on the span if it holds on the generators *)
Lemma spn_ind (P : G -> Prop) gs : P gO -> (forall x y, P x -> P y -> P (gA x y)) -> (forall k x, P x -> P (gm k x)) -> Forall P gs -> forall x, spn gs x -> P x.
Proof.
  intros P0 PA Pm. induction 1 as [|g gs Hg _ IH]; cbn [spn]; [intros x ->; exact P0|]. intros x (k & y & Hy & ->). auto.
Qed.
Lemma spn_killed n gs : Forall (fun g => gm n g = gO) gs -> forall x, spn gs x -> gm n x = gO.
Proof.
  apply spn_ind; [apply gm_O| |].
  - intros x y Hx Hy. rewrite gm_A, Hx, Hy. apply gA_0_l.
  - intros k x Hx. rewrite <- gm_mul, Z.mul_comm, gm_mul, Hx. apply gm_O.
Qed.

(** exactly n elements *)
Definition big (H : G -> Prop) (n : Z) : Prop := exists l, NoDup l /\ Z.of_nat (length l) = n /\ Forall H l /\ forall x, H x -> In x l.
(** [indep gs n]: the generators are independent, of prime orders with product n *)
Inductive indep : list G -> Z -> Prop :=
| ind_nil : indep [] 1
| ind_cons p g gs n : indep gs n -> prime p -> gm p g = gO -> ~ spn gs g -> indep (g :: gs) (p * n).
Lemma NoDup_flat {A B} (f : A -> list B) (l : list A) : NoDup l -> (forall a, In a l -> NoDup (f a)) -> (forall a a' b, In a l -> In a' l -> In b (f a) -> In b (f a') -> a = a') ->
  NoDup (flat_map f l).
Proof.
  intros N. induction N as [|a l Ha N IH]; intros H1 H2; cbn [flat_map]; [constructor|].
  assert (forall (l1 l2 : list B), NoDup l1 -> NoDup l2 -> (forall b, In b l1 -> ~ In b l2) -> NoDup (l1 ++ l2)) as App.
  { induction l1 as [|b l1 I]; intros l2 N1 N2 D; [exact N2|]. inversion N1; subst. cbn [app]. constructor.
    - rewrite in_app_iff. intros [X|X]; [contradiction|]. exact (D b (or_introl eq_refl) X).
    - apply I; auto. intros c Hc. apply D. right; exact Hc. }
  apply App.
  - apply H1. left; reflexivity.
  - apply IH; [intros; apply H1; right; assumption|]. intros a1 a2 b I1 I2. apply H2; right; assumption.
  - intros b Hb Hf. apply in_flat_map in Hf. destruct Hf as (a' & Ha' & Hb'). assert (a = a') as -> by (apply (H2 a a' b); [left; reflexivity|right; exact Ha'|exact Hb|exact Hb']). contradiction.
Qed.
Lemma flat_len {A B} (f : A -> list B) (l : list A) n : (forall a, length (f a) = n) -> length (flat_map f l) = (length l * n)%nat.
Proof. intros H. induction l as [|a l IH]; [reflexivity|]. cbn [flat_map length]. rewrite app_length, IH, H. reflexivity. Qed.
Lemma indep_big gs n : indep gs n -> big (spn gs) n.
Proof.
  induction 1 as [|p g gs n _ (l & Nl & El & Fl & Cl) Pp Kg Ng].
  - exists [gO]. split; [constructor; [intros []|constructor]|]. split; [reflexivity|]. split; [constructor; [reflexivity|constructor]|]. intros x ->. left; reflexivity.
  - pose proof (prime_ge_2 p Pp) as P2.
    exists (flat_map (fun i => map (gA (gm (Z.of_nat i) g)) l) (seq 0 (Z.to_nat p))). split; [|split; [|split]].
    + apply NoDup_flat; [apply seq_NoDup| |].
      * intros i _. apply Injective_map_NoDup; [|exact Nl]. intros x y. apply gA_cancel_l.
      * intros i j b Hi Hj Bi Bj. apply in_seq in Hi, Hj. apply in_map_iff in Bi, Bj. destruct Bi as (x & <- & Hx), Bj as (y & E & Hy).
        destruct (Nat.eq_dec i j) as [X|X]; [exact X|exfalso]. apply Ng. rewrite Forall_forall in Fl.
        set (d := Z.of_nat i - Z.of_nat j). assert (spn gs (gm d g)) as S.
        { assert (gm d g = gA y (gN x)) as ->; [|apply spn_A, spn_N; auto]. unfold d. rewrite gm_sub. apply diff_eq, E. }
        assert (rel_prime d p) as R.
        { apply rel_prime_sym, prime_rel_prime; [exact Pp|]. intros D. apply Z.divide_abs_r in D. apply Z.divide_pos_le in D; unfold d in *; lia. }
        destruct (rel_prime_bezout _ _ R) as [u v B]. replace g with (gm (u * d + v * p) g) by (rewrite B; apply gm_1).
        rewrite gm_add, !gm_mul, Kg, gm_O, gA_0_r. apply spn_gm, S.
    + rewrite (flat_len _ _ (length l)) by (intros; apply map_length). rewrite seq_length, Nat2Z.inj_mul, El, Z2Nat.id by lia. reflexivity.
    + apply Forall_forall. intros b Hb. apply in_flat_map in Hb. destruct Hb as (i & _ & Hb). apply in_map_iff in Hb. destruct Hb as (x & <- & Hx). rewrite Forall_forall in Fl. exists (Z.of_nat i), x. split; [apply Fl, Hx|reflexivity].
    + intros x (k & y & Sy & ->). pose proof (Z.mod_pos_bound k p) as B. apply in_flat_map. exists (Z.to_nat (k mod p)). split; [apply in_seq; lia|]. apply in_map_iff. exists y.
      rewrite Z2Nat.id, (gm_mod p k g Kg) by lia. split; [reflexivity|apply Cl, Sy].
Qed.
(** Lagrange and a bound on the size of the group: a subgroup of more than half the size is everything *)
Theorem spn_all gs n N : (forall x y, {x = y} + {x <> y}) -> indep gs n -> (forall l : list G, NoDup l -> Z.of_nat (length l) <= N) -> N < 2 * n -> forall x, spn gs x.
Proof.
  intros dec I B L x. destruct (indep_big gs n I) as (l & Nl & El & Fl & _). rewrite Forall_forall in Fl.
  destruct (Exists_dec (fun y => In y l) (map (gA x) l) (fun y => in_dec dec y l)) as [H|H].
  - apply Exists_exists in H. destruct H as (y & Hy & Iy). apply in_map_iff in Hy. destruct Hy as (z & <- & Hz).
    assert (x = gA (gA x z) (gN z)) as -> by (rewrite <- gA_assoc, gA_N_r, gA_0_r; reflexivity). apply spn_A, spn_N; auto.
  - exfalso. assert (NoDup (flat_map (fun b : bool => map (if b then gA x else fun y => y) l) [true; false])) as ND.
    { apply NoDup_flat.
      - repeat constructor; cbn; intuition discriminate.
      - intros [|] _; [|rewrite map_id; exact Nl]. apply Injective_map_NoDup; [|exact Nl]. intros y z. apply gA_cancel_l.
      - intros [|] [|] b _ _ H1 H2; try reflexivity; exfalso; apply H; apply Exists_exists; exists b; rewrite map_id in *; auto. }
    apply B in ND. rewrite (flat_len _ _ (length l)) in ND by (intros; apply map_length). cbn [length] in ND. lia.
Qed.

(** how to prove independence *)
Lemma new_gen m p gs g : Forall (fun g => gm m g = gO) gs -> Z.gcd m p = 1 -> gm p g = gO -> g <> gO -> ~ spn gs g.
Proof. intros K D Kg N S. apply N. apply (gm_coprime m p g D); [apply (spn_killed m gs K g S)|exact Kg]. Qed.
Lemma new_gen2 m p gs g g' : Forall (fun g => gm m g = gO) gs -> Z.gcd m p = 1 -> gm p g = gO -> gm p g' = gO -> (forall k, g' <> gm k g) -> ~ spn (g :: gs) g'.
Proof.
  intros K D Kg Kg' N (k & y & Sy & E). apply (N k). rewrite E. replace y with (@gO G); [apply gA_0_r|]. symmetry. apply (gm_coprime m p y D); [apply (spn_killed m gs K y Sy)|].
  assert (y = gA g' (gN (gm k g))) as ->.
  { rewrite E. rewrite (gA_comm (gm k g)), <- gA_assoc, gA_N_r, gA_0_r. reflexivity. }
  rewrite gm_A, gm_N, Kg', <- gm_mul, Z.mul_comm, gm_mul, Kg, gm_O, gN_0. apply gA_0_l.
Qed.
(** an automorphism with f^2 + f + 1 = 0: an element whose image is not one of two given multiples *)
Lemma no_eigen2 p f g : prime p -> p mod 3 = 2 -> hom f -> gm p g = gO -> g <> gO -> gA (gA g (f g)) (f (f g)) = gO -> forall k, f g <> gm k g.
Proof.
  intros Pp P3 Hf Kg Ng E k Ek. rewrite Ek, (hom_gm f Hf), Ek, <- gm_mul in E. rewrite <- (gm_1 g) in E at 1. rewrite <- !gm_add in E.
  pose proof (gm_prime_order p _ g Pp Kg Ng E) as D. pose proof (prime_ge_2 p Pp) as P2.
  assert (~ (p | k)) as Nk.
  { intros [c Hc]. assert (p | 1) as D1. { destruct D as [e He]. exists (e - c - c * k). rewrite !Z.mul_sub_distr_r, <- He. rewrite Hc at 1 3. ring_simplify. lia. } apply Z.divide_1_r_nonneg in D1; lia. }
  assert ((p | k ^ 3 - 1)) as D3. { destruct D as [e He]. exists ((k - 1) * e). rewrite <- Z.mul_assoc, <- He. ring. }
  pose proof (fermat p k Pp Nk) as F. set (n := (p - 2) / 3). assert (p - 1 = 3 * n + 1) as Ep by (pose proof (Z.div_mod p 3); pose proof (Z.div_mod (p - 2) 3); assert ((p - 2) mod 3 = 0) by (rewrite Zminus_mod, P3; reflexivity); unfold n; lia).
  assert (k ^ 3 mod p = 1) as K3 by (apply mod_1_divide; [lia|exact D3]).
  assert (0 <= n) as Hn by (unfold n; apply Z.div_pos; lia).
  rewrite Ep, Z.pow_add_r, Z.pow_1_r in F by lia. rewrite <- Z.mul_mod_idemp_l, (pow_mod_1_mul k p 3 n), Z.mul_1_l in F by (lia || exact K3).
  apply mod_1_divide in F; [|lia]. assert ((p | 3)) as D4.
  { destruct D as [e He], F as [c Hc]. exists (e - c * (k + 2)). rewrite Z.mul_sub_distr_r, <- He. replace (c * (k + 2) * p) with (c * p * (k + 2)) by ring. rewrite <- Hc. ring. }
  apply Z.divide_pos_le in D4; [|lia]. assert (p = 2) by (assert (p = 2 \/ p = 3) as [?|?] by lia; [assumption|subst p; cbn in P3; lia]). subst p.
  destruct D as [e He]. assert (exists j, k * k + k = 2 * j) as [j Hj]. { assert (Z.even (k * (k + 1)) = true) as Ev by (rewrite Z.even_mul, Z.even_add; destruct (Z.even k); reflexivity). apply Z.even_spec in Ev. destruct Ev as [j Hj]. exists j. rewrite <- Hj. ring. } lia.
Qed.
Lemma no_eigen1 p k1 f g : prime p -> (p | k1 * k1 + k1 + 1) -> hom f -> gm p g = gO -> g <> gO -> gA (gA g (f g)) (f (f g)) = gO -> f g <> gm k1 g -> f g <> gm (- 1 - k1) g -> forall k, f g <> gm k g.
Proof.
  intros Pp D1 Hf Kg Ng E N1 N2 k Ek. pose proof Ek as Ek'. rewrite Ek', (hom_gm f Hf), Ek', <- gm_mul in E. rewrite <- (gm_1 g) in E at 1. rewrite <- !gm_add in E.
  pose proof (gm_prime_order p _ g Pp Kg Ng E) as D. assert ((p | (k - k1) * (k + 1 + k1))) as D2 by (destruct D as [c Hc], D1 as [e He]; exists (c - e); replace ((c - e) * p) with (c * p - e * p) by ring; rewrite <- Hc, <- He; ring).
  pose proof (prime_ge_2 p Pp) as P2. apply prime_mult in D2; [|exact Pp]. destruct D2 as [D2|D2].
  - apply N1. rewrite Ek. apply (gm_cong p); [exact Kg|]. apply mod_eq_divide; [lia|exact D2].
  - apply N2. rewrite Ek. apply (gm_cong p); [exact Kg|]. apply mod_eq_divide; [lia|]. replace (k - (- 1 - k1)) with (k + 1 + k1) by ring. exact D2.
Qed.
End Span.
