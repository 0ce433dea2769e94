(** 64-bit machine words as integers, and the word-level primitives of
    math/bits that the library uses. *)
Require Import ZArith Lia Bool List.
Import ListNotations.
Open Scope Z_scope.

Notation W := 18446744073709551616.          (* 2^64 *)
Notation WMASK := 18446744073709551615.      (* 2^64 - 1 *)

(** [isW x]: x is a value a Go uint64 can hold. *)
Definition isW (x : Z) : Prop := 0 <= x < W.

(** Truncation to 64 bits, and the part above. *)
Definition wlo (x : Z) : Z := Z.land x WMASK.
Definition whi (x : Z) : Z := Z.shiftr x 64.

(** Go operators on uint64 (truncating). *)
Definition wadd (x y : Z) : Z := wlo (x + y).
Definition wmul (x y : Z) : Z := wlo (x * y).
Definition wshl (x n : Z) : Z := wlo (Z.shiftl x n).
Definition wshr (x n : Z) : Z := Z.shiftr x n.
Definition wor (x y : Z) : Z := Z.lor x y.
Definition wand (x y : Z) : Z := Z.land x y.

(** math/bits.Add64, Sub64, Mul64, LeadingZeros64 as documented by Go
    (carry-in and borrow-in are documented to be 0 or 1; the library always
    passes such values to Sub64 and passes 0 as carry-in to Add64). *)
Definition Add64 (x y c : Z) : Z * Z := let s := x + y + c in (wlo s, whi s).
Definition Sub64 (x y b : Z) : Z * Z :=
  let d := x - y - b in (wlo d, if d <? 0 then 1 else 0).
Definition Mul64 (x y : Z) : Z * Z := let p := x * y in (whi p, wlo p).
Definition bitlen (x : Z) : Z := if x =? 0 then 0 else Z.log2 x + 1.
Definition LeadingZeros64 (x : Z) : Z := 64 - bitlen x.

(** ** Facts *)

Lemma wlo_mod x : wlo x = x mod W.
Proof. unfold wlo. change WMASK with (Z.ones 64). rewrite Z.land_ones by lia. reflexivity. Qed.

Lemma whi_div x : whi x = x / W.
Proof. unfold whi. rewrite Z.shiftr_div_pow2 by lia. reflexivity. Qed.

Lemma wlo_isW x : isW (wlo x).
Proof. rewrite wlo_mod. apply Z.mod_pos_bound; lia. Qed.

Lemma wlo_whi x : wlo x + W * whi x = x.
Proof. rewrite wlo_mod, whi_div. pose proof (Z.div_mod x W). lia. Qed.

Lemma wlo_small x : isW x -> wlo x = x.
Proof. intros H. rewrite wlo_mod. apply Z.mod_small; exact H. Qed.

Lemma wlo_unique x y k : isW y -> x = y + W * k -> wlo x = y.
Proof. intros H ->. rewrite wlo_mod. symmetry. apply Z.mod_unique with k; [left; exact H | lia]. Qed.

Lemma isW_0 : isW 0. Proof. unfold isW; lia. Qed.
Lemma isW_1 : isW 1. Proof. unfold isW; lia. Qed.
#[export] Hint Resolve wlo_isW isW_0 isW_1 : word.

Lemma Add64_spec x y c s k :
  isW x -> isW y -> 0 <= c -> c < W -> Add64 x y c = (s, k) ->
  isW s /\ 0 <= k <= 2 /\ s + W * k = x + y + c.
Proof.
  unfold Add64. intros Hx Hy Hc Hc' E. inversion E; subst; clear E.
  split; [apply wlo_isW|]. pose proof (wlo_whi (x+y+c)). pose proof (wlo_isW (x+y+c)).
  unfold isW in *. lia.
Qed.

Lemma Sub64_spec x y b d k :
  isW x -> isW y -> 0 <= b <= 1 -> Sub64 x y b = (d, k) ->
  isW d /\ 0 <= k <= 1 /\ d - W * k = x - y - b.
Proof.
  unfold Sub64. intros Hx Hy Hb E. inversion E; subst; clear E.
  split; [apply wlo_isW|]. pose proof (wlo_whi (x-y-b)). pose proof (wlo_isW (x-y-b)).
  unfold isW in *. destruct (Z.ltb_spec (x-y-b) 0); lia.
Qed.

Lemma Mul64_spec x y h l :
  isW x -> isW y -> Mul64 x y = (h, l) ->
  isW h /\ isW l /\ l + W * h = x * y /\ h <= W - 2.
Proof.
  unfold Mul64. intros Hx Hy E. inversion E; subst; clear E.
  pose proof (wlo_whi (x*y)). pose proof (wlo_isW (x*y)).
  unfold isW in *. assert (0 <= x * y <= (W-1)*(W-1)) by nia. lia.
Qed.

(** [x | y] is [x + y] when the bits do not overlap. *)
Lemma lor_disjoint_add x y n : 0 <= n -> 0 <= y < 2 ^ n -> x mod 2 ^ n = 0 -> Z.lor x y = x + y.
Proof.
  intros Hn Hy Hx.
  assert (Z.land x y = 0) as E.
  { apply Z.bits_inj'. intros i Hi. rewrite Z.land_spec, Z.bits_0.
    destruct (Z.lt_ge_cases i n).
    - replace (Z.testbit x i) with false; [reflexivity|].
      rewrite <- (Z.mod_pow2_bits_low x n i) by lia. rewrite Hx. symmetry; apply Z.bits_0.
    - replace (Z.testbit y i) with false; [apply andb_false_r|].
      rewrite <- (Z.mod_small y (2^n)) by lia. symmetry. apply Z.mod_pow2_bits_high. lia. }
  rewrite <- Z.lxor_lor by exact E. symmetry. apply Z.add_nocarry_lxor. exact E.
Qed.

Lemma isW_lor x y : isW x -> isW y -> isW (Z.lor x y).
Proof.
  intros Hx Hy. unfold isW in *.
  assert (0 <= Z.lor x y) by (apply Z.lor_nonneg; lia).
  split; [assumption|].
  destruct (Z.eq_dec (Z.lor x y) 0) as [->|]; [lia|].
  change W with (2^64). apply Z.log2_lt_pow2; [lia|].
  rewrite Z.log2_lor by lia.
  assert (forall z, 0 <= z < W -> Z.log2 z < 64) as L.
  { intros z Hz. destruct (Z.eq_dec z 0) as [->|]; [reflexivity|]. apply Z.log2_lt_pow2; [lia|]. exact (proj2 Hz). }
  pose proof (L x Hx). pose proof (L y Hy). lia.
Qed.

Lemma wshr_isW x n : 0 <= n -> isW x -> isW (wshr x n).
Proof.
  intros Hn Hx. unfold wshr, isW in *. rewrite Z.shiftr_div_pow2 by lia.
  assert (0 < 2^n) by (apply Z.pow_pos_nonneg; lia).
  split; [apply Z.div_pos; lia|]. apply Z.le_lt_trans with x; [|lia].
  apply Z.div_le_upper_bound; nia.
Qed.

Lemma wshl_isW x n : isW (wshl x n).
Proof. apply wlo_isW. Qed.

(** Shifting a limb left and bringing in the top bits of the limb below:
    [x << n | y >> (64-n)] for 0 < n < 64. *)
Lemma shl_or_shr x y n : 0 < n < 64 -> isW x -> isW y ->
  wor (wshl x n) (wshr y (64 - n)) + W * (x / 2 ^ (64 - n)) = x * 2 ^ n + y / 2 ^ (64 - n).
Proof.
  intros Hn Hx Hy. unfold wor, wshl, wshr.
  rewrite Z.shiftr_div_pow2, Z.shiftl_mul_pow2 by lia. rewrite wlo_mod.
  assert (W = 2^n * 2^(64-n)) as EW.
  { rewrite <- Z.pow_add_r by lia. replace (n + (64 - n)) with 64 by lia. reflexivity. }
  assert (0 < 2^n) by (apply Z.pow_pos_nonneg; lia).
  assert (0 < 2^(64-n)) by (apply Z.pow_pos_nonneg; lia).
  unfold isW in *.
  assert (0 <= y / 2^(64-n) < 2^n) as Hy'.
  { split; [apply Z.div_pos; lia|]. apply Z.div_lt_upper_bound; [lia|]. rewrite Z.mul_comm, <- EW. lia. }
  assert ((x * 2^n) mod W = 2^n * (x mod 2^(64-n))) as E1.
  { rewrite EW, (Z.mul_comm x). apply Z.mul_mod_distr_l; lia. }
  rewrite (lor_disjoint_add _ _ n); [|lia|exact Hy'|].
  - rewrite E1. pose proof (Z.div_mod x (2^(64-n))). rewrite EW. nia.
  - rewrite E1, Z.mul_comm. apply Z.mod_mul. lia.
Qed.

(** [x >> n | y << (64-n)], the limb of a right shift. *)
Lemma shr_or_shl x y n : 0 < n < 64 -> isW x -> isW y ->
  wor (wshr x n) (wshl y (64 - n)) = x / 2 ^ n + 2 ^ (64 - n) * (y mod 2 ^ n).
Proof.
  intros Hn Hx Hy. unfold wor, wshl, wshr.
  rewrite Z.shiftr_div_pow2, Z.shiftl_mul_pow2 by lia. rewrite wlo_mod.
  assert (W = 2^(64-n) * 2^n) as EW.
  { rewrite <- Z.pow_add_r by lia. replace (64 - n + n) with 64 by lia. reflexivity. }
  assert (0 < 2^n) by (apply Z.pow_pos_nonneg; lia).
  assert (0 < 2^(64-n)) by (apply Z.pow_pos_nonneg; lia).
  unfold isW in *.
  assert (0 <= x / 2^n < 2^(64-n)) as Hx'.
  { split; [apply Z.div_pos; lia|]. apply Z.div_lt_upper_bound; [lia|]. rewrite Z.mul_comm, <- EW. lia. }
  assert ((y * 2^(64-n)) mod W = 2^(64-n) * (y mod 2^n)) as E1.
  { rewrite EW, (Z.mul_comm y). apply Z.mul_mod_distr_l; lia. }
  rewrite Z.lor_comm, (lor_disjoint_add _ _ (64-n)); [rewrite E1; lia|lia|exact Hx'|].
  rewrite E1, Z.mul_comm. apply Z.mod_mul. lia.
Qed.
