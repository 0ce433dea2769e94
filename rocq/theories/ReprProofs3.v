(** String rendering of FQRepr / FRRepr. *)
Require Import String Ascii ZArith Lia Bool List.
From Verif Require Import Words ModelRepr ReprProofs ReprProofs2.
Import ListNotations.
Open Scope Z_scope.

(** Base-16 digits of x, most significant first, exactly k of them. *)
Fixpoint hexdigits (k : nat) (x : Z) : list Z :=
  match k with O => [] | S j => hexdigits j (x / 16) ++ [x mod 16] end.

(** Zero-padded lower-case hexadecimal with k digits. *)
Definition hexstring (k : nat) (x : Z) : string := string_of_list_ascii (map hexdigit (hexdigits k x)).

Lemma hexdigits_length k : forall x, length (hexdigits k x) = k.
Proof. induction k; intros; cbn; [reflexivity|]. rewrite app_length, IHk. cbn. lia. Qed.

Lemma hexdigits_app j k : forall x y, 0 <= y < 16 ^ Z.of_nat k ->
  hexdigits (k + j) (y + 16 ^ Z.of_nat k * x) = hexdigits j x ++ hexdigits k y.
Proof.
  induction k as [|k IH]; intros x y Hy.
  - cbn in Hy. cbn [plus hexdigits]. rewrite app_nil_r. f_equal. change (16 ^ Z.of_nat 0) with 1. lia.
  - cbn [plus hexdigits]. rewrite Nat2Z.inj_succ, Z.pow_succ_r in * by lia.
    rewrite app_assoc. rewrite <- IH.
    2:{ split; [apply Z.div_pos; lia|apply Z.div_lt_upper_bound; lia]. }
    f_equal; [f_equal|f_equal].
    + replace (y + 16 * 16 ^ Z.of_nat k * x) with (y + (16 ^ Z.of_nat k * x) * 16) by ring. rewrite Z.div_add by lia. reflexivity.
    + replace (y + 16 * 16 ^ Z.of_nat k * x) with (y + (16 ^ Z.of_nat k * x) * 16) by ring. rewrite Z.mod_add by lia. reflexivity.
Qed.

Lemma wand_15 x s : 0 <= s -> wand (wshr x s) 15 = (x / 2 ^ s) mod 16.
Proof. intros. unfold wand. change 15 with (Z.ones 4). rewrite Z.land_ones by lia. rewrite wshr_div by lia. reflexivity. Qed.

Lemma div16 v s : 0 <= s -> v / 2 ^ s / 16 = v / 2 ^ (s + 4).
Proof. intros. rewrite Z.pow_add_r by lia. change (2^4) with 16. apply Z.div_div; [|lia]. apply Z.pow_nonzero; lia. Qed.

Lemma hex016_list v : list_ascii_of_string (hex016 v) = map hexdigit (hexdigits 16 v).
Proof.
  unfold hex016. rewrite list_ascii_of_string_of_list_ascii.
  rewrite <- (map_map (fun s => wand (wshr v s) 15) hexdigit). f_equal.
  cbn [map]. rewrite !wand_15 by lia. cbn [hexdigits app].
  replace v with (v / 2^0) at 17 18 19 20 21 22 23 24 25 26 27 28 29 30 31 32 by (change (2^0) with 1; apply Z.div_1_r).
  rewrite !div16 by lia. reflexivity.
Qed.

Lemma list_ascii_app s t : list_ascii_of_string (s ++ t) = list_ascii_of_string s ++ list_ascii_of_string t.
Proof. induction s; cbn; [reflexivity|]. f_equal. exact IHs. Qed.

Lemma hexdigits_words l : Forall isW l ->
  hexdigits (16 * length l) (evalw l) = flat_map (hexdigits 16) (rev l).
Proof.
  induction 1 as [|x l Hx Hl IH]; [reflexivity|].
  cbn [length rev evalw]. replace (16 * S (length l))%nat with (16 + 16 * length l)%nat by lia.
  change W with (16 ^ Z.of_nat 16). rewrite hexdigits_app by exact Hx.
  rewrite flat_map_app, IH. cbn [flat_map]. rewrite app_nil_r. reflexivity.
Qed.

Lemma string_list_inj s t : list_ascii_of_string s = list_ascii_of_string t -> s = t.
Proof. intros H. rewrite <- (string_of_list_ascii_of_string s), <- (string_of_list_ascii_of_string t). congruence. Qed.

Lemma FQRepr_String_spec f : wf6 f -> FQRepr_String f = hexstring 96 (eval6 f).
Proof.
  intros H. apply string_list_inj. unfold FQRepr_String, hexstring. rewrite list_ascii_of_string_of_list_ascii.
  rewrite !list_ascii_app, !hex016_list. unfold eval6.
  change 96%nat with (16 * length (FQRepr_slice f))%nat. rewrite hexdigits_words by exact H.
  unfold FQRepr_slice. cbn [rev app flat_map]. rewrite !map_app. cbn [map]. rewrite ?app_nil_r. reflexivity.
Qed.
Lemma FRRepr_String_spec f : wf4 f -> FRRepr_String f = hexstring 64 (eval4 f).
Proof.
  intros H. apply string_list_inj. unfold FRRepr_String, hexstring. rewrite list_ascii_of_string_of_list_ascii.
  rewrite !list_ascii_app, !hex016_list. unfold eval4.
  change 64%nat with (16 * length (FRRepr_slice f))%nat. rewrite hexdigits_words by exact H.
  unfold FRRepr_slice. cbn [rev app flat_map]. rewrite !map_app. cbn [map]. rewrite ?app_nil_r. reflexivity.
Qed.

Lemma hexval_hexdigit d : 0 <= d < 16 -> hexval (hexdigit d) = Some d.
Proof.
  intros H. assert (d = 0 \/ d = 1 \/ d = 2 \/ d = 3 \/ d = 4 \/ d = 5 \/ d = 6 \/ d = 7 \/ d = 8 \/ d = 9 \/ d = 10 \/ d = 11 \/ d = 12 \/ d = 13 \/ d = 14 \/ d = 15) as C by lia.
  repeat (destruct C as [->|C]; [reflexivity|]). subst; reflexivity.
Qed.

Lemma hex_parse_app l1 : forall a l2, hex_parse a (l1 ++ l2) = match hex_parse a l1 with Some b => hex_parse b l2 | None => None end.
Proof. induction l1 as [|c l IH]; intros; cbn; [reflexivity|]. destruct (hexval c); [apply IH|reflexivity]. Qed.

Lemma hex_parse_digits k : forall x a, 0 <= x < 16 ^ Z.of_nat k -> 
  hex_parse a (map hexdigit (hexdigits k x)) = Some (a * 16 ^ Z.of_nat k + x).
Proof.
  induction k as [|k IH]; intros x a Hx.
  - cbn in Hx. cbn. f_equal. lia.
  - rewrite Nat2Z.inj_succ, Z.pow_succ_r in * by lia.
    cbn [hexdigits]. rewrite map_app, hex_parse_app, IH.
    2:{ split; [apply Z.div_pos; lia|apply Z.div_lt_upper_bound; lia]. }
    cbn [map hex_parse]. rewrite hexval_hexdigit by (apply Z.mod_pos_bound; lia).
    f_equal. pose proof (Z.div_mod x 16). lia.
Qed.

Lemma big_SetString16_hexstring k x : 0 <= x < 16 ^ Z.of_nat (S k) -> big_SetString16 (hexstring (S k) x) = Some x.
Proof.
  intros H. unfold big_SetString16, hexstring. rewrite list_ascii_of_string_of_list_ascii.
  pose proof (hex_parse_digits (S k) x 0 H) as P.
  destruct (map hexdigit (hexdigits (S k) x)) eqn:E.
  - apply (f_equal (@length _)) in E. rewrite map_length, hexdigits_length in E. discriminate.
  - rewrite P. reflexivity.
Qed.

Lemma FQReprFromString16_String f : wf6 f -> FQReprFromString16 (FQRepr_String f) = Some (Some f).
Proof.
  intros H. unfold FQReprFromString16. rewrite FQRepr_String_spec by assumption.
  pose proof (eval6_bound f H). rewrite big_SetString16_hexstring by (change (16 ^ Z.of_nat 96) with (2^384); assumption).
  rewrite <- FQRepr_ToBig_spec. apply FQReprFromBigInt_ToBig. assumption.
Qed.
Lemma FRReprFromString16_String f : wf4 f -> FRReprFromString16 (FRRepr_String f) = Some (Some f).
Proof.
  intros H. unfold FRReprFromString16. rewrite FRRepr_String_spec by assumption.
  pose proof (eval4_bound f H). rewrite big_SetString16_hexstring by (change (16 ^ Z.of_nat 64) with (2^256); assumption).
  rewrite <- FRRepr_ToBig_spec. apply FRReprFromBigInt_ToBig. assumption.
Qed.
