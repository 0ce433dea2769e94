(** What a numeral denotes, stated without reference to the parser, and the parser against it. *)
Require Import String Ascii ZArith Bool List Lia.
From Verif Require Import Words ModelRepr ModelFq ModelFr ReprProofs ReprProofs2 ReprProofs3 ModelStr.
Import ListNotations.
Open Scope Z_scope.

(** ** Digits and numerals *)
Definition lower : list ascii := list_ascii_of_string "0123456789abcdefghijklmnopqrstuvwxyz".
Definition upper : list ascii := list_ascii_of_string "0123456789ABCDEFGHIJKLMNOPQRSTUVWXYZ".
Definition mixed : list ascii := list_ascii_of_string "0123456789abcdefghijklmnopqrstuvwxyzABCDEFGHIJKLMNOPQRSTUVWXYZ".

(** Up to base 36 the case of a letter is immaterial; beyond, capitals follow the small letters. *)
Definition is_digit (b : Z) (c : ascii) (d : Z) : Prop :=
  0 <= d < b /\
  (if b <=? 36 then nth_error lower (Z.to_nat d) = Some c \/ nth_error upper (Z.to_nat d) = Some c
   else nth_error mixed (Z.to_nat d) = Some c).

(** A non-empty string of digits denotes a number: most significant digit first. *)
Inductive numeral (b : Z) : list ascii -> Z -> Prop :=
| num_one c d : is_digit b c d -> numeral b [c] d
| num_more l n c d : numeral b l n -> is_digit b c d -> numeral b (l ++ [c]) (b * n + d).

(** An optional sign, then a numeral. *)
Definition denotes (b : Z) (s : string) (n : Z) : Prop :=
  let l := list_ascii_of_string s in
  numeral b l n \/
  (exists l', l = "+"%char :: l' /\ numeral b l' n) \/
  (exists l' m, l = "-"%char :: l' /\ numeral b l' m /\ n = - m).

(** ** The parser's digits *)
Definition all_ascii : list ascii := map ascii_of_nat (seq 0 256).
Lemma all_ascii_all c : In c all_ascii.
Proof.
  unfold all_ascii. apply in_map_iff. exists (nat_of_ascii c). split; [apply ascii_nat_embedding|].
  apply in_seq. pose proof (nat_ascii_bounded c). lia.
Qed.

Definition oeqb (a : option Z) (d : Z) : bool := match a with Some x => x =? d | None => false end.
Definition ceqb (a : option ascii) (c : ascii) : bool := match a with Some x => Ascii.eqb x c | None => false end.
Definition small_ok (c : ascii) (k : nat) : bool :=
  Bool.eqb (oeqb (raw_digit true c) (Z.of_nat k)) (ceqb (nth_error lower k) c || ceqb (nth_error upper k) c).
Definition large_ok (c : ascii) (k : nat) : bool :=
  Bool.eqb (oeqb (raw_digit false c) (Z.of_nat k)) (ceqb (nth_error mixed k) c).

Lemma small_table : forallb (fun c => forallb (small_ok c) (seq 0 36)) all_ascii = true.
Proof. vm_compute. reflexivity. Qed.
Lemma large_table : forallb (fun c => forallb (large_ok c) (seq 0 62)) all_ascii = true.
Proof. vm_compute. reflexivity. Qed.

Lemma oeqb_ok a d : oeqb a d = true <-> a = Some d.
Proof. destruct a; cbn; [rewrite Z.eqb_eq|]; split; congruence. Qed.
Lemma ceqb_ok a c : ceqb a c = true <-> a = Some c.
Proof. destruct a; cbn; [rewrite Ascii.eqb_eq|]; split; congruence. Qed.

Lemma raw_small c d : 0 <= d < 36 ->
  raw_digit true c = Some d <-> nth_error lower (Z.to_nat d) = Some c \/ nth_error upper (Z.to_nat d) = Some c.
Proof.
  intros H. pose proof small_table as T. rewrite forallb_forall in T. specialize (T c (all_ascii_all c)). cbv beta in T.
  rewrite forallb_forall in T. specialize (T (Z.to_nat d)). assert (In (Z.to_nat d) (seq 0 36)) as I by (apply in_seq; lia).
  specialize (T I). unfold small_ok in T. rewrite Z2Nat.id in T by lia. apply eqb_prop in T.
  rewrite <- oeqb_ok, T, orb_true_iff, !ceqb_ok. reflexivity.
Qed.
Lemma raw_large c d : 0 <= d < 62 -> raw_digit false c = Some d <-> nth_error mixed (Z.to_nat d) = Some c.
Proof.
  intros H. pose proof large_table as T. rewrite forallb_forall in T. specialize (T c (all_ascii_all c)). cbv beta in T.
  rewrite forallb_forall in T. specialize (T (Z.to_nat d)). assert (In (Z.to_nat d) (seq 0 62)) as I by (apply in_seq; lia).
  specialize (T I). unfold large_ok in T. rewrite Z2Nat.id in T by lia. apply eqb_prop in T.
  rewrite <- oeqb_ok, T, !ceqb_ok. reflexivity.
Qed.
Lemma raw_nonneg s c d : raw_digit s c = Some d -> 0 <= d.
Proof.
  unfold raw_digit. pose proof (nat_ascii_bounded c).
  destruct (Z.leb_spec 48 (Z.of_nat (nat_of_ascii c))); destruct (Z.leb_spec (Z.of_nat (nat_of_ascii c)) 57); cbn [andb];
    try (intros [= <-]; lia);
  destruct (Z.leb_spec 97 (Z.of_nat (nat_of_ascii c))); destruct (Z.leb_spec (Z.of_nat (nat_of_ascii c)) 122); cbn [andb];
    try (intros [= <-]; lia);
  destruct (Z.leb_spec 65 (Z.of_nat (nat_of_ascii c))); destruct (Z.leb_spec (Z.of_nat (nat_of_ascii c)) 90); cbn [andb];
    try discriminate; intros [= <-]; destruct s; lia.
Qed.

Lemma digit_ok b c d : 2 <= b <= 62 -> digit b c = Some d <-> is_digit b c d.
Proof.
  intros Hb. unfold digit, is_digit. destruct (Z.leb_spec b 36).
  - split.
    + destruct (raw_digit true c) as [x|] eqn:E; [|discriminate]. destruct (Z.ltb_spec x b); [|discriminate].
      intros [= ->]. pose proof (raw_nonneg _ _ _ E). split; [lia|]. apply raw_small; [lia|assumption].
    + intros [H1 H2]. apply raw_small in H2; [|lia]. rewrite H2. destruct (Z.ltb_spec d b); [reflexivity|lia].
  - split.
    + destruct (raw_digit false c) as [x|] eqn:E; [|discriminate]. destruct (Z.ltb_spec x b); [|discriminate].
      intros [= ->]. pose proof (raw_nonneg _ _ _ E). split; [lia|]. apply raw_large; [lia|assumption].
    + intros [H1 H2]. apply raw_large in H2; [|lia]. rewrite H2. destruct (Z.ltb_spec d b); [reflexivity|lia].
Qed.

Lemma scan_app b l1 : forall acc l2, scan b acc (l1 ++ l2) = match scan b acc l1 with Some n => scan b n l2 | None => None end.
Proof. induction l1 as [|c l IH]; intros; cbn; [reflexivity|]. destruct (digit b c); [apply IH|reflexivity]. Qed.

Lemma scan_numeral b l : 2 <= b <= 62 -> forall n, l <> [] /\ scan b 0 l = Some n <-> numeral b l n.
Proof.
  intros Hb. induction l as [|c l IH] using rev_ind; intros n.
  - split; [intros [H _]; congruence|]. intros H. inversion H; subst; [destruct l; discriminate].
  - rewrite scan_app. split.
    + intros [_ H]. destruct (scan b 0 l) as [m|] eqn:E; [|discriminate]. cbn in H.
      destruct (digit b c) as [d|] eqn:D; [|discriminate]. injection H as <-. apply digit_ok in D; [|assumption].
      destruct l as [|c' l'].
      * cbn in E. injection E as <-. cbn [app]. replace (0 * b + d) with d by lia. constructor. assumption.
      * replace (m * b + d) with (b * m + d) by lia. apply num_more; [apply IH; split; [discriminate|reflexivity]|assumption].
    + intros H. split; [destruct l; discriminate|]. remember (l ++ [c]) as lc eqn:El. destruct H as [c' d H|l' m c' d H H'].
      * symmetry in El. destruct l as [|x l]; [|destruct l; discriminate]. injection El as ->. cbn.
        apply digit_ok in H; [|assumption]. rewrite H. f_equal; lia.
      * apply app_inj_tail in El. destruct El as [-> ->]. apply IH in H. destruct H as [_ ->]. cbn.
        apply digit_ok in H'; [|assumption]. rewrite H'. f_equal; lia.
Qed.

Lemma sign_no_digit b c d : 2 <= b <= 62 -> is_digit b c d -> c <> "-"%char /\ c <> "+"%char.
Proof.
  intros Hb H. apply digit_ok in H; [|assumption]. unfold digit in H.
  split; intros ->; cbn in H; discriminate.
Qed.
Lemma numeral_head b l n : 2 <= b <= 62 -> numeral b l n -> exists c l', l = c :: l' /\ c <> "-"%char /\ c <> "+"%char.
Proof.
  intros Hb H. induction H as [c d H|l n c d H IH H'].
  - exists c, []. split; [reflexivity|]. eapply sign_no_digit; eassumption.
  - destruct IH as (x & l' & -> & N). exists x, (l' ++ [c]). split; [reflexivity|exact N].
Qed.
Lemma numeral_fun b l n m : 2 <= b <= 62 -> numeral b l n -> numeral b l m -> n = m.
Proof. intros Hb H1 H2. apply scan_numeral in H1, H2; try assumption. destruct H1, H2. congruence. Qed.
Lemma numeral_nonneg b l n : numeral b l n -> 0 <= n.
Proof.
  induction 1 as [c d [H _]|l n c d H IH [H' _]]; [lia|]. nia.
Qed.

Lemma big_SetString_ok b s n : 2 <= b <= 62 -> big_SetString s b = SOk n <-> denotes b s n.
Proof.
  intros Hb. unfold big_SetString, denotes. destruct (list_ascii_of_string s) as [|c l].
  - split; [discriminate|]. intros [H|[(l & E & _)|(l & m & E & _)]]; try discriminate.
    apply numeral_head in H; [|assumption]. destruct H as (x & l' & E & _). discriminate.
  - destruct (Z.eqb_spec b 0) as [|Hz]; [lia|]. destruct (Z.ltb_spec b 2) as [|Hy]; [lia|]. destruct (Z.ltb_spec 62 b) as [|Hx]; [lia|]. cbn [orb].
    destruct (Ascii.eqb_spec c "-"%char) as [->|Nm]; [|destruct (Ascii.eqb_spec c "+"%char) as [->|Np]].
    + split.
      * destruct l as [|x l]; [discriminate|]. destruct (scan b 0 (x :: l)) as [m|] eqn:E; [|discriminate].
        intros [= <-]. right; right. exists (x :: l), m. split; [reflexivity|]. split; [|reflexivity].
        apply scan_numeral; [assumption|]. split; [discriminate|assumption].
      * intros [H|[(l' & E & _)|(l' & m & E & H & ->)]].
        -- apply numeral_head in H; [|assumption]. destruct H as (x & l' & E & H & _). injection E as <- _. congruence.
        -- discriminate.
        -- injection E as ->. apply scan_numeral in H; [|assumption]. destruct H as [N ->]. destruct l'; [congruence|reflexivity].
    + split.
      * destruct l as [|x l]; [discriminate|]. destruct (scan b 0 (x :: l)) as [m|] eqn:E; [|discriminate].
        intros [= <-]. right; left. exists (x :: l). split; [reflexivity|].
        apply scan_numeral; [assumption|]. split; [discriminate|assumption].
      * intros [H|[(l' & E & H)|(l' & m & E & _)]].
        -- apply numeral_head in H; [|assumption]. destruct H as (x & l' & E & _ & H). injection E as <- _. congruence.
        -- injection E as ->. apply scan_numeral in H; [|assumption]. destruct H as [N ->]. destruct l'; [congruence|reflexivity].
        -- discriminate.
    + split.
      * destruct (scan b 0 (c :: l)) as [m|] eqn:E; [|discriminate]. intros [= <-]. left.
        apply scan_numeral; [assumption|]. split; [discriminate|assumption].
      * intros [H|[(l' & E & H)|(l' & m & E & _)]]; [|congruence|congruence].
        apply scan_numeral in H; [|assumption]. destruct H as [N ->]. reflexivity.
Qed.
Lemma big_SetString_or b s : 2 <= b <= 62 -> (exists n, big_SetString s b = SOk n) \/ big_SetString s b = SFail.
Proof.
  intros Hb. unfold big_SetString. destruct (list_ascii_of_string s) as [|c l]; [right; reflexivity|].
  destruct (Z.eqb_spec b 0) as [|Hz]; [lia|]. destruct (Z.ltb_spec b 2) as [|Hy]; [lia|]. destruct (Z.ltb_spec 62 b) as [|Hx]; [lia|]. cbn [orb].
  destruct (if Ascii.eqb c "-" then (true, l) else if Ascii.eqb c "+" then (false, l) else (false, c :: l)) as [neg ds].
  destruct ds; [right; reflexivity|]. destruct (scan b 0 (a :: ds)); [left; eexists; reflexivity|right; reflexivity].
Qed.
Lemma big_SetString_bad b s : b < 0 \/ b = 1 \/ 62 < b -> big_SetString s b = if String.eqb s "" then SFail else SPanic.
Proof.
  intros Hb. unfold big_SetString. destruct s as [|c l]; [reflexivity|]. cbn [list_ascii_of_string String.eqb].
  destruct (if Ascii.eqb c "-" then _ else _) as [neg ds].
  destruct (Z.eqb_spec b 0); [lia|]. destruct (Z.ltb_spec b 2); destruct (Z.ltb_spec 62 b); cbn [orb]; try reflexivity; lia.
Qed.
Lemma denotes_fun b s n m : 2 <= b <= 62 -> denotes b s n -> denotes b s m -> n = m.
Proof. intros Hb H1 H2. apply big_SetString_ok in H1, H2; try assumption. congruence. Qed.

(** ** The functions of the library *)
Lemma int_small b : 0 <= b <= 62 -> int_of_uint b = b.
Proof. intros H. unfold int_of_uint. destruct (Z.ltb_spec b (2 ^ 63)); [reflexivity|]. lia. Qed.
Lemma int_bad b : b = 1 \/ 62 < b < 2 ^ 64 -> int_of_uint b < 0 \/ int_of_uint b = 1 \/ 62 < int_of_uint b.
Proof. intros H. unfold int_of_uint. destruct (Z.ltb_spec b (2 ^ 63)); lia. Qed.

Lemma unchecked_ok n : 0 <= n < 2 ^ 384 -> exists f, fqReprFromBigIntUnchecked n = Some f /\ wf6 f /\ eval6 f = n.
Proof.
  intros H. destruct (FQReprFromBigInt_ok n H) as (f & E & W). exists f. split; [|exact W].
  unfold FQReprFromBigInt in E. unfold fqReprFromBigIntUnchecked. destruct (_ || _); [discriminate|].
  destruct (words_of_big 6 n) as [[|a [|b [|c [|d [|e [|g [|]]]]]]]|]; congruence.
Qed.
Lemma words_of_big_neg k : forall n, n < 0 -> words_of_big k n = None.
Proof.
  induction k as [|k IH]; intros n H; cbn [words_of_big]; destruct (Z.eqb_spec n 0); try lia; [reflexivity|].
  rewrite IH; [reflexivity|]. apply Z.shiftr_neg. assumption.
Qed.
Lemma words_of_big_large k : forall n, 2 ^ (64 * Z.of_nat k) <= n -> words_of_big k n = None.
Proof.
  induction k as [|k IH]; intros n H.
  - change (2 ^ (64 * Z.of_nat 0)) with 1 in H. cbn [words_of_big]. destruct (Z.eqb_spec n 0); [lia|reflexivity].
  - cbn [words_of_big]. assert (0 < 2 ^ (64 * Z.of_nat (S k))) by (apply Z.pow_pos_nonneg; lia).
    destruct (Z.eqb_spec n 0); [lia|]. rewrite IH; [reflexivity|].
    rewrite Z.shiftr_div_pow2 by lia. apply Z.div_le_lower_bound; [lia|].
    rewrite <- Z.pow_add_r by lia. replace (64 + 64 * Z.of_nat k) with (64 * Z.of_nat (S k)) by lia. assumption.
Qed.
Lemma unchecked_err n : n < 0 \/ 2 ^ 384 <= n -> fqReprFromBigIntUnchecked n = None.
Proof.
  intros [H|H]; unfold fqReprFromBigIntUnchecked; [rewrite words_of_big_neg by assumption; reflexivity|].
  rewrite words_of_big_large; [reflexivity|exact H].
Qed.

(** Every number has a numeral in every base. *)
Lemma digit_exists b d : 2 <= b <= 62 -> 0 <= d < b -> exists c, is_digit b c d.
Proof.
  intros Hb Hd. unfold is_digit. destruct (Z.leb_spec b 36).
  - destruct (nth_error lower (Z.to_nat d)) as [c|] eqn:E; [exists c; auto|].
    apply nth_error_None in E. change (length lower) with 36%nat in E. lia.
  - destruct (nth_error mixed (Z.to_nat d)) as [c|] eqn:E; [exists c; auto|].
    apply nth_error_None in E. change (length mixed) with 62%nat in E. lia.
Qed.
Lemma numeral_exists b n : 2 <= b <= 62 -> 0 <= n -> exists l, numeral b l n.
Proof.
  intros Hb Hn. assert (Hn' := Hn). revert Hn'. apply (Z_lt_induction (fun n => 0 <= n -> exists l, numeral b l n)); [|assumption].
  clear n Hn. intros n IH Hn. destruct (Z.lt_ge_cases n b).
  - destruct (digit_exists b n Hb) as [c Hc]; [lia|]. exists [c]. constructor. assumption.
  - assert (0 <= n / b) as Hq by (apply Z.div_pos; lia).
    destruct (IH (n / b)) as [l Hl]; [split; [assumption|apply Z.div_lt; lia]|assumption|].
    destruct (digit_exists b (n mod b) Hb) as [c Hc]; [apply Z.mod_pos_bound; lia|].
    exists (l ++ [c]). rewrite (Z.div_mod n b) by lia. apply num_more; assumption.
Qed.
