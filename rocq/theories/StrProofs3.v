(** FQReprFromString and its relatives against [denotes], and the constants of the sources. *)
Require Import String Ascii ZArith Bool List Lia.
From Verif Require Import Words ModelRepr ReprProofs ReprProofs2 ReprProofs3 ModelFq ModelFr ModelOps ModelTower ModelCurve ModelPairing ModelHash ModelStr SrcConst StrProofs.
Import ListNotations.
Open Scope Z_scope.

Definition parse_spec {R : Type} (parse : string -> Z -> sres R) (ok : R -> Prop) (val : R -> Z) (bound : Z) (fail : sres R) : Prop :=
  forall s b, 2 <= b <= 62 ->
    (forall n, denotes b s n -> 0 <= n < bound -> exists f, parse s b = SOk f /\ ok f /\ val f = n) /\
    (forall n, denotes b s n -> ~ 0 <= n < bound -> parse s b = fail) /\
    ((forall n, ~ denotes b s n) -> parse s b = fail).

Lemma FQReprFromString_ok : parse_spec FQReprFromString wf6 eval6 (2 ^ 384) SFail.
Proof.
  intros s b Hb. unfold FQReprFromString. rewrite int_small by lia. repeat split.
  - intros n D R. apply big_SetString_ok in D; [|assumption]. rewrite D.
    destruct (FQReprFromBigInt_ok n R) as (f & -> & W & V). exists f. auto.
  - intros n D R. apply big_SetString_ok in D; [|assumption]. rewrite D. rewrite FQReprFromBigInt_err by lia. reflexivity.
  - intros N. destruct (big_SetString_or b s Hb) as [[n E]| ->]; [|reflexivity].
    apply big_SetString_ok in E; [|assumption]. destruct (N n E).
Qed.
Lemma FRReprFromString_ok : parse_spec FRReprFromString wf4 eval4 (2 ^ 256) SFail.
Proof.
  intros s b Hb. unfold FRReprFromString. rewrite int_small by lia. repeat split.
  - intros n D R. apply big_SetString_ok in D; [|assumption]. rewrite D.
    destruct (FRReprFromBigInt_ok n R) as (f & -> & W & V). exists f. auto.
  - intros n D R. apply big_SetString_ok in D; [|assumption]. rewrite D. rewrite FRReprFromBigInt_err by lia. reflexivity.
  - intros N. destruct (big_SetString_or b s Hb) as [[n E]| ->]; [|reflexivity].
    apply big_SetString_ok in E; [|assumption]. destruct (N n E).
Qed.
Lemma fqReprFromStringUnchecked_ok : parse_spec fqReprFromStringUnchecked wf6 eval6 (2 ^ 384) SPanic.
Proof.
  intros s b Hb. unfold fqReprFromStringUnchecked. rewrite int_small by lia. repeat split.
  - intros n D R. apply big_SetString_ok in D; [|assumption]. rewrite D.
    destruct (unchecked_ok n R) as (f & -> & W & V). exists f. auto.
  - intros n D R. apply big_SetString_ok in D; [|assumption]. rewrite D. rewrite unchecked_err by lia. reflexivity.
  - intros N. destruct (big_SetString_or b s Hb) as [[n E]| ->]; [|reflexivity].
    apply big_SetString_ok in E; [|assumption]. destruct (N n E).
Qed.
Lemma fqReprFromHexUnchecked_eq s : fqReprFromHexUnchecked s = fqReprFromStringUnchecked s 16.
Proof. reflexivity. Qed.

Lemma bad_base s b : b = 1 \/ 62 < b < 2 ^ 64 ->
  FQReprFromString s b = (if String.eqb s "" then SFail else SPanic) /\
  FRReprFromString s b = (if String.eqb s "" then SFail else SPanic) /\
  fqReprFromStringUnchecked s b = SPanic.
Proof.
  intros H. apply int_bad in H. unfold FQReprFromString, FRReprFromString, fqReprFromStringUnchecked.
  rewrite (big_SetString_bad _ s H). destruct (String.eqb s ""); repeat split.
Qed.

Lemma every_value b n : 2 <= b <= 62 -> exists s, denotes b s n.
Proof.
  intros Hb. destruct (Z.le_gt_cases 0 n).
  - destruct (numeral_exists b n Hb) as [l Hl]; [assumption|]. exists (string_of_list_ascii l).
    unfold denotes. rewrite list_ascii_of_string_of_list_ascii. left. assumption.
  - destruct (numeral_exists b (- n) Hb) as [l Hl]; [lia|]. exists (string_of_list_ascii ("-"%char :: l)).
    unfold denotes. rewrite list_ascii_of_string_of_list_ascii. right; right. exists l, (- n). split; [reflexivity|]. split; [assumption|lia].
Qed.

(** The digits printed by String denote the value in base 16. *)
Lemma hexdigit_is_digit d : 0 <= d < 16 -> is_digit 16 (hexdigit d) d.
Proof.
  intros H. split; [assumption|]. cbn [Z.leb Z.compare Pos.compare Pos.compare_cont]. left.
  assert (d = 0 \/ d = 1 \/ d = 2 \/ d = 3 \/ d = 4 \/ d = 5 \/ d = 6 \/ d = 7 \/ d = 8 \/ d = 9 \/ d = 10 \/ d = 11 \/ d = 12 \/ d = 13 \/ d = 14 \/ d = 15) as C by lia.
  repeat (destruct C as [->|C]; [reflexivity|]). subst; reflexivity.
Qed.
Lemma hexdigits_numeral k : forall x, 0 <= x < 16 ^ Z.of_nat (S k) -> numeral 16 (map hexdigit (hexdigits (S k) x)) x.
Proof.
  induction k as [|k IH]; intros x Hx.
  - change (16 ^ Z.of_nat 1) with 16 in Hx. cbn [hexdigits app map]. rewrite Z.mod_small by lia. constructor. apply hexdigit_is_digit. lia.
  - rewrite Nat2Z.inj_succ, Z.pow_succ_r in Hx by lia.
    change (hexdigits (S (S k)) x) with (hexdigits (S k) (x / 16) ++ [x mod 16]). rewrite map_app. cbn [map].
    rewrite (Z.div_mod x 16) at 3 by lia. apply num_more.
    + apply IH. split; [apply Z.div_pos; lia|apply Z.div_lt_upper_bound; lia].
    + apply hexdigit_is_digit. apply Z.mod_pos_bound. lia.
Qed.
Lemma hexstring_denotes k x : 0 <= x < 16 ^ Z.of_nat (S k) -> denotes 16 (hexstring (S k) x) x.
Proof.
  intros H. unfold denotes, hexstring. rewrite list_ascii_of_string_of_list_ascii. left. apply hexdigits_numeral. assumption.
Qed.
Lemma FQ_print_parse f : wf6 f -> denotes 16 (FQRepr_String f) (eval6 f) /\ FQReprFromString (FQRepr_String f) 16 = SOk f.
Proof.
  intros W. pose proof (eval6_bound f W) as B.
  assert (denotes 16 (FQRepr_String f) (eval6 f)) as D.
  { rewrite FQRepr_String_spec by assumption. apply (hexstring_denotes 95). change (16 ^ Z.of_nat 96) with (2 ^ 384). assumption. }
  split; [exact D|]. destruct (proj1 (FQReprFromString_ok (FQRepr_String f) 16 ltac:(lia)) _ D B) as (g & E & Wg & V).
  rewrite E. f_equal. apply eval6_inj; assumption.
Qed.
Lemma FR_print_parse f : wf4 f -> denotes 16 (FRRepr_String f) (eval4 f) /\ FRReprFromString (FRRepr_String f) 16 = SOk f.
Proof.
  intros W. pose proof (eval4_bound f W) as B.
  assert (denotes 16 (FRRepr_String f) (eval4 f)) as D.
  { rewrite FRRepr_String_spec by assumption. apply (hexstring_denotes 63). change (16 ^ Z.of_nat 64) with (2 ^ 256). assumption. }
  split; [exact D|]. destruct (proj1 (FRReprFromString_ok (FRRepr_String f) 16 ltac:(lia)) _ D B) as (g & E & Wg & V).
  rewrite E. f_equal. apply eval4_inj; assumption.
Qed.

(** ** The constants *)
Lemma consts_fq : map (fun '(s, b, _) => FQReprFromString s b) src_fq = map (fun '(_, _, v) => SOk v) src_fq.
Proof. vm_compute. reflexivity. Qed.
Lemma consts_fr : map (fun '(s, b, _) => FRReprFromString s b) src_fr = map (fun '(_, _, v) => SOk v) src_fr.
Proof. vm_compute. reflexivity. Qed.
Lemma consts_hex : map (fun '(s, _) => fqReprFromHexUnchecked s) src_hex = map (fun '(_, v) => SOk v) src_hex.
Proof. vm_compute. reflexivity. Qed.
Lemma consts_big : map (fun '(s, _) => big_SetString s 16) src_big = map (fun '(_, v) => SOk v) src_big.
Proof. vm_compute. reflexivity. Qed.

Definition parses (ss : list string) (vs : list FQRepr) : Prop := map fqReprFromHexUnchecked ss = map SOk vs.
Definition parses2 (ss : list (string * string)) (vs : list (FQRepr * FQRepr)) : Prop :=
  map (fun p => (fqReprFromHexUnchecked (fst p), fqReprFromHexUnchecked (snd p))) ss = map (fun p => (SOk (fst p), SOk (snd p))) vs.
Lemma consts_iso :
  parses src_xNum11 xNum11_repr /\ parses src_xDen11 xDen11_repr /\ parses src_yNum11 yNum11_repr /\ parses src_yDen11 yDen11_repr /\
  parses2 src_xNum3 xNum3_repr /\ parses2 src_xDen3 xDen3_repr /\ parses2 src_yNum3 yNum3_repr /\ parses2 src_yDen3 yDen3_repr /\
  parses2 src_iwsc [(iwsc0_repr, iwsc1_repr)].
Proof. unfold parses, parses2. vm_compute. tauto. Qed.
