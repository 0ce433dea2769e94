(** Properties C78, C79: numbers and points as text. *)
Require Import String Ascii ZArith Bool List Lia.
From Verif Require Import Words ModelRepr ReprProofs ReprProofs2 ReprProofs3 ModelFq ModelFr ModelOps ModelTower ModelCurve ModelPairing ModelHash ModelStr SrcConst FqProofs FqProofs2 FrProofs FqTransfer EcGroup EcJac Curves CurveLimb CurveMisc StrProofs StrProofs2 StrProofs3.
Import ListNotations.
Open Scope Z_scope.

Theorem C78_FQReprFromString :
  parse_spec FQReprFromString wf6 eval6 (2 ^ 384) SFail.
Proof. exact FQReprFromString_ok. Qed.
Print Assumptions C78_FQReprFromString.

Theorem C78_FRReprFromString :
  parse_spec FRReprFromString wf4 eval4 (2 ^ 256) SFail.
Proof. exact FRReprFromString_ok. Qed.
Print Assumptions C78_FRReprFromString.

Theorem C78_unchecked :
  parse_spec fqReprFromStringUnchecked wf6 eval6 (2 ^ 384) SPanic /\ (forall s, fqReprFromHexUnchecked s = fqReprFromStringUnchecked s 16).
Proof. exact (conj fqReprFromStringUnchecked_ok fqReprFromHexUnchecked_eq). Qed.
Print Assumptions C78_unchecked.

Theorem C78_bad_base :
  forall s b, b = 1 \/ 62 < b < 2 ^ 64 ->
  FQReprFromString s b = (if String.eqb s "" then SFail else SPanic) /\
  FRReprFromString s b = (if String.eqb s "" then SFail else SPanic) /\
  fqReprFromStringUnchecked s b = SPanic.
Proof. exact bad_base. Qed.
Print Assumptions C78_bad_base.

Theorem C78_denotation_unique :
  forall b s n m, 2 <= b <= 62 -> denotes b s n -> denotes b s m -> n = m.
Proof. exact denotes_fun. Qed.
Print Assumptions C78_denotation_unique.

Theorem C78_every_number_has_a_numeral :
  forall b n, 2 <= b <= 62 -> exists s, denotes b s n.
Proof. exact every_value. Qed.
Print Assumptions C78_every_number_has_a_numeral.

Theorem C78_print_then_parse :
  (forall f, wf6 f -> denotes 16 (FQRepr_String f) (eval6 f) /\ FQReprFromString (FQRepr_String f) 16 = SOk f) /\
  (forall f, wf4 f -> denotes 16 (FRRepr_String f) (eval4 f) /\ FRReprFromString (FRRepr_String f) 16 = SOk f).
Proof. exact (conj FQ_print_parse FR_print_parse). Qed.
Print Assumptions C78_print_then_parse.

Theorem C78_source_constants :
  map (fun '(s, b, _) => FQReprFromString s b) src_fq = map (fun '(_, _, v) => SOk v) src_fq /\
  map (fun '(s, b, _) => FRReprFromString s b) src_fr = map (fun '(_, _, v) => SOk v) src_fr /\
  map (fun '(s, _) => fqReprFromHexUnchecked s) src_hex = map (fun '(_, v) => SOk v) src_hex /\
  map (fun '(s, _) => big_SetString s 16) src_big = map (fun '(_, v) => SOk v) src_big.
Proof. exact (conj consts_fq (conj consts_fr (conj consts_hex consts_big))). Qed.
Print Assumptions C78_source_constants.

Theorem C78_isogeny_constants :
  parses src_xNum11 xNum11_repr /\ parses src_xDen11 xDen11_repr /\ parses src_yNum11 yNum11_repr /\ parses src_yDen11 yDen11_repr /\
  parses2 src_xNum3 xNum3_repr /\ parses2 src_xDen3 xDen3_repr /\ parses2 src_yNum3 yNum3_repr /\ parses2 src_yDen3 yDen3_repr /\
  parses2 src_iwsc [(iwsc0_repr, iwsc1_repr)].
Proof. exact consts_iso. Qed.
Print Assumptions C78_isogeny_constants.

Example C78_nonvacuous :
  denotes 10 "-007" (-7) /\ denotes 36 "Zz" 1295 /\ denotes 62 "Zz" 3817 /\
  FQReprFromString "+ff" 16 = SOk (NewFQRepr 255) /\ FQReprFromString "-0" 10 = SOk (NewFQRepr 0) /\ FQReprFromString "-1" 10 = SFail /\
  FQReprFromString "0xff" 16 = SFail /\ FQReprFromString "1_000" 10 = SFail /\ FQReprFromString "12" 2 = SFail /\ FQReprFromString "7" 63 = SPanic /\
  fqReprFromHexUnchecked "g" = SPanic /\ length src_fq = 15%nat /\ length src_fr = 5%nat /\ length src_hex = 3%nat /\ length src_big = 1%nat.
Proof.
  split; [apply big_SetString_ok; [lia|vm_compute; reflexivity]|].
  split; [apply big_SetString_ok; [lia|vm_compute; reflexivity]|].
  split; [apply big_SetString_ok; [lia|vm_compute; reflexivity]|].
  vm_compute. tauto.
Qed.

Theorem C79_field_strings_show_the_value :
  (forall f, canon f -> show_FQ FqB f = ("Fq(0x" ++ hexstring 96 (fval f) ++ ")")%string) /\
  (forall f, rcanon f -> FR_String f = ("FR(0x" ++ hexstring 64 (rval f) ++ ")")%string).
Proof. exact (conj show_FQ_value FR_String_value). Qed.
Print Assumptions C79_field_strings_show_the_value.

Theorem C79_field_strings_injective :
  sh_inj canon (show_FQ FqB) /\ sh_inj rcanon FR_String /\
  sh_inj canon2 (show_FQ2 FqB) /\ sh_inj canon6 (show_FQ6 FqB) /\ sh_inj canon12 (show_FQ12 FqB).
Proof. exact (conj show_FQ_inj (conj FR_String_inj (conj show_FQ2_inj (conj show_FQ6_inj show_FQ12_inj)))). Qed.
Print Assumptions C79_field_strings_injective.

Theorem C79_affine_strings :
  (forall P Q, canonA1 P -> canonA1 Q -> show_G1Affine FqB P = show_G1Affine FqB Q <-> aff1 P = aff1 Q) /\
  (forall P Q, canonA2 P -> canonA2 Q -> show_G2Affine FqB P = show_G2Affine FqB Q <-> aff2 P = aff2 Q).
Proof. exact (conj show_G1Affine_iff show_G2Affine_iff). Qed.
Print Assumptions C79_affine_strings.

Theorem C79_projective_strings :
  (forall P Q, canonP1 P -> canonP1 Q -> show_G1Projective FqB P = show_G1Projective FqB Q <-> jac1 P = jac1 Q) /\
  (forall P Q, canonP2 P -> canonP2 Q -> show_G2Projective FqB P = show_G2Projective FqB Q <-> jac2 P = jac2 Q).
Proof. exact (conj show_G1Projective_iff show_G2Projective_iff). Qed.
Print Assumptions C79_projective_strings.

Example C79_nonvacuous :
  let G := G1ProjectiveOne FqB in
  show_G1Projective FqB G = "G1(x=Fq(0x17f1d3a73197d7942695638c4fa9ac0fc3688c4f9774b905a14e3a3f171bac586c55e83ff97a1aeffb3af00adb22c6bb), y=Fq(0x08b3f481e3aaa0f1a09e30ed741d8ae4fcf5e095d5d00af600db18cb2c04b3edd03cc744a2888ae40caa232946c5e7e1))"%string /\
  show_G1Projective FqB (Proj_NegAssign FqO G) <> show_G1Projective FqB G /\ canonP1 G /\ canonP1 (Proj_NegAssign FqO G) /\
  show_G2Projective FqB (ProjectiveZero FqO2) = "G2: Infinity"%string /\ FR_String bigOneFR = "FR(0x0000000000000000000000000000000000000000000000000000000000000001)"%string.
Proof.
  intros G. pose proof G1pone_canon as C.
  split; [vm_compute; reflexivity|]. split; [vm_compute; discriminate|]. split; [exact C|]. split; [apply G1_neg; exact C|].
  split; vm_compute; reflexivity.
Qed.
