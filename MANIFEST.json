{
 "claims": [
  {
   "property": "C01",
   "status": "proved",
   "theorems": [
    "C01_AddWithCarry_exact",
    "C01_SubWithBorrow_exact",
    "C01_MACWithCarry_exact"
   ],
   "note": ""
  },
  {
   "property": "C02",
   "status": "proved",
   "theorems": [
    "C02_MultiplyFQRepr_exact"
   ],
   "note": ""
  },
  {
   "property": "C03",
   "status": "proved",
   "theorems": [
    "C03_MontReduce"
   ],
   "note": ""
  },
  {
   "property": "C04",
   "status": "proved",
   "theorems": [
    "C04_add_sub_modulo"
   ],
   "note": ""
  },
  {
   "property": "C05",
   "status": "proved",
   "theorems": [
    "C05_MACWithCarry",
    "C05_AddWithCarry",
    "C05_SubWithBorrow",
    "C05_MultiplyFQRepr",
    "C05_MontReduce",
    "C05_AddNoCarry",
    "C05_SubNoBorrow"
   ],
   "note": "For every entry state; also shows that no function accesses memory outside its argument area and frame, and that arguments are not modified. Prologue/epilogue inserted by the assembler are not modelled."
  },
  {
   "property": "C06",
   "status": "proved",
   "theorems": [
    "C06_FQRepr_integer_ops",
    "C06_FRRepr_integer_ops"
   ],
   "note": ""
  },
  {
   "property": "C07",
   "status": "proved",
   "theorems": [
    "C07_FQRepr_codecs",
    "C07_FRRepr_codecs"
   ],
   "note": ""
  },
  {
   "property": "C08",
   "status": "proved",
   "theorems": [
    "C08_reachable_canonical",
    "C08_reachable_equality"
   ],
   "note": ""
  },
  {
   "property": "C09",
   "status": "proved",
   "theorems": [
    "C09_FQ_arithmetic",
    "C09_FQ_conversions"
   ],
   "note": ""
  },
  {
   "property": "C10",
   "status": "proved",
   "theorems": [
    "C10_FQ_Inverse",
    "C10_FQ_DivAssign"
   ],
   "note": ""
  },
  {
   "property": "C11",
   "status": "proved",
   "theorems": [
    "C11_Inverse_raw_refuted"
   ],
   "note": "The property as stated is false for this code: proved refutation, Inverse loops forever on FQReprToFQRaw(q)."
  },
  {
   "property": "C12",
   "status": "proved",
   "theorems": [
    "C12_FQ_Exp",
    "C12_FR_Exp",
    "C12_FQ2_Exp",
    "C12_FQ12_Exp"
   ],
   "note": ""
  },
  {
   "property": "C13",
   "status": "proved",
   "theorems": [
    "C13_FQ_Sqrt"
   ],
   "note": ""
  },
  {
   "property": "C14",
   "status": "proved",
   "theorems": [
    "C14_FQ_Legendre",
    "C14_FR_Legendre",
    "C14_FQ2_Legendre"
   ],
   "note": ""
  },
  {
   "property": "C15",
   "status": "proved",
   "theorems": [
    "C15_FQ_order",
    "C15_FQ2_order"
   ],
   "note": ""
  },
  {
   "property": "C16",
   "status": "proved",
   "theorems": [
    "C16_FR_arithmetic",
    "C16_FR_conversions"
   ],
   "note": ""
  },
  {
   "property": "C17",
   "status": "proved",
   "theorems": [
    "C17_globals_refuted",
    "C17_globals_without_Sqrt_partial"
   ],
   "note": "False as stated (proved refutation: FR.Sqrt overwrites the package-level one); proved for every call sequence without Sqrt. Calls are restricted to objects the caller created (call_ok)."
  },
  {
   "property": "C18",
   "status": "proved",
   "theorems": [
    "C18_FRReprToFR_refuted",
    "C18_FRReprToFR_overwrites"
   ],
   "note": "False as stated: proved refutation plus a general theorem saying exactly what the caller's value becomes."
  },
  {
   "property": "C19",
   "status": "proved",
   "theorems": [
    "C19_FQ2_arithmetic",
    "C19_FQ2_inverse",
    "C19_FQ2_DivAssign"
   ],
   "note": ""
  },
  {
   "property": "C20",
   "status": "proved",
   "theorems": [
    "C20_FQ2_Sqrt"
   ],
   "note": ""
  },
  {
   "property": "C21",
   "status": "proved",
   "theorems": [
    "C21_FQ6_arithmetic",
    "C21_FQ6_inverse"
   ],
   "note": ""
  },
  {
   "property": "C22",
   "status": "proved",
   "theorems": [
    "C22_FQ6_aliased_refuted",
    "C22_FQ6_aliased_exact"
   ],
   "note": "False as stated (proved refutation: f=v); proved exactly when the aliased product is the square. The un-aliased product is C21."
  },
  {
   "property": "C23",
   "status": "proved",
   "theorems": [
    "C23_FQ12_arithmetic",
    "C23_FQ12_inverse",
    "C23_FQ12_Exp"
   ],
   "note": ""
  },
  {
   "property": "C24",
   "status": "proved",
   "theorems": [
    "C24_Frobenius"
   ],
   "note": ""
  },
  {
   "property": "C25",
   "status": "proved",
   "theorems": [
    "C25_G1_group_law",
    "C25_G2_group_law"
   ],
   "note": ""
  },
  {
   "property": "C26",
   "status": "proved",
   "theorems": [
    "C26_G1_conversions",
    "C26_G2_conversions"
   ],
   "note": ""
  },
  {
   "property": "C27",
   "status": "partial",
   "theorems": [
    "C27_G1_Equals",
    "C27_G2_Equals_refuted",
    "C27_G2_Equals_partial"
   ],
   "note": "G1Affine.Equals is proved exact on valid points. G2Affine.Equals is refuted: it returns true for every two finite points (counterexample: generator and its negation); what it does decide is proved."
  },
  {
   "property": "C28",
   "status": "proved",
   "theorems": [
    "C28_G1_abelian_group",
    "C28_G1_associative_points",
    "C28_G2_abelian_group",
    "C28_G2_associative_points"
   ],
   "note": ""
  },
  {
   "property": "C29",
   "status": "proved",
   "theorems": [
    "C29_G1_scalar_multiplication",
    "C29_G2_scalar_multiplication"
   ],
   "note": ""
  },
  {
   "property": "C30",
   "status": "proved",
   "theorems": [
    "C30_generators_pass",
    "C30_G1_subgroup_check",
    "C30_G1_on_curve_check",
    "C30_G2_subgroup_check",
    "C30_G2_on_curve_check",
    "C30_G1_count",
    "C30_G2_count",
    "C30_G1_subgroup_size",
    "C30_G2_subgroup_size"
   ],
   "note": "Includes the exact number of points of both curves (r times the hard-coded cofactor) and of their r-torsion subgroups."
  },
  {
   "property": "C31",
   "status": "proved",
   "theorems": [
    "C31_GetG1PointFromX",
    "C31_GetG2PointFromX"
   ],
   "note": ""
  },
  {
   "property": "C32",
   "status": "proved",
   "theorems": [
    "C32_G1_exact_codec",
    "C32_G1_roundtrip",
    "C32_G1_injective",
    "C32_G1_unchecked"
   ],
   "note": ""
  },
  {
   "property": "C33",
   "status": "proved",
   "theorems": [
    "C33_G2_roundtrip",
    "C33_G2_nonmalleable",
    "C33_G2_unchecked"
   ],
   "note": ""
  },
  {
   "property": "C34",
   "status": "proved",
   "theorems": [
    "C34_G1_noncanonical_refuted",
    "C34_G2_noncanonical_refuted"
   ],
   "note": "False as stated: proved refutations for G1 and G2 (an encoded x >= q is silently read as 0 by the unchecked decompressors). The checked decompressors reject every non-canonical G1 x (C32)."
  },
  {
   "property": "C35",
   "status": "partial",
   "theorems": [
    "C35_G2_raw_roundtrip",
    "C35_G1_raw_refuted",
    "C35_G1_raw_partial"
   ],
   "note": "G2Affine round-trip proved. G1Affine.SetRawBytes refuted (it takes the serialized residues as Montgomery representations, so both coordinates come back multiplied by the inverse of 2^384); what it does restore is proved."
  },
  {
   "property": "C36",
   "status": "proved",
   "theorems": [
    "C36_MillerLoop_product",
    "C36_MillerLoop_order",
    "C36_MillerLoop_empty"
   ],
   "note": ""
  },
  {
   "property": "C37",
   "status": "proved",
   "theorems": [
    "C37_infinity_panics",
    "C37_Pairing_panics",
    "C37_Compare_panics",
    "C37_MillerLoop_infinity_refuted"
   ],
   "note": "False as stated for this code: MillerLoop panics (index out of range) as soon as one pair has a point at infinity, so Pairing and CompareTwoPairings panic instead of treating it as the neutral element. Proved for every input, with a concrete refutation."
  },
  {
   "property": "C38",
   "status": "proved",
   "theorems": [
    "C38_FinalExponentiation_power",
    "C38_FinalExponentiation_multiplicative"
   ],
   "note": ""
  },
  {
   "property": "C39",
   "status": "proved",
   "theorems": [
    "C39_CompareTwoPairings"
   ],
   "note": ""
  },
  {
   "property": "C40",
   "status": "partial",
   "theorems": [
    "C40_g1pubs_Verify_refuted",
    "C40_g2pubs_Verify_refuted",
    "C40_g1pubs_Verify_partial",
    "C40_g1pubs_VerifyAggregate_partial",
    "C40_g1pubs_VerifyAggregateCommon_partial",
    "C40_g2pubs_Verify_partial",
    "C40_g2pubs_VerifyAggregate_partial",
    "C40_g2pubs_VerifyAggregateCommon_partial",
    "C40_VerifyWithDomain_partial",
    "C40_VerifyAggregateWithDomain_partial",
    "C40_VerifyAggregateCommonWithDomain_partial",
    "C40_g1pubs_sha256_partial",
    "C40_g2pubs_sha256_partial"
   ],
   "note": "Proved for every message whose hash point is a non-identity point of the order-r subgroup and every aggregate that is not the identity; without these conditions the code panics (C67). With SHA-256 itself it is proved for one message and all keys (C40_*_sha256_partial). Refuted for arbitrary hash functions: with suitable digests the hash point is the identity and Verify panics on every honest signature."
  },
  {
   "property": "C41",
   "status": "partial",
   "theorems": [
    "C41_g1pubs_screening",
    "C41_g1pubs_equation_partial",
    "C41_g1pubs_empty_message_refuted",
    "C41_g2pubs_screening",
    "C41_g2pubs_equation_partial",
    "C41_g2pubs_empty_message_refuted"
   ],
   "note": "Screening and the pairing equation are proved for both packages; that the caller's slices are not modified is C73. As stated the property is false: a list containing the empty message is always rejected (refutation proved)."
  },
  {
   "property": "C42",
   "status": "proved",
   "theorems": [
    "C42_g1pubs_order",
    "C42_g2pubs_order",
    "C42_domain_order"
   ],
   "note": ""
  },
  {
   "property": "C43",
   "status": "proved",
   "theorems": [
    "C43_g1pubs_signatures",
    "C43_g1pubs_keys",
    "C43_g1pubs_order",
    "C43_g1pubs_grouping",
    "C43_g1pubs_nothing",
    "C43_g2pubs_signatures",
    "C43_g2pubs_keys",
    "C43_g2pubs_order",
    "C43_g2pubs_grouping",
    "C43_g2pubs_nothing"
   ],
   "note": ""
  },
  {
   "property": "C44",
   "status": "proved",
   "theorems": [
    "C44_g1pubs_public_key",
    "C44_g1pubs_keys",
    "C44_g1pubs_signatures",
    "C44_g2pubs_public_key",
    "C44_g2pubs_keys",
    "C44_g2pubs_signatures"
   ],
   "note": "Signatures: under the hypothesis of the property (the hash point is on the curve and killed by r)."
  },
  {
   "property": "C45",
   "status": "proved",
   "theorems": [
    "C45_roundtrip",
    "C45_all_strings",
    "C45_out_of_range_refuted"
   ],
   "note": "Round trip and exact acceptance set proved. The rejection clause is false: DeserializeSecretKey of an integer >= r returns a SecretKey wrapping a nil pointer, and using it panics (refutation proved)."
  },
  {
   "property": "C46",
   "status": "proved",
   "theorems": [
    "C46_HashSecretKey",
    "C46_hp",
    "C46_hp2"
   ],
   "note": ""
  },
  {
   "property": "C47",
   "status": "proved",
   "theorems": [
    "C47_hp",
    "C47_hp2",
    "C47_swu_G1",
    "C47_swu_G2",
    "C47_swu_G1_unique",
    "C47_swu_G2_unique"
   ],
   "note": "With the exact specification of the returned point (x0 or its twist image, sign of y), which determines it uniquely; also the value hp/hp2 derive from the digest."
  },
  {
   "property": "C48",
   "status": "proved",
   "theorems": [
    "C48_iso11",
    "C48_iso3"
   ],
   "note": "The kernel of the 11-isogeny is given explicitly (five x-coordinates); the 3-isogeny has no kernel point over GF(q^2)."
  },
  {
   "property": "C49",
   "status": "partial",
   "theorems": [
    "C49_G1_never_panics",
    "C49_G2_never_panics",
    "C49_G1_on_curve_partial",
    "C49_G2_on_curve_partial",
    "C49_G1_on_curve_refuted",
    "C49_G2_on_curve_refuted"
   ],
   "note": "Never panics: proved for all messages and hash functions. On the curve: proved unless the two SWU points have the same x-coordinate (or, G1, their sum lies in the isogeny kernel). Refuted without that condition for a concrete 32-byte hash function: equal digests are added with the a=0 doubling formula on the auxiliary curve and the result is off the curve."
  },
  {
   "property": "C50",
   "status": "proved",
   "theorems": [
    "C50_SWEncodeG2"
   ],
   "note": "Including which of the three candidates is returned and the sign of y."
  },
  {
   "property": "C51",
   "status": "proved",
   "theorems": [
    "C51_sound",
    "C51_complete"
   ],
   "note": "The unbounded search is modelled with fuel; soundness for every fuel, completeness as soon as one candidate within the fuel is on the curve."
  },
  {
   "property": "C52",
   "status": "partial",
   "theorems": [
    "C52_G1_partial",
    "C52_G2_partial",
    "C52_G1_refuted",
    "C52_G2_refuted"
   ],
   "note": "Proved: the result is cofactor times the first drawn curve point and lies in the order-r subgroup. The non-identity clause is false: proved refutations for RandG1 (a point of order 3) and RandG2 (a point of order 13), because the code tests the point before applying the cofactor."
  },
  {
   "property": "C53",
   "status": "proved",
   "theorems": [
    "C53_BitIterator_msb_first"
   ],
   "note": ""
  },
  {
   "property": "C54",
   "status": "proved",
   "theorems": [
    "C54_FQ_MulBits_refuted",
    "C54_FQ_MulBytes_refuted",
    "C54_FR_MulBits_refuted",
    "C54_FQ_MulBits_value_partial",
    "C54_FQ2_MulBits"
   ],
   "note": "False for FQ and FR (proved refutations, and the exact value FQ.MulBits computes instead); true and proved for FQ2.MulBits with b >= 0."
  },
  {
   "property": "C55",
   "status": "proved",
   "theorems": [
    "C55_prepared_fits",
    "C55_no_panic",
    "C55_none_left"
   ],
   "note": ""
  },
  {
   "property": "C56",
   "status": "proved",
   "theorems": [
    "C56_negation_inverts"
   ],
   "note": ""
  },
  {
   "property": "C57",
   "status": "proved",
   "theorems": [
    "C57_g1pubs_common",
    "C57_g1pubs_order",
    "C57_g1pubs_representation",
    "C57_g2pubs_common",
    "C57_g2pubs_order",
    "C57_g2pubs_representation",
    "C57_domain_common",
    "C57_domain_order"
   ],
   "note": ""
  },
  {
   "property": "C58",
   "status": "proved",
   "theorems": [
    "C58_primes",
    "C58_field_constants",
    "C58_curve_parameters",
    "C58_coefficients",
    "C58_generators",
    "C58_G1_cofactor",
    "C58_G2_cofactor"
   ],
   "note": "Primality, field constants, generators (order exactly r), cofactors = #E/r proved; Frobenius tables are C24."
  },
  {
   "property": "C59",
   "status": "proved",
   "theorems": [
    "C59_g1pubs_Equals",
    "C59_g1pubs_signatures",
    "C59_g1pubs_reserialize",
    "C59_g2pubs_Equals",
    "C59_g2pubs_signatures",
    "C59_g2pubs_reserialize"
   ],
   "note": ""
  },
  {
   "property": "C60",
   "status": "proved",
   "theorems": [
    "C60_String_is_hexadecimal",
    "C60_String_injective"
   ],
   "note": ""
  },
  {
   "property": "C61",
   "status": "proved",
   "theorems": [
    "C61_scalars",
    "C61_left",
    "C61_right"
   ],
   "note": ""
  },
  {
   "property": "C62",
   "status": "proved",
   "theorems": [
    "C62_nondegenerate"
   ],
   "note": ""
  },
  {
   "property": "C63",
   "status": "proved",
   "theorems": [
    "C63_g1pubs_Verify",
    "C63_g1pubs_unique",
    "C63_g2pubs_Verify",
    "C63_g2pubs_unique",
    "C63_VerifyWithDomain"
   ],
   "note": ""
  },
  {
   "property": "C64",
   "status": "proved",
   "theorems": [
    "C64_g1pubs_VerifyAggregate",
    "C64_g1pubs_VerifyAggregateCommon",
    "C64_g2pubs_VerifyAggregate",
    "C64_g2pubs_VerifyAggregateCommon",
    "C64_VerifyAggregateWithDomain",
    "C64_VerifyAggregateCommonWithDomain"
   ],
   "note": ""
  },
  {
   "property": "C65",
   "status": "proved",
   "theorems": [
    "C65_G1_multiples",
    "C65_G2_multiples",
    "C65_g1pubs_one_key",
    "C65_g2pubs_one_key"
   ],
   "note": ""
  },
  {
   "property": "C66",
   "status": "proved",
   "theorems": [
    "C66_G1_ScaleByCofactor",
    "C66_G2_ScaleByCofactor",
    "C66_ClearH",
    "C66_clearH2"
   ],
   "note": ""
  },
  {
   "property": "C67",
   "status": "proved",
   "theorems": [
    "C67_g1pubs_identity",
    "C67_g2pubs_identity"
   ],
   "note": ""
  },
  {
   "property": "C68",
   "status": "partial",
   "theorems": [
    "C68_scalar_functions_partial",
    "C68_MultiplyFQRepr_refuted",
    "C68_AddNoCarry_refuted",
    "C68_SubNoBorrow_refuted"
   ],
   "note": "Proved for the scalar functions; refuted for MultiplyFQRepr, AddNoCarry and SubNoBorrow, which have frame size 0 and overwrite BP."
  },
  {
   "property": "C69",
   "status": "proved",
   "theorems": [
    "C69_g2pubs_one_string",
    "C69_g1pubs_one_string"
   ],
   "note": "The g1pubs theorem has the two alternatives of the statement as a hypothesis: a zero x-coefficient of a G2 point has a second encoding (C34)."
  },
  {
   "property": "C70",
   "status": "proved",
   "theorems": [
    "C70_g1pubs",
    "C70_g2pubs"
   ],
   "note": ""
  },
  {
   "property": "C71",
   "status": "proved",
   "theorems": [
    "C71_g1pubs_VerifyAggregateCommon",
    "C71_g2pubs_VerifyAggregateCommon",
    "C71_VerifyAggregateWithDomain",
    "C71_VerifyAggregate_screens"
   ],
   "note": "A weakness of the interface: the theorems state that the attack works and which function prevents it."
  },
  {
   "property": "C72",
   "status": "partial",
   "theorems": [
    "C72_G1",
    "C72_G2_refuted",
    "C72_G2_without_SetRawBytes_partial"
   ],
   "note": "Proved for G1, whose ToAffine copies the package variable. Refuted for G2: ToAffine of the identity returns the pointer G2AffineZero itself, and SetRawBytes through it changes the package value. Proved for G2 histories without SetRawBytes."
  },
  {
   "property": "C73",
   "status": "proved",
   "theorems": [
    "C73_g1pubs",
    "C73_g2pubs"
   ],
   "note": ""
  },
  {
   "property": "C74",
   "status": "proved",
   "theorems": [
    "C74_words",
    "C74_MultiplyFQRepr",
    "C74_MontReduce",
    "C74_AddNoCarry_SubNoBorrow"
   ],
   "note": ""
  },
  {
   "property": "C75",
   "status": "partial",
   "theorems": [
    "C75_g1pubs_PublicKey_g2pubs_Signature",
    "C75_g2pubs_PublicKey_g1pubs_Signature",
    "C75_results_G1",
    "C75_results_G2",
    "C75_SecretKey_refuted",
    "C75_SecretKey_partial"
   ],
   "note": "Proved for public keys and signatures of both packages. Refuted for secret keys: GetFRElement returns the stored pointer, so FR methods on its result change the key. Proved for secret keys whose FR element and FRRepr the caller does not write to."
  },
  {
   "property": "C76",
   "status": "partial",
   "theorems": [
    "C76_vocabulary",
    "C76_package_variables",
    "C76_calls",
    "C76_results",
    "C76_FQ6_Exp",
    "C76_FQ6_MulAssign",
    "C76_package_receiver_refuted",
    "C76_shared_halves_refuted"
   ],
   "note": "Proved for histories in which no writing method is called on FQ12Zero or FQ12One themselves. Refuted without that restriction: the two package variables share FQ6 objects, so writing to one corrupts the other. Also refuted for elements built by NewFQ12 with one pointer twice."
  },
  {
   "property": "C77",
   "status": "partial",
   "theorems": [
    "C77_streams",
    "C77_RandFQ",
    "C77_RandFR",
    "C77_RandKey",
    "C77_RandFQ_uniform",
    "C77_RandFR_uniform",
    "C77_RandFQ_chunks",
    "C77_RandFR_chunks",
    "C77_outcome",
    "C77_RandFQ2",
    "C77_RandFQ6",
    "C77_RandFQ12",
    "C77_RandG1",
    "C77_RandG2",
    "C77_RandG1_chunks_refuted",
    "C77_RandKey_nonzero_refuted"
   ],
   "note": "Proved except for two clauses. Refuted: RandG1 does depend on chunking when a Read returns zero bytes without an error (the count is ignored). Refuted: RandKey can return the zero key. io.ReadFull and crypto/rand.Int are modelled from the standard library; data returned together with an error is not modelled."
  },
  {
   "property": "C78",
   "status": "proved",
   "theorems": [
    "C78_FQReprFromString",
    "C78_FRReprFromString",
    "C78_unchecked",
    "C78_bad_base",
    "C78_denotation_unique",
    "C78_every_number_has_a_numeral",
    "C78_print_then_parse",
    "C78_source_constants",
    "C78_isogeny_constants"
   ],
   "note": "Base 0 (prefixes and underscores of math/big) is outside the statement. SrcConst.v is written from the source text by tools/gen_srcconst.py."
  },
  {
   "property": "C79",
   "status": "proved",
   "theorems": [
    "C79_field_strings_show_the_value",
    "C79_field_strings_injective",
    "C79_affine_strings",
    "C79_projective_strings"
   ],
   "note": "fmt.Sprintf with %s is concatenation. SecretKey.String is FR.String of its element."
  },
  {
   "property": "C80",
   "status": "proved",
   "theorems": [
    "C80_order",
    "C80_less",
    "C80_less_panics",
    "C80_is_sorted",
    "C80_insertion_sort",
    "C80_insertion_is_sorting",
    "C80_integers_suffice",
    "C80_g1pubs",
    "C80_g2pubs"
   ],
   "note": "A sorting algorithm is any finite tree of Less and Swap calls per length; that sort.Sort of the installed Go is one and sorts integers is not modelled beyond insertionSort."
  },
  {
   "property": "C81",
   "status": "proved",
   "theorems": [
    "C81_fq2_source",
    "C81_fq6_source",
    "C81_fq12_source",
    "C81_g1_source",
    "C81_g2_source",
    "C81_pairing_source",
    "C81_hash_source",
    "C81_g1pubs_bls_source",
    "C81_g2pubs_bls_source",
    "C81_stub_fallback_source",
    "C81_fqrepr_source",
    "C81_frrepr_source",
    "C81_bititerator_source",
    "C81_fq_source",
    "C81_fr_source"
   ],
   "note": "Relative to the semantics of SrcSem.v and the parser tools/gen_srccode.py. Callees are the model functions. Covers the functions listed in Properties_Src.v: all functions of the package except the String methods, the Rand functions, FRReprToFR and FR.Sqrt (these two hand out package variables; see C18). FQ.Inverse and FR.Inverse for canonical values, and for every value on which the loop ends."
  }
 ]
}