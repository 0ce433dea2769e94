# Output of Print Assumptions for every property theorem

Generated by tools/gen_assumptions.py.

## Group 0: closed under the global context (253 theorems)

* Properties_Asm: C05_MACWithCarry, C05_AddWithCarry, C05_SubWithBorrow, C05_MultiplyFQRepr, C05_MontReduce, C05_AddNoCarry, C05_SubNoBorrow, C68_scalar_functions_partial, C68_MultiplyFQRepr_refuted, C68_AddNoCarry_refuted, C68_SubNoBorrow_refuted
* Properties_Bls: protocol_vocabulary, C41_g1pubs_screening, C41_g1pubs_equation_partial, C41_g1pubs_empty_message_refuted, C42_g1pubs_order, C43_g1pubs_signatures, C43_g1pubs_keys, C43_g1pubs_order, C43_g1pubs_grouping, C43_g1pubs_nothing, C44_g1pubs_signatures, C57_g1pubs_common, C57_g1pubs_order, C57_g1pubs_representation, C59_g1pubs_Equals, C59_g1pubs_signatures, C59_g1pubs_reserialize, C41_g2pubs_screening, C41_g2pubs_equation_partial, C41_g2pubs_empty_message_refuted, C42_g2pubs_order, C43_g2pubs_signatures, C43_g2pubs_keys, C43_g2pubs_order, C43_g2pubs_grouping, C43_g2pubs_nothing, C44_g2pubs_signatures, C57_g2pubs_common, C57_g2pubs_order, C57_g2pubs_representation, C59_g2pubs_Equals, C59_g2pubs_signatures, C59_g2pubs_reserialize, C57_domain_common, C57_domain_order, C42_domain_order, C45_roundtrip, C45_all_strings, C45_out_of_range_refuted, C46_HashSecretKey, C46_hp, C46_hp2, C58_primes, C58_field_constants, C58_curve_parameters, C58_coefficients
* Properties_Codec: subgroup_points_meaning, C32_G1_exact_codec, C32_G1_roundtrip, C32_G1_injective, C32_G1_unchecked, C33_G2_roundtrip, C33_G2_nonmalleable, C33_G2_unchecked, C34_G1_noncanonical_refuted, C34_G2_noncanonical_refuted, C35_G2_raw_roundtrip, C35_G1_raw_refuted, C35_G1_raw_partial
* Properties_Curve: group_law_spec_G1, group_law_spec_G2, C25_G1_group_law, C26_G1_conversions, C28_G1_abelian_group, C28_G1_associative_points, C29_G1_scalar_multiplication, C30_G1_subgroup_check, C30_G1_on_curve_check, C27_G1_Equals, C31_GetG1PointFromX, C25_G2_group_law, C26_G2_conversions, C28_G2_abelian_group, C28_G2_associative_points, C29_G2_scalar_multiplication, C30_G2_subgroup_check, C30_G2_on_curve_check, C27_G2_Equals_refuted, C27_G2_Equals_partial, C31_GetG2PointFromX
* Properties_Field: C08_reachable_equality, C09_FQ_arithmetic, C09_FQ_conversions, C10_FQ_Inverse, C11_Inverse_raw_refuted, C12_FQ_Exp, C12_FR_Exp, C13_FQ_Sqrt, C14_FQ_Legendre, C14_FR_Legendre, C15_FQ_order, C16_FR_arithmetic, C16_FR_conversions, C17_globals_refuted, C17_globals_without_Sqrt_partial, C18_FRReprToFR_refuted, C18_FRReprToFR_overwrites, C54_FQ_MulBits_refuted, C54_FQ_MulBytes_refuted, C54_FR_MulBits_refuted, C54_FQ_MulBits_value_partial
* Properties_Hash: hashing_vocabulary, C47_hp, C47_hp2, C47_swu_G1, C47_swu_G2, C47_swu_G1_unique, C47_swu_G2_unique, C49_G1_never_panics, C49_G2_never_panics, C50_SWEncodeG2
* Properties_Memory: C76_vocabulary, C76_package_variables, C76_calls, C76_results, C76_nonvacuous, C76_FQ6_Exp, C76_FQ6_nonvacuous, C76_FQ6_MulAssign, C76_package_receiver_refuted, C76_shared_halves_refuted
* Properties_Objects: C74_words, C74_MultiplyFQRepr, C74_MontReduce, C74_AddNoCarry_SubNoBorrow, C75_g1pubs_PublicKey_g2pubs_Signature, C75_g2pubs_PublicKey_g1pubs_Signature, C75_results_G1, C75_results_G2, C75_nonvacuous, C75_GetPoint_must_copy, C75_SecretKey_refuted, C75_SecretKey_partial, C75_SecretKey_nonvacuous
* Properties_Pairing: C36_MillerLoop_product, C36_MillerLoop_order, C36_MillerLoop_empty, C37_infinity_panics, C37_Pairing_panics, C37_Compare_panics, C37_MillerLoop_infinity_refuted, C38_FinalExponentiation_power, C38_FinalExponentiation_multiplicative, C39_CompareTwoPairings, C55_prepared_fits, C55_no_panic, C55_none_left, C56_negation_inverts
* Properties_Random: C77_streams, C77_RandFQ, C77_RandFR, C77_RandKey, C77_nonvacuous, C77_RandFQ_uniform, C77_RandFR_uniform, C77_RandFQ_chunks, C77_RandFR_chunks, C77_outcome, C77_RandFQ2, C77_RandFQ6, C77_RandFQ12, C77_points_nonvacuous, C77_RandG1_chunks_refuted
* Properties_Sort: C80_order, C80_less, C80_less_panics, C80_is_sorted, C80_insertion_sort, C80_insertion_is_sorting, C80_integers_suffice, C80_g1pubs, C80_g2pubs
* Properties_Src: C81_fq2_source, C81_fq6_source, C81_fq12_source, C81_g1_source, C81_g2_source, C81_pairing_source, C81_hash_source, C81_g1pubs_bls_source, C81_g2pubs_bls_source, C81_stub_fallback_source, C81_fqrepr_source, C81_frrepr_source, C81_bititerator_source, C81_fq_source, C81_fr_source
* Properties_Strings: C78_FQReprFromString, C78_FRReprFromString, C78_unchecked, C78_bad_base, C78_denotation_unique, C78_every_number_has_a_numeral, C78_print_then_parse, C78_source_constants, C78_isogeny_constants, C79_field_strings_show_the_value, C79_field_strings_injective, C79_affine_strings, C79_projective_strings
* Properties_Tower: extension_fields, C12_FQ2_Exp, C12_FQ12_Exp, C14_FQ2_Legendre, C15_FQ2_order, C19_FQ2_arithmetic, C19_FQ2_inverse, C19_FQ2_DivAssign, C20_FQ2_Sqrt, C21_FQ6_arithmetic, C21_FQ6_inverse, C22_FQ6_aliased_refuted, C22_FQ6_aliased_exact, C23_FQ12_arithmetic, C23_FQ12_inverse, C23_FQ12_Exp, C24_Frobenius, C54_FQ2_MulBits
* Properties_Verify: verification_vocabulary, C67_g1pubs_identity, C67_g2pubs_identity
* Properties_Wire: wire_vocabulary_stated, C71_VerifyAggregate_screens, C72_G1, C72_G2_refuted, C72_G2_without_SetRawBytes_partial, C72_nonvacuous, C73_g1pubs, C73_g2pubs, C73_nonvacuous, C73_sorted, C73_copy_needed
* Properties_Words: C01_MACWithCarry_exact, C02_MultiplyFQRepr_exact, C03_MontReduce, C04_add_sub_modulo, C06_FQRepr_integer_ops, C06_FRRepr_integer_ops, C07_FQRepr_codecs, C07_FRRepr_codecs, C53_BitIterator_msb_first, C60_String_is_hexadecimal

## Group 1: 23 standard-library constants (73 theorems)

Constants listed: `PrimInt63.add`, `PrimInt63.eqb`, `PrimInt63.int`, `PrimInt63.land`, `PrimInt63.leb`, `PrimInt63.lor`, `PrimInt63.lsl`, `PrimInt63.lsr`, `PrimInt63.ltb`, `PrimInt63.mul`, `PrimInt63.sub`, `Uint63.add_spec`, `Uint63.eqb_correct`, `Uint63.eqb_refl`, `Uint63.land_spec`, `Uint63.leb_spec`, `Uint63.lor_spec`, `Uint63.lsl_spec`, `Uint63.lsr_spec`, `Uint63.ltb_spec`, `Uint63.mul_spec`, `Uint63.of_to_Z`, `Uint63.sub_spec`.

* Properties_Bls: C44_g1pubs_public_key, C44_g1pubs_keys, C44_g2pubs_public_key, C44_g2pubs_keys, C58_generators, C30_generators_pass
* Properties_Hash: C48_iso11, C48_iso3, C49_G1_on_curve_partial, C49_G2_on_curve_partial, C49_G1_on_curve_refuted, C49_G2_on_curve_refuted, C51_sound, C51_complete, C52_G1_partial, C52_G2_partial, C52_G1_refuted, C52_G2_refuted
* Properties_Honest: C40_g1pubs_Verify_refuted, C40_g2pubs_Verify_refuted
* Properties_Random: C77_RandG1, C77_RandG2, C77_RandKey_nonzero_refuted
* Properties_Verify: C30_G1_count, C30_G2_count, C58_G1_cofactor, C58_G2_cofactor, C30_G1_subgroup_size, C30_G2_subgroup_size, C65_G1_multiples, C65_G2_multiples, C65_g1pubs_one_key, C65_g2pubs_one_key, C66_G1_ScaleByCofactor, C66_G2_ScaleByCofactor, C66_ClearH, C66_clearH2, C61_scalars, C61_left, C61_right, C62_nondegenerate, C63_g1pubs_Verify, C63_g1pubs_unique, C64_g1pubs_VerifyAggregate, C64_g1pubs_VerifyAggregateCommon, C40_g1pubs_Verify_partial, C40_g1pubs_VerifyAggregate_partial, C40_g1pubs_VerifyAggregateCommon_partial, C63_g2pubs_Verify, C63_g2pubs_unique, C64_g2pubs_VerifyAggregate, C64_g2pubs_VerifyAggregateCommon, C40_g2pubs_Verify_partial, C40_g2pubs_VerifyAggregate_partial, C40_g2pubs_VerifyAggregateCommon_partial, C63_VerifyWithDomain, C64_VerifyAggregateWithDomain, C64_VerifyAggregateCommonWithDomain, C40_VerifyWithDomain_partial, C40_VerifyAggregateWithDomain_partial, C40_VerifyAggregateCommonWithDomain_partial
* Properties_Wire: C69_g2pubs_one_string, C69_g1pubs_one_string, C70_g1pubs, C70_g2pubs, C69_C70_g1pubs_nonvacuous, C69_C70_g2pubs_nonvacuous, C40_g1pubs_sha256_partial, C40_g2pubs_sha256_partial, C71_g1pubs_VerifyAggregateCommon, C71_g2pubs_VerifyAggregateCommon, C71_VerifyAggregateWithDomain, C71_nonvacuous
