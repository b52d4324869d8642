{"claims":[
{"property": "C01", "status": "proved", "theorems": ["C01_secret_key_round_trip"], "note": ""},
{"property": "C02", "status": "proved", "theorems": ["C02_secret_key_length_check"], "note": ""},
{"property": "C03", "status": "proved", "theorems": ["C03_secret_key_equality"], "note": ""},
{"property": "C04", "status": "proved", "theorems": ["C04_compressed_decoder"], "note": "x^3+4 is never 0 on this curve (no point of order two), so 'nonzero square' and 'square' agree."},
{"property": "C05", "status": "proved", "theorems": ["C05_decoded_on_curve"], "note": ""},
{"property": "C06", "status": "proved", "theorems": ["C06_round_trip_refuted", "C06_round_trip_exact"], "note": "The property is false of the code; witness: secret key 3035. The second theorem says exactly for which keys it holds."},
{"property": "C07", "status": "proved", "theorems": ["C07_canonical_refuted", "C07_two_encodings_refuted", "C07_canonical_partial"], "note": "The property is false of the code; witness: x=4 and x=q+4. The last theorem gives the case in which it holds."},
{"property": "C08", "status": "proved", "theorems": ["C08_infinity_decoding", "C08_infinity_encoding", "C08_signature_infinity_decoding", "C08_signature_infinity_encoding"], "note": ""},
{"property": "C09", "status": "proved", "theorems": ["C09_sign_flag_refuted", "C09_sign_flag_exact"], "note": "The property is false of the code; the second theorem gives the exact set of y for which the flag is as documented."},
{"property": "C10", "status": "proved", "theorems": ["C10_uncompressed_round_trip"], "note": ""},
{"property": "C11", "status": "proved", "theorems": ["C11_uncompressed_decoder"], "note": ""},
{"property": "C12", "status": "proved", "theorems": ["C12_uncompressed_canonical_refuted", "C12_uncompressed_canonical_partial"], "note": "The property is false of the code; witness: x=q+4."},
{"property": "C13", "status": "proved", "theorems": ["C13_serialization_refuted", "C13_serialization_partial"], "note": "The property is false of the code; in both directions; the second theorem gives the cases in which it holds."},
{"property": "C14", "status": "proved", "theorems": ["C14_signature_decoder", "C14_signature_decoder_refuted"], "note": "The property is false of the code; an x whose y is purely imaginary is refused; the first theorem is the exact classification."},
{"property": "C15", "status": "proved", "theorems": ["C15_decoded_on_twist"], "note": ""},
{"property": "C16", "status": "proved", "theorems": ["C16_round_trip_refuted", "C16_aggregate_refuted", "C16_round_trip_exact"], "note": "The property is false of the code; the last theorem gives the exact outcome for every signature."},
{"property": "C17", "status": "proved", "theorems": ["C17_public_key_encoding", "C17_uncompressed_encoding", "C17_signature_encoding", "signatures_admissible"], "note": ""},
{"property": "C18", "status": "proved", "theorems": ["C18_subgroup_refuted", "C18_honest_keys_partial"], "note": "The property is false of the code; witness: x=0, a point of order 3. Derived keys and their sums are in the subgroup."},
{"property": "C19", "status": "proved", "theorems": ["C19_public_key_derivation"], "note": ""},
{"property": "C20", "status": "proved", "theorems": ["C20_secret_keys_modulo_r", "C20_signatures_modulo_r"], "note": "Public keys: an equivalence."},
{"property": "C21", "status": "proved", "theorems": ["C21_aggregate_is_group_sum", "C21_aggregate_any_order", "C21_aggregate_total"], "note": ""},
{"property": "C22", "status": "proved", "theorems": ["C22_aggregate_of_derived_keys"], "note": ""},
{"property": "C23", "status": "proved", "theorems": ["C23_aggregate_signature_is_group_sum", "C23_aggregate_signature_any_order", "C23_aggregate_signature_total"], "note": ""},
{"property": "C24", "status": "proved", "theorems": ["C24_aggregate_integer_sum", "C24_aggregate_sum_mod_r"], "note": ""},
{"property": "C25", "status": "proved", "theorems": ["C25_empty_aggregate_key", "C25_empty_aggregate_signature"], "note": ""},
{"property": "C26", "status": "proved", "theorems": ["C26_key_equality", "C26_signature_equality", "C26_ecp_equals", "C26_ecp2_equals"], "note": ""},
{"property": "C27", "status": "proved", "theorems": ["C27_hash_input", "C27_hash_input_injective"], "note": ""},
{"property": "C28", "status": "proved", "theorems": ["C28_first_x", "C28_search_ends"], "note": ""},
{"property": "C29", "status": "proved", "theorems": ["C29_larger_y_refuted", "C28_first_x"], "note": "The property is false of the code; for real y the root whose negative is a square is taken. The second theorem gives the exact choice."},
{"property": "C30", "status": "proved", "theorems": ["C30_new_is_new_hashed", "C30_verify_is_verify_hashed"], "note": ""},
{"property": "C31", "status": "proved", "theorems": ["C31_first_48_bytes", "C31_short_panics"], "note": ""},
{"property": "C32", "status": "proved", "theorems": ["C32_honest_signatures_verify"], "note": ""},
{"property": "C33", "status": "proved", "theorems": ["C33_zero_key_refuted", "C33_honest_verdict", "C33_honest_verdict_hashed"], "note": "The property is false of the code; with 48-byte inputs whose x is that of a point of order 13 the message point is infinity and the zero key's signature is rejected. The other theorems give the exact verdict on every honest signature."},
{"property": "C34", "status": "proved", "theorems": ["C34_honest_aggregates_verify", "C34_aggregate_verdict"], "note": ""},
{"property": "C35", "status": "proved", "theorems": ["C35_multiple_guards"], "note": ""},
{"property": "C36", "status": "proved", "theorems": ["C36_honest_multi_message"], "note": ""},
{"property": "C37", "status": "proved", "theorems": ["C37_one_message"], "note": ""},
{"property": "C38", "status": "proved", "theorems": ["C38_random_secret_key"], "note": "The exact key is given: the first 510 bits of the specified stream modulo r."},
{"property": "C39", "status": "proved", "theorems": ["C39_no_panic", "C39_refuted", "C39_large_seed_panics", "C39_empty_seed", "C39_reseed_refuted"], "note": "The property is false of the code; with overflow checks a seed of 2^29-8 bytes or more panics, and with an empty seed the earlier use of the generator shows. The first theorem is the property for non-empty seeds below that size."},
{"property": "C40", "status": "proved", "theorems": ["C40_sha256", "C40_sha256_checked", "C40_sha256_checked_panics", "C40_sha256_refuted", "C40_process_num"], "note": "True without overflow checks (first theorem, all lengths and chunkings); false with them: from 2^29-8 bytes on the length counter panics."},
{"property": "C41", "status": "proved", "theorems": ["C42_fp_add", "C42_fp_sub", "C42_fp_dbl", "C42_fp_neg", "C42_fp_mul", "C42_fp_sqr", "C42_fp_norm", "C42_fp_reduce", "C42_fp_div2", "C42_fp_imul", "C42_fp_inverse", "C42_fp_pow", "C42_fp_sqrt", "C42_fp_jacobi", "C42_fp_equals", "C42_fp_iszilch", "C42_fp_nres", "C42_fp_redc", "C45_fp2_add", "C45_fp2_sub", "C45_fp2_neg", "C45_fp2_conj", "C45_fp2_mul", "C45_fp2_sqr", "C45_fp2_inverse", "C45_fp2_mul_ip", "C45_fp2_pmul", "C45_fp2_equals", "C45_fp2_iszilch"], "note": "Each theorem includes: no panic (every i64/i128/i32 operation is range-checked in the model) and the excess bound of the result."},
{"property": "C42", "status": "proved", "theorems": ["C42_fp_add", "C42_fp_sub", "C42_fp_dbl", "C42_fp_neg", "C42_fp_mul", "C42_fp_sqr", "C42_fp_norm", "C42_fp_reduce", "C42_fp_div2", "C42_fp_imul", "C42_fp_inverse", "C42_fp_pow", "C42_fp_sqrt", "C42_fp_jacobi", "C42_fp_equals", "C42_fp_iszilch", "C42_fp_nres", "C42_fp_redc"], "note": ""},
{"property": "C43", "status": "proved", "theorems": ["C43_norm", "C43_dbig_norm", "C43_add", "C43_sub", "C43_rsub", "C43_dbl", "C43_compare", "C43_mul", "C43_sqr", "C43_monty", "C43_shl1", "C43_fshl", "C43_fshr", "C43_rmod", "C43_div", "C43_dmod", "C43_modmul", "C43_modsqr", "C43_modneg", "C43_tobytes", "C43_frombytes", "C43_nbits", "C43_iszilch", "C43_parity"], "note": "Word shifts by 58 bits or more are modelled but not covered."},
{"property": "C44", "status": "proved", "theorems": ["C44_isunity_refuted"], "note": "The property is false of the code; isunity always answers false."},
{"property": "C45", "status": "proved", "theorems": ["C45_fp2_add", "C45_fp2_sub", "C45_fp2_neg", "C45_fp2_conj", "C45_fp2_mul", "C45_fp2_sqr", "C45_fp2_inverse", "C45_fp2_mul_ip", "C45_fp2_pmul", "C45_fp2_equals", "C45_fp2_iszilch"], "note": ""},
{"property": "C46", "status": "proved", "theorems": ["C46_fp2_sqrt_exact", "C46_fp2_sqrt_refuted"], "note": "The property is false of the code; witness: -1. The first theorem is the exact domain."},
{"property": "C47", "status": "proved", "theorems": ["C47_ecp_add", "C47_ecp_dbl", "C47_ecp_sub", "C47_ecp_neg", "C47_ecp_affine", "C47_ecp_infinity", "C47_ecp2_add", "C47_ecp2_dbl", "C47_ecp2_sub", "C47_ecp2_neg", "C47_ecp2_affine", "C47_ecp2_infinity"], "note": ""},
{"property": "C48", "status": "proved", "theorems": ["C48_group_g1", "C48_group_g2"], "note": ""},
{"property": "C49", "status": "proved", "theorems": ["C49_ecp2_mul_refuted", "C49_ecp2_mul_partial", "C49_ecp2_mul_panics"], "note": "The property is false of the code; scalars from 2^404 on panic (index out of range in the digit table); correct below 2^404."},
{"property": "C50", "status": "proved", "theorems": ["C50_rogue_key"], "note": "Stronger: any target aggregate can be reached, not only infinity."},
{"property": "C51", "status": "proved", "theorems": ["C51_signature_canonical_refuted", "C51_signature_canonical_partial"], "note": "The property is false of the code; x and x+q; among strings with reduced coordinates the decoder is injective."},
{"property": "C52", "status": "proved", "theorems": ["C52_signature_is_multiple"], "note": ""},
{"property": "C53", "status": "proved", "theorems": ["C39_no_panic", "C53_stream_bytes", "C39_reseed_refuted"], "note": "For non-empty seeds; the first theorem gives every byte. For the empty seed the last theorem refutes the last clause."},
{"property": "C54", "status": "proved", "theorems": ["C54_random_key_pair"], "note": ""},
{"property": "C55", "status": "proved", "theorems": ["C55_tower_is_a_field", "C55_w_is_a_sixth_root", "C55_fp12_arithmetic", "C55_fp12_sparse_product", "C55_fp12_unitary_square", "C55_conjugation_is_a_power", "C55_fp12_frobenius"], "note": ""},
{"property": "C56", "status": "proved", "theorems": ["C56_final_exponentiation"], "note": ""},
{"property": "C57", "status": "proved", "theorems": ["C57_ate_pairing_is_the_pairing"], "note": "A second argument at infinity needs the first in the order-r group. The case where the result is 0 instead of the pairing is stated exactly (see C59)."},
{"property": "C58", "status": "proved", "theorems": ["C58_pairing_bilinear", "C58_pairing_of_multiples", "C58_pairing_is_a_root_of_unity"], "note": ""},
{"property": "C59", "status": "proved", "theorems": ["C59_pairing_of_infinity_refuted", "C57_ate_pairing_is_the_pairing"], "note": "The property is false of the code; the pairing of infinity with infinity is computed as 0. The second theorem gives the exact value."},
{"property": "C60", "status": "proved", "theorems": ["C60_twist_group_order", "C60_subgroup_is_cyclic", "C60_message_points_in_subgroup", "C60_mapped_points_in_subgroup"], "note": ""},
{"property": "C61", "status": "proved", "theorems": ["C61_verify_is_pairing_equation", "C61_verify_hashed_is_pairing_equation", "C61_aggregate_verify_is_pairing_equation"], "note": "With the one exception stated (zero_case)."},
{"property": "C62", "status": "proved", "theorems": ["C62_message_point_identity_refuted", "C62_universal_signature_refuted"], "note": "The property is false of the code; witness: the x coordinate of a point of order 13."},
{"property": "C63", "status": "proved", "theorems": ["C63_verify_multiple_is_product_equation"], "note": "With the exception stated (zero_case)."},
{"property": "C64", "status": "proved", "theorems": ["C64_verify_exact", "C64_verify_hashed_exact"], "note": "With the exception stated (zero_case)."},
{"property": "C65", "status": "proved", "theorems": ["C65_verify_accepts_what_signing_returns", "C65_derived_key_exact"], "note": ""},
{"property": "C66", "status": "proved", "theorems": ["C66_signatures_are_unique"], "note": ""},
{"property": "C67", "status": "proved", "theorems": ["C67_other_key", "C67_other_key_hashed"], "note": ""},
{"property": "C68", "status": "proved", "theorems": ["C68_other_message"], "note": ""},
{"property": "C69", "status": "proved", "theorems": ["C69_multiple_exact", "C69_multiple_derived_exact"], "note": "With the exception stated (zero_case)."},
{"property": "C70", "status": "proved", "theorems": ["C70_equivalent_keys_refuted"], "note": "The property is false of the code; every key and its sum with the key of order 3 that 128,0,...,0 decodes to give the same verdicts."},
{"property": "C71", "status": "proved", "theorems": ["C71_low_order_key_refuted", "C71_infinity_signature_exact"], "note": "The property is false of the code; the key 128,0,...,0 accepts the signature 192,0,...,0 on every message whose point is not infinity. The second theorem says exactly which keys accept a signature at infinity."},
{"property": "C72", "status": "proved", "theorems": ["C72_rogue_aggregate_verifies"], "note": ""},
{"property": "C73", "status": "proved", "theorems": ["C73_pairing_nondegenerate", "C73_pairing_with_multiples", "C73_pairing_nondegenerate_right"], "note": ""},
{"property": "C74", "status": "proved", "theorems": ["C74_keys_with_a_secret"], "note": ""},
{"property": "C75", "status": "proved", "theorems": ["C75_curve_group_order", "C75_curve_exponent"], "note": ""},
{"property": "C76", "status": "proved", "theorems": ["C76_key_classes", "C76_key_classes_hashed"], "note": ""},
{"property": "C77", "status": "proved", "theorems": ["C77_candidate_exists", "C77_map_to_g2_ends", "C77_hash_on_g2_ends"], "note": ""},
{"property": "C78", "status": "proved", "theorems": ["C78_g1mul"], "note": ""},
{"property": "C79", "status": "proved", "theorems": ["C79_g1mul_refuted", "C79_g1mul_wrong_outside"], "note": "The property is false of the code; every point outside the group of order r has a scalar below r for which the result is wrong, and a decoded key is such a point."},
{"property": "C80", "status": "proved", "theorems": ["C80_mul2"], "note": ""},
{"property": "C81", "status": "proved", "theorems": ["C81_g2mul"], "note": ""},
{"property": "C82", "status": "proved", "theorems": ["C82_g2mul_refuted", "C82_g2mul_wrong_outside"], "note": "The property is false of the code; every point outside the group of order r has a scalar below r for which the result is wrong, and a decoded signature of order 13 is such a point."},
{"property": "C83", "status": "proved", "theorems": ["C83_mul4"], "note": ""},
{"property": "C84", "status": "proved", "theorems": ["C84_gtpow", "C84_pow4"], "note": ""},
{"property": "C85", "status": "proved", "theorems": ["C85_pinmul", "C85_pinpow"], "note": ""},
{"property": "C86", "status": "proved", "theorems": ["C86_mapit", "C86_mapit_short"], "note": ""},
{"property": "C87", "status": "proved", "theorems": ["C87_mapit", "C87_mapit_short", "C87_clearing", "C87_heff"], "note": ""},
{"property": "C88", "status": "proved", "theorems": ["C88_inverse", "C88_rounds", "C88_not_coprime"], "note": ""},
{"property": "C89", "status": "proved", "theorems": ["C89_powmod", "C89_exponent_zero"], "note": ""},
{"property": "C90", "status": "proved", "theorems": ["C90_sha512", "C90_num"], "note": ""},
{"property": "C91", "status": "proved", "theorems": ["C91_sha384_release", "C91_sha384_any", "C91_sha384_refuted"], "note": "The property is false of the code; HASH384 adds with plain +, so a build with overflow checks panics, for instance on the message abc. Without them, and whenever it does not panic, the result is SHA-384."},
{"property": "C92", "status": "proved", "theorems": ["C92_hmac", "C92_short_tag"], "note": ""},
{"property": "C93", "status": "proved", "theorems": ["C93_kdf2"], "note": ""},
{"property": "C94", "status": "proved", "theorems": ["C94_kdf1", "C94_kdf1_short", "C94_kdf1_refuted"], "note": "The property is false of the code; the first block is the hash of z without the counter 0. The first theorem gives the exact output."},
{"property": "C95", "status": "proved", "theorems": ["C95_pbkdf2_partial", "C95_pbkdf2_refuted", "C95_repetitions_refuted", "C95_salt"], "note": "The property is false of the code; blocks advance by 48 bytes whatever the digest length, later rounds hash 64 bytes, and salts above 32 bytes panic. The first theorem gives where it holds."},
{"property": "C96", "status": "proved", "theorems": ["C96_key_pair", "C96_key_pair_random", "C96_shared_secret", "C96_agreement"], "note": "For points outside the group of order r with abscissa 0 the written abscissa may be q instead of 0."},
{"property": "C97", "status": "proved", "theorems": ["C97_validate", "C97_validate_group", "C97_validate_refuted"], "note": "The property is false of the code; the sum of the generator and (0,2) is accepted. The first theorem gives the exact set of accepted strings."},
{"property": "C98", "status": "proved", "theorems": ["C98_sign", "C98_sign_converse", "C98_signatures_verify"], "note": ""},
{"property": "C99", "status": "proved", "theorems": ["C99_verify", "C99_verify_no_key"], "note": ""},
{"property": "C100", "status": "proved", "theorems": ["C100_fips_refuted"], "note": "The property is false of the code; the code takes up to 384 bits of the digest; a signature of abc that it accepts is not valid by FIPS 186-4."},
{"property": "C101", "status": "proved", "theorems": ["C101_aes"], "note": ""},
{"property": "C102", "status": "proved", "theorems": ["C102_aes256_refuted"], "note": "The property is false of the code; the schedule lacks the extra SubWord of 32-byte keys, so the vector of FIPS 197 appendix C.3 comes out differently. Decryption still inverts encryption (C103)."},
{"property": "C103", "status": "proved", "theorems": ["C103_decrypt_inverts"], "note": ""},
{"property": "C104", "status": "proved", "theorems": ["C104_cbc", "C104_cfb", "C104_ofb"], "note": ""},
{"property": "C105", "status": "proved", "theorems": ["C105_ctr", "C105_ctr_refuted", "C105_ctr_panics", "C105_ctr_checked_refuted"], "note": "The property is false of the code; the counter has its least significant byte first, and overflow checks make it panic within 256 blocks. The first and third theorems give what it does."},
{"property": "C106", "status": "proved", "theorems": ["C106_cbc_encrypt"], "note": ""},
{"property": "C107", "status": "proved", "theorems": ["C107_cbc_decrypt", "C107_round_trip", "C107_whole_blocks", "C107_round_trip_refuted"], "note": "The property is false of the code; the bytes of the last partial block come back as the padding byte. The first theorem gives the exact result; messages of whole blocks are right."},
{"property": "C108", "status": "proved", "theorems": ["C108_no_key", "C108_no_key_refuted"], "note": "The property is false of the code; with a key of, say, 20 bytes the result does not depend on the key."},
{"property": "C109", "status": "proved", "theorems": ["C109_encrypt"], "note": "The abscissa 0, which no point of the group of order r has, is excluded."},
{"property": "C110", "status": "proved", "theorems": ["C110_decrypt", "C110_round_trip"], "note": "The abscissa 0, which no point of the group of order r has, is excluded."},
{"property": "C111", "status": "proved", "theorems": ["C111_short_tags", "C111_short_tags_refuted", "C111_long_tags"], "note": "The property is false of the code; tags below 4 bytes are ignored and tags above 32 bytes panic."},
{"property": "C112", "status": "proved", "theorems": ["C112_compressed", "C112_compressed_refuted"], "note": "The property is false of the code; a compressed V makes it panic."},
{"property": "C113", "status": "proved", "theorems": ["C113_encrypt"], "note": "For the build without overflow checks; C116 says what happens with them."},
{"property": "C114", "status": "proved", "theorems": ["C114_decrypt", "C114_round_trip"], "note": "For the build without overflow checks. The code leaves the comparison of tags to the caller."},
{"property": "C115", "status": "proved", "theorems": ["C115_header", "C115_data"], "note": ""},
{"property": "C116", "status": "proved", "theorems": ["C116_checked_refuted", "C116_product", "C116_empty", "C116_header"], "note": "The property is false of the code; the product of blocks overflows on every input but one."},
{"property": "C117", "status": "proved", "theorems": ["C117_gcm256_refuted"], "note": "The property is false of the code; it inherits the key schedule of C105. C114_round_trip still holds."},
{"property": "C118", "status": "proved", "theorems": ["C118_hash", "C118_long"], "note": "The counter of bytes is a u64, so the padded message must be shorter than 2^64 bytes."},
{"property": "C119", "status": "proved", "theorems": ["C119_shake"], "note": ""},
{"property": "C120", "status": "proved", "theorems": ["C120_zero", "C120_zero_refuted"], "note": "The property is false of the code; it writes one byte or panics."},
{"property": "C121", "status": "proved", "theorems": ["C121_again", "C121_reuse_refuted"], "note": "The property is false of the code; the state is not reset. C121_again says for digests up to 66 bytes what comes out."},
{"property": "C122", "status": "proved", "theorems": ["C122_transform"], "note": ""},
{"property": "C123", "status": "proved", "theorems": ["C123_ate2"], "note": ""},
{"property": "C124", "status": "proved", "theorems": ["C124_hash", "C124_point", "C124_client_secret", "C124_permit", "C124_server_secret", "C124_random", "C124_client_random", "C124_multiple"], "note": "The number q of steps always suffices for the search of the point."},
{"property": "C125", "status": "proved", "theorems": ["C125_client", "C125_server", "C125_shares"], "note": "The sums must not be the point at infinity."},
{"property": "C126", "status": "proved", "theorems": ["C126_extract_pin", "C126_factor", "C126_round_trip"], "note": ""},
{"property": "C127", "status": "proved", "theorems": ["C127_run", "C127_run_date", "C127_y"], "note": "The excluded coincidences make one of the points exchanged the point at infinity; the hypotheses list them."},
{"property": "C128", "status": "proved", "theorems": ["C128_decision", "C128_invalid"], "note": ""},
{"property": "C129", "status": "proved", "theorems": ["C129_response_refuted", "C129_outsider"], "note": "The property is false of the code; the order of the points is not checked. C128_decision says which responses are accepted."},
{"property": "C130", "status": "proved", "theorems": ["C130_unsupported", "C130_unsupported_refuted"], "note": "The property is false of the code; server_1 ignores the failure of the hash."},
{"property": "C131", "status": "proved", "theorems": ["C131_pins_refuted"], "note": "The property is false of the code; 2345 and 12345 are the same. C127 holds for PINs modulo 10000."},
{"property": "C132", "status": "proved", "theorems": ["C132_no_permit", "C132_no_permit_refuted"], "note": "The property is false of the code; the PIN point is added again instead. C132_no_permit says what comes out."},
{"property": "C133", "status": "proved", "theorems": ["C133_hash_all"], "note": ""},
{"property": "C134", "status": "proved", "theorems": ["C134_precompute", "C134_invalid"], "note": ""},
{"property": "C135", "status": "proved", "theorems": ["C135_point", "C135_decoding", "C135_flag"], "note": "The abscissa 0 may be written as q. For the point at infinity see C137."},
{"property": "C136", "status": "proved", "theorems": ["C136_encoding", "C136_invalid", "C136_round_trip"], "note": "P = W and the abscissa 0, of P or of P - W, are excluded; with a random u they have negligible probability."},
{"property": "C137", "status": "proved", "theorems": ["C137_opposite", "C137_opposite_refuted"], "note": "The property is false of the code; 0 and 0 with different parities decode to (0, -128)."},
{"property": "C138", "status": "proved", "theorems": ["C138_sound", "C138_pin", "C138_run", "C138_short"], "note": "That the walks meet is not claimed. The third case is the second comparison, whose sign is wrong; an example would need some hundred products in F_q12."},
{"property": "C139", "status": "proved", "theorems": ["C139_diagnosis"], "note": ""},
{"property": "C140", "status": "proved", "theorems": ["fp12_bytes", "fp12_read"], "note": "Lemmas of KangP.v; there is no property theorem of its own in PropsKang.v."}
]}
