{
 "claims": [
  {
   "property": "C01",
   "status": "proved",
   "theorems": [
    "C01_construct",
    "C01_unique",
    "C01_equality",
    "C01_base"
   ],
   "note": ""
  },
  {
   "property": "C02",
   "status": "proved",
   "theorems": [
    "C02_operators",
    "C02_compound",
    "C02_aliasing",
    "C02_aliasing_integer"
   ],
   "note": ""
  },
  {
   "property": "C03",
   "status": "proved",
   "theorems": [
    "C03_invert_divide",
    "C03_zero"
   ],
   "note": ""
  },
  {
   "property": "C04",
   "status": "proved",
   "theorems": [
    "C04_prime",
    "C04_no_zero_divisors"
   ],
   "note": ""
  },
  {
   "property": "C05",
   "status": "proved",
   "theorems": [
    "C05_history"
   ],
   "note": ""
  },
  {
   "property": "C06",
   "status": "proved",
   "theorems": [
    "C06_result_class",
    "C06_result_in_operand_field_refuted",
    "C06_not_reduced_refuted",
    "C06_setField",
    "C06_mixed_debug",
    "C06_mixed_release"
   ],
   "note": "Includes refutations of two claims that fail for mixed classes; see the _refuted theorems."
  },
  {
   "property": "C07",
   "status": "proved",
   "theorems": [
    "C07_constants",
    "C07_nonsingular"
   ],
   "note": ""
  },
  {
   "property": "C08",
   "status": "proved",
   "theorems": [
    "C08_closure"
   ],
   "note": ""
  },
  {
   "property": "C09",
   "status": "proved",
   "theorems": [
    "C09_associative",
    "C09_commutative",
    "C09_neutral",
    "C09_inverse"
   ],
   "note": ""
  },
  {
   "property": "C10",
   "status": "proved",
   "theorems": [
    "C10_double",
    "C10_double_infinity"
   ],
   "note": ""
  },
  {
   "property": "C11",
   "status": "proved",
   "theorems": [
    "C11_integer",
    "C11_scalar",
    "C11_group"
   ],
   "note": ""
  },
  {
   "property": "C12",
   "status": "proved",
   "theorems": [
    "C12_scalar_sum",
    "C12_scalar_product",
    "C12_point_sum",
    "C12_negative"
   ],
   "note": ""
  },
  {
   "property": "C13",
   "status": "proved",
   "theorems": [
    "C13_generated",
    "C13_exact_order"
   ],
   "note": ""
  },
  {
   "property": "C14",
   "status": "proved",
   "theorems": [
    "C14_subtract",
    "C14_minus_infinity_refuted",
    "C14_minus_infinity_debug",
    "C14_infinity_minus"
   ],
   "note": "P - infinity is wrong; refuted claim in C14_minus_infinity_refuted."
  },
  {
   "property": "C15",
   "status": "proved",
   "theorems": [
    "C15_lookup",
    "C15_right_hand_side",
    "C15_root"
   ],
   "note": ""
  },
  {
   "property": "C16",
   "status": "proved",
   "theorems": [
    "C16_roundtrip",
    "C16_encodes",
    "C16_injective",
    "C16_nonresidue",
    "C16_null"
   ],
   "note": ""
  },
  {
   "property": "C17",
   "status": "proved",
   "theorems": [
    "C17_decides",
    "C17_any_modulus",
    "C17_valid",
    "C17_one_infinity"
   ],
   "note": ""
  },
  {
   "property": "C18",
   "status": "proved",
   "theorems": [
    "C18_equality",
    "C18_meaning",
    "C18_any"
   ],
   "note": ""
  },
  {
   "property": "C19",
   "status": "proved",
   "theorems": [
    "C19_add",
    "C19_double",
    "C19_multiply",
    "C19_equality",
    "C19_dead",
    "C19_provenance"
   ],
   "note": ""
  },
  {
   "property": "C20",
   "status": "proved",
   "theorems": [
    "C20_reconstruct"
   ],
   "note": ""
  },
  {
   "property": "C21",
   "status": "proved",
   "theorems": [
    "C21_interpolation",
    "C21_empty"
   ],
   "note": ""
  },
  {
   "property": "C22",
   "status": "proved",
   "theorems": [
    "C22_repeated_index"
   ],
   "note": ""
  },
  {
   "property": "C23",
   "status": "proved",
   "theorems": [
    "C23_candidates",
    "C23_secrecy_refuted",
    "C23_uniform_coefficients"
   ],
   "note": "Perfect secrecy fails for the library's coefficients (refuted) and holds for uniform ones."
  },
  {
   "property": "C24",
   "status": "proved",
   "theorems": [
    "C24_shape",
    "C24_threshold_zero",
    "C24_rand_overflow"
   ],
   "note": ""
  },
  {
   "property": "C25",
   "status": "proved",
   "theorems": [
    "C25_additive"
   ],
   "note": ""
  },
  {
   "property": "C26",
   "status": "proved",
   "theorems": [
    "C26_constructors",
    "C26_received_crs",
    "C26_decrypts",
    "C26_condition",
    "C26_integer"
   ],
   "note": ""
  },
  {
   "property": "C27",
   "status": "proved",
   "theorems": [
    "C27_degenerate"
   ],
   "note": "Negative result: the proviso of C26 is necessary."
  },
  {
   "property": "C28",
   "status": "proved",
   "theorems": [
    "C28_find_messy"
   ],
   "note": ""
  },
  {
   "property": "C29",
   "status": "proved",
   "theorems": [
    "C29_hides",
    "C29_infinite_key_refuted"
   ],
   "note": "Holds with the proviso that g is finite when FindMessy answers 1; without it refuted."
  },
  {
   "property": "C30",
   "status": "proved",
   "theorems": [
    "C30_trapdoor",
    "C30_zero_trapdoor"
   ],
   "note": ""
  },
  {
   "property": "C31",
   "status": "proved",
   "theorems": [
    "C31_hides_branch"
   ],
   "note": ""
  },
  {
   "property": "C32",
   "status": "proved",
   "theorems": [
    "C32_encode",
    "C32_roundtrip"
   ],
   "note": ""
  },
  {
   "property": "C33",
   "status": "proved",
   "theorems": [
    "C33_eval"
   ],
   "note": ""
  },
  {
   "property": "C34",
   "status": "proved",
   "theorems": [
    "C34_ciphertext_equality_vacuous",
    "C34_ciphertext_equality_refuted",
    "C34_public_key",
    "C34_key_pair",
    "C34_crs",
    "C34_trapdoors"
   ],
   "note": "The claim for ciphertexts is refuted; the other structures' == is exact."
  },
  {
   "property": "C35",
   "status": "proved",
   "theorems": [
    "C35_delivers",
    "C35_integer",
    "C35_before_selection",
    "C35_other_hidden"
   ],
   "note": ""
  },
  {
   "property": "C36",
   "status": "proved",
   "theorems": [
    "C36_aggregate",
    "C36_empty",
    "C36_short"
   ],
   "note": ""
  },
  {
   "property": "C37",
   "status": "proved",
   "theorems": [
    "C37_sum",
    "C37_session"
   ],
   "note": ""
  },
  {
   "property": "C38",
   "status": "proved",
   "theorems": [
    "C38_overflow"
   ],
   "note": "Negative result; 65535 is reported as 0."
  },
  {
   "property": "C39",
   "status": "proved",
   "theorems": [
    "C39_verify_refuted",
    "C39_relation"
   ],
   "note": "The soundness claim is refuted; the pairing relation is proved for every bilinear map."
  },
  {
   "property": "C40",
   "status": "proved",
   "theorems": [
    "C40_timestamp_zero",
    "C40_keys_matter"
   ],
   "note": ""
  },
  {
   "property": "C41",
   "status": "proved",
   "theorems": [
    "C41_calculate",
    "C41_long",
    "C41_single",
    "C41_slicing",
    "C41_polynomial"
   ],
   "note": ""
  },
  {
   "property": "C42",
   "status": "proved",
   "theorems": [
    "C42_roundtrip",
    "C42_value",
    "C42_negative",
    "C42_big_endian"
   ],
   "note": ""
  },
  {
   "property": "C43",
   "status": "proved",
   "theorems": [
    "C43_append",
    "C43_append_any",
    "C43_glibc",
    "C43_validate",
    "C43_validate_fault",
    "C43_remove"
   ],
   "note": ""
  },
  {
   "property": "C44",
   "status": "proved",
   "theorems": [
    "C44_exact",
    "C44_burst",
    "C44_odd",
    "C44_two_bits"
   ],
   "note": ""
  },
  {
   "property": "C45",
   "status": "proved",
   "theorems": [
    "C45_export",
    "C45_unique",
    "C45_length",
    "C45_roundtrip",
    "C45_import",
    "C45_zeros",
    "C45_reexport"
   ],
   "note": ""
  },
  {
   "property": "C46",
   "status": "proved",
   "theorems": [
    "C46_ctr",
    "C46_counter",
    "C46_roundtrip",
    "C46_roundtrip_refuted",
    "C46_good_keys"
   ],
   "note": "Block function arbitrary. The unconditional claim is refuted; the exact condition is proved."
  },
  {
   "property": "C47",
   "status": "proved",
   "theorems": [
    "C47_safe",
    "C47_short_key",
    "C47_long_text",
    "C47_default_iv",
    "C47_iv",
    "C47_prefix"
   ],
   "note": "Negative results with the exact safe set."
  },
  {
   "property": "C48",
   "status": "proved",
   "theorems": [
    "C48_declared",
    "C48_short"
   ],
   "note": "Negative result: calls written after the header encrypt the key under the message."
  },
  {
   "property": "C49",
   "status": "proved",
   "theorems": [
    "C49_roundtrip",
    "C49_exact",
    "C49_mismatch",
    "C49_sound",
    "C49_fault",
    "C49_defined"
   ],
   "note": ""
  },
  {
   "property": "C50",
   "status": "proved",
   "theorems": [
    "C50_server",
    "C50_client",
    "C50_at_most_theta"
   ],
   "note": "Proviso good_draws: 16-byte keys, encodable ciphertexts, no false CRC match, no degenerate transfer. An infinite secret point is outside server_ready."
  },
  {
   "property": "C51",
   "status": "proved",
   "theorems": [
    "C51_comparison",
    "C51_above_theta"
   ],
   "note": "Same proviso as C50."
  },
  {
   "property": "C52",
   "status": "proved",
   "theorems": [
    "C52_session",
    "C52_round",
    "C52_unmask",
    "C52_server",
    "C52_masks",
    "C52_reached"
   ],
   "note": ""
  },
  {
   "property": "C53",
   "status": "proved",
   "theorems": [
    "C53_clean",
    "C53_accumulate",
    "C53_twice"
   ],
   "note": ""
  },
  {
   "property": "C54",
   "status": "proved",
   "theorems": [
    "C54_server",
    "C54_server_outside",
    "C54_client",
    "C54_client_outside",
    "C54_no_message",
    "C54_first_message"
   ],
   "note": "Statement amended to the exact ranges of both sides."
  },
  {
   "property": "C55",
   "status": "proved",
   "theorems": [
    "C55_objects",
    "C55_decrypts",
    "C55_encode",
    "C55_roundtrip",
    "C55_integer",
    "C55_degenerate",
    "C55_keygen_refuted",
    "C55_keygen_never",
    "C55_copy_refuted"
   ],
   "note": "Degenerate draws characterised and treated separately; keyGen and outliving copies are negative results."
  },
  {
   "property": "C56",
   "status": "proved",
   "theorems": [
    "C56_owned",
    "C56_number",
    "C56_freed",
    "C56_copied",
    "C56_dangling"
   ],
   "note": "All allocators that do not hand out an address in use; exceptions thrown inside constructors are not modelled."
  },
  {
   "property": "C57",
   "status": "proved",
   "theorems": [
    "C57_independence_refuted",
    "C57_each_generator",
    "C57_stream",
    "C57_enough",
    "C57_secret_keys",
    "C57_branch_revealed",
    "C57_message_recognised"
   ],
   "note": "Negative result, for every behaviour of GMP and libc."
  },
  {
   "property": "C58",
   "status": "proved",
   "theorems": [
    "C58_reuse"
   ],
   "note": "Negative result (two-time pad)."
  },
  {
   "property": "C59",
   "status": "proved",
   "theorems": [
    "C59_short_key",
    "C59_prepare"
   ],
   "note": "Negative result."
  },
  {
   "property": "C60",
   "status": "proved",
   "theorems": [
    "C60_debug",
    "C60_release"
   ],
   "note": "Negative result for release builds."
  },
  {
   "property": "C61",
   "status": "proved",
   "theorems": [
    "C61_zero_draw"
   ],
   "note": "Negative result."
  },
  {
   "property": "C62",
   "status": "proved",
   "theorems": [
    "C62_known_message",
    "C62_same_timestamp"
   ],
   "note": "Negative result: the attack is spelled out with the library operators."
  },
  {
   "property": "C63",
   "status": "proved",
   "theorems": [
    "C63_forge"
   ],
   "note": "Negative result; coefficients are given explicitly."
  },
  {
   "property": "C64",
   "status": "proved",
   "theorems": [
    "C64_steer",
    "C64_changes"
   ],
   "note": "Negative result."
  },
  {
   "property": "C65",
   "status": "proved",
   "theorems": [
    "C65_one_short"
   ],
   "note": "Exact condition for t-1 shares."
  },
  {
   "property": "C66",
   "status": "proved",
   "theorems": [
    "C66_other_branch"
   ],
   "note": "Exact result of decrypting on the wrong branch, with the conditions under which Dec avoids the degenerate cases of C27."
  },
  {
   "property": "C67",
   "status": "proved",
   "theorems": [
    "C67_two_branches",
    "C67_hides"
   ],
   "note": "Covers the randomised constructor and received CRSs; C29 and C31 are the two ends."
  },
  {
   "property": "C68",
   "status": "proved",
   "theorems": [
    "C68_sender_learns",
    "C68_receiver_reads"
   ],
   "note": "Negative result about the trust placed in the creator of the CRS."
  },
  {
   "property": "C69",
   "status": "proved",
   "theorems": [
    "C69_reads",
    "C69_roundtrip",
    "C69_nul",
    "C69_base0",
    "C69_constructor",
    "C69_scalar_bits",
    "C69_literals"
   ],
   "note": "set_str is modelled after the GMP source, including base 0; bases 1 and below 0 are not covered."
  },
  {
   "property": "C70",
   "status": "proved",
   "theorems": [
    "C70_reads",
    "C70_roundtrip",
    "C70_bad_x",
    "C70_bad_y",
    "C70_char_pointers",
    "C70_null"
   ],
   "note": "The two malformed cases are negative results."
  },
  {
   "property": "C71",
   "status": "proved",
   "theorems": [
    "C71_field",
    "C71_point",
    "C71_any_point",
    "C71_curve"
   ],
   "note": "Streams with initial flags."
  },
  {
   "property": "C72",
   "status": "proved",
   "theorems": [
    "C72_linear",
    "C72_forge",
    "C72_accepted"
   ],
   "note": "Negative result about integrity. C72_forge holds on either byte order; C72_accepted on little-endian hosts (elsewhere even honest ciphertexts fail, C42_big_endian)."
  },
  {
   "property": "C73",
   "status": "proved",
   "theorems": [
    "C73_fields",
    "C73_points"
   ],
   "note": "All of both programs is modelled (TestModel) except terminal output; the exceptional draws of test_ecc are shown to fault."
  },
  {
   "property": "C74",
   "status": "proved",
   "theorems": [
    "C74_shamir",
    "C74_puda"
   ],
   "note": "Both programs are covered for every draw."
  },
  {
   "property": "C75",
   "status": "proved",
   "theorems": [
    "C75_crc",
    "C75_crc_glibc",
    "C75_crc_big_endian",
    "C75_aes"
   ],
   "note": "Exact conditions for both programs, with a corollary for glibc's allocator; the AES block function is arbitrary."
  },
  {
   "property": "C76",
   "status": "proved",
   "theorems": [
    "C76_dme",
    "C76_ot"
   ],
   "note": "Both directions in a build with asserts, sufficiency in any build; the conditions are stated on the discrete logarithms of the draws."
  },
  {
   "property": "C77",
   "status": "proved",
   "theorems": [
    "C77_opprf"
   ],
   "note": "Sufficient condition (good_draws of C50) for each of the three evaluations; the temporaries of lines 19-20 are dead when server and client use the string."
  },
  {
   "property": "C78",
   "status": "proved",
   "theorems": [
    "C78_transcript",
    "C78_same",
    "C78_hides"
   ],
   "note": "Perfect secrecy of the input against the whole transcript, for decryption-mode reference strings; C80 is the converse for messy mode."
  },
  {
   "property": "C79",
   "status": "proved",
   "theorems": [
    "C79_all_values",
    "C79_secret"
   ],
   "note": "Negative result about the trust placed in the creator of the reference string; the good_draws hypothesis is that of C50 for the evaluated input."
  },
  {
   "property": "C80",
   "status": "proved",
   "theorems": [
    "C80_reads_input"
   ],
   "note": "Negative result about the trust placed in the creator of the reference string."
  },
  {
   "property": "C81",
   "status": "proved",
   "theorems": [
    "C81_factor",
    "C81_two_evaluations"
   ],
   "note": "Negative result about reuse. C81_factor gives the factor for every target input."
  },
  {
   "property": "C82",
   "status": "proved",
   "theorems": [
    "C82_anyone",
    "C82_shift"
   ],
   "note": "Negative result about integrity. C82_anyone shows how a shifted ciphertext is made with the library's own functions."
  },
  {
   "property": "C83",
   "status": "proved",
   "theorems": [
    "C83_server_privacy"
   ],
   "note": "The draws are in the range of the generator, so for uniform draws the transcript and the value at x have the same distribution for every secret. The server and the client may use different curve objects; the ciphertexts agree up to these, everything else is equal. The client's key draws and the point r must not vanish modulo the order. C79 shows that the premise on the CRS is needed: in decryption mode with a known trapdoor all values leak."
  },
  {
   "property": "C84",
   "status": "proved",
   "theorems": [
    "C84_outcomes",
    "C84_scalar",
    "C84_random",
    "C84_keys",
    "C84_decrypt",
    "C84_encrypt"
   ],
   "note": "Negative result about side channels, at the granularity of calls of operator*, pointDouble and the cases of operator+. C84_outcomes ties the instrumented functions to those of the model. Time, caches and the arithmetic below the point operations are not modelled."
  },
  {
   "property": "C85",
   "status": "proved",
   "theorems": [
    "C85_only_sum",
    "C85_reveals_sum",
    "C85_view"
   ],
   "note": "The hash point is not infinity and the timestamp is not 0 (see C40 for 0). Two ciphertexts of one user at different timestamps are the subject of C86."
  },
  {
   "property": "C86",
   "status": "proved",
   "theorems": [
    "C86_relation",
    "C86_guesses",
    "C86_determined",
    "C86_nothing_else"
   ],
   "note": "Negative result: the hash of the timestamp is a fixed point times the timestamp, so the masks of different timestamps are linearly related."
  },
  {
   "property": "C87",
   "status": "proved",
   "theorems": [
    "C87_other_branch",
    "C87_selective_failure",
    "C87_reads_input"
   ],
   "note": "Negative result: the lengths of the vectors received are not checked."
  },
  {
   "property": "C88",
   "status": "proved",
   "theorems": [
    "C88_tilt",
    "C88_other_secret"
   ],
   "note": "Negative result; C82 is the case of equal shifts. The shifted ciphertexts must be finite points."
  },
  {
   "property": "C89",
   "status": "proved",
   "theorems": [
    "C89_order",
    "C89_threshold",
    "C89_equal",
    "C89_values",
    "C89_hidden"
   ],
   "note": "Negative result about the code as it stands (C57: no call of srand). Draws as in C50."
  },
  {
   "property": "C90",
   "status": "proved",
   "theorems": [
    "C90_decrypts",
    "C90_zero_key",
    "C90_reference",
    "C90_transfer",
    "C90_aggregate",
    "C90_elgamal"
   ],
   "note": "The draws counted are residues in [0, order), which is what the generator returns. What the draw 0 does to ElGamal without asserts is in C55."
  },
  {
   "property": "C91",
   "status": "proved",
   "theorems": [
    "C91_client_view",
    "C91_masked"
   ],
   "note": "The CRS is in messy mode (a0*b1 <> a1*b0 modulo the order), as in C83; in decryption mode the branches are not hidden from the creator of the CRS (C79). The draws of rand() may change with the server: C89 is about the case that they are known. The block function is any function on sixteen bytes: nothing is claimed for AES itself."
  },
  {
   "property": "C92",
   "status": "proved",
   "theorems": [
    "C92_values",
    "C92_encrypt",
    "C92_decrypt",
    "C92_kept",
    "C92_server_keys",
    "C92_unbounded",
    "C92_client_keys"
   ],
   "note": "Only the buffers of getRawMpz are in the memory of the model, not the numbers of GMP, the vectors or the contexts of OpenSSL. The four bytes that appendCRC writes behind its block count as part of it (room). C92_values shows that the model with buffers computes what the model of C41-C54 computes. The client's numbers of blocks are lower bounds, because failing checks leave more."
  },
  {
   "property": "C93",
   "status": "proved",
   "theorems": [
    "C93_sum",
    "C93_replace",
    "C93_reuse",
    "C93_fresh",
    "C93_binds",
    "C93_any_point"
   ],
   "note": "Differences of points are taken as P + (-1)*Q, because operator- fails at infinity (C14). Decryption of the sum has the provisos of C55. Equality of ciphertexts is equality of the points they stand for."
  },
  {
   "property": "C94",
   "status": "proved",
   "theorems": [
    "C94_leak",
    "C94_unique",
    "C94_coalition",
    "C94_views"
   ],
   "note": "The hash point is not the point at infinity (draw not divisible by the order). C85 is the case of one timestamp and no known keys. The tagging key a is common to all users (Setup); knowing it does not change the statement, because the views already fix it through the verification key and the other draws are compared under the same a."
  },
  {
   "property": "C95",
   "status": "proved",
   "theorems": [
    "C95_history",
    "C95_deterministic",
    "C95_start",
    "C95_careful",
    "C95_builds"
   ],
   "note": "The program is a list of instructions over variables numbered by natural numbers; a curve object is its address. The compound operators assign the result of the binary one. Single operations are C07-C19; here they are composed."
  },
  {
   "property": "C96",
   "status": "proved",
   "theorems": [
    "C96_fields",
    "C96_points",
    "C96_programs",
    "C96_shamir",
    "C96_dme",
    "C96_ot",
    "C96_elgamal",
    "C96_puda",
    "C96_opprf",
    "C96_tests"
   ],
   "note": "Where no ciphertext opens, the build with asserts stops and the other one throws; this is a fault of both. The converse is false: the cases beside the theorems give values without asserts and faults with them."
  },
  {
   "property": "C97",
   "status": "proved",
   "theorems": [
    "C97_outcomes",
    "C97_encrypt",
    "C97_tag",
    "C97_aggregate",
    "C97_elgamal",
    "C97_elgamal_key",
    "C97_choice",
    "C97_client",
    "C97_place",
    "C97_threshold",
    "C97_prepare"
   ],
   "note": "Part (6) is stated for a round that ends normally. The operands of a sum are computed from left to right. Comparisons of points, encoding and the AES code record no events."
  },
  {
   "property": "C98",
   "status": "proved",
   "theorems": [
    "C98_calls",
    "C98_overflow",
    "C98_blind",
    "C98_function_refuted"
   ],
   "note": "No code calls the function; the counter is a static variable shared by all clients."
  },
  {
   "property": "C99",
   "status": "proved",
   "theorems": [
    "C99_count",
    "C99_server",
    "C99_input",
    "C99_input_equal"
   ],
   "note": "Operator * counted as in C97; a server would learn the number by the time of the client's answer."
  },
  {
   "property": "C100",
   "status": "proved",
   "theorems": [
    "C100_formulas",
    "C100_detected",
    "C100_power",
    "C100_unique",
    "C100_decrypt",
    "C100_infinity",
    "C100_oracle",
    "C100_small",
    "C100_search",
    "C100_residues",
    "C100_bits",
    "C100_trapdoor",
    "C100_trapdoor_small",
    "C100_cusp",
    "C100_cusp_key",
    "C100_cusp_detected"
   ],
   "note": "Only OPPRFserver::setSecret calls isValid, inside an assert; a receiver that builds points by Point(x, y, curve) from what it is sent must do so itself."
  },
  {
   "property": "C101",
   "status": "proved",
   "theorems": [
    "C101_sessions",
    "C101_answers",
    "C101_early",
    "C101_safe",
    "C101_mask_infinite"
   ],
   "note": "C53 is the case of complete evaluations one after the other; this one has the calls in any order and number."
  },
  {
   "property": "C102",
   "status": "proved",
   "theorems": [
    "C102_gap",
    "C102_secret",
    "C102_values"
   ],
   "note": "The model of clean follows src/opprf/opprf.cpp:137-152. A server that refuses a second request for a round would have to keep track of the rounds served, which the class does not."
  },
  {
   "property": "C103",
   "status": "proved",
   "theorems": [
    "C103_bypass"
   ],
   "note": "C53 shows that clean between two evaluations makes them independent."
  },
  {
   "property": "C104",
   "status": "proved",
   "theorems": [
    "C104_accepted",
    "C104_faults",
    "C104_short",
    "C104_four"
   ],
   "note": "An exact count, by an explicit duplicate-free enumeration of the accepted ciphertexts."
  },
  {
   "property": "C105",
   "status": "proved",
   "theorems": [
    "C105_counts",
    "C105_cpa",
    "C105_random",
    "C105_converse"
   ],
   "note": "The reduction is exact (no slack): equality of integers counting draws. Efficiency of adversaries is not modelled; the distinguishers are written out and use A once."
  },
  {
   "property": "C106",
   "status": "proved",
   "theorems": [
    "C106_crs"
   ],
   "note": "The example shows why slack is needed: a test with advantage about 1/order whose distinguisher has advantage zero."
  },
  {
   "property": "C107",
   "status": "proved",
   "theorems": [
    "C107_random",
    "C107_messy"
   ],
   "note": "With DME_DDH(dec) the branch is hidden whoever computes: C31."
  },
  {
   "property": "C108",
   "status": "proved",
   "theorems": [
    "C108_random",
    "C108_messy",
    "C108_client",
    "C108_answers",
    "C108_session"
   ],
   "note": "Random self-reducibility: each key is made of the three elements of the challenge and two draws, so the loss does not grow with the number of keys. A client that rejects an answer reveals more than its keys; that is not covered by C108_answers."
  },
  {
   "property": "C109",
   "status": "proved",
   "theorems": [
    "C109_degree",
    "C109_trivial",
    "C109_field",
    "C109_accepts"
   ],
   "note": "The degrees come from factorisations of (n-1)/3 and 12 into certified primes and one exponentiation tree; the constancy from a Lagrange argument."
  },
  {
   "property": "C110",
   "status": "proved",
   "theorems": [
    "C110_exact",
    "C110_honest",
    "C110_forge"
   ],
   "note": "Says what an implementation of the comment would achieve: hash*t is linear in t, so tags of two timestamps span all others."
  },
  {
   "property": "C111",
   "status": "proved",
   "theorems": [
    "C111_answers",
    "C111_sbox",
    "C111_cipher",
    "C111_permutation",
    "C111_stream",
    "C111_blocks",
    "C111_vectors"
   ],
   "note": "The block function is defined here and no longer arbitrary; the standard's test vectors are Examples."
  },
  {
   "property": "C112",
   "status": "proved",
   "theorems": [
    "C112_distance",
    "C112_short",
    "C112_six",
    "C112_four",
    "C112_two",
    "C112_ciphertexts"
   ],
   "note": "A meet-in-the-middle search over tries, run by the kernel's machine and proved complete; extends C44."
  },
  {
   "property": "C113",
   "status": "proved",
   "theorems": [
    "C113_cpa",
    "C113_random"
   ],
   "note": "Random self-reduction, counted exactly; extends C105."
  },
  {
   "property": "C114",
   "status": "proved",
   "theorems": [
    "C114_silent",
    "C114_messages"
   ],
   "note": "Also covers singular strings, zero keys and points at infinity that arise; these are what the loss counts."
  },
  {
   "property": "C115",
   "status": "proved",
   "theorems": [
    "C115_choices"
   ],
   "note": "Combines C114 for both conversations with the argument of C108 for the keys between random ciphertexts."
  },
  {
   "property": "C116",
   "status": "proved",
   "theorems": [
    "C116_listens",
    "C116_masks",
    "C116_set"
   ],
   "note": "An evaluation is shown to be a conversation of C115 whose messages are the rows of the prepared server. The client's side of a complete session adds nothing to the transcript (C78_transcript)."
  },
  {
   "property": "C117",
   "status": "proved",
   "theorems": [
    "C117_either",
    "C117_not_both",
    "C117_strings",
    "C117_one",
    "C117_refused_refuted",
    "C117_secret",
    "C117_session"
   ],
   "note": "C117_refused_refuted is the refutation of the claim that the key of two infinities is refused. Keys off the curve are not covered. C117_session has the provisos of C50 for the honest rounds."
  },
  {
   "property": "C118",
   "status": "proved",
   "theorems": [
    "C118_off",
    "C118_refused_refuted",
    "C118_known",
    "C118_often",
    "C118_secret"
   ],
   "note": "C118_refused_refuted is the refutation of the claim that a public key off the curve is refused. C117 is about keys of curve points."
  },
  {
   "property": "C119",
   "status": "proved",
   "theorems": [
    "C119_ideal",
    "C119_messages",
    "C119_infinite_key_refuted"
   ],
   "note": "Receivers are deterministic functions of the answers; one that tosses coins is a mixture of these. Keys off the curve are not covered (see C118). C119_infinite_key_refuted is the refutation without the proviso on infinite keys."
  },
  {
   "property": "C120",
   "status": "proved",
   "theorems": [
    "C120_ideal",
    "C120_choices",
    "C120_zero_trapdoor_refuted"
   ],
   "note": "Public keys are seen as points of the group. An error of decryptMsg is recorded and the transfers go on; whoever stops at an error sees a part of that. C120_zero_trapdoor_refuted is the refutation without the proviso on the trapdoor."
  },
  {
   "property": "C121",
   "status": "proved",
   "theorems": [
    "C121_secret",
    "C121_answers"
   ],
   "note": "Ciphertexts are seen as pairs of points of the group. The provisos are r != 0, AES keys of full length and a pair of public points that are not both infinite; C117 shows what happens with two infinities."
  },
  {
   "property": "C122",
   "status": "proved",
   "theorems": [
    "C122_secret",
    "C122_double"
   ],
   "note": "The provisos are those of C121: r != 0, AES keys of full length. The number of strings is C117_strings."
  },
  {
   "property": "C123",
   "status": "proved",
   "theorems": [
    "C123_hidden",
    "C123_revealed"
   ],
   "note": "Answers are seen as points of the group. The messages of a transfer may depend on the answers before it."
  },
  {
   "property": "C124",
   "status": "proved",
   "theorems": [
    "C124_guess"
   ],
   "note": "One round of a freshly prepared server. The function is existentially quantified before the server, its draws and the round."
  },
  {
   "property": "C125",
   "status": "proved",
   "theorems": [
    "C125_one",
    "C125_sums",
    "C125_revealed"
   ],
   "note": "The receiver sees the aggregate as points of the group; the answers of the single senders go to the proxy only."
  },
  {
   "property": "C126",
   "status": "proved",
   "theorems": [
    "C126_messy",
    "C126_dec",
    "C126_count"
   ],
   "note": "The string is given to the sender as in OTsndr(crs)."
  },
  {
   "property": "C127",
   "status": "proved",
   "theorems": [
    "C127_moved",
    "C127_sums"
   ],
   "note": "The others have chosen their answers before the honest senders draw; an answer has at least two ciphertexts of points of the curve."
  },
  {
   "property": "C128",
   "status": "proved",
   "theorems": [
    "C128_sums",
    "C128_order",
    "C128_tree"
   ],
   "note": "A hierarchy is a tree; each proxy in it has at least one answer or proxy below it."
  }
 ]
}