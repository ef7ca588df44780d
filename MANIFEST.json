{
 "claims": [
  {
   "property": "C01",
   "status": "proved",
   "theorems": [
    "C01_init_is_preorder",
    "C01_init_ok_iff_in_range",
    "C01_init_out_of_range",
    "C01_numbering_bijective"
   ],
   "note": ""
  },
  {
   "property": "C02",
   "status": "proved",
   "theorems": [
    "C02_round_trip",
    "C02_round_trip_vec",
    "C02_injective",
    "C02_gamma_entries_consistent"
   ],
   "note": ""
  },
  {
   "property": "C03",
   "status": "proved",
   "theorems": [
    "C03_gamma_list"
   ],
   "note": ""
  },
  {
   "property": "C04",
   "status": "proved",
   "theorems": [
    "C04_is_prefix"
   ],
   "note": ""
  },
  {
   "property": "C05",
   "status": "proved",
   "theorems": [
    "C05_depth_zero",
    "C05_debug_panics",
    "C05_release_rejects_valid",
    "C05_release_wrong_vector_refuted"
   ],
   "note": "Release builds: every depth >= 64 rejects a valid stamp; wrong vector witness init(2,65)=[2]."
  },
  {
   "property": "C06",
   "status": "proved",
   "theorems": [
    "C06_keygen_outcomes",
    "C06_keygen_fields"
   ],
   "note": ""
  },
  {
   "property": "C07",
   "status": "proved",
   "theorems": [
    "C07_secret_key_valid",
    "C07_pop_valid",
    "C07_pop_other_generator_refuted",
    "C07_pop_accepted_iff",
    "C07_pop_value"
   ],
   "note": "PoP check needs the standard generator in the parameters (pixel_param always uses it); refuted otherwise."
  },
  {
   "property": "C08",
   "status": "proved",
   "theorems": [
    "C08_update_panics_iff",
    "C08_update_outcomes",
    "C08_update_ok_iff",
    "C08_wrong_ciphersuite"
   ],
   "note": ""
  },
  {
   "property": "C09",
   "status": "proved",
   "theorems": [
    "C09_updated_key_is_gamma_list"
   ],
   "note": ""
  },
  {
   "property": "C10",
   "status": "proved",
   "theorems": [
    "C10_history_valid"
   ],
   "note": ""
  },
  {
   "property": "C11",
   "status": "proved",
   "theorems": [
    "C11_failed_update_unchanged"
   ],
   "note": ""
  },
  {
   "property": "C12",
   "status": "proved",
   "theorems": [
    "C12_untouched_or_later",
    "C12_time_monotone",
    "C12_failed_call_keeps_key"
   ],
   "note": ""
  },
  {
   "property": "C13",
   "status": "proved",
   "theorems": [
    "C13_past_not_covered",
    "C13_derived_not_past",
    "C13_future_derivable"
   ],
   "note": ""
  },
  {
   "property": "C14",
   "status": "proved",
   "theorems": [
    "C14_path_independent",
    "C14_size_is_estimate"
   ],
   "note": ""
  },
  {
   "property": "C15",
   "status": "proved",
   "theorems": [
    "C15_carried_over"
   ],
   "note": ""
  },
  {
   "property": "C16",
   "status": "proved",
   "theorems": [
    "C16_signatures_verify"
   ],
   "note": ""
  },
  {
   "property": "C17",
   "status": "proved",
   "theorems": [
    "C17_sign_outcomes",
    "C17_sign_no_other_outcome",
    "C17_sign_present_outcomes",
    "C17_past_rejected"
   ],
   "note": "Success is unconditional up to the 'prng not updated' assertion (as C08): that is the only other outcome."
  },
  {
   "property": "C18",
   "status": "proved",
   "theorems": [
    "C18_sign_is_update_then_sign",
    "C18_any_key",
    "C18_any_key_equal_refuted"
   ],
   "note": "The exception allowed for malformed keys occurs: witness C18_any_key_equal_refuted."
  },
  {
   "property": "C19",
   "status": "proved",
   "theorems": [
    "C19_sign_present_read_only",
    "C19_same_request_same_signature"
   ],
   "note": ""
  },
  {
   "property": "C20",
   "status": "proved",
   "theorems": [
    "C20_at_most_one_signature",
    "C20_advances_by_one",
    "C20_any_key"
   ],
   "note": ""
  },
  {
   "property": "C21",
   "status": "proved",
   "theorems": [
    "C21_last_time_stamp_refuted"
   ],
   "note": "The documented behaviour is refuted for every reachable key at the last time stamp."
  },
  {
   "property": "C22",
   "status": "proved",
   "theorems": [
    "C22_aggregate_verifies"
   ],
   "note": ""
  },
  {
   "property": "C23",
   "status": "proved",
   "theorems": [
    "C23_aggregate_outcomes",
    "C23_aggregate_fields",
    "C23_wrong_pk_ciphersuite",
    "C23_wrong_sig_ciphersuite",
    "C23_empty_lists_panic"
   ],
   "note": ""
  },
  {
   "property": "C24",
   "status": "proved",
   "theorems": [
    "C24_aggregate_order",
    "C24_verify_order",
    "C24_aggregate_of_aggregates"
   ],
   "note": ""
  },
  {
   "property": "C25",
   "status": "proved",
   "theorems": [
    "C25_verify_equation",
    "C25_verify_total",
    "C25_build_modes_agree"
   ],
   "note": ""
  },
  {
   "property": "C26",
   "status": "proved",
   "theorems": [
    "C26_second_component_unique",
    "C26_accepted_form"
   ],
   "note": ""
  },
  {
   "property": "C27",
   "status": "proved",
   "theorems": [
    "C27_bound_to_message",
    "C27_bound_to_time",
    "C27_identity_unbound"
   ],
   "note": ""
  },
  {
   "property": "C28",
   "status": "proved",
   "theorems": [
    "C28_verify_ignores_pk_ciphersuite",
    "C28_ciphersuite_checked_refuted"
   ],
   "note": "Refuted for verify; proved for verify_aggregated (C23_wrong_pk_ciphersuite)."
  },
  {
   "property": "C29",
   "status": "proved",
   "theorems": [
    "C29_signature_roundtrip",
    "C29_signatures_representable"
   ],
   "note": ""
  },
  {
   "property": "C30",
   "status": "proved",
   "theorems": [
    "C30_secret_key_roundtrip",
    "C30_keys_representable",
    "C30_any_depth_refuted"
   ],
   "note": "Depth > 32: witness of a reachable key that can not be saved."
  },
  {
   "property": "C31",
   "status": "proved",
   "theorems": [
    "C31_public_key_roundtrip",
    "C31_pop_roundtrip",
    "C31_keygen_representable"
   ],
   "note": ""
  },
  {
   "property": "C32",
   "status": "proved",
   "theorems": [
    "C32_signature_input_checked",
    "C32_public_key_input_checked",
    "C32_pop_input_checked",
    "C32_secret_key_input_checked"
   ],
   "note": ""
  },
  {
   "property": "C33",
   "status": "proved",
   "theorems": [
    "C33_signature_canonical",
    "C33_public_key_canonical",
    "C33_pop_canonical",
    "C33_secret_key_canonical"
   ],
   "note": ""
  },
  {
   "property": "C34",
   "status": "proved",
   "theorems": [
    "C34_uncompressed_signature_rejected",
    "C34_uncompressed_signature_roundtrip_refuted",
    "C34_uncompressed_pop_accepted",
    "C34_pop_must_be_compressed_refuted"
   ],
   "note": "Documented pop behaviour refuted by C34_pop_must_be_compressed_refuted."
  },
  {
   "property": "C35",
   "status": "proved",
   "theorems": [
    "C35_sub_key_time_bound",
    "C35_time_bound_documented_refuted"
   ],
   "note": "Documented bound refuted at time = 2^32; true above."
  },
  {
   "property": "C36",
   "status": "proved",
   "theorems": [
    "C36_chunks_irrelevant",
    "C36_interruptions_irrelevant",
    "C36_interrupted_secret_key_refuted"
   ],
   "note": "Secret keys: chunking only; an interruption at the vector length byte is an error (witness)."
  },
  {
   "property": "C37",
   "status": "proved",
   "theorems": [
    "C37_signature_write",
    "C37_public_key_write",
    "C37_pop_write",
    "C37_secret_key_write"
   ],
   "note": ""
  },
  {
   "property": "C38",
   "status": "proved",
   "theorems": [
    "C38_reload_anywhere",
    "C38_reloads_invisible"
   ],
   "note": "Depth <= 32 (see C30)."
  },
  {
   "property": "C39",
   "status": "proved",
   "theorems": [
    "C39_digest_value",
    "C39_digest_of_reachable_keys",
    "C39_digest_binds_key",
    "C39_digest_is_hash_of_blob_refuted"
   ],
   "note": "Documented digest refuted by witness; actual value, dependence on the blob only, and binding up to a hash collision proved."
  },
  {
   "property": "C40",
   "status": "proved",
   "theorems": [
    "C40_os2ip_value",
    "C40_os2ip_range",
    "C40_os2ip_leading_zeros"
   ],
   "note": ""
  },
  {
   "property": "C41",
   "status": "proved",
   "theorems": [
    "C41_prng_functions",
    "C41_prng_states",
    "C41_prng_of_reachable_keys"
   ],
   "note": ""
  },
  {
   "property": "C42",
   "status": "proved",
   "theorems": [
    "C42_infos_distinct",
    "C42_hash_inputs_distinct",
    "C42_any_time_stamp_refuted",
    "C42_keygen_infos",
    "C42_signing_info",
    "C42_update_infos"
   ],
   "note": "Infos given to the prng, and inputs of the message hash. The pop is a BLS signature (another hash, with its own prefix). Refuted for time stamps >= 2^32 (depth > 32)."
  },
  {
   "property": "C43",
   "status": "proved",
   "theorems": [
    "C43_validate_iff",
    "C43_validated_form"
   ],
   "note": ""
  },
  {
   "property": "C44",
   "status": "proved",
   "theorems": [
    "C44_empty_key_validates",
    "C44_truncated_key_validates",
    "C44_vectors_not_checked",
    "C44_extra_subkey_panics",
    "C44_validated_key_complete_refuted",
    "C44_validate_total_refuted"
   ],
   "note": "Expected completeness of validation refuted, generally and by witnesses."
  },
  {
   "property": "C45",
   "status": "proved",
   "theorems": [
    "C45_c_interface",
    "C45_c_keygen",
    "C45_c_sk_update",
    "C45_c_sign_present",
    "C45_c_verify",
    "C45_c_verify_inputs",
    "C45_c_verify_pop_bytes",
    "C45_c_verify_pop"
   ],
   "note": ""
  },
  {
   "property": "C46",
   "status": "proved",
   "theorems": [
    "C46_c_aggregation_outcomes",
    "C46_c_aggregate_verifies",
    "C46_c_verify_agg_bytes"
   ],
   "note": ""
  },
  {
   "property": "C47",
   "status": "proved",
   "theorems": [
    "C47_same_bytes",
    "C47_key_gen",
    "C47_sk_update",
    "C47_sign_present",
    "C47_past_target_refuted",
    "C47_late_target_refuted",
    "C47_short_seed_refuted",
    "C47_time_to_vec"
   ],
   "note": "The encoding of points, HKDF and SHA-512 of the two sides are the same functions of env (they are dependencies of both). Witnesses: Python takes past and late targets and short seeds, which Rust refuses."
  },
  {
   "property": "C48",
   "status": "proved",
   "theorems": [
    "C48_prefix_rule"
   ],
   "note": ""
  },
  {
   "property": "C49",
   "status": "proved",
   "theorems": [
    "C49_randomness",
    "C49_max_draws",
    "C49_zero_or_one_refuted",
    "C49_spec_info_refuted"
   ],
   "note": "Comment 'zero or one' and the info string of spec.md are refuted by witnesses."
  },
  {
   "property": "C50",
   "status": "proved",
   "theorems": [
    "C50_subkey_form",
    "C50_delegate_form",
    "C50_randomization_form",
    "C50_delegate_transitive",
    "C50_delegate_randomization_commute",
    "C50_randomization_additive"
   ],
   "note": ""
  },
  {
   "property": "C51",
   "status": "proved",
   "theorems": [
    "C51_delegate_err_unchanged",
    "C51_randomization_err_state",
    "C51_randomization_atomic_refuted",
    "C51_delegate_panic_unchanged_refuted"
   ],
   "note": "A delegate that panics (vector too short) has already changed hpoly."
  },
  {
   "property": "C52",
   "status": "proved",
   "theorems": [
    "C52_secret_key_equality",
    "C52_public_key_equality",
    "C52_signature_equality",
    "C52_signature_equality_all_fields_refuted"
   ],
   "note": "Signature equality on all fields is refuted."
  },
  {
   "property": "C53",
   "status": "proved",
   "theorems": [
    "C53_shaped_key_no_panic",
    "C53_malformed_key_panics_refuted"
   ],
   "note": ""
  },
  {
   "property": "C54",
   "status": "proved",
   "theorems": [
    "C54_failed_sign_keeps_key",
    "C54_any_key_refuted"
   ],
   "note": "Holds on reachable keys; refuted in general."
  },
  {
   "property": "C55",
   "status": "proved",
   "theorems": [
    "C55_leaked_key_iff",
    "C55_leaked_key_rare",
    "C55_leaked_key_view",
    "C55_linear_attack_iff",
    "C55_linear_attack_rare"
   ],
   "note": "Strategies are linear combinations of the group elements in view (the proof of possession is not in view). Stronger than stated: exactly the future times and the queried signatures are reachable, and any other strategy succeeds only if one of the 3+d+n random exponents equals the single value the earlier ones leave to it."
  },
  {
   "property": "C56",
   "status": "proved",
   "theorems": [
    "C56_identity_key_rejected_refuted",
    "C56_only_the_identity_key"
   ],
   "note": "Refuted: the identity key accepts the identity signature."
  },
  {
   "property": "C57",
   "status": "proved",
   "theorems": [
    "C57_signature_value"
   ],
   "note": ""
  },
  {
   "property": "C58",
   "status": "proved",
   "theorems": [
    "C58_rerandomize_spec_md_refuted",
    "C58_keygen_info_spec_md_refuted"
   ],
   "note": "Both differences shown by witnesses; the actual formulas are C41 and C42_keygen_infos."
  },
  {
   "property": "C59",
   "status": "proved",
   "theorems": [
    "C59_signatures_only_iff"
   ],
   "note": "Same attacker as C55 without keys."
  },
  {
   "property": "C60",
   "status": "proved",
   "theorems": [
    "C60_one_subkey_iff"
   ],
   "note": "Same attacker as C55 with one sub key."
  },
  {
   "property": "C61",
   "status": "proved",
   "theorems": [
    "C61_aggregated_equation",
    "C61_aggregated_total",
    "C61_single_key"
   ],
   "note": ""
  },
  {
   "property": "C62",
   "status": "proved",
   "theorems": [
    "C62_every_signer_signed_refuted"
   ],
   "note": "The refuted expectation is shown for every list of usable keys, not by one witness. Proofs of possession are what excludes it; that the rogue key has none is a computational statement and not covered."
  },
  {
   "property": "C63",
   "status": "proved",
   "theorems": [
    "C63_only_signer_makes_second_refuted",
    "C63_different_unless_zero",
    "C63_all_accepted_differ_so"
   ],
   "note": "Converse needs g2 to be the generator of the subgroup (it is for the default parameters)."
  },
  {
   "property": "C64",
   "status": "proved",
   "theorems": [
    "C64_accepted_parts_refuted",
    "C64_last_part_accepted"
   ],
   "note": "Needs g2 not the identity. The positive part: if all but one are accepted, the last one is."
  },
  {
   "property": "C65",
   "status": "proved",
   "theorems": [
    "C65_reused_randomness",
    "C65_same_first_component"
   ],
   "note": "The coefficients a, b depend on the three message scalars only."
  },
  {
   "property": "C66",
   "status": "proved",
   "theorems": [
    "C66_histories_agree",
    "C66_reachable_keys_agree",
    "C66_update_agrees",
    "C66_calls_agree",
    "C66_checks_agree",
    "C66_depth_64_refuted",
    "C66_any_key_value_refuted"
   ],
   "note": "update, the checks and the reads agree for arbitrary key values; depth 64 and the time stamp 2^64-1 (on no reachable key) are shown to disagree."
  },
  {
   "property": "C67",
   "status": "proved",
   "theorems": [
    "C67_sign_any_key",
    "C67_accepted_iff"
   ],
   "note": "Stronger: the value of the signature and the reason for each error are given. The acceptance criterion needs the first sub key to carry the key's time stamp and its elements to be in the subgroup."
  },
  {
   "property": "C68",
   "status": "proved",
   "theorems": [
    "C68_many_signers"
   ],
   "note": ""
  },
  {
   "property": "C69",
   "status": "proved",
   "theorems": [
    "C69_init_by_randomization"
   ],
   "note": ""
  },
  {
   "property": "C70",
   "status": "proved",
   "theorems": [
    "C70_generator_succeeds"
   ],
   "note": "The only other outcome is the panic of update, and then two hash inputs of the program's own prng steps collide or one hash is a padded salt (breaks, SpecColl.v). The example runs one step of the loop; a full run on the toy instance at depth 11 gives Ok with 252 files but takes too long for the checker."
  },
  {
   "property": "C71",
   "status": "proved",
   "theorems": [
    "C71_python_accepts_exactly"
   ],
   "note": ""
  },
  {
   "property": "C72",
   "status": "proved",
   "theorems": [
    "C72_c_test_succeeds",
    "C72_c_vectors_written",
    "C72_comparison",
    "C72_c_vectors_match"
   ],
   "note": ""
  },
  {
   "property": "C73",
   "status": "proved",
   "theorems": [
    "C73_calls_write_new_blocks_only",
    "C73_defined_iff_in_bounds",
    "C73_key_kept",
    "C73_update_erases_key_refuted",
    "C73_caller_can_erase"
   ],
   "note": "The refuted expectation (an update erases the key) is shown for every chain of updates."
  },
  {
   "property": "C74",
   "status": "proved",
   "theorems": [
    "C74_same_results"
   ],
   "note": ""
  },
  {
   "property": "C75",
   "status": "proved",
   "theorems": [
    "C75_no_sec_left",
    "C75_update_leaves",
    "C75_sign_leaves",
    "C75_randomization_refuted"
   ],
   "note": "Holds for update and sign on every path; refuted for randomization called with a bad time stamp (tmp_sec left)."
  },
  {
   "property": "C76",
   "status": "proved",
   "theorems": [
    "C76_keygen_leaves"
   ],
   "note": "The comment of keygen is refuted: x and h^x stay in memory."
  },
  {
   "property": "C77",
   "status": "proved",
   "theorems": [
    "C77_past_key_recovered"
   ],
   "note": "Forward security against memory reading fails: attack proved for every such update."
  },
  {
   "property": "C78",
   "status": "proved",
   "theorems": [
    "C78_serialize_leaves",
    "C78_digest_leaves"
   ],
   "note": "digest leaves the serialized key."
  },
  {
   "property": "C79",
   "status": "proved",
   "theorems": [
    "C79_any_message_signed"
   ],
   "note": "Attack proved for every pair of signatures at one time."
  },
  {
   "property": "C80",
   "status": "proved",
   "theorems": [
    "C80_what_validate_misses",
    "C80_complete_key_history",
    "C80_complete_key_signs"
   ],
   "note": "Equivalence: complete = validate + cover + vector equations + subgroup membership. The example key passes validate and fails after one update."
  },
  {
   "property": "C81",
   "status": "proved",
   "theorems": [
    "C81_every_accepted_signature_made",
    "C81_history_hidden",
    "C81_every_subkey_reached"
   ],
   "note": "Needs the second generator of the parameters to be the group's generator, as in the default parameters."
  },
  {
   "property": "C82",
   "status": "proved",
   "theorems": [
    "C82_sampling_count",
    "C82_all_strings",
    "C82_sampling_bias",
    "C82_bias_below"
   ],
   "note": "Counts over hash outputs; the hash function itself is not modelled as random."
  },
  {
   "property": "C83",
   "status": "proved",
   "theorems": [
    "C83_state_determines_steps",
    "C83_drawn_strings_distinct",
    "C83_history_is_chain",
    "C83_state_commits_to_history"
   ],
   "note": "Depth at most 32 (4-byte time stamps in the info strings)."
  },
  {
   "property": "C84",
   "status": "proved",
   "theorems": [
    "C84_panic_breaks_hash",
    "C84_update_moves_state"
   ],
   "note": "Discharges the exception in C08, C17, C70, C72 and others; the example shows the panic for a constant hash function."
  },
  {
   "property": "C85",
   "status": "proved",
   "theorems": [
    "C85_signing_strings_distinct"
   ],
   "note": "On the 64-byte strings; the scalars are these modulo r (C82 counts how often two strings give one scalar)."
  },
  {
   "property": "C86",
   "status": "proved",
   "theorems": [
    "C86_quick_key_update",
    "C86_long_key_update",
    "C86_sk_validation"
   ],
   "note": "What the tests fix (seeds, message, n = 16) is an argument; n is bounded by the last time stamp plus one."
  },
  {
   "property": "C87",
   "status": "proved",
   "theorems": [
    "C87_api",
    "C87_time_stamps",
    "C87_signatures",
    "C87_aggregation"
   ],
   "note": "test_must_fails_mismatch is treated in C90."
  },
  {
   "property": "C88",
   "status": "proved",
   "theorems": [
    "C88_serdes",
    "C88_secret_keys",
    "C88_points",
    "C88_ffi_basic",
    "C88_ffi_aggregation"
   ],
   "note": "The _kat tests are not modelled (constants for the decoder of the dependency)."
  },
  {
   "property": "C89",
   "status": "proved",
   "theorems": [
    "C89_sub_keys",
    "C89_negative",
    "C89_master_key",
    "C89_getters"
   ],
   "note": "Of negative_test_pop the two parts on ciphersuites; negative_test_sk and test_sk_getter for ciphersuite 0 as in the tests."
  },
  {
   "property": "C90",
   "status": "proved",
   "theorems": [
    "C90_accepted_elsewhere",
    "C90_mismatch_test"
   ],
   "note": "The test is not shown to pass for every argument (it does not: equal seeds or messages); the condition is exact."
  },
  {
   "property": "C91",
   "status": "proved",
   "theorems": [
    "C91_param_is_spec",
    "C91_param_ok",
    "C91_file_determines",
    "C91_seed_is_iv",
    "C91_infos_distinct",
    "C91_default_end_to_end"
   ],
   "note": "PubParam::init and default of the crate pixel_param are not in the repository; that they give the same values is what param.py checks by comparing files."
  },
  {
   "property": "C92",
   "status": "proved",
   "theorems": [
    "C92_update_next",
    "C92_update_random",
    "C92_sign",
    "C92_verify",
    "C92_benchmarks_always_pass_refuted",
    "C92_keygen",
    "C92_aggregation",
    "C92_update_seq",
    "C92_update_leaf",
    "C92_delegate",
    "C92_randomize",
    "C92_gamma_list"
   ],
   "note": "bench_param and bench_curve.rs are not modelled. The drawn numbers are arguments; nothing is said about how likely they are."
  },
  {
   "property": "C93",
   "status": "proved",
   "theorems": [
    "C93_simulation_perfect",
    "C93_forgery_solves",
    "C93_forger_solves",
    "C93_interface_answers"
   ],
   "note": "Selective target; the proof of possession is not part of the game; the signer of the game draws its scalars, the code hashes for them. DESIGN.md section 5."
  },
  {
   "property": "C94",
   "status": "proved",
   "theorems": [
    "C94_call",
    "C94_calls",
    "C94_key_gen",
    "C94_history",
    "C94_aggregate"
   ],
   "note": "About control flow and results, not about running time. Reloading is excluded: what a decoder accepts depends on the points."
  },
  {
   "property": "C95",
   "status": "proved",
   "theorems": [
    "C95_arithmetic",
    "C95_shift",
    "C95_vectors",
    "C95_hkdf",
    "C95_find_ancestor",
    "C95_ancestor_is_latest",
    "C95_master_key_gen",
    "C95_sk_init",
    "C95_pk_init",
    "C95_key_gen_any_params",
    "C95_vector_too_long"
   ],
   "note": ""
  },
  {
   "property": "C96",
   "status": "proved",
   "theorems": [
    "C96_aggregate_isolated",
    "C96_forger_solves"
   ],
   "note": "The secrets of the other signers are given by the forger; C102 replaces this by proofs of possession. The message is fixed in advance, the time stamp is not."
  },
  {
   "property": "C97",
   "status": "proved",
   "theorems": [
    "C97_key_nodes",
    "C97_largest_key",
    "C97_next_step"
   ],
   "note": "C97_next_step is the case in which the comment in src/secret_key.rs that an update draws zero or one random field elements is true; C49_zero_or_one_refuted shows it is not for jumps over several time stamps."
  },
  {
   "property": "C98",
   "status": "proved",
   "theorems": [
    "C98_forger_solves",
    "C98_all_coins",
    "C98_repeats_rare",
    "C98_fixed_hash"
   ],
   "note": "The signer of the game draws the scalars of its answers; the code derives them from its prng with the same hash function, which is not part of the game (see C93_interface_answers). C98_all_coins drops the condition that the q hash values have different scalars and pays repeats_bound coins for it, at most q(q-1)/fr_modulus of all coins (C98_repeats_rare)."
  },
  {
   "property": "C99",
   "status": "proved",
   "theorems": [
    "C99_key_gen",
    "C99_update",
    "C99_sign",
    "C99_verify",
    "C99_aggregate",
    "C99_aggregate_same",
    "C99_verify_aggregated",
    "C99_pk_validate",
    "C99_sk_validate",
    "C99_update_text_refuted",
    "C99_master_text_refuted",
    "C99_sign_later_refuted",
    "C99_validate_refuted"
   ],
   "note": "The info strings are arguments of the document's programs. spec.md puts the time into the update string and names two master key strings; the code's strings (code_texts) are used for agreement, C99_update_text_refuted and C99_master_text_refuted show that the printed ones differ. Serialization, parameter generation and HKDF texts of spec.md are compared elsewhere (C29-C31, C91, C95)."
  },
  {
   "property": "C100",
   "status": "proved",
   "theorems": [
    "C100_prng_text",
    "C100_buffer_text",
    "C100_secret_key_text",
    "C100_printed_key_signs",
    "C100_printed_key_past",
    "C100_signature_text_refuted"
   ],
   "note": "Points are printed by the pairing library; p1 and p2 are arbitrary functions. The derived Debug of pixel_sk (a pointer and a length), pixel_keys, PublicKey and ProofOfPossession is not modelled."
  },
  {
   "property": "C101",
   "status": "proved",
   "theorems": [
    "C101_array_calls",
    "C101_array_made",
    "C101_held_key_signs",
    "C101_committee",
    "C101_only_buffers_matter"
   ],
   "note": "A pointer is a block and an offset; a null pointer with length 0, which Rust's from_raw_parts forbids, cannot be written down in the model. Calls that panic leave the memory as it is. That a signature under a held key for another time stamp cannot be made is C93-C98; here only that the call panics."
  },
  {
   "property": "C102",
   "status": "proved",
   "theorems": [
    "C102_signatures_of_points",
    "C102_accepted_proof",
    "C102_isolated",
    "C102_forger_solves",
    "C102_all_coins",
    "C102_lost_rare",
    "C102_without_proofs_refuted"
   ],
   "note": "The BLS dependency is replaced by textbook BLS (with_points) over a hash to the curve answered by the game; C102_signatures_of_points shows that this satisfies env_laws. Keys and proofs outside the subgroups are not accepted there; the code gets them from deserialize, which checks this. As in C98 the signer draws the scalars of its answers. C102_without_proofs_refuted is the refutation for a verifier that skips validate."
  },
  {
   "property": "C103",
   "status": "proved",
   "theorems": [
    "C103_drawn_is_code",
    "C103_forger_solves"
   ],
   "note": "The coins counted are those for which the drawn values make up a hash function (clean): the signer's calls are at different places, the forger asked at none of them before it could know them, and no prng state repeats. The BLS dependency is textbook BLS as in C102. tb is the time of the break-in, 0 for none; the seed is at least 32 bytes long. C103_drawn_is_code: for such coins the game drawn value by value is the run of key_gen, update and sign_present."
  },
  {
   "property": "C104",
   "status": "proved",
   "theorems": [
    "C104_unclean_few",
    "C104_all_coins",
    "C104_few_lost"
   ],
   "note": "C104_few_lost needs at least one value of the second kind (nu >= 1) and a seed of at least 32 bytes, as key_gen has. A coin with which the run stops because the forger asks more questions than there are values is not a win in either game."
  },
  {
   "property": "C105",
   "status": "proved",
   "theorems": [
    "C105_same_game",
    "C105_all_coins"
   ],
   "note": "Depth at most 32, because deeper keys cannot be saved (C30). The hash values are drawn in the run of the forger rewritten to update and sign_present (two_calls); C105_same_game holds for every hash function."
  },
  {
   "property": "C106",
   "status": "proved",
   "theorems": [
    "C106_program_finds",
    "C106_all_coins"
   ],
   "note": "Counted are the operations on points, comparisons, pairings and the talk with the forger, not the arithmetic of the solver with numbers, bytes and lists; the forger's own running time is its own. C106_all_coins bounds the forger of C105 by 2n questions for n calls, since a call is at most two of update and sign_present."
  },
  {
   "property": "C107",
   "status": "proved",
   "theorems": [
    "C107_game_solved",
    "C107_coins_counted",
    "C107_advantage",
    "C107_at_most_one",
    "C107_lost_in_numbers"
   ],
   "note": "The probability is over the key under attack, the parameters, hash values and seeds, all uniform; public parameters have known exponents to the solver only. Coins with which the drawn values are no hash function count as won by the forger. A run that needs more drawn values than there are does not count as won, so n, nb, nk, nu, q, p have to be at least what the forger and the signer use. The forger breaks in when it likes; a win with break-in time tb (0: none) is one in which it broke in at tb. How the values are drawn depends on tb, so the wins for all tb are summed."
  },
  {
   "property": "C108",
   "status": "proved",
   "theorems": [
    "C108_same_result",
    "C108_what_is_left",
    "C108_first_update",
    "C108_stays",
    "C108_past_signed",
    "C108_past_recovered"
   ],
   "note": "Says what the block of the Vec and freed blocks hold if nobody writes into them afterwards. How a Vec grows, whether realloc moves the block and whether dropping a Vec clears its spare slots are parameters; the place of the h-vector, which also lies in a slot, is left out, as its block is overwritten when a sub key is dropped."
  },
  {
   "property": "C109",
   "status": "proved",
   "theorems": [
    "C109_wiped",
    "C109_no_subkeys_no_signatures",
    "C109_wiped_key_is_dead",
    "C109_default_key",
    "C109_default_subkey",
    "C109_default_signature",
    "C109_default_bytes",
    "C109_default_public_key_rejected_refuted"
   ],
   "note": "That zeroize of a point gives the identity and that a Vec is emptied is taken from the crates (the test in src/test/pixel_zeroize.rs relies on it). The default public key and proof have ciphersuite 0. C109_default_public_key_rejected_refuted refutes that a default public key is rejected."
  },
  {
   "property": "C110",
   "status": "proved",
   "theorems": [
    "C110_one_signer",
    "C110_speaks",
    "C110_advantage"
   ],
   "note": "C110_one_signer holds for any dependency record and any hash functions. In C110_advantage the seeds of the other signers are fixed lists, the one of the signer under attack is drawn; as in C107 the wins for all times of the first break-in are summed and coins that make up no hash function count as won. The forger of the game with one signer gives up when the parameters have another depth than d, which does not happen in the game."
  },
  {
   "property": "C111",
   "status": "proved",
   "theorems": [
    "C111_same_result",
    "C111_what_is_left",
    "C111_blocks_left",
    "C111_key_left_signs",
    "C111_state_left_signs",
    "C111_failed_write"
   ],
   "note": "Says what freed blocks hold if nobody writes into them afterwards. How a Vec<u8> grows (for what is left: at most by doubling, as std does) and whether realloc moves the block are parameters. A point is appended to its buffer at once. The stack and the writer of the caller are not modelled."
  },
  {
   "property": "C112",
   "status": "proved",
   "theorems": [
    "C112_same_results",
    "C112_keygen",
    "C112_verify",
    "C112_aggregate",
    "C112_validate",
    "C112_history",
    "C112_public_only",
    "C112_counts",
    "C112_update_cost",
    "C112_update_cost_reached",
    "C112_total_cost",
    "C112_total_cost_reached"
   ],
   "note": "Operations are those the code of the crate calls on group elements. How long one of them takes, in particular mul_assign for different scalars, what they do inside the crates, hashing, memory and field operations are not covered. A panic of update (the state of the prng repeats) ends the sequence early and is excluded. C112_keygen, _verify, _aggregate and _validate speak about calls that succeed (for verify and validate: answer true)."
  },
  {
   "property": "C113",
   "status": "proved",
   "theorems": [
    "C113_update",
    "C113_delegate",
    "C113_randomization",
    "C113_validate",
    "C113_time_of_sorted_key",
    "C113_time_any_key_refuted"
   ],
   "note": "The parameters are assumed well formed (pp_ok). update_result, delegate_result and randomization_result (SpecAny.v) list the cases; the theorems are equivalences, so the cases exclude each other and one always applies. C113_validate speaks about keys whose points are in the subgroups (deserialized keys are)."
  },
  {
   "property": "C114",
   "status": "proved",
   "theorems": [
    "C114_same_result",
    "C114_what_is_left",
    "C114_cut",
    "C114_past_signed",
    "C114_past_recovered",
    "C114_child_std"
   ],
   "note": "Says what freed blocks hold if nobody writes into them afterwards. How a Vec grows and whether realloc moves the block are parameters (separate ones for the two kinds of vectors). The stack, the reader and the h-vectors' blocks after reading are not modelled here."
  },
  {
   "property": "C115",
   "status": "proved",
   "theorems": [
    "C115_same_result",
    "C115_delegate",
    "C115_live",
    "C115_nothing_new",
    "C115_freed",
    "C115_freed_exact",
    "C115_updates",
    "C115_only_last",
    "C115_past_signed"
   ],
   "note": "The block of each h-vector is modelled slot by slot in HvMem.v; what std does on remove(0) and clone, and what drop does with spare slots (parameter clears), is stated there. The content of freed blocks after reuse by the allocator and copies on the stack are not modelled. The positive part: nothing of the removed entries survives in the block, and the live key's spare slots hold only a point which the key has anyway. The negative part (C115_past_signed) needs the rest of an old sub key, which C108 shows may be left too."
  },
  {
   "property": "C116",
   "status": "proved",
   "theorems": [
    "C116_one_key",
    "C116_one_key_sum",
    "C116_shifted_key",
    "C116_blank",
    "C116_signer_unbound",
    "C116_own_message_refuted"
   ],
   "note": "the bilinear, non-degenerate pairing of env_laws; the pair with the identity is not made by the library's own sign calls (except when the randomness hits the value that cancels), it needs the exponent, which the library wipes after key generation"
  },
  {
   "property": "C117",
   "status": "proved",
   "theorems": [
    "C117_parameters",
    "C117_parameters_ok",
    "C117_key_gen",
    "C117_deep_key_signs",
    "C117_deep_key_reach",
    "C117_deep_time",
    "C117_other_parameters",
    "C117_accepted_in_both",
    "C117_depth_separate_refuted"
   ],
   "note": "the parameters are those of param.py's scheme as specified in SpecParam.v (C117_parameters); all other theorems hold for any parameters. Updating a key with other parameters than its own is not part of this property (C113 says what update does with any key)"
  },
  {
   "property": "C118",
   "status": "proved",
   "theorems": [
    "C118_read",
    "C118_cut",
    "C118_self_delimiting",
    "C118_written",
    "C118_recovered"
   ],
   "note": "the stream has no tags; what happens when a blob is read as another kind depends on the encodings of the groups, which are abstract. Readers are calm because a secret key is misread when the read of its length byte is interrupted (C36)"
  },
  {
   "property": "C119",
   "status": "proved",
   "theorems": [
    "C119_spare_unused",
    "C119_spare_unused_by_update",
    "C119_spare_unused_by_histories",
    "C119_same_keys",
    "C119_any_key_refuted",
    "C119_verify_panics",
    "C119_nothing_accepted",
    "C119_nothing_signed",
    "C119_sign_panics",
    "C119_key_gen_panics",
    "C119_key_gen_notices_refuted"
   ],
   "note": "pixel_param is another crate; its constructor and deserializer decide which lists can occur, and the model takes them as any list. With too few generators updates are not described (C113 describes them for enough generators)"
  },
  {
   "property": "C120",
   "status": "proved",
   "theorems": [
    "C120_same_results",
    "C120_complete",
    "C120_complete_keygen",
    "C120_keygen",
    "C120_verify",
    "C120_history",
    "C120_public_only",
    "C120_total",
    "C120_total_reached"
   ],
   "note": "the strings are whole inputs of SHA-512 as in RFC 2104 and RFC 5869; the crates hash the two key blocks of HMAC once and copy the state. What the BLS dependency hashes for the proof of possession is not recorded"
  },
  {
   "property": "C121",
   "status": "proved",
   "theorems": [
    "C121_simulated",
    "C121_complete",
    "C121_signers",
    "C121_message",
    "C121_panics",
    "C121_two_signers"
   ],
   "note": "the objects are used through their position; whether the proof of possession of one signer is accepted for another's key is up to the BLS dependency and not predicted"
  },
  {
   "property": "C122",
   "status": "proved",
   "theorems": [
    "C122_call",
    "C122_program",
    "C122_sizes",
    "C122_panics",
    "C122_complete",
    "C122_refused",
    "C122_two_signers"
   ],
   "note": "pointers and lengths are in FfiMem.v (C73, C101), here buffers are byte strings"
  },
  {
   "property": "C123",
   "status": "proved",
   "theorems": [
    "C123_update",
    "C123_sign",
    "C123_verify",
    "C123_appended",
    "C123_read_back",
    "C123_cut",
    "C123_next_update_refuted"
   ],
   "note": "whether the result can be read back is stated for keys whose points lie in the subgroups; keys made by the library have at most as many sub keys as the depth and are never cut"
  },
  {
   "property": "C124",
   "status": "proved",
   "theorems": [
    "C124_keygen",
    "C124_sig",
    "C124_test_vector",
    "C124_keyupdate_refuted",
    "C124_keyupdate_bytes",
    "C124_on_vectors"
   ],
   "note": "filecmp.cmp compares contents (its shortcut on equal size and modification time is not modelled); plain files and console output left out; hypothesis: the Rust generator finished (C70 says when)"
  },
  {
   "property": "C125",
   "status": "proved",
   "theorems": [
    "C125_failures",
    "C125_no_failure",
    "C125_outcome",
    "C125_success_accepted"
   ],
   "note": "the text of the plain files and the bytes of pp.serialize (a dependency) are arbitrary arguments; the latter are written by one write_all"
  },
  {
   "property": "C126",
   "status": "proved",
   "theorems": [
    "C126_fresh_checkout_refuted",
    "C126_no_python_directory",
    "C126_outcome",
    "C126_python_alone",
    "C126_c_alone",
    "C126_c_program",
    "C126_clean_iff",
    "C126_clean_removes_all",
    "C126_clean_twice",
    "C126_clean_failure",
    "C126_clean_after_test"
   ],
   "note": "except when the 'prng not updated' assertion breaks SHA-512 (C84); builds succeed and Python finds its libraries; failures of the file system in Python and C other than a missing directory are not modelled"
  },
  {
   "property": "C127",
   "status": "proved",
   "theorems": [
    "C127_public_keys",
    "C127_proofs",
    "C127_signatures",
    "C127_pk_test",
    "C127_pop_test",
    "C127_sig_valid_test",
    "C127_sig_const_test",
    "C127_sig_points_test",
    "C127_all_tests",
    "C127_flag_checked",
    "C127_uncompressed_untested"
   ],
   "note": "the curve library reads an uncompressed point in two steps; here the decoder gets all its bytes at once"
  },
  {
   "property": "C128",
   "status": "proved",
   "theorems": [
    "C128_keygen",
    "C128_update",
    "C128_std_no_panic",
    "C128_wiping_no_help"
   ],
   "note": "only the buffers of the serialization and the Vec handed out; blocks freed by reading and updating the key are in C114 and C115"
  },
  {
   "property": "C129",
   "status": "proved",
   "theorems": [
    "C129_multiplication",
    "C129_membership",
    "C129_pairing",
    "C129_uses"
   ],
   "note": "the values the closures drop are returned by the model"
  },
  {
   "property": "C130",
   "status": "proved",
   "theorems": [
    "C130_same_result",
    "C130_tidy",
    "C130_tidy_life",
    "C130_what_is_left"
   ],
   "note": "heap only; the stack is in C74-C79. The spare slots of a key just read were never written and are left out"
  },
  {
   "property": "C131",
   "status": "proved",
   "theorems": [
    "C131_same_result",
    "C131_sign_same_result",
    "C131_sign_leaves",
    "C131_tidy_life",
    "C131_session",
    "C131_life",
    "C131_sign_betrays",
    "C131_update_betrays"
   ],
   "note": "heap only; the stack is in C74-C79. Buffers of public data are left out"
  },
  {
   "property": "C132",
   "status": "proved",
   "theorems": [
    "C132_same_result",
    "C132_leaves",
    "C132_signs",
    "C132_seed"
   ],
   "note": "stack only; the heap is in C114. Cells later overwritten by other calls are counted, and the stack of the point deserialization is left out"
  },
  {
   "property": "C133",
   "status": "proved",
   "theorems": [
    "C133_same_results",
    "C133_sign_leaves",
    "C133_update_leaves",
    "C133_keygen_leaves",
    "C133_any_call",
    "C133_session_leaves",
    "C133_life",
    "C133_session_betrays"
   ],
   "note": "cells that later calls may overwrite are counted; heap in C131; unwinding and the caller's own memory are left out"
  },
  {
   "property": "C134",
   "status": "proved",
   "theorems": [
    "C134_same_results",
    "C134_step_leaves",
    "C134_refused_step",
    "C134_every_history",
    "C134_history_leaves",
    "C134_sign_then_update_recovers",
    "C134_reload_betrays",
    "C134_signatures_forge"
   ],
   "note": "cells that later calls may overwrite are counted; the Vec of a reload is the caller's and not counted; the cells of panicking steps are only said to exist"
  }
 ]
}