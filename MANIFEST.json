{
 "claims": [
  {
   "property": "C01",
   "status": "proved",
   "theorems": [
    "C01_bytes_to_bits_positions",
    "C01_bytes_bits_bytes",
    "C01_bits_bytes_bits"
   ],
   "note": "the full statement; ranges over: every byte string and every bit string, of any length"
  },
  {
   "property": "C02",
   "status": "proved",
   "theorems": [
    "C02_bits_to_u32_exact",
    "C02_u32_to_bits_exact",
    "C02_u32_bits_inverse"
   ],
   "note": "the full statement; ranges over: every bit string, every u32, every requested length"
  },
  {
   "property": "C03",
   "status": "proved",
   "theorems": [
    "C03_row_width_is_ceiling",
    "C03_row_width_agrees"
   ],
   "note": "the full statement; ranges over: every elem_size and plaintext_bits"
  },
  {
   "property": "C04",
   "status": "proved",
   "theorems": [
    "C04_store_and_read",
    "C04_kv_store_and_read",
    "C04_construction_succeeds",
    "C04_short_element_panics",
    "C04_undecodable_element_err"
   ],
   "note": "the full statement; ranges over: every element byte string, every elem_size, every plaintext_bits in 1..=32"
  },
  {
   "property": "C05",
   "status": "proved",
   "theorems": [
    "C05_divisible_loses_last_chunk",
    "C05_divisible_roundtrip_refuted"
   ],
   "note": "The property as first stated is false of the code; the _refuted theorem has the witness, the other theorems give the exact behaviour."
  },
  {
   "property": "C06",
   "status": "proved",
   "theorems": [
    "C06_rows_are_inputs"
   ],
   "note": "the full statement; ranges over: every list of elements, every m <= number of elements, every i < m"
  },
  {
   "property": "C07",
   "status": "proved",
   "theorems": [
    "C07_response_roundtrip",
    "C07_response_prefix_rejected",
    "C07_response_decoding_canonical"
   ],
   "note": "the full statement; ranges over: every response vector"
  },
  {
   "property": "C08",
   "status": "proved",
   "theorems": [
    "C08_inner_product",
    "C08_inner_product_mismatch"
   ],
   "note": "the full statement; ranges over: all pairs of u32 vectors"
  },
  {
   "property": "C09",
   "status": "proved",
   "theorems": [
    "C09_format_switch_transposes",
    "C09_format_switch_twice",
    "C09_format_switch_panics_iff",
    "C09_database_switch_twice"
   ],
   "note": "the full statement; ranges over: every matrix"
  },
  {
   "property": "C10",
   "status": "proved",
   "theorems": [
    "C10_rounding_recovers"
   ],
   "note": "the full statement; ranges over: every plaintext_bits in 1..=31, every D, every u32 right-hand side, every integer noise E"
  },
  {
   "property": "C11",
   "status": "proved",
   "theorems": [
    "C11_ternary_draw",
    "C11_ternary_distribution",
    "C11_ternary_vector"
   ],
   "note": "the full statement; ranges over: every sequence of OS random words"
  },
  {
   "property": "C12",
   "status": "proved",
   "theorems": [
    "C12_ternary_uniform_refuted"
   ],
   "note": "False of the code as stated (non-uniform); refuted with the exact counts."
  },
  {
   "property": "C13",
   "status": "proved",
   "theorems": [
    "C13_index_matrix_agreement",
    "C13_kv_matrix_agreement"
   ],
   "note": "the full statement; ranges over: every seed/PRG output, dim, database and secret vector"
  },
  {
   "property": "C14",
   "status": "proved",
   "theorems": [
    "C14_index_retrieval",
    "C14_index_retrieval_bytes"
   ],
   "note": "the full statement; ranges over: every database, seed, dim, random tape, row index"
  },
  {
   "property": "C15",
   "status": "proved",
   "theorems": [
    "C15_index_retrieval_unconditional"
   ],
   "note": "the full statement; ranges over: every database and every randomness with parameters below the bound"
  },
  {
   "property": "C16",
   "status": "proved",
   "theorems": [
    "C16_index_always_correct_refuted"
   ],
   "note": "False of the code as stated; refuted with a witness."
  },
  {
   "property": "C17",
   "status": "proved",
   "theorems": [
    "C17_index_queries_bounded",
    "C17_kv_queries_bounded",
    "C17_index_single_use",
    "C17_kv_single_use",
    "C17_index_history_exact",
    "C17_kv_history_exact"
   ],
   "note": "the full statement; ranges over: every call history, with arbitrary arguments, clones and resets"
  },
  {
   "property": "C18",
   "status": "proved",
   "theorems": [
    "C18_fresh_query_succeeds_refuted",
    "C18_overflow_error_iff"
   ],
   "note": "False of the code as stated (Clone / pub field); refuted with histories."
  },
  {
   "property": "C19",
   "status": "proved",
   "theorems": [
    "C19_index_query_shape"
   ],
   "note": "the full statement; ranges over: every QueryParams and row"
  },
  {
   "property": "C20",
   "status": "proved",
   "theorems": [
    "C20_query_entry_large",
    "C20_index_hides_row_refuted"
   ],
   "note": "False of the code as stated; refuted with a witness."
  },
  {
   "property": "C21",
   "status": "proved",
   "theorems": [
    "C21_kv_query_bijection"
   ],
   "note": "the full statement; ranges over: every filter geometry, every two keys, every query vector"
  },
  {
   "property": "C22",
   "status": "proved",
   "theorems": [
    "C22_mask_reuse_reveals_rows",
    "C22_kv_mask_reuse_reveals_slots"
   ],
   "note": "Index protocol and KV protocol."
  },
  {
   "property": "C23",
   "status": "proved",
   "theorems": [
    "C23_respond_shape",
    "C23_respond_wrong_length_panics",
    "C23_kv_respond_shape"
   ],
   "note": "Index protocol (Claims_index) and KV protocol (Claims_kv)."
  },
  {
   "property": "C24",
   "status": "proved",
   "theorems": [
    "C24_parse_total",
    "C24_parse_bad_bits_panics",
    "C24_kv_parse_total",
    "C24_kv_parse_needs_filter_params"
   ],
   "note": "Index protocol (Claims_index) and KV protocol (Claims_kv)."
  },
  {
   "property": "C25",
   "status": "proved",
   "theorems": [
    "C25_geometry_shape",
    "C25_filter_shape",
    "C25_geometry_profile"
   ],
   "note": "the full statement; ranges over: every key count and every value of the two floating point estimates"
  },
  {
   "property": "C26",
   "status": "proved",
   "theorems": [
    "C26_three_slots",
    "C26_slots_exist"
   ],
   "note": "the full statement; ranges over: every key, seed and geometry the constructor can produce"
  },
  {
   "property": "C27",
   "status": "proved",
   "theorems": [
    "C27_retrieve_correct",
    "C27_fingerprint_sum"
   ],
   "note": "the full statement; ranges over: every key list, data, seed, label, power-of-two modulus, initial random fingerprint block"
  },
  {
   "property": "C28",
   "status": "proved",
   "theorems": [
    "C28_any_modulus_refuted"
   ],
   "note": "False of the code for moduli that do not divide 2^32; refuted with a witness."
  },
  {
   "property": "C29",
   "status": "proved",
   "theorems": [
    "C29_permuted_keys_collide",
    "C29_silent_overwrite_refuted"
   ],
   "note": "False of the code: keys with permuted words collide under every seed; proved for all such keys plus a concrete filter."
  },
  {
   "property": "C30",
   "status": "proved",
   "theorems": [
    "C30_construct_iff_peelable",
    "C30_construct_ok_peelable",
    "C30_overload_panics",
    "C30_from_slice_length",
    "C30_from_vec_short"
   ],
   "note": "the full statement; ranges over: every key list, seed, data"
  },
  {
   "property": "C31",
   "status": "proved",
   "theorems": [
    "C31_placement_permutes"
   ],
   "note": "the full statement; ranges over: every hash list"
  },
  {
   "property": "C32",
   "status": "proved",
   "theorems": [
    "C32_retries_are_identical",
    "C32_hopeless_pair_refuted"
   ],
   "note": "False of the code: all attempts are identical; proved for every key list plus a concrete hopeless pair."
  },
  {
   "property": "C33",
   "status": "proved",
   "theorems": [
    "C33_release_hang_refuted",
    "C33_bfuse_release_hang_refuted"
   ],
   "note": "False of the code: 64 concrete keys make the release build loop forever."
  },
  {
   "property": "C34",
   "status": "proved",
   "theorems": [
    "C34_kv_retrieval",
    "C34_kv_retrieval_unconditional",
    "C34_kv_retrieval_strings"
   ],
   "note": "the full statement; ranges over: every key/value list, seeds, randomness"
  },
  {
   "property": "C35",
   "status": "proved",
   "theorems": [
    "C35_kv_columns_share_geometry"
   ],
   "note": "the full statement; ranges over: every key/value list and per-column randomness"
  },
  {
   "property": "C36",
   "status": "proved",
   "theorems": [
    "C36_kv_every_key_answered",
    "C36_absent_key_refuted"
   ],
   "note": "False of the code: a concrete absent key gets a well-formed answer; and every key is answered (kv_every_key_answered)."
  },
  {
   "property": "C37",
   "status": "proved",
   "theorems": [
    "C37_kv_empty_panics",
    "C37_kv_unpeelable_panics",
    "C37_kv_failure_is_error_refuted",
    "C37_kv_small_modulus_panics"
   ],
   "note": "False of the code: empty inputs, unpeelable keys and (debug) moduli below 256 panic; proved in general and for concrete pairs."
  },
  {
   "property": "C38",
   "status": "proved",
   "theorems": [
    "C38_index_build_exact",
    "C38_index_build_total",
    "C38_extra_elements_ignored",
    "C38_too_large_m_panics",
    "C38_undecodable_gives_error",
    "C38_zero_m_panics",
    "C38_wide_chunks_error",
    "C38_kv_count_mismatch",
    "C38_kv_undecodable_gives_error"
   ],
   "note": "index and key-value constructors; C38_index_build_total gives every outcome of the index constructor (shard, error or panic) for every value of every argument, C38_index_build_exact the same as equivalences for 1 to 32 plaintext bits."
  },
  {
   "property": "C39",
   "status": "proved",
   "theorems": [
    "C39_mismatched_dimension_rejected",
    "C39_foreign_common_params_rejected"
   ],
   "note": "the full statement; ranges over: every pair of params with different dim"
  },
  {
   "property": "C40",
   "status": "proved",
   "theorems": [
    "C40_saved_params_load_refuted",
    "C40_serialized_params_load",
    "C40_params_load_iff"
   ],
   "note": "False of the code: load of the file just written always fails; the derived serde JSON does load."
  },
  {
   "property": "C41",
   "status": "proved",
   "theorems": [
    "C41_saved_db_reload_refuted",
    "C41_constructed_shard_reload_refuted"
   ],
   "note": "False of the code: proved for every shard with at least one column."
  },
  {
   "property": "C42",
   "status": "proved",
   "theorems": [
    "C42_shard_write_states",
    "C42_kv_shard_write_states",
    "C42_write_is_atomic_refuted",
    "C42_same_path_loses_database",
    "C42_torn_files_are_rejected"
   ],
   "note": "False of the code: exact states after every operation proved, atomicity refuted for every shard; torn files are proved to be rejected on reading."
  },
  {
   "property": "C43",
   "status": "proved",
   "theorems": [
    "C43_mix_bijective",
    "C43_seed_word_matters"
   ],
   "note": "the full statement; ranges over: all 2^64 keys and seeds"
  },
  {
   "property": "C44",
   "status": "proved",
   "theorems": [
    "C44_bfuse_thousand_seeds",
    "C44_bfuse_no_false_negatives",
    "C44_bfuse_construct_iff",
    "C44_bfuse_debug_outcome",
    "C44_bfuse_probes_exist"
   ],
   "note": "Debug builds unconditionally; release builds under the slot-load bound, which C55 shows necessary."
  },
  {
   "property": "C45",
   "status": "proved",
   "theorems": [
    "C45_xor_no_false_negatives",
    "C45_xor_construct_iff",
    "C45_xor_terminates_iff",
    "C45_xor_result_stable",
    "C45_xor_single_key"
   ],
   "note": "the full statement; ranges over: every key list, all three widths"
  },
  {
   "property": "C46",
   "status": "proved",
   "theorems": [
    "C46_xor_duplicates"
   ],
   "note": "release: never returns for any number of attempts; debug: panics"
  },
  {
   "property": "C47",
   "status": "proved",
   "theorems": [
    "C47_fuse_thousand_seeds",
    "C47_fuse_no_false_negatives",
    "C47_fuse_construct_iff",
    "C47_fuse_probes_exist"
   ],
   "note": "the full statement; ranges over: every key list, all three widths"
  },
  {
   "property": "C48",
   "status": "proved",
   "theorems": [
    "C48_fuse_small_sets_refuted",
    "C48_fuse_panics_iff",
    "C48_fuse_always_fails",
    "C48_fuse_empty"
   ],
   "note": "refuted: 1..=89 keys always panic, 101..=179 always fail, empty-set filter panics on lookup; panics characterised exactly from 90 keys on"
  },
  {
   "property": "C49",
   "status": "proved",
   "theorems": [
    "C49_proxy_no_false_negatives",
    "C49_xor_proxy_no_false_negatives",
    "C49_xor_proxy_collision",
    "C49_xor_proxy_hash_only"
   ],
   "note": "the full statement; ranges over: every hasher, item list, filter"
  },
  {
   "property": "C50",
   "status": "proved",
   "theorems": [
    "C50_seeds_distinct"
   ],
   "note": "the full statement; ranges over: all 2^64 steps"
  },
  {
   "property": "C51",
   "status": "proved",
   "theorems": [
    "C51_exp_in_range",
    "C51_exp_too_large_refuted",
    "C51_exp_invalid",
    "C51_env_flags_iff",
    "C51_cli_flags_iff"
   ],
   "note": "u32::pow modelled as squaring loop; refuted for exponents >= 32 in release (silent 0)"
  },
  {
   "property": "C52",
   "status": "proved",
   "theorems": [
    "C52_json_file_is_strings",
    "C52_json_file_is_kvs",
    "C52_any_formatting_strings",
    "C52_any_formatting_kvs",
    "C52_one_reading",
    "C52_file_strings_are_text"
   ],
   "note": "the full statement; ranges over: every list of UTF-8 strings, every JSON text denoting it, all parameters, both build profiles"
  },
  {
   "property": "C53",
   "status": "proved",
   "theorems": [
    "C53_bad_file_is_error_refuted",
    "C53_wrong_json_is_error_refuted",
    "C53_not_strings_file_refuted",
    "C53_not_kvs_file_refuted"
   ],
   "note": "False of the code: panics for every bad file."
  },
  {
   "property": "C54",
   "status": "proved",
   "theorems": [
    "C54_kv_files_determine_shard_refuted",
    "C54_params_file_omits_fields"
   ],
   "note": "False of the code: concrete pair of KV shards, and general omission of the index fields."
  },
  {
   "property": "C55",
   "status": "proved",
   "theorems": [
    "C55_release_overload_refuted",
    "C55_bfuse_release_overload_refuted"
   ],
   "note": "False of the code: concrete 95-key lists for BinaryFuseP32 and BinaryFuse8; the positive statement with the load bound is C27/C44."
  },
  {
   "property": "C56",
   "status": "proved",
   "theorems": [
    "C56_fuse_size",
    "C56_fuse_bits_per_entry_refuted",
    "C56_xor_size",
    "C56_xor_bits_per_entry",
    "C56_xor_small_sets_refuted"
   ],
   "note": "size bounds proved for all n < 2^32 from the binary64 specification; the documented bits-per-entry bounds are refuted for small Xor sets and for Fuse with 3676 keys"
  },
  {
   "property": "C57",
   "status": "proved",
   "theorems": [
    "C57_key_words",
    "C57_key_words_injective"
   ],
   "note": "the full statement; ranges over: every key string and every 32-byte digest function"
  },
  {
   "property": "C58",
   "status": "proved",
   "theorems": [
    "C58_public_matrix_stream",
    "C58_kv_public_matrix_stream"
   ],
   "note": "the full statement; ranges over: every seed, generator, m and dim"
  },
  {
   "property": "C59",
   "status": "proved",
   "theorems": [
    "C59_zeroes_printed",
    "C59_zeroes_window_refuted"
   ],
   "note": "exact output proved; 'window of 2000' refuted by the all-zero table (prints 2001)"
  },
  {
   "property": "C60",
   "status": "proved",
   "theorems": [
    "C60_plaintext_bits_too_large",
    "C60_plaintext_bits_fine",
    "C60_plaintext_bits_32_accepted"
   ],
   "note": "exact panic condition for index queries in range; acceptance by the constructor shown with plaintext_bits = 32"
  },
  {
   "property": "C61",
   "status": "proved",
   "theorems": [
    "C61_index_failure_fraction",
    "C61_all_tapes",
    "C61_index_failure_shipped"
   ],
   "note": "integer Chernoff bound, no real analysis; numbers certified inside Coq"
  },
  {
   "property": "C62",
   "status": "proved",
   "theorems": [
    "C62_kv_failure_benchmarks",
    "C62_kv_failure_fraction",
    "C62_kv_failure_shipped"
   ],
   "note": "the general bound takes the slot count of the built shard; for the Makefile's configurations it is derived from the code's own float estimates (kv_failure_benchmarks), with the logarithm assumed right to four digits"
  },
  {
   "property": "C63",
   "status": "proved",
   "theorems": [
    "C63_kv_build_exact",
    "C63_kv_build_iff_peelable",
    "C63_kv_build_depends_on_keys"
   ],
   "note": "C63_kv_build_exact gives every outcome (shard, error or panic) of building a key-value shard from strings."
  },
  {
   "property": "C64",
   "status": "proved",
   "theorems": [
    "C64_estimates_sane",
    "C64_documented_size",
    "C64_too_many_keys",
    "C64_shipped_slots"
   ],
   "note": "libm's natural logarithm is an argument; reasonable_log (right to four digits) is the only assumption and documented_size_example shows one function that meets it"
  },
  {
   "property": "C65",
   "status": "proved",
   "theorems": [
    "C65_bincode_exact",
    "C65_bincode_exact_filters",
    "C65_json_round_trip",
    "C65_index_query_params_round_trip",
    "C65_missing_extra_params",
    "C65_cut_is_error",
    "C65_same_formats",
    "C65_index_session_survives",
    "C65_kv_session_survives",
    "C65_reloaded_state_stays_used"
   ],
   "note": "bincode 1.3.3 and serde_json are modelled from their documented behaviour; the JSON acceptance set is stated for parameter and input files in C40, C52 and C53"
  },
  {
   "property": "C66",
   "status": "proved",
   "theorems": [
    "C66_index_get_row_is_chunk_column",
    "C66_index_get_row_after_switch",
    "C66_get_row_is_element_row_refuted",
    "C66_index_getters",
    "C66_kv_row_iter",
    "C66_kv_get_row_slots",
    "C66_kv_row_iter_lists_values_refuted"
   ],
   "note": "get_row = element row and KV iterator = stored values REFUTED; what they do return proved for every database"
  },
  {
   "property": "C67",
   "status": "proved",
   "theorems": [
    "C67_generated_file",
    "C67_generated_shard",
    "C67_make_ignores_element_size_refuted",
    "C67_make_default_shard_truncates",
    "C67_default_is_not_random_refuted"
   ],
   "note": "Python's int(), os.environ and json.dump modelled from their documentation; element size under make gen-db and randomness without settings REFUTED"
  },
  {
   "property": "C68",
   "status": "proved",
   "theorems": [
    "C68_index_bench_outcome",
    "C68_small_index_bench_panics_refuted",
    "C68_index_bench_randomness_refuted",
    "C68_kv_bench_outcome"
   ],
   "note": "exact outcome; completion REFUTED; criterion's iteration counts are arguments; timing and printing not modelled"
  },
  {
   "property": "C69",
   "status": "proved",
   "theorems": [
    "C69_bfuse_documented_rate_refuted",
    "C69_fuse8_documented_rate_refuted",
    "C69_fuse16_documented_rate_refuted",
    "C69_bfuse_accepted_keys",
    "C69_bfuse8_documented_rate_small",
    "C69_bfuse16_documented_rate_small",
    "C69_bfuse_random_fill",
    "C69_fuse_random_fill",
    "C69_every_absent_key_refuted",
    "C69_xor_documented_rate_refuted",
    "C69_xor_accepted_keys",
    "C69_xor8_documented_rate_small",
    "C69_xor16_documented_rate_small"
   ],
   "note": "documented rates REFUTED for every family: explicit distinct key sets for which Xor8/16/32 (10229984 keys) accepts >43%, BinaryFuse8/16/32 (119537056 keys) >3.7%, Fuse8 (11751654 keys) >0.9% and Fuse16 (1468957 keys) >0.0035% of all other keys, for every fill, profile and number of attempts; proved true for BinaryFuse8 up to 330000 and BinaryFuse16 up to 16000 keys, whatever the set; over the fill, key by key, the rate is 0, 1 or exactly 2^-w (BinaryFuse, Fuse); the per-key reading REFUTED. Not claimed: where exactly between the two the documented rates start to fail, nor the \"effectively zero\" of the 32-bit filters for every set. Xor: two-sided count (xor_accepted_keys), documented rates for up to 930 (Xor8) and 24 (Xor16) keys."
  },
  {
   "property": "C70",
   "status": "proved",
   "theorems": [
    "C70_index_costs",
    "C70_keyword_costs",
    "C70_overhead_refuted",
    "C70_overhead_bound"
   ],
   "note": "exact sizes for both modes; the README's 1.08 REFUTED for every shard; upper bounds 1.25 / 1.141 proved. bincode sizes per its documented format; running times not modelled"
  },
  {
   "property": "C71",
   "status": "proved",
   "theorems": [
    "C71_lwe_samples",
    "C71_kv_queries_one_sample",
    "C71_index_queries_one_sample",
    "C71_kv_query_is_lwe",
    "C71_kv_queries_private",
    "C71_kv_shard_params_fit",
    "C71_index_query_is_lwe",
    "C71_index_queries_private",
    "C71_index_no_loss_refuted",
    "C71_lwe_sizes"
   ],
   "note": "reduction to LWE proved by counting over all tapes (exact, no asymptotics); the random words are taken uniform (rand's generator is not modelled), the public matrix is arbitrary. LWE itself is not assumed anywhere: its advantage appears on the right-hand side. Index mode REFUTED in the sense of the extra term, which is attained. The many-sample advantages are reduced to single-sample ones (C71_lwe_samples and its two corollaries: factor n, an averaging hybrid argument with explicit surrounding vectors)."
  },
  {
   "property": "C72",
   "status": "proved",
   "theorems": [
    "C72_index_service",
    "C72_kv_service"
   ],
   "note": "one transition system for both modes; an adversarial network that does not forge; the client's randomness is recorded as a ghost so that the noise condition can be stated; a client reading with another object than the one that asked (a clone) is not covered"
  },
  {
   "property": "C73",
   "status": "proved",
   "theorems": [
    "C73_kv_restart_refuted",
    "C73_index_mismatch_detected_refuted",
    "C73_index_mismatch_never_detected"
   ],
   "note": "REFUTED: keyword restarts, stale index parameters and exchanged answers go unnoticed; universal non-detection proved for index mode"
  },
  {
   "property": "C74",
   "status": "proved",
   "theorems": [
    "C74_refusal_rate",
    "C74_one_refusal_rate",
    "C74_zero_secret_refusal",
    "C74_overall_refusal_rate"
   ],
   "note": "exact counts; the output of StdRng is taken as an arbitrary word stream and counted uniformly (the generator itself is not modelled)"
  },
  {
   "property": "C75",
   "status": "proved",
   "theorems": [
    "C75_index_test_outcome",
    "C75_index_test_rate",
    "C75_reuse_test_outcome",
    "C75_reuse_test_rate",
    "C75_tests_always_pass_refuted",
    "C75_index_test_noise",
    "C75_kv_unit_tests_pass",
    "C75_kv_test_outcome",
    "C75_shipped_test_rates"
   ],
   "note": "REFUTED for the index tests (flaky at a proved rate). The keyword test's failure probability from the noise is C62's; its build probability is not estimated (C63 gives the exact condition). The filter crate's own tests are C76."
  },
  {
   "property": "C76",
   "status": "proved",
   "theorems": [
    "C76_xor_init_test_iff",
    "C76_xor_bpe_test_iff",
    "C76_fuse_init_test_iff",
    "C76_fuse_bpe_test_iff",
    "C76_fuse_fail_test_iff",
    "C76_fuse_fail_test_refuted",
    "C76_fp_tests_count",
    "C76_fp_tests_refuted",
    "C76_bfuse_init_test_iff",
    "C76_million_slots",
    "C76_bfuse_bpe_test_iff",
    "C76_single_key_test_passes",
    "C76_panic_tests_pass",
    "C76_proxy_test_iff",
    "C76_p32_test_hash",
    "C76_p32_test_slots",
    "C76_p32_init_test_iff",
    "C76_p32_hashes_test_iff",
    "C76_p32_bpe_test_iff"
   ],
   "note": "REFUTED for test_fail_construction (Fuse) and the false-positive tests (constructed draws; the proportion of failing draws is not computed). The 16 and 32-bit variants differ from the 8-bit ones only in the width and the bounds, which are arguments. The 1000-attempt construction of the P32 filter is covered by C30/C32. Benches are not part of this claim."
  },
  {
   "property": "C77",
   "status": "proved",
   "theorems": [
    "C77_xor_larger_refuted",
    "C77_xor_larger",
    "C77_xor_larger_than_fuse",
    "C77_bfuse_fuse_equivalent"
   ],
   "note": "REFUTED below 8192 keys (BinaryFuse is larger than Xor). Between 8192 and 2^17 keys no order is claimed. Sizes are numbers of fingerprints of the same width; struct headers are not counted. The example shows filters of 2^20 and of a thousand keys in all three families."
  },
  {
   "property": "C78",
   "status": "proved",
   "theorems": [
    "C78_fuse_size_refuted",
    "C78_fuse_size_built",
    "C78_bfuse_size_built",
    "C78_xor_size_built"
   ],
   "note": "REFUTED for Fuse at the listed sizes; the list is exact (fuse_size_refuted and fuse_size_built). Existence only: how likely random keys are to succeed is not claimed. The modular filter BinaryFuseP32 is not covered here, because its 256-bit mixer is not shown to reach every hash."
  },
  {
   "property": "C79",
   "status": "proved",
   "theorems": [
    "C79_index_text_back",
    "C79_index_text_never_back_refuted",
    "C79_kv_text_back",
    "C79_kv_text_never_back_refuted"
   ],
   "note": "REFUTED when plaintext_bits divides elem_size (819200/10 and 245760/10). Composes C52, C61/C62, C04/C05 and C34; the keyword theorems take that the shard was built (C63 says when) and, in release, that no slot is used by more than 63 keys (C55). The size of the filter enters as kp_m at most the number of slots the f64 arithmetic gives (C64)."
  },
  {
   "property": "C80",
   "status": "proved",
   "theorems": [
    "C80_analysis_arguments",
    "C80_analysis_output",
    "C80_analysis_lines",
    "C80_analysis_prints_iff",
    "C80_plot_arguments",
    "C80_plot_failure_refuted",
    "C80_filter_benchmarks",
    "C80_analysis_can_print"
   ],
   "note": "REFUTED for the plot (C80_plot_failure_refuted: after a panic the script draws a plot without points). For BinaryFuse the condition for printing is stated for distinct keys without an overloaded slot (C55 covers the rest). Shell, cargo and Python are modelled only as far as the outcome of the script (which words are passed on, no check of the exit status, one number per line); criterion only as a repetition of the measured call."
  },
  {
   "property": "C81",
   "status": "proved",
   "theorems": [
    "C81_wire_bincode",
    "C81_wire_json",
    "C81_wire_files"
   ],
   "note": "bincode and serde_json are external: their formats are modelled from their documentation (Serde, Json), the layout is specified separately (SpecWire). In JSON a string is claimed only without characters that need an escape; the others are covered by the round trips of C65 and the grammar of C52."
  },
  {
   "property": "C82",
   "status": "proved",
   "theorems": [
    "C82_json_reading",
    "C82_formatting_free",
    "C82_accepted_values_fit"
   ],
   "note": "serde_json is external and modelled from its documented behaviour. One known difference: a lone surrogate escape inside the value of an unknown member is refused by the model and skipped by the crate."
  },
  {
   "property": "C83",
   "status": "proved",
   "theorems": [
    "C83_texts_belong",
    "C83_product_text",
    "C83_params_text",
    "C83_counts_are_told",
    "C83_wide_text_refuted",
    "C83_build_text",
    "C83_pairs_are_told",
    "C83_bad_element_refuted",
    "C83_query_texts"
   ],
   "note": "texts of the library's own errors (Display, and Debug where one error wraps another), for every argument; base64's own texts are an arbitrary function of the string. REFUTED: the texts do not say which element is bad (C83_bad_element_refuted) and name a u16 where the limit is 32 bits (C83_wide_text_refuted). Panic messages are not modelled."
  },
  {
   "property": "C84",
   "status": "proved",
   "theorems": [
    "C84_digest_is_32_bytes",
    "C84_digest_constants",
    "C84_digest_padding",
    "C84_keys_are_digests",
    "C84_matrix_is_chacha12",
    "C84_lookup_with_sha256_chacha12"
   ],
   "note": "SHA-256 from FIPS 180-4 and ChaCha12 as in rand 0.8's StdRng, transcribed and checked against published vectors; that the crates sha2 and rand_chacha compute these functions is trusted."
  },
  {
   "property": "C85",
   "status": "proved",
   "theorems": [
    "C85_errors_are_exact",
    "C85_foreign_byte",
    "C85_last_symbol",
    "C85_decode_texts",
    "C85_texts_are_readable",
    "C85_build_names_the_byte",
    "C85_pairs_name_the_byte"
   ],
   "note": "the errors of the crate base64 0.13 are modelled from its documentation and source (decode.rs), which is not part of the repository; C83 holds for any such texts, C85 for these."
  },
  {
   "property": "C86",
   "status": "proved",
   "theorems": [
    "C86_profile_index_api",
    "C86_profile_kv_api",
    "C86_profile_lookups",
    "C86_profile_filters",
    "C86_profile_tools",
    "C86_profile_converse_refuted"
   ],
   "note": "random values (tape, fresh filter cells, seeds) are the same inputs to both builds; the converse is refuted with witnesses."
  }
 ]
}