{
 "claims": [
  {
   "property": "C01",
   "status": "proved",
   "theorems": [
    "c01_chained_contents"
   ],
   "note": ""
  },
  {
   "property": "C02",
   "status": "proved",
   "theorems": [
    "c02_oa_contents"
   ],
   "note": ""
  },
  {
   "property": "C03",
   "status": "proved",
   "theorems": [
    "c03_oa_insert_total",
    "c03_oa_history"
   ],
   "note": ""
  },
  {
   "property": "C04",
   "status": "proved",
   "theorems": [
    "c04_stats_chained",
    "c04_stats_oa"
   ],
   "note": ""
  },
  {
   "property": "C05",
   "status": "proved",
   "theorems": [
    "c05_dups"
   ],
   "note": ""
  },
  {
   "property": "C06",
   "status": "proved",
   "theorems": [
    "c06_longest_chain",
    "c06_longest_oa",
    "c06_longest_refuted"
   ],
   "note": "exact characterisation proved; the plain reading 'LongestChain is the longest chain' is refuted (chains of length one are never recorded)"
  },
  {
   "property": "C07",
   "status": "proved",
   "theorems": [
    "c07_next_log2",
    "c07_next_log2_small"
   ],
   "note": ""
  },
  {
   "property": "C08",
   "status": "proved",
   "theorems": [
    "c08_pow2_size",
    "c08_small_and_huge_sizes",
    "c08_negative_size",
    "c08_prime_size",
    "c08_index_in_range",
    "c08_unreachable_bucket",
    "c08_empty_table_panics"
   ],
   "note": ""
  },
  {
   "property": "C09",
   "status": "proved",
   "theorems": [
    "c09_hash_quality"
   ],
   "note": "over exact rationals; float64 rounding is outside the model"
  },
  {
   "property": "C10",
   "status": "proved",
   "theorems": [
    "c10_stream64",
    "c10_stream128"
   ],
   "note": ""
  },
  {
   "property": "C11",
   "status": "proved",
   "theorems": [
    "c11_history64",
    "c11_history128",
    "c11_new"
   ],
   "note": ""
  },
  {
   "property": "C12",
   "status": "proved",
   "theorems": [
    "c12_asm_hash",
    "c12_asm_hash128"
   ],
   "note": ""
  },
  {
   "property": "C13",
   "status": "proved",
   "theorems": [
    "c13_pg_agrees",
    "c13_pg_panics",
    "c13_pg_any_rounds"
   ],
   "note": ""
  },
  {
   "property": "C14",
   "status": "proved",
   "theorems": [
    "c14_round_bijective",
    "c14_absorb_bijective",
    "c14_keys_never_merge"
   ],
   "note": ""
  },
  {
   "property": "C15",
   "status": "proved",
   "theorems": [
    "c15_le_roundtrip"
   ],
   "note": ""
  },
  {
   "property": "C16",
   "status": "proved",
   "theorems": [
    "c16_stream32",
    "c16_stream64",
    "c16_stream128",
    "c16_history"
   ],
   "note": ""
  },
  {
   "property": "C17",
   "status": "proved",
   "theorems": [
    "c17_sum_is_the_hash_refuted",
    "c17_sum_ignores_tail"
   ],
   "note": ""
  },
  {
   "property": "C18",
   "status": "proved",
   "theorems": [
    "c18_finalisers_bijective",
    "c18_final128_bijective"
   ],
   "note": ""
  },
  {
   "property": "C19",
   "status": "proved",
   "theorems": [
    "c19_sum64_is_half_of_sum128"
   ],
   "note": ""
  },
  {
   "property": "C20",
   "status": "proved",
   "theorems": [
    "c20_mixers_bijective"
   ],
   "note": ""
  },
  {
   "property": "C21",
   "status": "proved",
   "theorems": [
    "c21_mixer_variants_agree",
    "c21_mix64_refuted"
   ],
   "note": ""
  },
  {
   "property": "C22",
   "status": "proved",
   "theorems": [
    "c22_hash232_collisions"
   ],
   "note": ""
  },
  {
   "property": "C23",
   "status": "proved",
   "theorems": [
    "c23_fast_paths",
    "c23_total"
   ],
   "note": ""
  },
  {
   "property": "C24",
   "status": "proved",
   "theorems": [
    "c24_words_as_bytes"
   ],
   "note": ""
  },
  {
   "property": "C25",
   "status": "proved",
   "theorems": [
    "c25_explicit_length",
    "c25_explicit_length_words",
    "c25_explicit_length_refuted",
    "c25_zero_length"
   ],
   "note": ""
  },
  {
   "property": "C26",
   "status": "proved",
   "theorems": [
    "c26_first_sum"
   ],
   "note": ""
  },
  {
   "property": "C27",
   "status": "proved",
   "theorems": [
    "c27_histories",
    "c27_sum_twice_refuted"
   ],
   "note": ""
  },
  {
   "property": "C28",
   "status": "proved",
   "theorems": [
    "c28_sum_bytes",
    "c28_sum_bytes_refuted"
   ],
   "note": ""
  },
  {
   "property": "C29",
   "status": "proved",
   "theorems": [
    "c29_last_byte_ignored",
    "c29_distinct_keys_refuted"
   ],
   "note": ""
  },
  {
   "property": "C30",
   "status": "proved",
   "theorems": [
    "c30_never_panics"
   ],
   "note": ""
  },
  {
   "property": "C31",
   "status": "proved",
   "theorems": [
    "c31_na_hash64",
    "c31_weak_hash",
    "c31_farm_in_bounds",
    "c31_farm_ranges"
   ],
   "note": ""
  },
  {
   "property": "C32",
   "status": "proved",
   "theorems": [
    "c32_spooky_published",
    "c32_widths_agree",
    "c32_mix_needs_twelve"
   ],
   "note": ""
  },
  {
   "property": "C33",
   "status": "proved",
   "theorems": [
    "c33_mixers_bijective",
    "c33_mix_one_word"
   ],
   "note": ""
  },
  {
   "property": "C34",
   "status": "proved",
   "theorems": [
    "c34_threefish_permutation",
    "c34_words_round_trip",
    "c34_bytes_round_trip"
   ],
   "note": ""
  },
  {
   "property": "C35",
   "status": "proved",
   "theorems": [
    "c35_new_accepts",
    "c35_new_is_threefish",
    "c35_newsize_is_zero_key",
    "c35_new64_words"
   ],
   "note": ""
  },
  {
   "property": "C36",
   "status": "proved",
   "theorems": [
    "c36_new64_block_size",
    "c36_new64_encrypt",
    "c36_new64_256_no_encryption",
    "c36_new64_same_cipher_refuted"
   ],
   "note": ""
  },
  {
   "property": "C37",
   "status": "proved",
   "theorems": [
    "c37_careful_client",
    "c37_published_sizes",
    "c37_one_buffer_in_chunks"
   ],
   "note": ""
  },
  {
   "property": "C38",
   "status": "proved",
   "theorems": [
    "c38_sum_sees_later_stores",
    "c38_write_takes_a_copy_refuted",
    "c38_next_write_overwrites_caller",
    "c38_digests_clobber_each_other"
   ],
   "note": ""
  },
  {
   "property": "C39",
   "status": "proved",
   "theorems": [
    "c39_published_permutation",
    "c39_permutation_bijective",
    "c39_round_bijective",
    "c39_blocks_distinct",
    "c39_states_distinct"
   ],
   "note": ""
  },
  {
   "property": "C40",
   "status": "proved",
   "theorems": [
    "c40_padding_injective",
    "c40_padded_length",
    "c40_code_pads_so",
    "c40_short_messages_distinct_states"
   ],
   "note": ""
  },
  {
   "property": "C41",
   "status": "proved",
   "theorems": [
    "c41_hash32_value",
    "c41_hash64_value",
    "c41_empty_key_panics",
    "c41_hash32_seeds",
    "c41_hash64_seeds",
    "c41_hash32_short_keys",
    "c41_hash64_short_keys",
    "c41_hash32_onto",
    "c41_hash64_onto",
    "c41_portable_reads"
   ],
   "note": ""
  },
  {
   "property": "C42",
   "status": "proved",
   "theorems": [
    "c42_sbox_sticky",
    "c42_crapwow_sticky"
   ],
   "note": ""
  },
  {
   "property": "C43",
   "status": "proved",
   "theorems": [
    "c43_value",
    "c43_table",
    "c43_rotations",
    "c43_lrot64_refuted"
   ],
   "note": ""
  },
  {
   "property": "C44",
   "status": "proved",
   "theorems": [
    "c44_programs",
    "c44_panics",
    "c44_published_names_refuted",
    "c44_published_names",
    "c44_announced_widths",
    "c44_seeds",
    "c44_seeds_used",
    "c44_half_seeds_used",
    "c44_seed_classes",
    "c44_farm_halves",
    "c44_farm_halves_refuted"
   ],
   "note": ""
  },
  {
   "property": "C45",
   "status": "proved",
   "theorems": [
    "c45_order",
    "c45_every_combination",
    "c45_panics"
   ],
   "note": ""
  },
  {
   "property": "C46",
   "status": "proved",
   "theorems": [
    "c46_every_file",
    "c46_lines",
    "c46_blank_panics",
    "c46_trimmed_unique",
    "c46_last_line_refuted"
   ],
   "note": ""
  },
  {
   "property": "C47",
   "status": "proved",
   "theorems": [
    "c47_neighbours",
    "c47_dups",
    "c47_mrun",
    "c47_mrun_refuted"
   ],
   "note": ""
  },
  {
   "property": "C48",
   "status": "proved",
   "theorems": [
    "c48_inverts",
    "c48_panics",
    "c48_total"
   ],
   "note": ""
  },
  {
   "property": "C49",
   "status": "proved",
   "theorems": [
    "c49_hashed_bytes",
    "c49_flip",
    "c49_flip_twice",
    "c49_flip_outside",
    "c49_sparse",
    "c49_sparse_all",
    "c49_sparse_restores_refuted"
   ],
   "note": ""
  },
  {
   "property": "C50",
   "status": "proved",
   "theorems": [
    "c50_diff"
   ],
   "note": ""
  },
  {
   "property": "C51",
   "status": "proved",
   "theorems": [
    "c51_is_siphash_2_4"
   ],
   "note": ""
  },
  {
   "property": "C52",
   "status": "proved",
   "theorems": [
    "c52_reference"
   ],
   "note": ""
  },
  {
   "property": "C53",
   "status": "proved",
   "theorems": [
    "c53_no_single_block_collision"
   ],
   "note": ""
  },
  {
   "property": "C54",
   "status": "proved",
   "theorems": [
    "c54_size",
    "c54_new64_size_refuted"
   ],
   "note": ""
  },
  {
   "property": "C55",
   "status": "proved",
   "theorems": [
    "c55_lookup3_reference"
   ],
   "note": ""
  },
  {
   "property": "C56",
   "status": "proved",
   "theorems": [
    "c56_explicit_length_in_bounds",
    "c56_words_len_bounds",
    "c56_in_bounds_refuted",
    "c56_beyond"
   ],
   "note": ""
  },
  {
   "property": "C57",
   "status": "proved",
   "theorems": [
    "c57_lookup2_variant",
    "c57_lookup2_refuted"
   ],
   "note": ""
  },
  {
   "property": "C58",
   "status": "proved",
   "theorems": [
    "c58_hash232_truncates",
    "c58_four_gigabytes"
   ],
   "note": ""
  },
  {
   "property": "C59",
   "status": "proved",
   "theorems": [
    "c59_seed_lost",
    "c59_seed_refuted"
   ],
   "note": ""
  },
  {
   "property": "C60",
   "status": "proved",
   "theorems": [
    "c60_one_shot_methods",
    "c60_two_seeds_and_write64",
    "c60_hash64_without_seed_refuted"
   ],
   "note": ""
  },
  {
   "property": "C61",
   "status": "proved",
   "theorems": [
    "c61_published",
    "c61_published_refuted",
    "c61_two_in_256",
    "c61_exact"
   ],
   "note": ""
  },
  {
   "property": "C62",
   "status": "proved",
   "theorems": [
    "c62_even_parity",
    "c62_few_results",
    "c62_onto_refuted"
   ],
   "note": ""
  },
  {
   "property": "C63",
   "status": "proved",
   "theorems": [
    "c63_seed_independent_collisions",
    "c63_collisions_everywhere"
   ],
   "note": ""
  },
  {
   "property": "C64",
   "status": "proved",
   "theorems": [
    "c64_hash64_permutes_a_word",
    "c64_no_collisions_in_hole"
   ],
   "note": ""
  },
  {
   "property": "C65",
   "status": "proved",
   "theorems": [
    "c65_first_seed_permuted"
   ],
   "note": ""
  },
  {
   "property": "C66",
   "status": "proved",
   "theorems": [
    "c66_hash32_permutes_a_word",
    "c66_hash32_is_seed_0",
    "c66_hash32_is_seed_0_refuted"
   ],
   "note": ""
  },
  {
   "property": "C67",
   "status": "proved",
   "theorems": [
    "c67_hash32_seed_independent"
   ],
   "note": ""
  },
  {
   "property": "C68",
   "status": "proved",
   "theorems": [
    "c68_byte_ignored",
    "c68_bytes_ignored",
    "c68_write_never_returns",
    "c68_too_many_bits_panics",
    "c68_too_many_rounds_panics",
    "c68_long_output_is_sponge_refuted"
   ],
   "note": ""
  },
  {
   "property": "C69",
   "status": "proved",
   "theorems": [
    "c69_value",
    "c69_seeds_collide",
    "c69_prefix_is_a_seed"
   ],
   "note": ""
  },
  {
   "property": "C70",
   "status": "proved",
   "theorems": [
    "c70_value",
    "c70_blocks_permute",
    "c70_pairs_cancel"
   ],
   "note": ""
  },
  {
   "property": "C71",
   "status": "proved",
   "theorems": [
    "c71_counter",
    "c71_never_the_same_twice",
    "c71_rest"
   ],
   "note": ""
  },
  {
   "property": "C72",
   "status": "proved",
   "theorems": [
    "c72_reverse",
    "c72_ascii",
    "c72_not_a_reversal_refuted",
    "c72_keys_distinct",
    "c72_testC_refuted"
   ],
   "note": ""
  },
  {
   "property": "C73",
   "status": "proved",
   "theorems": [
    "c73_integers",
    "c73_marching",
    "c73_three_bytes",
    "c73_dups2",
    "c73_dups2_zero"
   ],
   "note": ""
  },
  {
   "property": "C74",
   "status": "proved",
   "theorems": [
    "c74_selected",
    "c74_selected_args",
    "c74_reversal_never_runs_refuted",
    "c74_all_omits_K",
    "c74_default",
    "c74_filtered_out",
    "c74_filters_refuted",
    "c74_once_refuted"
   ],
   "note": ""
  },
  {
   "property": "C75",
   "status": "proved",
   "theorems": [
    "c75_file_tests",
    "c75_default_lines",
    "c75_blank_panics",
    "c75_too_small_panics",
    "c75_generated"
   ],
   "note": ""
  },
  {
   "property": "C76",
   "status": "proved",
   "theorems": [
    "c76_alternates",
    "c76_dru_refuted",
    "c76_testM_dru_panics"
   ],
   "note": ""
  },
  {
   "property": "C77",
   "status": "proved",
   "theorems": [
    "c77_histogram",
    "c77_testK",
    "c77_testK_refuted"
   ],
   "note": ""
  },
  {
   "property": "C78",
   "status": "proved",
   "theorems": [
    "c78_small_keys",
    "c78_small_keys_refuted",
    "c78_appended",
    "c78_zeros",
    "c78_two_nonzero",
    "c78_cyclic",
    "c78_permutation",
    "c78_permutation_total",
    "c78_text",
    "c78_text_refuted",
    "c78_text_letters",
    "c78_windowed",
    "c78_windowed_short_refuted"
   ],
   "note": ""
  },
  {
   "property": "C79",
   "status": "proved",
   "theorems": [
    "c79_check_float",
    "c79_check_same",
    "c79_check",
    "c79_check_refuted",
    "c79_small",
    "c79_two_nonzero",
    "c79_appended",
    "c79_zeros",
    "c79_seed",
    "c79_sparse",
    "c79_cyclic",
    "c79_permutation",
    "c79_text",
    "c79_windowed",
    "c79_sanity",
    "c79_labels",
    "c79_zeros_line_refuted",
    "c79_verdicts_lost_refuted"
   ],
   "note": ""
  },
  {
   "property": "C80",
   "status": "proved",
   "theorems": [
    "c80_bounds",
    "c80_silent",
    "c80_out_of_bounds",
    "c80_grid",
    "c80_flip_key",
    "c80_biased_refuted"
   ],
   "note": ""
  },
  {
   "property": "C81",
   "status": "proved",
   "theorems": [
    "c81_published_hash",
    "c81_sizes"
   ],
   "note": ""
  },
  {
   "property": "C82",
   "status": "proved",
   "theorems": [
    "c82_any_size",
    "c82_aligned",
    "c82_every_write_is_hashed_refuted",
    "c82_when"
   ],
   "note": ""
  },
  {
   "property": "C83",
   "status": "proved",
   "theorems": [
    "c83_same_as_keccakpg",
    "c83_hashf"
   ],
   "note": ""
  },
  {
   "property": "C84",
   "status": "proved",
   "theorems": [
    "c84_permutation"
   ],
   "note": ""
  },
  {
   "property": "C85",
   "status": "proved",
   "theorems": [
    "c85_bit_strings",
    "c85_bad_length",
    "c85_any_rate",
    "c85_whole_bytes"
   ],
   "note": ""
  },
  {
   "property": "C86",
   "status": "proved",
   "theorems": [
    "c86_rounded",
    "c86_error",
    "c86_empty"
   ],
   "note": ""
  },
  {
   "property": "C87",
   "status": "proved",
   "theorems": [
    "c87_range",
    "c87_from_zero",
    "c87_overshoot",
    "c87_in_range_refuted",
    "c87_reached",
    "c87_seeds",
    "c87_int63"
   ],
   "note": ""
  },
  {
   "property": "C88",
   "status": "proved",
   "theorems": [
    "c88_partner32",
    "c88_partner128",
    "c88_multi32",
    "c88_multi128",
    "c88_one_bucket"
   ],
   "note": ""
  },
  {
   "property": "C89",
   "status": "proved",
   "theorems": [
    "c89_client",
    "c89_reports",
    "c89_order",
    "c89_command",
    "c89_all_refuted",
    "c89_seed",
    "c89_narrow"
   ],
   "note": ""
  },
  {
   "property": "C90",
   "status": "proved",
   "theorems": [
    "c90_completes",
    "c90_lines",
    "c90_keys",
    "c90_varying_refuted",
    "c90_command",
    "c90_all_refuted",
    "c90_hardcoded",
    "c90_hardcoded_report"
   ],
   "note": ""
  },
  {
   "property": "C91",
   "status": "proved",
   "theorems": [
    "c91_pairs",
    "c91_driver",
    "c91_required_refuted",
    "c91_repeats",
    "c91_at_most_255"
   ],
   "note": ""
  },
  {
   "property": "C92",
   "status": "proved",
   "theorems": [
    "c92_bench32",
    "c92_bench64",
    "c92_negative",
    "c92_bench64_large",
    "c92_stu"
   ],
   "note": ""
  },
  {
   "property": "C93",
   "status": "proved",
   "theorems": [
    "c93_short32",
    "c93_short64",
    "c93_partner32",
    "c93_partner64",
    "c93_multi32",
    "c93_multi64"
   ],
   "note": ""
  },
  {
   "property": "C94",
   "status": "proved",
   "theorems": [
    "c94_assignments",
    "c94_average",
    "c94_range",
    "c94_open_addressing",
    "c94_average_dups",
    "c94_average_heads"
   ],
   "note": ""
  },
  {
   "property": "C95",
   "status": "proved",
   "theorems": [
    "c95_passing",
    "c95_shares",
    "c95_small_keys"
   ],
   "note": ""
  },
  {
   "property": "C96",
   "status": "proved",
   "theorems": [
    "c96_chained_order",
    "c96_probing_order",
    "c96_split_refuted"
   ],
   "note": ""
  },
  {
   "property": "C97",
   "status": "proved",
   "theorems": [
    "c97_probes",
    "c97_cols",
    "c97_bound"
   ],
   "note": ""
  },
  {
   "property": "C98",
   "status": "proved",
   "theorems": [
    "c98_same_table",
    "c98_short_key",
    "c98_numbering",
    "c98_silent",
    "c98_lines_chained",
    "c98_lines_probing",
    "c98_replay",
    "c98_trace_injective_refuted"
   ],
   "note": ""
  },
  {
   "property": "C99",
   "status": "proved",
   "theorems": [
    "c99_listing",
    "c99_count",
    "c99_chained",
    "c99_chained_complete_refuted",
    "c99_off"
   ],
   "note": ""
  },
  {
   "property": "C100",
   "status": "proved",
   "theorems": [
    "c100_names",
    "c100_seeded",
    "c100_unseeded",
    "c100_agrees_refuted"
   ],
   "note": ""
  },
  {
   "property": "C101",
   "status": "proved",
   "theorems": [
    "c101_jenkins",
    "c101_murmur",
    "c101_gomap",
    "c101_farm",
    "c101_halves",
    "c101_buckets",
    "c101_metro_refuted"
   ],
   "note": ""
  },
  {
   "property": "C102",
   "status": "proved",
   "theorems": [
    "c102_programs",
    "c102_panics",
    "c102_null_shape",
    "c102_null_dups",
    "c102_null_perfect"
   ],
   "note": ""
  },
  {
   "property": "C103",
   "status": "proved",
   "theorems": [
    "c103_memory",
    "c103_snapshots",
    "c103_copies_refuted",
    "c103_copies_alias",
    "c103_siphash"
   ],
   "note": ""
  },
  {
   "property": "C104",
   "status": "proved",
   "theorems": [
    "c104_average",
    "c104_spread",
    "c104_quality_chance",
    "c104_dups_spread",
    "c104_longest_chance",
    "c104_longest_least"
   ],
   "note": ""
  },
  {
   "property": "C105",
   "status": "proved",
   "theorems": [
    "c105_jenkins",
    "c105_murmur",
    "c105_gomap",
    "c105_metro",
    "c105_same_counts",
    "c105_flood",
    "c105_table"
   ],
   "note": ""
  },
  {
   "property": "C106",
   "status": "proved",
   "theorems": [
    "c106_unit",
    "c106_value",
    "c106_range"
   ],
   "note": ""
  },
  {
   "property": "C107",
   "status": "proved",
   "theorems": [
    "c107_bounds",
    "c107_worst",
    "c107_ppi",
    "c107_cpi",
    "c107_empty"
   ],
   "note": ""
  },
  {
   "property": "C108",
   "status": "proved",
   "theorems": [
    "c108_narrow",
    "c108_seed",
    "c108_crapwow_twice",
    "c108_crapwow",
    "c108_metro",
    "c108_murmur_small"
   ],
   "note": ""
  },
  {
   "property": "C109",
   "status": "proved",
   "theorems": [
    "c109_memory",
    "c109_integers",
    "c109_three_bytes",
    "c109_perfect",
    "c109_crowded",
    "c109_mod_perfect",
    "c109_mod",
    "c109_buckets",
    "c109_metro",
    "c109_three_bytes_refuted",
    "c109_integers_clash"
   ],
   "note": ""
  },
  {
   "property": "C110",
   "status": "proved",
   "theorems": [
    "c110_names",
    "c110_alone",
    "c110_safe",
    "c110_safe_ends",
    "c110_swap",
    "c110_unsafe_refuted",
    "c110_swap_seed",
    "c110_one_seed",
    "c110_torn",
    "c110_torn_j364",
    "c110_joined",
    "c110_overwrites",
    "c110_locked",
    "c110_locked_ends",
    "c110_some_name",
    "c110_renamed",
    "c110_some_name_ends"
   ],
   "note": ""
  },
  {
   "property": "C111",
   "status": "proved",
   "theorems": [
    "c111_published_hash",
    "c111_same_behaviour",
    "c111_any_size",
    "c111_repository",
    "c111_permutation",
    "c111_alignment",
    "c111_misaligned"
   ],
   "note": ""
  },
  {
   "property": "C112",
   "status": "proved",
   "theorems": [
    "c112_output",
    "c112_exact",
    "c112_completes",
    "c112_skein256",
    "c112_default_refuted",
    "c112_unaffected",
    "c112_no_tests"
   ],
   "note": ""
  },
  {
   "property": "C113",
   "status": "proved",
   "theorems": [
    "c113_size",
    "c113_hash_size",
    "c113_seed_bits",
    "c113_seed_bytes",
    "c113_seed_bytes_refuted",
    "c113_new_seed"
   ],
   "note": ""
  },
  {
   "property": "C114",
   "status": "proved",
   "theorems": [
    "c114_turned_bytes",
    "c114_little",
    "c114_big_murmur3",
    "c114_big_lookup3",
    "c114_big_lookup2",
    "c114_big_crapwow",
    "c114_big_siphashpg",
    "c114_big_spooky",
    "c114_short_keys",
    "c114_palindromes",
    "c114_murmur3_one_word",
    "c114_machine_independent_refuted",
    "c114_paths_refuted",
    "c114_streams"
   ],
   "note": ""
  },
  {
   "property": "C115",
   "status": "proved",
   "theorems": [
    "c115_width",
    "c115_check",
    "c115_small",
    "c115_appended",
    "c115_two_nonzero",
    "c115_sparse",
    "c115_permutation",
    "c115_text",
    "c115_cyclic",
    "c115_seed",
    "c115_windowed",
    "c115_fewer",
    "c115_names",
    "c115_appended_both",
    "c115_murmur_crapwow",
    "c115_collision_refuted",
    "c115_random"
   ],
   "note": ""
  },
  {
   "property": "C116",
   "status": "proved",
   "theorems": [
    "c116_two_words",
    "c116_folds",
    "c116_same",
    "c116_spooky32_refuted"
   ],
   "note": ""
  }
 ]
}