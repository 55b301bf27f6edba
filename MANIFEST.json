{
 "claims": [
  {
   "property": "C01",
   "status": "proved",
   "theorems": [
    "C01_split_combine"
   ],
   "note": ""
  },
  {
   "property": "C02",
   "status": "proved",
   "theorems": [
    "C02_split_shape"
   ],
   "note": ""
  },
  {
   "property": "C03",
   "status": "proved",
   "theorems": [
    "C03_split_errors",
    "C03_splitgeneric_errors",
    "C03_splitp_errors",
    "C03_splitwithrandomizer_errors",
    "C03_splitwithrandomizerold_errors",
    "C03_errors_iff_invalid"
   ],
   "note": ""
  },
  {
   "property": "C04",
   "status": "proved",
   "theorems": [
    "C04_secrecy",
    "C04_exact"
   ],
   "note": ""
  },
  {
   "property": "C05",
   "status": "proved",
   "theorems": [
    "C05_combine_contract"
   ],
   "note": ""
  },
  {
   "property": "C06",
   "status": "proved",
   "theorems": [
    "C06_combine_order"
   ],
   "note": ""
  },
  {
   "property": "C07",
   "status": "proved",
   "theorems": [
    "C07_combine_interpolates"
   ],
   "note": ""
  },
  {
   "property": "C08",
   "status": "proved",
   "theorems": [
    "C08_corruption_visible",
    "C08_one_part",
    "C08_zero_tag"
   ],
   "note": ""
  },
  {
   "property": "C09",
   "status": "proved",
   "theorems": [
    "C09_combine_linear"
   ],
   "note": ""
  },
  {
   "property": "C10",
   "status": "proved",
   "theorems": [
    "C10_too_few_shares"
   ],
   "note": ""
  },
  {
   "property": "C11",
   "status": "proved",
   "theorems": [
    "C11_generic_combine",
    "C11_generic_agrees",
    "C11_generic_secrecy"
   ],
   "note": ""
  },
  {
   "property": "C12",
   "status": "proved",
   "theorems": [
    "C12_any_schedule",
    "C12_no_deadlock",
    "C12_disjoint_writes",
    "C12_footprint",
    "C12_secrecy",
    "C12_run_is_splitp"
   ],
   "note": ""
  },
  {
   "property": "C13",
   "status": "proved",
   "theorems": [
    "C13_overflow"
   ],
   "note": ""
  },
  {
   "property": "C14",
   "status": "proved",
   "theorems": [
    "C14_on_polynomials",
    "C14_mix_combines",
    "C14_same_tag_same_share"
   ],
   "note": ""
  },
  {
   "property": "C15",
   "status": "proved",
   "theorems": [
    "C15_raw_tags",
    "C15_zero_tag_is_plaintext",
    "C15_any_tags_occur"
   ],
   "note": ""
  },
  {
   "property": "C16",
   "status": "proved",
   "theorems": [
    "C16_hangs",
    "C16_terminates",
    "C16_negative_panics"
   ],
   "note": ""
  },
  {
   "property": "C17",
   "status": "proved",
   "theorems": [
    "C17_contract"
   ],
   "note": ""
  },
  {
   "property": "C18",
   "status": "proved",
   "theorems": [
    "C18_randomizer_combine",
    "C18_randomizerold_combine"
   ],
   "note": ""
  },
  {
   "property": "C19",
   "status": "proved",
   "theorems": [
    "C19_large",
    "C19_old",
    "C19_small",
    "C19_three_equal_hang"
   ],
   "note": ""
  },
  {
   "property": "C20",
   "status": "proved",
   "theorems": [
    "C20_zero_tag_small",
    "C20_no_zero_tag_large",
    "C20_no_zero_tag_old"
   ],
   "note": ""
  },
  {
   "property": "C21",
   "status": "proved",
   "theorems": [
    "C21_leak",
    "C21_secrecy_fails"
   ],
   "note": ""
  },
  {
   "property": "C22",
   "status": "proved",
   "theorems": [
    "C22_read",
    "C22_reuse_old",
    "C22_reuse"
   ],
   "note": ""
  },
  {
   "property": "C23",
   "status": "proved",
   "theorems": [
    "C23_perm"
   ],
   "note": ""
  },
  {
   "property": "C24",
   "status": "proved",
   "theorems": [
    "C24_unique",
    "C24_small",
    "C24_large"
   ],
   "note": ""
  },
  {
   "property": "C25",
   "status": "proved",
   "theorems": [
    "C25_not_a_permutation",
    "C25_small"
   ],
   "note": ""
  },
  {
   "property": "C26",
   "status": "proved",
   "theorems": [
    "C26_read"
   ],
   "note": ""
  },
  {
   "property": "C27",
   "status": "proved",
   "theorems": [
    "C27_operations",
    "C27_field"
   ],
   "note": ""
  },
  {
   "property": "C28",
   "status": "proved",
   "theorems": [
    "C28_mult",
    "C28_div",
    "C28_tables"
   ],
   "note": ""
  },
  {
   "property": "C29",
   "status": "proved",
   "theorems": [
    "C29_power",
    "C29_power_small",
    "C29_negative",
    "C29_exact",
    "C29_overflow"
   ],
   "note": ""
  },
  {
   "property": "C30",
   "status": "proved",
   "theorems": [
    "C30_add_vector",
    "C30_add_vector_batch_generic",
    "C30_mul_const_vector"
   ],
   "note": ""
  },
  {
   "property": "C31",
   "status": "proved",
   "theorems": [
    "C31_generic",
    "C31_shorter_first",
    "C31_longer_first"
   ],
   "note": ""
  },
  {
   "property": "C32",
   "status": "proved",
   "theorems": [
    "C32_split_combine"
   ],
   "note": ""
  },
  {
   "property": "C33",
   "status": "proved",
   "theorems": [
    "C33_shape"
   ],
   "note": ""
  },
  {
   "property": "C34",
   "status": "proved",
   "theorems": [
    "C34_contract"
   ],
   "note": ""
  },
  {
   "property": "C35",
   "status": "proved",
   "theorems": [
    "C35_too_few"
   ],
   "note": ""
  },
  {
   "property": "C36",
   "status": "proved",
   "theorems": [
    "C36_panics"
   ],
   "note": ""
  },
  {
   "property": "C37",
   "status": "proved",
   "theorems": [
    "C37_metadata",
    "C37_whole_view"
   ],
   "note": ""
  },
  {
   "property": "C38",
   "status": "proved",
   "theorems": [
    "C38_key_published",
    "C38_sixteen_decrypt"
   ],
   "note": ""
  },
  {
   "property": "C39",
   "status": "proved",
   "theorems": [
    "C39_two_time_pad"
   ],
   "note": ""
  },
  {
   "property": "C40",
   "status": "proved",
   "theorems": [
    "C40_randomizer_combine",
    "C40_errors",
    "C40_shape"
   ],
   "note": ""
  },
  {
   "property": "C41",
   "status": "proved",
   "theorems": [
    "C41_encrypt_decrypt",
    "C41_ofb",
    "C41_prefix"
   ],
   "note": ""
  },
  {
   "property": "C42",
   "status": "proved",
   "theorems": [
    "C42_split_errors",
    "C42_combine_dispatch",
    "C42_round_trip",
    "C42_same_tags"
   ],
   "note": ""
  },
  {
   "property": "C43",
   "status": "proved",
   "theorems": [
    "C43_bounded",
    "C43_never_blocks",
    "C43_fifo",
    "C43_operations",
    "C43_exclusive",
    "C43_no_race",
    "C43_isolated"
   ],
   "note": ""
  },
  {
   "property": "C44",
   "status": "proved",
   "theorems": [
    "C44_split",
    "C44_randomizer",
    "C44_pool_bounded"
   ],
   "note": ""
  },
  {
   "property": "C45",
   "status": "proved",
   "theorems": [
    "C45_coefficients",
    "C45_leak"
   ],
   "note": ""
  },
  {
   "property": "C46",
   "status": "proved",
   "theorems": [
    "C46_split_append",
    "C46_randomizer_append",
    "C46_randomizerold_append",
    "C46_generic_independent",
    "C46_splitp_independent",
    "C46_kr_independent",
    "C46_kr_randomizer_independent"
   ],
   "note": ""
  },
  {
   "property": "C47",
   "status": "proved",
   "theorems": [
    "C47_short_panics",
    "C47_reads_iv_later",
    "C47_later_stores",
    "C47_iv_store_changes_output",
    "C47_ctr",
    "C47_new"
   ],
   "note": ""
  },
  {
   "property": "C48",
   "status": "proved",
   "theorems": [
    "C48_transpose_buffer",
    "C48_transpose"
   ],
   "note": ""
  },
  {
   "property": "C49",
   "status": "proved",
   "theorems": [
    "C49_split",
    "C49_generic",
    "C49_splitp",
    "C49_randomizer",
    "C49_randomizerold",
    "C49_format_combines"
   ],
   "note": ""
  },
  {
   "property": "C50",
   "status": "proved",
   "theorems": [
    "C50_concurrent_calls",
    "C50_concurrent_split",
    "C50_no_deadlock"
   ],
   "note": ""
  },
  {
   "property": "C51",
   "status": "proved",
   "theorems": [
    "C51_perm",
    "C51_split",
    "C51_splitgeneric",
    "C51_krawczyk",
    "C51_splitp",
    "C51_history"
   ],
   "note": ""
  },
  {
   "property": "C52",
   "status": "proved",
   "theorems": [
    "C52_recurrence",
    "C52_generic_broken",
    "C52_split_broken",
    "C52_one_share_formula"
   ],
   "note": ""
  },
  {
   "property": "C53",
   "status": "proved",
   "theorems": [
    "C53_seed_classes",
    "C53_few_results",
    "C53_few_secrets",
    "C53_csprng",
    "C53_next_bytes",
    "C53_seedrand"
   ],
   "note": ""
  },
  {
   "property": "C54",
   "status": "proved",
   "theorems": [
    "C54_amd64_mul",
    "C54_amd64_mulxor",
    "C54_amd64_xor",
    "C54_arm64",
    "C54_tables",
    "C54_deterministic",
    "C54_model_mul",
    "C54_model_xor",
    "C54_model_arm64",
    "C54_overrun"
   ],
   "note": ""
  },
  {
   "property": "C55",
   "status": "proved",
   "theorems": [
    "C55_contract"
   ],
   "note": ""
  },
  {
   "property": "C56",
   "status": "proved",
   "theorems": [
    "C56_tamper_split",
    "C56_tamper_randomizer"
   ],
   "note": ""
  },
  {
   "property": "C57",
   "status": "proved",
   "theorems": [
    "C57_targeted"
   ],
   "note": ""
  },
  {
   "property": "C58",
   "status": "proved",
   "theorems": [
    "C58_split_params",
    "C58_randomizer_params"
   ],
   "note": ""
  },
  {
   "property": "C59",
   "status": "proved",
   "theorems": [
    "C59_history_combines",
    "C59_history_tags",
    "C59_history_secrecy"
   ],
   "note": ""
  },
  {
   "property": "C60",
   "status": "proved",
   "theorems": [
    "C60_underfull",
    "C60_any_threshold"
   ],
   "note": ""
  },
  {
   "property": "C61",
   "status": "proved",
   "theorems": [
    "C61_check",
    "C61_measurements",
    "C61_empty",
    "C61_no_iv",
    "C61_main"
   ],
   "note": ""
  },
  {
   "property": "C62",
   "status": "proved",
   "theorems": [
    "C62_split",
    "C62_splitwithrandomizer",
    "C62_splitgeneric",
    "C62_combine",
    "C62_regenerate",
    "C62_keeps",
    "C62_history"
   ],
   "note": ""
  },
  {
   "property": "C63",
   "status": "proved",
   "theorems": [
    "C63_combine",
    "C63_no_stubs",
    "C63_overwrites"
   ],
   "note": ""
  },
  {
   "property": "C64",
   "status": "proved",
   "theorems": [
    "C64_split",
    "C64_splitwithrandomizer",
    "C64_old",
    "C64_history",
    "C64_splitp",
    "C64_history_splitp"
   ],
   "note": ""
  },
  {
   "property": "C65",
   "status": "proved",
   "theorems": [
    "C65_split",
    "C65_splitwithrandomizer",
    "C65_history",
    "C65_packages"
   ],
   "note": ""
  },
  {
   "property": "C66",
   "status": "proved",
   "theorems": [
    "C66_mulconstvector",
    "C66_split",
    "C66_split_blind",
    "C66_split_leak",
    "C66_combine_branches",
    "C66_combine_leak",
    "C66_asm_amd64",
    "C66_asm_arm64",
    "C66_asm_amd64_faithful",
    "C66_asm_arm64_faithful"
   ],
   "note": ""
  },
  {
   "property": "C67",
   "status": "proved",
   "theorems": [
    "C67_many_splits"
   ],
   "note": ""
  },
  {
   "property": "C68",
   "status": "proved",
   "theorems": [
    "C68_int",
    "C68_split",
    "C68_splitwithrandomizer",
    "C68_splitwithrandomizerold",
    "C68_splitgeneric"
   ],
   "note": ""
  },
  {
   "property": "C69",
   "status": "proved",
   "theorems": [
    "C69_simulator",
    "C69_reduction"
   ],
   "note": ""
  },
  {
   "property": "C70",
   "status": "proved",
   "theorems": [
    "C70_concurrent_api",
    "C70_no_deadlock"
   ],
   "note": ""
  },
  {
   "property": "C71",
   "status": "proved",
   "theorems": [
    "C71_results",
    "C71_split_ordinary",
    "C71_splitp_ordinary",
    "C71_krawczyk_ordinary",
    "C71_all_end",
    "C71_alone",
    "C71_secrecy"
   ],
   "note": ""
  },
  {
   "property": "C72",
   "status": "proved",
   "theorems": [
    "C72_large",
    "C72_small",
    "C72_zero_tag",
    "C72_no_zero_tag_large"
   ],
   "note": ""
  },
  {
   "property": "C73",
   "status": "proved",
   "theorems": [
    "C73_generic",
    "C73_old",
    "C73_randomizer",
    "C73_generic_blind",
    "C73_old_blind",
    "C73_randomizer_blind",
    "C73_generic_leak",
    "C73_old_leak",
    "C73_randomizer_leak",
    "C73_splitp",
    "C73_splitp_blind",
    "C73_splitp_leak",
    "C73_regenerate_branches",
    "C73_regenerate_leak"
   ],
   "note": ""
  },
  {
   "property": "C74",
   "status": "proved",
   "theorems": [
    "C74_bounded",
    "C74_no_leak",
    "C74_own_pool",
    "C74_no_growth",
    "C74_all_back"
   ],
   "note": ""
  },
  {
   "property": "C75",
   "status": "proved",
   "theorems": [
    "C75_reduction",
    "C75_hiding"
   ],
   "note": ""
  },
  {
   "property": "C76",
   "status": "proved",
   "theorems": [
    "C76_split",
    "C76_splitwithrandomizer",
    "C76_history",
    "C76_packages"
   ],
   "note": ""
  },
  {
   "property": "C77",
   "status": "proved",
   "theorems": [
    "C77_invertible",
    "C77_split",
    "C77_randomizer",
    "C77_encode",
    "C77_reconstruct"
   ],
   "note": ""
  },
  {
   "property": "C78",
   "status": "proved",
   "theorems": [
    "C78_history",
    "C78_seed",
    "C78_blocks"
   ],
   "note": ""
  },
  {
   "property": "C79",
   "status": "proved",
   "theorems": [
    "C79_reduction",
    "C79_hiding",
    "C79_equal_secrets"
   ],
   "note": ""
  },
  {
   "property": "C80",
   "status": "proved",
   "theorems": [
    "C80_leak_old",
    "C80_leak_large",
    "C80_secrecy_fails_old",
    "C80_secrecy_fails_large",
    "C80_key"
   ],
   "note": ""
  },
  {
   "property": "C81",
   "status": "proved",
   "theorems": [
    "C81_next_bytes",
    "C81_next_csprng",
    "C81_next_krawczyk"
   ],
   "note": ""
  },
  {
   "property": "C82",
   "status": "proved",
   "theorems": [
    "C82_agree",
    "C82_single",
    "C82_correct",
    "C82_limit"
   ],
   "note": ""
  },
  {
   "property": "C83",
   "status": "proved",
   "theorems": [
    "C83_adaptive"
   ],
   "note": ""
  },
  {
   "property": "C84",
   "status": "proved",
   "theorems": [
    "C84_few_parts",
    "C84_many_parts",
    "C84_regenerate",
    "C84_regenerate_zero",
    "C84_percent"
   ],
   "note": ""
  },
  {
   "property": "C85",
   "status": "proved",
   "theorems": [
    "C85_split",
    "C85_generic",
    "C85_splitp",
    "C85_chance",
    "C85_zero_tag"
   ],
   "note": ""
  },
  {
   "property": "C86",
   "status": "proved",
   "theorems": [
    "C86_split",
    "C86_randomizer",
    "C86_split_blind",
    "C86_split_leak",
    "C86_split_secret",
    "C86_combine_branches",
    "C86_combine_metadata",
    "C86_combine_secret"
   ],
   "note": ""
  },
  {
   "property": "C87",
   "status": "proved",
   "theorems": [
    "C87_secrecy",
    "C87_adaptive",
    "C87_recover",
    "C87_dealt",
    "C87_one_call"
   ],
   "note": ""
  },
  {
   "property": "C88",
   "status": "proved",
   "theorems": [
    "C88_combine",
    "C88_regenerate",
    "C88_regenerate_many",
    "C88_splitp",
    "C88_splitp_32"
   ],
   "note": ""
  },
  {
   "property": "C89",
   "status": "proved",
   "theorems": [
    "C89_many_splits",
    "C89_collector",
    "C89_tree",
    "C89_krawczyk",
    "C89_guessing",
    "C89_ideal",
    "C89_distance"
   ],
   "note": ""
  },
  {
   "property": "C90",
   "status": "proved",
   "theorems": [
    "C90_remainders",
    "C90_first",
    "C90_last",
    "C90_split",
    "C90_split_old"
   ],
   "note": ""
  },
  {
   "property": "C91",
   "status": "proved",
   "theorems": [
    "C91_consistent",
    "C91_one_part",
    "C91_spreads",
    "C91_steer"
   ],
   "note": ""
  },
  {
   "property": "C92",
   "status": "proved",
   "theorems": [
    "C92_split",
    "C92_randomizer",
    "C92_one_split",
    "C92_one_randomizer"
   ],
   "note": ""
  },
  {
   "property": "C93",
   "status": "proved",
   "theorems": [
    "C93_split",
    "C93_randomizer",
    "C93_resize",
    "C93_resize_randomizer"
   ],
   "note": ""
  },
  {
   "property": "C94",
   "status": "proved",
   "theorems": [
    "C94_correct_split",
    "C94_correct_randomizer",
    "C94_leave_out_split",
    "C94_leave_out_randomizer"
   ],
   "note": ""
  },
  {
   "property": "C95",
   "status": "proved",
   "theorems": [
    "C95_limit_split",
    "C95_limit_randomizer",
    "C95_agree_split",
    "C95_agree_randomizer"
   ],
   "note": ""
  }
 ]
}