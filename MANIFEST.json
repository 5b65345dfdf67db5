{
 "claims": [
  {
   "property": "C01",
   "status": "proved",
   "theorems": [
    "C01_decode_encode",
    "C01_injective"
   ],
   "note": ""
  },
  {
   "property": "C02",
   "status": "proved",
   "theorems": [
    "C02_encode_decode",
    "C02_fixed_points",
    "C02_canonical_refuted"
   ],
   "note": "C02_canonical_refuted is the witness that is_canonical_encoding alone does not guarantee survival; the other theorems give the exact set."
  },
  {
   "property": "C03",
   "status": "proved",
   "theorems": [
    "C03_fields",
    "C03_gap_ignored",
    "C03_variant_and_condition"
   ],
   "note": ""
  },
  {
   "property": "C04",
   "status": "proved",
   "theorems": [
    "C04_panics_release",
    "C04_panics_debug",
    "C04_release_wrong_registers"
   ],
   "note": ""
  },
  {
   "property": "C05",
   "status": "proved",
   "theorems": [
    "C05_layout"
   ],
   "note": ""
  },
  {
   "property": "C06",
   "status": "proved",
   "theorems": [
    "C06_decode_encode",
    "C06_injective",
    "C06_fields",
    "C06_variant_and_condition"
   ],
   "note": ""
  },
  {
   "property": "C07",
   "status": "proved",
   "theorems": [
    "C07_encode_decode",
    "C07_canonical_refuted"
   ],
   "note": "C07_canonical_refuted is the witness of the hole; C07_encode_decode gives the exact set of surviving words."
  },
  {
   "property": "C08",
   "status": "proved",
   "theorems": [
    "C08_encoders_agree",
    "C08_decoders_agree"
   ],
   "note": ""
  },
  {
   "property": "C09",
   "status": "proved",
   "theorems": [
    "C09_canonical",
    "C09_encoded_canonical"
   ],
   "note": ""
  },
  {
   "property": "C10",
   "status": "proved",
   "theorems": [
    "C10_bytes",
    "C10_lossless"
   ],
   "note": ""
  },
  {
   "property": "C11",
   "status": "proved",
   "theorems": [
    "C11_split_pc",
    "C11_select",
    "C11_select_panics",
    "C11_fetch_program",
    "C11_end_to_end"
   ],
   "note": ""
  },
  {
   "property": "C12",
   "status": "proved",
   "theorems": [
    "C12_table",
    "C12_exact"
   ],
   "note": ""
  },
  {
   "property": "C13",
   "status": "proved",
   "theorems": [
    "C13_canonical"
   ],
   "note": ""
  },
  {
   "property": "C14",
   "status": "proved",
   "theorems": [
    "C14_any_table",
    "C14_first_index",
    "C14_agree"
   ],
   "note": ""
  },
  {
   "property": "C15",
   "status": "proved",
   "theorems": [
    "C15_extension"
   ],
   "note": ""
  },
  {
   "property": "C16",
   "status": "proved",
   "theorems": [
    "C16_test",
    "C16_extension"
   ],
   "note": ""
  },
  {
   "property": "C17",
   "status": "proved",
   "theorems": [
    "C17_meaning",
    "C17_equivalence",
    "C17_observations",
    "C17_derived_equality"
   ],
   "note": ""
  },
  {
   "property": "C18",
   "status": "proved",
   "theorems": [
    "C18_synthesis",
    "C18_counts",
    "C18_widening",
    "C18_build"
   ],
   "note": ""
  },
  {
   "property": "C19",
   "status": "proved",
   "theorems": [
    "C19_legacy"
   ],
   "note": ""
  },
  {
   "property": "C20",
   "status": "proved",
   "theorems": [
    "C20_enumeration"
   ],
   "note": ""
  },
  {
   "property": "C21",
   "status": "proved",
   "theorems": [
    "C21_bits",
    "C21_one_hot",
    "C21_injective"
   ],
   "note": ""
  },
  {
   "property": "C22",
   "status": "proved",
   "theorems": [
    "C22_slices",
    "C22_static",
    "C22_build"
   ],
   "note": ""
  },
  {
   "property": "C23",
   "status": "proved",
   "theorems": [
    "C23_widths",
    "C23_rounding",
    "C23_format",
    "C23_constants"
   ],
   "note": ""
  },
  {
   "property": "C24",
   "status": "proved",
   "theorems": [
    "C24_panic",
    "C24_nop",
    "C24_last_mask_wins",
    "C24_bitspread"
   ],
   "note": ""
  },
  {
   "property": "C25",
   "status": "proved",
   "theorems": [
    "C25_nop_encoding",
    "C25_exception_encoding",
    "C25_explicit_panic"
   ],
   "note": ""
  },
  {
   "property": "C26",
   "status": "proved",
   "theorems": [
    "C26_default_refuted"
   ],
   "note": "The expected property is false of the code; the theorem proves the actual behaviour."
  },
  {
   "property": "C27",
   "status": "proved",
   "theorems": [
    "C27_table",
    "C27_prices"
   ],
   "note": ""
  },
  {
   "property": "C28",
   "status": "proved",
   "theorems": [
    "C28_attributes",
    "C28_bits"
   ],
   "note": ""
  },
  {
   "property": "C29",
   "status": "proved",
   "theorems": [
    "C29_numbering",
    "C29_materialize",
    "C29_indices"
   ],
   "note": ""
  },
  {
   "property": "C30",
   "status": "proved",
   "theorems": [
    "C30_actual",
    "C30_refuted",
    "C30_rule"
   ],
   "note": "The expected property is false of the code: C30_refuted is the witness, C30_actual and C30_rule prove the actual behaviour."
  },
  {
   "property": "C31",
   "status": "proved",
   "theorems": [
    "C31_actual",
    "C31_refuted",
    "C31_bound"
   ],
   "note": "The expected property is false for Ptr: C31_refuted is the witness; C31_actual and C31_bound prove the exact values."
  },
  {
   "property": "C32",
   "status": "proved",
   "theorems": [
    "C32_lists",
    "C32_actual",
    "C32_refuted"
   ],
   "note": "The expected property is false for four families: C32_refuted is the witness; C32_actual gives the exact set, C32_lists the rest."
  },
  {
   "property": "C33",
   "status": "proved",
   "theorems": [
    "C33_actual",
    "C33_meaning",
    "C33_counts",
    "C33_rule"
   ],
   "note": ""
  },
  {
   "property": "C34",
   "status": "proved",
   "theorems": [
    "C34_swap",
    "C34_unused_flags"
   ],
   "note": ""
  },
  {
   "property": "C35",
   "status": "proved",
   "theorems": [
    "C35_conditions",
    "C35_numbers"
   ],
   "note": ""
  },
  {
   "property": "C36",
   "status": "proved",
   "theorems": [
    "C36_arithmetic"
   ],
   "note": ""
  },
  {
   "property": "C37",
   "status": "proved",
   "theorems": [
    "C37_nibbles"
   ],
   "note": ""
  },
  {
   "property": "C38",
   "status": "proved",
   "theorems": [
    "C38_pack",
    "C38_unpack",
    "C38_injective",
    "C38_empty"
   ],
   "note": ""
  },
  {
   "property": "C39",
   "status": "proved",
   "theorems": [
    "C39_validate",
    "C39_safety",
    "C39_tests"
   ],
   "note": ""
  },
  {
   "property": "C40",
   "status": "proved",
   "theorems": [
    "C40_layout",
    "C40_ignored"
   ],
   "note": ""
  },
  {
   "property": "C41",
   "status": "proved",
   "theorems": [
    "C41_layout",
    "C41_agreement"
   ],
   "note": ""
  },
  {
   "property": "C42",
   "status": "proved",
   "theorems": [
    "C42_layout"
   ],
   "note": ""
  },
  {
   "property": "C43",
   "status": "proved",
   "theorems": [
    "C43_inner",
    "C43_outer"
   ],
   "note": ""
  },
  {
   "property": "C44",
   "status": "proved",
   "theorems": [
    "C44_layout",
    "C44_injective"
   ],
   "note": ""
  },
  {
   "property": "C45",
   "status": "proved",
   "theorems": [
    "C45_serialize",
    "C45_parse",
    "C45_roundtrip"
   ],
   "note": ""
  },
  {
   "property": "C46",
   "status": "proved",
   "theorems": [
    "C46_stored",
    "C46_same_stored",
    "C46_markers"
   ],
   "note": ""
  },
  {
   "property": "C47",
   "status": "proved",
   "theorems": [
    "C47_hash",
    "C47_collisions",
    "C47_distinct"
   ],
   "note": ""
  },
  {
   "property": "C48",
   "status": "proved",
   "theorems": [
    "C48_actual",
    "C48_any_mode",
    "C48_refuted"
   ],
   "note": "The expected property is false in testing mode: C48_refuted is the witness, C48_actual the exact behaviour."
  },
  {
   "property": "C49",
   "status": "proved",
   "theorems": [
    "C49_text",
    "C49_capacities",
    "C49_formulas"
   ],
   "note": ""
  },
  {
   "property": "C50",
   "status": "proved",
   "theorems": [
    "C50_ceil_div"
   ],
   "note": ""
  },
  {
   "property": "C51",
   "status": "proved",
   "theorems": [
    "C51_circuits",
    "C51_limits"
   ],
   "note": ""
  },
  {
   "property": "C52",
   "status": "proved",
   "theorems": [
    "C52_stipends",
    "C52_least"
   ],
   "note": "The virtual machine is not in the repository; SpecPricing.v states its charging discipline, and prices come from the model."
  },
  {
   "property": "C53",
   "status": "proved",
   "theorems": [
    "C53_depth",
    "C53_exact",
    "C53_callers"
   ],
   "note": "The virtual machine is not in the repository; SpecPricing.v states its charging discipline, and prices come from the model."
  },
  {
   "property": "C54",
   "status": "proved",
   "theorems": [
    "C54_pages",
    "C54_bootloader",
    "C54_alignment",
    "C54_timestamps",
    "C54_exact"
   ],
   "note": "The virtual machine is not in the repository; SpecPricing.v states its charging discipline, and prices come from the model."
  },
  {
   "property": "C55",
   "status": "proved",
   "theorems": [
    "C55_embedding",
    "C55_distinct",
    "C55_ranges",
    "C55_formal",
    "C55_refuted"
   ],
   "note": "The expected deployer address is false: C55_refuted is the witness; the other theorems prove the rest and the actual value."
  },
  {
   "property": "C56",
   "status": "proved",
   "theorems": [
    "C56_deref"
   ],
   "note": ""
  },
  {
   "property": "C57",
   "status": "proved",
   "theorems": [
    "C57_versions"
   ],
   "note": ""
  },
  {
   "property": "C58",
   "status": "proved",
   "theorems": [
    "C58_variant",
    "C58_instruction",
    "C58_injective"
   ],
   "note": ""
  },
  {
   "property": "C59",
   "status": "proved",
   "theorems": [
    "C59_modes",
    "C59_operands"
   ],
   "note": ""
  },
  {
   "property": "C60",
   "status": "proved",
   "theorems": [
    "C60_descriptors",
    "C60_names"
   ],
   "note": ""
  },
  {
   "property": "C61",
   "status": "proved",
   "theorems": [
    "C61_call_registers",
    "C61_distinct",
    "C61_kinds"
   ],
   "note": ""
  },
  {
   "property": "C62",
   "status": "proved",
   "theorems": [
    "C62_instruction",
    "C62_trace",
    "C62_cycles"
   ],
   "note": ""
  },
  {
   "property": "C63",
   "status": "proved",
   "theorems": [
    "C63_tables"
   ],
   "note": ""
  },
  {
   "property": "C64",
   "status": "proved",
   "theorems": [
    "C64_reach",
    "C64_refuted",
    "C64_actual"
   ],
   "note": ""
  },
  {
   "property": "C65",
   "status": "proved",
   "theorems": [
    "C65_charges",
    "C65_overhead",
    "C65_memory",
    "C65_heap_refuted",
    "C65_pubdata"
   ],
   "note": ""
  },
  {
   "property": "C66",
   "status": "proved",
   "theorems": [
    "C66_fields",
    "C66_ranges"
   ],
   "note": ""
  },
  {
   "property": "C67",
   "status": "proved",
   "theorems": [
    "C67_flags",
    "C67_bitmask"
   ],
   "note": ""
  },
  {
   "property": "C68",
   "status": "proved",
   "theorems": [
    "C68_variants",
    "C68_parts",
    "C68_numbering",
    "C68_refuted",
    "C68_pointers"
   ],
   "note": "C68_refuted and the negated part of C68_pointers are the refuted expectations; C68_numbering gives the exact pairs that are out of order."
  },
  {
   "property": "C69",
   "status": "proved",
   "theorems": [
    "C69_fields",
    "C69_packed",
    "C69_refuted",
    "C69_unpacked"
   ],
   "note": "C69_refuted shows that packing does not preserve the order; C69_packed gives the order it produces."
  },
  {
   "property": "C70",
   "status": "proved",
   "theorems": [
    "C70_far_call",
    "C70_ret",
    "C70_calls",
    "C70_alike"
   ],
   "note": ""
  },
  {
   "property": "C71",
   "status": "proved",
   "theorems": [
    "C71_patch",
    "C71_decode",
    "C71_sequence"
   ],
   "note": ""
  },
  {
   "property": "C72",
   "status": "proved",
   "theorems": [
    "C72_run",
    "C72_deploy"
   ],
   "note": ""
  },
  {
   "property": "C73",
   "status": "proved",
   "theorems": [
    "C73_codec",
    "C73_tables",
    "C73_refuted"
   ],
   "note": "C73_refuted is the refuted expectation about table widths from 32 to 63; C73_tables gives the exact behaviour."
  },
  {
   "property": "C74",
   "status": "proved",
   "theorems": [
    "C74_text",
    "C74_panics",
    "C74_unique",
    "C74_safety",
    "C74_current"
   ],
   "note": ""
  },
  {
   "property": "C75",
   "status": "proved",
   "theorems": [
    "C75_enumeration",
    "C75_density",
    "C75_stable",
    "C75_contents",
    "C75_total",
    "C75_legacy",
    "C75_current"
   ],
   "note": ""
  },
  {
   "property": "C76",
   "status": "proved",
   "theorems": [
    "C76_widths",
    "C76_mask",
    "C76_injective",
    "C76_table",
    "C76_format",
    "C76_current"
   ],
   "note": ""
  },
  {
   "property": "C77",
   "status": "proved",
   "theorems": [
    "C77_decode",
    "C77_encode",
    "C77_decode_encode",
    "C77_encode_decode",
    "C77_injective",
    "C77_synthesised",
    "C77_width_refuted",
    "C77_current"
   ],
   "note": ""
  },
  {
   "property": "C78",
   "status": "proved",
   "theorems": [
    "C78_forward",
    "C78_words",
    "C78_program",
    "C78_bitmask",
    "C78_current"
   ],
   "note": ""
  },
  {
   "property": "C79",
   "status": "proved",
   "theorems": [
    "C79_digits",
    "C79_instructions",
    "C79_abis",
    "C79_readable",
    "C79_telling",
    "C79_one_line",
    "C79_display"
   ],
   "note": ""
  },
  {
   "property": "C80",
   "status": "proved",
   "theorems": [
    "C80_instructions",
    "C80_abis",
    "C80_unmistakable",
    "C80_sequence"
   ],
   "note": ""
  },
  {
   "property": "C81",
   "status": "proved",
   "theorems": [
    "C81_synthesis",
    "C81_legacy",
    "C81_refuted",
    "C81_bits",
    "C81_statics"
   ],
   "note": ""
  },
  {
   "property": "C82",
   "status": "proved",
   "theorems": [
    "C82_density",
    "C82_synthesis",
    "C82_widths",
    "C82_mask",
    "C82_descriptions",
    "C82_unchecked",
    "C82_current",
    "C82_refuted"
   ],
   "note": "C82_refuted is the refuted expectation about release builds; the other theorems give the behaviour."
  },
  {
   "property": "C83",
   "status": "proved",
   "theorems": [
    "C83_price",
    "C83_compiles",
    "C83_table",
    "C83_monotone",
    "C83_wrap_refuted",
    "C83_stipends",
    "C83_depth",
    "C83_depth_refuted",
    "C83_circuits",
    "C83_budget",
    "C83_work",
    "C83_current",
    "C83_slack"
   ],
   "note": "C83_wrap_refuted and C83_depth_refuted are the refuted expectations; the other theorems give the behaviour."
  },
  {
   "property": "C84",
   "status": "proved",
   "theorems": [
    "C84_encode",
    "C84_decode",
    "C84_roundtrip",
    "C84_constants",
    "C84_canonical",
    "C84_growth",
    "C84_current",
    "C84_widen",
    "C84_check_refuted"
   ],
   "note": "C84_check_refuted is the refuted expectation about the canonicity check; the other theorems give the behaviour."
  },
  {
   "property": "C85",
   "status": "proved",
   "theorems": [
    "C85_forward",
    "C85_program",
    "C85_rollback",
    "C85_unchecked_refuted",
    "C85_current"
   ],
   "note": "C85_unchecked_refuted is the refuted expectation; the other theorems give the behaviour."
  },
  {
   "property": "C86",
   "status": "proved",
   "theorems": [
    "C86_total",
    "C86_meaning",
    "C86_fixed",
    "C86_idempotent",
    "C86_normal_form",
    "C86_hash"
   ],
   "note": ""
  },
  {
   "property": "C87",
   "status": "proved",
   "theorems": [
    "C87_compress",
    "C87_digest",
    "C87_code_hash",
    "C87_production"
   ],
   "note": "The sha2 crate is external; its hasher is modelled after FIPS 180-4."
  },
  {
   "property": "C88",
   "status": "proved",
   "theorems": [
    "C88_blocks",
    "C88_paid",
    "C88_current",
    "C88_unpaid_refuted"
   ],
   "note": "C88_unpaid_refuted is the refuted expectation; C88_current gives the exact condition."
  },
  {
   "property": "C89",
   "status": "proved",
   "theorems": [
    "C89_collision",
    "C89_converse"
   ],
   "note": ""
  },
  {
   "property": "C90",
   "status": "proved",
   "theorems": [
    "C90_map",
    "C90_std",
    "C90_canonical",
    "C90_monotonic",
    "C90_names",
    "C90_encode",
    "C90_statics",
    "C90_shipped",
    "C90_entries",
    "C90_sizes",
    "C90_order_refuted",
    "C90_load_refuted"
   ],
   "note": "std::collections::HashMap is external; it is modelled as a table with open addressing. C90_order_refuted and C90_load_refuted are the refuted expectations."
  },
  {
   "property": "C91",
   "status": "proved",
   "theorems": [
    "C91_results",
    "C91_once",
    "C91_progress",
    "C91_ends",
    "C91_source",
    "C91_requests",
    "C91_circle_refuted"
   ],
   "note": "lazy_static and std::sync::Once are external; they are modelled as cells with waiting and poisoning, memory as sequentially consistent. C91_circle_refuted is the refuted expectation."
  },
  {
   "property": "C92",
   "status": "proved",
   "theorems": [
    "C92_save",
    "C92_unpriced",
    "C92_torn",
    "C92_left",
    "C92_atomic_refuted",
    "C92_silent_refuted"
   ],
   "note": "std::fs and std::io are external; a file is a string, and the operating system a list of answers. C92_atomic_refuted and C92_silent_refuted are the refuted expectations. That the crate compiles with the torn file of the latter is read off its use items, not proved."
  },
  {
   "property": "C93",
   "status": "proved",
   "theorems": [
    "C93_fetch",
    "C93_exact",
    "C93_safe",
    "C93_largest"
   ],
   "note": "The machine itself is not part of the crate; only what it can do to an instruction with the crate's functions and public fields is modelled."
  },
  {
   "property": "C94",
   "status": "proved",
   "theorems": [
    "C94_prices",
    "C94_exact",
    "C94_times",
    "C94_returns",
    "C94_messages",
    "C94_writes_refuted"
   ],
   "note": "The machine that charges the prices is not part of the crate; it is the one of C53. C94_writes_refuted is the refuted expectation."
  },
  {
   "property": "C95",
   "status": "proved",
   "theorems": [
    "C95_filled",
    "C95_transaction",
    "C95_extra",
    "C95_storage_refuted"
   ],
   "note": "Machine and circuits are not part of the crate: runs are those of C53, and the units per cycle are read off the crate's pricing comments and formulas. C95_storage_refuted assumes that a read of a new slot takes a unit of the storage application circuit."
  },
  {
   "property": "C96",
   "status": "proved",
   "theorems": [
    "C96_executed",
    "C96_circuit"
   ],
   "note": "Machine and circuit are not part of the crate: their checks are specification, the attributes, prices, tables and masks they use are the crate's."
  }
 ]
}