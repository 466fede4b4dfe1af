{
 "claims": [
  {
   "property": "C01",
   "status": "proved",
   "theorems": [
    "C01_langtag_new"
   ],
   "note": "Proved as stated."
  },
  {
   "property": "C02",
   "status": "proved",
   "theorems": [
    "C02_normal_decomposition",
    "C02_unique"
   ],
   "note": "Proved as stated."
  },
  {
   "property": "C03",
   "status": "proved",
   "theorems": [
    "C03_productions",
    "C03_direct"
   ],
   "note": "Proved as stated."
  },
  {
   "property": "C04",
   "status": "proved",
   "theorems": [
    "C04_grandfathered_new",
    "C04_registered",
    "C04_texts"
   ],
   "note": "Proved as stated."
  },
  {
   "property": "C05",
   "status": "proved",
   "theorems": [
    "C05_validation_case",
    "C05_grandfathered"
   ],
   "note": "Proved as stated."
  },
  {
   "property": "C06",
   "status": "proved",
   "theorems": [
    "C06_accepted_shape",
    "C06_non_ascii",
    "C06_decoder_irrelevant"
   ],
   "note": "Proved as stated."
  },
  {
   "property": "C07",
   "status": "proved",
   "theorems": [
    "C07_classification",
    "C07_typed_views"
   ],
   "note": "Proved as stated."
  },
  {
   "property": "C08",
   "status": "partial",
   "theorems": [
    "C08_refuted",
    "C08_exact_partial"
   ],
   "note": "False of the code: the nine regular grandfathered tags (witness zh-min) are is_normal and is_grandfathered at once. C08_exact_partial says exactly where it fails."
  },
  {
   "property": "C09",
   "status": "proved",
   "theorems": [
    "C09_language",
    "C09_language_none"
   ],
   "note": "Proved as stated."
  },
  {
   "property": "C10",
   "status": "partial",
   "theorems": [
    "C10_refuted",
    "C10_script_partial",
    "C10_script_none"
   ],
   "note": "False of the code: script() panics on a tag that is a language only (witness fr). Proved on all other normal tags, with the exact panic condition."
  },
  {
   "property": "C11",
   "status": "partial",
   "theorems": [
    "C11_refuted",
    "C11_region_partial",
    "C11_region_none"
   ],
   "note": "False of the code: region() panics on language[-script] (witness fr). Proved on all other normal tags, with the exact panic condition."
  },
  {
   "property": "C12",
   "status": "partial",
   "theorems": [
    "C12_refuted",
    "C12_variants_partial",
    "C12_variants_none"
   ],
   "note": "False of the code: variants() panics on language[-script][-region] (witness zh-Hant-TW). Proved on all other normal tags, with the exact panic condition."
  },
  {
   "property": "C13",
   "status": "partial",
   "theorems": [
    "C13_refuted",
    "C13_extensions_partial",
    "C13_extensions_none"
   ],
   "note": "False of the code: extensions() panics on a tag without extensions and private use (witness zh-Hant-TW). Proved on all other normal tags, with the exact panic condition."
  },
  {
   "property": "C14",
   "status": "partial",
   "theorems": [
    "C14_refuted",
    "C14_private_use_partial",
    "C14_exact",
    "C14_private_use_none"
   ],
   "note": "False of the code: with extensions private_use() starts at the first extension (witness fr-FR-a-ext-b-ext1-ext2), and it panics on language[-script][-region]. C14_exact: right exactly when there is no extension and the tag does not end by its region."
  },
  {
   "property": "C15",
   "status": "partial",
   "theorems": [
    "C15_refuted",
    "C15_private_use_subtags_partial",
    "C15_private_use_subtags_none"
   ],
   "note": "False of the code, as C14. Proved without extensions; the exact result with extensions is given too."
  },
  {
   "property": "C16",
   "status": "partial",
   "theorems": [
    "C16_refuted",
    "C16_exact_partial"
   ],
   "note": "False of the code (witness fr). C16_exact_partial gives the exact set of tags on which each accessor panics."
  },
  {
   "property": "C17",
   "status": "partial",
   "theorems": [
    "C17_refuted",
    "C17_partial",
    "C17_exact"
   ],
   "note": "False of the code. C17_exact: the six accessors give back the tag exactly when it has no extension and a private use sequence."
  },
  {
   "property": "C18",
   "status": "proved",
   "theorems": [
    "C18_eq_exact",
    "C18_equivalence"
   ],
   "note": "Proved as stated."
  },
  {
   "property": "C19",
   "status": "proved",
   "theorems": [
    "C19_cmp_total_order"
   ],
   "note": "Proved as stated."
  },
  {
   "property": "C20",
   "status": "partial",
   "theorems": [
    "C20_refuted",
    "C20_cmp_lex_partial",
    "C20_exact"
   ],
   "note": "False of the code: a proper prefix sorts after its extensions (witness fr, fr-FR). C20_exact gives the order for all inputs."
  },
  {
   "property": "C21",
   "status": "proved",
   "theorems": [
    "C21_hash",
    "C21_fed"
   ],
   "note": "Proved as stated."
  },
  {
   "property": "C22",
   "status": "partial",
   "theorems": [
    "C22_refuted",
    "C22_exact_partial",
    "C22_pairs_collide"
   ],
   "note": "False of the code for all types but Script, Region and ExtendedLangTag (C22_exact_partial)."
  },
  {
   "property": "C23",
   "status": "proved",
   "theorems": [
    "C23_variants_deque"
   ],
   "note": "Proved as stated."
  },
  {
   "property": "C24",
   "status": "proved",
   "theorems": [
    "C24_first_last"
   ],
   "note": "Proved as stated."
  },
  {
   "property": "C25",
   "status": "proved",
   "theorems": [
    "C25_extension_parts"
   ],
   "note": "Proved as stated."
  },
  {
   "property": "C26",
   "status": "proved",
   "theorems": [
    "C26_extensions_iter"
   ],
   "note": "Proved as stated."
  },
  {
   "property": "C27",
   "status": "proved",
   "theorems": [
    "C27_get"
   ],
   "note": "Proved as stated."
  },
  {
   "property": "C28",
   "status": "partial",
   "theorems": [
    "C28_refuted",
    "C28_each_refuted",
    "C28_partial"
   ],
   "note": "False of the code, each of its three parts (C28_each_refuted): lookup and singletons compare bytes. C28_partial: digits, and the case-blind consequences that hold."
  },
  {
   "property": "C29",
   "status": "proved",
   "theorems": [
    "C29_iter_extension"
   ],
   "note": "Proved as stated."
  },
  {
   "property": "C30",
   "status": "proved",
   "theorems": [
    "C30_private_use_iter"
   ],
   "note": "Proved as stated."
  },
  {
   "property": "C31",
   "status": "proved",
   "theorems": [
    "C31_language_parts",
    "C31_extlang_iter"
   ],
   "note": "Proved as stated."
  },
  {
   "property": "C32",
   "status": "partial",
   "theorems": [
    "C32_refuted",
    "C32_private_use_refuted",
    "C32_accessors_partial",
    "C32_language_partial",
    "C32_items",
    "C32_constants"
   ],
   "note": "False of private_use() with extensions and of Language::primary() on 4 to 8 letters (exact conditions in C32_accessors_partial, C32_language_partial); proved of every other unchecked construction."
  },
  {
   "property": "C33",
   "status": "proved",
   "theorems": [
    "C33_bytes",
    "C33_others",
    "C33_value"
   ],
   "note": "Proved as stated."
  },
  {
   "property": "C34",
   "status": "partial",
   "theorems": [
    "C34_refuted",
    "C34_partial"
   ],
   "note": "False of no-bok, no-nyn, zh-min and zh-min-nan (exactly these, C34_partial); the primary languages agree for all nine."
  },
  {
   "property": "C35",
   "status": "proved",
   "theorems": [
    "C35_accessors_case"
   ],
   "note": "Proved as stated."
  },
  {
   "property": "C36",
   "status": "proved",
   "theorems": [
    "C36_positions",
    "C36_ranges"
   ],
   "note": "Proved as stated."
  },
  {
   "property": "C37",
   "status": "proved",
   "theorems": [
    "C37_normal",
    "C37_langtag",
    "C37_others"
   ],
   "note": "Proved as stated."
  },
  {
   "property": "C38",
   "status": "proved",
   "theorems": [
    "C38_cut",
    "C38_kept",
    "C38_private"
   ],
   "note": "Proved as stated."
  },
  {
   "property": "C39",
   "status": "proved",
   "theorems": [
    "C39_composition"
   ],
   "note": "Proved as stated."
  },
  {
   "property": "C40",
   "status": "proved",
   "theorems": [
    "C40_fused",
    "C40_pieces",
    "C40_default"
   ],
   "note": "Proved as stated."
  },
  {
   "property": "C41",
   "status": "proved",
   "theorems": [
    "C41_kind",
    "C41_grandfathered",
    "C41_singleton"
   ],
   "note": "Proved as stated."
  },
  {
   "property": "C42",
   "status": "proved",
   "theorems": [
    "C42_grandfathered_eq",
    "C42_listed"
   ],
   "note": "Proved as stated."
  },
  {
   "property": "C43",
   "status": "proved",
   "theorems": [
    "C43_singleton",
    "C43_grandfathered"
   ],
   "note": "Proved as stated."
  },
  {
   "property": "C44",
   "status": "proved",
   "theorems": [
    "C44_langtag_macro"
   ],
   "note": "Proved as stated."
  },
  {
   "property": "C45",
   "status": "partial",
   "theorems": [
    "C45_refuted",
    "C45_grandfathered_order_partial"
   ],
   "note": "False of the code (witness zh-min, zh-min-nan). C45_grandfathered_order_partial: within the irregular and within the regular tags this is the only pair that fails."
  },
  {
   "property": "C46",
   "status": "proved",
   "theorems": [
    "C46_langtag_case"
   ],
   "note": "Proved as stated."
  },
  {
   "property": "C47",
   "status": "proved",
   "theorems": [
    "C47_inclusions",
    "C47_langtag_cases"
   ],
   "note": "Proved as stated."
  },
  {
   "property": "C48",
   "status": "proved",
   "theorems": [
    "C48_get_concat",
    "C48_extensions_concat",
    "C48_variants_concat"
   ],
   "note": "Proved as stated."
  },
  {
   "property": "C49",
   "status": "proved",
   "theorems": [
    "C49_language_idempotent"
   ],
   "note": "Proved as stated."
  },
  {
   "property": "C50",
   "status": "proved",
   "theorems": [
    "C50_truncate"
   ],
   "note": "Proved as stated."
  },
  {
   "property": "C51",
   "status": "proved",
   "theorems": [
    "C51_variants_collect",
    "C51_extensions_collect"
   ],
   "note": "Proved as stated."
  },
  {
   "property": "C52",
   "status": "proved",
   "theorems": [
    "C52_langtag_file",
    "C52_productions_file",
    "C52_singleton_file",
    "C52_grandfathered_file"
   ],
   "note": "Proved as stated."
  },
  {
   "property": "C53",
   "status": "proved",
   "theorems": [
    "C53_repaired",
    "C53_conservative",
    "C53_only_change"
   ],
   "note": "About a repaired version of two functions, not about the code as it is; C53_only_change ties it to the model of the code."
  },
  {
   "property": "C54",
   "status": "proved",
   "theorems": [
    "C54_walk_language",
    "C54_walk_variants",
    "C54_walk_extensions"
   ],
   "note": "Proved as stated."
  },
  {
   "property": "C55",
   "status": "proved",
   "theorems": [
    "C55_accessors_tell"
   ],
   "note": "Proved as stated."
  },
  {
   "property": "C56",
   "status": "proved",
   "theorems": [
    "C56_prefix_range",
    "C56_prefix_last"
   ],
   "note": "Proved as stated."
  },
  {
   "property": "C57",
   "status": "proved",
   "theorems": [
    "C57_validate",
    "C57_case",
    "C57_accessors",
    "C57_iterators",
    "C57_get"
   ],
   "note": "Proved as stated."
  },
  {
   "property": "C58",
   "status": "proved",
   "theorems": [
    "C58_new",
    "C58_grandfathered",
    "C58_case",
    "C58_accessors",
    "C58_langtag",
    "C58_segments",
    "C58_variants",
    "C58_extensions"
   ],
   "note": "Proved as stated."
  },
  {
   "property": "C59",
   "status": "proved",
   "theorems": [
    "C59_runs",
    "C59_every_function",
    "C59_deterministic"
   ],
   "note": "Proved as stated."
  },
  {
   "property": "C60",
   "status": "proved",
   "theorems": [
    "C60_new",
    "C60_singleton",
    "C60_grandfathered"
   ],
   "note": "Proved as stated."
  },
  {
   "property": "C61",
   "status": "proved",
   "theorems": [
    "C61_accessors",
    "C61_not_normal"
   ],
   "note": "Proved as stated."
  },
  {
   "property": "C62",
   "status": "proved",
   "theorems": [
    "C62_comparisons"
   ],
   "note": "Proved as stated."
  },
  {
   "property": "C63",
   "status": "proved",
   "theorems": [
    "C63_variants",
    "C63_extensions",
    "C63_extension",
    "C63_private_use",
    "C63_language"
   ],
   "note": "Proved as stated."
  },
  {
   "property": "C64",
   "status": "proved",
   "theorems": [
    "C64_classification"
   ],
   "note": "Proved as stated."
  },
  {
   "property": "C65",
   "status": "proved",
   "theorems": [
    "C65_exported",
    "C65_same",
    "C65_says",
    "C65_every_function",
    "C65_new",
    "C65_accessors",
    "C65_exists"
   ],
   "note": "Proved as stated."
  },
  {
   "property": "C66",
   "status": "proved",
   "theorems": [
    "C66_ordered_map",
    "C66_hash_map"
   ],
   "note": "Proved as stated."
  },
  {
   "property": "C67",
   "status": "proved",
   "theorems": [
    "C67_sort",
    "C67_unique",
    "C67_dedup",
    "C67_search"
   ],
   "note": "Proved as stated."
  },
  {
   "property": "C68",
   "status": "proved",
   "theorems": [
    "C68_unique",
    "C68_components"
   ],
   "note": "Proved as stated."
  },
  {
   "property": "C69",
   "status": "partial",
   "theorems": [
    "C69_refuted",
    "C69_exact_partial",
    "C69_tags"
   ],
   "note": "False of lists that repeat a singleton (witness a-bb-a-cc); C69_exact_partial: true exactly when equal singletons mean equal extensions."
  },
  {
   "property": "C70",
   "status": "proved",
   "theorems": [
    "C70_language",
    "C70_subtags"
   ],
   "note": "Proved as stated."
  },
  {
   "property": "C71",
   "status": "proved",
   "theorems": [
    "C71_ends",
    "C71_closure",
    "C71_source"
   ],
   "note": "Proved as stated."
  },
  {
   "property": "C72",
   "status": "proved",
   "theorems": [
    "C72_patch",
    "C72_same",
    "C72_conservative",
    "C72_accessors",
    "C72_not_normal",
    "C72_never_panics"
   ],
   "note": "About the text of the files with two places of normal/mod.rs changed (C72_patch says which), not about the code as it is."
  },
  {
   "property": "C73",
   "status": "proved",
   "theorems": [
    "C73_offered",
    "C73_texts",
    "C73_singletons",
    "C73_utf8",
    "C73_calls",
    "C73_patched_calls",
    "C73_patched_texts"
   ],
   "note": "Proved as stated; what str_newtype generates besides new (conversions to and from owned and borrowed strings) is not among the calls."
  },
  {
   "property": "C74",
   "status": "proved",
   "theorems": [
    "C74_counter",
    "C74_functions",
    "C74_public",
    "C74_new",
    "C74_iterators"
   ],
   "note": "Proved as stated; constants are upper bounds, not least. find_list_end, which calls the closure it is given, is counted in its callers."
  },
  {
   "property": "C75",
   "status": "proved",
   "theorems": [
    "C75_generator",
    "C75_right",
    "C75_same",
    "C75_new"
   ],
   "note": "Proved as stated."
  },
  {
   "property": "C76",
   "status": "proved",
   "theorems": [
    "C76_arms",
    "C76_accepting",
    "C76_once",
    "C76_fewest",
    "C76_regular",
    "C76_language_tag"
   ],
   "note": "Proved as stated."
  },
  {
   "property": "C77",
   "status": "proved",
   "theorems": [
    "C77_macro",
    "C77_tests",
    "C77_example",
    "C77_fuel"
   ],
   "note": "Proved as stated."
  },
  {
   "property": "C78",
   "status": "proved",
   "theorems": [
    "C78_used",
    "C78_unused"
   ],
   "note": "Proved as stated."
  },
  {
   "property": "C79",
   "status": "proved",
   "theorems": [
    "C79_noticed",
    "C79_silent",
    "C79_same"
   ],
   "note": "Proved as stated."
  },
  {
   "property": "C80",
   "status": "proved",
   "theorems": [
    "C80_replace",
    "C80_source"
   ],
   "note": "Proved as stated."
  }
 ]
}
