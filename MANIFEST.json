{
 "claims": [
  {
   "property": "C01",
   "status": "proved",
   "theorems": [
    "C01_digits_only",
    "C01_digits_only_utf8",
    "C01_only_ascii_digits",
    "C01_idempotent"
   ],
   "note": ""
  },
  {
   "property": "C02",
   "status": "proved",
   "theorems": [
    "C02_diallable_only",
    "C02_idempotent"
   ],
   "note": ""
  },
  {
   "property": "C03",
   "status": "proved",
   "theorems": [
    "C03_convert_alpha",
    "C03_convert_alpha_ascii",
    "C03_no_letter_left",
    "C03_idempotent"
   ],
   "note": ""
  },
  {
   "property": "C04",
   "status": "proved",
   "theorems": [
    "C04_nsn_shape",
    "C04_nsn_bounded"
   ],
   "note": ""
  },
  {
   "property": "C05",
   "status": "proved",
   "theorems": [
    "C05_leading_zeros",
    "C05_limit_refuted"
   ],
   "note": "Fresh target. C05_limit_refuted shows that the bound on the length cannot be dropped."
  },
  {
   "property": "C06",
   "status": "proved",
   "theorems": [
    "C06_e164",
    "C06_e164_raw",
    "C06_independent"
   ],
   "note": ""
  },
  {
   "property": "C07",
   "status": "proved",
   "theorems": [
    "C07_same_code",
    "C07_prefix_free_codes",
    "C07_shipped_codes_prefix_free",
    "C07_shipped"
   ],
   "note": "The shipped calling codes are shown prefix free by computation over the whole table."
  },
  {
   "property": "C08",
   "status": "proved",
   "theorems": [
    "C08_international_digits",
    "C08_international_shape"
   ],
   "note": ""
  },
  {
   "property": "C09",
   "status": "proved",
   "theorems": [
    "C09_rfc3966",
    "C09_unsupported"
   ],
   "note": ""
  },
  {
   "property": "C10",
   "status": "proved",
   "theorems": [
    "C10_round_trip",
    "C10_parsed_number",
    "C10_shipped",
    "C10_refuted",
    "C10_refuted_toll_free"
   ],
   "note": "C10_round_trip: any well-formed metadata with prefix-free calling codes, any default region, any number the national-prefix step leaves alone; C10_parsed_number: a number returned by Parse comes back identical in every field; C10_shipped: all valid numbers of the shipped metadata except Japanese toll-free and Belarusian premium-rate ones (decided for every accepted digit string by exploring the product of partial derivatives of the patterns). The property as stated is false for those two groups: C10_refuted and C10_refuted_toll_free exhibit valid numbers that come back changed."
  },
  {
   "property": "C11",
   "status": "proved",
   "theorems": [
    "C11_too_long",
    "C11_empty",
    "C11_bounds",
    "C11_any_metadata",
    "C11_errors"
   ],
   "note": ""
  },
  {
   "property": "C12",
   "status": "proved",
   "theorems": [
    "C12_agree",
    "C12_shipped"
   ],
   "note": ""
  },
  {
   "property": "C13",
   "status": "proved",
   "theorems": [
    "C13_reuse_clean",
    "C13_reuse_any",
    "C13_stale_extension_refuted",
    "C13_stale_zeros_refuted"
   ],
   "note": "C13_reuse_any describes the result for every target; C13_reuse_clean adds the condition under which it equals a fresh parse. C13_stale_extension_refuted and C13_stale_zeros_refuted show that the unconditional claim is false of the code."
  },
  {
   "property": "C14",
   "status": "proved",
   "theorems": [
    "C14_symmetric"
   ],
   "note": ""
  },
  {
   "property": "C15",
   "status": "proved",
   "theorems": [
    "C15_exact_iff",
    "C15_reflexive",
    "C15_only_core_fields"
   ],
   "note": ""
  },
  {
   "property": "C16",
   "status": "proved",
   "theorems": [
    "C16_nsn_match_iff",
    "C16_short_match_iff",
    "C16_no_match_iff",
    "C16_dec_is_decimal"
   ],
   "note": ""
  },
  {
   "property": "C17",
   "status": "proved",
   "theorems": [
    "C17_main_region",
    "C17_classification",
    "C17_exclusive",
    "C17_depends_only_on_length",
    "C17_untyped",
    "C17_shipped"
   ],
   "note": ""
  },
  {
   "property": "C18",
   "status": "proved",
   "theorems": [
    "C18_cut_is_prefix",
    "C18_truncate",
    "C18_shipped",
    "C18_false_incomplete_refuted",
    "C18_false_complete"
   ],
   "note": "C18_false_incomplete_refuted: a false result does not exclude a valid prefix for codes with local-only lengths (+1 310123456 / CA 310-1234)."
  },
  {
   "property": "C19",
   "status": "proved",
   "theorems": [
    "C19_pattern_meaning",
    "C19_leading_meaning",
    "C19_valid_iff_region",
    "C19_valid_for_region",
    "C19_type_unknown_iff_invalid",
    "C19_type_is_genuine",
    "C19_shipped"
   ],
   "note": ""
  },
  {
   "property": "C20",
   "status": "proved",
   "theorems": [
    "C20_valid_is_possible",
    "C20_shipped",
    "C20_type_refuted",
    "C20_type_shipped"
   ],
   "note": "C20_type_refuted gives a counterexample to the unqualified second half; C20_type_shipped proves it outside the twelve listed pairs."
  },
  {
   "property": "C21",
   "status": "proved",
   "theorems": [
    "C21_region_of_code",
    "C21_first_claiming_region",
    "C21_single_region",
    "C21_shipped"
   ],
   "note": ""
  },
  {
   "property": "C22",
   "status": "proved",
   "theorems": [
    "C22_extract_found",
    "C22_extract_not_found",
    "C22_leading_zero"
   ],
   "note": ""
  },
  {
   "property": "C23",
   "status": "proved",
   "theorems": [
    "C23_original_digits",
    "C23_any_metadata",
    "C23_unspecified_source_refuted"
   ],
   "note": "C23_unspecified_source_refuted: a number whose source is not recorded is formatted without looking at the raw input."
  },
  {
   "property": "C24",
   "status": "proved",
   "theorems": [
    "C24_destination_code",
    "C24_area_code",
    "C24_raw_refuted"
   ],
   "note": "C24_raw_refuted: a zero number with a raw input breaks the bound."
  },
  {
   "property": "C25",
   "status": "proved",
   "theorems": [
    "C25_only_diallable",
    "C25_unsupported_refuted"
   ],
   "note": "C25_unsupported_refuted: for an unsupported code the raw input is returned unfiltered."
  },
  {
   "property": "C26",
   "status": "proved",
   "theorems": [
    "C26_emergency_iff",
    "C26_connects_iff",
    "C26_emergency_connects",
    "C26_plus",
    "C26_shipped"
   ],
   "note": ""
  },
  {
   "property": "C27",
   "status": "proved",
   "theorems": [
    "C27_region",
    "C27_any",
    "C27_shipped"
   ],
   "note": ""
  },
  {
   "property": "C28",
   "status": "proved",
   "theorems": [
    "C28_region",
    "C28_max",
    "C28_order"
   ],
   "note": ""
  },
  {
   "property": "C29",
   "status": "proved",
   "theorems": [
    "C29_matches",
    "C29_shipped",
    "C29_consumer"
   ],
   "note": "For any well-formed metadata and for the shipped metadata; the model of find has fuel, and the theorem shows it never runs out."
  },
  {
   "property": "C30",
   "status": "proved",
   "theorems": [
    "C30_bound",
    "C30_limit_refuted",
    "C30_nothing",
    "C30_prefix"
   ],
   "note": "The literal claim (at most maxTries rejected candidates) is refuted by C30_limit_refuted: with limit 1 three candidates are rejected. The corrected bound is proved."
  },
  {
   "property": "C31",
   "status": "proved",
   "theorems": [
    "C31_verified",
    "C31_neighbours"
   ],
   "note": "Includes the check of the neighbouring characters."
  },
  {
   "property": "C32",
   "status": "proved",
   "theorems": [
    "C32_idempotent",
    "C32_history",
    "C32_end"
   ],
   "note": "Stated for every history of hasNext and next calls."
  },
  {
   "property": "C33",
   "status": "proved",
   "theorems": [
    "C33_clear"
   ],
   "note": ""
  },
  {
   "property": "C34",
   "status": "proved",
   "theorems": [
    "C34_verbatim",
    "C34_nothing_invented",
    "C34_nothing_lost",
    "C34_nothing_lost_shipped",
    "C34_nothing_lost_refuted"
   ],
   "note": "Proved for any metadata that satisfies aytf_ok (and instantiated for the shipped metadata): verbatim output, nothing invented, and nothing lost for every region but AR, BO, BR, BY, CO, JP, KR. Finding (C34_nothing_lost_refuted): in BR typing 015123456789112345678222222 shows 02345678222222, twelve digits lost, because the extracted national prefix is not updated when a longer one is taken. Text starting with a full-width plus is only covered by totality and C33/C35."
  },
  {
   "property": "C35",
   "status": "proved",
   "theorems": [
    "C35_position"
   ],
   "note": ""
  },
  {
   "property": "C36",
   "status": "proved",
   "theorems": [
    "C36_result",
    "C36_no_recompile",
    "C36_once_each",
    "C36_no_race",
    "C36_no_deadlock",
    "C36_terminates",
    "C36_complete",
    "C36_same_object_refuted"
   ],
   "note": "Interleaving model of read, write and For with sync.RWMutex; the Go memory model is represented by the proof that conflicting accesses never coincide (C36_no_race). C36_same_object_refuted: overlapping first calls may return distinct objects."
  },
  {
   "property": "C37",
   "status": "proved",
   "theorems": [
    "C37_result",
    "C37_loads_once",
    "C37_failure_retried",
    "C37_no_race",
    "C37_no_deadlock",
    "C37_terminates",
    "C37_zones_result",
    "C37_zones_once",
    "C37_zones_no_deadlock",
    "C37_zones_terminates"
   ],
   "note": "Interleaving models of the mutex in the prefix mapper and of sync.Once in the time-zone lookup. C37_failure_retried records that a failed load is repeated by the next lookup."
  },
  {
   "property": "C38",
   "status": "proved",
   "theorems": [
    "C38_value_for",
    "C38_long_prefix_refuted",
    "C38_carrier",
    "C38_no_language",
    "C38_timezone",
    "C38_timezone_shipped"
   ],
   "note": "C38_long_prefix_refuted: carrier and geocoding prefixes of ten or more digits are in the table but never found, because the buffer of ten bytes includes the plus sign. C38_value_for is longest match among prefixes of at most nine digits; the shipped tables have no longer ones. The time-zone theorems have no such limit."
  },
  {
   "property": "C39",
   "status": "proved",
   "theorems": [
    "C39_round_trip",
    "C39_renders",
    "C39_order",
    "C39_limits",
    "C39_unchecked_refuted",
    "C39_total",
    "C39_shipped_regions"
   ],
   "note": "C39_unchecked_refuted: beyond the limits the builder silently truncates instead of failing. The number of digits (computed with floating point in the code) is a parameter of the decoder; C40_digit_count evaluates the code's own formula."
  },
  {
   "property": "C40",
   "status": "proved",
   "theorems": [
    "C40_round_trip",
    "C40_renders",
    "C40_order",
    "C40_total"
   ],
   "note": "MaxLength is the least bound on what the decoder's digit counter says of the keys."
  },
  {
   "property": "C41",
   "status": "proved",
   "theorems": [
    "C41_empty",
    "C41_metadata",
    "C41_supported",
    "C41_order"
   ],
   "note": "NewContainer for every collection and map: fails exactly on the empty collection, which metadata is found, what is supported, and independence of the map's iteration order."
  },
  {
   "property": "C42",
   "status": "proved",
   "theorems": [
    "C42_regions",
    "C42_main_first",
    "C42_shipped",
    "C42_no_id_refuted"
   ],
   "note": "Permutation of the territories' ids and position of the main region, for every collection whose territories have ids; the shipped map equals the builder's result on the shipped metadata; without ids the map is not faithful (refuted)."
  },
  {
   "property": "C43",
   "status": "proved",
   "theorems": [
    "C43_decodes",
    "C43_rejects",
    "C43_garbage_refuted",
    "C43_stored"
   ],
   "note": "Decoding for every list of proper items; rejection of malformed lists; stored lengths. Garbage numbers and duplicates are accepted by the code (refuted)."
  },
  {
   "property": "C44",
   "status": "proved",
   "theorems": [
    "C44_first",
    "C44_invalid",
    "C44_global",
    "C44_domain"
   ],
   "note": "Absence of out-of-range slices is C11_errors (the model's slice panics when out of range)."
  },
  {
   "property": "C45",
   "status": "proved",
   "theorems": [
    "C45_history",
    "C45_insert_delete",
    "C45_reports",
    "C45_reads",
    "C45_substring_refuted"
   ],
   "note": "The model has the slice's capacity and leaves the growth policy open. C45_substring_refuted: between length and capacity the code returns stale bytes where its comment promises a panic."
  },
  {
   "property": "C46",
   "status": "proved",
   "theorems": [
    "C46_as_you_type",
    "C46_as_you_type_shipped",
    "C46_matcher",
    "C46_verify",
    "C46_verify_refuted",
    "C46_validity",
    "C46_format",
    "C46_format_by_pattern",
    "C46_parse",
    "C46_short"
   ],
   "note": "The exported Leniency.Verify can panic for arguments that do not come from a search (C46_verify_refuted)."
  },
  {
   "property": "C47",
   "status": "proved",
   "theorems": [
    "C47_national_keeps_digits",
    "C47_argentina_refuted"
   ],
   "note": "C47_argentina_refuted shows why Argentina is excluded."
  },
  {
   "property": "C48",
   "status": "proved",
   "theorems": [
    "C48_possible_region",
    "C48_possible",
    "C48_valid_region",
    "C48_valid",
    "C48_carrier_sms"
   ],
   "note": ""
  },
  {
   "property": "C49",
   "status": "proved",
   "theorems": [
    "C49_prefix_files",
    "C49_no_conflict",
    "C49_timezone_file"
   ],
   "note": ""
  },
  {
   "property": "C50",
   "status": "proved",
   "theorems": [
    "C50_name",
    "C50_safe_name",
    "C50_lookup",
    "C50_portable"
   ],
   "note": ""
  },
  {
   "property": "C51",
   "status": "proved",
   "theorems": [
    "C51_country_name",
    "C51_unknown",
    "C51_area"
   ],
   "note": ""
  },
  {
   "property": "C52",
   "status": "proved",
   "theorems": [
    "C52_zones_of_country",
    "C52_codes_known"
   ],
   "note": ""
  },
  {
   "property": "C53",
   "status": "proved",
   "theorems": [
    "C53_nested",
    "C53_exact_in_strict_refuted"
   ],
   "note": "EXACT_GROUPING within STRICT_GROUPING is refuted (C53_exact_in_strict_refuted): +800 00000000."
  },
  {
   "property": "C54",
   "status": "proved",
   "theorems": [
    "C54_precedence",
    "C54_no_region",
    "C54_unique",
    "C54_shipped"
   ],
   "note": "For every well-formed container; the types are named by an explicit precedence list in QuerySpec.v. A toy container with overlapping patterns witnesses that the order matters."
  },
  {
   "property": "C55",
   "status": "proved",
   "theorems": [
    "C55_diallable",
    "C55_shipped",
    "C55_from_abroad"
   ],
   "note": "For every well-formed container, with the shipped instance and a number that cannot be dialled from abroad."
  },
  {
   "property": "C56",
   "status": "proved",
   "theorems": [
    "C56_geographical",
    "C56_area_code",
    "C56_no_area_code"
   ],
   "note": "For every well-formed container; the consequence for area codes is included."
  },
  {
   "property": "C57",
   "status": "proved",
   "theorems": [
    "C57_region",
    "C57_entity",
    "C57_no_pseudo_types",
    "C57_reported_type_supported",
    "C57_shipped"
   ],
   "note": "For any container (lists) and every well-formed container (reported types)."
  },
  {
   "property": "C58",
   "status": "proved",
   "theorems": [
    "C58_national_prefix",
    "C58_unknown_region",
    "C58_shipped_digits"
   ],
   "note": "For any container; digits for the shipped metadata by a check of all its regions."
  },
  {
   "property": "C59",
   "status": "proved",
   "theorems": [
    "C59_preferred",
    "C59_fallback",
    "C59_no_carrier",
    "C59_carrier",
    "C59_carrier_shown",
    "C59_dollar_refuted"
   ],
   "note": "Shipped metadata. A carrier code containing '$' is taken for a group reference: C59_dollar_refuted."
  },
  {
   "property": "C60",
   "status": "proved",
   "theorems": [
    "C60_international",
    "C60_national",
    "C60_rfc3966",
    "C60_determined"
   ],
   "note": "Shipped metadata; every rule is checked to be readable as described (RuleFacts.shipped_rules). The replacement itself is Go's regexp ReplaceAllString as modelled in Regex.v."
  },
  {
   "property": "C61",
   "status": "proved",
   "theorems": [
    "C61_out_of_country",
    "C61_unknown_region",
    "C61_digits"
   ],
   "note": "Shipped metadata for supported origins, any metadata for unknown ones."
  },
  {
   "property": "C62",
   "status": "proved",
   "theorems": [
    "C62_any_region",
    "C62_shipped"
   ],
   "note": "For any metadata in which the codes outside any region have no national prefix; shown for the shipped metadata. The witness C62_needs_plus shows that the default region does matter without a plus sign."
  },
  {
   "property": "C63",
   "status": "proved",
   "theorems": [
    "C63_exit_prefix"
   ],
   "note": "For texts of ASCII digits up to 250; the rest after the prefix does not start with 0, as in the code."
  },
  {
   "property": "C64",
   "status": "proved",
   "theorems": [
    "C64_digits",
    "C64_plus",
    "C64_determined",
    "C64_shipped"
   ],
   "note": "The rules are the relation `reads` / `reads_plus` of ReadSpec.v, proved to leave exactly one outcome (C64_determined). The region 001 is excluded for the plus sign (it has no metadata of its own; see C62)."
  },
  {
   "property": "C65",
   "status": "proved",
   "theorems": [
    "C65_separators",
    "C65_two_digits_refuted"
   ],
   "note": "With one or two digits the claim is false (C65_two_digits_refuted): \"12\" is accepted, \"1 2\" is not a number."
  },
  {
   "property": "C66",
   "status": "proved",
   "theorems": [
    "C66_international",
    "C66_rfc3966",
    "C66_shipped",
    "C66_long_extension_refuted"
   ],
   "note": "Proved from the shape of the shipped rules (only separators between the digits, checked by computation for every rule) and the behaviour of the extension pattern on text (C67); C66_long_extension_refuted shows the 9 digit limit is needed."
  },
  {
   "property": "C67",
   "status": "proved",
   "theorems": [
    "C67_extension",
    "C67_shipped",
    "C67_too_long_refuted"
   ],
   "note": "For any well-formed metadata; C67_too_long_refuted shows the limits are exact for one label."
  },
  {
   "property": "C68",
   "status": "proved",
   "theorems": [
    "C68_home",
    "C68_abroad",
    "C68_unsupported",
    "C68_local_refuted"
   ],
   "note": "Finding: a North American local number is printed as +1 and its seven digits (C68_local_refuted)."
  },
  {
   "property": "C69",
   "status": "proved",
   "theorems": [
    "C69_no_raw",
    "C69_unsupported",
    "C69_known",
    "C69_elsewhere",
    "C69_prefix_refuted",
    "C69_exit_prefixes",
    "C69_exit_digits",
    "C69_dial_tone_refuted"
   ],
   "note": "Findings: the national prefix stays when a separator stands within the first three digits (C69_prefix_refuted); the dial-tone mark of exit prefixes is not printed, unlike FormatOutOfCountryCallingNumber (C69_dial_tone_refuted)."
  },
  {
   "property": "C70",
   "status": "proved",
   "theorems": [
    "C70_by_pattern",
    "C70_unsupported",
    "C70_filled_determined",
    "C70_adjacent_refuted",
    "C70_e164_refuted"
   ],
   "note": "RFC3966 is left out. Findings: \"$FG$NP\" loses the first group (C70_adjacent_refuted); E164 text has separators and the extension (C70_e164_refuted)."
  },
  {
   "property": "C71",
   "status": "proved",
   "theorems": [
    "C71_original",
    "C71_lost_digit_refuted"
   ],
   "note": "Finding: with an unsupported calling code, origin WITHOUT_PLUS_SIGN and no raw input the first digit is lost (C71_lost_digit_refuted)."
  },
  {
   "property": "C72",
   "status": "proved",
   "theorems": [
    "C72_in_region",
    "C72_example",
    "C72_invalid",
    "C72_invalid_exists",
    "C72_any_order",
    "C72_unknown",
    "C72_entities",
    "C72_fixed_or_mobile_refuted"
   ],
   "note": "Finding: asked for FIXED_LINE_OR_MOBILE an example of a fixed line is returned (C72_fixed_or_mobile_refuted)."
  },
  {
   "property": "C73",
   "status": "proved",
   "theorems": [
    "C73_restored",
    "C73_innermost",
    "C73_order_refuted",
    "C73_shared_map_refuted"
   ],
   "note": "Findings: restoring in another order leaves a replaced container active (C73_order_refuted); GetSupportedRegions hands out the internal map, so that deleting a key makes the region unsupported (C73_shared_map_refuted)."
  },
  {
   "property": "C74",
   "status": "proved",
   "theorems": [
    "C74_shipped",
    "C74_refuted"
   ],
   "note": "All valid numbers of the shipped metadata outside the exceptions (C74_shipped). Every excepted calling code is shown to have a valid number that does not come back (C74_refuted). For 54 and 241 the exception covers the whole code although many of their numbers do come back."
  },
  {
   "property": "C75",
   "status": "proved",
   "theorems": [
    "C75_all_found",
    "C75_nothing",
    "C75_shipped",
    "C75_find_numbers",
    "C75_letter_after",
    "C75_apart_needed"
   ],
   "note": "Completeness of the search. Beyond the properties of what is found (C29 to C32). A letter or currency sign right after a number hides it from VALID on, and two numbers without plus signs separated by a space alone may be read as one: C75_letter_after and C75_apart_needed show that these conditions are needed."
  },
  {
   "property": "C76",
   "status": "proved",
   "theorems": [
    "C76_symmetric",
    "C76_symmetric_shipped",
    "C76_exact",
    "C76_one_exact",
    "C76_both",
    "C76_home",
    "C76_not_a_number",
    "C76_digits",
    "C76_printed",
    "C76_printed_same",
    "C76_zero_count_refuted",
    "C76_national",
    "C76_nongeo_refuted"
   ],
   "note": "Findings: a number of a non-geographic calling code (+800 and the like) never matches a text without calling code, not even its own digits (C76_nongeo_refuted); a number stored with the leading-zero flag and a count of 0 matches its own E.164 text only as SHORT_NSN_MATCH (C76_zero_count_refuted). C76_national is for numbers of the main region of their calling code."
  },
  {
   "property": "C77",
   "status": "proved",
   "theorems": [
    "C77_valid",
    "C77_strict",
    "C77_exact",
    "C77_search"
   ],
   "note": "Equivalences in both directions, for any metadata at VALID and for the shipped metadata at the two stricter levels. Excluded there: a number whose national number is 0 and that keeps its raw input (Format then returns the raw input, and so the groups are taken from it); STRICT_GROUPING on a text of fewer than two characters, which panics (C46)."
  },
  {
   "property": "C78",
   "status": "proved",
   "theorems": [
    "C78_dates",
    "C78_times",
    "C78_pages",
    "C78_brackets"
   ],
   "note": "For any container and alternate formats. C78_times follows the matched text to its end: a piece cut out of a candidate cannot end before a colon, because no candidate has a digit directly before a colon."
  },
  {
   "property": "C79",
   "status": "proved",
   "theorems": [
    "C79_international_any",
    "C79_international",
    "C79_no_rule_refuted"
   ],
   "note": "For any metadata whose rules pass the checks of ShowFacts (rules that are dropped early really do not apply, rules that stay before the right one print the same), and for the shipped metadata, which passes them all. Without an applying rule the texts differ by the space after the calling code (C79_no_rule_refuted)."
  },
  {
   "property": "C80",
   "status": "proved",
   "theorems": [
    "C80_adjusted",
    "C80_adjusted_shipped",
    "C80_given_up",
    "C80_own_formatting",
    "C80_unformatted",
    "C80_given_up_refuted",
    "C80_scripts_refuted"
   ],
   "note": "Strengthens C35, which only bounds the position. Two findings: the formatter may have given up and still show formatted text, so the position is wrong (C80_given_up_refuted), and digits of other scripts are never found in the output (C80_scripts_refuted)."
  },
  {
   "property": "C81",
   "status": "proved",
   "theorems": [
    "C81_regions",
    "C81_code_region",
    "C81_codes",
    "C81_nanpa",
    "C81_shipped",
    "C81_nanpa_shipped"
   ],
   "note": "Proved for any orderly collection and the container made of it, and the shipped collection is orderly."
  },
  {
   "property": "C82",
   "status": "proved",
   "theorems": [
    "C82_valid",
    "C82_type",
    "C82_one_region",
    "C82_order",
    "C82_one_region_refuted"
   ],
   "note": "Proved for all numbers by comparing the patterns of each pair of regions as deterministic automata; the seven exceptions to the last sentence are shown by witnesses."
  },
  {
   "property": "C83",
   "status": "proved",
   "theorems": [
    "C83_alpha",
    "C83_main_part",
    "C83_not_a_number",
    "C83_number"
   ],
   "note": "Full equivalence with the grammar of ViableSpec.v (code points, no regular expressions)."
  },
  {
   "property": "C84",
   "status": "proved",
   "theorems": [
    "C84_vanity",
    "C84_is_alpha",
    "C84_x_refuted"
   ],
   "note": "Vanity texts as defined in AlphaSpec.v; the X exception is C84_x_refuted."
  },
  {
   "property": "C85",
   "status": "proved",
   "theorems": [
    "C85_extension",
    "C85_main",
    "C85_same_digits_refuted"
   ],
   "note": "C85_extension gives the extension, C85_main that the rest is read from the main part. C85_same_digits_refuted: digits of an extension are not converted to ASCII, unlike those of the number, so the same text in another script is a different number and does not match."
  },
  {
   "property": "C86",
   "status": "proved",
   "theorems": [
    "C86_shown_any",
    "C86_national_any",
    "C86_shown",
    "C86_national",
    "C86_brackets_refuted"
   ],
   "note": "C86_shown/_any, C86_national/_any; C86_brackets_refuted shows where the display and the NATIONAL text differ (rules that bracket the prefix)."
  },
  {
   "property": "C87",
   "status": "proved",
   "theorems": [
    "C87_zones",
    "C87_zones_shipped",
    "C87_user_region",
    "C87_area",
    "C87_argentina",
    "C87_country_refuted"
   ],
   "note": "Country names come from golang.org/x/text and are a parameter. C87_country_refuted: a number accepted by two regions gets no country without a user region but one of the two for a user from elsewhere."
  },
  {
   "property": "C88",
   "status": "proved",
   "theorems": [
    "C88_accepted",
    "C88_descriptions",
    "C88_collection"
   ],
   "note": "Acceptance as an equivalence, the contents of every description, and the whole collection. An element without a length list is given the general lengths, like one whose lengths are the general ones. Length lists that are not well written are treated in C43."
  },
  {
   "property": "C89",
   "status": "proved",
   "theorems": [
    "C89_territory",
    "C89_alternate"
   ],
   "note": "No hypothesis on the territory. A transform rule without an expression for stripping the prefix is dropped."
  },
  {
   "property": "C90",
   "status": "proved",
   "theorems": [
    "C90_abroad_any",
    "C90_abroad",
    "C90_fixed_prefix",
    "C90_out_of_country",
    "C90_longer_prefix_refuted",
    "C90_carrier_refuted"
   ],
   "note": "Two findings: from Hong Kong the prefix 00 before a calling code beginning with 1, 2 or 6 to 9 swallows its first digit, and a carrier's prefix such as 0030 stays unformatted."
  },
  {
   "property": "C91",
   "status": "proved",
   "theorems": [
    "C91_table",
    "C91_empty",
    "C91_unlisted",
    "C91_shipped"
   ],
   "note": "Written after keeping the world entries had gone unnoticed by every theorem."
  },
  {
   "property": "C92",
   "status": "proved",
   "theorems": [
    "C92_history",
    "C92_read_once",
    "C92_failure"
   ],
   "note": "The sequential counterpart of C37, about the function itself; written after storing a table under a wrong language had gone unnoticed."
  },
  {
   "property": "C93",
   "status": "proved",
   "theorems": [
    "C93_abroad",
    "C93_home",
    "C93_hong_kong_refuted"
   ],
   "note": "Finding: from Hong Kong the text for a number in Tokyo is read there as a number in North America (C93_hong_kong_refuted). Prefixes printed with a tilde (8~10, 0~0) are not covered."
  },
  {
   "property": "C94",
   "status": "proved",
   "theorems": [
    "C94_abroad",
    "C94_home",
    "C94_argentina_refuted"
   ],
   "note": "C94_argentina_refuted shows that the exceptions of the NATIONAL text are needed."
  },
  {
   "property": "C95",
   "status": "proved",
   "theorems": [
    "C95_retype"
   ],
   "note": "C95_retype: shipped metadata. The source of the calling code is shown to be always recorded (C64), C71 gives the text, C65/C66 how it is read. The excluded cases are not known to be false: \"8~10 1 650-253-0000\" and \"011 15-2345-6789\" were computed and are read back correctly."
  },
  {
   "property": "C96",
   "status": "proved",
   "theorems": [
    "C96_plan",
    "C96_seven_digits_refuted"
   ],
   "note": "C96_plan: shipped metadata; completes C93, whose home case excludes calling code 1. C96_seven_digits_refuted: the exception."
  },
  {
   "property": "C97",
   "status": "proved",
   "theorems": [
    "C97_prefix_file",
    "C97_array_file"
   ],
   "note": "Both directions, for all byte strings, against the grammar in FileSpec.v. Decompression is not modelled."
  },
  {
   "property": "C98",
   "status": "proved",
   "theorems": [
    "C98_cut",
    "C98_cut_arrays",
    "C98_added"
   ],
   "note": "For all byte strings. The cut is in the decompressed bytes; decompression is not modelled."
  }
 ]
}