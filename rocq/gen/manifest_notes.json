{
 "C05": {
  "note": "Fresh target. C05_limit_refuted shows that the bound on the length cannot be dropped."
 },
 "C07": {
  "note": "The shipped calling codes are shown prefix free by computation over the whole table."
 },
 "C18": {
  "note": "C18_false_incomplete_refuted: a false result does not exclude a valid prefix for codes with local-only lengths (+1 310123456 / CA 310-1234)."
 },
 "C20": {
  "note": "C20_type_refuted gives a counterexample to the unqualified second half; C20_type_shipped proves it outside the twelve listed pairs."
 },
 "C23": {
  "note": "C23_unspecified_source_refuted: a number whose source is not recorded is formatted without looking at the raw input."
 },
 "C24": {
  "note": "C24_raw_refuted: a zero number with a raw input breaks the bound."
 },
 "C25": {
  "note": "C25_unsupported_refuted: for an unsupported code the raw input is returned unfiltered."
 },
 "C47": {
  "note": "C47_argentina_refuted shows why Argentina is excluded."
 },
 "C13": {
  "note": "C13_reuse_any describes the result for every target; C13_reuse_clean adds the condition under which it equals a fresh parse. C13_stale_extension_refuted and C13_stale_zeros_refuted show that the unconditional claim is false of the code."
 },
 "C44": {
  "note": "Absence of out-of-range slices is C11_errors (the model's slice panics when out of range)."
 },
 "C38": {
  "note": "C38_long_prefix_refuted: carrier and geocoding prefixes of ten or more digits are in the table but never found, because the buffer of ten bytes includes the plus sign. C38_value_for is longest match among prefixes of at most nine digits; the shipped tables have no longer ones. The time-zone theorems have no such limit."
 },
 "C39": {
  "note": "C39_unchecked_refuted: beyond the limits the builder silently truncates instead of failing. The number of digits (computed with floating point in the code) is a parameter of the decoder; C40_digit_count evaluates the code's own formula."
 },
 "C40": {
  "note": "MaxLength is the least bound on what the decoder's digit counter says of the keys."
 },
 "C36": {
  "note": "Interleaving model of read, write and For with sync.RWMutex; the Go memory model is represented by the proof that conflicting accesses never coincide (C36_no_race). C36_same_object_refuted: overlapping first calls may return distinct objects."
 },
 "C37": {
  "note": "Interleaving models of the mutex in the prefix mapper and of sync.Once in the time-zone lookup. C37_failure_retried records that a failed load is repeated by the next lookup."
 },
 "C45": {
  "note": "The model has the slice's capacity and leaves the growth policy open. C45_substring_refuted: between length and capacity the code returns stale bytes where its comment promises a panic."
 },
 "C41": {
  "note": "NewContainer for every collection and map: fails exactly on the empty collection, which metadata is found, what is supported, and independence of the map's iteration order."
 },
 "C42": {
  "note": "Permutation of the territories' ids and position of the main region, for every collection whose territories have ids; the shipped map equals the builder's result on the shipped metadata; without ids the map is not faithful (refuted)."
 },
 "C43": {
  "note": "Decoding for every list of proper items; rejection of malformed lists; stored lengths. Garbage numbers and duplicates are accepted by the code (refuted)."
 },
 "C34": {
  "note": "Proved for any metadata that satisfies aytf_ok (and instantiated for the shipped metadata): verbatim output, nothing invented, and nothing lost for every region but AR, BO, BR, BY, CO, JP, KR. Finding (C34_nothing_lost_refuted): in BR typing 015123456789112345678222222 shows 02345678222222, twelve digits lost, because the extracted national prefix is not updated when a longer one is taken. Text starting with a full-width plus is only covered by totality and C33/C35."
 },
 "C29": {
  "note": "For any well-formed metadata and for the shipped metadata; the model of find has fuel, and the theorem shows it never runs out."
 },
 "C30": {
  "note": "The literal claim (at most maxTries rejected candidates) is refuted by C30_limit_refuted: with limit 1 three candidates are rejected. The corrected bound is proved."
 },
 "C31": {
  "note": "Includes the check of the neighbouring characters."
 },
 "C32": {
  "note": "Stated for every history of hasNext and next calls."
 },
 "C53": {
  "note": "EXACT_GROUPING within STRICT_GROUPING is refuted (C53_exact_in_strict_refuted): +800 00000000."
 },
 "C46": {
  "note": "The exported Leniency.Verify can panic for arguments that do not come from a search (C46_verify_refuted)."
 },
 "C10": {
  "note": "C10_round_trip: any well-formed metadata with prefix-free calling codes, any default region, any number the national-prefix step leaves alone; C10_parsed_number: a number returned by Parse comes back identical in every field; C10_shipped: all valid numbers of the shipped metadata except Japanese toll-free and Belarusian premium-rate ones (decided for every accepted digit string by exploring the product of partial derivatives of the patterns). The property as stated is false for those two groups: C10_refuted and C10_refuted_toll_free exhibit valid numbers that come back changed."
 },
 "C54": {
  "note": "For every well-formed container; the types are named by an explicit precedence list in QuerySpec.v. A toy container with overlapping patterns witnesses that the order matters."
 },
 "C55": {
  "note": "For every well-formed container, with the shipped instance and a number that cannot be dialled from abroad."
 },
 "C56": {
  "note": "For every well-formed container; the consequence for area codes is included."
 },
 "C57": {
  "note": "For any container (lists) and every well-formed container (reported types)."
 },
 "C58": {
  "note": "For any container; digits for the shipped metadata by a check of all its regions."
 },
 "C59": {
  "note": "Shipped metadata. A carrier code containing '$' is taken for a group reference: C59_dollar_refuted."
 },
 "C60": {
  "note": "Shipped metadata; every rule is checked to be readable as described (RuleFacts.shipped_rules). The replacement itself is Go's regexp ReplaceAllString as modelled in Regex.v."
 },
 "C61": {
  "note": "Shipped metadata for supported origins, any metadata for unknown ones."
 },
 "C62": {
  "note": "For any metadata in which the codes outside any region have no national prefix; shown for the shipped metadata. The witness C62_needs_plus shows that the default region does matter without a plus sign."
 },
 "C63": {
  "note": "For texts of ASCII digits up to 250; the rest after the prefix does not start with 0, as in the code."
 },
 "C64": {
  "note": "The rules are the relation `reads` / `reads_plus` of ReadSpec.v, proved to leave exactly one outcome (C64_determined). The region 001 is excluded for the plus sign (it has no metadata of its own; see C62)."
 },
 "C65": {
  "note": "With one or two digits the claim is false (C65_two_digits_refuted): \"12\" is accepted, \"1 2\" is not a number."
 },
 "C66": {
  "note": "Proved from the shape of the shipped rules (only separators between the digits, checked by computation for every rule) and the behaviour of the extension pattern on text (C67); C66_long_extension_refuted shows the 9 digit limit is needed."
 },
 "C67": {
  "note": "For any well-formed metadata; C67_too_long_refuted shows the limits are exact for one label."
 },
 "C68": {
  "note": "Finding: a North American local number is printed as +1 and its seven digits (C68_local_refuted)."
 },
 "C69": {
  "note": "Findings: the national prefix stays when a separator stands within the first three digits (C69_prefix_refuted); the dial-tone mark of exit prefixes is not printed, unlike FormatOutOfCountryCallingNumber (C69_dial_tone_refuted)."
 },
 "C70": {
  "note": "RFC3966 is left out. Findings: \"$FG$NP\" loses the first group (C70_adjacent_refuted); E164 text has separators and the extension (C70_e164_refuted)."
 },
 "C71": {
  "note": "Finding: with an unsupported calling code, origin WITHOUT_PLUS_SIGN and no raw input the first digit is lost (C71_lost_digit_refuted)."
 },
 "C72": {
  "note": "Finding: asked for FIXED_LINE_OR_MOBILE an example of a fixed line is returned (C72_fixed_or_mobile_refuted)."
 },
 "C73": {
  "note": "Findings: restoring in another order leaves a replaced container active (C73_order_refuted); GetSupportedRegions hands out the internal map, so that deleting a key makes the region unsupported (C73_shared_map_refuted)."
 },
 "C74": {
  "note": "All valid numbers of the shipped metadata outside the exceptions (C74_shipped). Every excepted calling code is shown to have a valid number that does not come back (C74_refuted). For 54 and 241 the exception covers the whole code although many of their numbers do come back."
 },
 "C75": {
  "note": "Completeness of the search. Beyond the properties of what is found (C29 to C32). A letter or currency sign right after a number hides it from VALID on, and two numbers without plus signs separated by a space alone may be read as one: C75_letter_after and C75_apart_needed show that these conditions are needed."
 },
 "C76": {
  "note": "Findings: a number of a non-geographic calling code (+800 and the like) never matches a text without calling code, not even its own digits (C76_nongeo_refuted); a number stored with the leading-zero flag and a count of 0 matches its own E.164 text only as SHORT_NSN_MATCH (C76_zero_count_refuted). C76_national is for numbers of the main region of their calling code."
 },
 "C77": {
  "note": "Equivalences in both directions, for any metadata at VALID and for the shipped metadata at the two stricter levels. Excluded there: a number whose national number is 0 and that keeps its raw input (Format then returns the raw input, and so the groups are taken from it); STRICT_GROUPING on a text of fewer than two characters, which panics (C46)."
 },
 "C78": {
  "note": "For any container and alternate formats. C78_times follows the matched text to its end: a piece cut out of a candidate cannot end before a colon, because no candidate has a digit directly before a colon."
 },
 "C79": {
  "note": "For any metadata whose rules pass the checks of ShowFacts (rules that are dropped early really do not apply, rules that stay before the right one print the same), and for the shipped metadata, which passes them all. Without an applying rule the texts differ by the space after the calling code (C79_no_rule_refuted)."
 },
 "C80": {
  "note": "Strengthens C35, which only bounds the position. Two findings: the formatter may have given up and still show formatted text, so the position is wrong (C80_given_up_refuted), and digits of other scripts are never found in the output (C80_scripts_refuted)."
 },
 "C81": {
  "note": "Proved for any orderly collection and the container made of it, and the shipped collection is orderly."
 },
 "C82": {
  "note": "Proved for all numbers by comparing the patterns of each pair of regions as deterministic automata; the seven exceptions to the last sentence are shown by witnesses."
 },
 "C83": {
  "note": "Full equivalence with the grammar of ViableSpec.v (code points, no regular expressions)."
 },
 "C84": {
  "note": "Vanity texts as defined in AlphaSpec.v; the X exception is C84_x_refuted."
 },
 "C85": {
  "note": "C85_extension gives the extension, C85_main that the rest is read from the main part. C85_same_digits_refuted: digits of an extension are not converted to ASCII, unlike those of the number, so the same text in another script is a different number and does not match."
 },
 "C86": {
  "note": "C86_shown/_any, C86_national/_any; C86_brackets_refuted shows where the display and the NATIONAL text differ (rules that bracket the prefix)."
 },
 "C87": {
  "note": "Country names come from golang.org/x/text and are a parameter. C87_country_refuted: a number accepted by two regions gets no country without a user region but one of the two for a user from elsewhere."
 },
 "C88": {
  "note": "Acceptance as an equivalence, the contents of every description, and the whole collection. An element without a length list is given the general lengths, like one whose lengths are the general ones. Length lists that are not well written are treated in C43."
 },
 "C89": {
  "note": "No hypothesis on the territory. A transform rule without an expression for stripping the prefix is dropped."
 },
 "C90": {
  "note": "Two findings: from Hong Kong the prefix 00 before a calling code beginning with 1, 2 or 6 to 9 swallows its first digit, and a carrier's prefix such as 0030 stays unformatted."
 },
 "C91": {
  "note": "Written after keeping the world entries had gone unnoticed by every theorem."
 },
 "C92": {
  "note": "The sequential counterpart of C37, about the function itself; written after storing a table under a wrong language had gone unnoticed."
 },
 "C93": {
  "note": "Finding: from Hong Kong the text for a number in Tokyo is read there as a number in North America (C93_hong_kong_refuted). Prefixes printed with a tilde (8~10, 0~0) are not covered."
 },
 "C94": {
  "note": "C94_argentina_refuted shows that the exceptions of the NATIONAL text are needed."
 },
 "C95": {
  "note": "C95_retype: shipped metadata. The source of the calling code is shown to be always recorded (C64), C71 gives the text, C65/C66 how it is read. The excluded cases are not known to be false: \"8~10 1 650-253-0000\" and \"011 15-2345-6789\" were computed and are read back correctly."
 },
 "C96": {
  "note": "C96_plan: shipped metadata; completes C93, whose home case excludes calling code 1. C96_seven_digits_refuted: the exception."
 },
 "C97": {
  "note": "Both directions, for all byte strings, against the grammar in FileSpec.v. Decompression is not modelled."
 },
 "C98": {
  "note": "For all byte strings. The cut is in the decompressed bytes; decompression is not modelled."
 }
}