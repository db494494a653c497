{"id": "C01", "title": "NormalizeDigitsOnly keeps exactly the decimal digits", "statement": "NormalizeDigitsOnly(s) returns exactly the values, as ASCII digits and in order, of the Unicode decimal digits (category Nd) occurring in s, and nothing else; applying it twice is the same as applying it once.", "quantifier": "every byte string s, including invalid UTF-8 and every Nd block of Unicode", "why_tests_cant": "the input space is all strings over all of Unicode; tests sample a few scripts", "anchors": ["phonenumberutil.go:NormalizeDigitsOnly", "phonenumberutil.go:normalizeDigits", "internal/character/character.go:Digit"]}
{"id": "C02", "title": "NormalizeDiallableCharsOnly keeps exactly the diallable characters", "statement": "NormalizeDiallableCharsOnly(s) returns the subsequence of s made of the characters 0-9 + * # and nothing else; it is idempotent.", "quantifier": "every byte string s", "why_tests_cant": "infinitely many strings", "anchors": ["phonenumberutil.go:NormalizeDiallableCharsOnly", "phonenumberutil.go:normalizeHelper", "phonenumberutil.go:diallableCharMappings"]}
{"id": "C03", "title": "ConvertAlphaCharactersInNumber replaces letters by keypad digits and nothing else", "statement": "In ConvertAlphaCharactersInNumber(s) every ASCII letter is replaced by its ITU keypad digit, every other ASCII character is unchanged and keeps its place, no ASCII letter is left, and the function is idempotent.", "quantifier": "every byte string s", "why_tests_cant": "infinitely many strings; the property is about every character and every position", "anchors": ["phonenumberutil.go:ConvertAlphaCharactersInNumber", "phonenumberutil.go:normalizeHelper", "phonenumberutil.go:alphaPhoneMappings"]}
{"id": "C04", "title": "GetNationalSignificantNumber is zeros followed by the decimal national number, with a bounded length", "statement": "GetNationalSignificantNumber(n) is k zeros followed by the shortest decimal representation of the national number, where k is 0 unless the leading-zero flag is set and the zero count is positive, and then k is min(count,17); so the result is never longer than 37 bytes whatever count a caller or a wire message supplies.", "quantifier": "every PhoneNumber value, including hostile leading-zero counts in the whole int32 range", "why_tests_cant": "the field is attacker controlled; 2^32 counts times 2^64 numbers", "anchors": ["phonenumberutil.go:GetNationalSignificantNumber"]}
{"id": "C05", "title": "Leading zeros survive storing a national number in a PhoneNumber", "statement": "For every string of 1 to 17 ASCII digits, storing it in a fresh PhoneNumber the way parsing does (leading-zero fields plus the integer value) and reading it back with GetNationalSignificantNumber returns the same string.", "quantifier": "every digit string of length 1..17, including all-zero strings", "why_tests_cant": "10^17 strings; the interesting ones are the corner cases of the all-zero and single-zero rule", "anchors": ["phonenumberutil.go:setItalianLeadingZerosForPhoneNumber", "phonenumberutil.go:parseHelper", "phonenumberutil.go:GetNationalSignificantNumber"]}
{"id": "C06", "title": "E.164 formatting is exactly plus, country code, national significant number", "statement": "Format(n, E164) is '+' followed by the decimal country code followed by GetNationalSignificantNumber(n), with no other character, and does not depend on extension, raw input, country code source or carrier code (except for the documented case of national number 0 with a raw input, when the raw input is returned).", "quantifier": "every PhoneNumber value and every metadata container", "why_tests_cant": "the record has eight optional fields; independence of four of them is a statement about all values", "anchors": ["phonenumberutil.go:Format", "phonenumberutil.go:formatWithBuf", "phonenumberutil.go:prefixNumberWithCountryCallingCode"]}
{"id": "C07", "title": "E.164 strings identify numbers", "statement": "Two numbers with non-zero national number, the same country code and the same E.164 string have the same national significant number; with a country-code set in which no code is a prefix of another, the same E.164 string implies the same country code as well.", "quantifier": "every pair of PhoneNumber values", "why_tests_cant": "a statement about all pairs", "anchors": ["phonenumberutil.go:Format", "phonenumberutil.go:GetNationalSignificantNumber"]}
{"id": "C08", "title": "INTERNATIONAL formatting never loses, adds or reorders a digit", "statement": "For every number with a supported calling code (other than a zero number carrying a raw input, which is echoed), the digits of Format(n, INTERNATIONAL) are, in order, those of the country code, then those of the national significant number, then those of the extension; only ASCII separators are put in between.", "quantifier": "every PhoneNumber value with a supported country calling code; every formatting rule of the shipped metadata", "why_tests_cant": "the result depends on which of 900 regular-expression rules is selected for each of 10^17 numbers per country", "anchors": ["phonenumberutil.go:formatNsn", "phonenumberutil.go:formatNsnUsingPatternWithCarrier", "phonenumberutil.go:chooseFormattingPatternForNumber", "metadata/data/metadata.xml.gz"]}
{"id": "C09", "title": "RFC3966 formatting has the tel: shape", "statement": "For every number with a supported calling code (other than a zero number carrying a raw input), Format(n, RFC3966) is 'tel:+' country code '-' followed by non-empty digit groups joined by '-' whose concatenation is the national significant number, followed by ';ext=' and the extension exactly when a non-empty extension is present.", "quantifier": "every PhoneNumber value", "why_tests_cant": "the national part is computed by regular-expression rewriting of every possible number", "anchors": ["phonenumberutil.go:Format", "phonenumberutil.go:formatNsnUsingPatternWithCarrier", "phonenumberutil.go:maybeAppendFormattedExtension"]}
{"id": "C10", "title": "A number parsed from its own E.164 string comes back unchanged", "statement": "If n is valid then Parse(Format(n,E164), anything) succeeds and gives the same country code and the same national significant number, with two exceptions in the shipped metadata that are themselves proved: Japanese toll-free and Belarusian premium-rate numbers can lose leading digits. A number without extension that Parse itself returned, and whose national digits do not look like a national prefix followed by a number, comes back identical in every field.", "quantifier": "every valid number of every region in the shipped metadata and every default region", "why_tests_cant": "10^11 or more valid numbers; the failure cases are numbers whose first digits look like a national prefix", "anchors": ["phonenumberutil.go:Parse", "phonenumberutil.go:maybeExtractCountryCode", "phonenumberutil.go:maybeStripNationalPrefixAndCarrierCode"]}
{"id": "C11", "title": "What Parse accepts", "statement": "Parse rejects input of more than 250 bytes with ErrNumTooLong and leaves the target untouched; every successful parse has a national significant number of 2 to 17 ASCII digits and a calling code the library supports; parsing never panics, and every failure is one of the five documented errors. (A failing Parse still returns a non-nil, possibly partly filled number beside the error.)", "quantifier": "every byte string, every region code and every metadata container", "why_tests_cant": "all strings, including adversarial Unicode", "anchors": ["phonenumberutil.go:Parse", "phonenumberutil.go:parseHelper"]}
{"id": "C12", "title": "Parse and ParseAndKeepRawInput agree", "statement": "Parse(s,r) and ParseAndKeepRawInput(s,r) fail with the same error or both succeed; on success the country code, national number, extension and leading-zero fields are equal, and ParseAndKeepRawInput additionally stores s itself as raw input.", "quantifier": "every string and every region", "why_tests_cant": "equality of two code paths over all inputs", "anchors": ["phonenumberutil.go:Parse", "phonenumberutil.go:ParseAndKeepRawInput", "phonenumberutil.go:parseHelper"]}
{"id": "C13", "title": "ParseToNumber gives the same number whatever the target held before", "statement": "Parsing into an existing number succeeds or fails exactly as parsing into a fresh one does, and gives the same country code, national number and leading-zero flag whatever the target held before. The extension and the number of leading zeros are those of a fresh parse too if the target had none. (Without that last condition the claim is false: stale values survive.)", "quantifier": "every string, every region and every previous content of the PhoneNumber", "why_tests_cant": "a history property: it depends on an arbitrary earlier value", "anchors": ["phonenumberutil.go:ParseToNumber", "phonenumberutil.go:parseHelper", "phonenumberutil.go:setItalianLeadingZerosForPhoneNumber"]}
{"id": "C14", "title": "Number match is symmetric", "statement": "IsNumberMatchWithNumbers(a,b) = IsNumberMatchWithNumbers(b,a).", "quantifier": "every pair of PhoneNumber values", "why_tests_cant": "all pairs", "anchors": ["phonenumberutil.go:IsNumberMatchWithNumbers", "phonenumberutil.go:isNationalNumberSuffixOfTheOther"]}
{"id": "C15", "title": "EXACT_MATCH means equal numbers, and only the documented fields matter", "statement": "IsNumberMatchWithNumbers(a,b) is EXACT_MATCH iff country codes are non-zero and country code, national number, leading zeros and extension are equal; a number with a country code matches itself exactly; raw input, country code source and preferred carrier code never influence the result.", "quantifier": "every pair of PhoneNumber values", "why_tests_cant": "all pairs; the negative part (no other field matters) cannot be sampled", "anchors": ["phonenumberutil.go:IsNumberMatchWithNumbers", "phonenumberutil.go:copyCoreFieldsOnly"]}
{"id": "C16", "title": "Match levels are ordered as documented", "statement": "NSN_MATCH is returned exactly when at least one country code is 0 and the national numbers and leading zeros agree and extensions do not differ; SHORT_NSN_MATCH only if one national significant number is a suffix of the other; different non-empty extensions are always NO_MATCH.", "quantifier": "every pair of PhoneNumber values", "why_tests_cant": "all pairs", "anchors": ["phonenumberutil.go:IsNumberMatchWithNumbers"]}
{"id": "C17", "title": "Possible-length classification is complete and exclusive", "statement": "For a region and number type, IsPossibleNumberForTypeWithReason depends only on the country code and the length of the national significant number and returns IS_POSSIBLE iff the length is an allowed one, IS_POSSIBLE_LOCAL_ONLY iff it is a local-only one, TOO_SHORT iff it is below the smallest, TOO_LONG iff above the largest and INVALID_LENGTH otherwise; for FIXED_LINE_OR_MOBILE the allowed lengths are the union.", "quantifier": "every number, every number type and every length table", "why_tests_cant": "all tables and lengths, including merging of two sorted tables", "anchors": ["phonenumberutil.go:testNumberLength", "phonenumberutil.go:mergeLengths", "phonenumberutil.go:IsPossibleNumberForTypeWithReason"]}
{"id": "C18", "title": "TruncateTooLongNumber", "statement": "TruncateTooLongNumber(n) terminates; if it returns false n is unchanged; if it returns true the result is valid, its national number is a decimal prefix of the old one, no longer prefix is valid, and no other field changed. A false result means that no prefix is valid when the code has no local-only lengths (without that proviso it does not).", "quantifier": "every PhoneNumber value", "why_tests_cant": "a loop over all numbers, relating the result to every skipped candidate", "anchors": ["phonenumberutil.go:TruncateTooLongNumber"]}
{"id": "C19", "title": "Validity, type and region agree", "statement": "IsValidNumber(n) holds iff GetRegionCodeForNumber(n) is some region r and IsValidNumberForRegion(n,r); GetNumberType(n) is UNKNOWN for every invalid number, and not UNKNOWN for every valid one.", "quantifier": "every PhoneNumber value over the shipped metadata", "why_tests_cant": "all numbers of all regions", "anchors": ["phonenumberutil.go:IsValidNumber", "phonenumberutil.go:GetRegionCodeForNumber", "phonenumberutil.go:GetNumberType", "phonenumberutil.go:getNumberTypeHelper"]}
{"id": "C20", "title": "Valid numbers are possible numbers", "statement": "IsValidNumber(n) implies IsPossibleNumber(n). A valid number of type t is possible for type t, except for numbers of twelve (region, type) pairs of codes +1 and +7 for which the main region of the code has no numbers of that type (the unqualified claim is false of the code).", "quantifier": "every PhoneNumber value over the shipped metadata", "why_tests_cant": "relates two different tables of the metadata for all numbers", "anchors": ["phonenumberutil.go:IsValidNumber", "phonenumberutil.go:IsPossibleNumber", "phonenumberutil.go:isNumberMatchingDesc"]}
{"id": "C21", "title": "GetRegionCodeForNumber returns a region of the number's country code", "statement": "If GetRegionCodeForNumber(n) is not empty it is one of GetRegionCodesForCountryCode(country code of n), and it is the first one in that order whose leading digits or number patterns accept the number.", "quantifier": "every PhoneNumber value, every container", "why_tests_cant": "first-match semantics over all numbers", "anchors": ["phonenumberutil.go:GetRegionCodeForNumber", "phonenumberutil.go:getRegionCodeForNumberFromRegionList"]}
{"id": "C22", "title": "Country code extraction", "statement": "Extracting a country calling code from a digit string splits it without changing it: when a code is found, code and remainder concatenate to the input, the code is supported, has at most three digits and no shorter prefix of the input is supported; when none is found the number is unchanged; a leading 0 never yields a code.", "quantifier": "every digit string and every set of supported codes", "why_tests_cant": "all strings", "anchors": ["phonenumberutil.go:extractCountryCode"]}
{"id": "C23", "title": "FormatInOriginalFormat never changes the digits the user typed", "statement": "For a non-zero number carrying a raw input and a recorded country code source, the diallable characters of FormatInOriginalFormat(n,r) are those of the raw input. (With an unspecified source the raw input is ignored.)", "quantifier": "every PhoneNumber value carrying a raw input and every region", "why_tests_cant": "the documented guarantee is about every input", "anchors": ["phonenumberutil.go:FormatInOriginalFormat"]}
{"id": "C24", "title": "GetLengthOfNationalDestinationCode and GetLengthOfGeographicalAreaCode can be used to slice", "statement": "0 <= GetLengthOfGeographicalAreaCode(n) <= len(GetNationalSignificantNumber(n)) and the same for GetLengthOfNationalDestinationCode, so the documented slicing example cannot panic; except for a zero number carrying a raw input.", "quantifier": "every PhoneNumber value", "why_tests_cant": "all numbers and formatting rules", "anchors": ["phonenumberutil.go:GetLengthOfGeographicalAreaCode", "phonenumberutil.go:GetLengthOfNationalDestinationCode"]}
{"id": "C25", "title": "Mobile dialing without formatting yields only diallable characters", "statement": "For a supported calling code, FormatNumberForMobileDialing(n, r, false) contains only the characters 0-9 + * #. (For an unsupported code the raw input is echoed.)", "quantifier": "every PhoneNumber value and every region", "why_tests_cant": "all numbers", "anchors": ["phonenumberutil.go:FormatNumberForMobileDialing"]}
{"id": "C26", "title": "Emergency numbers connect", "statement": "IsEmergencyNumber(s,r) implies ConnectsToEmergencyNumber(s,r); inputs starting with a plus sign never do.", "quantifier": "every string and region", "why_tests_cant": "relates two matching modes over all strings", "anchors": ["shortnumberinfo.go:IsEmergencyNumber", "shortnumberinfo.go:ConnectsToEmergencyNumber"]}
{"id": "C27", "title": "Valid short numbers are possible short numbers", "statement": "IsValidShortNumberForRegion(n,r) implies IsPossibleShortNumberForRegion(n,r), and IsValidShortNumber(n) implies IsPossibleShortNumber(n).", "quantifier": "every PhoneNumber value over the shipped short-number metadata", "why_tests_cant": "all numbers", "anchors": ["shortnumberinfo.go:IsValidShortNumberForRegion", "shortnumberinfo.go:IsPossibleShortNumberForRegion"]}
{"id": "C28", "title": "Short number cost is the most expensive over the regions", "statement": "GetExpectedCost(n) is the maximum, in the order toll free < standard < unknown < premium, of the costs in the regions of the country code, except that it is UNKNOWN when there is none, and does not depend on the order of those regions.", "quantifier": "every PhoneNumber value, every list of regions", "why_tests_cant": "an order-independence property over all lists", "anchors": ["shortnumberinfo.go:GetExpectedCost", "shortnumberinfo.go:GetExpectedCostForRegion"]}
{"id": "C29", "title": "Matches found in text are ordered, disjoint, and are substrings of the text", "statement": "The sequence produced by FindNumbers(WithLeniency) is finite; every match m satisfies text[m.Start:m.End] = m.RawString, 0 <= Start < End <= len(text), and each match starts at or after the end of the previous one. A consumer that stops early receives exactly the first elements of the sequence that a consumer who never stops would receive.", "quantifier": "every text, region, leniency and try limit", "why_tests_cant": "an invariant of an iterator over all texts and all iteration histories", "anchors": ["phonenumbermatcher.go:find", "phonenumbermatcher.go:extractMatch", "phonenumbermatcher.go:hasNext", "phonenumbermatcher.go:next"]}
{"id": "C30", "title": "The try limit bounds the work of the matcher", "statement": "Over a whole iteration the substrings examined and rejected number at most the try limit (0 when negative) plus two plus the number of matches found; with a limit of zero or less nothing is examined; and lowering the limit can only cut the sequence of matches short. (The limit itself is not a bound: the counter can go down to -2.)", "quantifier": "every text, region, leniency, limit and consumer", "why_tests_cant": "a resource bound over all texts", "anchors": ["phonenumbermatcher.go:find", "phonenumbermatcher.go:extractInnerMatch"]}
{"id": "C31", "title": "Every match has been verified at the requested leniency", "statement": "Every number yielded by FindNumbersWithLeniency passes the leniency's own verification on its raw string (POSSIBLE: IsPossibleNumber, VALID and stricter: IsValidNumber), and parsing its raw string with ParseAndKeepRawInput gives that number. At VALID and stricter no match has a Latin letter, combining mark, percent sign or currency sign beside it (the preceding character is exempt when the match starts with a bracket or plus sign).", "quantifier": "every text, region and leniency", "why_tests_cant": "all texts", "anchors": ["phonenumbermatcher.go:parseAndVerify", "enums.go:Leniency.Verify"]}
{"id": "C32", "title": "hasNext is idempotent and next does not depend on it", "statement": "Calling hasNext any number of times between two calls of next does not change the sequence of matches.", "quantifier": "every interleaving of hasNext and next calls", "why_tests_cant": "a history property", "anchors": ["phonenumbermatcher.go:hasNext", "phonenumbermatcher.go:next"]}
{"id": "C33", "title": "As-you-type Clear restores the initial behaviour", "statement": "After any sequence of InputDigit/InputDigitAndRememberPosition calls followed by Clear, the formatter behaves on every further input sequence exactly like a newly created formatter for the same region.", "quantifier": "every region, every input history and every continuation", "why_tests_cant": "a history property over all sequences", "anchors": ["asyoutypeformatter.go:Clear", "asyoutypeformatter.go:newAsYouTypeFormatter", "asyoutypeformatter.go:inputDigitWithOptionToRememberPosition"]}
{"id": "C34", "title": "As-you-type formatting never loses what was typed", "statement": "If the characters typed since the formatter was new or cleared include one that is neither a decimal digit nor a leading plus sign, InputDigit returns exactly the characters typed so far. Otherwise (leading plus in ASCII) it returns the characters typed so far or a text whose diallable characters are exactly the typed digits and plus sign, as ASCII, in order; where a region's national prefix has no fixed length it may leave typed digits out but never shows one that was not typed.", "quantifier": "every sequence of typed characters and every region", "why_tests_cant": "a history property over all sequences", "anchors": ["asyoutypeformatter.go:inputDigitWithOptionToRememberPosition"]}
{"id": "C35", "title": "GetRememberedPosition stays within the output", "statement": "GetRememberedPosition is between 0 and the length of the current output after any sequence of inputs.", "quantifier": "every sequence of typed characters", "why_tests_cant": "a history property over all sequences", "anchors": ["asyoutypeformatter.go:GetRememberedPosition"]}
{"id": "C36", "title": "The regular-expression cache returns the expression that was asked for", "statement": "Under any interleaving of concurrent callers, every call of the cache with pattern p returns an expression compiled from p, and after a call returned, later calls do not compile p again.", "quantifier": "every number of goroutines, every schedule and every sequence of patterns", "why_tests_cant": "schedules cannot be enumerated by tests", "anchors": ["internal/regexcache/regexcache.go:For"]}
{"id": "C37", "title": "Prefix data is loaded at most once and lookups agree under concurrency", "statement": "Under any interleaving of concurrent lookups, each language's prefix table is loaded at most once, no lookup reads a partially filled table, all lookups of the same number and language return the same value, and no schedule deadlocks.", "quantifier": "every schedule of every set of concurrent lookups", "why_tests_cant": "schedules cannot be enumerated by tests", "anchors": ["internal/prefixmapper/prefixmapper.go:Mapper.ValueForNumber", "internal/prefixmapper/prefixmapper.go:lazyLoadPrefixes"]}
{"id": "C38", "title": "Prefix lookup is longest match", "statement": "A carrier, geocoding or time-zone lookup returns the value of the longest prefix of the number present in the table, and nothing if no prefix is present; for carrier and geocoding lookups this concerns prefixes of at most nine digits (longer ones, of which the shipped tables have none, are never found).", "quantifier": "every number and every prefix table", "why_tests_cant": "all tables and numbers", "anchors": ["internal/prefixmapper/prefixmapper.go:Mapper.ValueForNumber", "timezone/timezone.go"]}
{"id": "C39", "title": "Serialised integer-array maps decode to what was encoded", "statement": "Decoding (LoadIntArrayMap) the bytes the metadata builder writes for a map from integers to string lists gives back the same map, for all maps within the format's limits; the limits are exactly 255 values per key and 65536 distinct strings.", "quantifier": "every map", "why_tests_cant": "round trip over all maps", "anchors": ["internal/serialize/serialize.go:LoadIntArrayMap", "cmd/buildmetadata/main.go:renderMap"]}
{"id": "C40", "title": "Serialised prefix maps decode to what was encoded", "statement": "Decoding (LoadPrefixMap) the bytes the metadata builder writes for a prefix map gives back the same map and a MaxLength at least the number of digits of every prefix.", "quantifier": "every map from prefixes to strings without newlines", "why_tests_cant": "round trip over all maps", "anchors": ["internal/serialize/serialize.go:LoadPrefixMap", "cmd/buildmetadata/main.go:buildPrefixMetadata"]}
{"id": "C41", "title": "Metadata container lookups reflect the collection", "statement": "NewContainer fails exactly on an empty collection; afterwards the metadata of a region is the last entry of the collection with that id, '001' is never a supported region, a calling code is supported iff it is a key of the country code map, and the result does not depend on map iteration order.", "quantifier": "every metadata collection and country code map, every map iteration order", "why_tests_cant": "Go map iteration order is random; collections are arbitrary", "anchors": ["metadata/source.go:NewContainer"]}
{"id": "C42", "title": "The region map builder puts the main region first and loses no region", "statement": "BuildCountryCodeToRegionMap lists, for each calling code, exactly the regions with that code, each once per territory entry, with the main region first when there is one.", "quantifier": "every metadata collection", "why_tests_cant": "all collections", "anchors": ["internal/metadatabuilder/metadatabuilder.go:BuildCountryCodeToRegionMap"]}
{"id": "C43", "title": "Possible-length specifications are decoded, checked and stored exactly", "statement": "A possible-length specification made of numbers and ranges such as '4,[6-8]' is decoded to exactly the set of lengths it denotes; a list with an empty part, an unclosed bracket, a bracket without exactly one hyphen or a range of fewer than three lengths aborts the build. The lengths stored for a description are strictly increasing, are exactly the decoded ones (or left empty when equal to the general ones), exclude full lengths from the local-only ones, and are never outside the general ones. (Text that is no number and repeated lengths are not rejected: see the refutation.)", "quantifier": "every specification, every set of lengths and every parent description", "why_tests_cant": "all strings", "anchors": ["internal/metadatabuilder/metadatabuilder.go:parsePossibleLengthStringToSet"]}
{"id": "C44", "title": "Phone-context handling is memory safe and exact", "statement": "For every input string with a ';phone-context=' parameter parsing never slices out of range. If the value of the first such parameter is neither a global number ('+', digits and visual separators with at least one digit) nor a domain name, the result is ErrNotANumber. If it is a global number, parsing [tel:]digits;phone-context=value... gives what parsing value followed by the digits gives; if it is a domain name, what parsing the digits alone gives.", "quantifier": "every byte string", "why_tests_cant": "all strings, including contexts at the very end, repeated or nested parameters", "anchors": ["phonenumberutil.go:extractPhoneContext", "phonenumberutil.go:isPhoneContextValid", "phonenumberutil.go:buildNationalNumberForParsing"]}
{"id": "C45", "title": "String buffer operations", "statement": "For the internal mutable string buffer: inserting at index i and deleting the inserted range restores the buffer; out-of-range insertions report an error and change nothing; lengths add up.", "quantifier": "every buffer content, index and inserted string", "why_tests_cant": "all contents and indices", "anchors": ["internal/stringbuilder/stringbuilder.go:Builder.Insert"]}
{"id": "C46", "title": "No panic on shipped metadata", "statement": "No exported query function (format, parse, validity, length, region, type, short number) no search of a text and no sequence of keys given to an as-you-type formatter panics for any argument when the shipped metadata is active: every pattern compiled is a valid expression and every index used is in range.", "quantifier": "every argument value", "why_tests_cant": "all arguments times all metadata entries", "anchors": ["phonenumberutil.go:Format", "phonenumberutil.go:Parse", "phonenumberutil.go:IsValidNumber", "phonenumberutil.go:IsPossibleNumberForTypeWithReason", "asyoutypeformatter.go:inputDigitWithOptionToRememberPosition", "phonenumbermatcher.go:find"]}
{"id": "C47", "title": "NATIONAL formatting never loses a digit", "statement": "For every number with a supported calling code other than 54, Format(n, NATIONAL) is the national significant number with ASCII characters (prefix, separators) put in: no digit is lost or reordered. Argentine mobile numbers lose their leading 9.", "quantifier": "every PhoneNumber value with a supported calling code; every formatting rule of the shipped metadata", "why_tests_cant": "the result depends on which of 900 rules is selected for each number", "anchors": ["phonenumberutil.go:Format", "phonenumberutil.go:formatNsnUsingPatternWithCarrier", "metadata/data/metadata.xml.gz"]}
{"id": "C48", "title": "Short number queries mean what the data says", "statement": "IsPossibleShortNumberForRegion(n,r) holds exactly when r dials n's calling code and the short-number data of r lists the length of n's national number; IsPossibleShortNumber(n) exactly when this holds in some region of the code. IsValidShortNumberForRegion(n,r) holds exactly when r dials the code and the whole national number matches r's general and short-code patterns at an allowed length; IsValidShortNumber(n) exactly when some region of the code accepts it as a short code (with the general pattern too if there is only one region). IsCarrierSpecificForRegion and IsSmsServiceForRegion test the corresponding patterns in the same way. None of them panics.", "quantifier": "every PhoneNumber value and region; every well-formed short-number table, in particular the shipped one", "why_tests_cant": "all numbers times 240 regions", "anchors": ["shortnumberinfo.go:IsPossibleShortNumberForRegion", "shortnumberinfo.go:IsValidShortNumber", "shortnumberinfo.go:IsValidShortNumberForRegion", "shortnumberinfo.go:IsCarrierSpecificForRegion", "shortnumberinfo.go:IsSmsServiceForRegion"]}
{"id": "C49", "title": "Built tables say what the source files say", "statement": "The builder reads a directory of prefix files into exactly the map that sends every prefix to the text of the line that mentions it; two lines that give one prefix different texts do not build. A time-zone file is read into the map from every prefix to the zones of the last line that mentions it. Lines that are blank or start with # are ignored, and the result does not depend on the order in which the files are read.", "quantifier": "every file content", "why_tests_cant": "all file contents", "anchors": ["cmd/buildmetadata/main.go:readMappingsForDir", "cmd/buildmetadata/main.go:buildTimezoneMetadata"]}
{"id": "C50", "title": "Carrier names are given for mobile numbers only", "statement": "The carrier lookup gives, for numbers of type mobile, fixed-line-or-mobile or pager, the name of the longest known prefix, and no name for numbers of any other type; the safe display name is empty for every number of a region with mobile number portability and equals the carrier name elsewhere.", "quantifier": "every PhoneNumber value, language and carrier file", "why_tests_cant": "all numbers and tables", "anchors": ["carrier/carrier.go:GetNameForNumber", "carrier/carrier.go:GetSafeDisplayName"]}
{"id": "C51", "title": "A country is named only if it is the only candidate", "statement": "For a calling code shared by several regions the geocoder names a country exactly if one and only one of them accepts the number as valid, whatever the order of the regions; numbers of unknown type have an empty description; for a geographical number the description is the text of the longest known prefix and only without one the country name.", "quantifier": "every PhoneNumber value, language, description file and table of country names", "why_tests_cant": "all numbers and tables", "anchors": ["geocoding/geocoding.go:countryNameForNumber", "geocoding/geocoding.go:GetDescriptionForNumber"]}
{"id": "C52", "title": "Shipped time zones are consistent", "statement": "With the shipped time-zone table, the zones found for a number through its digits are always among the zones of its calling code, and every geographical calling code has at least one known zone.", "quantifier": "every PhoneNumber value with a supported calling code that the table lists", "why_tests_cant": "the table has over 3000 prefixes and lookups range over all numbers", "anchors": ["timezone/timezone.go:GetTimeZonesForGeographicalNumber", "timezone/timezone.go:GetTimeZonesForNumber", "timezone/data/prefix_to_timezone.xml.gz"]}
{"id": "C53", "title": "The leniency levels are nested", "statement": "A number and text accepted at STRICT_GROUPING or at EXACT_GROUPING are accepted at VALID, and what is accepted at VALID is accepted at POSSIBLE. (EXACT_GROUPING is not contained in STRICT_GROUPING, contrary to what its documentation suggests.)", "quantifier": "every number, candidate text, metadata and alternate formats", "why_tests_cant": "an inclusion between four predicates over all numbers and texts", "anchors": ["enums.go:Leniency.Verify"]}
{"id": "C54", "title": "The reported number type follows a fixed precedence", "statement": "GetNumberType reports, for the region the number belongs to, the first type in the order premium rate, toll free, shared cost, VoIP, personal number, pager, UAN, voicemail, then fixed line / mobile, whose rules accept the national significant number; fixed line and mobile become FIXED_LINE_OR_MOBILE when the two cannot be told apart; UNKNOWN is reported exactly when the number has no region, the general rules reject it, or no type accepts it.", "quantifier": "every PhoneNumber and every well-formed metadata container, including containers whose type patterns overlap", "why_tests_cant": "The shipped examples rarely satisfy two type patterns at once, so the order only shows on overlapping metadata that no test constructs.", "anchors": ["phonenumberutil.go:GetNumberType", "phonenumberutil.go:getNumberTypeHelper"]}
{"id": "C55", "title": "International diallability is decided by the no-international-dialling rules alone", "statement": "CanBeInternationallyDialled is false exactly for numbers of a known region whose no-international-dialling rules accept the national significant number; every number of an unknown or non-geographical region is diallable.", "quantifier": "every PhoneNumber and every well-formed metadata container", "why_tests_cant": "Only a few regions have such rules; the complement (every other number is diallable) is a statement about all numbers.", "anchors": ["phonenumberutil.go:CanBeInternationallyDialled"]}
{"id": "C56", "title": "Which numbers are geographical", "statement": "IsNumberGeographical holds exactly when the reported type is FIXED_LINE or FIXED_LINE_OR_MOBILE, or the type is MOBILE and the calling code is one of the countries with geographical mobile numbers; numbers outside this set have area code length 0.", "quantifier": "every PhoneNumber and every well-formed metadata container", "why_tests_cant": "The claim is an equivalence over all numbers and types, and the area-code consequence quantifies over every number that is not geographical.", "anchors": ["phonenumberutil.go:IsNumberGeographical", "phonenumberutil.go:GetLengthOfGeographicalAreaCode"]}
{"id": "C57", "title": "Supported types are exactly those with data, and every reported type is supported", "statement": "GetSupportedTypesForRegion and GetSupportedTypesForNonGeoEntity list exactly the types for which the metadata has patterns or example numbers, never UNKNOWN and never FIXED_LINE_OR_MOBILE; any concrete type reported for a number of the region is in the list.", "quantifier": "every region code string, every calling code, every number", "why_tests_cant": "The link between reported and supported types ranges over every number of every region.", "anchors": ["phonenumberutil.go:GetSupportedTypesForRegion", "phonenumberutil.go:GetSupportedTypesForNonGeoEntity", "phonenumberutil.go:descHasData"]}
{"id": "C58", "title": "The national dialling prefix is digits only when asked for", "statement": "GetNddPrefixForRegion returns the region's national prefix, with wait-for-tone tildes removed exactly when stripNonDigits is set, and the empty string for unknown regions; with the shipped metadata the stripped prefix consists of ASCII digits.", "quantifier": "every region code string and both settings of stripNonDigits", "why_tests_cant": "Every region of the metadata and every unknown string is covered; the tests check two regions.", "anchors": ["phonenumberutil.go:GetNddPrefixForRegion"]}
{"id": "C59", "title": "Carrier codes in the national format", "statement": "FormatNationalNumberWithPreferredCarrierCode uses the carrier code stored in the number and the given one only when none is stored. FormatNationalNumberWithCarrierCode without a carrier code gives the NATIONAL form; with one it uses the carrier rule of the formatting rule that applies, if it has one, in place of its national prefix rule, and then the carrier code shows in the text.", "quantifier": "every PhoneNumber with a supported calling code and every carrier code text without a dollar sign", "why_tests_cant": "Carrier codes are free text and the rules of 250 regions combine with every number; only a handful of examples exist.", "anchors": ["phonenumberutil.go:FormatNationalNumberWithCarrierCode", "phonenumberutil.go:FormatNationalNumberWithPreferredCarrierCode"]}
{"id": "C60", "title": "The first formatting rule that applies prints the number", "statement": "NATIONAL and INTERNATIONAL print the national significant number by the first rule in the metadata of the calling code's main region whose pattern matches the whole number and whose most detailed leading-digits pattern matches its beginning (the international rule list is used for INTERNATIONAL when there is one); no rule leaves the digits as they are; extension last. RFC3966 joins the digit groups of the INTERNATIONAL text with hyphens. Metadata, format and number determine the text.", "quantifier": "every PhoneNumber with a supported calling code", "why_tests_cant": "965 shipped rules, each ranging over all numbers of matching length; tests print a few numbers per country.", "anchors": ["phonenumberutil.go:Format", "phonenumberutil.go:chooseFormattingPatternForNumber", "phonenumberutil.go:formatNsnUsingPatternWithCarrier"]}
{"id": "C61", "title": "What to dial from another region", "statement": "FormatOutOfCountryCallingNumber gives, from a supported region with the same calling code, the NATIONAL form (after \"1 \" within the North American Numbering Plan); from another region its preferred or only international prefix, a space and the INTERNATIONAL form without plus sign; the INTERNATIONAL form when the region is unknown or no prefix can be chosen. The digits are those of the prefix, calling code, number and extension.", "quantifier": "every PhoneNumber with a supported calling code and every region code string", "why_tests_cant": "the product of 245 origin regions and all numbers", "anchors": ["phonenumberutil.go:FormatOutOfCountryCallingNumber"]}
{"id": "C62", "title": "A number with a plus sign means the same whatever the default region", "statement": "If a text parses with an unknown or unsupported default region (so the number carries its own plus sign), then it parses to exactly the same number, field for field, with every other default region, by Parse and by ParseAndKeepRawInput.", "quantifier": "all texts, all default regions, all numbers being filled", "why_tests_cant": "The claim compares every pair of default regions on every text, including the special region 001 whose metadata is looked up differently.", "anchors": ["phonenumberutil.go: parseHelper, maybeExtractCountryCode, checkRegionForParsing"]}
{"id": "C63", "title": "Dialling the international prefix is the same as writing a plus sign", "statement": "Digits that start with the international prefix of the default region parse to the same calling code and national number as a plus sign followed by the digits after the prefix, whatever the default region of the second call.", "quantifier": "all supported regions, all digit texts starting with the region's international prefix", "why_tests_cant": "International prefixes are regular expressions, different in every region, and numbers follow them in unlimited variety.", "anchors": ["phonenumberutil.go: parsePrefixAsIdd, maybeStripInternationalPrefixAndNormalize, maybeExtractCountryCode"]}
{"id": "C64", "title": "What digits mean to the parser", "statement": "ParseAndKeepRawInput of a text of digits with a supported default region gives exactly the outcome of the published rules: international prefix and calling code first, then the region's own calling code if the digits are no number of the region as they stand, then a national number; the national prefix and carrier code are taken away only if the number stays complete and of possible length; the errors are those of the first rule that fails. Likewise for a plus sign followed by digits, with a second reading without the plus sign when no calling code follows it.", "quantifier": "all digit texts of 2 to 250 digits (3 to 249 after a plus sign), all default regions", "why_tests_cant": "The outcome depends on the interaction of four expressions per region with the text; tests sample a few texts per region.", "anchors": ["phonenumberutil.go: parseHelper, maybeExtractCountryCode, maybeStripInternationalPrefixAndNormalize, maybeStripNationalPrefixAndCarrierCode, extractCountryCode"]}
{"id": "C65", "title": "Separators between digits do not matter", "statement": "Spaces, hyphens, dots and brackets (ASCII and their Unicode relatives) between the digits of a text do not change what Parse returns: neither the number nor the error.", "quantifier": "all texts of at most 250 bytes made of ASCII digits and separators, with or without a leading plus sign, starting (after the plus sign, anywhere) with a digit, ending with a digit and having at least three digits; all default regions", "why_tests_cant": "Separators can be placed in exponentially many ways.", "anchors": ["phonenumberutil.go: parseHelper, extractPossibleNumber, isViablePhoneNumber, maybeStripExtension, normalize"]}
{"id": "C66", "title": "Printed international and tel: forms parse back", "statement": "For every valid number (with the two families of exceptions already listed for the E.164 round trip), Format in INTERNATIONAL and in RFC3966 gives a text that Parse reads, whatever the default region, as the same country calling code, the same national significant number (including leading zeros) and the same extension. For INTERNATIONAL this holds for extensions of up to 9 digits, for RFC3966 up to 20; beyond 9 digits some countries' INTERNATIONAL text is not read back. More generally, for every number of a supported calling code with a 2 to 17 digit national significant number the two texts parse to exactly what its E.164 text parses to, plus the extension.", "quantifier": "every phone number, valid or only of a supported code, every digit extension within the limit, every default region", "why_tests_cant": "There are hundreds of formatting rules, each with its own separators and extension label, and arbitrarily many numbers; tests round-trip a few sample numbers and almost never with extensions.", "anchors": ["phonenumberutil.go:Format", "phonenumberutil.go:Parse", "phonenumberutil.go:maybeAppendFormattedExtension", "phonenumberutil.go:maybeStripExtension", "phonenumberutil.go:buildNationalNumberForParsing"]}
{"id": "C67", "title": "Extensions are recognised in all their spellings", "statement": "When a text of digits and separators (optionally starting with a plus sign) that ends in a digit is followed by one of the usual ways to write an extension (\";ext=\", \" ext. \", \"x\", \" # \", \", \", \" extension \", \" Anexo \", \" int \" and so on) and then by digits, Parse succeeds exactly when it succeeds on the text without the extension, with the same errors otherwise, and returns the same number with just the extension field set to those digits. The number of digits allowed is 20 after an explicit label, 15 after the automatic dialling marks \",,\" and \";\", 9 after the ambiguous ones.", "quantifier": "every text of digits and separators with at least three digits, each of 25 listed labels, every digit string within the label's limit, every default region, any well-formed metadata", "why_tests_cant": "The extension pattern is one long alternation with case-insensitive and optional parts, run with leftmost-first semantics on an unbounded text; tests try a few spellings on one number.", "anchors": ["phonenumberutil.go:maybeStripExtension", "phonenumberutil.go:extnPattern", "phonenumberutil.go:parseHelper", "phonenumberutil.go:isViablePhoneNumber"]}
{"id": "C68", "title": "Which number a mobile phone is told to dial", "statement": "FormatNumberForMobileDialing drops the extension. From the main region of the number's calling code it prints: for Brazilian lines the national form with the preferred carrier code, or nothing if there is none; for calling code 1 the international form if the number can be dialled internationally and is not too short, else the national form; for global services and Mexican, Chilean and Uzbek lines the international form if it can be dialled internationally, else the national one; for everything else the national form. From anywhere else it prints the international form (E164 without formatting) of a number that has a type and can be dialled from abroad, and nothing otherwise. Without formatting only diallable characters are left. With an unsupported calling code the raw input comes back.", "quantifier": "every number, every calling region, with and without formatting", "why_tests_cant": "The outcome depends on the type, the diallability, the carrier code and the region of the number; tests take one number per branch.", "anchors": ["phonenumberutil.go: FormatNumberForMobileDialing"]}
{"id": "C69", "title": "Keeping the letters of the input", "statement": "FormatOutOfCountryKeepingAlphaChars prints the raw input with its letters: of it are kept digits, letters (as capitals), plus, star and separators, from the first occurrence of the number's first three digits on. Within the North American Numbering Plan it stands after \"1 \"; within the caller's own calling code the national prefix rule of the rule that applies is put around its first digits; from elsewhere its extension is cut off and it stands after the exit prefix, or a plus sign, and the calling code, with the number's extension after it. Without a raw input it is FormatOutOfCountryCallingNumber, and with an unsupported calling code the raw input.", "quantifier": "every number with or without raw input, every calling region", "why_tests_cant": "Raw inputs are arbitrary text; tests use a handful of vanity numbers.", "anchors": ["phonenumberutil.go: FormatOutOfCountryKeepingAlphaChars", "phonenumberutil.go: normalizeHelper", "phonenumberutil.go: maybeStripExtension"]}
{"id": "C70", "title": "Formatting by the caller's own rules", "statement": "FormatByPattern prints the number by the first of the given rules that applies to it, with the region's national prefix in place of $NP and the first group in place of $FG in the rule for the national prefix (no rule is used in a region without a national prefix), then the extension, and puts the calling code in front as the format asks. If no rule applies the national significant number is printed.", "quantifier": "every number, every list of usable rules, the formats NATIONAL, INTERNATIONAL and E164", "why_tests_cant": "Rules are arbitrary text given by the caller.", "anchors": ["phonenumberutil.go: FormatByPattern", "phonenumberutil.go: chooseFormattingPatternForNumber", "phonenumberutil.go: formatNsnUsingPattern"]}
{"id": "C71", "title": "The format a number was typed in", "statement": "FormatInOriginalFormat prints the raw input as it is if no rule of the metadata applies to the number. Otherwise it prints: the national form if it is not known how the number was typed; the international form if it was typed with a plus sign; that form without its first character if typed with the calling code alone; the form for dialling from the given region if typed with an exit prefix; and the national form if typed in national form, without the national prefix if the region has one, the rule would print it and the input did not have it. If that text has other diallable characters than the raw input, the raw input is printed instead.", "quantifier": "every number, raw input, origin and region", "why_tests_cant": "The combinations of raw input, origin, rules and national prefixes are unbounded.", "anchors": ["phonenumberutil.go: FormatInOriginalFormat", "phonenumberutil.go: rawInputContainsNationalPrefix", "phonenumberutil.go: hasFormattingPatternForNumber"]}
{"id": "C72", "title": "Example numbers", "statement": "For every region and type GetExampleNumberForTypeInRegion returns a valid number of that region and type when the metadata has an example, and nil otherwise; GetExampleNumber never returns nil for a supported region. GetExampleNumberForType returns, whatever the order in which the maps of regions and entities are iterated, a valid number of the type asked for, and nil only for UNKNOWN. GetInvalidExampleNumber never returns a valid number and always returns one for a supported region. Every global service has an example.", "quantifier": "every region, every type, every iteration order of the maps; every metadata for the invalid examples", "why_tests_cant": "Go leaves the iteration order of maps open: a test run sees one order.", "anchors": ["phonenumberutil.go: GetExampleNumberForTypeInRegion", "phonenumberutil.go: GetExampleNumberForType", "phonenumberutil.go: GetInvalidExampleNumber", "phonenumberutil.go: GetExampleNumberForNonGeoEntity"]}
{"id": "C73", "title": "The active metadata", "statement": "After any nested sequence of metadata.Use and restore calls the library works with the metadata it worked with before, and within it with that of the innermost Use.", "quantifier": "every sequence of nested uses and restores, from every state", "why_tests_cant": "Histories are unbounded.", "anchors": ["metadata/source.go: Use", "metadata/source.go: SupportedRegions", "phonenumberutil.go: GetSupportedRegions"]}
{"id": "C74", "title": "NATIONAL text parses back at home", "statement": "The text that NATIONAL formatting prints for a valid number, parsed with the number's own region as default region, gives a number with the same calling code, national significant number and extension. Exceptions: numbers of calling codes 54 (Argentina) and 241 (Gabon), and toll-free numbers of codes 66, 81, 359, 507 and 974, where there are valid numbers whose NATIONAL text means another number.", "quantifier": "every valid number of a geographical region, of any type, with any extension of at most nine digits", "why_tests_cant": "The text is made by one of hundreds of formatting rules that put a national prefix in front, and read by an expression that takes prefixes, carrier codes and exit prefixes away; whether the two agree depends on every digit string the metadata accepts, not on the example numbers in tests.", "anchors": ["phonenumbers.go: Format, Parse, maybeStripNationalPrefixAndCarrierCode, maybeExtractCountryCode, chooseFormattingPatternForNumber", "gen/metadata_bin.go"]}
{"id": "C75", "title": "The text search finds every number that is there", "statement": "In a text made of numbers with quiet text (no digit, opening bracket or plus sign) before, between and after them, FindNumbersWithLeniency returns, in order and at their places, exactly the numbers that parse and pass the requested leniency, and tries no other candidate. In particular every valid number printed in E164 or INTERNATIONAL form is found at each of the four leniencies, whatever the default region, with its calling code and national significant number; FindNumbers likewise. Nothing is found in quiet text.", "quantifier": "every metadata container, leniency, region and try budget; every text of the given shape with any number of numbers and any UTF-8 quiet text; for the printed form every valid number of the shipped metadata except the two exceptions of C10, without extension, and with a nonzero national number for the grouping leniencies", "why_tests_cant": "C29 to C32 hold for a search that finds nothing; completeness must hold for every surrounding text and every valid number", "anchors": ["phonenumbermatcher.go:find", "phonenumbermatcher.go:extractMatch", "phonenumbermatcher.go:extractInnerMatch", "phonenumbermatcher.go:parseAndVerify", "phonenumbermatcher.go:allNumberGroupsRemainGrouped", "phonenumbermatcher.go:allNumberGroupsAreExactlyPresent", "phonenumbermatcher.go:FindNumbers", "phonenumbermatcher.go:FindNumbersWithLeniency", "enums.go:Verify"]}
{"id": "C76", "title": "Comparing written numbers", "statement": "IsNumberMatch gives the same answer for the two texts in either order. It answers EXACT_MATCH exactly when each text denotes one and the same number whatever the default region, and both denote the same calling code, national significant number and extension; IsNumberMatchWithOneNumber likewise, so a text without calling code is never an exact match. A text without calling code is read in the main region of the number it is compared with: if it denotes that number the answer is NSN_MATCH, if it denotes another the answer is that of comparing the two numbers, and if it denotes none NOT_A_NUMBER. A text that fails to parse for another reason gives NOT_A_NUMBER with everything. Two digit strings match as NSN_MATCH exactly when they are equal and as SHORT_NSN_MATCH exactly when one value ends with the other. The texts that Format prints for valid numbers compare like the numbers; the NATIONAL text matches as NSN_MATCH.", "quantifier": "all texts; all PhoneNumber values; every well-formed metadata; for printed texts all valid numbers of the shipped metadata outside the listed exceptions", "why_tests_cant": "The two functions parse each text up to three times, with different regions, and branch on the kind of error; symmetry and the meaning of each answer are claims about all pairs of texts.", "anchors": ["phonenumberutil.go:IsNumberMatch", "phonenumberutil.go:IsNumberMatchWithOneNumber", "phonenumberutil.go:IsNumberMatchWithNumbers"]}
{"id": "C77", "title": "What each leniency of the text search requires", "statement": "VALID accepts a number read from a text exactly when the number is valid, every letter x in the text stands in a legitimate place (doubled before the same national number, single before the number's own extension), and a number written without its calling code carries the national prefix whenever its region's formatting rule writes one. STRICT_GROUPING accepts exactly when VALID does, the text has at most one slash (two when the first follows the calling code), and the digits follow one of the official groupings of the number (that of the INTERNATIONAL format or of an alternate format whose leading digits apply) without breaking a group. EXACT_GROUPING accepts exactly when VALID does, the slashes are right and the text shows exactly one of these groupings, or the number in one piece. Every match of a search obeys the rules of its leniency.", "quantifier": "all numbers and all texts (valid or not, any bytes), all regions, all search limits and consumers", "why_tests_cant": "The rules quantify over every text around a number and every metadata rule; tests give a few dozen accepted and rejected spellings and cannot show that nothing else is accepted or rejected.", "anchors": ["phonenumbermatcher.go:Leniency.Verify", "phonenumbermatcher.go:containsOnlyValidXChars", "phonenumbermatcher.go:isNationalPrefixPresentIfRequired", "phonenumbermatcher.go:containsMoreThanOneSlashInNationalNumber", "phonenumbermatcher.go:checkNumberGroupingIsValid", "phonenumbermatcher.go:allNumberGroupsRemainGrouped", "phonenumbermatcher.go:allNumberGroupsAreExactlyPresent"]}
{"id": "C78", "title": "What the text search never takes for a number", "statement": "No match of a text search contains a date written with slashes (day and month in either order, then a year of two or four digits) or the pages and year of a citation (211-227 (2003); no match ends in a date and an hour when the text goes on with a colon and minutes; in every match the brackets come in pairs that are not nested, at most four of them, with only a first bracket allowed to lack its partner, and no bracket opens without something in it.", "quantifier": "all texts, regions, leniencies, search limits, consumers and metadata", "why_tests_cant": "Tests try a dozen dates, times and citations; a search takes candidates apart and retries pieces of them, so only a proof over every way of cutting a text shows that none of these ever comes back as a number.", "anchors": ["phonenumbermatcher.go:extractMatch", "phonenumbermatcher.go:parseAndVerify", "phonenumbermatcher.go:extractInnerMatch", "phonenumbermatcher.go:find", "phonenumbermatcher.go:init"]}
{"id": "C79", "title": "Typing an international number ends in the INTERNATIONAL text", "statement": "If one of the formatting rules of a supported number applies to it and its national significant number has 3 to 17 digits, then typing its E164 text key by key, in any as-you-type formatter, with any earlier typing cleared and any positions remembered, ends in showing exactly what Format prints for the number in INTERNATIONAL format.", "quantifier": "all regions of the formatter, all numbers of supported calling codes without extension, all key sequences (with clearing and remembering) whose typed text is the number's E164 text", "why_tests_cant": "The formatter narrows its list of rules digit by digit and fills templates, a different algorithm from Format; tests compare a few dozen numbers, and only a proof over all rules and numbers shows that the two always end in the same text.", "anchors": ["asyoutypeformatter.go:inputDigitWithOptionToRememberPosition", "asyoutypeformatter.go:attemptToFormatAccruedDigits", "asyoutypeformatter.go:narrowDownPossibleFormats", "asyoutypeformatter.go:getAvailableFormats", "asyoutypeformatter.go:attemptToExtractCountryCallingCode", "phonenumberutil.go:Format"]}
{"id": "C80", "title": "What the remembered position of the as-you-type formatter means", "statement": "While the formatter formats, GetRememberedPosition is the place right after the last character typed with InputDigitAndRememberPosition, wherever inserted punctuation has moved it: leaving formatting out, the output up to there is exactly what was typed up to and including that character, and it ends with that character. When the formatter has given up, and whenever the output is what was typed, it is the number of characters typed up to that character. It is 0 if no character was to be remembered since the last Clear.", "quantifier": "all key sequences, all regions whose national prefix is told by the first digit (all but seven of the shipped ones), all metadata", "why_tests_cant": "A cursor is moved by every later key, by prefixes extracted late and by giving up; tests follow two or three numbers.", "anchors": ["asyoutypeformatter.go:GetRememberedPosition", "asyoutypeformatter.go:InputDigitAndRememberPosition", "asyoutypeformatter.go:normalizeAndAccrueDigitsAndPlusSign", "asyoutypeformatter.go:Clear"]}
{"id": "C81", "title": "Regions and calling codes fit together", "statement": "The functions that translate between regions and calling codes agree with one another and with the metadata. For metadata in which every territory has an id and a code, each region occurs once and an entry \"001\" is alone under its code: GetSupportedRegions lists exactly the ids other than \"001\"; GetCountryCodeForRegion(r) = k exactly if GetRegionCodesForCountryCode(k) lists r, and is 0 exactly if r is not supported; a code is in GetSupportedCallingCodes exactly if it has regions, exactly if GetRegionCodeForCountryCode is not \"ZZ\", and that region is then the first one listed; it is in GetSupportedGlobalNetworkCallingCodes exactly if that region is \"001\", which is then the only one; no region is listed twice or under two codes; IsNANPACountry(r) holds exactly if the code of r is 1. The shipped metadata are of this kind.", "quantifier": "every collection of metadata with unique regions, every region and every calling code; the shipped metadata", "why_tests_cant": "The answers come from six tables built separately from the metadata; that they agree for every region and code is a statement about the construction, and tests look at a few regions.", "anchors": ["phonenumberutil.go:GetSupportedRegions", "phonenumberutil.go:GetSupportedCallingCodes", "phonenumberutil.go:GetSupportedGlobalNetworkCallingCodes", "phonenumberutil.go:GetCountryCodeForRegion", "phonenumberutil.go:GetRegionCodeForCountryCode", "phonenumberutil.go:GetRegionCodesForCountryCode", "phonenumberutil.go:IsNANPACountry", "metadata/source.go:NewContainer", "metadatabuilder.go:BuildCountryCodeToRegionMap"]}
{"id": "C82", "title": "Numbers of shared calling codes: validity and type do not depend on the attribution", "statement": "With the shipped metadata a number is valid exactly if it is valid for some region, although IsValidNumber asks only the first region that claims the number. The type GetNumberType reports is the one the number has in every region it is valid for. Neither answer changes if the regions of a calling code are listed in another order. A fixed-line or mobile number is valid for one region only, the one GetRegionCodeForNumber reports, unless its calling code is 39, 44, 47, 61, 212, 358 or 590: each of these has a number that is valid for two regions.", "quantifier": "every number, region and order of the regions, for the shipped metadata", "why_tests_cant": "It is a statement about all numbers of twelve shared calling codes and each pair of their regions; a test samples a few numbers, and an overlap between two patterns is found only by comparing them as languages.", "anchors": ["phonenumberutil.go:IsValidNumber", "phonenumberutil.go:IsValidNumberForRegion", "phonenumberutil.go:GetNumberType", "phonenumberutil.go:GetRegionCodeForNumber", "phonenumberutil.go:getRegionCodeForNumberFromRegionList"]}
{"id": "C83", "title": "Exactly the texts of phone numbers are taken for phone numbers", "statement": "There is one fixed description of what the text of a phone number looks like: two digits; or plus signs, then a body of digits, separators and letters with at least three digits before the first letter (an x counts as a separator), then at most one extension in one of six written forms. IsAlphaNumber answers yes exactly for such texts that have at least three letters A-Z outside the extension, where the extension is the longest end of the text that has the form of one, cut off only if what is left is still the text of a phone number. Parse reports ErrNotANumber for every text no part of which is the text of a phone number, and never reports it for the text of a phone number that starts with a plus sign or a digit, ends with a digit or letter and has no semicolon, slash or backslash.", "quantifier": "every byte string, valid UTF-8 or not, every default region, every metadata", "why_tests_cant": "The pattern is a thousand-character regular expression with nested repetition; the claim is an equivalence between it and a readable description, for every string of any length, including digits and case variants of every script.", "anchors": ["phonenumberutil.go:IsAlphaNumber", "phonenumberutil.go:isViablePhoneNumber", "phonenumberutil.go:maybeStripExtension", "phonenumberutil.go:validPhoneNumberPattern", "phonenumberutil.go:extnPattern"]}
{"id": "C84", "title": "Letters in a vanity number stand for the digits on their keys", "statement": "A text that starts with a plus sign or a digit, consists of digits, letters A-Z and separators, has at least three digits before the first letter and at least three letters, and ends with a letter (or with a digit, if the letters X and I do not occur) is parsed to exactly the number, or fails with exactly the error, that the text with every letter replaced by the digit on its key and without separators gives. IsAlphaNumber answers yes to every such text. A letter X before final digits is a counterexample to anything stronger: 1 800 FOX 1234 is read as a number with extension 1234.", "quantifier": "every such text of up to 250 bytes, every default region, every metadata", "why_tests_cant": "There is one vanity text per word; tests try a handful. The claim is that the letters make no difference at any stage of parsing (calling code, international prefix, national prefix, lengths).", "anchors": ["phonenumberutil.go:Parse", "phonenumberutil.go:normalize", "phonenumberutil.go:alphaPhoneMappings", "phonenumberutil.go:IsAlphaNumber"]}
{"id": "C85", "title": "The extension is what is written after the main part", "statement": "When Parse accepts a text that is not cut short (it starts with a plus sign or a digit, ends in a digit, letter or hash sign and has no slashes or URI parameters other than ext), the extension of the number is exactly the digits written after the main part of the text, in the script in which they are written, whichever of the recognised spellings of an extension is used; if the main part is the whole text there is no extension. Country code, national number, leading zeros and errors are those of the main part parsed alone.", "quantifier": "every text, every default region, every well-formed metadata", "why_tests_cant": "the spellings (labels in several languages and cases, blanks, commas, colons, trailing hash signs, digits of any script) combine to infinitely many texts; tests try a few", "anchors": ["phonenumberutil.go:maybeStripExtension", "phonenumberutil.go:parseHelper", "phonenumberutil.go:Parse", "phonenumberutil.go:extnPattern"]}
{"id": "C86", "title": "Typing a number as it is dialled at home ends in the NATIONAL text", "statement": "Take a number of a geographical calling code and a formatter for any region of that calling code. If the number is typed digit by digit with its national prefix in front (or without a prefix, outside six listed regions), the last display is the prefix, a space where the rule's own prefix text has a space or dash, and the number laid out by the first rule that fits a number typed that way. If the rule Format uses simply writes the prefix (possibly with a space) before the number, or nothing, the display is exactly Format(number, NATIONAL).", "quantifier": "every region, every number of a supported calling code with 3 to 17 digits, every history of keystrokes (with clears) whose last run types the prefix and the number", "why_tests_cant": "the display after each digit depends on templates, leading-digit filters and prefix stripping over all prefixes of all numbers; tests type a dozen numbers", "anchors": ["asyoutypeformatter.go:InputDigit", "asyoutypeformatter.go:removeNationalPrefixFromNationalNumber", "asyoutypeformatter.go:attemptToFormatAccruedDigits", "phonenumbers.go:Format"]}
{"id": "C87", "title": "Where a number is said to be from", "statement": "GetTimeZonesForNumber gives the unknown zone for a number of unknown type, the zones of the calling code for a number that is not tied to a place, and otherwise the zones of the longest prefix of the number's digits that has any; with the shipped table the answer is never empty and, for a number of known type, is among the zones of the calling code. A geographical number is described to a user of its own region as without a user region and to any other user by the name of its region. An Argentine mobile number, written with the 9, is described like the number without the 9.", "quantifier": "every number, language, user region, description file and prefix table (the last sentence: every Argentine number whose form without the 9 is valid)", "why_tests_cant": "the lookups depend on the type, the region and every prefix of the number; tests look up a few numbers", "anchors": ["timezone/timezone.go:GetTimeZonesForNumber", "geocoding/geocoding.go:GetDescriptionForNumber", "geocoding/geocoding.go:GetDescriptionForNumberForUserRegion", "geocoding/geocoding.go:GetDescriptionForValidNumber"]}
{"id": "C88", "title": "The builder accepts exactly the consistent territories and describes what they say", "statement": "The metadata builder accepts a territory of the XML source exactly when its possible lengths are consistent (none given at the general level, no length both full and local-only in one element, no local-only length among short codes, no length of a described kind outside the lengths of the territory), its expressions compile and no format has two international forms; otherwise it stops. In the result the general description has exactly the lengths its contributing elements have, the description of an element has its pattern without white space, its example, its local-only lengths and (left out when equal to the general ones) its lengths, and a kind of number that has no element is described as having no possible length at all. The collection lists the territories in order.", "quantifier": "every territory and every document whose length lists are well written, for ordinary and for short-number metadata", "why_tests_cant": "There are infinitely many documents, and the unit tests build a handful of territories; an omitted consistency check only shows up on inconsistent data.", "anchors": ["internal/metadatabuilder/metadatabuilder.go:processPhoneNumberDescElement", "internal/metadatabuilder/metadatabuilder.go:populatePossibleLengthSets", "internal/metadatabuilder/metadatabuilder.go:setPossibleLengthsGeneralDesc", "internal/metadatabuilder/metadatabuilder.go:setRelevantDescPatterns", "internal/metadatabuilder/metadatabuilder.go:BuildPhoneMetadataCollection"]}
{"id": "C89", "title": "The builder takes over attributes and formats", "statement": "For every accepted territory the metadata has the territory's identifier, calling code, prefixes, leading digits and flags; the expression for stripping the national prefix is the one given, without white space, and otherwise the national prefix; each format of the source gives one national format, in order, with the national prefix and the first group filled in in its rules, which are the territory's where it has none of its own; international formats are kept only if some format gives one explicitly, and then they are the explicit ones, nothing for NA, and the national format for the others. Alternate formats are built by the same rules, without any descriptions and always with an identifier, and are refused exactly when an expression does not compile or a format has two international forms.", "quantifier": "every territory, for ordinary, short-number and alternate-format metadata", "why_tests_cant": "There are infinitely many documents; inheritance of rules and the all-or-nothing treatment of international formats depend on combinations of elements that single tests do not cover.", "anchors": ["internal/metadatabuilder/metadatabuilder.go:loadTerritoryTagMetadata", "internal/metadatabuilder/metadatabuilder.go:loadAvailableFormats", "internal/metadatabuilder/metadatabuilder.go:loadInternationalFormat", "internal/metadatabuilder/metadatabuilder.go:loadNationalFormat", "internal/metadatabuilder/metadatabuilder.go:BuildAlternateFormatsMetadataCollection"]}
{"id": "C90", "title": "Typing a number with the prefix for dialling abroad ends in the text for dialling it from there", "statement": "When the digits a region dials before a foreign number, a calling code and a national number are typed into an as-you-type formatter for that region, and the region's expression takes exactly those leading digits, the last display is the prefix, a space and what Format prints as INTERNATIONAL without its plus sign. If the prefix is the one FormatOutOfCountryCallingNumber uses and the number belongs to another calling code, the last display is what that function returns. In the 208 regions whose prefix is two or three fixed digits this holds for every number to which a rule applies.", "quantifier": "every region, every number without extension whose national number has 3 to 17 digits and to which a formatting rule applies, every key sequence that ends in typing it, with or without remembered positions, before or after clearing", "why_tests_cant": "the display depends on which rules survive each digit, on the template and on the moment the calling code is recognised; no table of examples covers all regions, calling codes and numbers", "anchors": ["asyoutypeformatter.go:InputDigit", "asyoutypeformatter.go:attemptToExtractIdd", "asyoutypeformatter.go:attemptToExtractCountryCallingCode", "phonenumbers.go:FormatOutOfCountryCallingNumber"]}
{"id": "C91", "title": "Short-number functions consult the last entry for the region", "statement": "From any collection of short-number metadata that is not empty a table is built in which each region has the last entry of the collection with its identifier, and the world entry 001 none; an empty collection is refused. For 001 and for regions without an entry no number is a possible, valid, carrier-specific, SMS or emergency short number, the cost is unknown and there are no examples. The shipped table holds supported regions only.", "quantifier": "every collection of entries, with repeated and world entries in any order; every region, number and text", "why_tests_cant": "a unit test sees one embedded collection only", "anchors": ["shortnumberinfo.go:loadShortNumberMetadataFromFile", "shortnumberinfo.go:getShortNumberMetadataForRegion", "shortnumberinfo.go:IsEmergencyNumber"]}
{"id": "C92", "title": "Earlier lookups never change an answer", "statement": "For one carrier, geocoding or prefix mapper and any sequence of lookups in any languages, each answer is the one a newly created mapper gives. A language that has been read is not read again, even if the files change; a language that could not be read leaves the mapper unchanged.", "quantifier": "every history of lookups, every content of the data files, every failure among them", "why_tests_cant": "histories are unbounded; tests look a few numbers up in a fixed order", "anchors": ["internal/prefixmapper/prefixmapper.go:lazyLoadPrefixes", "internal/prefixmapper/prefixmapper.go:ValueForNumber"]}
{"id": "C93", "title": "The text for dialling a number from another region means that number there", "statement": "For every valid number, what FormatOutOfCountryCallingNumber prints for a caller in a region of another calling code is read by Parse, with that region as default region, as a number with the same calling code, national significant number and extension. The same holds in the number's own region outside the North American Numbering Plan, with the exceptions of the NATIONAL text. Exceptions: the two families of numbers that do not survive the E.164 round trip, callers in Hong Kong, and the six regions that print their prefix with a tilde.", "quantifier": "every valid number with any extension of at most nine digits, every supported calling region but Hong Kong, Belarus, Kazakhstan, Russia, Tajikistan, Turkmenistan and Ukraine", "why_tests_cant": "The outcome depends on how the region's expression for exit prefixes, the calling codes and the number's own rules interact: about 240 regions times 240 codes times all numbers.", "anchors": ["phonenumberutil.go:FormatOutOfCountryCallingNumber", "phonenumberutil.go:Parse", "phonenumberutil.go:maybeStripInternationalPrefixAndNormalize"]}
{"id": "C94", "title": "What a mobile phone is told to dial means the number", "statement": "For every valid number, the text FormatNumberForMobileDialing gives is read by Parse as the number without its extension, with or without formatting. From anywhere but the main region of its calling code, for numbers that can be dialled from abroad, this holds with any default region; in the main region itself, for a number of that region, with that region as default region. Exceptions: the numbers that do not survive the E.164 round trip, at home also those whose NATIONAL text does not come back, and Brazilian lines at home, which need a carrier code.", "quantifier": "every valid number, every calling region, with and without formatting", "why_tests_cant": "Home dialling mixes international, national and carrier texts by region, type and diallability; only all numbers of all regions together show that each choice can be dialled.", "anchors": ["phonenumberutil.go:FormatNumberForMobileDialing", "phonenumberutil.go:Parse"]}
{"id": "C95", "title": "A number shown in the format it was typed in is still read as the same number", "statement": "Take a text of a number as people type it: an optional plus sign, then digits with separators between them. If ParseAndKeepRawInput accepts it for a supported default region, FormatInOriginalFormat gives a text for the result (never an error), and Parse reads that text, with the same default region, as a number with the same calling code and national number and without extension. So a contact shown in the user's own format can be edited and saved without becoming another number. Excluded are numbers of calling code 54 (Argentina's national texts put a 15 in the middle of the digits), the number zero, and default regions whose exit prefix is printed with a tilde.", "quantifier": "every text of an optional plus sign, digits and separators (at least three digits, at most 249 bytes), every supported default region with an exit prefix of digits or none", "why_tests_cant": "The text shown depends on how the number was typed (plus sign, exit prefix, own code, national), on whether a rule applies, on whether it would add a national prefix, and on whether the result still has the same diallable characters; each must be readable for every number of some 240 regions.", "anchors": ["phonenumberutil.go:FormatInOriginalFormat", "phonenumberutil.go:ParseAndKeepRawInput", "phonenumberutil.go:Parse", "phonenumberutil.go:FormatOutOfCountryCallingNumber"]}
{"id": "C96", "title": "Within the North American plan the text for dialling is read as the same number", "statement": "For a valid ten-digit number of calling code 1 and any two regions of the North American Numbering Plan, FormatOutOfCountryCallingNumber gives a text such as \"1 (650) 253-0000 ext. 77\" for calling from the one to the other, and Parse reads that text in the region called from as the same calling code, national number and extension. Several members take seven digits for a local number and put their own area code in front; this never happens to such a text. It is false for Canada's seven-digit numbers: \"1 310-1234\" is read in Antigua as the national number 13101234.", "quantifier": "every valid ten-digit number of calling code 1, with or without an extension of up to nine digits, and every region IsNANPACountry accepts", "why_tests_cant": "There are 25 regions and 8*10^9 numbers. The leading 1 could be read as the national prefix, as the calling code or as a part of the number, depending on the region's lengths, its pattern and its national-prefix expression.", "anchors": ["phonenumberutil.go:FormatOutOfCountryCallingNumber", "phonenumberutil.go:Parse", "phonenumberutil.go:IsNANPACountry"]}
{"id": "C97", "title": "Exactly which files the loaders of the prefix tables accept, and which table each of them means", "statement": "LoadPrefixMap and LoadIntArrayMap load a decompressed file exactly if it has this layout: four bytes with the length of the texts; the texts, separated by newlines; four bytes with the number of entries; then per entry the distance of its key from the key before, as a base-128 number of at most ten bytes and less than 2^64, and the places of its texts among the texts, two bytes each (preceded by their number in one byte for arrays). Keys wrap around as signed 64-bit integers, the table holds exactly these entries, the later of equal keys winning, and its length is the largest digit count of a key. Anything shorter, a distance of 2^64 or more, or a place beyond the texts is refused; bytes after the last entry are ignored.", "quantifier": "every byte string, every table, every digit-count function", "why_tests_cant": "The files are arbitrary bytes: acceptance of all of them, with every cut, overflow and index, cannot be enumerated.", "anchors": ["internal/serialize/serialize.go:LoadPrefixMap", "internal/serialize/serialize.go:LoadIntArrayMap"]}
{"id": "C98", "title": "A prefix table that was cut off or has bytes added never loads as another table", "statement": "If LoadPrefixMap or LoadIntArrayMap loads a decompressed file, then loading any initial part of it either returns an error or gives the whole table, never one with some entries missing or changed; and loading it with any bytes added gives the same table.", "quantifier": "every file that loads, every place to cut it, every bytes added, every digit-count function", "why_tests_cant": "Every cut of every file would have to be tried; a cut inside a number or an index is a different case for each file.", "anchors": ["internal/serialize/serialize.go:LoadPrefixMap", "internal/serialize/serialize.go:LoadIntArrayMap"]}
