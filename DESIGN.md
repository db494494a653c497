# Formal model of nyaruka/phonenumbers in Rocq (Coq 8.16.1)

## 1. Approach

The library is modelled as an *executable* Gallina program that follows the Go source function by function, and the
properties of `properties.jsonl` are proved about that program.

* **Strings** are byte lists (`bytes := list N`), as Go strings are; runes are obtained by a model of Go's UTF-8
  decoder (invalid bytes decode to U+FFFD, width 1).
* **Regular expressions** are modelled, not assumed: an AST, a parser for the RE2/Go syntax used by the repository
  (metadata patterns are kept as the *strings* found in the metadata, and the code's string surgery on patterns is
  modelled as string surgery), and a leftmost-first backtracking matcher with captures. A declarative match relation
  is given and the matcher is proved sound (and, where needed, complete) for it.
* **Metadata** is an explicit argument (a `container` value). General theorems hold for every container, or for
  every container satisfying a *boolean* well-formedness check; the shipped metadata (decoded from the repository's
  embedded blobs into generated Coq data files) is shown to pass that check by computation in the kernel.
* **Errors** are values; **panics** are a separate outcome (`Panic`), so that "does not panic" is a statement.
* **Mutation through pointers** becomes a function returning the new value. Where the property is about a
  history (ParseToNumber into a used struct, the as-you-type formatter, the matcher iterator), the state is explicit and
  theorems are inductions over operation lists.
* **Concurrency** (regex cache, prefix mapper, time-zone once) is a small-step interleaving semantics over explicit
  shared state; theorems are invariants over all schedules.

## 2. Plan per property

| id | what is modelled | how it is proved |
|----|------------------|------------------|
| C01-C03 | `normalizeDigits`, `normalizeHelper`, `character.Digit`, UTF-8 decoding/encoding, Nd table | induction over the decoded runes; finite sweep over the Nd table |
| C04, C05 | `PhoneNumber` record with optional fields, NSN, leading-zero setter, ParseUint/FormatUint | arithmetic on decimal lists, induction |
| C06, C07 | `Format` E164 branch | unfolding + injectivity of decimal |
| C08, C09, C47 | formatting pipeline incl. regexp replacement | soundness of the regex matcher + boolean check of all shipped formatting rules |
| C10 | parse pipeline on `+digits` | general theorem for numbers the national-prefix step leaves alone; for the shipped metadata that condition is decided for *all* digit strings of each type by exploring products of partial derivatives of the patterns (DerivFacts.v); two families of exceptions are refuted with witnesses |
| C11-C13 | `parseHelper` | case analysis of the pipeline; refutation for reuse of a struct |
| C14-C16 | `IsNumberMatchWithNumbers` | case analysis, suffix lemmas |
| C17 | `testNumberLength`, `mergeLengths` | sorted-list lemmas, set specification |
| C18 | `TruncateTooLongNumber` loop | well-founded induction on the number |
| C19-C21 | validity / region / type | case analysis + boolean metadata check |
| C22 | `extractCountryCode` | bounded loop unfolding + list lemmas |
| C23 | `FormatInOriginalFormat` | case analysis; refutation for the unspecified source |
| C24 | area code / NDC length | case analysis; refutation for the zero/raw-input case |
| C25 | mobile dialing | alphabet lemma |
| C26-C28, C48 | `shortnumberinfo.go` | prefix/full match lemma, metadata check, permutation induction |
| C29-C32, C53 | `phonenumbermatcher.go`, `Leniency`, iterator | the find loop has fuel, shown sufficient; state invariant over all step sequences; case analysis of the leniency levels |
| C33-C35 | as-you-type formatter state machine | simulation / invariants over operation lists |
| C36, C37 | regex cache / prefix mapper transition systems | inductive invariants over all interleavings |
| C38, C50-C52 | lookups, carrier, geocoding, time zones | induction on prefix length; check of the shipped time-zone table |
| C39, C40, C49 | encoder, decoder and source-file reader on bytes | induction over the map and the lines |
| C41 | `NewContainer` | fold lemmas, permutation invariance |
| C42, C43 | metadata builder | induction over the list / string |
| C44 | RFC3966 phone-context | index arithmetic lemmas |
| C45 | string builder | list lemmas |
| C46 | all of the above with `Panic` outcome | boolean metadata check + no-panic lemmas |
| C54-C58 | type precedence, diallability, geographical numbers, supported types, national prefix | declarative precedence list (QuerySpec.v), case analysis |
| C59-C61 | rule choice, carrier codes, out-of-country formatting | declarative description of rule choice and of what a rule prints (RuleSpec.v); every shipped rule checked to be readable that way |
| C62-C65 | parser on digits, exit prefixes and separators | declarative reading relation (ReadSpec.v) proved functional and met by the parser; independence of the default region and of separators by simulation |
| C66, C67 | parser on printed texts and on texts with an extension | language lemmas about the extension pattern for any text; shape of printed texts from the shipped rules |
| C68–C71 | FormatNumberForMobileDialing, FormatOutOfCountryKeepingAlphaChars, FormatByPattern, FormatInOriginalFormat | the text specified in terms of the other public functions and of the metadata's rules (DialSpec.v); case analysis for any well-formed metadata, shipped instance; literal search and replacement lemmas for $NP, $FG and group references |
| C72 | example numbers (Session.v, Parse.v); iteration order of the Go maps as an argument | table of all shipped examples checked by computation; induction over the order |
| C73 | metadata.Use and restore, the maps handed out (Session.v) | state machine; induction over nested sequences |
| C74 | NATIONAL formatting followed by parsing in the same region | each rule's language, prefix and exit-prefix expression compared by derivatives (NationalMore.v), checked for every region, rule and type of the shipped metadata |
| C75 | the whole text search on texts made of numbers and quiet text | deterministic run of the search's main pattern over such a text (FindFacts.v), induction over the pieces (FindMore.v); for printed numbers, shape of the shipped rules and the grouping checks (FindPrint.v, FindShip.v) |
| C76 | IsNumberMatch and IsNumberMatchWithOneNumber on texts | case analysis on what the parser returns for each text with and without a region (MatchFacts.v), C62 for independence of the region, C10, C66 and C74 for printed texts |
| C77 | Leniency.Verify at VALID, STRICT_GROUPING and EXACT_GROUPING, and every match of a search | LenientSpec.v states the rules about letters x, national prefix, slashes and grouping without reference to the loops; LenientFacts.v, LenientMore.v (splitting any bytes at non-digits) and LenientShip.v (groups of the INTERNATIONAL and alternate formats) show each check equivalent to its rule |
| C78 | the filters of the text search: dates, timestamps, citations, brackets | NeverSpec.v writes the shapes as plain byte strings; NeverFacts.v shows that the compiled patterns find every occurrence of these shapes (language lemmas, not runs), NeverMore.v follows each match of a search back to a candidate that passed the filters, including pieces of a candidate that are retried |
| C79 | the as-you-type formatter from the plus sign to the last digit, against Format | ShowFacts.v defines decidable conditions on a list of rules (a rule that applies survives every narrowing step, a rule that survives before it prints the same or is discarded); ShowShip.v computes that every shipped entry meets them; ShowMore.v lifts them to all digit strings with derivatives of the expressions; ShowRun.v keeps an invariant over the keys: nothing extracted, calling code incomplete, calling code extracted with the applying rule still in the list |
| C80 | the remembered position of the as-you-type formatter | PosSpec.v counts marks over the keys and says what being right after the marked character means; PosFacts.v shows that both recorded positions equal the mark after any keys, and that scanning the output for the typed digits stops right there (using C34: nothing is lost) |
| C81 | regions and calling codes fit together | Regions.v models the listing functions; PropsRegion.v derives the agreement of all tables from C41 and C42 for any orderly collection, and checks by computation that the shipped one is orderly |
| C82 | validity and type do not depend on the region a number is attributed to | RegionFacts.v turns every pattern of a shared calling code into a deterministic automaton over the digits (proved equivalent to the expression), and walks the product for each pair of regions, with the exact length, through all reachable states; the walk covers every number |
| C83 | the number pattern and the extension pattern against a grammar over code points (ViableSpec.v) | the compiled expressions are flattened, every class is shown to mean an explicit set (case folding is symmetric, checked for all folded code points), labels by enumeration, repetitions by induction; leftmost match = longest extension |
| C84 | texts of digits, letters and separators (AlphaSpec.v) | each stage of parsing sees only the normalised text, which is the text of the keys; no extension can match because every extension ends with a digit or a hash |
| C85 | the extension as the digits after the main part (ExtensionSpec.v, ViableSpec.v) | every alternative of the extension pattern is: no decimal digits, one captured run of decimals, no decimal digits (checked over all 660 decimals), so the capture is the filter of the matched text; parsing commutes with cutting it off |
| C86 | NatSpec.v (which digits are the national prefix, which rules fit, the gap after the prefix), NatFacts.v (a template always has a place for the next digit), NatRun.v (the run of keystrokes), NatShip.v (the shipped entries meet the conditions, computed) | PropsNat.v: invariant of the keystroke run; any container that meets the conditions, and the shipped one |
| C87 | PrefixMapper.v (geocoding, time zones), Parse for the Argentine token; QuerySpec.geographical and TableSpec.longest_key as specification | PropsPlace.v: case analysis on the type with the longest-match theorems of C38; that the digits without the 9 parse back is decided for all Argentine numbers by the derivative exploration of C74 |
| C88 | `TerritorySpec.v` (lengths, consistency, descriptions), `PropsTerritory.v` over `Builder.v` | every step is classified as a value with a property or a stop with a reason; acceptance is the equivalence of the two |
| C89 | `TerritorySpec.v` (attributes, formats), `PropsTerritory.v` | the same classification for expressions and formats; replacement of placeholders is specified as first occurrence |
| C90 | `IddSpec.v` (what the expression for dialling abroad takes), `IddRun.v`, `IddShip.v`, `PropsIdd.v` | the run of C86 with the INTERNATIONAL rules and a prefix of its own; the template never runs out of places before the last digit, by a computed check of all shipped rules; together with C61 the display is FormatOutOfCountryCallingNumber |
| C91 | `PropsShortTable.v` (`latest`: the last entry of a collection for a region) | induction on the collection; the shipped table by computation |
| C92 | `PropsHistory.v` (`asked`: the answers of a sequence of lookups; `fresh`: the answer of a new mapper) | invariant: every stored table is what loading its language gives |
| C93 | `PropsOut.v` (`exits`: the expressions for exit prefixes with the prefix printed for them) | C61 gives the text; `OutFacts.v` shows that digits after an exit prefix are read like digits after a plus sign (converse of C63) and that the gaps do not matter (C65, C67); that each expression takes exactly the printed prefix, whatever follows, is evaluated with a symbolic rest; C10 for the number itself |
| C94 | `PropsMobile.v` | case by case along C68: international texts come back by C66 and C10, national ones by C74; without formatting the remaining characters are the E.164 text or the digits C74 reads, because the rules put only gaps between digits |
| C95 | `PropsRetype.v` | along the cases of C71: the raw input itself, the INTERNATIONAL text (C66), or a text of digits and gaps ending in a digit, which is read like its digits; those are the digits of the raw input because the code compares the diallable characters. Excludes calling code 54, the number zero and exit prefixes with a tilde |
| C96 | `PropsNanpa.v` | the general lemmas are over any metadata; for the 25 member regions it is computed with derivatives that every ten-digit number is in `[2-9]\d{9}`, that no international prefix fits a 1 in front of such digits, and that no member's national-prefix expression changes them; eleven digits are too long everywhere, so the 1 is the calling code |
| C97 | `FileSpec.v`, `PropsFile.v` | the layout is a grammar over bytes (inductive relations) that does not mention the loaders; equivalence of each reader with its rule by induction, for ten-byte numbers with the bounds 128^9 = 2^63 |
| C98 | `PropsCut.v` | every rule of the grammar of C97 holds with more bytes behind; so a part that loads gives the table of the whole, and by C39_total and C40_total anything else is an error, not a panic |

Every property is expressed in the model; none is marked not applicable. Where the natural reading of a property is
false of the code, the statement in `properties.jsonl` carries the exact condition and a theorem `..._refuted`
exhibits a witness for the unqualified claim (section 5).

How the files are organised, per topic: model files (`Parse.v`, `Format.v`, ...; definitions only, each with the Go
lines it models), a small `*Spec.v` with the independent vocabulary of the statements, `*Facts.v` with proofs, and a
`Props*.v` with the theorems `Cnn_*`, each followed by `Print Assumptions` and an `Example` showing that a concrete
case meets the hypotheses.

## 3. What is modelled

| Go source | model | remarks |
|-----------|-------|---------|
| `strings`, `strconv`, slices, maps, UTF-8 as used | Base.v, Utf8.v | out-of-range slices and nil dereferences are `Panic`; int32/uint64 conversions wrap as in Go |
| `unicode` (Nd, L, Latin, Mn, Sc, ToUpper for the letters used), `internal/character` | UnicodeTables.v | Unicode 15.0, generated |
| `regexp` | Regex.v | parser of the syntax used in code and metadata, leftmost-first matcher, Find/FindIndex/Submatch/ReplaceAll/Expand/Split; RE2's automata are not modelled, only their documented result |
| `phonenumber.pb.go`, `phonemetadata.pb.go` | Types.v | records with optional fields and the getters; the wire format is not modelled |
| `phonenumberutil.go` | Consts.v, Normalize.v, Validate.v, Format.v, Parse.v | all functions |
| `shortnumberinfo.go`, `internal/regexbasedmatcher` | ShortNumber.v | all functions |
| `phonenumbermatcher.go`, `phonenumbermatch.go`, `alternateformats.go`, leniency in `enums.go` | Matcher.v | all functions |
| `asyoutypeformatter.go` | AsYouType.v | all functions; string buffers as byte strings, justified by C45 |
| `internal/stringbuilder` | StringBuilder.v | with capacity; growth policy left open |
| `internal/regexcache` | RegexCache.v | interleaving semantics, RWMutex as a state component |
| `internal/prefixmapper`, `carrier`, `geocoding`, `timezone` | PrefixMapper.v, Concurrency.v | sequential functions and the interleaving semantics of the lazy loading (mutex, sync.Once) |
| `internal/serialize` | Serialize.v | from the gunzipped bytes |
| `metadata/source.go`, `metadata_util.go` | Container.v, Validate.v | the active container is an argument of every function |
| `internal/metadatabuilder` | Builder.v | from the unmarshalled XML records |
| `cmd/buildmetadata` | MetaBuild.v | reading of prefix files, writing of tables |
| embedded data | MetadataData.v, ShortData.v, AltData.v, PrefixData.v, Shipped.v, ShippedShort.v, ShippedTz.v | decoded by `rocq/gen/*.py` from the blobs in `/repo`; the carrier and geocoding tables are not included (their theorems hold for every table) |

Not modelled: the protobuf wire format and reflection code, gzip, XML decoding, `embed` and file access, `cmd/phoneparser`,
the git, network and printing parts of `cmd/buildmetadata`, `go:generate` files, trivial accessors; performance; the Go memory
model beyond the proof that conflicting accesses are never simultaneous (C36, C37); swapping the container with
`metadata.Use` while calls are running (documented as unsupported; a swap between calls is a change of the argument).

Simplifications inside the modelled part are stated in the comment of the definition concerned. The main ones: a Go
map is a list of pairs with an explicit iteration order where the order can be observed; a struct filled through a pointer
is a returned value; loops have fuel where Coq needs it, with a proof that the fuel suffices; `error` values are
compared by identity of the exported error only, not by message.

## 4. Trusted base

* The kernel of Coq 8.16.1 (with its virtual machine for the computed checks; `coqchk` re-checks all modules without it).
* `Print Assumptions` after every theorem of the `Props*.v` files says **Closed under the global context** for every one
  of them: no axioms of the standard library, of other libraries or of our own are used.
  `coqchk` lists all constants without a body in the loaded libraries, used or not; these are seven, all of `Coq.ssr.ssrunder.Under_rel`
  (`Under_rel`, `Under_relE`, `Under_rel_from_rel`, `Over_rel`, `over_rel`, `over_rel_done`, `under_rel_done`), from Coq's own distribution and
  not used by any theorem here.
* The faithfulness of the hand translation. Evidence: every definition cites its source lines, and the repository's own
  unit tests are translated by scripts and evaluated on the model in the kernel (Conformance.v, ConformanceShort.v, ConformanceAytf.v,
  ConformanceMatcher.v); the few assertions not translated are counted in the headers of those files.
* The generated data files. The scripts in `rocq/gen/` decode the blobs with Python's gzip and a small protobuf
  decoder (`pbdec.py`), the Unicode tables come from Perl 5.38 (Unicode 15.0, the version of Go 1.24). `Shipped.v` proves that the
  container is what the modelled `NewContainer` makes of the decoded collection, and C42 that the region map is what the modelled builder
  makes of it.
* The reading of Go's documentation for `regexp` (leftmost-first, Perl-like submatches), `sync` and maps.

## 5. Findings

Claims one might expect that are false of the code, each with a theorem exhibiting a witness:

* C10: valid Japanese toll-free and Belarusian premium-rate numbers do not survive E.164 and Parse.
* C13: ParseToNumber into a used struct keeps a stale extension or number of leading zeros.
* C18: TruncateTooLongNumber may answer false although a prefix is valid (codes with local-only lengths).
* C20: a valid number need not be possible for its own type (twelve region/type pairs of +1 and +7).
* C23, C24, C25: number 0 with raw input, unspecified source and unsupported codes echo the raw input.
* C30: the try limit of the matcher is not a bound on the rejected candidates.
* C34: the as-you-type formatter loses twelve digits in Brazil.
* C36: overlapping first calls of the cache may return distinct objects. C37: failed loads are retried.
* C38: carrier and geocoding prefixes of ten or more digits are never found.
* C39: the table writer silently truncates beyond the format's limits. C43: garbage in length lists is accepted. C42: territories without id.
* C45: Substring between length and capacity returns stale bytes instead of panicking.
* C46: the exported Leniency.Verify can panic on arguments that do not come from a search.
* C47: Argentine mobile numbers lose their leading 9 in NATIONAL format.
* C53: EXACT_GROUPING is not contained in STRICT_GROUPING.
* C59: a carrier code containing `$` is taken for a group reference.
* C65: "12" parses, "1 2" does not. C66, C67: ten digit extensions after " x" are not read back.
* C68: North American local numbers are dialled as +1 and seven digits. C69: the national prefix stays in the kept text when a separator
  stands within the first three digits ("0020 7031 3000"), and the dial-tone mark of exit prefixes is not printed. C70: "$FG$NP" loses the first
  group; E164 text of FormatByPattern has separators and the extension. C71: an unsupported calling code without raw input loses a digit.
* C72: examples for FIXED_LINE_OR_MOBILE are fixed lines. C73: restores out of order, and edits of the map GetSupportedRegions returns, change the
  metadata in use.
* C74: NATIONAL texts of some valid numbers mean another number at home: Argentine fixed lines such as 11 1523-4567, the old seven digit
  Gabonese mobiles, and toll-free numbers that start like an exit prefix (TH, BG, PA, QA read 00 800 ... as a call to code 800) or a national prefix (JP).
* C75: two numbers written without plus signs and separated by a space alone can be found as one (030 23456 030 34567 in Germany).
* C76: a number of a non-geographic calling code never matches a text without calling code: its region "001" is not one that Parse
  accepts, so the answer is NOT_A_NUMBER. A number stored with the leading-zero flag and a count of 0 matches its own text only as
  SHORT_NSN_MATCH.
* C77: if the calling code is not written in one piece (+4 4 20 7031 3000), the strict check starts one byte less than the length of
  the calling code into the text, because the -1 of strings.Index is added to it; the text is accepted all the same. EXACT_GROUPING accepts any
  text that starts with the number in one piece, and "020 7031 3000 xx7" is read with extension 7 but refused from VALID on.
* C79: a number to which no rule applies (+247 62889) is shown without the space that Format puts after the calling code.
* C80: after a late exit prefix (Chile, 1100 43 1 2345678) the formatter has given up but shows formatted text; the remembered position is then that in the typed text, two characters too early. Digits of other scripts shown as typed are not found, and the position is the end of the output.
* C82: numbers valid for two regions: +39 320000000 (Italy, Vatican), +44 7924000000 (United Kingdom, Isle of Man), +47 40000000 (Norway, Svalbard), +61 891010000 (Australia, Cocos Islands), +212 528800000 (Western Sahara, Morocco), +358 400000 (Aland, Finland), +590 590280000 (Saint Barthelemy, Guadeloupe).
* C84: a vanity number with an X before its final digits (1 800 FOX 1234) is read as a number with an extension; the letters and digits after the X are lost from the number (C84_x_refuted).
* C85: the digits of an extension keep their script: ext. 55 in Arabic-Indic digits is stored as written while the national number is converted, and the two spellings of one number do not match (C85_same_digits_refuted).
* C86: rules that bracket the national prefix (AU `(0$1)`, also IE, PK, LT, RU `8 ($1)`) are shown without the brackets by the as-you-type formatter, so the display ends in `02 1234 5678` while Format prints `(02) 1234 5678`. Typed without the prefix, AR, BR, CN, ID, JP and NC are outside the theorem: they have rules for three digits or rules that cannot be told apart digit by digit.
* C87: a number that two regions accept (61 8 9101 0000: AU and CC) has no country in its description, but GetDescriptionForNumberForUserRegion names one of the two to a user from elsewhere.
* C88: an element of the source without a length list is stored with the general lengths; a transform rule without an expression for the national prefix is silently dropped (C89).
* C90: from Hong Kong, whose expression may take a third digit, 00 81 ... is read as 008 and 1 ..., although FormatOutOfCountryCallingNumber gives just that prefix (`C90_longer_prefix_refuted`); a carrier's prefix of four digits such as 0030 stays unformatted (`C90_carrier_refuted`).
* C93: from Hong Kong FormatOutOfCountryCallingNumber prints "00 81 3-1234-5678" for a number in Tokyo, and Parse with default region HK reads this text as a number of calling code 1 (`C93_hong_kong_refuted`).
* C94: the valid number +54 1115234567 dialled from a mobile phone in Argentina gives 01115234567, which Parse reads there as a number with a leading zero (`C94_argentina_refuted`; same cause as C74).
* C96: the valid Canadian number +1 3101234 dialled from Antigua is "1 310-1234", which Parse reads there as the national number 13101234 (`C96_seven_digits_refuted`).
* C97: the loaders ignore bytes after the last entry, and a key may go down: a distance of 2^64 - 1 is a step of -1 (`C97_ten_bytes`).

## 6. Testing the theorems

`seeded/LOG.jsonl` records edits of the model in a scratch copy: the definition, the edit, the claim it breaks, the theorems that
failed and those that were tightened afterwards. A failing proof script is admitted so that later files are checked too; the list
of failures is thus an over-approximation, and the informative entries are those with few or none.
