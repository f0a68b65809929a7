# Formal model of wezm/nmea-parser in Rocq (Coq 8.16.1)

Everything is in `rocq/theories/` (logical name `Verif`). Build: `cd rocq && coq_makefile -f _CoqProject
-o Makefile && make`. Libraries: Coq standard library, std++ (finite maps), Flocq (meaning of doubles).

## 1. What is modelled, and how

The model is a set of total, computable Gallina functions, one per Rust function. Each definition
cites the file and lines of `/repo` it models and states its simplifications.

| file | models |
|------|--------|
| `Base.v` | results, errors and panics as data; the sequencing notation |
| `Str.v` | the Rust `str` operations the crate uses: split, find, rfind, byte slicing with char-boundary panics, trim_end, decimal/hex formatting, `parse` for integers |
| `F64.v` | IEEE binary64 (`Coq.Floats.SpecFloat`, no axioms) and `parse::<f64>` |
| `Chrono.v` | the part of chrono 0.4 that is used: validity of dates and times, comparison |
| `Types.v` | all public structs and enums, `ParsedSentence`, `ParseError`, the parser state |
| `Util.v` | `src/util.rs` |
| `Regex.v` | the two regular expressions of `src/util.rs`: syntax, search, groups |
| `AisMod.v` | `src/ais/mod.rs`: enum constructors and `VesselStaticData::country` |
| `Vdm.v` | `src/ais/vdm_t*.rs` |
| `Gnss.v` | `src/gnss/*.rs` |
| `Parser.v` | `src/lib.rs` |
| `Display.v` | texts of the enums (`Display`) and the `LatLon` accessors |
| `Equality.v` | the derived `PartialEq` of all reports |
| `Log.v` | the lines written to the log (`debug!`, `warn!`) |
| `Default.v` | the `Default` impls of the reports and enums |
| `Cost.v` | number of loop rounds of one `parse_sentence` call |
| `ErrorText.v` | `ToString` of `ParseError`, Debug escaping |
| `Utf8.v` | the start of `parse_sentence` once more on UTF-8 bytes, with byte offsets; proved equal (C105) |
| `ModelTests.v` | the crate's own unit tests, run on the model by computation |
| `Cases1.v` to `Cases5.v` | for theorems without an example in their own file that applies them: inputs that meet all hypotheses, and what then follows |

Conventions:

* A Rust `&str`/`String` is a list of code points (`list N`). Valid UTF-8 strings and lists of
  Unicode scalar values are in bijection; byte lengths and byte slices are computed with the UTF-8
  length of each character (proved equal to a model on bytes, C105). Theorems quantify over all lists of `N`, a superset.
* `Result` is data; a panic is the explicit value `Panic`. A function with `&mut self` returns the
  new state next to the outcome, also when it panics (the state a caller sees after
  `catch_unwind`).
* The wall clock is an argument `now` (`Utc::now()` is called at most once per `parse_sentence`).
* Integer overflow depends on the build profile. It can happen in two places only: `(c as u8) - 48`
  in `parse_payload` and `msg_count + 1` in GSV. The model takes a flag `ovf` (true: debug build,
  panics; false: release build, wraps). Theorems hold for both unless they say otherwise.
* `HashMap` is a std++ `gmap` (finite map with extensional equality).
* f64 is `spec_float` with precision 53 and emax 1024, round to nearest even: bit-exact.
  `powi(2)` is taken to be one multiplication `x * x`.

## 2. Not modelled

* Of the log only level and text of lines (`Log.v`), not target, module or line number. The text of `CorruptedSentence` is rendered in `ErrorText.v`
  (in `Types.v` the error keeps the two compared strings); which non-ASCII characters are escaped is
  left open there, as it depends on the version of the standard library.
* Memory exhaustion, run time other than the step counts of `Cost.v`, counters that would need 2^31 or more fields to overflow.
* NaN payloads and NaN sign.
* `parse::<f64>` follows the grammar documented since Rust 1.55 (case-insensitive inf/infinity/nan).
  Exponents are exact integers; the library's saturation at extremely long inputs is not modelled.
* Derived impls other than `PartialEq` and `Default` (`Clone`, `Debug`), the crate's dependencies other than the
  functions named above, the test modules, `mid-to-iso3166.py` (its table of MIDs is used as the
  specification of `country`).

## 3. Specification and proof files

`Spec*.v` state the intended meaning without the model's helpers: checksum and comma-joined sentences
(`SpecText`), results (`SpecResult`), big-endian numbers, armoring and ITU-R M.1371 bit layouts
(`SpecAis`), calendar and clock (`SpecTime`), pending entries and histories (`SpecState`), GSV groups
(`SpecGnss`), real-number meaning of doubles (`SpecReal`), measurements (`SpecMeasure`), field texts
(`SpecFields`), countries and ship types (`SpecCountry`), panics (`SpecPanic`), clock and build profile
(`SpecEnv`), where pending entries come from (`SpecHist`), texts of values (`SpecDisplay`), ranges (`SpecRange`),
mixed transmissions (`SpecMix`), equal reports (`SpecEq`), errors and their texts (`SpecError`, `SpecErrorText`), contents of messages (`SpecSame`, `SpecSameStatic`), waiting calls (`SpecWait`), line ends (`SpecLine`), log lines (`SpecLog`), damage (`SpecDamage`), conforming streams (`SpecMemory`), ways of writing (`SpecWriting`), sentences behind a report (`SpecUse`), other senders (`SpecTalker`), sizes and work (`SpecCost`), transmissions without data (`SpecDefault`), assembly of fragments (`SpecAssembly`), satellite groups (`SpecGroups`), static parts (`SpecMerge`, `SpecPairs`), all that is kept (`SpecWhole`), direct calls of handlers (`SpecDirect`), possible parsers (`SpecStates`), every call completely (`SpecComplete`), written numbers and satellite texts (`SpecExact`), data of GNSS sentences (`SpecSharp`), data both AIS and GNSS report (`SpecFact`), meaning of regular expressions (`SpecRegex`), valid UTF-8 (`SpecUtf8`), stray satellite messages (`SpecReach`),
the count of days and seconds (`SpecMoment`), the bits (`SpecLocal`, `SpecSpot`) and fields (`SpecColumns`) of each datum, the sides and signs (`SpecMirror`), the sentences a receiver writes (`SpecSender`, `SpecJournal`) and a transponder sends (`SpecTransponder`, `SpecVoyage`), bits on the line (`SpecBurst`). `*Facts.v` hold lemmas, `Prop*.v` the property theorems, each followed by
`Print Assumptions` and by examples that meet its hypotheses.

A theorem named `..._refuted` proves that the property is false of the code, with a witness (or for a
whole class of inputs); `..._partial` proves the part of a property that does hold.

`seeded/LOG.jsonl` records the mutation tests: wrong programs obtained by editing one definition of the
model in a scratch copy, and the theorems that no longer prove. `seeded/AUTO.jsonl` does the same for edits made
by a script over all definitions (a constant, a comparison, a branch); the build stops at the first broken
proof there, so only that one is named. Edits that survive carry the reason.

## 4. Trusted base

* The Coq 8.16.1 kernel, including `vm_compute`.
* That the model says what `/repo` does (by reading; supported by `ModelTests.v`).
* That the specifications say what the English says.
* Axioms, all from the standard library, none of our own. As reported by `Print Assumptions`:
  * R4 = `ClassicalDedekindReals.sig_forall_dec`, `ClassicalDedekindReals.sig_not_dec`,
    `Classical_Prop.classic`, `FunctionalExtensionality.functional_extensionality_dep`
    (real numbers, through `Coq.Reals` and Flocq).
  * R2 = `ClassicalDedekindReals.sig_forall_dec`,
    `FunctionalExtensionality.functional_extensionality_dep`.
  * K = `Classical_Prop.classic` alone.

## 5. Property by property

Axioms: "none" means `Print Assumptions` says "Closed under the global context"; R4, R2 and K as in section 4.

### C01 — A wrong checksum is always rejected and changes nothing (proved)

Independent checksum (`xor_of` over the code points mod 256, two upper-case hex digits) in SpecText; case analysis of `parse_sentence` on a symbolic string.

- `c01_wrong_checksum_rejected` (`PropFront.v`), axioms: none
- `c01_wrong_checksum_keeps_state` (`PropFront.v`), axioms: none

### C02 — The checksum is optional and otherwise transparent (proved)

Three calls on one symbolic body compared; `split_checksum` inverted.

- `c02_checksum_optional` (`PropFront.v`), axioms: none

### C03 — One damaged character is always detected (proved)

XOR of a list with one changed element; `c03_exactly` says for any damage when it is seen; the blind spots (exchange, first character, same low byte) are theorems of their own.

- `c03_damaged_character_detected` (`PropFront.v`), axioms: none
- `c03_damaged_ascii_detected` (`PropFront.v`), axioms: none
- `c03_blind_exchange` (`PropFront.v`), axioms: none
- `c03_blind_first_character` (`PropFront.v`), axioms: none
- `c03_exactly` (`PropExact.v`), axioms: none
- `c03_blind_same_byte` (`PropExact.v`), axioms: none

### C04 — A sentence without any comma is invalid (proved)

`before_first` fails without a comma; both with and without checksum.

- `c04_no_comma_invalid` (`PropFront.v`), axioms: none

### C05 — GNSS sentences are routed by their formatter and tagged with their talker (proved)

Talker/formatter decomposition of the type field; every Ok result traced back to its handler.

- `c05_gnss_result_routed` (`PropFront.v`), axioms: none
- `c05_gnss_sentence_routed` (`PropFront.v`), axioms: none

### C06 — AIS results carry the station and the own-vessel flag of the completing sentence (proved)

Inversion of every AIS handler and of the payload completion.

- `c06_station_and_own_vessel` (`PropFront.v`), axioms: none

### C07 — Everything outside the supported set is reported as unsupported (proved)

Dispatch on symbolic type text and on the 6-bit message type (all 64 by case analysis).

- `c07_unsupported_formatter` (`PropFront.v`), axioms: none
- `c07_unsupported_type` (`PropFront.v`), axioms: none
- `c07_unsupported_message` (`PropBits.v`), axioms: none

### C08 — parse_sentence does not panic on any input (partial)

`panics` (SpecPanic) is an independent inductive description; `c08_panics` proves it equivalent to a panicking call for every string, state, profile and sane clock; `c08_well_formed_partial` proves no panic for a readable sufficient condition.

Missing or false: False as stated: the code panics on the inputs described by `panics` (short or non-ASCII type field, impossible dates/times in GGA/RMC/GLL, type 4 and 5 messages, overflow in debug builds). The exact set is proved (c08_panics).

- `c08_panics` (`PropPanic.v`), axioms: R4
- `c08_well_formed_partial` (`PropPanic.v`), axioms: R4
- `c08_no_panic_refuted` (`PropPanic.v`), axioms: none

### C09 — An error never corrupts pending state (proved)

One-step lemma over all handlers; `c09_failures_leave_no_trace` (PropFail.v) is induction with it over a stream into which the failing calls are mixed in any order.

- `c09_error_keeps_state` (`PropState.v`), axioms: none
- `c09_failures_leave_no_trace` (`PropFail.v`), axioms: none

### C10 — Single-sentence messages are stateless (proved)

Result and state functions are shown not to mention the parser for these sentences.

- `c10_stateless` (`PropState.v`), axioms: none
- `c10_gnss_stateless` (`PropState.v`), axioms: none
- `c10_one_fragment_stateless` (`PropState.v`), axioms: none

### C11 — Two fragments in order decode the concatenated payload (proved)

Frame lemma: an unrelated sentence leaves both halves alone; induction over the history between the halves.

- `c11_fragments_in_order` (`PropState.v`), axioms: none

### C12 — Two fragments in reverse order decode the same message (proved)

As C11 with the halves exchanged.

- `c12_fragments_reversed` (`PropState.v`), axioms: none

### C13 — A finished message leaves nothing behind and halves never pile up (proved)

Invariant by induction over the history (`reachable_invariant`).

- `c13_at_most_one_half` (`PropState.v`), axioms: none
- `c13_finished_message_forgotten` (`PropState.v`), axioms: none

### C14 — Independent streams do not interfere (proved)

Footprint `touches`: agreement outside the footprint is preserved, results depend on the footprint only; induction over interleavings.

- `c14_streams_independent` (`PropState.v`), axioms: none
- `c14_ais_and_gnss_independent` (`PropState.v`), axioms: none
- `c14_messages_independent` (`PropState.v`), axioms: none
- `c14_calls_commute` (`PropState.v`), axioms: none

### C15 — Fragments of different talkers are never combined (partial)

The refutation is an instance of C11, which holds for any two talkers. The rest follows from C65 (where reports come from).

Missing or false: False for AIS: halves of any two talkers are joined (c15_talkers_kept_apart_refuted, for all talkers and states). Proved is what remains: joined halves agree in formatter, message number and channel (c15_same_message_partial), and satellite data of different talkers are never combined (c15_satellites_one_talker).

- `c15_talkers_kept_apart_refuted` (`PropState.v`), axioms: none
- `c15_same_message_partial` (`PropHist.v`), axioms: none
- `c15_satellites_one_talker` (`PropHist.v`), axioms: none

### C16 — Unassemblable AIS sentences are Incomplete and store nothing (proved)

Case analysis of `vdm_payload`.

- `c16_unassemblable_incomplete` (`PropBits.v`), axioms: none

### C17 — Six-bit armoring is decoded exactly (proved)

Induction over groups of six bits, independent `armor`.

- `c17_armor_decoded` (`PropBits.v`), axioms: none
- `c17_armor_injective` (`PropBits.v`), axioms: none

### C18 — Characters that are not AIS armor are rejected (partial)

In a checked build a character below '0' panics; every other text is decoded. Witness for the violation.

Missing or false: False: illegal characters are decoded to bits (release build) or panic (debug build, below '0').

- `c18_checked_build_panics` (`PropBits.v`), axioms: none
- `c18_anything_is_decoded` (`PropBits.v`), axioms: none
- `c18_illegal_character_refuted` (`PropBits.v`), axioms: none

### C19 — Unsigned and signed fields are read big-endian and two's complement, zero-extended past the end (proved)

`be_value`/two's complement defined on bit lists; induction over the field length.

- `c19_unsigned_fields` (`PropBits.v`), axioms: none
- `c19_signed_fields` (`PropBits.v`), axioms: none
- `c19_inside` (`PropBits.v`), axioms: none
- `c19_past_the_end` (`PropBits.v`), axioms: none

### C20 — Six-bit text is decoded exactly (proved)

Induction over six-bit groups, independent character table.

- `c20_text_decoded` (`PropBits.v`), axioms: none
- `c20_text_range` (`PropBits.v`), axioms: none

### C21 — Class A position reports (1, 2, 3) decode every field of the ITU layout (proved)

Encoder from a (width, value) layout list; each field window located by computing prefix widths; round trip for all values.

- `c21_class_a_position` (`PropAis.v`), axioms: none

### C22 — Base station reports (4) decode every field (proved)

As C21, with valid calendar date and time as hypothesis (others panic, C08).

- `c22_base_station` (`PropAis.v`), axioms: none

### C23 — Static and voyage reports (5) decode every field (partial)

As C21, for one sentence and for two fragments in both orders.

Missing or false: Everything but the ship class (reported as class B-or-other instead of A) and the unscaled draught holds; see the refuted theorems.

- `c23_voyage_one_sentence_partial` (`PropStatic.v`), axioms: none
- `c23_voyage_two_sentences_partial` (`PropStatic.v`), axioms: none
- `c23_class_a_refuted` (`PropStatic.v`), axioms: none
- `c23_draught_refuted` (`PropStatic.v`), axioms: none

### C24 — Addressed binary messages (6) decode every header field (proved)

As C21; the application data is arbitrary.

- `c24_binary_addressed` (`PropAis.v`), axioms: none

### C25 — SAR aircraft reports (9) decode every field (proved)

As C21.

- `c25_sar_aircraft` (`PropAis.v`), axioms: none

### C26 — UTC inquiries (10) decode both identities (proved)

As C21.

- `c26_utc_inquiry` (`PropAis.v`), axioms: none

### C27 — Class B position reports (18) decode every field (partial)

As C21.

Missing or false: All fields but the class B flags hold; the flags are read one bit early.

- `c27_class_b_position_partial` (`PropAis.v`), axioms: none
- `c27_class_b_flags_refuted` (`PropAis.v`), axioms: none

### C28 — Aid-to-navigation reports (21) decode every field (partial)

As C21.

Missing or false: Holds except for the off-position indicator and names ending at the 20th character with a space.

- `c28_aid_to_navigation_partial` (`PropAis.v`), axioms: none
- `c28_off_position_refuted` (`PropAis.v`), axioms: none
- `c28_name_refuted` (`PropAis.v`), axioms: none

### C29 — Class B static data (24) is assembled from part A and part B (proved)

As C21 for both parts, the state entry followed through the history in between.

- `c29_part_a_then_b` (`PropStatic.v`), axioms: none
- `c29_part_b_then_a` (`PropStatic.v`), axioms: none

### C30 — A type 24 report is only returned once both parts were seen (partial)

Witnesses for A+A and B+B; the positive part: a report needs two sentences of that vessel.

Missing or false: False: two part As or two part Bs are merged; what is proved is that a report needs two sentences of the vessel.

- `c30_both_parts_refuted` (`PropStatic.v`), axioms: none
- `c30_two_part_b_refuted` (`PropStatic.v`), axioms: none
- `c30_report_needs_two_sentences_partial` (`PropStatic.v`), axioms: none

### C31 — Long range reports (27) decode every field (partial)

As C21; the real content of the misplaced attributes is stated exactly.

Missing or false: False for latitude, longitude, speed, course and GNSS status; proved for the other fields, with the actual content of the wrong ones.

- `c31_long_range_partial` (`PropAis.v`), axioms: none
- `c31_long_range_refuted` (`PropAis.v`), axioms: none

### C32 — AIS coordinates are the nearest doubles to the transmitted 1/10000 minute values (proved)

Flocq: correct rounding of raw/600000 composed from two operations, checked against the nearest-double predicate; injectivity by a gap argument.

- `c32_nearest_coordinates` (`PropMeasure.v`), axioms: R4
- `c32_coordinates_injective` (`PropMeasure.v`), axioms: R4

### C33 — AIS coordinates are in range when transmitted in range (partial)

Real-number inequality through monotone rounding.

Missing or false: Proved with the restriction on the raw value (c33_in_range_iff is an equivalence); the refuted theorem shows that the restriction is needed.

- `c33_in_range_iff` (`PropMeasure.v`), axioms: R4
- `c33_out_of_range_refuted` (`PropMeasure.v`), axioms: R4

### C34 — Speed, course and heading have the documented range and resolution (proved)

Error bound through relative rounding errors.

- `c34_speed_course_heading` (`PropMeasure.v`), axioms: R4

### C35 — Rate of turn stays within the documented 708 degrees per minute (partial)

Real-number lemma on (raw/4.733)^2 in doubles.

Missing or false: Sign, symmetry, order and availability proved; the documented range is violated (up to 22376).

- `c35_turn_partial` (`PropMeasure.v`), axioms: R2
- `c35_turn_order` (`PropMeasure.v`), axioms: R2
- `c35_range_refuted` (`PropMeasure.v`), axioms: R2

### C36 — The special manoeuvre indicator distinguishes engaged from not engaged (partial)

All four raw codes.

Missing or false: False: raw 1 gives true and false is never produced.

- `c36_manoeuvre_partial` (`PropMeasure.v`), axioms: none
- `c36_not_engaged_refuted` (`PropMeasure.v`), axioms: none

### C37 — Missing trailing payload characters read as zero (proved)

Windows of a list and of the list with zeros appended agree.

- `c37_trailing_zero_characters` (`PropBits.v`), axioms: none

### C38 — Fill bits and anything after the payload field are ignored (proved)

The scan stops after the payload field.

- `c38_rest_ignored` (`PropBits.v`), axioms: none

### C39 — GGA fields are decoded by position, empty means not available (proved)

Relational field specification (SpecFields): each attribute is characterised by its field text; both directions (Ok and error).

- `c39_gga` (`PropFields.v`), axioms: R4

### C40 — RMC fields are decoded by position (proved)

As C39.

- `c40_rmc` (`PropFields.v`), axioms: R4

### C41 — GSA fields are decoded by position (proved)

As C39.

- `c41_gsa` (`PropFields.v`), axioms: R4
- `c41_at_most_twelve` (`PropFields.v`), axioms: R4

### C42 — GLL fields are decoded by position (proved)

As C39.

- `c42_gll` (`PropFields.v`), axioms: R4

### C43 — VTG never fails and decodes by position (proved)

As C39.

- `c43_vtg` (`PropFields.v`), axioms: R4

### C44 — Text coordinates denote degrees and minutes with the hemisphere's sign (proved)

Fixed digit groups parsed symbolically; rounding error bound by Flocq.

- `c44_text_coordinates` (`PropFields.v`), axioms: R4
- `c44_refused` (`PropFields.v`), axioms: R4
- `c44_mirror` (`PropFields.v`), axioms: R4

### C45 — Text coordinates are in the legal range (partial)

From C44 by interval reasoning.

Missing or false: In range exactly for legal texts; the code accepts others.

- `c45_in_range` (`PropFields.v`), axioms: R4
- `c45_legal_text` (`PropFields.v`), axioms: R4
- `c45_out_of_range_refuted` (`PropFields.v`), axioms: R2

### C46 — Integer fields accept exactly the decimal numerals in range (proved)

Induction over digit strings, independent `denotes`. `PropExact.v` adds the satellite numbers of GSA and GSV, from C41 and C49.

- `c46_integer_fields` (`PropFields.v`), axioms: R4
- `c46_round_trip` (`PropFields.v`), axioms: R4
- `c46_satellite_numbers` (`PropExact.v`), axioms: R4
- `c46_satellite_in_view` (`PropExact.v`), axioms: none

### C47 — Decimal fields are the nearest double to the written number (partial)

`parse_f64` proved to be the correctly rounded value of the written decimal number.

Missing or false: Nearest double proved for every decimal text; the refuted theorem shows non-finite results.

- `c47_nearest_double` (`PropFields.v`), axioms: R4
- `c47_only_numbers` (`PropFields.v`), axioms: R4
- `c47_finite_refuted` (`PropFields.v`), axioms: none

### C48 — A GSV group is complete in any order (proved)

Induction over permutations of the group, footprint for sentences in between.

- `c48_group_any_order` (`PropGsv.v`), axioms: none
- `c48_group_interleaved` (`PropGsv.v`), axioms: none

### C49 — Malformed satellite entries are skipped, not fatal, and optional values fit their types (proved)

Per-block relation between texts and satellite entry.

- `c49_blocks` (`PropGsv.v`), axioms: none
- `c49_never_fatal` (`PropGsv.v`), axioms: none

### C50 — A GSV sentence numbered outside its group is not kept forever (partial)

A stray key is never read by any GSV sentence: invariant over all histories; in-range sentences can be consumed.

Missing or false: False for stray message numbers, proved for message numbers in range.

- `c50_stray_kept_forever_refuted` (`PropGsv.v`), axioms: none
- `c50_in_range_can_leave_partial` (`PropGsv.v`), axioms: none

### C51 — Pending memory grows by at most one entry per sentence (proved)

Size of the maps; a history of any length reaching the bound.

- `c51_at_most_one_per_call` (`PropState.v`), axioms: none
- `c51_unbounded` (`PropState.v`), axioms: none

### C52 — Country is a function of the MID of the MMSI (partial)

Table of MID allocations written independently in SpecCountry; complete case analysis over 1000 MIDs lifted to all MMSIs.

Missing or false: Three wrong MIDs (445, 660, 676), everything else proved.

- `c52_country_partial` (`PropTables.v`), axioms: none
- `c52_none_for_unallocated` (`PropTables.v`), axioms: none
- `c52_letters` (`PropTables.v`), axioms: none
- `c52_only_the_mid` (`PropTables.v`), axioms: none
- `c52_other_countries_refuted` (`PropTables.v`), axioms: none

### C53 — Ship and cargo type codes are classified as documented (partial)

Tied to type 5 and 24 payloads for all codes.

Missing or false: Wrong for tankers (8x) and other (9x), everything else proved.

- `c53_voyage_partial` (`PropTables.v`), axioms: none
- `c53_voyage_refuted` (`PropTables.v`), axioms: none
- `c53_class_b_partial` (`PropTables.v`), axioms: none

### C54 — ETA is unavailable exactly for the not-available code and otherwise not in the past (partial)

Exact characterisation of the reported ETA (`c54_eta`), then the violated and the remaining parts.

Missing or false: Exact behaviour proved (c54_eta); the documented behaviour is violated (seconds from draught bits, current year only).

- `c54_eta` (`PropTables.v`), axioms: none
- `c54_none_partial` (`PropTables.v`), axioms: none
- `c54_not_available_refuted` (`PropTables.v`), axioms: none
- `c54_this_year_partial` (`PropTables.v`), axioms: none
- `c54_past_refuted` (`PropTables.v`), axioms: none

### C55 — Times of day are placed on the current UTC date (proved)

Text relation to digits and clock date.

- `c55_time_of_day` (`PropFields.v`), axioms: R4
- `c55_no_time` (`PropFields.v`), axioms: R4

### C56 — RMC dates fall in the current century (proved)

As C55.

- `c56_date_and_time` (`PropFields.v`), axioms: R4

### C57 — Missing trailing GNSS fields are the same as empty ones (proved)

`field` of a list and of the list with empty fields appended agree.

- `c57_missing_fields` (`PropFields.v`), axioms: none
- `c57_trailing_commas` (`PropFields.v`), axioms: none

### C58 — FAA mode letters round-trip (proved)

Finite modes, arbitrary strings.

- `c58_modes` (`PropFields.v`), axioms: R4

### C59 — Merging static data keeps every known value (proved)

Record-wise, invariant that stored records have merge-compatible identity.

- `c59_merge_keeps_values` (`PropStatic.v`), axioms: none
- `c59_merge_never_fails` (`PropStatic.v`), axioms: none

### C60 — A caught panic leaves the parser usable (proved)

One-step lemma on the state returned with a panic.

- `c60_panic_keeps_state` (`PropState.v`), axioms: none
- `c60_panic_reachable` (`PropState.v`), axioms: none

### C61 — Damage to the checksum digits is detected (partial)

`split_checksum` on a body with arbitrary checksum text.

Missing or false: Proved for checksum texts free of '*'; false for a digit damaged into '*'.

- `c61_damaged_checksum_detected` (`PropFront.v`), axioms: none
- `c61_checksum_digit_star_refuted` (`PropFront.v`), axioms: none

### C62 — Unreadable fragment numbers are reported and change nothing (proved)

Numerals characterised by `denotes`.

- `c62_unreadable_fragment_numbers` (`PropBits.v`), axioms: none

### C63 — Debug and release builds agree unless the debug build panics (proved)

Relational comparison of the model with `ovf` true and false; the difference derived from C08, as an equivalence in `c63_panics`.

- `c63_builds_agree` (`PropEnv.v`), axioms: none
- `c63_differences` (`PropEnv.v`), axioms: R4
- `c63_runs_agree` (`PropEnv.v`), axioms: none
- `c63_panics` (`PropExact.v`), axioms: R4

### C64 — The clock only matters for time stamps (proved)

Two runs of the same call at two clock values; result relation `same_but_times` in SpecEnv.

- `c64_state` (`PropEnv.v`), axioms: none
- `c64_only_times` (`PropEnv.v`), axioms: none
- `c64_clock_irrelevant` (`PropEnv.v`), axioms: none
- `c64_errors` (`PropEnv.v`), axioms: none
- `c64_runs` (`PropEnv.v`), axioms: none

### C65 — Nothing is reported or kept that was not received (proved)

`brings` (SpecHist) says what a sentence can add to the memory; one-step lemma over all kinds of calls, induction from the end of the history.

- `c65_pending_was_received` (`PropHist.v`), axioms: none
- `c65_report_was_received` (`PropHist.v`), axioms: none
- `c65_satellites_were_received` (`PropHist.v`), axioms: none

### C66 — Receiving the same incomplete sentence again changes nothing (partial)

Second call computed on the state after the first, by kind of call; C64 for the clock.

Missing or false: Proved for everything but type 24 parts, for which it is false.

- `c66_repeated_partial` (`PropHist.v`), axioms: none
- `c66_repeated_refuted` (`PropHist.v`), axioms: none

### C67 — Texts of sources, qualities and fix kinds identify the value (proved)

Pairs of constructors by case analysis; names by talker and by digit as independent tables (SpecDisplay), tied to sentences through C05, C06, C39 and C41.

- `c67_texts_identify` (`PropDisplay.v`), axioms: none
- `c67_talker_names` (`PropDisplay.v`), axioms: none
- `c67_quality_names` (`PropDisplay.v`), axioms: R4
- `c67_fix_names` (`PropDisplay.v`), axioms: R4

### C68 — Texts of aids to navigation, ship types and cargo types identify the value (partial)

Aid type read from any type 21 payload and looked up in an independent table of texts; pairs of equal texts by complete case analysis.

Missing or false: False for the pairs named; proved that there are no others and that every code has its documented text.

- `c68_ship_and_cargo_texts_partial` (`PropDisplay.v`), axioms: none
- `c68_aid_names` (`PropDisplay.v`), axioms: none
- `c68_aids_alike_partial` (`PropDisplay.v`), axioms: none
- `c68_aids_alike_refuted` (`PropDisplay.v`), axioms: none
- `c68_ship_and_cargo_texts_refuted` (`PropDisplay.v`), axioms: none

### C69 — The position accessors give the transmitted position (proved)

Accessors of the result composed with C32 (AIS) and C39, C40, C42 (GNSS); other message types by case analysis of the dispatcher.

- `c69_ais_position` (`PropDisplay.v`), axioms: R4
- `c69_gnss_position` (`PropDisplay.v`), axioms: R4
- `c69_no_position` (`PropDisplay.v`), axioms: none

### C70 — Whole numbers in AIS reports fit the documented widths (proved)

`reports_from_parts` (PropRange): a property guaranteed by each handler and kept by merging holds of every result in every reachable state; the widths are listed independently (SpecRange).

- `c70_numbers_fit` (`PropRange.v`), axioms: none

### C71 — Texts in AIS reports are clean and of documented length (partial)

As C70, with the range of `pick_string` from C20.

Missing or false: False for names of class B vessels (up to 120 characters); proved for all other texts, and for voyage reports with the documented 20.

- `c71_texts_partial` (`PropRange.v`), axioms: none
- `c71_voyage_name` (`PropRange.v`), axioms: none
- `c71_texts_not_empty` (`PropRange.v`), axioms: none
- `c71_name_length_refuted` (`PropRange.v`), axioms: none

### C72 — AIS values stay in the documented ranges (partial)

As C70; Flocq for the heading; witnesses for the violated ranges.

Missing or false: False at the upper ends (IMO number, heading) and for draught 0; the remaining bounds are proved.

- `c72_imo_partial` (`PropRange.v`), axioms: none
- `c72_documented_ranges_refuted` (`PropRange.v`), axioms: none
- `c72_heading_partial` (`PropDoc.v`), axioms: R4
- `c72_heading_refuted` (`PropDoc.v`), axioms: R4

### C73 — Satellite data and station numbers stay in the documented ranges (partial)

From the block relation of C48/C49 and the numeral relation of C46.

Missing or false: Proved under the condition that the numbers in the sentences are in range; the refuted theorem shows that nothing is checked.

- `c73_satellites_partial` (`PropDoc.v`), axioms: none
- `c73_station_partial` (`PropDoc.v`), axioms: R4
- `c73_documented_ranges_refuted` (`PropDoc.v`), axioms: none

### C74 — Mothership or dimensions, not both (partial)

As C70 with an invariant of the stored parts (all five attributes or none).

Missing or false: False: both are always reported; the exact relation between them is proved.

- `c74_mothership_partial` (`PropDoc.v`), axioms: none
- `c74_mothership_refuted` (`PropDoc.v`), axioms: none

### C75 — Parts of different transmissions are not combined (partial)

Induction over the messages of a transmission (`gsv_wait`) and over the transmissions (`step_out`); for AIS fragments by C94, induction over the transmissions (`PropAssembly.v`).

Missing or false: False after a lost first message or fragment, for all transmissions that follow (c75_lost_first_half_refuted for AIS, c75_lost_first_message_refuted for GSV); proved that complete in-order transmissions are reported right unless the last message (second half) of an earlier one waits, also after lost last messages.

- `c75_in_order_partial` (`PropMix.v`), axioms: none
- `c75_lost_first_message_refuted` (`PropMix.v`), axioms: none
- `c75_lost_first_fragment_refuted` (`PropMix.v`), axioms: none
- `c75_fragments_in_step_partial` (`PropAssembly.v`), axioms: none
- `c75_lost_first_half_refuted` (`PropAssembly.v`), axioms: none

### C76 — Equality of reports (partial)

`Equality.v` models the derived `==` attribute by attribute; one lemma per struct and enum; Flocq for the doubles of AIS reports (finite) and of GNSS reports (canonical form).

Missing or false: Self-equality is false for NaN attributes of GNSS reports (c76_self_refuted); everything else is proved.

- `c76_equal_iff` (`PropEq.v`), axioms: none
- `c76_symmetric` (`PropEq.v`), axioms: none
- `c76_transitive` (`PropEq.v`), axioms: none
- `c76_self` (`PropEq.v`), axioms: none
- `c76_ais_self` (`PropEq.v`), axioms: R4
- `c76_equal_values` (`PropEq.v`), axioms: R4
- `c76_self_refuted` (`PropEq.v`), axioms: none

### C77 — What field errors say (proved)

`SpecError.v` lists the checks of each sentence type in order with their literal texts; a calculus of ordered checks (`complains`) follows the `?` chains of the handlers.

- `c77_gga` (`PropError.v`), axioms: R4
- `c77_rmc` (`PropError.v`), axioms: R4
- `c77_gsa` (`PropError.v`), axioms: R4
- `c77_gll` (`PropError.v`), axioms: R4
- `c77_gsv` (`PropError.v`), axioms: none
- `c77_vdm` (`PropError.v`), axioms: none

### C78 — Which calls fail, and with which error (proved)

The inductive `error_of` of `SpecError.v` lists the situations; `c78_errors` is an equivalence for every state reachable by calls; `c78_accepted` combines it with the classification of panics C08.

- `c78_errors` (`PropError.v`), axioms: R4
- `c78_accepted` (`PropError.v`), axioms: R4

### C79 — The text of an error identifies it (proved)

`ErrorText.v` models to_string with the Debug escaping of strings, parametrised by what depends on the version of the standard library; escapes form a prefix code that never starts with a quote; the kinds differ in the first character of the text (by C78). `SpecErrorText.v` says how each character is shown; `c79_any_checksum_text` proves the whole text for any given checksum and `c79_shown_unique` that the specification determines it.

- `c79_checksum_text` (`PropErrorText.v`), axioms: none
- `c79_text_identifies` (`PropErrorText.v`), axioms: R4
- `c79_any_checksum_text` (`PropErrorText.v`), axioms: none
- `c79_shown_unique` (`PropErrorText.v`), axioms: none

### C80 — Texts of ship types, cargo, class and positioning state belong to the transmitted code (partial)

`SpecDisplay.v` lists ranges of codes with their names; the codes are swept in the kernel and tied to arbitrary payloads.

Missing or false: Codes 80 to 99 are shown as cargo (c80_tanker_refuted); proved for all others.

- `c80_voyage_texts_partial` (`PropTexts.v`), axioms: none
- `c80_class_b_texts_partial` (`PropTexts.v`), axioms: none
- `c80_class_texts` (`PropTexts.v`), axioms: none
- `c80_positioning_texts` (`PropTexts.v`), axioms: none
- `c80_documented_ship_texts` (`PropTexts.v`), axioms: none
- `c80_tanker_refuted` (`PropTexts.v`), axioms: none

### C81 — Equal reports mean equal transmissions (partial)

`SpecSame.v` gives message contents as records with layouts and says which contents are alike. Equality of reports is reduced with C76 to attributes; injectivity of the conversions is proved over the reals for coordinates, speeds and courses and swept in the kernel for the 256 turn codes. `SpecSameStatic.v` and `PropSameStatic.v` do the same for voyage data in one sentence (time of arrival given), aids to navigation and both parts of class B static data in either order; all pairs of the 256 ship codes are swept. `PropSent.v` carries voyage data and aids over to messages in two sentences.

Missing or false: Class B and long range reports drop flags or fields (c81_class_b_refuted, c81_long_range_refuted); the exact relations are c81_class_b_partial and c81_long_range_partial. Voyage and class B static data take tankers and others for cargo ships (c81_voyage_refuted), aids to navigation drop the off-position indicator (c81_aid_refuted); exact relations in c81_voyage_partial, c81_static_partial, c81_aid_partial, and c81_voyage_sent_partial, c81_aid_sent_partial for messages in two sentences.

- `c81_class_a` (`PropSame.v`), axioms: R4
- `c81_base_station` (`PropSame.v`), axioms: R4
- `c81_aircraft` (`PropSame.v`), axioms: R4
- `c81_class_b_partial` (`PropSame.v`), axioms: R4
- `c81_inquiry` (`PropSame.v`), axioms: none
- `c81_binary_addressed` (`PropSame.v`), axioms: none
- `c81_class_b_refuted` (`PropSame.v`), axioms: none
- `c81_long_range_partial` (`PropSame.v`), axioms: R4
- `c81_long_range_refuted` (`PropSame.v`), axioms: none
- `c81_voyage_partial` (`PropSameStatic.v`), axioms: none
- `c81_aid_partial` (`PropSameStatic.v`), axioms: R4
- `c81_static_partial` (`PropSameStatic.v`), axioms: none
- `c81_voyage_refuted` (`PropSameStatic.v`), axioms: none
- `c81_aid_refuted` (`PropSameStatic.v`), axioms: none
- `c81_voyage_sent_partial` (`PropSent.v`), axioms: none
- `c81_aid_sent_partial` (`PropSent.v`), axioms: R4

### C82 — Which calls wait, and what the others report (proved)

`SpecWait.v` lists the five ways to wait over `fragment`, `gsv_part`, `completes` and the stored entries. Proved from the case analysis of calls (`parse_call`, `vdm_kind`), with decidability of 'is a half' and 'is a whole message' by reading the numbers.

- `c82_incomplete` (`PropWait.v`), axioms: none
- `c82_kind` (`PropWait.v`), axioms: none
- `c82_reports` (`PropWait.v`), axioms: R4

### C83 — Line ends and unread fields do not matter (partial)

`SpecLine.v`: `data_fields` lists the data fields, `append_last` appends a text to the last field. `c83_data_fields` by rewriting each handler with equal fields; `c83_checksum_refuted` from C61; `c83_number_end_refuted` from C39-C41 because texts of numbers have no character below '+'; mode from C42/C43. The second example changes each listed field of a full sentence and gets another result, so the table has no idle entry.

Missing or false: False for sentences with checksum (`c83_checksum_refuted`: every one becomes CorruptedSentence) and for those ending in a number or mode (`c83_number_end_refuted`, `c83_gll_mode_refuted`, `c83_vtg_mode_refuted`). What holds: `c83_data_fields`, `c83_unread_end_partial`, `c83_ais_end_partial`.

- `c83_data_fields` (`PropLine.v`), axioms: none
- `c83_checksum_refuted` (`PropLine.v`), axioms: none
- `c83_unread_end_partial` (`PropLine.v`), axioms: none
- `c83_ais_end_partial` (`PropLine.v`), axioms: none
- `c83_number_end_refuted` (`PropLine.v`), axioms: R4
- `c83_gll_mode_refuted` (`PropLine.v`), axioms: R4
- `c83_vtg_mode_refuted` (`PropLine.v`), axioms: R4

### C84 — The log announces what is unusable, and nothing else (partial)

`Log.v` models the lines in order, up to a panic. `SpecLog.v` gives the warnings by cases over `numbered`, `completes` and `bits_at`. `c84_warnings` and `c84_nothing_else` together determine the log of every call.

Missing or false: Part of the property is false: `c84_false_alarm_refuted` (all ship codes without cargo digit) and `c84_silent_loss_refuted` (every repeated half). What holds: `c84_warnings`, `c84_nothing_else`, `c84_unusable_announced`.

- `c84_warnings` (`PropLog.v`), axioms: none
- `c84_nothing_else` (`PropLog.v`), axioms: none
- `c84_unusable_announced` (`PropLog.v`), axioms: none
- `c84_false_alarm_refuted` (`PropLog.v`), axioms: none
- `c84_silent_loss_refuted` (`PropLog.v`), axioms: none

### C85 — Lost and inserted characters and lost ends are detected (partial)

`wrong_checksum` with the exclusive or as a sum (`low`): a lost or inserted character changes it by that character. `c85_cut_refuted` holds for every class A report: the received text is a sentence with the first k payload characters, and the position windows are past its end. `c85_cut_gnss_partial` and `c85_cut_ais_partial` (`PropCut.v`): the fields of a cut text are those of the whole, the last one cut, so C109 and C108 apply to the data in front of the cut.

Missing or false: Part of the property is false: `c85_cut_refuted`, `c85_gnss_cut_refuted` (cuts before the checksum). What holds: `c85_lost_character`, `c85_inserted_character`, `c85_cut_in_checksum`, and that data in front of a cut are reported right (`c85_cut_gnss_partial`, `c85_cut_ais_partial`); characters whose code is a multiple of 256 are excluded, they do not contribute to the checksum.

- `c85_lost_character` (`PropDamage.v`), axioms: none
- `c85_inserted_character` (`PropDamage.v`), axioms: none
- `c85_cut_in_checksum` (`PropDamage.v`), axioms: none
- `c85_cut_refuted` (`PropDamage.v`), axioms: none
- `c85_gnss_cut_refuted` (`PropDamage.v`), axioms: none
- `c85_cut_gnss_partial` (`PropCut.v`), axioms: R4
- `c85_cut_ais_partial` (`PropCut.v`), axioms: none

### C86 — Sentences that ran together are rejected (partial)

The text up to the last '*' contributes the sum of the first sentence, its own digits, the separator and the start character; the 256 possible sums are checked by computation and the result holds for all texts (`unnoticed_spec`).

Missing or false: False for the listed checksums (`c86_run_together_refuted`, for every AIS sentence with one of them); `c86_run_together_partial` proves that all other pairs are rejected.

- `c86_run_together_partial` (`PropDamage.v`), axioms: none
- `c86_run_together_refuted` (`PropDamage.v`), axioms: none

### C87 — Streams that follow the standards need bounded memory (proved)

Pending texts come from received sentences (C65), so their keys are in a finite list. Two halves of one AIS message are never both kept (C13), and a group of c satellite messages keeps at most c - 1 (`open_groups`, an invariant of all reachable states). For streams that do not conform there is no bound (C51).

- `c87_texts` (`PropMemory.v`), axioms: none
- `c87_vessels` (`PropMemory.v`), axioms: none

### C88 — Numbers keep their order (proved)

AIS: the values are nearest doubles (C32, C34), their errors are far below half the distance of two raw values, and rounding is monotone. Text: monotone rounding in each step of degrees + minutes / 60, minutes below 60.

- `c88_positions` (`PropOrder.v`), axioms: R4
- `c88_motion` (`PropOrder.v`), axioms: R4
- `c88_text_positions` (`PropOrder.v`), axioms: R4
- `c88_decimals` (`PropOrder.v`), axioms: R4

### C89 — How the contents of a GNSS sentence are written does not matter (proved)

Field by field from the characterisations C39 to C43 (result Ok r if and only if r is the report of the fields); numbers with equal value read as the same double by uniqueness of the nearest double.

- `c89_writing` (`PropWriting.v`), axioms: R4

### C90 — No received sentence is used for two reports (proved)

Per call from the step functions of fragments, groups and static parts (each pull removes a present entry, a push adds at most one); induction over the history. That the count exists for every history uses excluded middle.

- `c90_call` (`PropUse.v`), axioms: none
- `c90_no_sentence_twice` (`PropUse.v`), axioms: none
- `c90_defined` (`PropUse.v`), axioms: K

### C91 — Who sent a sentence shows in source, station and own_vessel only (proved)

Simulation: a relation between the two memories (fragments under the renamed formatter, groups under the renamed talker with equal fields, vessels equal but for own_vessel) is kept by every pair of calls, by cases over all handlers.

- `c91_resent` (`PropTalker.v`), axioms: none
- `c91_talker` (`PropTalker.v`), axioms: none

### C92 — The work per received sentence is proportional to its length (partial)

Step counts are defined beside the handlers (`Cost.v`). Amortised bound with the size of the stored texts as potential: a GSV sentence that completes a group pays for reading the stored parts by removing them. Induction over the history. The refutation is one 19-character sentence that costs 4294967294 rounds in every state. For the calls that use no memory the count is exact: damaged sentences (c92_damaged), the five kinds of GNSS sentences without memory (c92_fields), whole AIS messages (c92_message); no sentence costs less than its checksum (c92_at_least).

Missing or false: False as stated: one GSV sentence of 19 characters makes the loop of `handle` run 4294967294 rounds in any state (c92_proportional_refuted; c92_group for every announced number). Proved is what remains: steps are at most 9 times the characters received plus twice the announced group sizes (c92_call, c92_total), and every call ends (c92_ends).

- `c92_call` (`PropCost.v`), axioms: none
- `c92_total` (`PropCost.v`), axioms: none
- `c92_ends` (`PropCost.v`), axioms: none
- `c92_group` (`PropCost.v`), axioms: none
- `c92_proportional_refuted` (`PropCost.v`), axioms: none
- `c92_damaged` (`PropCost2.v`), axioms: none
- `c92_at_least` (`PropCost2.v`), axioms: none
- `c92_fields` (`PropCost2.v`), axioms: none
- `c92_message` (`PropCost2.v`), axioms: none

### C93 — A sender without data is reported as having none (partial)

`Default.v` models the `Default` impls. The layouts with reserved values are instances of the layouts of the field theorems of each type; those give the fields, which are compared with the default one by one. `c93_whole_defaults` and `c93_remaining_defaults` state the complete defaults; `c93_class` goes through the reports there can be (C100).

Missing or false: False for types 5, 21, 27 and 24 part B (c93_voyage_refuted, c93_aid_refuted, c93_long_range_refuted, c93_part_b_refuted, each for all senders and states). Proved in full for types 1-3, 18, 9, 4 with a valid time, and 24 part A; for 5 and 21 the fields that do agree.

- `c93_class_a` (`PropDefault.v`), axioms: none
- `c93_class_b` (`PropDefault.v`), axioms: none
- `c93_aircraft` (`PropDefault.v`), axioms: none
- `c93_base_station` (`PropDefault.v`), axioms: none
- `c93_part_a` (`PropDefault.v`), axioms: none
- `c93_voyage_partial` (`PropDefault.v`), axioms: none
- `c93_voyage_refuted` (`PropDefault.v`), axioms: none
- `c93_aid_partial` (`PropDefault.v`), axioms: none
- `c93_aid_refuted` (`PropDefault.v`), axioms: none
- `c93_long_range_refuted` (`PropDefault.v`), axioms: none
- `c93_part_b_refuted` (`PropDefault.v`), axioms: none
- `c93_enumerations` (`PropDefault.v`), axioms: none
- `c93_class` (`PropDefault.v`), axioms: R4
- `c93_whole_defaults` (`PropDefault.v`), axioms: none
- `c93_remaining_defaults` (`PropDefault.v`), axioms: none

### C94 — What becomes of lost, repeated and reordered fragments (proved)

`SpecAssembly.v` describes the assembly without a parser: a relation between a history, what is left of it and the waiting halves. Simulation between the parser fed with fragments and a parser fed with whole messages (`assembly_step`), over the frame lemmas of C11 to C14. `c94_every_history` shows that the relation covers every history, so the theorem has no exceptions. `c94_as_one_sentence` is the statement for one call in any state.

- `c94_assembly` (`PropAssembly.v`), axioms: none
- `c94_every_history` (`PropAssembly.v`), axioms: none
- `c94_as_one_sentence` (`PropSent.v`), axioms: none

### C95 — What becomes of lost, repeated and reordered satellite messages (proved)

`SpecGroups.v` describes collecting without a parser: a relation between a history, its answers and the waiting messages. Invariant of all calls: the texts kept are exactly those of the waiting messages (`collect_step`). `c95_every_history` shows that the relation covers every history.

- `c95_groups` (`PropGroups.v`), axioms: none
- `c95_every_history` (`PropGroups.v`), axioms: none

### C96 — What becomes of the parts of class B static reports (proved)

`SpecPairs.v` describes the pairing without a parser, over the whole messages of C94; `SpecMerge.v` says attribute by attribute what a joint report contains and determines it. Simulation over the assembled history; merging cannot fail in reachable states. `c96_every_history` shows that the relation covers every history.

- `c96_pairs` (`PropPairs.v`), axioms: none
- `c96_every_history` (`PropPairs.v`), axioms: none

### C97 — A parser keeps exactly what still waits (proved)

`SpecWhole.v` says which entry each waiting item makes. The three relations of C94 to C96 run side by side; a further invariant (`kept_possible`) says that no entry has any other form of key, and equality of parsers follows from equality of their entries (`stored_ext`). `c97_every_history` shows that the hypotheses hold for some description of every history; `c97_same_example` compares two different histories.

- `c97_memory` (`PropWhole.v`), axioms: none
- `c97_every_history` (`PropWhole.v`), axioms: none
- `c97_same_future` (`PropWhole.v`), axioms: none

### C98 — Handlers called directly do what parse_sentence does (proved)

`SpecDirect.v` lists the public handlers and says when two bit vectors agree after the type and when two lists of fields agree. `after_handler` shows that every read of every AIS handler starts at bit 6 or later, `handler_fields` that the GNSS handlers read fields from number 1 on only. The sentences of the existence theorems are written out by `encode_sentence` and by joining the fields. `PropExact.v` repeats the facts on collecting satellite groups for any heading; keys of AIS halves have five parts, those of satellite texts three.

- `c98_ais` (`PropDirect.v`), axioms: none
- `c98_ais_sentence` (`PropDirect.v`), axioms: none
- `c98_gnss` (`PropDirect.v`), axioms: none
- `c98_gnss_sentence` (`PropDirect.v`), axioms: none
- `c98_satellites` (`PropDirect.v`), axioms: none
- `c98_constructors` (`PropDirect.v`), axioms: none
- `c98_satellites_any` (`PropExact.v`), axioms: none
- `c98_satellites_else` (`PropExact.v`), axioms: none
- `c98_satellites_apart` (`PropExact.v`), axioms: none

### C99 — Which parsers there can be (proved)

`SpecStates.v` says what an entry may hold. One direction: invariants of the calls (`call_texts`, `call_static`), C94 for the missing other half, the open groups of C75. Other direction: induction on the number of entries; `entry_sentence` writes for any entry a sentence that puts it back. A static part is stated as what a sentence of a simple encoder says (C96), in any build and at any time. States after a panic count as reached (a caller can catch the panic). `c99_shortest`: a call adds at most one entry, and the history constructed has one sentence per entry.

- `c99_states` (`PropStates.v`), axioms: none
- `c99_builds` (`PropStates.v`), axioms: none
- `c99_shortest` (`PropReach.v`), axioms: none

### C100 — Every call, completely (proved)

`SpecComplete.v` puts the parts of the description together: C08 (panics), C78 (errors), C82 (waiting), C39-C43 (fields of GNSS sentences), C72/C95 (groups), `ais_report` (new: all fields of all AIS reports, for payloads of any bits) and `part_says`/`merged` (static data). `c100_answer` is the equivalence of answer and description, `c100_one_answer` that exactly one answer fits, `c100_memory` the same for each entry that is kept (for any parser, reachable or not), `c100_session` extends both to histories. `ais_message` (CompleteFacts.v) proves the reports field by field from the values read by `pick_u64`/`pick_i64`/`pick_string`. Assumed as in C39-C43: the clock shows a date chrono can hold, not before year 0.

- `c100_answer` (`PropComplete.v`), axioms: R4
- `c100_one_answer` (`PropComplete.v`), axioms: R4
- `c100_memory` (`PropComplete.v`), axioms: none
- `c100_session` (`PropComplete.v`), axioms: R4

### C101 — Equal GNSS reports mean equal data (proved)

`SpecSharp.v` lists the data of each sentence and says when two sentences have the same; numbers are reals (`stands_for`, `angle_written`), not doubles. `c101_equal_data` is the equivalence, by the field theorems C39-C43 and C76. The core is `clear_same`: numbers of fifteen digits lie further apart than twice the rounding error of the nearest double (relative error 2^-53, Flocq); for angles three roundings together are below 1e-12 (C39), and the steps of nine decimals of a minute are 1.6e-11. `c101_plain` and `c101_plain_angle` show that ordinary fields meet the condition, `c101_sixteen_digits` that the bound is sharp. It is the converse of C89.

- `c101_equal_data` (`PropSharp.v`), axioms: R4
- `c101_plain` (`PropSharp.v`), axioms: R2
- `c101_plain_angle` (`PropSharp.v`), axioms: R2
- `c101_sixteen_digits` (`PropSharp.v`), axioms: R2

### C102 — The same fact in sentences of different kinds (partial)

`c102_positions`, `c102_times`, `c102_decimals` and `c102_ais_positions` are the parts that hold, by the field theorems C39-C47, C55, C56 and C32. `SpecFact.v` lists the coordinates, speed and course of AIS reports. `c102_ais_gnss_partial`: the same position from AIS and from a GNSS sentence differs by less than 2e-12 degrees, and different positions (minutes of at most nine decimals) keep their order. `c102_motion_partial`: there is a list of numbers of tenths, 361 of the 1023 speeds and 1239 of the 3600 courses, such that the AIS and the GNSS double are equal exactly if the number is not in the list.

Missing or false: AIS and GNSS values of the same fact are not always equal doubles, since they are computed in different steps: `c102_ais_gnss_refuted` (latitude 48 degrees 2.7881 minutes) and `c102_motion_refuted` (speed and course 0.3). They are within 2e-12 of each other (`c102_ais_gnss_partial`, `c102_motion_partial`). Within GNSS sentences and within AIS messages the property holds.

- `c102_positions` (`PropFact.v`), axioms: R4
- `c102_times` (`PropFact.v`), axioms: R4
- `c102_decimals` (`PropFact.v`), axioms: R4
- `c102_ais_positions` (`PropFact.v`), axioms: R4
- `c102_ais_gnss_partial` (`PropFact.v`), axioms: R4
- `c102_ais_gnss_refuted` (`PropFact.v`), axioms: R4
- `c102_motion_partial` (`PropFact.v`), axioms: R4
- `c102_motion_refuted` (`PropFact.v`), axioms: none

### C103 — What the README lists is supported (partial)

`c103_supported_partial` by the complete list of errors (C78): the type name of a sentence is unique, and the listed names and message types are none of those called unimplemented or unsupported. `c103_systems` by the routing theorem of C05. `c103_readme_example` runs the three sentences of the README's sample program and checks every value it prints.

Missing or false: Type 19 is listed but always called unsupported: `c103_type19_refuted`. The talkers GB and GQ of the current NMEA standard do not name BeiDou and QZSS: `c103_standard_talkers_refuted` (the code's table of talkers has BD and QZ). Everything else listed is supported (`c103_supported_partial`, `c103_systems`).

- `c103_supported_partial` (`PropDocs.v`), axioms: R4
- `c103_type19_refuted` (`PropDocs.v`), axioms: R4
- `c103_systems` (`PropDocs.v`), axioms: none
- `c103_standard_talkers_refuted` (`PropDocs.v`), axioms: none

### C104 — Coordinates are read by the regular expressions in the source (proved)

`Regex.v` has a parser for the syntax of the two pattern texts and a backtracking search that yields all ways to match, in order. `c104_search`: for every expression whose repeated parts are not empty, the search finds captures exactly if some prefix belongs to the language (`in_language`, an inductive definition), and only such captures. The hand-written matcher of the model (`match_degrees`) is proved to give the groups of the compiled pattern for every text, so the theorems of C44 carry over: `c104_coordinates`, `c104_refused`.

- `c104_search` (`PropRegex.v`), axioms: none
- `c104_coordinates` (`PropRegex.v`), axioms: R4
- `c104_refused` (`PropRegex.v`), axioms: none

### C105 — A sentence is the same as text and as UTF-8 bytes (partial)

`Utf8.v` models the start of `parse_sentence` on bytes with the byte offsets, `find`, `rfind` and boundary checks of the source. `c105_encoding`: the encoding maps texts of scalar values onto the well-formed byte sequences of the Unicode standard (`valid_utf8`), with a left inverse. `c105_slices`: a byte slice is the encoding of the character slice and panics for the same offsets. `c105_same_call`: the call on the bytes and the call of the model on characters give the same outcome and parser. `c105_checksum_partial`: for ASCII the two checksums agree. `c105_checksum_refuted`: with one Latin-1 character outside ASCII a sentence that carries the checksum of its bytes is rejected as corrupted.

Missing or false: the checksum part holds for ASCII text only: src/lib.rs:178-180 takes the low eight bits of each character (`c as u8`) instead of the bytes, so a sentence with one character U+0080..U+00FF and the correct checksum of its bytes is rejected (c105_checksum_refuted)

- `c105_encoding` (`PropUtf8.v`), axioms: none
- `c105_slices` (`PropUtf8.v`), axioms: none
- `c105_same_call` (`PropUtf8.v`), axioms: none
- `c105_checksum_partial` (`PropUtf8.v`), axioms: none
- `c105_checksum_refuted` (`PropUtf8.v`), axioms: none

### C106 — Which parsers a parser can become (proved)

`c106_from_to`: an equivalence. One direction is the invariance of stray places under every call. For the other, each half is completed by an empty other half, each satellite group by its missing messages (c50), each static part by itself, by induction on the number of entries; then the entries of the second parser are sent one by one, the stray ones first, with the sentences that C99 constructs. `c106_like_new` is the case of a new parser.

- `c106_from_to` (`PropReach.v`), axioms: none
- `c106_like_new` (`PropReach.v`), axioms: none

### C107 — A time stamp is the moment that was meant (partial)

`SpecMoment.v` counts days and seconds; `c107_calendar` shows that the count goes up by one from each date to the next (leap years by the Gregorian rule), so it is not taken on trust. `c107_days_off` and `c107_centuries_off` give the error exactly, for all moments and clocks, from C55 and C56; `c107_same_day_partial` and `c107_same_century_partial` say exactly when the time stamp is right; `c107_midnight_refuted` and `c107_new_century_refuted` are the failures, for every sentence sent on the day (year) before.

Missing or false: False as stated: the date (century) is taken from the receiver's clock at the moment of the call, not the one nearest to it (c107_midnight_refuted, c107_new_century_refuted). Exactly when it holds is proved (c107_same_day_partial, c107_same_century_partial).

- `c107_calendar` (`PropMoment.v`), axioms: none
- `c107_days_off` (`PropMoment.v`), axioms: R4
- `c107_same_day_partial` (`PropMoment.v`), axioms: R4
- `c107_midnight_refuted` (`PropMoment.v`), axioms: R4
- `c107_centuries_off` (`PropMoment.v`), axioms: R4
- `c107_same_century_partial` (`PropMoment.v`), axioms: R4
- `c107_new_century_refuted` (`PropMoment.v`), axioms: R4

### C108 — Every datum depends on its own bits only (partial)

`SpecLocal.v` has the table of data with their bits from the standard. `c108_own_bits_partial`: equal bits give equal data, from the description of reports in C100. `c108_all_data` checks that the table leaves out no field of a report. `c108_one_bit_partial`: the places of the data in the table do not overlap (computed), so one bit belongs to at most one. `c108_eta_refuted` and `c108_displaced_refuted`: for every message of types 5, 18, 21 and 27 a wrong bit elsewhere changes a datum whose own bits are right. `PropSpot.v`: payloads with wrong characters in one stretch (`c108_wrong_characters_partial`) or with only a common start (`c108_common_start_partial`); static reports of type 24 made of two parts (`made_of` in `SpecSpot.v`): `c108_static_bits_partial` for all data of part B, `c108_static_name_partial` for the name, which depends on 600 bits more than its own (`c108_static_name_refuted`).

Missing or false: False for the ETA (5), six flags (18), off-position (21) and position, speed, course, latency (27): c108_eta_refuted, c108_displaced_refuted. Also false for the name of type 24, read beyond its 120 bits (c108_static_name_refuted). Proved for every other datum of these types (c108_own_bits_partial, c108_one_bit_partial) and of type 24 (c108_static_bits_partial); wrong and lost characters: c108_wrong_characters_partial, c108_common_start_partial.

- `c108_own_bits_partial` (`PropLocal.v`), axioms: none
- `c108_all_data` (`PropLocal.v`), axioms: none
- `c108_one_bit_partial` (`PropLocal.v`), axioms: none
- `c108_eta_refuted` (`PropLocal.v`), axioms: none
- `c108_displaced_refuted` (`PropLocal.v`), axioms: none
- `c108_common_start_partial` (`PropSpot.v`), axioms: none
- `c108_wrong_characters_partial` (`PropSpot.v`), axioms: none
- `c108_static_bits_partial` (`PropSpot.v`), axioms: R4
- `c108_static_name_partial` (`PropSpot.v`), axioms: R4
- `c108_static_name_refuted` (`PropSpot.v`), axioms: none

### C109 — Every datum of a GNSS report depends on its own fields only (proved)

`SpecColumns.v` has the table of data with their fields. `c109_own_fields`: by the field theorems C39-C43, each of whose relations between field and value is shown to be a function. `c109_all_data` checks that the table leaves out no attribute of a report but the source. `c109_one_field`: the fields of the data do not overlap (computed).

- `c109_own_fields` (`PropColumns.v`), axioms: R4
- `c109_all_data` (`PropColumns.v`), axioms: none
- `c109_one_field` (`PropColumns.v`), axioms: R4

### C110 — North and south, east and west, port and starboard are mirror images (proved)

`SpecMirror.v` lists the fields that name a side and the bits of the coordinates. `c110_other_side`: by C39, C40 and C42 the report of the other sentence is constructed from that of the first. `c110_other_hemisphere`, `c110_other_turn`: by the table of reports of C100; rounding and division commute with the change of sign (shown on the definitions of SpecFloat).

- `c110_other_side` (`PropMirror.v`), axioms: R4
- `c110_other_hemisphere` (`PropMirror.v`), axioms: none
- `c110_other_turn` (`PropMirror.v`), axioms: none

### C111 — What a receiver writes is read back (proved)

`SpecSender.v` is a writer of sentences: fixed-width digits, signs, hemisphere letters, checksum, pages of four satellites; and says what it means to get a number back (the double times the unit is less than 1/2 away). `c111_gga`, `c111_rmc`, `c111_gll`, `c111_vtg`, `c111_gsa`: the values of the written fields are constructed and the reports follow from C39-C43; the error of a coordinate is at most 1e-12 degrees (C44), that of a number of 15 digits less than 2/9 of the last digit. `c111_gsv`: by C48. `c111_one_number`: a double gives back one number only. `c111_sixteen_digits_too_many`, `c111_simulator`: the limits. `c111_journal`: induction over a list of anything the receiver tells, from any talkers (`SpecJournal.v`); `c111_journal_among_ais`: the same with any AIS sentences in between, by C14.

- `c111_gga` (`PropSender.v`), axioms: R4
- `c111_rmc` (`PropSender.v`), axioms: R4
- `c111_gll` (`PropSender.v`), axioms: R4
- `c111_vtg` (`PropSender.v`), axioms: R4
- `c111_gsa` (`PropSender.v`), axioms: R4
- `c111_one_number` (`PropSender.v`), axioms: R2
- `c111_simulator` (`PropSender.v`), axioms: R4
- `c111_sixteen_digits_too_many` (`PropSender.v`), axioms: R2
- `c111_gsv` (`PropSenderGsv.v`), axioms: none
- `c111_journal` (`PropJournal.v`), axioms: R4
- `c111_journal_among_ais` (`PropJournal.v`), axioms: R4

### C112 — Time stamps are as far apart as the moments meant (partial)

Moments are counted in seconds by `SpecMoment.v` (C107). `c112_time_between_partial`: for GGA and GLL the times between are equal exactly if the receiver's date is equally many days off for both. `c112_midnight_refuted`: sent on both sides of midnight and received after it, the later sentence has the earlier stamp. `c112_fractions_refuted`: sentences of one second have one stamp. `c112_order_of_dates_partial`: RMC stamps are in the order of the moments if these are of one century and read in one century, and exactly as far apart if it is the same. `c112_new_century_refuted`: otherwise the order can turn. `c112_base_station`: type 4 stamps are the moments sent. `c112_comparison`: the comparison of date-times modelled for `now <= eta` is that of moments and nanoseconds.

Missing or false: False of the code when sentences sent on both sides of midnight (GGA, GLL) or of a change of century (RMC) are received after it (the order turns), and within one second (fractions are dropped). What holds is proved: equally many days off (exactly then), one century, and base station reports without condition.

- `c112_time_between_partial` (`PropStamps.v`), axioms: R4
- `c112_midnight_refuted` (`PropStamps.v`), axioms: R4
- `c112_fractions_refuted` (`PropStamps.v`), axioms: R4
- `c112_comparison` (`PropStamps.v`), axioms: none
- `c112_order_of_dates_partial` (`PropStamps.v`), axioms: R4
- `c112_new_century_refuted` (`PropStamps.v`), axioms: R4
- `c112_base_station` (`PropStamps.v`), axioms: none

### C113 — Which damage the checksum notices (proved)

`SpecBurst.v` has the bits on the line, the number of wrong bits and bursts. `c113_parity`: a bit of an exclusive or is the parity of that bit, so the two checksums differ exactly if some bit has an odd number of errors; otherwise the received text is the damaged text with its own checksum. `c113_odd`: the total is the sum over the eight bits. `c113_burst`: within eight consecutive bits each bit of a character occurs once. `c113_reordered`: exclusive or does not depend on the order.

- `c113_parity` (`PropBurst.v`), axioms: none
- `c113_odd` (`PropBurst.v`), axioms: none
- `c113_burst` (`PropBurst.v`), axioms: none
- `c113_reordered` (`PropBurst.v`), axioms: none

### C114 — What transponders send is read back (proved)

`SpecTransponder.v` has meant values, their bits and what must come back, without any function of the parser. `c114_report`: the layout theorems of C21, C22 and C24 to C28 give each datum from its code; lemmas show that each code stands for the value meant (`gives` is C16's correct rounding). `c114_log`: induction; such a report does not change what the next one gives. `c114_bridge`: with C111's journal theorem and C14's independence of GNSS and AIS calls. `SpecVoyage.v` has the reports of two sentences; `c114_static` applies the theorems of C23 and C29, `c114_ship_log` and `c114_ship_bridge` are for logs of all kinds. `c114_fleet`: each report touches only its own entries of the memory, so C14's independence of streams applies; `c114_noise` is the same with any number of damaged and unsupported sentences between, which touch none; the state at the end is the one at the start. Nine concrete sentences, computed independently, are the ones the specification writes.

- `c114_report` (`PropTransponder.v`), axioms: R4
- `c114_log` (`PropTransponder.v`), axioms: R4
- `c114_bridge` (`PropTransponder.v`), axioms: R4
- `c114_static` (`PropVoyage.v`), axioms: R4
- `c114_ship_log` (`PropVoyage.v`), axioms: R4
- `c114_ship_bridge` (`PropVoyage.v`), axioms: R4
- `c114_noise` (`PropFleet.v`), axioms: R4
- `c114_fleet` (`PropFleet.v`), axioms: R4

